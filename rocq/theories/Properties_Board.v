(** Property theorems C23: boards (board.py); C34 for a new board. *)
From Verif Require Import PyBase PyNum PyStr Sexpr S_Leaf S_Tree S_Fix M_Common S_Common M_Fp M_Gr S_Gr M_Zone S_Zone M_Footprint S_Footprint M_Dim S_Dim M_Brd S_Brd M_Board S_Board
  L_Lex L_Num L_Seq L_Tac L_Fp L_Footprint L_Board Properties_Common Properties_Fp Properties_Sym Properties_Gr Properties_Zone Properties_Footprint Properties_Dim Properties_Brd.

Definition ex_bitems : list BdItem :=
  [BdItem_GrText (mkGrText (VStr $"a ""(b)"" \ c") true (mkPosition (VInt 1) (fdec 25 (-1)) (VInt 90) false) (VStr $"F.SilkS") ex_effects ex_stamp false (Some ex_cache));
   BdItem_GrLine (mkGrLine (ex_xy (VInt 2) (VInt 3)) (ex_xy (VInt 2) (fdec 1 (-3))) VNone (VStr $"F.Fab") (VInt 1) ex_stamp true);
   BdItem_GrPoly (mkGrPoly (VStr $"F.Fab") ex_pts (fdec 15 (-2)) (VStr $"solid") ex_stamp true);
   BdItem_Image (mkImage (ex_xy (fdec 1234 (-2)) (VInt 5)) (fdec 5 (-1)) [VStr $"iVBORw0KGgo="; VStr $"12"] (VStr $"a-b-c") (VStr $"F.SilkS"))].
Definition ex_board : Board :=
  mkBoard (VInt 20221018) (VStr $"pcbnew") GeneralSettings_default (mkPageSettings (VStr $"A3") VNone VNone true)
    (Some (mkTitleBlock (VStr $"T") VNone (VStr $"1.0") (VStr []) [(VInt 1, VStr $"one"); (VInt 4, VStr $"four (4)")]))
    standard_layers ex_setup [(VStr $"LAYER", VStr $"top ""x"""); (VStr $"k 2", VStr [])] [Net_default; mkNet (VInt 1) (VStr $"Net-(U1-Pad3)")]
    [ex_footprint; ex_footprint <| fd_tedit := VInt 5 |>] ex_bitems [TrItem_Segment ex_segment; TrItem_Via ex_via; TrItem_Arc ex_arc; TrItem_Via Via_default] [ex_zone]
    [ex_dimension] [ex_target] [mkGroup (VStr $"g ""1""") true (VStr $"6fe2b9d8-0001") [VStr $"0012"; VStr $"abc-1"]] VNone.
Theorem C23_Board : forall now, roundtrips Board_to (Board_from now) Board_ok Board_norm Board_eqb.
Proof. exact Board_rt. Qed.
Print Assumptions C23_Board.
Theorem C36_Board : forall now, conforms Board_to (Board_from now) Board_ok Board_norm Board_tree.
Proof. exact Board_fmt. Qed.
Print Assumptions C36_Board.
Theorem C27_Board : forall now, refuses (Board_from now) ["kicad_pcb"%string].
Proof. exact Board_ref. Qed.
Print Assumptions C27_Board.
Theorem C28_Board : forall now, ignores (Board_from now) 0 ["version"%string; "generator"%string; "general"%string; "paper"%string; "title_block"%string; "layers"%string; "setup"%string; "property"%string; "net"%string; "footprint"%string; "gr_text"%string; "gr_text_box"%string; "gr_line"%string; "gr_rect"%string; "gr_circle"%string; "gr_arc"%string; "gr_poly"%string; "gr_curve"%string; "image"%string; "dimension"%string; "target"%string; "segment"%string; "arc"%string; "via"%string; "zone"%string; "group"%string].
Proof. exact Board_ign. Qed.
Print Assumptions C28_Board.
Theorem C30_Board : forall now, last_wins (Board_from now) 0 ["version"%string; "generator"%string; "general"%string; "paper"%string; "title_block"%string; "setup"%string].
Proof. exact Board_win. Qed.
Print Assumptions C30_Board.
Example C23_Board_ex : Board_ok (ex_board) = true.
Proof. vm_compute. reflexivity. Qed.

(** a board with nothing but a version and a generator *)
Example C23_Board_bare_ex : Board_ok (Board_default <| bd_version := VInt 1 |> <| bd_generator := VStr $"x" |>) = true.
Proof. vm_compute. reflexivity. Qed.

(** ** What is lost or refused *)
(** KiCad 5 footprints in a board ([module]) disappear without notice, although Footprint can read them. *)
Theorem C23_module_refuted : forall now before args after,
  Board_from now (node "kicad_pcb" (before ++ node "module" args :: after)) = Board_from now (node "kicad_pcb" (before ++ after)).
Proof. intros. apply C28_Board; [apply Nat.le_0_l|reflexivity]. Qed.
Print Assumptions C23_module_refuted.
(** The default board, without version and generator, cannot be read again. *)
Theorem C23_default_refuted : forall now, write_read Board_to (Board_from now) Board_default 0 true = Err EIndex.
Proof. intros now. vm_compute. reflexivity. Qed.
Print Assumptions C23_default_refuted.
(** A version given as a text of digits comes back as a number. *)
Theorem C23_version_text : forall now o indent newline, bd_version o = VStr $"20211014" -> Board_ok (o <| bd_version := VInt 20211014 |>) = true ->
  write_read Board_to (Board_from now) o indent newline = Ok (Board_norm (o <| bd_version := VInt 20211014 |>)).
Proof. exact Board_version_rt. Qed.
Print Assumptions C23_version_text.
Example C23_version_text_ex : Board_ok (ex_board <| bd_version := VInt 20211014 |>) = true.
Proof. vm_compute. reflexivity. Qed.

(** ** C34: a new board *)
Theorem C34_Board : bd_version Board_create_new = VStr $"20211014" /\ bd_generator Board_create_new = VStr $"kiutils"
  /\ length (bd_layers Board_create_new) = 29 /\ map ne_number (bd_nets Board_create_new) = [VInt 0] /\ bd_footprints Board_create_new = []
  /\ forall now indent newline, exists o', write_read Board_to (Board_from now) Board_create_new indent newline = Ok o'
    /\ Board_eqb (Board_create_new <| bd_version := VInt 20211014 |>) o' = true.
Proof. repeat (split; [reflexivity|]). exact Board_new_rt. Qed.
Print Assumptions C34_Board.
(** the ordinals of the layers differ from each other, and so do the names *)
Definition texts_of (l : list val) : list str := map fmt l.
Fixpoint distinct (l : list str) : bool := match l with [] => true | x :: r => negb (existsb (str_eqb x) r) && distinct r end.
Theorem C34_Board_layers : distinct (texts_of (map lt_ordinal (bd_layers Board_create_new))) = true
  /\ distinct (texts_of (map lt_name (bd_layers Board_create_new))) = true.
Proof. split; vm_compute; reflexivity. Qed.
Print Assumptions C34_Board_layers.
