(** Property theorems C16 and C18: footprints (footprint.py); C34 for a new footprint. *)
From Verif Require Import PyBase PyNum PyStr PyRe Sexpr S_Leaf S_Tree S_Id M_Common S_Common M_Sym S_Sym M_Fp S_Fp M_Gr S_Gr M_Zone S_Zone M_Footprint S_Footprint
  L_Lex L_Num L_Seq L_Tac L_Fp L_Id L_SymId L_Pad L_Footprint Properties_Common Properties_Fp Properties_Sym Properties_Gr Properties_Zone.

(** ** C16 *)
(** What is set is returned; only a line break behind [nickname:entry] gets lost.  The argument
    may also be a number (KiCad 5 wrote some names without quotes). *)
Theorem C16_set_get : forall v o, Footprint_libId (Footprint_set_libId v o) = fmt v <-> forall n e, ~ nick_form (fmt v) n e nl.
Proof. exact fp_set_get. Qed.
Print Assumptions C16_set_get.
Theorem C16_oneline : forall s o, oneline s = true -> Footprint_libId (Footprint_set_libId (VStr s) o) = s.
Proof. exact fp_oneline. Qed.
Print Assumptions C16_oneline.
Example C16_oneline_ex : oneline $"Conn:a:b" = true /\ oneline $"SOT-23" = true /\ oneline $":x:" = true /\ oneline [] = true.
Proof. repeat split. Qed.
Theorem C16_lossy : forall v n e o, nick_form (fmt v) n e nl -> Footprint_libId (Footprint_set_libId v o) = n ++ $":" ++ e.
Proof. exact fp_set_lossy. Qed.
Print Assumptions C16_lossy.
Example C16_lossy_ex : nick_form (fmt (VStr ($"a:b" ++ nl))) $"a" $"b" nl.
Proof. repeat split; try discriminate. now right. Qed.
(** How it is taken apart; nothing else of the footprint changes. *)
Theorem C16_nickname : forall v n e t o, nick_form (fmt v) n e t ->
  Footprint_set_libId v o = o <| fd_libraryNickname := VStr n |> <| fd_entryName := VStr e |>.
Proof. exact fp_set_nick. Qed.
Print Assumptions C16_nickname.
Theorem C16_entry : forall v o, (forall n e t, ~ nick_form (fmt v) n e t) ->
  Footprint_set_libId v o = o <| fd_libraryNickname := VNone |> <| fd_entryName := v |>.
Proof. exact fp_set_entry. Qed.
Print Assumptions C16_entry.
(** A text without colon is such a name, and so is one with a colon at the start or the end only. *)
Theorem C16_entry_names : forall s, oneline s = true -> inner_colon s = false -> forall n e t, ~ nick_form s n e t.
Proof. exact inner_colon_no. Qed.
Print Assumptions C16_entry_names.
Example C16_entry_names_ex : oneline $":SOT-23:" = true /\ inner_colon $":SOT-23:" = false.
Proof. split; reflexivity. Qed.
(** The other direction: writing the identifier of one footprint to another copies both parts. *)
Theorem C16_get_set : forall o o1, fp_id_ok (fd_libraryNickname o) (fd_entryName o) = true ->
  Footprint_set_libId (VStr (Footprint_libId o)) o1 = o1 <| fd_libraryNickname := fd_libraryNickname o |> <| fd_entryName := fd_entryName o |>.
Proof. exact fp_get_set. Qed.
Print Assumptions C16_get_set.
(** The two parts are not determined by the identifier: an empty nickname disappears, and a colon
    in the nickname moves to the entry. *)
Theorem C16_parts_refuted :
  (let o := Footprint_default VNone <| fd_libraryNickname := VStr [] |> <| fd_entryName := VStr $"R" |> in
   fd_libraryNickname (Footprint_set_libId (VStr (Footprint_libId o)) o) = VNone)
  /\ (let o := Footprint_default VNone <| fd_libraryNickname := VStr $"a:b" |> <| fd_entryName := VStr $"c" |> in
      fd_entryName (Footprint_set_libId (VStr (Footprint_libId o)) o) = VStr $"b:c").
Proof. split; vm_compute; reflexivity. Qed.
Print Assumptions C16_parts_refuted.

(** ** C18 *)
(** Attributes that say nothing are written as the empty text. *)
Theorem C18_Attributes : roundtrips Attributes_to Attributes_from Attributes_ok1 Attributes_norm Attributes_eqb.
Proof. exact Attributes_rt1. Qed.
Print Assumptions C18_Attributes.
Example C18_Attributes_ex : Attributes_ok1 (mkAttributes (VStr $"smd") false true true false) = true
  /\ Attributes_ok1 (mkAttributes VNone true false false false) = true.
Proof. split; vm_compute; reflexivity. Qed.
Theorem C36_Attributes : conforms Attributes_to Attributes_from Attributes_ok1 Attributes_norm Attributes_tree.
Proof. exact Attributes_fmt1. Qed.
Print Assumptions C36_Attributes.
Theorem C27_Attributes : refuses Attributes_from ["attr"%string].
Proof. exact Attributes_ref. Qed.
Print Assumptions C27_Attributes.
Theorem C18_Attributes_empty : forall o indent newline, Attributes_empty o = true -> Attributes_to o indent newline = Ok [].
Proof. exact Attributes_nothing. Qed.
Print Assumptions C18_Attributes_empty.
Definition ex_attributes : Attributes := mkAttributes (VStr $"through_hole") true true true true.

Definition ex_model : Model := mkModel (VStr $"${KICAD6_3DMODEL_DIR}/a ""b"".wrl") (mkCoordinate (fdec 25 (-1)) (VInt (-3)) (fdec 1 0))
  (mkCoordinate (VInt 1) (VInt 1) (fdec 1 (-1))) (mkCoordinate (VInt 0) (VInt 90) (VInt 0)) true (fdec 5 (-1)).
@prop C18 Model ex_model
Definition ex_drill : DrillDefinition := mkDrillDefinition true (fdec 8 (-1)) (VInt 2) (Some (ex_xy (VInt 1) (fdec 5 (-1)))).
@prop C18 DrillDefinition ex_drill
Example C18_Drill_round_ex : DrillDefinition_ok (mkDrillDefinition false (fdec 8 (-1)) VNone None) = true.
Proof. vm_compute. reflexivity. Qed.
Definition ex_padoptions : PadOptions := mkPadOptions (VStr $"convexhull") (VStr $"circle").
@prop C18 PadOptions ex_padoptions
Definition ex_gr : list PadPrimitive :=
  [PadPrimitive_GrText (mkGrText (VStr $"a ""(b)"" \ c") true (mkPosition (VInt 1) (fdec 25 (-1)) (VInt 90) false) (VStr $"F.SilkS") ex_effects ex_stamp false (Some ex_cache));
   PadPrimitive_GrLine (mkGrLine (ex_xy (VInt 2) (VInt 3)) (ex_xy (VInt 2) (fdec 1 (-3))) VNone (VStr $"F.Fab") (VInt 1) ex_stamp true);
   PadPrimitive_GrPoly (mkGrPoly (VStr $"F.Fab") ex_pts (fdec 15 (-2)) (VStr $"solid") ex_stamp true)].
Definition ex_pad : Pad :=
  mkPad (VStr $"A ""1""") (VStr $"thru_hole") (VStr $"custom") (ex_at (VInt 1) (fdec 25 (-1)) (VInt 90)) true (ex_xy (VInt 1) (VInt 2)) (Some ex_drill)
    [VStr $"*.Cu"; VStr $"F.Mask"; VStr $"F&B.Paste"; VStr $"In1 (x)"] (VStr $"pad_prop_bga") true true (fdec 25 (-2)) (fdec 1 (-1))
    [VStr $"top_left"; VStr $"bottom_right"] (Some (mkNet (VInt 17) (VStr $"Net-(U1-Pad3)"))) ex_stamp (VStr $"fn") (VStr $"bidirectional+no_connect") (VInt 3)
    (fdec 1 (-1)) (fdec 2 (-1)) (fdec 3 (-1)) (fdec 4 (-1)) (VInt 2) (fdec 5 (-1)) (fdec 6 (-1)) (Some ex_padoptions) ex_gr.
@prop C18 Pad ex_pad
(** the same pad with nothing optional, and one with a net but no margins *)
Example C18_Pad_bare_ex : Pad_ok Pad_default = true
  /\ Pad_ok (Pad_default <| pd_net := Some (mkNet (VInt 17) (VStr $"GND")) |>) = true.
Proof. split; vm_compute; reflexivity. Qed.
Definition ex_items : list FpItem :=
  [FpItem_FpText (mkFpText (VStr $"user") (VStr $"a ""(b)"" \ c") (mkPosition (VInt 1) (fdec 25 (-1)) (VInt 90) true) (VStr $"F.SilkS") true true ex_effects ex_stamp (Some ex_cache));
   FpItem_FpCurve (mkFpCurve ex_pts (VStr $"F.Fab") (fdec 15 (-2)) None true ex_stamp);
   FpItem_Image (mkImage (ex_xy (fdec 1234 (-2)) (VInt 5)) (fdec 5 (-1)) [VStr $"iVBORw0KGgo="; VStr $"12"] (VStr $"a-b-c") (VStr $"F.SilkS"))].
Definition ex_footprint : Footprint :=
  mkFootprint (VStr $"Package_SO") (VStr $"SOIC-8 ""x""") (VInt 20211014) (VStr $"pcbnew") true true (VStr $"B.Cu") (VStr $"65fa1b2c") ex_stamp
    (Some (ex_at (VInt 1) (VInt 2) (VInt 180))) (VStr $"d ""(1)""") (VStr $"a b") [(VStr $"Sheetfile", VStr $"x.kicad_sch"); (VStr $"k 2", VStr [])] (VStr $"/1/2")
    (VInt 1) (VInt 2) (fdec 1 (-1)) (fdec 2 (-1)) (fdec 3 (-1)) (fdec 4 (-1)) (VInt 2) (fdec 5 (-1)) (fdec 6 (-1)) ex_attributes
    [VStr $"User.1"] [VStr $"1, 2"; VStr $"3"] ex_items [ex_pad; Pad_default] [ex_zone] [mkGroup (VStr $"g ""1""") true (VStr $"6fe2b9d8-0001") [VStr $"0012"; VStr $"abc-1"]]
    [ex_model; ex_model] VNone.
@prop C18 Footprint ex_footprint
(** In a board the layer is written on the first line; the reader does not care. *)
Theorem C18_Footprint_layer_line : forall now o indent newline b, Footprint_ok o = true ->
  write_read (Footprint_to_layer b) (Footprint_from now) o indent newline = Ok (Footprint_norm o).
Proof. exact Footprint_layer_line. Qed.
Print Assumptions C18_Footprint_layer_line.
(** KiCad 5 spelled the head [module]. *)
Theorem C18_Footprint_module : forall now l, Footprint_from now (node "module" l) = Footprint_from now (node "footprint" l).
Proof. exact Footprint_module. Qed.
Print Assumptions C18_Footprint_module.

(** ** What is refused, lost or corrupted *)
(** A footprint with a dimension cannot be read at all. *)
Theorem C18_Footprint_dimension : forall now h id before args after, exists e,
  Footprint_from now (VList (h :: id :: before ++ node "dimension" args :: after)) = Err e.
Proof. exact Footprint_dimension. Qed.
Print Assumptions C18_Footprint_dimension.
(** An unknown type of footprint is lost. *)
Theorem C18_Attributes_type_refuted : forall t b1 b2 b3 b4 indent newline, wordv t = true ->
  enumb ["through_hole"; "smd"; "board_only"; "exclude_from_pos_files"; "exclude_from_bom"; "allow_missing_courtyard"]%string t = false ->
  write_read Attributes_to Attributes_from (mkAttributes t b1 b2 b3 b4) indent newline = Ok (mkAttributes VNone b1 b2 b3 b4).
Proof. exact Attributes_other. Qed.
Print Assumptions C18_Attributes_type_refuted.
Example C18_Attributes_type_ex : wordv (VStr $"virtual") = true
  /\ enumb ["through_hole"; "smd"; "board_only"; "exclude_from_pos_files"; "exclude_from_bom"; "allow_missing_courtyard"]%string (VStr $"virtual") = false.
Proof. split; vm_compute; reflexivity. Qed.
(** A round drill loses its width ... *)
Theorem C18_Drill_width_refuted : forall o indent newline, dd_oval o = false -> DrillDefinition_ok (o <| dd_width := VNone |>) = true ->
  write_read DrillDefinition_to DrillDefinition_from o indent newline = Ok (DrillDefinition_norm (o <| dd_width := VNone |>)).
Proof. exact Drill_round_width. Qed.
Print Assumptions C18_Drill_width_refuted.
(** ... and its offset comes back a second time, as an expression in the place of the width. *)
Theorem C18_Drill_offset_refuted : forall o p indent newline,
  dd_oval o = false -> numb (dd_diameter o) = true -> dd_offset o = Some p -> pos2_ok p = true ->
  write_read DrillDefinition_to DrillDefinition_from o indent newline
  = Ok (mkDrillDefinition false (nrm (dd_diameter o)) (xy_tree "offset" (Position_norm p)) (Some (Position_norm p))).
Proof. exact Drill_round_offset. Qed.
Print Assumptions C18_Drill_offset_refuted.
Example C18_Drill_offset_ex : numb (fdec 8 (-1)) = true /\ pos2_ok (ex_xy (VInt 1) (fdec 5 (-1))) = true.
Proof. split; vm_compute; reflexivity. Qed.
(** An oval drill without width cannot be read again. *)
Theorem C18_Drill_oval_refuted : forall o indent newline,
  dd_oval o = true -> numb (dd_diameter o) = true -> dd_width o = VNone -> dd_offset o = None ->
  write_read DrillDefinition_to DrillDefinition_from o indent newline = Err EIndex.
Proof. exact Drill_oval_none. Qed.
Print Assumptions C18_Drill_oval_refuted.
(** The number of a pad comes back as text, whatever it was. *)
Theorem C18_Pad_number_refuted : forall o indent newline, Pad_ok (o <| pd_number := VStr (fmt (pd_number o)) |>) = true ->
  write_read Pad_to Pad_from o indent newline = Ok (Pad_norm (o <| pd_number := VStr (fmt (pd_number o)) |>)).
Proof. exact Pad_number_text. Qed.
Print Assumptions C18_Pad_number_refuted.
Example C18_Pad_number_ex : let o := ex_pad <| pd_number := VInt 7 |> in
  Pad_ok o = false /\ Pad_ok (o <| pd_number := VStr (fmt (pd_number o)) |>) = true.
Proof. split; vm_compute; reflexivity. Qed.
(** A shape named locked is taken for the flag as well. *)
Theorem C18_Pad_locked_refuted : let o := ex_pad <| pd_locked := false |> <| pd_shape := VStr $"locked" |> in
  write_read Pad_to Pad_from o 0 false = Ok (o <| pd_locked := true |>).
Proof. vm_compute. reflexivity. Qed.
Print Assumptions C18_Pad_locked_refuted.
(** A footprint without name is called None after reading. *)
Theorem C18_Footprint_name_refuted : forall now o indent newline, fd_libraryNickname o = VNone -> fd_entryName o = VNone ->
  Footprint_ok (o <| fd_entryName := VStr $"None" |>) = true ->
  write_read Footprint_to (Footprint_from now) o indent newline = Ok (Footprint_norm (o <| fd_entryName := VStr $"None" |>)).
Proof. exact Footprint_no_name. Qed.
Print Assumptions C18_Footprint_name_refuted.
Example C18_Footprint_name_ex : Footprint_ok (Footprint_default (VStr $"65fa1b2c") <| fd_entryName := VStr $"None" |>) = true.
Proof. vm_compute. reflexivity. Qed.
(** A time stamp that happens to consist of digits comes back as a number. *)
Theorem C18_Footprint_tedit_refuted : forall now o z indent newline, fd_tedit o = VStr (fmt (VInt z)) -> Footprint_ok (o <| fd_tedit := VInt z |>) = true ->
  write_read Footprint_to (Footprint_from now) o indent newline = Ok (Footprint_norm (o <| fd_tedit := VInt z |>)).
Proof. exact Footprint_tedit_digits. Qed.
Print Assumptions C18_Footprint_tedit_refuted.
Example C18_Footprint_tedit_ex : Footprint_ok (ex_footprint <| fd_tedit := VInt 65432109 |>) = true
  /\ VStr $"65432109" = VStr (fmt (VInt 65432109)) /\ Footprint_eqb (ex_footprint <| fd_tedit := VStr $"65432109" |>) (ex_footprint <| fd_tedit := VInt 65432109 |>) = false.
Proof. repeat split; vm_compute; reflexivity. Qed.

(** ** C34: a new footprint *)
(** [now] is the time stamp in hexadecimal; here it contains a letter. *)
Theorem C34_Footprint : forall now now' s value type reference, wordv now = true -> oneline s = true -> quotableb s = true ->
  txtb value = true -> txtb reference = true -> enumb ["smd"; "through_hole"; "other"]%string type = true ->
  exists o, Footprint_create_new now (VStr s) value type reference = Ok o
    /\ Footprint_libId o = s /\ fd_version o = VStr $"20211014" /\ fx_type (fd_attributes o) = (if type =s "other" then VNone else type)
    /\ length (fd_graphicItems o) = 3 /\ fd_pads o = []
    /\ forall indent newline, exists o', write_read Footprint_to (Footprint_from now') o indent newline = Ok o'
         /\ Footprint_eqb (o <| fd_version := VInt 20211014 |>) o' = true.
Proof. exact Footprint_new_rt. Qed.
Print Assumptions C34_Footprint.
Example C34_Footprint_ex : wordv (VStr $"65fa1b2c") = true /\ oneline $"Conn:A" = true /\ quotableb $"Conn:A" = true /\ txtb (VStr $"R ""1""") = true.
Proof. repeat split; vm_compute; reflexivity. Qed.
Theorem C34_Footprint_type : forall now id value type reference, enumb ["smd"; "through_hole"; "other"]%string type = false ->
  Footprint_create_new now id value type reference = Err EException.
Proof. exact Footprint_type_ref. Qed.
Print Assumptions C34_Footprint_type.
