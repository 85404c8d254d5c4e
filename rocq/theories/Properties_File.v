(** Property theorems C31, C32 and C33: from_file and to_file. *)
From Verif Require Import PyBase PyNum PyStr Sexpr S_Leaf S_Tree M_Common S_Common M_Lib S_Lib M_Sym S_Sym M_Footprint S_Footprint M_Board S_Board M_Schematic S_Schematic M_Wks S_Wks
  M_File S_File L_Lex L_Seq L_Tac L_File Properties_Common Properties_Lib Properties_Fp Properties_Sym Properties_Gr Properties_Footprint Properties_Zone Properties_Dim Properties_Brd Properties_Board Properties_Sch Properties_Schematic Properties_Wks.

(** UTF-8 loses nothing: it can be the codec of the theorems below. *)
Theorem C31_utf8 : faithful utf8.
Proof. exact utf8_faithful. Qed.
Print Assumptions C31_utf8.
Example C31_utf8_ex : encode utf8 [8364; 233; 97]%N = Some [226; 130; 172; 195; 169; 97]%N /\ encode utf8 [55296]%N = None /\ decode utf8 [192; 128]%N = None.
Proof. vm_compute. repeat split. Qed.
(** no files, everything can be opened *)
Definition ex_world : world := mkWorld (fun _ => None) (fun _ => true) (fun _ => true) utf8.
Definition no_unit_file (p : str) (r : world * fres unit) : bool := match r with (w, FOk _) => isfile w p | _ => false end.
Definition loaded {A} (r : fres A) (f : A -> bool) : bool := match r with FOk o => f o | _ => false end.

(** ** LibTable *)
Theorem C31_LibTable : saves_and_loads (fun e => e) LibTable_to_file LibTable_from_file
  (fun o => LibTable_to o 0 true) (fun o => LibTable_ok (o <| lt_filePath := VNone |>)) LibTable_eqb (fun o p => o <| lt_filePath := VStr p |>) (fun o p => LibTable_norm o <| lt_filePath := VStr p |>).
Proof. exact LibTable_file. Qed.
Print Assumptions C31_LibTable.
Example C31_LibTable_ex : let o := (mkLibTable (VStr $"fp_lib_table") [ex_lib true; ex_lib false; Library_default] VNone) <| lt_filePath := VStr $"old" |> in LibTable_ok (o <| lt_filePath := VNone |>) = true
  /\ (let r := LibTable_to_file ex_world o (Some $"a b.x") (Some utf8) in no_unit_file $"a b.x" r && loaded (LibTable_from_file (fst r) None $"a b.x") (fun o' => py_eqb (lt_filePath o') (VStr $"a b.x"))) = true.
Proof. vm_compute. split; reflexivity. Qed.
Theorem C31_LibTable_needs_file : load_needs_file LibTable_from_file.
Proof. exact LibTable_need. Qed.
Print Assumptions C31_LibTable_needs_file.
Theorem C32_LibTable : touches_target LibTable_to_file lt_filePath.
Proof. exact LibTable_touch. Qed.
Print Assumptions C32_LibTable.
Theorem C32_LibTable_refuted : save_destroys (fun e => e) LibTable_to_file (fun o => LibTable_to o 0 true).
Proof. exact LibTable_kill. Qed.
Print Assumptions C32_LibTable_refuted.
Theorem C33_LibTable : remembers_path LibTable_to_file LibTable_from_file lt_filePath.
Proof. exact LibTable_rem. Qed.
Print Assumptions C33_LibTable.

(** ** WorkSheet *)
Theorem C31_WorkSheet : saves_and_loads (fun _ => None) (fun w o f (_ : unit) => WorkSheet_to_file w o f) WorkSheet_from_file
  (fun o => WorkSheet_to o 0 true) (fun o => WorkSheet_ok (o <| wk_filePath := VNone |>)) WorkSheet_eqb (fun o p => o <| wk_filePath := VStr p |>) (fun o p => WorkSheet_norm o <| wk_filePath := VStr p |>).
Proof. exact WorkSheet_file. Qed.
Print Assumptions C31_WorkSheet.
Example C31_WorkSheet_ex : let o := (ex_worksheet) <| wk_filePath := VStr $"old" |> in WorkSheet_ok (o <| wk_filePath := VNone |>) = true
  /\ (let r := WorkSheet_to_file ex_world o (Some $"a b.x") in no_unit_file $"a b.x" r && loaded (WorkSheet_from_file (fst r) None $"a b.x") (fun o' => py_eqb (wk_filePath o') (VStr $"a b.x"))) = true.
Proof. vm_compute. split; reflexivity. Qed.
Theorem C31_WorkSheet_needs_file : load_needs_file WorkSheet_from_file.
Proof. exact WorkSheet_need. Qed.
Print Assumptions C31_WorkSheet_needs_file.
Theorem C32_WorkSheet : touches_target (fun w o f (_ : unit) => WorkSheet_to_file w o f) wk_filePath.
Proof. exact WorkSheet_touch. Qed.
Print Assumptions C32_WorkSheet.
Theorem C32_WorkSheet_refuted : save_destroys (fun _ => None) (fun w o f (_ : unit) => WorkSheet_to_file w o f) (fun o => WorkSheet_to o 0 true).
Proof. exact WorkSheet_kill. Qed.
Print Assumptions C32_WorkSheet_refuted.
Theorem C33_WorkSheet : remembers_path (fun w o f (_ : unit) => WorkSheet_to_file w o f) WorkSheet_from_file wk_filePath.
Proof. exact WorkSheet_rem. Qed.
Print Assumptions C33_WorkSheet.

(** ** Board *)
Theorem C31_Board : forall now, saves_and_loads (fun e => e) Board_to_file (Board_from_file now)
  (fun o => Board_to o 0 true) (fun o => Board_ok (o <| bd_filePath := VNone |>)) Board_eqb (fun o p => o <| bd_filePath := VStr p |>) (fun o p => Board_norm o <| bd_filePath := VStr p |>).
Proof. exact Board_file. Qed.
Print Assumptions C31_Board.
Example C31_Board_ex : let o := (ex_board) <| bd_filePath := VStr $"old" |> in Board_ok (o <| bd_filePath := VNone |>) = true
  /\ (let r := Board_to_file ex_world o (Some $"a b.x") (Some utf8) in no_unit_file $"a b.x" r && loaded (Board_from_file (VStr $"0") (fst r) None $"a b.x") (fun o' => py_eqb (bd_filePath o') (VStr $"a b.x"))) = true.
Proof. vm_compute. split; reflexivity. Qed.
Theorem C31_Board_needs_file : forall now, load_needs_file (Board_from_file now).
Proof. exact Board_need. Qed.
Print Assumptions C31_Board_needs_file.
Theorem C32_Board : touches_target Board_to_file bd_filePath.
Proof. exact Board_touch. Qed.
Print Assumptions C32_Board.
Theorem C32_Board_refuted : save_destroys (fun e => e) Board_to_file (fun o => Board_to o 0 true).
Proof. exact Board_kill. Qed.
Print Assumptions C32_Board_refuted.
Theorem C33_Board : forall now, remembers_path Board_to_file (Board_from_file now) bd_filePath.
Proof. exact Board_rem. Qed.
Print Assumptions C33_Board.

(** ** SymbolLib *)
Theorem C31_SymbolLib : saves_and_loads (fun e => e) SymbolLib_to_file SymbolLib_from_file
  (fun o => SymbolLib_to o 0 true) (fun o => SymbolLib_ok (o <| sj_filePath := VNone |>)) SymbolLib_eqb (fun o p => o <| sj_filePath := VStr p |>) (fun o p => SymbolLib_norm o <| sj_filePath := VStr p |>).
Proof. exact SymbolLib_file. Qed.
Print Assumptions C31_SymbolLib.
Example C31_SymbolLib_ex : let o := (mkSymbolLib (VInt 20211014) (VStr $"kicad_symbol_editor") [ex_symbol; ex_unit 3 []] VNone) <| sj_filePath := VStr $"old" |> in SymbolLib_ok (o <| sj_filePath := VNone |>) = true
  /\ (let r := SymbolLib_to_file ex_world o (Some $"a b.x") (Some utf8) in no_unit_file $"a b.x" r && loaded (SymbolLib_from_file (fst r) None $"a b.x") (fun o' => py_eqb (sj_filePath o') (VStr $"a b.x"))) = true.
Proof. vm_compute. split; reflexivity. Qed.
Theorem C31_SymbolLib_needs_file : load_needs_file SymbolLib_from_file.
Proof. exact SymbolLib_need. Qed.
Print Assumptions C31_SymbolLib_needs_file.
Theorem C32_SymbolLib : touches_target SymbolLib_to_file sj_filePath.
Proof. exact SymbolLib_touch. Qed.
Print Assumptions C32_SymbolLib.
Theorem C32_SymbolLib_refuted : save_destroys (fun e => e) SymbolLib_to_file (fun o => SymbolLib_to o 0 true).
Proof. exact SymbolLib_kill. Qed.
Print Assumptions C32_SymbolLib_refuted.
Theorem C33_SymbolLib : remembers_path SymbolLib_to_file SymbolLib_from_file sj_filePath.
Proof. exact SymbolLib_rem. Qed.
Print Assumptions C33_SymbolLib.

(** ** Schematic *)
Theorem C31_Schematic : saves_and_loads (fun e => e) Schematic_to_file Schematic_from_file
  (fun o => Schematic_to o 0 true) (fun o => Schematic_ok (o <| sc_filePath := VNone |>)) Schematic_eqb (fun o p => o <| sc_filePath := VStr p |>) (fun o p => Schematic_norm o <| sc_filePath := VStr p |>).
Proof. exact Schematic_file. Qed.
Print Assumptions C31_Schematic.
Example C31_Schematic_ex : let o := (ex_schematic) <| sc_filePath := VStr $"old" |> in Schematic_ok (o <| sc_filePath := VNone |>) = true
  /\ (let r := Schematic_to_file ex_world o (Some $"a b.x") (Some utf8) in no_unit_file $"a b.x" r && loaded (Schematic_from_file (fst r) None $"a b.x") (fun o' => py_eqb (sc_filePath o') (VStr $"a b.x"))) = true.
Proof. vm_compute. split; reflexivity. Qed.
Theorem C31_Schematic_needs_file : load_needs_file Schematic_from_file.
Proof. exact Schematic_need. Qed.
Print Assumptions C31_Schematic_needs_file.
Theorem C32_Schematic : touches_target Schematic_to_file sc_filePath.
Proof. exact Schematic_touch. Qed.
Print Assumptions C32_Schematic.
Theorem C32_Schematic_refuted : save_destroys (fun e => e) Schematic_to_file (fun o => Schematic_to o 0 true).
Proof. exact Schematic_kill. Qed.
Print Assumptions C32_Schematic_refuted.
Theorem C33_Schematic : remembers_path Schematic_to_file Schematic_from_file sc_filePath.
Proof. exact Schematic_rem. Qed.
Print Assumptions C33_Schematic.

(** ** DesignRules *)
Theorem C31_DesignRules : saves_and_loads (fun e => e) DesignRules_to_file DesignRules_from_file
  (fun o => DesignRules_to o 0 false) (fun o => DesignRules_ok (o <| dr_filePath := VNone |>)) DesignRules_eqb (fun o p => o <| dr_filePath := VStr p |>) (fun o p => DesignRules_norm o <| dr_filePath := VStr p |>).
Proof. exact DesignRules_file. Qed.
Print Assumptions C31_DesignRules.
Example C31_DesignRules_ex : let o := (mkDesignRules (VInt 1) [ex_rule; ex_rule; Rule_default] VNone) <| dr_filePath := VStr $"old" |> in DesignRules_ok (o <| dr_filePath := VNone |>) = true
  /\ (let r := DesignRules_to_file ex_world o (Some $"a b.x") (Some utf8) in no_unit_file $"a b.x" r && loaded (DesignRules_from_file (fst r) None $"a b.x") (fun o' => py_eqb (dr_filePath o') (VStr $"a b.x"))) = true.
Proof. vm_compute. split; reflexivity. Qed.
Theorem C31_DesignRules_needs_file : load_needs_file DesignRules_from_file.
Proof. exact DesignRules_need. Qed.
Print Assumptions C31_DesignRules_needs_file.
Theorem C32_DesignRules : touches_target DesignRules_to_file dr_filePath.
Proof. exact DesignRules_touch. Qed.
Print Assumptions C32_DesignRules.
Theorem C32_DesignRules_refuted : save_destroys (fun e => e) DesignRules_to_file (fun o => DesignRules_to o 0 false).
Proof. exact DesignRules_kill. Qed.
Print Assumptions C32_DesignRules_refuted.
Theorem C33_DesignRules : remembers_path DesignRules_to_file DesignRules_from_file dr_filePath.
Proof. exact DesignRules_rem. Qed.
Print Assumptions C33_DesignRules.

(** ** Footprint *)
Theorem C31_Footprint : forall now, saves_and_loads (fun e => e) Footprint_to_file (Footprint_from_file now)
  (fun o => Footprint_to o 0 true) (fun o => Footprint_ok (o <| fd_filePath := VNone |>)) Footprint_eqb (fun o _ => o <| fd_filePath := VNone |>) (fun o _ => Footprint_norm o <| fd_filePath := VNone |>).
Proof. exact Footprint_file. Qed.
Print Assumptions C31_Footprint.
Example C31_Footprint_ex : let o := (ex_footprint) <| fd_filePath := VStr $"old" |> in Footprint_ok (o <| fd_filePath := VNone |>) = true
  /\ (let r := Footprint_to_file ex_world o (Some $"a b.x") (Some utf8) in no_unit_file $"a b.x" r && loaded (Footprint_from_file (VStr $"0") (fst r) None $"a b.x") (fun o' => is_none (fd_filePath o'))) = true.
Proof. vm_compute. split; reflexivity. Qed.
Theorem C31_Footprint_needs_file : forall now, load_needs_file (Footprint_from_file now).
Proof. exact Footprint_need. Qed.
Print Assumptions C31_Footprint_needs_file.
Theorem C32_Footprint : touches_target Footprint_to_file fd_filePath.
Proof. exact Footprint_touch. Qed.
Print Assumptions C32_Footprint.
Theorem C32_Footprint_refuted : save_destroys (fun e => e) Footprint_to_file (fun o => Footprint_to o 0 true).
Proof. exact Footprint_kill. Qed.
Print Assumptions C32_Footprint_refuted.
(** A footprint does not know its file: saving it without a path always raises. *)
Theorem C33_Footprint_refuted : forall now w encoding p o, Footprint_from_file now w encoding p = FOk o ->
  fd_filePath o = VNone /\ forall w encoding, Footprint_to_file w o None encoding = (w, FErr (FPy EException)).
Proof.
  intros now w encoding p o H. apply Footprint_from_file_path in H. split; [exact H|]. intros w' e. now apply C32_Footprint.
Qed.
Print Assumptions C33_Footprint_refuted.

(** ** Examples and limits *)
(** objects that cannot be written, so that saving them empties the file: a work sheet with a polygon, *)
Example C32_WorkSheet_ex : WorkSheet_to (WorkSheet_default <| wk_drawingObjects := [WkItem_Polygon Polygon_default] |>) 0 true = Err ENotImplemented.
Proof. vm_compute. reflexivity. Qed.
(** text that the encoding does not have *)
Example C32_LibTable_ex : exists s, LibTable_to (mkLibTable (VStr $"fp_lib_table") [Library_default <| lb_description := VStr [8364]%N |>] VNone) 0 true = Ok s /\ encode latin1 s = None.
Proof. eexists. split; vm_compute; reflexivity. Qed.
(** a history *)
Example C33_Schematic_ex : Forall (keeps_path sc_filePath) [OEdit (fun o => o <| sc_uuid := VStr $"x" |>); OSave None None; OSave (Some $"copy") (Some utf8); OEdit (fun o => o <| sc_shapes := [] |>); OSave None (Some latin1)].
Proof. repeat constructor. Qed.
(** Carriage returns become line feeds. *)
Theorem C31_carriage_return_refuted : let o := mkLibTable (VStr $"fp_lib_table") [Library_default <| lb_description := VStr [97; 13; 98]%N |>] VNone in
  LibTable_ok o = true
  /\ loaded (LibTable_from_file (fst (LibTable_to_file ex_world o (Some $"p") None)) None $"p")
      (fun o' => LibTable_eqb (o' <| lt_filePath := VNone |>) (mkLibTable (VStr $"fp_lib_table") [Library_default <| lb_description := VStr [97; 10; 98]%N |>] VNone)) = true.
Proof. vm_compute. split; reflexivity. Qed.
Print Assumptions C31_carriage_return_refuted.
(** WorkSheet.to_file takes no encoding.  A work sheet that was loaded with an encoding other than the platform's
    cannot be read with that encoding after it was saved. *)
Definition ex_latin : world := ex_world <| w_platform := latin1 |>.
Theorem C31_WorkSheet_encoding_refuted : let o := ex_worksheet <| wk_drawingObjects := [WkItem_Line (Line_default <| wl_comment := VStr [233]%N |>)] |> in
  WorkSheet_ok o = true /\ snd (WorkSheet_to_file ex_latin o (Some $"p")) = FOk tt
  /\ WorkSheet_from_file (fst (WorkSheet_to_file ex_latin o (Some $"p"))) (Some utf8) $"p" = FErr FUnicode.
Proof. vm_compute. repeat split. Qed.
Print Assumptions C31_WorkSheet_encoding_refuted.
