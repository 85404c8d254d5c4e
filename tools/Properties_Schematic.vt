(** Property theorems C25: schematics (schematic.py); C34 for a new schematic. *)
From Verif Require Import PyBase PyNum PyStr Sexpr S_Leaf S_Tree S_Fix M_Common S_Common M_Sym S_Sym M_Fp M_Gr M_Sch S_Sch M_Schematic S_Schematic
  L_Lex L_Num L_Seq L_Tac L_Fp L_Footprint L_Schematic Properties_Common Properties_Sym Properties_Fp Properties_Sch.

Definition ex_schematic : Schematic :=
  mkSchematic (VInt 20230121) (VStr $"eeschema") ex_stamp (mkPageSettings (VStr $"A3") VNone VNone true)
    (Some (mkTitleBlock (VStr $"T") VNone (VStr $"1.0") (VStr []) [(VInt 1, VStr $"one"); (VInt 4, VStr $"four (4)")]))
    [ex_symbol; ex_symbol] [ex_ssymbol; ex_ssymbol] [mkJunction ex_pos2 (VInt 0) (JColor_obj ex_color) ex_stamp; Junction_default]
    [mkNoConnect ex_pos2 ex_stamp] [mkBusEntry ex_pos2 ex_stamp (ex_xy (fdec 254 (-2)) (VInt 3)) ex_stroke] [mkBusAlias (VStr $"a ""b""") [VStr $"A[0..7]"; VStr []]]
    [ScLine_Connection (mkConnection (VStr $"bus") [ex_pos2; ex_xy (VInt 1) (fdec 5 (-1))] ex_stroke ex_stamp);
     ScLine_PolyLine (mkPolyLine [ex_pos2; ex_xy (VInt 1) (fdec 5 (-1))] ex_stroke ex_stamp);
     ScLine_Connection (mkConnection (VStr $"wire") [ex_pos2; ex_xy (VInt 1) (fdec 5 (-1))] ex_stroke ex_stamp)]
    [ScShape_Circle (mkCircle ex_pos2 (fdec 15 (-1)) ex_stroke ex_fill ex_stamp); ScShape_SchArc SchArc_default; ScShape_Rectangle Rectangle_default]
    [mkImage (ex_xy (fdec 1234 (-2)) (VInt 5)) (fdec 5 (-1)) [VStr $"iVBORw0KGgo="; VStr $"12"] (VStr $"a-b-c") VNone]
    [mkText (VStr $"0123456789 0123456789 0123456789 (""0123456789"") 0123456") ex_pos3 ex_effects ex_stamp]
    [mkTextBox (VStr $"a ""b""") ex_pos3 (ex_xy (VInt 3) (fdec 1 (-3))) ex_stroke ex_fill ex_effects ex_stamp]
    [mkLocalLabel (VStr $"a ""b""") ex_pos3 ex_effects ex_stamp true]
    [mkGlobalLabel (VStr $"a ""b""") (VStr $"bidirectional") true ex_pos3 ex_effects ex_stamp [ex_property; ex_property]]
    [mkHierarchicalLabel (VStr $"a ""b""") (VStr $"output") ex_pos3 ex_effects ex_stamp true]
    [mkNetclassFlag (VStr $"a ""b""") (fdec 254 (-2)) (VStr $"dot") (Some ex_pos3) (Some ex_effects) [ex_property; ex_property] ex_stamp true]
    [ex_sheet; ex_sheet] [HierarchicalSheetInstance_default; mkHierarchicalSheetInstance (VStr $"/a b/c") (VStr $"2 ""a""")]
    [mkSymbolInstance (VStr $"/a b/c") (VStr $"U1") (VInt 2) (VStr $"1 ""k""") (VStr $"Lib:F (x)")] VNone.
@prop C25 Schematic ex_schematic
(** a schematic with nothing but a version and a generator *)
Example C25_Schematic_bare_ex : Schematic_ok (Schematic_default <| sc_version := VInt 1 |>) = true.
Proof. vm_compute. reflexivity. Qed.
(** A version given as a text of digits comes back as a number. *)
Theorem C25_version_text : forall o indent newline, sc_version o = VStr $"20211014" -> Schematic_ok (o <| sc_version := VInt 20211014 |>) = true ->
  write_read Schematic_to Schematic_from o indent newline = Ok (Schematic_norm (o <| sc_version := VInt 20211014 |>)).
Proof. exact Schematic_version_rt. Qed.
Print Assumptions C25_version_text.
Example C25_version_text_ex : Schematic_ok (ex_schematic <| sc_version := VInt 20211014 |>) = true.
Proof. vm_compute. reflexivity. Qed.

(** ** C34: a new schematic *)
Theorem C34_Schematic : sc_version Schematic_create_new = VStr $"20211014" /\ sc_generator Schematic_create_new = VStr $"kiutils"
  /\ sc_sheetInstances Schematic_create_new = [mkHierarchicalSheetInstance (VStr $"/") (VStr $"1")] /\ sc_schematicSymbols Schematic_create_new = []
  /\ forall indent newline, exists o', write_read Schematic_to Schematic_from Schematic_create_new indent newline = Ok o'
    /\ Schematic_eqb (Schematic_create_new <| sc_version := VInt 20211014 |>) o' = true.
Proof. repeat (split; [reflexivity|]). exact Schematic_new_rt. Qed.
Print Assumptions C34_Schematic.
