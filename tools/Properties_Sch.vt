(** Property theorems C24: schematic items (items/schitems.py). *)
From Verif Require Import PyBase PyNum PyStr Sexpr S_Leaf S_Tree S_Id S_Fix M_Common S_Common M_Sym S_Sym M_Fp M_Gr M_Footprint S_Footprint M_Sch S_Sch
  L_Lex L_Num L_Seq L_Tac L_Fp L_Footprint L_Sch L_Sheet Properties_Common Properties_Sym Properties_Fp.

Definition ex_pos3 : Position := mkPosition (fdec 12345 (-2)) (VInt 7) (VInt 270) false.
Definition ex_pos2 : Position := ex_xy (fdec 12345 (-2)) (VInt (-7)).
@prop C24 Junction mkJunction ex_pos2 (VInt 0) (JColor_obj ex_color) ex_stamp
@prop C24 NoConnect mkNoConnect ex_pos2 ex_stamp
@prop C24 BusEntry mkBusEntry ex_pos2 ex_stamp (ex_xy (fdec 254 (-2)) (VInt 3)) ex_stroke
@prop C24 BusAlias mkBusAlias (VStr $"a ""b""") [VStr $"A[0..7]"; VStr []; VStr $"x (y)"]
@prop C24 Connection mkConnection (VStr $"bus") [ex_pos2; ex_xy (VInt 1) (fdec 5 (-1))] ex_stroke ex_stamp
@prop C24 PolyLine mkPolyLine [ex_pos2; ex_xy (VInt 1) (fdec 5 (-1))] ex_stroke ex_stamp
(** a text of 55 characters *)
@prop C24 Text mkText (VStr $"0123456789 0123456789 0123456789 (""0123456789"") 0123456") ex_pos3 ex_effects ex_stamp
@prop C24 TextBox mkTextBox (VStr $"a ""b""") ex_pos3 (ex_xy (VInt 3) (fdec 1 (-3))) ex_stroke ex_fill ex_effects ex_stamp
@prop C24 LocalLabel mkLocalLabel (VStr $"a ""b""") ex_pos3 ex_effects ex_stamp true
@prop C24 GlobalLabel mkGlobalLabel (VStr $"a ""b""") (VStr $"bidirectional") true ex_pos3 ex_effects ex_stamp [ex_property; ex_property]
@prop C24 HierarchicalLabel mkHierarchicalLabel (VStr $"a ""b""") (VStr $"output") ex_pos3 ex_effects ex_stamp true
Definition ex_spath (u : Z) : SymbolProjectPath := mkSymbolProjectPath (VStr $"/00000000-0000-0000-0000-00005f325e1e") (VStr $"U 1") (VInt u).
Definition ex_sproject : SymbolProjectInstance := mkSymbolProjectInstance (VStr $"my ""project""") [ex_spath 1; ex_spath 2].
@prop C24 SymbolProjectPath ex_spath 3
@prop C24 SymbolProjectInstance ex_sproject
Definition ex_ssymbol : SchematicSymbol :=
  mkSchematicSymbol (VStr $"Device") (VStr $"R:x_1_2") (VStr $"R_1") ex_pos3 (VInt 2) true false (Some false) true ex_stamp [ex_property; ex_property]
    [(VStr $"1", ex_stamp); (VStr $"A ""2""", VStr $"abc-12")] (VStr $"x") [ex_sproject; SymbolProjectInstance_default].
@prop C24 SchematicSymbol ex_ssymbol
@prop C24 HierarchicalPin mkHierarchicalPin (VStr $"a ""b""") (VStr $"tri_state") ex_pos3 ex_effects ex_stamp
Definition ex_hpath : HierarchicalSheetProjectPath := mkHierarchicalSheetProjectPath (VStr $"/a b/c") (VStr $"2 ""a""").
Definition ex_hproject : HierarchicalSheetProjectInstance := mkHierarchicalSheetProjectInstance (VStr $"my ""project""") [ex_hpath; ex_hpath].
@prop C24 HierarchicalSheetProjectPath ex_hpath
@prop C24 HierarchicalSheetProjectInstance ex_hproject
Definition ex_key (k : str) : Property := ex_property <| pr_key := VStr k |>.
Definition ex_sheet : HierarchicalSheet :=
  mkHierarchicalSheet ex_pos2 (VInt 30) (fdec 4572 (-2)) true ex_stroke (mkColorRGBA (VInt 1) (VInt 2) (VInt 255) (fdec 1234 (-4)) (VInt 4)) ex_stamp
    (ex_key $"Sheetname") (ex_key $"Sheet file") [ex_key $"a ""b"""; ex_key $"Field2"]
    [mkHierarchicalPin (VStr $"a ""b""") (VStr $"tri_state") ex_pos3 ex_effects ex_stamp; HierarchicalPin_default] [ex_hproject].
@prop C24 HierarchicalSheet ex_sheet
@prop C24 HierarchicalSheetInstance mkHierarchicalSheetInstance (VStr $"/a b/c") (VStr $"2 ""a""")
@prop C24 SymbolInstance mkSymbolInstance (VStr $"/a b/c") (VStr $"U1") (VInt 2) (VStr $"1 ""k""") (VStr $"Lib:F (x)")
@prop C24 Rectangle mkRectangle ex_pos2 (ex_xy (VInt 3) (fdec 1 (-3))) ex_stroke ex_fill ex_stamp
@prop C24 SchArc mkSchArc ex_pos2 (ex_xy (VInt 3) (fdec 1 (-3))) (ex_xy (VInt 4) (fdec 12 (-1))) ex_stroke ex_fill ex_stamp
@prop C24 Circle mkCircle ex_pos2 (fdec 15 (-1)) ex_stroke ex_fill ex_stamp
@prop C24 NetclassFlag mkNetclassFlag (VStr $"a ""b""") (fdec 254 (-2)) (VStr $"dot") (Some ex_pos3) (Some ex_effects) [ex_property; ex_property] ex_stamp true
(** the default objects that are printable *)
Example C24_default_ex : Junction_ok Junction_default && NoConnect_ok NoConnect_default && BusEntry_ok BusEntry_default && BusAlias_ok BusAlias_default
  && Connection_ok Connection_default && PolyLine_ok PolyLine_default && Text_ok Text_default && TextBox_ok TextBox_default && LocalLabel_ok LocalLabel_default
  && GlobalLabel_ok GlobalLabel_default && HierarchicalLabel_ok HierarchicalLabel_default && SymbolInstance_ok SymbolInstance_default
  && HierarchicalSheetInstance_ok HierarchicalSheetInstance_default && Rectangle_ok Rectangle_default && SchArc_ok SchArc_default && Circle_ok Circle_default = true.
Proof. vm_compute. reflexivity. Qed.

(** ** What a bus alias may look like *)
(** Only [(bus_alias name (members ..))] is accepted: anything else raises. *)
Theorem C27_BusAlias_shape : forall exp o, BusAlias_from exp = Ok o -> exists members, exp = node "bus_alias" [ba_name o; node "members" members] /\ ba_members o = members.
Proof. exact BusAlias_shape. Qed.
Print Assumptions C27_BusAlias_shape.
Example C27_BusAlias_shape_ex : BusAlias_from (node "bus_alias" [VInt 3; node "members" []]) = Ok (mkBusAlias (VInt 3) [])
  /\ BusAlias_from (node "bus_alias" [VInt 3; node "members" []; VInt 3]) = Err EException /\ BusAlias_from (node "bus_alias" [VInt 3; VList []]) = Err EIndex.
Proof. repeat split; vm_compute; reflexivity. Qed.

(** ** What is lost or corrupted *)
(** Whatever the diameter of a junction is, it is written, and zero afterwards. *)
Theorem C24_Junction_diameter_refuted : forall o indent newline, Junction_ok (o <| jn_diameter := VInt 0 |>) = true -> numb (jn_diameter o) = true ->
  write_read Junction_to Junction_from o indent newline = Ok (Junction_norm (o <| jn_diameter := VInt 0 |>)).
Proof. exact Junction_diameter. Qed.
Print Assumptions C24_Junction_diameter_refuted.
Example C24_Junction_diameter_ex : Junction_ok (Junction_default <| jn_diameter := fdec 15 (-1) |> <| jn_diameter := VInt 0 |>) = true /\ numb (fdec 15 (-1)) = true.
Proof. split; vm_compute; reflexivity. Qed.
(** A junction read from an expression that ends with the diameter (the order is not fixed by the format) cannot be written: the diameter has replaced the colour. *)
Theorem C24_Junction_order_refuted : forall l d o indent newline,
  Junction_from (node "junction" (l ++ [node "diameter" [d]])) = Ok o -> Junction_to o indent newline = Err EAttribute.
Proof.
  intros l d o i n. rewrite Junction_last. destruct (Junction_from (node "junction" l)); [|discriminate]. cbn [bind]. intros E. inversion E. apply Junction_unwritable.
Qed.
Print Assumptions C24_Junction_order_refuted.
Example C24_Junction_order_ex : exists o, Junction_from (node "junction" [node "at" [VInt 1; VInt 2]; node "color" [VInt 0; VInt 0; VInt 0; VInt 0]; node "diameter" [VInt 0]]) = Ok o.
Proof. eexists. vm_compute. reflexivity. Qed.
(** A default netclass flag cannot be written: its effects are the class Effects itself. *)
Theorem C24_NetclassFlag_default_refuted : forall o indent newline, nf_effects o = None -> NetclassFlag_to o indent newline = Err EAttribute.
Proof. exact NetclassFlag_unwritable. Qed.
Print Assumptions C24_NetclassFlag_default_refuted.
Example C24_NetclassFlag_default_ex : nf_effects NetclassFlag_default = None.
Proof. reflexivity. Qed.
(** A symbol without name gets the name "None", one whose unique identifier is None an empty one. *)
Theorem C24_SchematicSymbol_none_refuted :
  write_read SchematicSymbol_to SchematicSymbol_from SchematicSymbol_default 2 true = Ok (SchematicSymbol_norm (SchematicSymbol_default <| ss_entryName := VStr $"None" |>))
  /\ forall o indent newline, ss_uuid o = VNone -> SchematicSymbol_ok (o <| ss_uuid := VStr [] |>) = true ->
     write_read SchematicSymbol_to SchematicSymbol_from o indent newline = Ok (SchematicSymbol_norm (o <| ss_uuid := VStr [] |>)).
Proof. split; [vm_compute; reflexivity|exact SchematicSymbol_uuid]. Qed.
Print Assumptions C24_SchematicSymbol_none_refuted.
Example C24_SchematicSymbol_none_ex : SchematicSymbol_ok (ex_ssymbol <| ss_uuid := VStr [] |>) = true.
Proof. vm_compute. reflexivity. Qed.
(** A sheet whose colour has no precision, as the default one, comes back with precision 4 and is not equal to the original. *)
Theorem C24_HierarchicalSheet_precision_refuted : forall o indent newline, let o' := o <| hs_fill := hs_fill o <| ca_precision := VInt 4 |> |> in
  ca_precision (hs_fill o) = VNone -> HierarchicalSheet_ok o' = true ->
  write_read HierarchicalSheet_to HierarchicalSheet_from o indent newline = Ok (HierarchicalSheet_norm o') /\ HierarchicalSheet_eqb o (HierarchicalSheet_norm o') = false.
Proof. intros o i n o' P H. split; [now apply Sheet_no_precision|now apply Sheet_precision_ne]. Qed.
Print Assumptions C24_HierarchicalSheet_precision_refuted.
Example C24_HierarchicalSheet_precision_ex : ca_precision (hs_fill HierarchicalSheet_default) = VNone
  /\ HierarchicalSheet_ok (HierarchicalSheet_default <| hs_fill := hs_fill HierarchicalSheet_default <| ca_precision := VInt 4 |> |>) = true.
Proof. split; vm_compute; reflexivity. Qed.
(** The alpha value is cut to four decimals. *)
Theorem C24_HierarchicalSheet_alpha_refuted : forall o indent newline, let o' := o <| hs_fill := hs_fill o <| ca_A := fixed_val 4 (ca_A (hs_fill o)) |> |> in
  finite (ca_A (hs_fill o)) = true -> HierarchicalSheet_ok o' = true ->
  write_read HierarchicalSheet_to HierarchicalSheet_from o indent newline = Ok (HierarchicalSheet_norm o').
Proof. exact Sheet_alpha. Qed.
Print Assumptions C24_HierarchicalSheet_alpha_refuted.
Example C24_HierarchicalSheet_alpha_ex : let o := ex_sheet <| hs_fill := hs_fill ex_sheet <| ca_A := fdec 123456 (-6) |> |> in
  finite (ca_A (hs_fill o)) = true /\ HierarchicalSheet_ok (o <| hs_fill := hs_fill o <| ca_A := fixed_val 4 (ca_A (hs_fill o)) |> |>) = true
  /\ py_eqb (fixed_val 4 (ca_A (hs_fill o))) (fdec 1235 (-4)) = true.
Proof. repeat split; vm_compute; reflexivity. Qed.
(** A property called "Sheet name" among the others replaces the sheet's name. *)
Theorem C24_HierarchicalSheet_key_refuted :
  let o := ex_sheet <| hs_properties := [ex_key $"Sheet name" <| pr_value := VStr $"other" |>] |> in
  write_read HierarchicalSheet_to HierarchicalSheet_from o 2 true
  = Ok (HierarchicalSheet_norm (ex_sheet <| hs_properties := [] |> <| hs_sheetName := ex_key $"Sheet name" <| pr_value := VStr $"other" |> |>)).
Proof. vm_compute. reflexivity. Qed.
Print Assumptions C24_HierarchicalSheet_key_refuted.
