(** Property theorems C12 (symbol graphics and pins), C13 (symbols and libraries), C14/C15
    (library identifiers) and C34 (new symbols). *)
From Verif Require Import PyBase PyNum PyStr PyRe Sexpr S_Leaf S_Tree M_Common S_Common M_Sym S_Sym S_Id L_Sym L_SymId L_Symbol Properties_Common.

(** ** C12: symbol graphics and pins *)
Definition ex_at (x y a : val) : Position := mkPosition x y a false.
Definition ex_fill : Fill := mkFill (VStr $"color") (Some ex_color).
Theorem C12_SyArc : roundtrips SyArc_to SyArc_from SyArc_ok SyArc_norm SyArc_eqb.
Proof. exact SyArc_rt. Qed.
Print Assumptions C12_SyArc.
Theorem C36_SyArc : conforms SyArc_to SyArc_from SyArc_ok SyArc_norm SyArc_tree.
Proof. exact SyArc_fmt. Qed.
Print Assumptions C36_SyArc.
Theorem C27_SyArc : refuses SyArc_from ["arc"%string].
Proof. exact SyArc_ref. Qed.
Print Assumptions C27_SyArc.
Theorem C28_SyArc : ignores SyArc_from 0 ["start"%string; "mid"%string; "end"%string; "stroke"%string; "fill"%string].
Proof. exact SyArc_ign. Qed.
Print Assumptions C28_SyArc.
Theorem C30_SyArc : last_wins SyArc_from 0 ["start"%string; "mid"%string; "end"%string; "stroke"%string; "fill"%string].
Proof. exact SyArc_win. Qed.
Print Assumptions C30_SyArc.
Example C12_SyArc_ex : SyArc_ok (mkSyArc true (ex_at (VInt 1) (fdec 25 (-1)) (VInt 90)) (ex_xy (VInt 2) (VInt 3)) (ex_xy (VInt (-2)) (VInt 3)) ex_stroke ex_fill) = true.
Proof. vm_compute. reflexivity. Qed.

Theorem C12_SyCircle : roundtrips SyCircle_to SyCircle_from SyCircle_ok SyCircle_norm SyCircle_eqb.
Proof. exact SyCircle_rt. Qed.
Print Assumptions C12_SyCircle.
Theorem C36_SyCircle : conforms SyCircle_to SyCircle_from SyCircle_ok SyCircle_norm SyCircle_tree.
Proof. exact SyCircle_fmt. Qed.
Print Assumptions C36_SyCircle.
Theorem C27_SyCircle : refuses SyCircle_from ["circle"%string].
Proof. exact SyCircle_ref. Qed.
Print Assumptions C27_SyCircle.
Theorem C28_SyCircle : ignores SyCircle_from 0 ["center"%string; "radius"%string; "stroke"%string; "fill"%string].
Proof. exact SyCircle_ign. Qed.
Print Assumptions C28_SyCircle.
Theorem C30_SyCircle : last_wins SyCircle_from 0 ["center"%string; "radius"%string; "stroke"%string; "fill"%string].
Proof. exact SyCircle_win. Qed.
Print Assumptions C30_SyCircle.
Example C12_SyCircle_ex : SyCircle_ok (mkSyCircle true (ex_xy (VInt 2) (VInt 3)) (fdec 25 (-1)) ex_stroke ex_fill) = true.
Proof. vm_compute. reflexivity. Qed.

Theorem C12_SyPolyLine : roundtrips SyPolyLine_to SyPolyLine_from SyPolyLine_ok SyPolyLine_norm SyPolyLine_eqb.
Proof. exact SyPolyLine_rt. Qed.
Print Assumptions C12_SyPolyLine.
Theorem C36_SyPolyLine : conforms SyPolyLine_to SyPolyLine_from SyPolyLine_ok SyPolyLine_norm SyPolyLine_tree.
Proof. exact SyPolyLine_fmt. Qed.
Print Assumptions C36_SyPolyLine.
Theorem C27_SyPolyLine : refuses SyPolyLine_from ["polyline"%string].
Proof. exact SyPolyLine_ref. Qed.
Print Assumptions C27_SyPolyLine.
Theorem C28_SyPolyLine : ignores SyPolyLine_from 0 ["stroke"%string; "fill"%string; "pts"%string].
Proof. exact SyPolyLine_ign. Qed.
Print Assumptions C28_SyPolyLine.
Theorem C30_SyPolyLine : last_wins SyPolyLine_from 0 ["stroke"%string; "fill"%string].
Proof. exact SyPolyLine_win. Qed.
Print Assumptions C30_SyPolyLine.
Example C12_SyPolyLine_ex : SyPolyLine_ok (mkSyPolyLine [ex_xy (VInt 2) (VInt 3); ex_xy (fdec 1 (-1)) (VInt 0); ex_xy (VInt 2) (VInt 3)] ex_stroke ex_fill) = true.
Proof. vm_compute. reflexivity. Qed.

Theorem C12_SyRect : roundtrips SyRect_to SyRect_from SyRect_ok SyRect_norm SyRect_eqb.
Proof. exact SyRect_rt. Qed.
Print Assumptions C12_SyRect.
Theorem C36_SyRect : conforms SyRect_to SyRect_from SyRect_ok SyRect_norm SyRect_tree.
Proof. exact SyRect_fmt. Qed.
Print Assumptions C36_SyRect.
Theorem C27_SyRect : refuses SyRect_from ["rectangle"%string].
Proof. exact SyRect_ref. Qed.
Print Assumptions C27_SyRect.
Theorem C28_SyRect : ignores SyRect_from 0 ["start"%string; "end"%string; "stroke"%string; "fill"%string].
Proof. exact SyRect_ign. Qed.
Print Assumptions C28_SyRect.
Theorem C30_SyRect : last_wins SyRect_from 0 ["start"%string; "end"%string; "stroke"%string; "fill"%string].
Proof. exact SyRect_win. Qed.
Print Assumptions C30_SyRect.
Example C12_SyRect_ex : SyRect_ok (mkSyRect true (ex_xy (VInt 2) (VInt 3)) (ex_xy (VInt 2) (fdec (-3) (-1))) ex_stroke ex_fill) = true.
Proof. vm_compute. reflexivity. Qed.

Theorem C12_SyText : roundtrips SyText_to SyText_from SyText_ok SyText_norm SyText_eqb.
Proof. exact SyText_rt. Qed.
Print Assumptions C12_SyText.
Theorem C36_SyText : conforms SyText_to SyText_from SyText_ok SyText_norm SyText_tree.
Proof. exact SyText_fmt. Qed.
Print Assumptions C36_SyText.
Theorem C27_SyText : refuses SyText_from ["text"%string].
Proof. exact SyText_ref. Qed.
Print Assumptions C27_SyText.
Theorem C28_SyText : ignores SyText_from 1 ["at"%string; "effects"%string].
Proof. exact SyText_ign. Qed.
Print Assumptions C28_SyText.
Theorem C30_SyText : last_wins SyText_from 1 ["at"%string; "effects"%string].
Proof. exact SyText_win. Qed.
Print Assumptions C30_SyText.
Example C12_SyText_ex : SyText_ok (mkSyText (VStr $"a ""(b)"" \ c") (ex_at (VInt 2) (VInt 3) (VInt 900)) ex_effects) = true.
Proof. vm_compute. reflexivity. Qed.

Theorem C12_SyTextBox : roundtrips SyTextBox_to SyTextBox_from SyTextBox_ok SyTextBox_norm SyTextBox_eqb.
Proof. exact SyTextBox_rt. Qed.
Print Assumptions C12_SyTextBox.
Theorem C36_SyTextBox : conforms SyTextBox_to SyTextBox_from SyTextBox_ok SyTextBox_norm SyTextBox_tree.
Proof. exact SyTextBox_fmt. Qed.
Print Assumptions C36_SyTextBox.
Theorem C27_SyTextBox : refuses SyTextBox_from ["text_box"%string].
Proof. exact SyTextBox_ref. Qed.
Print Assumptions C27_SyTextBox.
Theorem C28_SyTextBox : ignores SyTextBox_from 2 ["at"%string; "size"%string; "effects"%string; "stroke"%string; "fill"%string; "uuid"%string].
Proof. exact SyTextBox_ign. Qed.
Print Assumptions C28_SyTextBox.
Theorem C30_SyTextBox : last_wins SyTextBox_from 2 ["at"%string; "size"%string; "effects"%string; "stroke"%string; "fill"%string; "uuid"%string].
Proof. exact SyTextBox_win. Qed.
Print Assumptions C30_SyTextBox.
Example C12_SyTextBox_ex : SyTextBox_ok (mkSyTextBox (VStr $"private") true (ex_at (VInt 2) (VInt 3) (VInt 90)) (ex_xy (VInt 2) (VInt 3)) ex_stroke ex_fill ex_effects (VStr $"a-1")) = true.
Proof. vm_compute. reflexivity. Qed.

Theorem C12_SymbolAlternativePin : roundtrips SymbolAlternativePin_to SymbolAlternativePin_from SymbolAlternativePin_ok SymbolAlternativePin_norm SymbolAlternativePin_eqb.
Proof. exact SymbolAlternativePin_rt. Qed.
Print Assumptions C12_SymbolAlternativePin.
Theorem C36_SymbolAlternativePin : conforms SymbolAlternativePin_to SymbolAlternativePin_from SymbolAlternativePin_ok SymbolAlternativePin_norm SymbolAlternativePin_tree.
Proof. exact SymbolAlternativePin_fmt. Qed.
Print Assumptions C36_SymbolAlternativePin.
Theorem C27_SymbolAlternativePin : refuses SymbolAlternativePin_from ["alternate"%string].
Proof. exact SymbolAlternativePin_ref. Qed.
Print Assumptions C27_SymbolAlternativePin.
Example C12_SymbolAlternativePin_ex : SymbolAlternativePin_ok (mkSymbolAlternativePin (VStr $"PA 0") (VStr $"bidirectional") (VStr $"inverted")) = true.
Proof. vm_compute. reflexivity. Qed.

Definition ex_pin : SymbolPin :=
  mkSymbolPin (VStr $"power_in") (VStr $"line") (ex_at (VInt 2) (VInt 3) (VInt 90)) (fdec 254 (-2)) (VStr $"~{RST}") (Some ex_effects)
    (VStr $"12") None true [SymbolAlternativePin_default; SymbolAlternativePin_default].
Theorem C12_SymbolPin : roundtrips SymbolPin_to SymbolPin_from SymbolPin_ok SymbolPin_norm SymbolPin_eqb.
Proof. exact SymbolPin_rt. Qed.
Print Assumptions C12_SymbolPin.
Theorem C36_SymbolPin : conforms SymbolPin_to SymbolPin_from SymbolPin_ok SymbolPin_norm SymbolPin_tree.
Proof. exact SymbolPin_fmt. Qed.
Print Assumptions C36_SymbolPin.
Theorem C27_SymbolPin : refuses SymbolPin_from ["pin"%string].
Proof. exact SymbolPin_ref. Qed.
Print Assumptions C27_SymbolPin.
Theorem C28_SymbolPin : ignores SymbolPin_from 2 ["at"%string; "length"%string; "name"%string; "number"%string; "alternate"%string].
Proof. exact SymbolPin_ign. Qed.
Print Assumptions C28_SymbolPin.
Theorem C30_SymbolPin : last_wins SymbolPin_from 2 ["at"%string; "length"%string].
Proof. exact SymbolPin_win. Qed.
Print Assumptions C30_SymbolPin.
Example C12_SymbolPin_ex : SymbolPin_ok (ex_pin) = true.
Proof. vm_compute. reflexivity. Qed.

(** Everything a curve writes is unbalanced, so it cannot be read back ... *)
Theorem C12_SyCurve_refuted : forall o indent newline, SyCurve_ok o = true ->
  write_read SyCurve_to SyCurve_from o indent newline = Err EAssertion.
Proof. intros o i n H. unfold write_read. destruct (SyCurve_unbalanced o i n H) as (s & -> & E). cbn [bind]. now rewrite E. Qed.
Print Assumptions C12_SyCurve_refuted.
Definition ex_curve : SyCurve := mkSyCurve [ex_xy (VInt 2) (VInt 3); ex_xy (fdec 1 (-1)) (VInt 0)] ex_stroke ex_fill.
Example C12_SyCurve_ex : SyCurve_ok ex_curve = true.
Proof. vm_compute. reflexivity. Qed.
(** ... although the documented expression is read correctly. *)
Theorem C12_SyCurve_read : forall o, SyCurve_ok o = true -> SyCurve_from (SyCurve_tree o) = Ok o.
Proof. exact SyCurve_rd. Qed.
Print Assumptions C12_SyCurve_read.

(** ** C13: symbols and symbol libraries *)
Definition ex_unit (u : Z) (us : list Symbol) : Symbol :=
  mkSymbol VNone (VStr $"LM 358") (VInt u) (VInt 1) VNone false false false VNone None None false []
    [SyItem_SyRect SyRect_default; SyItem_SyArc SyArc_default] [ex_pin] us.
Definition ex_symbol : Symbol :=
  mkSymbol (VStr $"Amplifier") (VStr $"LM 358") VNone VNone (VStr $"LM ""X""") true true true (fdec 5 (-1)) (Some true) (Some false) true
    [ex_property; ex_property] [SyItem_SyCircle SyCircle_default; SyItem_SyText SyText_default] [ex_pin; SymbolPin_default]
    [ex_unit 0 []; ex_unit 1 [ex_unit 7 []; ex_unit 8 []]].
Theorem C13_Symbol : roundtrips Symbol_to Symbol_from Symbol_ok Symbol_norm Symbol_eqb.
Proof. exact Symbol_rt. Qed.
Print Assumptions C13_Symbol.
Theorem C36_Symbol : conforms Symbol_to Symbol_from Symbol_ok Symbol_norm Symbol_tree.
Proof. exact Symbol_fmt. Qed.
Print Assumptions C36_Symbol.
Theorem C27_Symbol : refuses Symbol_from ["symbol"%string].
Proof. exact Symbol_ref. Qed.
Print Assumptions C27_Symbol.
Theorem C28_Symbol : ignores Symbol_from 1 ["extends"%string; "pin_numbers"%string; "pin_names"%string; "in_bom"%string; "on_board"%string; "power"%string; "symbol"%string; "property"%string; "pin"%string; "arc"%string; "circle"%string; "curve"%string; "polyline"%string; "rectangle"%string; "text"%string; "text_box"%string].
Proof. exact Symbol_ign. Qed.
Print Assumptions C28_Symbol.
Theorem C30_Symbol : last_wins Symbol_from 1 ["extends"%string; "in_bom"%string; "on_board"%string; "power"%string].
Proof. exact Symbol_win. Qed.
Print Assumptions C30_Symbol.
Example C13_Symbol_ex : Symbol_ok (ex_symbol) = true.
Proof. vm_compute. reflexivity. Qed.

Theorem C13_SymbolLib : roundtrips SymbolLib_to SymbolLib_from SymbolLib_ok SymbolLib_norm SymbolLib_eqb.
Proof. exact SymbolLib_rt. Qed.
Print Assumptions C13_SymbolLib.
Theorem C36_SymbolLib : conforms SymbolLib_to SymbolLib_from SymbolLib_ok SymbolLib_norm SymbolLib_tree.
Proof. exact SymbolLib_fmt. Qed.
Print Assumptions C36_SymbolLib.
Theorem C27_SymbolLib : refuses SymbolLib_from ["kicad_symbol_lib"%string].
Proof. exact SymbolLib_ref. Qed.
Print Assumptions C27_SymbolLib.
Theorem C28_SymbolLib : ignores SymbolLib_from 0 ["version"%string; "generator"%string; "symbol"%string].
Proof. exact SymbolLib_ign. Qed.
Print Assumptions C28_SymbolLib.
Theorem C30_SymbolLib : last_wins SymbolLib_from 0 ["version"%string; "generator"%string].
Proof. exact SymbolLib_win. Qed.
Print Assumptions C30_SymbolLib.
Example C13_SymbolLib_ex : SymbolLib_ok (mkSymbolLib (VInt 20211014) (VStr $"kicad_symbol_editor") [ex_symbol; ex_unit 3 []] VNone) = true.
Proof. vm_compute. reflexivity. Qed.

(** A library with one curve in one symbol cannot be read back. *)
Theorem C13_curve_refuted :
  write_read SymbolLib_to SymbolLib_from (SymbolLib_default <| sj_generator := VStr $"x" |>
    <| sj_symbols := [ex_symbol <| sy_graphicItems := [SyItem_SyCurve ex_curve] |>] |>) 0 true = Err EAssertion.
Proof. vm_compute. reflexivity. Qed.
Print Assumptions C13_curve_refuted.
(** A hidden or offset pin name setting is lost unless [pinNames] is set. *)
Theorem C13_pin_names_refuted : exists o o',
  write_read Symbol_to Symbol_from o 0 true = Ok o' /\ sy_pinNamesHide o = true /\ sy_pinNamesHide o' = false.
Proof.
  exists (Symbol_default <| sy_entryName := VStr $"x" |> <| sy_pinNamesHide := true |>), (Symbol_default <| sy_entryName := VStr $"x" |>).
  repeat split; vm_compute; reflexivity.
Qed.
Print Assumptions C13_pin_names_refuted.
(** The default library (version a str, no generator) comes back with an int version and the
    generator 'None'. *)
Theorem C13_default_lib_refuted : exists o',
  write_read SymbolLib_to SymbolLib_from SymbolLib_default 0 true = Ok o' /\
  sj_version o' = VInt 20211014 /\ sj_generator o' = VStr $"None" /\ SymbolLib_eqb SymbolLib_default o' = false.
Proof. eexists. split; [vm_compute; reflexivity|]. repeat split; vm_compute; reflexivity. Qed.
Print Assumptions C13_default_lib_refuted.

(** ** C14: set and get of the library identifier *)
(** The setter accepts every str; afterwards the getter returns that str unless it is one of the
    [lossy] identifiers, in which case it returns something else. *)
Theorem C14_set_get : forall s o, exists o',
  Symbol_set_libId (VStr s) o = Ok o' /\ (Symbol_libId o' = s <-> ~ lossy s).
Proof. exact set_get. Qed.
Print Assumptions C14_set_get.
(** Anything but a str raises TypeError. *)
Theorem C14_set_type : forall v o, is_text v = false -> Symbol_set_libId v o = Err EType.
Proof. intros v o. apply set_other. Qed.
Print Assumptions C14_set_type.
(** How an identifier is taken apart: [nickname:entry] ... *)
Theorem C14_nickname : forall s n e t o, nick_form s n e t -> exists o',
  Symbol_set_libId (VStr s) o = Ok o' /\ sy_libraryNickname o' = VStr n /\ sy_entryName o' = VStr e
  /\ sy_unitId o' = VNone /\ sy_styleId o' = VNone.
Proof. intros s n e t o F. eexists. split; [exact (set_nick _ _ _ _ o F)|]. repeat split. Qed.
Print Assumptions C14_nickname.
(** ... else [entry_unit_style] ... *)
Theorem C14_unit : forall s e u v t o, (forall n e t, ~ nick_form s n e t) -> unit_form s e u v t -> exists o',
  Symbol_set_libId (VStr s) o = Ok o' /\ sy_libraryNickname o' = VNone /\ sy_entryName o' = VStr e
  /\ sy_unitId o' = VInt (digits_val u) /\ sy_styleId o' = VInt (digits_val v).
Proof. intros s e u v t o N F. eexists. split; [exact (set_unit _ _ _ _ _ o N F)|]. repeat split. Qed.
Print Assumptions C14_unit.
(** ... else the whole text is the entry. *)
Theorem C14_entry : forall s o, (forall n e t, ~ nick_form s n e t) -> (forall e u v t, ~ unit_form s e u v t) -> exists o',
  Symbol_set_libId (VStr s) o = Ok o' /\ sy_libraryNickname o' = VNone /\ sy_entryName o' = VStr s
  /\ sy_unitId o' = VNone /\ sy_styleId o' = VNone.
Proof. intros s o N U. eexists. split; [exact (set_plain _ o N U)|]. repeat split. Qed.
Print Assumptions C14_entry.
(** Conversely the four attributes can be recovered from the identifier, whenever they are
    a nickname with an entry, an entry with unit and style, or an entry alone ([id_ok]). *)
Theorem C14_get_set : forall o o1,
  id_ok (sy_libraryNickname o) (sy_entryName o) (sy_unitId o) (sy_styleId o) = true -> exists o',
  Symbol_set_libId (VStr (Symbol_libId o)) o1 = Ok o'
  /\ sy_libraryNickname o' = sy_libraryNickname o /\ sy_entryName o' = sy_entryName o
  /\ sy_unitId o' = sy_unitId o /\ sy_styleId o' = sy_styleId o.
Proof.
  intros o o1 H. rewrite (sym_id_libId o H). eexists. split; [exact (id_read _ _ _ _ o1 H)|]. repeat split.
Qed.
Print Assumptions C14_get_set.
Example C14_ex1 : nick_form $"Device:R_0_1" $"Device" $"R_0_1" [].
Proof. repeat split; try discriminate; try reflexivity. now left. Qed.
Example C14_ex2 : unit_form $"R_US_10_1" $"R_US" $"10" $"1" [].
Proof. repeat split; try discriminate; try reflexivity. now left. Qed.
Example C14_ex3 : id_ok VNone (VStr $"R_US") (VInt 10) (VInt 1) = true /\ id_ok (VStr $"Device") (VStr $"R:_0_1") VNone VNone = true
  /\ id_ok VNone (VStr $"R_0_") VNone VNone = true.
Proof. repeat split; vm_compute; reflexivity. Qed.
(** Identifiers that are not lossy: without line break, and without leading zeros. *)
Theorem C14_plain_ids : forall s, oneline s = true ->
  (forall e u v t, unit_form s e u v t -> decimal u = true /\ decimal v = true) -> ~ lossy s.
Proof. exact not_lossy. Qed.
Print Assumptions C14_plain_ids.
(** Identifiers that do not survive. *)
Theorem C14_lossy_refuted :
  (exists o', Symbol_set_libId (VStr $"R_01_1") Symbol_default = Ok o' /\ Symbol_libId o' = $"R_1_1")
  /\ (exists o', Symbol_set_libId (VStr ($"Device:R" ++ nl)) Symbol_default = Ok o' /\ Symbol_libId o' = $"Device:R").
Proof. split; eexists; (split; [vm_compute; reflexivity|vm_compute; reflexivity]). Qed.
Print Assumptions C14_lossy_refuted.
(** A nickname together with unit numbers is written without the numbers. *)
Theorem C14_nickname_with_unit_refuted : exists o, Symbol_libId o = $"Device:R" /\ sy_unitId o = VInt 1 /\ sy_styleId o = VInt 2.
Proof.
  exists (Symbol_default <| sy_libraryNickname := VStr $"Device" |> <| sy_entryName := VStr $"R" |> <| sy_unitId := VInt 1 |> <| sy_styleId := VInt 2 |>).
  repeat split.
Qed.
Print Assumptions C14_nickname_with_unit_refuted.

(** ** C15: renaming a symbol *)
(** Every direct unit gets the new entry name and keeps everything else, in particular its own
    unit and style number and its own units; the rest of the symbol does not change. *)
Theorem C15_rename : forall s o o', Symbol_set_libId (VStr s) o = Ok o' ->
  length (sy_units o') = length (sy_units o)
  /\ (forall i u u', nth_error (sy_units o) i = Some u -> nth_error (sy_units o') i = Some u' ->
        sy_entryName u' = sy_entryName o' /\ u' <| sy_entryName := sy_entryName u |> = u)
  /\ o' <| sy_libraryNickname := sy_libraryNickname o |> <| sy_entryName := sy_entryName o |> <| sy_unitId := sy_unitId o |>
        <| sy_styleId := sy_styleId o |> <| sy_units := sy_units o |> = o.
Proof. exact set_rename. Qed.
Print Assumptions C15_rename.
Example C15_ex : exists o', Symbol_set_libId (VStr $"New:Name") ex_symbol = Ok o'
  /\ map Symbol_libId (sy_units o') = [$"Name_0_1"; $"Name_1_1"]
  /\ map (fun u => map Symbol_libId (sy_units u)) (sy_units o') = [[]; [$"LM 358_7_1"; $"LM 358_8_1"]].
Proof. eexists. split; [vm_compute; reflexivity|]. repeat split; vm_compute; reflexivity. Qed.

(** ** C34: new symbols *)
Theorem C34_Symbol : forall s reference value footprint datasheet,
  oneline s = true -> quotableb s = true ->
  txtb reference = true -> txtb value = true -> txtb footprint = true -> txtb datasheet = true ->
  exists o, Symbol_create_new (VStr s) reference value footprint datasheet = Ok o
    /\ Symbol_ok o = true
    /\ map pr_key (sy_properties o) = [VStr $"Reference"; VStr $"Value"; VStr $"Footprint"; VStr $"Datasheet"]
    /\ map pr_value (sy_properties o) = [reference; value; footprint; datasheet]
    /\ sy_graphicItems o = [] /\ sy_pins o = [] /\ sy_units o = []
    /\ (Symbol_libId o = s <-> ~ lossy s)
    /\ forall indent newline, exists o', write_read Symbol_to Symbol_from o indent newline = Ok o' /\ Symbol_eqb o o' = true.
Proof. exact Symbol_new_rt. Qed.
Print Assumptions C34_Symbol.
Example C34_Symbol_ex : oneline $"Device:R" = true /\ quotableb $"Device:R" = true.
Proof. split; reflexivity. Qed.
