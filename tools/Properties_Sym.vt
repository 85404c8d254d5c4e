(** Property theorems C12 (symbol graphics and pins), C13 (symbols and libraries), C14/C15
    (library identifiers) and C34 (new symbols). *)
From Verif Require Import PyBase PyNum PyStr PyRe Sexpr S_Leaf S_Tree M_Common S_Common M_Sym S_Sym S_Id L_Sym L_SymId L_Symbol Properties_Common.

(** ** C12: symbol graphics and pins *)
Definition ex_at (x y a : val) : Position := mkPosition x y a false.
Definition ex_fill : Fill := mkFill (VStr $"color") (Some ex_color).
@prop C12 SyArc mkSyArc true (ex_at (VInt 1) (fdec 25 (-1)) (VInt 90)) (ex_xy (VInt 2) (VInt 3)) (ex_xy (VInt (-2)) (VInt 3)) ex_stroke ex_fill
@prop C12 SyCircle mkSyCircle true (ex_xy (VInt 2) (VInt 3)) (fdec 25 (-1)) ex_stroke ex_fill
@prop C12 SyPolyLine mkSyPolyLine [ex_xy (VInt 2) (VInt 3); ex_xy (fdec 1 (-1)) (VInt 0); ex_xy (VInt 2) (VInt 3)] ex_stroke ex_fill
@prop C12 SyRect mkSyRect true (ex_xy (VInt 2) (VInt 3)) (ex_xy (VInt 2) (fdec (-3) (-1))) ex_stroke ex_fill
@prop C12 SyText mkSyText (VStr $"a ""(b)"" \ c") (ex_at (VInt 2) (VInt 3) (VInt 900)) ex_effects
@prop C12 SyTextBox mkSyTextBox (VStr $"private") true (ex_at (VInt 2) (VInt 3) (VInt 90)) (ex_xy (VInt 2) (VInt 3)) ex_stroke ex_fill ex_effects (VStr $"a-1")
@prop C12 SymbolAlternativePin mkSymbolAlternativePin (VStr $"PA 0") (VStr $"bidirectional") (VStr $"inverted")
Definition ex_pin : SymbolPin :=
  mkSymbolPin (VStr $"power_in") (VStr $"line") (ex_at (VInt 2) (VInt 3) (VInt 90)) (fdec 254 (-2)) (VStr $"~{RST}") (Some ex_effects)
    (VStr $"12") None true [SymbolAlternativePin_default; SymbolAlternativePin_default].
@prop C12 SymbolPin ex_pin
(** Everything a curve writes is unbalanced, so it cannot be read back ... *)
Theorem C12_SyCurve_refuted : forall o indent newline, SyCurve_ok o = true ->
  write_read SyCurve_to SyCurve_from o indent newline = Err EAssertion.
Proof. intros o i n H. unfold write_read. destruct (SyCurve_unbalanced o i n H) as (s & -> & E). cbn [bind]. now rewrite E. Qed.
Print Assumptions C12_SyCurve_refuted.
Definition ex_curve : SyCurve := mkSyCurve [ex_xy (VInt 2) (VInt 3); ex_xy (fdec 1 (-1)) (VInt 0)] ex_stroke ex_fill.
Example C12_SyCurve_ex : SyCurve_ok ex_curve = true.
Proof. vm_compute. reflexivity. Qed.
(** ... although the documented expression is read correctly. *)
Theorem C12_SyCurve_read : forall o, SyCurve_ok o = true -> SyCurve_from (SyCurve_tree o) = Ok o.
Proof. exact SyCurve_rd. Qed.
Print Assumptions C12_SyCurve_read.

(** ** C13: symbols and symbol libraries *)
Definition ex_unit (u : Z) (us : list Symbol) : Symbol :=
  mkSymbol VNone (VStr $"LM 358") (VInt u) (VInt 1) VNone false false false VNone None None false []
    [SyItem_SyRect SyRect_default; SyItem_SyArc SyArc_default] [ex_pin] us.
Definition ex_symbol : Symbol :=
  mkSymbol (VStr $"Amplifier") (VStr $"LM 358") VNone VNone (VStr $"LM ""X""") true true true (fdec 5 (-1)) (Some true) (Some false) true
    [ex_property; ex_property] [SyItem_SyCircle SyCircle_default; SyItem_SyText SyText_default] [ex_pin; SymbolPin_default]
    [ex_unit 0 []; ex_unit 1 [ex_unit 7 []; ex_unit 8 []]].
@prop C13 Symbol ex_symbol
@prop C13 SymbolLib mkSymbolLib (VInt 20211014) (VStr $"kicad_symbol_editor") [ex_symbol; ex_unit 3 []] VNone
(** A library with one curve in one symbol cannot be read back. *)
Theorem C13_curve_refuted :
  write_read SymbolLib_to SymbolLib_from (SymbolLib_default <| sj_generator := VStr $"x" |>
    <| sj_symbols := [ex_symbol <| sy_graphicItems := [SyItem_SyCurve ex_curve] |>] |>) 0 true = Err EAssertion.
Proof. vm_compute. reflexivity. Qed.
Print Assumptions C13_curve_refuted.
(** A hidden or offset pin name setting is lost unless [pinNames] is set. *)
Theorem C13_pin_names_refuted : exists o o',
  write_read Symbol_to Symbol_from o 0 true = Ok o' /\ sy_pinNamesHide o = true /\ sy_pinNamesHide o' = false.
Proof.
  exists (Symbol_default <| sy_entryName := VStr $"x" |> <| sy_pinNamesHide := true |>), (Symbol_default <| sy_entryName := VStr $"x" |>).
  repeat split; vm_compute; reflexivity.
Qed.
Print Assumptions C13_pin_names_refuted.
(** The default library (version a str, no generator) comes back with an int version and the
    generator 'None'. *)
Theorem C13_default_lib_refuted : exists o',
  write_read SymbolLib_to SymbolLib_from SymbolLib_default 0 true = Ok o' /\
  sj_version o' = VInt 20211014 /\ sj_generator o' = VStr $"None" /\ SymbolLib_eqb SymbolLib_default o' = false.
Proof. eexists. split; [vm_compute; reflexivity|]. repeat split; vm_compute; reflexivity. Qed.
Print Assumptions C13_default_lib_refuted.

(** ** C14: set and get of the library identifier *)
(** The setter accepts every str; afterwards the getter returns that str unless it is one of the
    [lossy] identifiers, in which case it returns something else. *)
Theorem C14_set_get : forall s o, exists o',
  Symbol_set_libId (VStr s) o = Ok o' /\ (Symbol_libId o' = s <-> ~ lossy s).
Proof. exact set_get. Qed.
Print Assumptions C14_set_get.
(** Anything but a str raises TypeError. *)
Theorem C14_set_type : forall v o, is_text v = false -> Symbol_set_libId v o = Err EType.
Proof. intros v o. apply set_other. Qed.
Print Assumptions C14_set_type.
(** How an identifier is taken apart: [nickname:entry] ... *)
Theorem C14_nickname : forall s n e t o, nick_form s n e t -> exists o',
  Symbol_set_libId (VStr s) o = Ok o' /\ sy_libraryNickname o' = VStr n /\ sy_entryName o' = VStr e
  /\ sy_unitId o' = VNone /\ sy_styleId o' = VNone.
Proof. intros s n e t o F. eexists. split; [exact (set_nick _ _ _ _ o F)|]. repeat split. Qed.
Print Assumptions C14_nickname.
(** ... else [entry_unit_style] ... *)
Theorem C14_unit : forall s e u v t o, (forall n e t, ~ nick_form s n e t) -> unit_form s e u v t -> exists o',
  Symbol_set_libId (VStr s) o = Ok o' /\ sy_libraryNickname o' = VNone /\ sy_entryName o' = VStr e
  /\ sy_unitId o' = VInt (digits_val u) /\ sy_styleId o' = VInt (digits_val v).
Proof. intros s e u v t o N F. eexists. split; [exact (set_unit _ _ _ _ _ o N F)|]. repeat split. Qed.
Print Assumptions C14_unit.
(** ... else the whole text is the entry. *)
Theorem C14_entry : forall s o, (forall n e t, ~ nick_form s n e t) -> (forall e u v t, ~ unit_form s e u v t) -> exists o',
  Symbol_set_libId (VStr s) o = Ok o' /\ sy_libraryNickname o' = VNone /\ sy_entryName o' = VStr s
  /\ sy_unitId o' = VNone /\ sy_styleId o' = VNone.
Proof. intros s o N U. eexists. split; [exact (set_plain _ o N U)|]. repeat split. Qed.
Print Assumptions C14_entry.
(** Conversely the four attributes can be recovered from the identifier, whenever they are
    a nickname with an entry, an entry with unit and style, or an entry alone ([id_ok]). *)
Theorem C14_get_set : forall o o1,
  id_ok (sy_libraryNickname o) (sy_entryName o) (sy_unitId o) (sy_styleId o) = true -> exists o',
  Symbol_set_libId (VStr (Symbol_libId o)) o1 = Ok o'
  /\ sy_libraryNickname o' = sy_libraryNickname o /\ sy_entryName o' = sy_entryName o
  /\ sy_unitId o' = sy_unitId o /\ sy_styleId o' = sy_styleId o.
Proof.
  intros o o1 H. rewrite (sym_id_libId o H). eexists. split; [exact (id_read _ _ _ _ o1 H)|]. repeat split.
Qed.
Print Assumptions C14_get_set.
Example C14_ex1 : nick_form $"Device:R_0_1" $"Device" $"R_0_1" [].
Proof. repeat split; try discriminate; try reflexivity. now left. Qed.
Example C14_ex2 : unit_form $"R_US_10_1" $"R_US" $"10" $"1" [].
Proof. repeat split; try discriminate; try reflexivity. now left. Qed.
Example C14_ex3 : id_ok VNone (VStr $"R_US") (VInt 10) (VInt 1) = true /\ id_ok (VStr $"Device") (VStr $"R:_0_1") VNone VNone = true
  /\ id_ok VNone (VStr $"R_0_") VNone VNone = true.
Proof. repeat split; vm_compute; reflexivity. Qed.
(** Identifiers that are not lossy: without line break, and without leading zeros. *)
Theorem C14_plain_ids : forall s, oneline s = true ->
  (forall e u v t, unit_form s e u v t -> decimal u = true /\ decimal v = true) -> ~ lossy s.
Proof. exact not_lossy. Qed.
Print Assumptions C14_plain_ids.
(** Identifiers that do not survive. *)
Theorem C14_lossy_refuted :
  (exists o', Symbol_set_libId (VStr $"R_01_1") Symbol_default = Ok o' /\ Symbol_libId o' = $"R_1_1")
  /\ (exists o', Symbol_set_libId (VStr ($"Device:R" ++ nl)) Symbol_default = Ok o' /\ Symbol_libId o' = $"Device:R").
Proof. split; eexists; (split; [vm_compute; reflexivity|vm_compute; reflexivity]). Qed.
Print Assumptions C14_lossy_refuted.
(** A nickname together with unit numbers is written without the numbers. *)
Theorem C14_nickname_with_unit_refuted : exists o, Symbol_libId o = $"Device:R" /\ sy_unitId o = VInt 1 /\ sy_styleId o = VInt 2.
Proof.
  exists (Symbol_default <| sy_libraryNickname := VStr $"Device" |> <| sy_entryName := VStr $"R" |> <| sy_unitId := VInt 1 |> <| sy_styleId := VInt 2 |>).
  repeat split.
Qed.
Print Assumptions C14_nickname_with_unit_refuted.

(** ** C15: renaming a symbol *)
(** Every direct unit gets the new entry name and keeps everything else, in particular its own
    unit and style number and its own units; the rest of the symbol does not change. *)
Theorem C15_rename : forall s o o', Symbol_set_libId (VStr s) o = Ok o' ->
  length (sy_units o') = length (sy_units o)
  /\ (forall i u u', nth_error (sy_units o) i = Some u -> nth_error (sy_units o') i = Some u' ->
        sy_entryName u' = sy_entryName o' /\ u' <| sy_entryName := sy_entryName u |> = u)
  /\ o' <| sy_libraryNickname := sy_libraryNickname o |> <| sy_entryName := sy_entryName o |> <| sy_unitId := sy_unitId o |>
        <| sy_styleId := sy_styleId o |> <| sy_units := sy_units o |> = o.
Proof. exact set_rename. Qed.
Print Assumptions C15_rename.
Example C15_ex : exists o', Symbol_set_libId (VStr $"New:Name") ex_symbol = Ok o'
  /\ map Symbol_libId (sy_units o') = [$"Name_0_1"; $"Name_1_1"]
  /\ map (fun u => map Symbol_libId (sy_units u)) (sy_units o') = [[]; [$"LM 358_7_1"; $"LM 358_8_1"]].
Proof. eexists. split; [vm_compute; reflexivity|]. repeat split; vm_compute; reflexivity. Qed.

(** ** C34: new symbols *)
Theorem C34_Symbol : forall s reference value footprint datasheet,
  oneline s = true -> quotableb s = true ->
  txtb reference = true -> txtb value = true -> txtb footprint = true -> txtb datasheet = true ->
  exists o, Symbol_create_new (VStr s) reference value footprint datasheet = Ok o
    /\ Symbol_ok o = true
    /\ map pr_key (sy_properties o) = [VStr $"Reference"; VStr $"Value"; VStr $"Footprint"; VStr $"Datasheet"]
    /\ map pr_value (sy_properties o) = [reference; value; footprint; datasheet]
    /\ sy_graphicItems o = [] /\ sy_pins o = [] /\ sy_units o = []
    /\ (Symbol_libId o = s <-> ~ lossy s)
    /\ forall indent newline, exists o', write_read Symbol_to Symbol_from o indent newline = Ok o' /\ Symbol_eqb o o' = true.
Proof. exact Symbol_new_rt. Qed.
Print Assumptions C34_Symbol.
Example C34_Symbol_ex : oneline $"Device:R" = true /\ quotableb $"Device:R" = true.
Proof. split; reflexivity. Qed.
