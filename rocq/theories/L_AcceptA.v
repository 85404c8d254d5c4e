(** Proofs for C48: which expressions are read, class by class *)
From Coq Require Import String.
From Verif Require Import PyBase PyNum PyStr PyRe M_Common M_Lib M_Sym M_Fp M_Gr M_Zone M_Footprint M_Dim M_Brd M_Board M_Sch M_Schematic M_Wks S_Write L_Write S_Accept L_Accept.

Lemma Position_a : forall v, is_ok (Position_from v) = Position_reads v.
Proof.
  assert (F : forall l o, is_ok (foldM (fun o item => on (item =s "unlocked") (setf po_unlocked (Ok true)) o) o l) = true).
  { intros l o. rewrite (ok_fold _ S_Accept.always); [now induction l|]. intros. ifs. }
  intros [| | | | |l]; try reflexivity. destruct l as [|a [|b [|c [|d l]]]]; try reflexivity;
  unfold Position_from; cbn [length Nat.ltb Nat.leb at_ nth_error bind on setf]; [apply F|].
  unfold setf at 2; cbn [bind]. destruct (negb _); [unfold setf at 1; cbn [on bind]|cbn [on bind]]; apply F.
Qed.
#[export] Hint Resolve Position_a : accd.

Lemma Coordinate_a : forall v, is_ok (Coordinate_from v) = Coordinate_reads v.
Proof. small_tac (unfold Coordinate_from, Coordinate_reads). Qed.
#[export] Hint Resolve Coordinate_a : accd.

Lemma ColorRGBA_a : forall v, is_ok (ColorRGBA_from v) = ColorRGBA_reads v.
Proof. small_tac (unfold ColorRGBA_from, ColorRGBA_reads). Qed.
#[export] Hint Resolve ColorRGBA_a : accd.

Lemma Stroke_step_a : forall o x, is_ok (Stroke_step o x) = (lists Stroke_table) x.
Proof. step_tac ltac:(unfold Stroke_step, Stroke_table). Qed.
Lemma Stroke_a : forall v, is_ok (Stroke_from v) = Stroke_reads v.
Proof. from_tac (unfold Stroke_from, Stroke_reads) 1 Stroke_step_a. Qed.
#[export] Hint Resolve Stroke_a : accd.

Lemma Font_step_a : forall o x, is_ok (Font_step o x) = (lists Font_table) x.
Proof. step_tac ltac:(unfold Font_step, Font_table). Qed.
Lemma Font_a : forall v, is_ok (Font_from v) = Font_reads v.
Proof. from_tac (unfold Font_from, Font_reads) 0 Font_step_a. Qed.
#[export] Hint Resolve Font_a : accd.

Lemma Justify_step_a : forall o x, is_ok (Justify_step o x) = S_Accept.always x.
Proof. intros. unfold Justify_step. ifs. Qed.
Lemma Justify_a : forall v, is_ok (Justify_from v) = Justify_reads v.
Proof. from_tac (unfold Justify_from, Justify_reads) 0 Justify_step_a. Qed.
#[export] Hint Resolve Justify_a : accd.

Lemma Effects_step_a : forall o x, is_ok (Effects_step o x) = (lists Effects_table) x.
Proof. step_tac ltac:(unfold Effects_step, Effects_table). Qed.
Lemma Effects_a : forall v, is_ok (Effects_from v) = Effects_reads v.
Proof. from_tac (unfold Effects_from, Effects_reads) 0 Effects_step_a. Qed.
#[export] Hint Resolve Effects_a : accd.

Lemma Net_a : forall v, is_ok (Net_from v) = Net_reads v.
Proof.
  intros v. unfold Net_reads, expr. transitivity (match v with VList (h :: _ :: _ :: _) => h =s "net" | _ => false end); [revert v; small_tac (unfold Net_from, need_head)|].
  destruct v as [| | | | |[|h [|a [|b l]]]]; cbn [length Nat.leb existsb skipn]; rewrite ?andb_false_r, ?andb_true_r, ?orb_false_r; try reflexivity.
  rewrite (always_all (_ :: _)). now rewrite andb_true_r.
Qed.
#[export] Hint Resolve Net_a : accd.

Lemma Group_step_a : forall o x, is_ok (Group_step o x) = (lists Group_table) x.
Proof. step_tac ltac:(unfold Group_step, Group_table). Qed.
Lemma Group_a : forall v, is_ok (Group_from v) = Group_reads v.
Proof. from_tac (unfold Group_from, Group_reads) 1 Group_step_a. Qed.
#[export] Hint Resolve Group_a : accd.

Lemma PageSettings_a : forall v, is_ok (PageSettings_from v) = PageSettings_reads v.
Proof.
  assert (F : forall l o, is_ok (foldM PageSettings_step o l) = true).
  { intros l o. rewrite (ok_fold _ S_Accept.always); [apply always_all|]. intros. unfold PageSettings_step. ifs. }
  intros v. unfold PageSettings_from, PageSettings_reads, need_head, need_list.
  destruct v as [| | | | |[|h l]]; try reflexivity. cbn [at_ nth_error bind].
  destruct (h =s "paper") eqn:E; cbn [negb bind andb]; [|destruct l; reflexivity].
  destruct l as [|x l]; [reflexivity|]. unfold setf at 1; cbn [nth_error bind andb].
  change (pg_paperSize (PageSettings_default <| pg_paperSize := x |>)) with x.
  destruct (x =s "User"); cbn [on bind]; [|apply F].
  destruct l as [|a [|b l]]; [reflexivity|reflexivity|]. cbn [length Nat.ltb Nat.leb at_ nth_error bind]. unfold setf; cbn [bind]. apply F.
Qed.
#[export] Hint Resolve PageSettings_a : accd.

Lemma TitleBlock_step_a : forall o x, is_ok (TitleBlock_step o x) = (strict TitleBlock_table) x.
Proof. step_tac ltac:(unfold TitleBlock_step, TitleBlock_table). Qed.
Lemma TitleBlock_a : forall v, is_ok (TitleBlock_from v) = TitleBlock_reads v.
Proof. from_tac (unfold TitleBlock_from, TitleBlock_reads) 0 TitleBlock_step_a. Qed.
#[export] Hint Resolve TitleBlock_a : accd.

Lemma Property_step_a : forall o x, is_ok (Property_step o x) = (strict Property_table) x.
Proof. step_tac ltac:(unfold Property_step, Property_table). Qed.
Lemma Property_a : forall v, is_ok (Property_from v) = Property_reads v.
Proof. from_tac (unfold Property_from, Property_reads) 2 Property_step_a. Qed.
#[export] Hint Resolve Property_a : accd.

Lemma RenderCachePolygon_step_a : forall o x, is_ok (RenderCachePolygon_step o x) = (strict RenderCachePolygon_table) x.
Proof. step_tac ltac:(unfold RenderCachePolygon_step, RenderCachePolygon_table). Qed.
Lemma RenderCachePolygon_a : forall v, is_ok (RenderCachePolygon_from v) = RenderCachePolygon_reads v.
Proof. from_tac (unfold RenderCachePolygon_from, RenderCachePolygon_reads) 0 RenderCachePolygon_step_a. Qed.
#[export] Hint Resolve RenderCachePolygon_a : accd.

Lemma RenderCache_step_a : forall o x, is_ok (RenderCache_step o x) = (strict RenderCache_table) x.
Proof. step_tac ltac:(unfold RenderCache_step, RenderCache_table). Qed.
Lemma RenderCache_a : forall v, is_ok (RenderCache_from v) = RenderCache_reads v.
Proof. from_tac (unfold RenderCache_from, RenderCache_reads) 2 RenderCache_step_a. Qed.
#[export] Hint Resolve RenderCache_a : accd.

Lemma Fill_step_a : forall o x, is_ok (Fill_step o x) = (strict Fill_table) x.
Proof. step_tac ltac:(unfold Fill_step, Fill_table). Qed.
Lemma Fill_a : forall v, is_ok (Fill_from v) = Fill_reads v.
Proof. from_tac (unfold Fill_from, Fill_reads) 0 Fill_step_a. Qed.
#[export] Hint Resolve Fill_a : accd.

Lemma Image_step_a : forall o x, is_ok (Image_step o x) = (strict Image_table) x.
Proof. step_tac ltac:(unfold Image_step, Image_table). Qed.
Lemma Image_a : forall v, is_ok (Image_from v) = Image_reads v.
Proof. from_tac (unfold Image_from, Image_reads) 0 Image_step_a. Qed.
#[export] Hint Resolve Image_a : accd.

Lemma Library_step_a : forall o x, is_ok (Library_step o x) = (strict Library_table) x.
Proof. step_tac ltac:(unfold Library_step, Library_table). Qed.
Lemma Library_a : forall v, is_ok (Library_from v) = Library_reads v.
Proof. from_tac (unfold Library_from, Library_reads) 0 Library_step_a. Qed.
#[export] Hint Resolve Library_a : accd.

Lemma LibTable_step_a : forall o x, is_ok (LibTable_step o x) = (strict LibTable_table) x.
Proof. step_tac ltac:(unfold LibTable_step, LibTable_table). Qed.
Lemma LibTable_a : forall v, is_ok (LibTable_from v) = LibTable_reads v.
Proof. from_tac (unfold LibTable_from, LibTable_reads) 0 LibTable_step_a. Qed.
#[export] Hint Resolve LibTable_a : accd.

Lemma Constraint_step_a : forall o x, is_ok (Constraint_step o x) = (strict Constraint_table) x.
Proof. step_tac ltac:(unfold Constraint_step, Constraint_table). Qed.
Lemma Constraint_a : forall v, is_ok (Constraint_from v) = Constraint_reads v.
Proof. from_tac (unfold Constraint_from, Constraint_reads) 1 Constraint_step_a. Qed.
#[export] Hint Resolve Constraint_a : accd.

Lemma Rule_step_a : forall o x, is_ok (Rule_step o x) = (strict Rule_table) x.
Proof. step_tac ltac:(unfold Rule_step, Rule_table). Qed.
Lemma Rule_a : forall v, is_ok (Rule_from v) = Rule_reads v.
Proof. from_tac (unfold Rule_from, Rule_reads) 1 Rule_step_a. Qed.
#[export] Hint Resolve Rule_a : accd.

Lemma DesignRules_step_a : forall o x, is_ok (DesignRules_step o x) = strict DesignRules_table x.
Proof. step_tac ltac:(unfold DesignRules_step, DesignRules_table). Qed.
Lemma DesignRules_a : forall v, is_ok (DesignRules_from v) = DesignRules_reads v.
Proof.
  intros v. unfold DesignRules_from, DesignRules_reads, need_list.
  destruct v as [| | | | |[|f l]]; try reflexivity. cbn [at_ nth_error bind].
  destruct f as [| | | | |[|h m]]; try reflexivity. cbn [at_ nth_error bind].
  destruct (h =s "version"); [|reflexivity]. cbn [negb andb]. now rewrite (ok_fold _ _ DesignRules_step_a).
Qed.
#[export] Hint Resolve DesignRules_a : accd.

Lemma SyArc_step_a : forall o x, is_ok (SyArc_step o x) = (texts SyArc_table) x.
Proof. step_tac ltac:(unfold SyArc_step, SyArc_table). Qed.
Lemma SyArc_a : forall v, is_ok (SyArc_from v) = SyArc_reads v.
Proof. from_tac (unfold SyArc_from, SyArc_reads) 0 SyArc_step_a. Qed.
#[export] Hint Resolve SyArc_a : accd.

Lemma SyCircle_step_a : forall o x, is_ok (SyCircle_step o x) = (texts SyCircle_table) x.
Proof. step_tac ltac:(unfold SyCircle_step, SyCircle_table). Qed.
Lemma SyCircle_a : forall v, is_ok (SyCircle_from v) = SyCircle_reads v.
Proof. from_tac (unfold SyCircle_from, SyCircle_reads) 0 SyCircle_step_a. Qed.
#[export] Hint Resolve SyCircle_a : accd.

Lemma SyCurve_step_a : forall o x, is_ok (SyCurve_step o x) = (strict SyCurve_table) x.
Proof. step_tac ltac:(unfold SyCurve_step, SyCurve_table). Qed.
Lemma SyCurve_a : forall v, is_ok (SyCurve_from v) = SyCurve_reads v.
Proof. from_tac (unfold SyCurve_from, SyCurve_reads) 0 SyCurve_step_a. Qed.
#[export] Hint Resolve SyCurve_a : accd.

Lemma SyPolyLine_step_a : forall o x, is_ok (SyPolyLine_step o x) = (strict SyPolyLine_table) x.
Proof. step_tac ltac:(unfold SyPolyLine_step, SyPolyLine_table). Qed.
Lemma SyPolyLine_a : forall v, is_ok (SyPolyLine_from v) = SyPolyLine_reads v.
Proof. from_tac (unfold SyPolyLine_from, SyPolyLine_reads) 0 SyPolyLine_step_a. Qed.
#[export] Hint Resolve SyPolyLine_a : accd.

Lemma SyRect_step_a : forall o x, is_ok (SyRect_step o x) = (texts SyRect_table) x.
Proof. step_tac ltac:(unfold SyRect_step, SyRect_table). Qed.
Lemma SyRect_a : forall v, is_ok (SyRect_from v) = SyRect_reads v.
Proof. from_tac (unfold SyRect_from, SyRect_reads) 0 SyRect_step_a. Qed.
#[export] Hint Resolve SyRect_a : accd.

Lemma SyText_step_a : forall o x, is_ok (SyText_step o x) = (strict SyText_table) x.
Proof. step_tac ltac:(unfold SyText_step, SyText_table). Qed.
Lemma SyText_a : forall v, is_ok (SyText_from v) = SyText_reads v.
Proof. from_tac (unfold SyText_from, SyText_reads) 1 SyText_step_a. Qed.
#[export] Hint Resolve SyText_a : accd.

Lemma SyTextBox_step_a : forall o x, is_ok (SyTextBox_step o x) = strict SyTextBox_table x.
Proof. step_tac ltac:(unfold SyTextBox_step, SyTextBox_table). Qed.
Lemma SyTextBox_a : forall v, is_ok (SyTextBox_from v) = SyTextBox_reads v.
Proof.
  intros v. unfold SyTextBox_from, SyTextBox_reads, SyTextBox_private, flagged_expr, need_head, need_list.
  destruct v as [| | | | |[|h [|x l]]]; try reflexivity; cbn [at_ nth_error bind]; destruct (h =s "text_box"); try reflexivity.
  cbn [negb bind andb at_ nth_error]. destruct (x =s "private"); cbn [bind].
  - destruct l as [|y l]; [reflexivity|]. cbn [nth_error bind]. destruct y; cbn [is_list negb]; unfold setf; cbn [at_ nth_error bind skipn]; apply (ok_fold _ _ SyTextBox_step_a).
  - unfold setf; cbn [at_ nth_error bind skipn]; apply (ok_fold _ _ SyTextBox_step_a).
Qed.
#[export] Hint Resolve SyTextBox_a : accd.

Lemma SymbolAlternativePin_a : forall v, is_ok (SymbolAlternativePin_from v) = SymbolAlternativePin_reads v.
Proof.
  intros v. unfold SymbolAlternativePin_reads, expr.
  transitivity (match v with VList (h :: _ :: _ :: _ :: _) => h =s "alternate" | _ => false end); [revert v; small_tac (unfold SymbolAlternativePin_from, need_head)|].
  destruct v as [| | | | |[|h [|a [|b [|c l]]]]]; cbn [length Nat.leb existsb skipn]; rewrite ?andb_false_r, ?andb_true_r, ?orb_false_r; try reflexivity.
  rewrite (always_all (_ :: _)). now rewrite andb_true_r.
Qed.
#[export] Hint Resolve SymbolAlternativePin_a : accd.

Lemma SymbolPin_step_a : forall o x, is_ok (SymbolPin_step o x) = (lists SymbolPin_table) x.
Proof. step_tac ltac:(unfold SymbolPin_step, SymbolPin_table). Qed.
Lemma SymbolPin_a : forall v, is_ok (SymbolPin_from v) = SymbolPin_reads v.
Proof. from_tac (unfold SymbolPin_from, SymbolPin_reads) 2 SymbolPin_step_a. Qed.
#[export] Hint Resolve SymbolPin_a : accd.

Lemma Symbol_item_a {A} (c : A -> SyItem) m o : is_ok (Symbol_item c m o) = is_ok m.
Proof. unfold Symbol_item. rewrite ok_addf. now destruct m. Qed.
Lemma Symbol_names_a : forall o x, is_ok (Symbol_pin_names_step o x) = lists [("offset"%string, has 1)] x.
Proof.
  intros o x. unfold Symbol_pin_names_step. destruct x as [| | | | |[|h l]]; try reflexivity; cbn [is_list]; [ifs|].
  cbn [lists rows forallb fst snd at_ nth_error bind]. rewrite andb_true_r. destruct (h =s "offset"); [|reflexivity]. now destruct l.
Qed.
Lemma Symbol_id_a id o : is_ok (Symbol_set_libId id o) = text id.
Proof.
  unfold Symbol_set_libId. rewrite <- ok_as_text. destruct (as_text id); [|reflexivity]. cbn [bind is_ok].
  destruct (re_match re_nick a); [reflexivity|]. now destruct (re_match re_unit a).
Qed.
Lemma Symbol_step_one rec o x :
  is_ok (Symbol_step rec o x) = (if at_place 0 (fun h => h =s "symbol") x then is_ok (rec x) else true) && strict Symbol_table x.
Proof.
  rename x into item. unfold Symbol_step, Symbol_table. unfold strict, rows. destruct item as [| | | |s|l]; try reflexivity.
  - destruct s as [|c s]; [reflexivity|]. cbn [at_place andb]. text_chain.
  - destruct l as [|h l]; [reflexivity|]. change (at_ (VList (h :: l)) 0) with (Ok h). cbn [bind forallb fst snd at_place nth_error].
    set (item := VList (h :: l)).
    assert (Hsym : forall o, is_ok (addf sy_units (rec item) o) = is_ok (rec item)) by (intros; apply ok_addf).
    assert (Hn : forall o, is_ok (let! o := setf sy_pinNames (Ok true) o in let! l := from_ item 1 in foldM Symbol_pin_names_step o l) = behind 1 (lists [("offset"%string, has 1)]) item).
    { intros. unfold setf, item; cbn [bind from_]. apply (ok_fold _ _ Symbol_names_a). }
    assert (Hp : forall o, is_ok (let! x := item@1 in on (x =s "hide") (setf sy_hidePinNumbers (Ok true)) o) = has 1 item).
    { intros. rewrite <- ok_at. destruct (item@1); [|reflexivity]. cbn [bind]. ifs. }
    match goal with |- is_ok ?m = _ => transitivity ((if h =s "extends" then has 1 item else true) && ((if h =s "pin_numbers" then has 1 item else true) && ((if h =s "pin_names" then behind 1 (lists [("offset"%string, has 1)]) item else true)
      && ((if h =s "in_bom" then has 1 item else true) && ((if h =s "on_board" then has 1 item else true) && ((if h =s "power" then true else true) && ((if h =s "symbol" then is_ok (rec item) else true) &&
       ((if h =s "property" then Property_reads item else true) && ((if h =s "pin" then SymbolPin_reads item else true) && ((if h =s "arc" then SyArc_reads item else true) &&
       ((if h =s "circle" then SyCircle_reads item else true) && ((if h =s "curve" then SyCurve_reads item else true) && ((if h =s "polyline" then SyPolyLine_reads item else true) &&
       ((if h =s "rectangle" then SyRect_reads item else true) && ((if h =s "text" then SyText_reads item else true) && ((if h =s "text_box" then SyTextBox_reads item else true) && true)))))))))))))))) end.
    { repeat first [ apply ok_row; [intros ?; first [apply Hsym | apply Hn | apply Hp | rewrite Symbol_item_a; okr | okr]|intros ?] | reflexivity]. }
    change (S_Accept.always item) with true.
    repeat match goal with |- context[if ?b then ?c else true] => let x := fresh "X" in set (x := if b then c else true) end.
    repeat match goal with H := _ : bool |- _ => clearbody H end.
    repeat match goal with H : bool |- _ => destruct H; rewrite ?andb_false_r; [cbn [andb] | reflexivity] end. reflexivity.
Qed.
Lemma Symbol_a : forall v, is_ok (Symbol_from v) = Symbol_reads v.
Proof.
  fix IH 1. intros [| | | | |[|h [|id l]]]; try reflexivity.
  - cbn [Symbol_from Symbol_reads]. now destruct (h =s "symbol").
  - cbn [Symbol_from Symbol_reads]. destruct (h =s "symbol"); [|now destruct id].
    cbn [andb].
    assert (E : forall o, is_ok (foldM (fun o item => Symbol_step Symbol_from o item) o l)
       = forallb (fun x => (if at_place 0 (fun h => h =s "symbol") x then Symbol_reads x else true) && strict Symbol_table x) l).
    { induction l as [|x l IHl]; intros o; [reflexivity|]. cbn [foldM forallb].
      assert (K : is_ok (Symbol_step Symbol_from o x) = (if at_place 0 (fun h => h =s "symbol") x then Symbol_reads x else true) && strict Symbol_table x).
      { rewrite (Symbol_step_one Symbol_from o x). rewrite (IH x). reflexivity. }
      rewrite <- K. destruct (Symbol_step Symbol_from o x); [apply IHl|reflexivity]. }
    pose proof (Symbol_id_a id Symbol_default) as I. destruct (Symbol_set_libId id Symbol_default); cbn [bind].
    + destruct id; try discriminate I. apply E.
    + destruct id; try discriminate I; reflexivity.
Qed.
#[export] Hint Resolve Symbol_a : accd.

Lemma SymbolLib_step_a : forall o x, is_ok (SymbolLib_step o x) = (strict SymbolLib_table) x.
Proof. step_tac ltac:(unfold SymbolLib_step, SymbolLib_table). Qed.
Lemma SymbolLib_a : forall v, is_ok (SymbolLib_from v) = SymbolLib_reads v.
Proof. from_tac (unfold SymbolLib_from, SymbolLib_reads) 0 SymbolLib_step_a. Qed.
#[export] Hint Resolve SymbolLib_a : accd.

Lemma FpText_step_a : forall o x, is_ok (FpText_step o x) = (lists FpText_table) x.
Proof. step_tac ltac:(unfold FpText_step, FpText_table). Qed.
Lemma FpText_a : forall v, is_ok (FpText_from v) = FpText_reads v.
Proof. from_tac (unfold FpText_from, FpText_reads) 2 FpText_step_a. Qed.
#[export] Hint Resolve FpText_a : accd.

Lemma FpLine_step_a : forall o x, is_ok (FpLine_step o x) = (lists FpLine_table) x.
Proof. step_tac ltac:(unfold FpLine_step, FpLine_table). Qed.
Lemma FpLine_a : forall v, is_ok (FpLine_from v) = FpLine_reads v.
Proof. from_tac (unfold FpLine_from, FpLine_reads) 0 FpLine_step_a. Qed.
#[export] Hint Resolve FpLine_a : accd.

Lemma FpRect_step_a : forall o x, is_ok (FpRect_step o x) = (lists FpRect_table) x.
Proof. step_tac ltac:(unfold FpRect_step, FpRect_table). Qed.
Lemma FpRect_a : forall v, is_ok (FpRect_from v) = FpRect_reads v.
Proof. from_tac (unfold FpRect_from, FpRect_reads) 0 FpRect_step_a. Qed.
#[export] Hint Resolve FpRect_a : accd.

Lemma FpTextBox_step_a : forall o x, is_ok (FpTextBox_step o x) = strict FpTextBox_table x.
Proof. step_tac ltac:(unfold FpTextBox_step, FpTextBox_table). Qed.
Lemma FpTextBox_a : forall v, is_ok (FpTextBox_from v) = FpTextBox_reads v.
Proof.
  intros v. unfold FpTextBox_from, FpTextBox_reads, text_box_locked, flagged_expr, need_list.
  destruct v as [| | | | |[|h [|x l]]]; try reflexivity; cbn [at_ nth_error bind length Nat.ltb Nat.leb]; destruct (h =s "fp_text_box"); try reflexivity.
  cbn [negb bind andb at_ nth_error]. destruct (x =s "locked"); cbn [bind].
  - destruct l as [|y l]; [reflexivity|]. cbn [nth_error bind]. destruct y; cbn [is_list negb]; cbn [at_ nth_error bind skipn]; apply (ok_fold _ _ FpTextBox_step_a).
  - cbn [at_ nth_error bind skipn]; apply (ok_fold _ _ FpTextBox_step_a).
Qed.
#[export] Hint Resolve FpTextBox_a : accd.

Lemma FpCircle_step_a : forall o x, is_ok (FpCircle_step o x) = (lists FpCircle_table) x.
Proof. step_tac ltac:(unfold FpCircle_step, FpCircle_table). Qed.
Lemma FpCircle_a : forall v, is_ok (FpCircle_from v) = FpCircle_reads v.
Proof. from_tac (unfold FpCircle_from, FpCircle_reads) 0 FpCircle_step_a. Qed.
#[export] Hint Resolve FpCircle_a : accd.

Lemma FpArc_step_a : forall o x, is_ok (FpArc_step o x) = (lists FpArc_table) x.
Proof. step_tac ltac:(unfold FpArc_step, FpArc_table). Qed.
Lemma FpArc_a : forall v, is_ok (FpArc_from v) = FpArc_reads v.
Proof. from_tac (unfold FpArc_from, FpArc_reads) 0 FpArc_step_a. Qed.
#[export] Hint Resolve FpArc_a : accd.

Lemma FpPoly_step_a : forall o x, is_ok (FpPoly_step o x) = (lists FpPoly_table) x.
Proof. step_tac ltac:(unfold FpPoly_step, FpPoly_table). Qed.
Lemma FpPoly_a : forall v, is_ok (FpPoly_from v) = FpPoly_reads v.
Proof. from_tac (unfold FpPoly_from, FpPoly_reads) 0 FpPoly_step_a. Qed.
#[export] Hint Resolve FpPoly_a : accd.

Lemma FpCurve_step_a : forall o x, is_ok (FpCurve_step o x) = (lists FpCurve_table) x.
Proof. step_tac ltac:(unfold FpCurve_step, FpCurve_table). Qed.
Lemma FpCurve_a : forall v, is_ok (FpCurve_from v) = FpCurve_reads v.
Proof. from_tac (unfold FpCurve_from, FpCurve_reads) 0 FpCurve_step_a. Qed.
#[export] Hint Resolve FpCurve_a : accd.

Lemma GrText_step_a : forall o x, is_ok (GrText_step o x) = (lists GrText_table) x.
Proof. step_tac ltac:(unfold GrText_step, GrText_table). Qed.
Lemma GrText_a : forall v, is_ok (GrText_from v) = GrText_reads v.
Proof. from_tac (unfold GrText_from, GrText_reads) 1 GrText_step_a. Qed.
#[export] Hint Resolve GrText_a : accd.

Lemma GrTextBox_step_a : forall o x, is_ok (GrTextBox_step o x) = strict GrTextBox_table x.
Proof. step_tac ltac:(unfold GrTextBox_step, GrTextBox_table). Qed.
Lemma GrTextBox_a : forall v, is_ok (GrTextBox_from v) = GrTextBox_reads v.
Proof.
  intros v. unfold GrTextBox_from, GrTextBox_reads, text_box_locked, flagged_expr, need_list.
  destruct v as [| | | | |[|h [|x l]]]; try reflexivity; cbn [at_ nth_error bind length Nat.ltb Nat.leb]; destruct (h =s "gr_text_box"); try reflexivity.
  cbn [negb bind andb at_ nth_error]. destruct (x =s "locked"); cbn [bind].
  - destruct l as [|y l]; [reflexivity|]. cbn [nth_error bind]. destruct y; cbn [is_list negb]; cbn [at_ nth_error bind skipn]; apply (ok_fold _ _ GrTextBox_step_a).
  - cbn [at_ nth_error bind skipn]; apply (ok_fold _ _ GrTextBox_step_a).
Qed.
#[export] Hint Resolve GrTextBox_a : accd.

Lemma GrLine_step_a : forall o x, is_ok (GrLine_step o x) = (lists GrLine_table) x.
Proof. step_tac ltac:(unfold GrLine_step, GrLine_table). Qed.
Lemma GrLine_a : forall v, is_ok (GrLine_from v) = GrLine_reads v.
Proof. from_tac (unfold GrLine_from, GrLine_reads) 0 GrLine_step_a. Qed.
#[export] Hint Resolve GrLine_a : accd.

Lemma GrRect_step_a : forall o x, is_ok (GrRect_step o x) = (lists GrRect_table) x.
Proof. step_tac ltac:(unfold GrRect_step, GrRect_table). Qed.
Lemma GrRect_a : forall v, is_ok (GrRect_from v) = GrRect_reads v.
Proof. from_tac (unfold GrRect_from, GrRect_reads) 0 GrRect_step_a. Qed.
#[export] Hint Resolve GrRect_a : accd.

Lemma GrCircle_step_a : forall o x, is_ok (GrCircle_step o x) = (lists GrCircle_table) x.
Proof. step_tac ltac:(unfold GrCircle_step, GrCircle_table). Qed.
Lemma GrCircle_a : forall v, is_ok (GrCircle_from v) = GrCircle_reads v.
Proof. from_tac (unfold GrCircle_from, GrCircle_reads) 0 GrCircle_step_a. Qed.
#[export] Hint Resolve GrCircle_a : accd.

Lemma GrArc_step_a : forall o x, is_ok (GrArc_step o x) = (lists GrArc_table) x.
Proof. step_tac ltac:(unfold GrArc_step, GrArc_table). Qed.
Lemma GrArc_a : forall v, is_ok (GrArc_from v) = GrArc_reads v.
Proof. from_tac (unfold GrArc_from, GrArc_reads) 0 GrArc_step_a. Qed.
#[export] Hint Resolve GrArc_a : accd.

Lemma GrPoly_step_a : forall o x, is_ok (GrPoly_step o x) = (lists GrPoly_table) x.
Proof. step_tac ltac:(unfold GrPoly_step, GrPoly_table). Qed.
Lemma GrPoly_a : forall v, is_ok (GrPoly_from v) = GrPoly_reads v.
Proof. from_tac (unfold GrPoly_from, GrPoly_reads) 0 GrPoly_step_a. Qed.
#[export] Hint Resolve GrPoly_a : accd.

Lemma GrCurve_step_a : forall o x, is_ok (GrCurve_step o x) = (lists GrCurve_table) x.
Proof. step_tac ltac:(unfold GrCurve_step, GrCurve_table). Qed.
Lemma GrCurve_a : forall v, is_ok (GrCurve_from v) = GrCurve_reads v.
Proof. from_tac (unfold GrCurve_from, GrCurve_reads) 0 GrCurve_step_a. Qed.
#[export] Hint Resolve GrCurve_a : accd.

Lemma KeepoutSettings_step_a : forall o x, is_ok (KeepoutSettings_step o x) = (lists KeepoutSettings_table) x.
Proof. step_tac ltac:(unfold KeepoutSettings_step, KeepoutSettings_table). Qed.
Lemma KeepoutSettings_a : forall v, is_ok (KeepoutSettings_from v) = KeepoutSettings_reads v.
Proof. from_tac (unfold KeepoutSettings_from, KeepoutSettings_reads) 0 KeepoutSettings_step_a. Qed.
#[export] Hint Resolve KeepoutSettings_a : accd.

Lemma FillSettings_step_a : forall o x, is_ok (FillSettings_step o x) = (lists FillSettings_table) x.
Proof. step_tac ltac:(unfold FillSettings_step, FillSettings_table). Qed.
Lemma FillSettings_a : forall v, is_ok (FillSettings_from v) = FillSettings_reads v.
Proof. from_tac (unfold FillSettings_from, FillSettings_reads) 0 FillSettings_step_a. Qed.
#[export] Hint Resolve FillSettings_a : accd.

Lemma ZonePolygon_step_a : forall o x, is_ok (ZonePolygon_step o x) = (lists ZonePolygon_table) x.
Proof. step_tac ltac:(unfold ZonePolygon_step, ZonePolygon_table). Qed.
Lemma ZonePolygon_a : forall v, is_ok (ZonePolygon_from v) = ZonePolygon_reads v.
Proof. from_tac (unfold ZonePolygon_from, ZonePolygon_reads) 0 ZonePolygon_step_a. Qed.
#[export] Hint Resolve ZonePolygon_a : accd.

Lemma FilledPolygon_step_a : forall o x, is_ok (FilledPolygon_step o x) = (lists FilledPolygon_table) x.
Proof. step_tac ltac:(unfold FilledPolygon_step, FilledPolygon_table). Qed.
Lemma FilledPolygon_a : forall v, is_ok (FilledPolygon_from v) = FilledPolygon_reads v.
Proof. from_tac (unfold FilledPolygon_from, FilledPolygon_reads) 0 FilledPolygon_step_a. Qed.
#[export] Hint Resolve FilledPolygon_a : accd.

Lemma FillSegments_step_a : forall o x, is_ok (FillSegments_step o x) = (lists FillSegments_table) x.
Proof. step_tac ltac:(unfold FillSegments_step, FillSegments_table). Qed.
Lemma FillSegments_a : forall v, is_ok (FillSegments_from v) = FillSegments_reads v.
Proof. from_tac (unfold FillSegments_from, FillSegments_reads) 0 FillSegments_step_a. Qed.
#[export] Hint Resolve FillSegments_a : accd.

Lemma Zone_step_a : forall o x, is_ok (Zone_step o x) = (lists Zone_table) x.
Proof. step_tac ltac:(unfold Zone_step, Zone_table). Qed.
Lemma Zone_a : forall v, is_ok (Zone_from v) = Zone_reads v.
Proof. from_tac (unfold Zone_from, Zone_reads) 0 Zone_step_a. Qed.
#[export] Hint Resolve Zone_a : accd.

Lemma Attributes_a : forall v, is_ok (Attributes_from v) = Attributes_reads v.
Proof.
  assert (F : forall l o, is_ok (foldM Attributes_item o l) = true).
  { intros l o. rewrite (ok_fold _ S_Accept.always); [apply always_all|]. intros. unfold Attributes_item. ifs. }
  intros v. unfold Attributes_from, Attributes_reads, expr, need_head, need_list.
  destruct v as [| | | | |[|h l]]; try reflexivity. cbn [at_ nth_error bind existsb orb length Nat.leb skipn].
  destruct (h =s "attr"); [|reflexivity]. cbn [negb bind andb]. rewrite always_all.
  destruct l as [|x l]; cbn [length Nat.ltb Nat.leb on bind nth_error]; [apply F|].
  destruct (_ || _); unfold setf; cbn [on bind]; apply F.
Qed.
#[export] Hint Resolve Attributes_a : accd.

Lemma Model_step_a : forall o x, is_ok (Model_step o x) = strict Model_table x.
Proof. step_tac ltac:(unfold Model_step, Model_table). Qed.
Lemma Model_a : forall v, is_ok (Model_from v) = Model_reads v.
Proof.
  intros v. unfold Model_from, Model_reads, expr, need_list, setf.
  destruct v as [| | | | |[|h [|p [|x [|y [|z l]]]]]]; cbn [length Nat.ltb Nat.leb existsb bind]; rewrite ?andb_false_r; try reflexivity.
  cbn [at_ nth_error bind skipn]. rewrite orb_false_r, andb_true_r. destruct (h =s "model"); [|reflexivity]. cbn [negb bind andb].
  rewrite <- (ok_fold _ _ Model_step_a (x :: y :: z :: l) (if x =s "hide" then Model_default <| mo_path := p |> <| mo_hide := true |> else Model_default <| mo_path := p |>)).
  destruct (x =s "hide"); reflexivity.
Qed.
#[export] Hint Resolve Model_a : accd.

Lemma DrillDefinition_step_a : forall o x, is_ok (DrillDefinition_step o x) = lists DrillDefinition_table x.
Proof. step_tac ltac:(unfold DrillDefinition_step, DrillDefinition_table). Qed.
Lemma DrillDefinition_a : forall v, is_ok (DrillDefinition_from v) = DrillDefinition_reads v.
Proof.
  intros v. unfold DrillDefinition_from, DrillDefinition_reads, need_head, need_list.
  destruct v as [| | | | |[|h [|x l]]]; try reflexivity; cbn [at_ nth_error bind]; destruct (h =s "drill") eqn:E; try reflexivity.
  apply is_str_true in E; subst h. cbn [negb bind andb at_ nth_error]. destruct (x =s "oval").
  - destruct l as [|a [|b l]]; [reflexivity|reflexivity|]. unfold setf; cbn [nth_error bind length Nat.leb andb]. now rewrite (ok_fold _ _ DrillDefinition_step_a).
  - unfold setf; cbn [bind andb]. destruct l; cbn [length Nat.ltb Nat.leb on at_ nth_error bind]; now rewrite (ok_fold _ _ DrillDefinition_step_a).
Qed.
#[export] Hint Resolve DrillDefinition_a : accd.

Lemma PadOptions_step_a : forall o x, is_ok (PadOptions_step o x) = (strict PadOptions_table) x.
Proof. step_tac ltac:(unfold PadOptions_step, PadOptions_table). Qed.
Lemma PadOptions_a : forall v, is_ok (PadOptions_from v) = PadOptions_reads v.
Proof. from_tac (unfold PadOptions_from, PadOptions_reads) 0 PadOptions_step_a. Qed.
#[export] Hint Resolve PadOptions_a : accd.

Lemma PadPrimitive_a : forall x, is_ok (PadPrimitive_read x) = strict PadPrimitive_table x.
Proof.
  intros x. unfold PadPrimitive_read, strict, rows, PadPrimitive_table. destruct x as [| | | |s|l]; try reflexivity; [step_text s|].
  destruct l as [|h l]; [reflexivity|]. change (at_ (VList (h :: l)) 0) with (Ok h). cbn [bind forallb fst snd].
  repeat match goal with |- is_ok (if is_str h ?k then _ else _) = _ => destruct (is_str h k) eqn:?E; cbn [andb];
    [match goal with H : is_str h k = true |- _ => apply is_str_true in H; subst h end; decide_heads; cbn [andb]; rewrite ?andb_true_r; okr|] end.
  reflexivity.
Qed.
Lemma PadPrimitives_a l : is_ok (PadPrimitives_read l) = forallb (strict PadPrimitive_table) l.
Proof. unfold PadPrimitives_read. rewrite <- (ok_map _ _ l PadPrimitive_a). now destruct (mapM _ l). Qed.
Lemma Pad_each l n : is_ok (let! m := from_ (VList l) n in PadPrimitives_read m) = behind n (strict PadPrimitive_table) (VList l).
Proof. apply PadPrimitives_a. Qed.
#[export] Hint Resolve Pad_each : accd.

Lemma Pad_step_a : forall o x, is_ok (Pad_step o x) = (strict Pad_table) x.
Proof. step_tac ltac:(unfold Pad_step, Pad_table). Qed.
Lemma Pad_a : forall v, is_ok (Pad_from v) = Pad_reads v.
Proof. from_tac (unfold Pad_from, Pad_reads) 3 Pad_step_a. Qed.
#[export] Hint Resolve Pad_a : accd.

Lemma Footprint_item_a {A} (c : A -> FpItem) m o b : is_ok m = b -> is_ok (Footprint_item c m o) = b.
Proof. intros <-. unfold Footprint_item. rewrite ok_addf. now destruct m. Qed.
Ltac okq_more ::= lazymatch goal with |- is_ok (Footprint_item _ _ _) = _ => eapply Footprint_item_a; okq end.

Lemma Footprint_step_a : forall o x, is_ok (Footprint_step o x) = (lists Footprint_table) x.
Proof. step_tac ltac:(unfold Footprint_step, Footprint_table). Qed.
Lemma Footprint_a now : forall v, is_ok (Footprint_from now v) = Footprint_reads v.
Proof. from_tac (unfold Footprint_from, Footprint_reads) 1 Footprint_step_a. Qed.
#[export] Hint Resolve Footprint_a : accd.

Lemma DimensionFormat_step_a : forall o x, is_ok (DimensionFormat_step o x) = (lists DimensionFormat_table) x.
Proof. step_tac ltac:(unfold DimensionFormat_step, DimensionFormat_table). Qed.
Lemma DimensionFormat_a : forall v, is_ok (DimensionFormat_from v) = DimensionFormat_reads v.
Proof. from_tac (unfold DimensionFormat_from, DimensionFormat_reads) 0 DimensionFormat_step_a. Qed.
#[export] Hint Resolve DimensionFormat_a : accd.

Lemma DimensionStyle_step_a : forall o x, is_ok (DimensionStyle_step o x) = (lists DimensionStyle_table) x.
Proof. step_tac ltac:(unfold DimensionStyle_step, DimensionStyle_table). Qed.
Lemma DimensionStyle_a : forall v, is_ok (DimensionStyle_from v) = DimensionStyle_reads v.
Proof. from_tac (unfold DimensionStyle_from, DimensionStyle_reads) 0 DimensionStyle_step_a. Qed.
#[export] Hint Resolve DimensionStyle_a : accd.

Lemma Dimension_step_a : forall o x, is_ok (Dimension_step o x) = (lists Dimension_table) x.
Proof. step_tac ltac:(unfold Dimension_step, Dimension_table). Qed.
Lemma Dimension_a : forall v, is_ok (Dimension_from v) = Dimension_reads v.
Proof. from_tac (unfold Dimension_from, Dimension_reads) 0 Dimension_step_a. Qed.
#[export] Hint Resolve Dimension_a : accd.

Lemma GeneralSettings_step_a : forall o x, is_ok (GeneralSettings_step o x) = (strict GeneralSettings_table) x.
Proof. step_tac ltac:(unfold GeneralSettings_step, GeneralSettings_table). Qed.
Lemma GeneralSettings_a : forall v, is_ok (GeneralSettings_from v) = GeneralSettings_reads v.
Proof. from_tac (unfold GeneralSettings_from, GeneralSettings_reads) 0 GeneralSettings_step_a. Qed.
#[export] Hint Resolve GeneralSettings_a : accd.

Lemma LayerToken_a : forall v, is_ok (LayerToken_from v) = LayerToken_reads v.
Proof. small_tac (unfold LayerToken_from, LayerToken_reads). Qed.
#[export] Hint Resolve LayerToken_a : accd.

Lemma StackupSubLayer_a : forall v, is_ok (StackupSubLayer_from v) = StackupSubLayer_reads v.
Proof. reflexivity. Qed.
#[export] Hint Resolve StackupSubLayer_a : accd.

Lemma StackupSubLayer_step_a o h l : is_ok (StackupSubLayer_step o (VList (h :: l))) = lists StackupSubLayer_table (VList (h :: l)).
Proof. unfold StackupSubLayer_step, lists, rows, StackupSubLayer_table. change (at_ (VList (h :: l)) 0) with (Ok h). cbn [bind forallb fst snd]. chain. Qed.
Lemma StackupLayer_own_a o h l : is_ok (StackupLayer_own o (VList (h :: l))) = lists StackupLayer_table (VList (h :: l)).
Proof. unfold StackupLayer_own, lists, rows, StackupLayer_table. change (at_ (VList (h :: l)) 0) with (Ok h). cbn [bind forallb fst snd]. chain. Qed.
Lemma StackupLayer_sub_a l : forall t o, is_ok (foldM StackupLayer_next (Some t, o) l) = forallb (lists StackupSubLayer_table) l.
Proof.
  induction l as [|x l IH]; intros t o; [reflexivity|]. cbn [foldM forallb]. unfold StackupLayer_next at 1.
  destruct x as [| | | |s|m]; [apply IH|apply IH|apply IH|apply IH| |].
  - cbn [is_list negb lists andb]. destruct (VStr s =s "addsublayer"); unfold addf; cbn [bind]; apply IH.
  - cbn [is_list negb]. destruct m as [|h m]; [reflexivity|].
    rewrite <- (StackupSubLayer_step_a t h m). destruct (StackupSubLayer_step t (VList (h :: m))); [|reflexivity]. cbn [bind is_ok andb]. apply IH.
Qed.
Lemma StackupLayer_items_a l : forall o, is_ok (foldM StackupLayer_next (None, o) l) = StackupLayer_items l.
Proof.
  induction l as [|x l IH]; intros o; [reflexivity|]. cbn [foldM StackupLayer_items]. unfold StackupLayer_next at 1.
  destruct x as [| | | |s|m]; [apply IH|apply IH|apply IH|apply IH| |].
  - cbn [is_list negb lists andb]. destruct (VStr s =s "addsublayer"); cbn [bind]; [apply StackupLayer_sub_a|apply IH].
  - cbn [is_list negb is_str]. destruct m as [|h m]; [reflexivity|].
    rewrite <- (StackupLayer_own_a o h m). destruct (StackupLayer_own o (VList (h :: m))); [|reflexivity]. cbn [bind is_ok andb]. apply IH.
Qed.
Lemma StackupLayer_a : forall v, is_ok (StackupLayer_from v) = StackupLayer_reads v.
Proof.
  intros v. unfold StackupLayer_from, StackupLayer_reads, need_head, need_list.
  destruct v as [| | | | |[|h [|x l]]]; try reflexivity; cbn [at_ nth_error bind]; destruct (h =s "layer"); try reflexivity.
  unfold setf; cbn [negb bind andb at_ nth_error skipn]. rewrite <- (StackupLayer_items_a l (StackupLayer_default <| sl_name := x |>)).
  destruct (foldM _ _ _) as [[[t|] o]|]; reflexivity.
Qed.
#[export] Hint Resolve StackupLayer_a : accd.

Lemma Stackup_step_a : forall o x, is_ok (Stackup_step o x) = (strict Stackup_table) x.
Proof. step_tac ltac:(unfold Stackup_step, Stackup_table). Qed.
Lemma Stackup_a : forall v, is_ok (Stackup_from v) = Stackup_reads v.
Proof. from_tac (unfold Stackup_from, Stackup_reads) 0 Stackup_step_a. Qed.
#[export] Hint Resolve Stackup_a : accd.

Lemma PlotSettings_step_a : forall o x, is_ok (PlotSettings_step o x) = (strict PlotSettings_table) x.
Proof. step_tac ltac:(unfold PlotSettings_step, PlotSettings_table). Qed.
Lemma PlotSettings_a : forall v, is_ok (PlotSettings_from v) = PlotSettings_reads v.
Proof. from_tac (unfold PlotSettings_from, PlotSettings_reads) 0 PlotSettings_step_a. Qed.
#[export] Hint Resolve PlotSettings_a : accd.

Lemma SetupData_step_a : forall o x, is_ok (SetupData_step o x) = (strict SetupData_table) x.
Proof. step_tac ltac:(unfold SetupData_step, SetupData_table). Qed.
Lemma SetupData_a : forall v, is_ok (SetupData_from v) = SetupData_reads v.
Proof. from_tac (unfold SetupData_from, SetupData_reads) 0 SetupData_step_a. Qed.
#[export] Hint Resolve SetupData_a : accd.

Lemma Segment_step_a : forall o x, is_ok (Segment_step o x) = (lists Segment_table) x.
Proof. step_tac ltac:(unfold Segment_step, Segment_table). Qed.
Lemma Segment_a : forall v, is_ok (Segment_from v) = Segment_reads v.
Proof. from_tac (unfold Segment_from, Segment_reads) 0 Segment_step_a. Qed.
#[export] Hint Resolve Segment_a : accd.

Lemma Via_step_a : forall o x, is_ok (Via_step o x) = (lists Via_table) x.
Proof. step_tac ltac:(unfold Via_step, Via_table). Qed.
Lemma Via_a : forall v, is_ok (Via_from v) = Via_reads v.
Proof. from_tac (unfold Via_from, Via_reads) 0 Via_step_a. Qed.
#[export] Hint Resolve Via_a : accd.

Lemma Arc_step_a : forall o x, is_ok (Arc_step o x) = (lists Arc_table) x.
Proof. step_tac ltac:(unfold Arc_step, Arc_table). Qed.
Lemma Arc_a : forall v, is_ok (Arc_from v) = Arc_reads v.
Proof. from_tac (unfold Arc_from, Arc_reads) 0 Arc_step_a. Qed.
#[export] Hint Resolve Arc_a : accd.

Lemma Target_step_a : forall o x, is_ok (Target_step o x) = (strict Target_table) x.
Proof. step_tac ltac:(unfold Target_step, Target_table). Qed.
Lemma Target_a : forall v, is_ok (Target_from v) = Target_reads v.
Proof. from_tac (unfold Target_from, Target_reads) 1 Target_step_a. Qed.
#[export] Hint Resolve Target_a : accd.

Lemma Board_item_a {A} (c : A -> BdItem) m o b : is_ok m = b -> is_ok (Board_item c m o) = b.
Proof. intros <-. unfold Board_item. rewrite ok_addf. now destruct m. Qed.
Lemma Board_trace_a {A} (c : A -> TrItem) m o b : is_ok m = b -> is_ok (Board_trace c m o) = b.
Proof. intros <-. unfold Board_trace. rewrite ok_addf. now destruct m. Qed.
Ltac okq_more ::= lazymatch goal with |- is_ok (Board_item _ _ _) = _ => eapply Board_item_a; okq | |- is_ok (Board_trace _ _ _) = _ => eapply Board_trace_a; okq end.

Lemma Board_step_a now : forall o x, is_ok (Board_step now o x) = (strict Board_table) x.
Proof. step_tac ltac:(unfold Board_step, Board_table). Qed.
Lemma Board_a now : forall v, is_ok (Board_from now v) = Board_reads v.
Proof. from_tac (unfold Board_from, Board_reads) 0 (Board_step_a now). Qed.
#[export] Hint Resolve Board_a : accd.

Lemma Junction_step_a : forall o x, is_ok (Junction_step o x) = (strict Junction_table) x.
Proof. step_tac ltac:(unfold Junction_step, Junction_table). Qed.
Lemma Junction_a : forall v, is_ok (Junction_from v) = Junction_reads v.
Proof. from_tac (unfold Junction_from, Junction_reads) 0 Junction_step_a. Qed.
#[export] Hint Resolve Junction_a : accd.

Lemma NoConnect_step_a : forall o x, is_ok (NoConnect_step o x) = (strict NoConnect_table) x.
Proof. step_tac ltac:(unfold NoConnect_step, NoConnect_table). Qed.
Lemma NoConnect_a : forall v, is_ok (NoConnect_from v) = NoConnect_reads v.
Proof. from_tac (unfold NoConnect_from, NoConnect_reads) 0 NoConnect_step_a. Qed.
#[export] Hint Resolve NoConnect_a : accd.

Lemma BusEntry_step_a : forall o x, is_ok (BusEntry_step o x) = (strict BusEntry_table) x.
Proof. step_tac ltac:(unfold BusEntry_step, BusEntry_table). Qed.
Lemma BusEntry_a : forall v, is_ok (BusEntry_from v) = BusEntry_reads v.
Proof. from_tac (unfold BusEntry_from, BusEntry_reads) 0 BusEntry_step_a. Qed.
#[export] Hint Resolve BusEntry_a : accd.

Lemma BusAlias_a : forall v, is_ok (BusAlias_from v) = BusAlias_reads v.
Proof.
  intros v. unfold BusAlias_from, BusAlias_reads, need_head, need_list.
  destruct v as [| | | | |[|h [|x [|m [|y l]]]]]; try reflexivity; cbn [at_ nth_error bind]; destruct (h =s "bus_alias") eqn:E; cbn [negb bind];
    try reflexivity; try (destruct m as [| | | | |[|]]; rewrite ?E; reflexivity); try (destruct l; reflexivity); try (destruct m as [| | | | |[|]]; reflexivity).
  cbn [length Nat.eqb negb bind at_ nth_error]. destruct m as [| | | | |[|k m]]; try reflexivity. cbn [is_list negb bind at_ nth_error andb]. now destruct (k =s "members").
Qed.
#[export] Hint Resolve BusAlias_a : accd.

Lemma Connection_step_a : forall o x, is_ok (Connection_step o x) = (strict Connection_table) x.
Proof. step_tac ltac:(unfold Connection_step, Connection_table). Qed.
Lemma Connection_a : forall v, is_ok (Connection_from v) = Connection_reads v.
Proof. from_tac (unfold Connection_from, Connection_reads) 0 Connection_step_a. Qed.
#[export] Hint Resolve Connection_a : accd.

Lemma PolyLine_step_a : forall o x, is_ok (PolyLine_step o x) = (strict PolyLine_table) x.
Proof. step_tac ltac:(unfold PolyLine_step, PolyLine_table). Qed.
Lemma PolyLine_a : forall v, is_ok (PolyLine_from v) = PolyLine_reads v.
Proof. from_tac (unfold PolyLine_from, PolyLine_reads) 0 PolyLine_step_a. Qed.
#[export] Hint Resolve PolyLine_a : accd.

Lemma Text_step_a : forall o x, is_ok (Text_step o x) = (strict Text_table) x.
Proof. step_tac ltac:(unfold Text_step, Text_table). Qed.
Lemma Text_a : forall v, is_ok (Text_from v) = Text_reads v.
Proof. from_tac (unfold Text_from, Text_reads) 1 Text_step_a. Qed.
#[export] Hint Resolve Text_a : accd.

Lemma TextBox_step_a : forall o x, is_ok (TextBox_step o x) = (strict TextBox_table) x.
Proof. step_tac ltac:(unfold TextBox_step, TextBox_table). Qed.
Lemma TextBox_a : forall v, is_ok (TextBox_from v) = TextBox_reads v.
Proof. from_tac (unfold TextBox_from, TextBox_reads) 1 TextBox_step_a. Qed.
#[export] Hint Resolve TextBox_a : accd.

Lemma LocalLabel_step_a : forall o x, is_ok (LocalLabel_step o x) = (strict LocalLabel_table) x.
Proof. step_tac ltac:(unfold LocalLabel_step, LocalLabel_table). Qed.
Lemma LocalLabel_a : forall v, is_ok (LocalLabel_from v) = LocalLabel_reads v.
Proof. from_tac (unfold LocalLabel_from, LocalLabel_reads) 1 LocalLabel_step_a. Qed.
#[export] Hint Resolve LocalLabel_a : accd.

Lemma GlobalLabel_step_a : forall o x, is_ok (GlobalLabel_step o x) = (strict GlobalLabel_table) x.
Proof. step_tac ltac:(unfold GlobalLabel_step, GlobalLabel_table). Qed.
Lemma GlobalLabel_a : forall v, is_ok (GlobalLabel_from v) = GlobalLabel_reads v.
Proof. from_tac (unfold GlobalLabel_from, GlobalLabel_reads) 1 GlobalLabel_step_a. Qed.
#[export] Hint Resolve GlobalLabel_a : accd.

Lemma HierarchicalLabel_step_a : forall o x, is_ok (HierarchicalLabel_step o x) = (strict HierarchicalLabel_table) x.
Proof. step_tac ltac:(unfold HierarchicalLabel_step, HierarchicalLabel_table). Qed.
Lemma HierarchicalLabel_a : forall v, is_ok (HierarchicalLabel_from v) = HierarchicalLabel_reads v.
Proof. from_tac (unfold HierarchicalLabel_from, HierarchicalLabel_reads) 1 HierarchicalLabel_step_a. Qed.
#[export] Hint Resolve HierarchicalLabel_a : accd.

Lemma SymbolProjectPath_step_a : forall o x, is_ok (SymbolProjectPath_step o x) = (strict SymbolProjectPath_table) x.
Proof. step_tac ltac:(unfold SymbolProjectPath_step, SymbolProjectPath_table). Qed.
Lemma SymbolProjectPath_a : forall v, is_ok (SymbolProjectPath_from v) = SymbolProjectPath_reads v.
Proof. from_tac (unfold SymbolProjectPath_from, SymbolProjectPath_reads) 1 SymbolProjectPath_step_a. Qed.
#[export] Hint Resolve SymbolProjectPath_a : accd.

Lemma SymbolProjectInstance_step_a : forall o x, is_ok (SymbolProjectInstance_step o x) = (strict SymbolProjectInstance_table) x.
Proof. step_tac ltac:(unfold SymbolProjectInstance_step, SymbolProjectInstance_table). Qed.
Lemma SymbolProjectInstance_a : forall v, is_ok (SymbolProjectInstance_from v) = SymbolProjectInstance_reads v.
Proof. from_tac (unfold SymbolProjectInstance_from, SymbolProjectInstance_reads) 1 SymbolProjectInstance_step_a. Qed.
#[export] Hint Resolve SymbolProjectInstance_a : accd.

Lemma SchematicSymbol_id_a id o : is_ok (SchematicSymbol_set_libId id o) = text id.
Proof. unfold SchematicSymbol_set_libId. rewrite <- ok_as_text. destruct (as_text id); [|reflexivity]. cbn [bind is_ok]. now destruct (re_match re_nick a). Qed.
#[export] Hint Resolve SchematicSymbol_id_a : accd.

Lemma SchematicSymbol_step_a : forall o x, is_ok (SchematicSymbol_step o x) = (strict SchematicSymbol_table) x.
Proof. step_tac ltac:(unfold SchematicSymbol_step, SchematicSymbol_table). Qed.
Lemma SchematicSymbol_a : forall v, is_ok (SchematicSymbol_from v) = SchematicSymbol_reads v.
Proof. from_tac (unfold SchematicSymbol_from, SchematicSymbol_reads) 0 SchematicSymbol_step_a. Qed.
#[export] Hint Resolve SchematicSymbol_a : accd.

Lemma HierarchicalPin_step_a : forall o x, is_ok (HierarchicalPin_step o x) = (strict HierarchicalPin_table) x.
Proof. step_tac ltac:(unfold HierarchicalPin_step, HierarchicalPin_table). Qed.
Lemma HierarchicalPin_a : forall v, is_ok (HierarchicalPin_from v) = HierarchicalPin_reads v.
Proof. from_tac (unfold HierarchicalPin_from, HierarchicalPin_reads) 2 HierarchicalPin_step_a. Qed.
#[export] Hint Resolve HierarchicalPin_a : accd.

Lemma HierarchicalSheetProjectPath_step_a : forall o x, is_ok (HierarchicalSheetProjectPath_step o x) = (strict HierarchicalSheetProjectPath_table) x.
Proof. step_tac ltac:(unfold HierarchicalSheetProjectPath_step, HierarchicalSheetProjectPath_table). Qed.
Lemma HierarchicalSheetProjectPath_a : forall v, is_ok (HierarchicalSheetProjectPath_from v) = HierarchicalSheetProjectPath_reads v.
Proof. from_tac (unfold HierarchicalSheetProjectPath_from, HierarchicalSheetProjectPath_reads) 1 HierarchicalSheetProjectPath_step_a. Qed.
#[export] Hint Resolve HierarchicalSheetProjectPath_a : accd.

Lemma HierarchicalSheetProjectInstance_step_a : forall o x, is_ok (HierarchicalSheetProjectInstance_step o x) = (strict HierarchicalSheetProjectInstance_table) x.
Proof. step_tac ltac:(unfold HierarchicalSheetProjectInstance_step, HierarchicalSheetProjectInstance_table). Qed.
Lemma HierarchicalSheetProjectInstance_a : forall v, is_ok (HierarchicalSheetProjectInstance_from v) = HierarchicalSheetProjectInstance_reads v.
Proof. from_tac (unfold HierarchicalSheetProjectInstance_from, HierarchicalSheetProjectInstance_reads) 1 HierarchicalSheetProjectInstance_step_a. Qed.
#[export] Hint Resolve HierarchicalSheetProjectInstance_a : accd.

Lemma HierarchicalSheet_property_a h l o : is_ok (HierarchicalSheet_property (VList (h :: l)) o) = Property_reads (VList (h :: l)).
Proof.
  unfold HierarchicalSheet_property. rewrite <- Property_a. destruct l as [|k l].
  - assert (P : is_ok (Property_from (VList [h])) = false) by (rewrite Property_a; unfold Property_reads, expr; cbn [length Nat.leb]; now rewrite andb_false_r).
    destruct (Property_from (VList [h])); [discriminate P|reflexivity].
  - destruct (Property_from _); [|reflexivity]. cbn [bind at_ nth_error]. ifs.
Qed.
#[export] Hint Resolve HierarchicalSheet_property_a : accd.

Lemma HierarchicalSheet_step_a : forall o x, is_ok (HierarchicalSheet_step o x) = (strict HierarchicalSheet_table) x.
Proof. step_tac ltac:(unfold HierarchicalSheet_step, HierarchicalSheet_table). Qed.
Lemma HierarchicalSheet_a : forall v, is_ok (HierarchicalSheet_from v) = HierarchicalSheet_reads v.
Proof. from_tac (unfold HierarchicalSheet_from, HierarchicalSheet_reads) 0 HierarchicalSheet_step_a. Qed.
#[export] Hint Resolve HierarchicalSheet_a : accd.

Lemma HierarchicalSheetInstance_step_a : forall o x, is_ok (HierarchicalSheetInstance_step o x) = (strict HierarchicalSheetInstance_table) x.
Proof. step_tac ltac:(unfold HierarchicalSheetInstance_step, HierarchicalSheetInstance_table). Qed.
Lemma HierarchicalSheetInstance_a : forall v, is_ok (HierarchicalSheetInstance_from v) = HierarchicalSheetInstance_reads v.
Proof. from_tac (unfold HierarchicalSheetInstance_from, HierarchicalSheetInstance_reads) 1 HierarchicalSheetInstance_step_a. Qed.
#[export] Hint Resolve HierarchicalSheetInstance_a : accd.

Lemma SymbolInstance_step_a : forall o x, is_ok (SymbolInstance_step o x) = (strict SymbolInstance_table) x.
Proof. step_tac ltac:(unfold SymbolInstance_step, SymbolInstance_table). Qed.
Lemma SymbolInstance_a : forall v, is_ok (SymbolInstance_from v) = SymbolInstance_reads v.
Proof. from_tac (unfold SymbolInstance_from, SymbolInstance_reads) 1 SymbolInstance_step_a. Qed.
#[export] Hint Resolve SymbolInstance_a : accd.

Lemma Rectangle_step_a : forall o x, is_ok (Rectangle_step o x) = (strict Rectangle_table) x.
Proof. step_tac ltac:(unfold Rectangle_step, Rectangle_table). Qed.
Lemma Rectangle_a : forall v, is_ok (Rectangle_from v) = Rectangle_reads v.
Proof. from_tac (unfold Rectangle_from, Rectangle_reads) 0 Rectangle_step_a. Qed.
#[export] Hint Resolve Rectangle_a : accd.

Lemma SchArc_step_a : forall o x, is_ok (SchArc_step o x) = (strict SchArc_table) x.
Proof. step_tac ltac:(unfold SchArc_step, SchArc_table). Qed.
Lemma SchArc_a : forall v, is_ok (SchArc_from v) = SchArc_reads v.
Proof. from_tac (unfold SchArc_from, SchArc_reads) 0 SchArc_step_a. Qed.
#[export] Hint Resolve SchArc_a : accd.

Lemma Circle_step_a : forall o x, is_ok (Circle_step o x) = (strict Circle_table) x.
Proof. step_tac ltac:(unfold Circle_step, Circle_table). Qed.
Lemma Circle_a : forall v, is_ok (Circle_from v) = Circle_reads v.
Proof. from_tac (unfold Circle_from, Circle_reads) 0 Circle_step_a. Qed.
#[export] Hint Resolve Circle_a : accd.

Lemma NetclassFlag_step_a : forall o x, is_ok (NetclassFlag_step o x) = (strict NetclassFlag_table) x.
Proof. step_tac ltac:(unfold NetclassFlag_step, NetclassFlag_table). Qed.
Lemma NetclassFlag_a : forall v, is_ok (NetclassFlag_from v) = NetclassFlag_reads v.
Proof. from_tac (unfold NetclassFlag_from, NetclassFlag_reads) 1 NetclassFlag_step_a. Qed.
#[export] Hint Resolve NetclassFlag_a : accd.

Lemma Schematic_line_a {A} (c : A -> ScLine) m o b : is_ok m = b -> is_ok (Schematic_line c m o) = b.
Proof. intros <-. unfold Schematic_line. rewrite ok_addf. now destruct m. Qed.
Lemma Schematic_shape_a {A} (c : A -> ScShape) m o b : is_ok m = b -> is_ok (Schematic_shape c m o) = b.
Proof. intros <-. unfold Schematic_shape. rewrite ok_addf. now destruct m. Qed.
Ltac okq_more ::= lazymatch goal with |- is_ok (Schematic_line _ _ _) = _ => eapply Schematic_line_a; okq | |- is_ok (Schematic_shape _ _ _) = _ => eapply Schematic_shape_a; okq end.

Lemma Schematic_step_a : forall o x, is_ok (Schematic_step o x) = (strict Schematic_table) x.
Proof. step_tac ltac:(unfold Schematic_step, Schematic_table). Qed.
Lemma Schematic_a : forall v, is_ok (Schematic_from v) = Schematic_reads v.
Proof. from_tac (unfold Schematic_from, Schematic_reads) 0 Schematic_step_a. Qed.
#[export] Hint Resolve Schematic_a : accd.

Lemma WksFontSize_a : forall v, is_ok (WksFontSize_from v) = WksFontSize_reads v.
Proof. small_tac (unfold WksFontSize_from, WksFontSize_reads). Qed.
#[export] Hint Resolve WksFontSize_a : accd.

Lemma WksFont_step_a : forall o x, is_ok (WksFont_step o x) = (lists WksFont_table) x.
Proof. step_tac ltac:(unfold WksFont_step, WksFont_table). Qed.
Lemma WksFont_a : forall v, is_ok (WksFont_from v) = WksFont_reads v.
Proof. from_tac (unfold WksFont_from, WksFont_reads) 0 WksFont_step_a. Qed.
#[export] Hint Resolve WksFont_a : accd.

Lemma WksPosition_a : forall v, is_ok (WksPosition_from v) = WksPosition_reads v.
Proof. small_tac (unfold WksPosition_from, WksPosition_reads). Qed.
#[export] Hint Resolve WksPosition_a : accd.

Lemma Line_step_a : forall o x, is_ok (Line_step o x) = (strict Line_table) x.
Proof. step_tac ltac:(unfold Line_step, Line_table). Qed.
Lemma Line_a : forall v, is_ok (Line_from v) = Line_reads v.
Proof. from_tac (unfold Line_from, Line_reads) 0 Line_step_a. Qed.
#[export] Hint Resolve Line_a : accd.

Lemma Rect_step_a : forall o x, is_ok (Rect_step o x) = (strict Rect_table) x.
Proof. step_tac ltac:(unfold Rect_step, Rect_table). Qed.
Lemma Rect_a : forall v, is_ok (Rect_from v) = Rect_reads v.
Proof. from_tac (unfold Rect_from, Rect_reads) 0 Rect_step_a. Qed.
#[export] Hint Resolve Rect_a : accd.

Lemma Polygon_a : forall v, is_ok (Polygon_from v) = Polygon_reads v.
Proof. reflexivity. Qed.
#[export] Hint Resolve Polygon_a : accd.

Lemma Bitmap_data_a : forall o x, is_ok (Bitmap_data o x) = strict [("data"%string, has 1)] x.
Proof.
  intros o x. unfold Bitmap_data. destruct x as [| | | |s|[|h l]]; try reflexivity; [destruct s as [|c s]; [reflexivity|]; cbn [strict]; text_chain|].
  cbn [strict rows forallb fst snd]. change (at_ (VList (h :: l)) 0) with (Ok h). cbn [bind]. rewrite andb_true_r. destruct (h =s "data"); [|reflexivity]. now destruct l.
Qed.
Lemma Bitmap_each l n : is_ok (let! m := from_ (VList l) n in foldM Bitmap_data [] m) = behind n (strict [("data"%string, has 1)]) (VList l).
Proof. apply (ok_fold _ _ Bitmap_data_a). Qed.
#[export] Hint Resolve Bitmap_each : accd.

Lemma Bitmap_step_a : forall o x, is_ok (Bitmap_step o x) = (strict Bitmap_table) x.
Proof. step_tac ltac:(unfold Bitmap_step, Bitmap_table). Qed.
Lemma Bitmap_a : forall v, is_ok (Bitmap_from v) = Bitmap_reads v.
Proof. from_tac (unfold Bitmap_from, Bitmap_reads) 0 Bitmap_step_a. Qed.
#[export] Hint Resolve Bitmap_a : accd.

Lemma TbText_step_a : forall o x, is_ok (TbText_step o x) = (strict TbText_table) x.
Proof. step_tac ltac:(unfold TbText_step, TbText_table). Qed.
Lemma TbText_a : forall v, is_ok (TbText_from v) = TbText_reads v.
Proof. from_tac (unfold TbText_from, TbText_reads) 1 TbText_step_a. Qed.
#[export] Hint Resolve TbText_a : accd.

Lemma TextSize_a : forall v, is_ok (TextSize_from v) = TextSize_reads v.
Proof. small_tac (unfold TextSize_from, TextSize_reads). Qed.
#[export] Hint Resolve TextSize_a : accd.

Lemma Setup_step_a : forall o x, is_ok (Setup_step o x) = (strict Setup_table) x.
Proof. step_tac ltac:(unfold Setup_step, Setup_table). Qed.
Lemma Setup_a : forall v, is_ok (Setup_from v) = Setup_reads v.
Proof. from_tac (unfold Setup_from, Setup_reads) 0 Setup_step_a. Qed.
#[export] Hint Resolve Setup_a : accd.

Lemma WorkSheet_item_a {A} (c : A -> WkItem) m o b : is_ok m = b -> is_ok (WorkSheet_item c m o) = b.
Proof. intros <-. unfold WorkSheet_item. rewrite ok_addf. now destruct m. Qed.
Ltac okq_more ::= lazymatch goal with |- is_ok (WorkSheet_item _ _ _) = _ => eapply WorkSheet_item_a; okq end.

Lemma WorkSheet_step_a : forall o x, is_ok (WorkSheet_step o x) = (strict WorkSheet_table) x.
Proof. step_tac ltac:(unfold WorkSheet_step, WorkSheet_table). Qed.
Lemma WorkSheet_a : forall v, is_ok (WorkSheet_from v) = WorkSheet_reads v.
Proof. from_tac (unfold WorkSheet_from, WorkSheet_reads) 0 WorkSheet_step_a. Qed.
#[export] Hint Resolve WorkSheet_a : accd.
