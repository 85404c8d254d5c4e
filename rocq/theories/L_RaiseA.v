(** Proofs for C49: which exception a reader raises, class by class *)
From Coq Require Import String.
From Verif Require Import PyBase PyNum PyStr PyRe M_Common M_Lib M_Sym M_Fp M_Gr M_Zone M_Footprint M_Dim M_Brd M_Board M_Sch M_Schematic M_Wks S_Raise L_Raise.

Lemma Position_e : forall v, er (Position_from v) = Position_raises v.
Proof.
  assert (F : forall l o, er (foldM (fun o item => on (item =s "unlocked") (setf po_unlocked (Ok true)) o) o l) = None).
  { intros l o. rewrite (er_fold _ fine); [now induction l|]. intros. ifs. }
  intros [| | | | |l]; try reflexivity. destruct l as [|a [|b [|c [|d l]]]]; try reflexivity;
  unfold Position_from; cbn [length Nat.ltb Nat.leb at_ nth_error bind on setf]; [apply F|].
  unfold setf at 2; cbn [bind]. destruct (negb _); [unfold setf at 1; cbn [on bind]|cbn [on bind]]; apply F.
Qed.
#[export] Hint Resolve Position_e : rsd.

Lemma Coordinate_e : forall v, er (Coordinate_from v) = Coordinate_raises v.
Proof. small_tac (unfold Coordinate_from, Coordinate_raises). Qed.
#[export] Hint Resolve Coordinate_e : rsd.

Lemma ColorRGBA_e : forall v, er (ColorRGBA_from v) = ColorRGBA_raises v.
Proof. small_tac (unfold ColorRGBA_from, ColorRGBA_raises). Qed.
#[export] Hint Resolve ColorRGBA_e : rsd.

Lemma Stroke_step_e : forall o x, er (Stroke_step o x) = (lists Stroke_faults) x.
Proof. step_tac ltac:(unfold Stroke_step, Stroke_faults). Qed.
Lemma Stroke_e : forall v, er (Stroke_from v) = Stroke_raises v.
Proof. from_tac (unfold Stroke_from, Stroke_raises) 1 Stroke_step_e. Qed.
#[export] Hint Resolve Stroke_e : rsd.

Lemma Font_step_e : forall o x, er (Font_step o x) = (lists Font_faults) x.
Proof. step_tac ltac:(unfold Font_step, Font_faults). Qed.
Lemma Font_e : forall v, er (Font_from v) = Font_raises v.
Proof. from_tac (unfold Font_from, Font_raises) 0 Font_step_e. Qed.
#[export] Hint Resolve Font_e : rsd.

Lemma Justify_step_e : forall o x, er (Justify_step o x) = fine x.
Proof. intros. unfold Justify_step. ifs. Qed.
Lemma Justify_e : forall v, er (Justify_from v) = Justify_raises v.
Proof. from_tac (unfold Justify_from, Justify_raises) 0 Justify_step_e. Qed.
#[export] Hint Resolve Justify_e : rsd.

Lemma Effects_step_e : forall o x, er (Effects_step o x) = (lists Effects_faults) x.
Proof. step_tac ltac:(unfold Effects_step, Effects_faults). Qed.
Lemma Effects_e : forall v, er (Effects_from v) = Effects_raises v.
Proof. from_tac (unfold Effects_from, Effects_raises) 0 Effects_step_e. Qed.
#[export] Hint Resolve Effects_e : rsd.

Lemma Net_e : forall v, er (Net_from v) = Net_raises v.
Proof.
  intros v. unfold Net_from, Net_raises, expr, need_head, need_list, setf. destruct v as [| | | | |[|h [|a [|b l]]]]; try reflexivity;
    cbn [at_ nth_error bind existsb orb length Nat.ltb Nat.leb skipn]; destruct (h =s "net"); try reflexivity.
  cbn [negb bind orb nth_error]. now rewrite (fine_all (_ :: _)).
Qed.
#[export] Hint Resolve Net_e : rsd.

Lemma Group_step_e : forall o x, er (Group_step o x) = (lists Group_faults) x.
Proof. step_tac ltac:(unfold Group_step, Group_faults). Qed.
Lemma Group_e : forall v, er (Group_from v) = Group_raises v.
Proof. from_tac (unfold Group_from, Group_raises) 1 Group_step_e. Qed.
#[export] Hint Resolve Group_e : rsd.

Lemma PageSettings_e : forall v, er (PageSettings_from v) = PageSettings_raises v.
Proof.
  assert (F : forall l o, er (foldM PageSettings_step o l) = None).
  { intros l o. rewrite (er_fold _ fine); [apply fine_all|]. intros. unfold PageSettings_step. ifs. }
  intros v. unfold PageSettings_from, PageSettings_raises, need_head, need_list.
  destruct v as [| | | | |[|h l]]; try reflexivity. cbn [at_ nth_error bind].
  destruct (h =s "paper") eqn:E; cbn [negb bind andb]; [|destruct l; reflexivity].
  destruct l as [|x l]; [reflexivity|]. unfold setf at 1; cbn [nth_error bind andb].
  change (pg_paperSize (PageSettings_default <| pg_paperSize := x |>)) with x.
  destruct (x =s "User"); cbn [on bind]; [|apply F].
  destruct l as [|a [|b l]]; [reflexivity|reflexivity|]. cbn [length Nat.ltb Nat.leb at_ nth_error bind]. unfold setf; cbn [bind]. apply F.
Qed.
#[export] Hint Resolve PageSettings_e : rsd.

Lemma TitleBlock_step_e : forall o x, er (TitleBlock_step o x) = (strict TitleBlock_faults) x.
Proof. step_tac ltac:(unfold TitleBlock_step, TitleBlock_faults). Qed.
Lemma TitleBlock_e : forall v, er (TitleBlock_from v) = TitleBlock_raises v.
Proof. from_tac (unfold TitleBlock_from, TitleBlock_raises) 0 TitleBlock_step_e. Qed.
#[export] Hint Resolve TitleBlock_e : rsd.

Lemma Property_step_e : forall o x, er (Property_step o x) = (strict Property_faults) x.
Proof. step_tac ltac:(unfold Property_step, Property_faults). Qed.
Lemma Property_e : forall v, er (Property_from v) = Property_raises v.
Proof. from_tac (unfold Property_from, Property_raises) 2 Property_step_e. Qed.
#[export] Hint Resolve Property_e : rsd.

Lemma RenderCachePolygon_step_e : forall o x, er (RenderCachePolygon_step o x) = (strict RenderCachePolygon_faults) x.
Proof. step_tac ltac:(unfold RenderCachePolygon_step, RenderCachePolygon_faults). Qed.
Lemma RenderCachePolygon_e : forall v, er (RenderCachePolygon_from v) = RenderCachePolygon_raises v.
Proof. from_tac (unfold RenderCachePolygon_from, RenderCachePolygon_raises) 0 RenderCachePolygon_step_e. Qed.
#[export] Hint Resolve RenderCachePolygon_e : rsd.

Lemma RenderCache_step_e : forall o x, er (RenderCache_step o x) = (strict RenderCache_faults) x.
Proof. step_tac ltac:(unfold RenderCache_step, RenderCache_faults). Qed.
Lemma RenderCache_e : forall v, er (RenderCache_from v) = RenderCache_raises v.
Proof. from_tac (unfold RenderCache_from, RenderCache_raises) 2 RenderCache_step_e. Qed.
#[export] Hint Resolve RenderCache_e : rsd.

Lemma Fill_step_e : forall o x, er (Fill_step o x) = (strict Fill_faults) x.
Proof. step_tac ltac:(unfold Fill_step, Fill_faults). Qed.
Lemma Fill_e : forall v, er (Fill_from v) = Fill_raises v.
Proof. from_tac (unfold Fill_from, Fill_raises) 0 Fill_step_e. Qed.
#[export] Hint Resolve Fill_e : rsd.

Lemma Image_step_e : forall o x, er (Image_step o x) = (strict Image_faults) x.
Proof. step_tac ltac:(unfold Image_step, Image_faults). Qed.
Lemma Image_e : forall v, er (Image_from v) = Image_raises v.
Proof. from_tac (unfold Image_from, Image_raises) 0 Image_step_e. Qed.
#[export] Hint Resolve Image_e : rsd.

Lemma Library_step_e : forall o x, er (Library_step o x) = (strict Library_faults) x.
Proof. step_tac ltac:(unfold Library_step, Library_faults). Qed.
Lemma Library_e : forall v, er (Library_from v) = Library_raises v.
Proof. from_tac (unfold Library_from, Library_raises) 0 Library_step_e. Qed.
#[export] Hint Resolve Library_e : rsd.

Lemma LibTable_step_e : forall o x, er (LibTable_step o x) = (strict LibTable_faults) x.
Proof. step_tac ltac:(unfold LibTable_step, LibTable_faults). Qed.
Lemma LibTable_e : forall v, er (LibTable_from v) = LibTable_raises v.
Proof. from_tac (unfold LibTable_from, LibTable_raises) 0 LibTable_step_e. Qed.
#[export] Hint Resolve LibTable_e : rsd.

Lemma Constraint_step_e : forall o x, er (Constraint_step o x) = (strict Constraint_faults) x.
Proof. step_tac ltac:(unfold Constraint_step, Constraint_faults). Qed.
Lemma Constraint_e : forall v, er (Constraint_from v) = Constraint_raises v.
Proof. from_tac (unfold Constraint_from, Constraint_raises) 1 Constraint_step_e. Qed.
#[export] Hint Resolve Constraint_e : rsd.

Lemma Rule_step_e : forall o x, er (Rule_step o x) = (strict Rule_faults) x.
Proof. step_tac ltac:(unfold Rule_step, Rule_faults). Qed.
Lemma Rule_e : forall v, er (Rule_from v) = Rule_raises v.
Proof. from_tac (unfold Rule_from, Rule_raises) 1 Rule_step_e. Qed.
#[export] Hint Resolve Rule_e : rsd.

Lemma DesignRules_step_e : forall o x, er (DesignRules_step o x) = strict DesignRules_faults x.
Proof. step_tac ltac:(unfold DesignRules_step, DesignRules_faults). Qed.
Lemma DesignRules_e : forall v, er (DesignRules_from v) = DesignRules_raises v.
Proof.
  intros v. unfold DesignRules_from, DesignRules_raises, need_list.
  destruct v as [| | | | |[|f l]]; try reflexivity. cbn [at_ nth_error bind].
  destruct f as [| | | | |[|h m]]; try reflexivity. cbn [at_ nth_error bind].
  destruct (h =s "version"); [|reflexivity]. cbn [negb andb]. now rewrite (er_fold _ _ DesignRules_step_e).
Qed.
#[export] Hint Resolve DesignRules_e : rsd.

Lemma SyArc_step_e : forall o x, er (SyArc_step o x) = (texts SyArc_faults) x.
Proof. step_tac ltac:(unfold SyArc_step, SyArc_faults). Qed.
Lemma SyArc_e : forall v, er (SyArc_from v) = SyArc_raises v.
Proof. from_tac (unfold SyArc_from, SyArc_raises) 0 SyArc_step_e. Qed.
#[export] Hint Resolve SyArc_e : rsd.

Lemma SyCircle_step_e : forall o x, er (SyCircle_step o x) = (texts SyCircle_faults) x.
Proof. step_tac ltac:(unfold SyCircle_step, SyCircle_faults). Qed.
Lemma SyCircle_e : forall v, er (SyCircle_from v) = SyCircle_raises v.
Proof. from_tac (unfold SyCircle_from, SyCircle_raises) 0 SyCircle_step_e. Qed.
#[export] Hint Resolve SyCircle_e : rsd.

Lemma SyCurve_step_e : forall o x, er (SyCurve_step o x) = (strict SyCurve_faults) x.
Proof. step_tac ltac:(unfold SyCurve_step, SyCurve_faults). Qed.
Lemma SyCurve_e : forall v, er (SyCurve_from v) = SyCurve_raises v.
Proof. from_tac (unfold SyCurve_from, SyCurve_raises) 0 SyCurve_step_e. Qed.
#[export] Hint Resolve SyCurve_e : rsd.

Lemma SyPolyLine_step_e : forall o x, er (SyPolyLine_step o x) = (strict SyPolyLine_faults) x.
Proof. step_tac ltac:(unfold SyPolyLine_step, SyPolyLine_faults). Qed.
Lemma SyPolyLine_e : forall v, er (SyPolyLine_from v) = SyPolyLine_raises v.
Proof. from_tac (unfold SyPolyLine_from, SyPolyLine_raises) 0 SyPolyLine_step_e. Qed.
#[export] Hint Resolve SyPolyLine_e : rsd.

Lemma SyRect_step_e : forall o x, er (SyRect_step o x) = (texts SyRect_faults) x.
Proof. step_tac ltac:(unfold SyRect_step, SyRect_faults). Qed.
Lemma SyRect_e : forall v, er (SyRect_from v) = SyRect_raises v.
Proof. from_tac (unfold SyRect_from, SyRect_raises) 0 SyRect_step_e. Qed.
#[export] Hint Resolve SyRect_e : rsd.

Lemma SyText_step_e : forall o x, er (SyText_step o x) = (strict SyText_faults) x.
Proof. step_tac ltac:(unfold SyText_step, SyText_faults). Qed.
Lemma SyText_e : forall v, er (SyText_from v) = SyText_raises v.
Proof. from_tac (unfold SyText_from, SyText_raises) 1 SyText_step_e. Qed.
#[export] Hint Resolve SyText_e : rsd.

Lemma SyTextBox_step_e : forall o x, er (SyTextBox_step o x) = strict SyTextBox_faults x.
Proof. step_tac ltac:(unfold SyTextBox_step, SyTextBox_faults). Qed.
Lemma SyTextBox_e : forall v, er (SyTextBox_from v) = SyTextBox_raises v.
Proof.
  intros v. unfold SyTextBox_from, SyTextBox_raises, SyTextBox_private, flagged_expr, need_head, need_list.
  destruct v as [| | | | |[|h [|x l]]]; try reflexivity; cbn [at_ nth_error bind]; destruct (h =s "text_box"); try reflexivity.
  cbn [negb bind andb at_ nth_error]. destruct (x =s "private"); cbn [bind].
  - destruct l as [|y l]; [reflexivity|]. cbn [nth_error bind]. destruct y; cbn [is_list negb]; unfold setf; cbn [at_ nth_error bind skipn]; apply (er_fold _ _ SyTextBox_step_e).
  - unfold setf; cbn [at_ nth_error bind skipn]; apply (er_fold _ _ SyTextBox_step_e).
Qed.
#[export] Hint Resolve SyTextBox_e : rsd.

Lemma SymbolAlternativePin_e : forall v, er (SymbolAlternativePin_from v) = SymbolAlternativePin_raises v.
Proof.
  intros v. unfold SymbolAlternativePin_from, SymbolAlternativePin_raises, expr, need_head, need_list, setf. destruct v as [| | | | |[|h [|a [|b [|c l]]]]]; try reflexivity;
    cbn [at_ nth_error bind existsb orb length Nat.ltb Nat.leb skipn]; destruct (h =s "alternate"); try reflexivity.
  cbn [negb bind orb nth_error]. now rewrite (fine_all (_ :: _)).
Qed.
#[export] Hint Resolve SymbolAlternativePin_e : rsd.

Lemma SymbolPin_step_e : forall o x, er (SymbolPin_step o x) = (lists SymbolPin_faults) x.
Proof. step_tac ltac:(unfold SymbolPin_step, SymbolPin_faults). Qed.
Lemma SymbolPin_e : forall v, er (SymbolPin_from v) = SymbolPin_raises v.
Proof. from_tac (unfold SymbolPin_from, SymbolPin_raises) 2 SymbolPin_step_e. Qed.
#[export] Hint Resolve SymbolPin_e : rsd.

Lemma Symbol_item_e {A} (c : A -> SyItem) m o : er (Symbol_item c m o) = er m.
Proof. unfold Symbol_item. rewrite er_addf. now destruct m. Qed.
Lemma Symbol_names_e : forall o x, er (Symbol_pin_names_step o x) = lists [("offset"%string, need 1)] x.
Proof.
  intros o x. unfold Symbol_pin_names_step. destruct x as [| | | | |[|h l]]; try reflexivity; cbn [is_list]; [ifs|].
  cbn [lists rows first fst snd at_ nth_error bind]. rewrite els_none. destruct (h =s "offset"); [|reflexivity]. now destruct l.
Qed.
Lemma Symbol_id_e id o : er (Symbol_set_libId id o) = textual id.
Proof.
  unfold Symbol_set_libId. rewrite <- er_as_text. destruct (as_text id); [|reflexivity]. cbn [bind er].
  destruct (re_match re_nick a); [reflexivity|]. now destruct (re_match re_unit a).
Qed.
Definition is_symbol (x : val) : bool := match x with VList (h :: _) => h =s "symbol" | _ => false end.
Lemma Symbol_step_one rec o x :
  er (Symbol_step rec o x) = els (if is_symbol x then er (rec x) else None) (strict Symbol_faults x).
Proof.
  rename x into item. unfold Symbol_step, Symbol_faults. unfold strict, rows. destruct item as [| | | |s|l]; try reflexivity.
  - destruct s as [|c s]; [reflexivity|]. cbn [is_symbol els]. text_chain.
  - destruct l as [|h l]; [reflexivity|]. change (at_ (VList (h :: l)) 0) with (Ok h). cbn [bind first fst snd is_symbol].
    set (item := VList (h :: l)).
    assert (Hsym : forall o, er (addf sy_units (rec item) o) = er (rec item)) by (intros; apply er_addf).
    assert (Hn : forall o, er (let! o := setf sy_pinNames (Ok true) o in let! l := from_ item 1 in foldM Symbol_pin_names_step o l) = each 1 (lists [("offset"%string, need 1)]) item).
    { intros. unfold setf, item; cbn [bind from_]. apply (er_fold _ _ Symbol_names_e). }
    assert (Hp : forall o, er (let! x := item@1 in on (x =s "hide") (setf sy_hidePinNumbers (Ok true)) o) = need 1 item).
    { intros. rewrite <- er_at. destruct (item@1); [|reflexivity]. cbn [bind]. ifs. }
    match goal with |- er ?m = _ => transitivity (els (if h =s "extends" then need 1 item else None) (els (if h =s "pin_numbers" then need 1 item else None) (els (if h =s "pin_names" then each 1 (lists [("offset"%string, need 1)]) item else None)
      (els (if h =s "in_bom" then need 1 item else None) (els (if h =s "on_board" then need 1 item else None) (els (if h =s "power" then None else None) (els (if h =s "symbol" then er (rec item) else None)
       (els (if h =s "property" then Property_raises item else None) (els (if h =s "pin" then SymbolPin_raises item else None) (els (if h =s "arc" then SyArc_raises item else None)
       (els (if h =s "circle" then SyCircle_raises item else None) (els (if h =s "curve" then SyCurve_raises item else None) (els (if h =s "polyline" then SyPolyLine_raises item else None)
       (els (if h =s "rectangle" then SyRect_raises item else None) (els (if h =s "text" then SyText_raises item else None) (els (if h =s "text_box" then SyTextBox_raises item else None) None)))))))))))))))) end.
    { repeat first [ apply er_row; [intros ?; first [apply Hsym | apply Hn | apply Hp | rewrite Symbol_item_e; err | err]|intros ?] | reflexivity]. }
    change (fine item) with (@None exn).
    destruct (h =s "symbol") eqn:E.
    + apply is_str_true in E. clearbody item. subst h. decide_heads. cbv iota. destruct (er (rec item)); reflexivity.
    + reflexivity.
Qed.
Lemma Symbol_e : forall v, er (Symbol_from v) = Symbol_raises v.
Proof.
  fix IH 1. intros [| | | | |[|h [|id l]]]; try reflexivity.
  - cbn [Symbol_from Symbol_raises]. now destruct (h =s "symbol").
  - cbn [Symbol_from Symbol_raises]. destruct (h =s "symbol"); [|reflexivity].
    assert (E : forall o, er (foldM (fun o item => Symbol_step Symbol_from o item) o l)
       = first (fun x => els (if is_symbol x then Symbol_raises x else None) (strict Symbol_faults x)) l).
    { induction l as [|x l IHl]; intros o; [reflexivity|]. cbn [foldM]. rewrite first_cons.
      assert (K : er (Symbol_step Symbol_from o x) = els (if is_symbol x then Symbol_raises x else None) (strict Symbol_faults x)).
      { rewrite (Symbol_step_one Symbol_from o x). rewrite (IH x). reflexivity. }
      rewrite <- K. destruct (Symbol_step Symbol_from o x); [apply IHl|reflexivity]. }
    pose proof (Symbol_id_e id Symbol_default) as I. destruct (Symbol_set_libId id Symbol_default); cbn [bind].
    + destruct id; try discriminate I. apply E.
    + destruct id; try discriminate I; cbn in I; injection I as ->; reflexivity.
Qed.
#[export] Hint Resolve Symbol_e : rsd.

Lemma SymbolLib_step_e : forall o x, er (SymbolLib_step o x) = (strict SymbolLib_faults) x.
Proof. step_tac ltac:(unfold SymbolLib_step, SymbolLib_faults). Qed.
Lemma SymbolLib_e : forall v, er (SymbolLib_from v) = SymbolLib_raises v.
Proof. from_tac (unfold SymbolLib_from, SymbolLib_raises) 0 SymbolLib_step_e. Qed.
#[export] Hint Resolve SymbolLib_e : rsd.

Lemma FpText_step_e : forall o x, er (FpText_step o x) = (lists FpText_faults) x.
Proof. step_tac ltac:(unfold FpText_step, FpText_faults). Qed.
Lemma FpText_e : forall v, er (FpText_from v) = FpText_raises v.
Proof. from_tac (unfold FpText_from, FpText_raises) 2 FpText_step_e. Qed.
#[export] Hint Resolve FpText_e : rsd.

Lemma FpLine_step_e : forall o x, er (FpLine_step o x) = (lists FpLine_faults) x.
Proof. step_tac ltac:(unfold FpLine_step, FpLine_faults). Qed.
Lemma FpLine_e : forall v, er (FpLine_from v) = FpLine_raises v.
Proof. from_tac (unfold FpLine_from, FpLine_raises) 0 FpLine_step_e. Qed.
#[export] Hint Resolve FpLine_e : rsd.

Lemma FpRect_step_e : forall o x, er (FpRect_step o x) = (lists FpRect_faults) x.
Proof. step_tac ltac:(unfold FpRect_step, FpRect_faults). Qed.
Lemma FpRect_e : forall v, er (FpRect_from v) = FpRect_raises v.
Proof. from_tac (unfold FpRect_from, FpRect_raises) 0 FpRect_step_e. Qed.
#[export] Hint Resolve FpRect_e : rsd.

Lemma FpTextBox_step_e : forall o x, er (FpTextBox_step o x) = strict FpTextBox_faults x.
Proof. step_tac ltac:(unfold FpTextBox_step, FpTextBox_faults). Qed.
Lemma FpTextBox_e : forall v, er (FpTextBox_from v) = FpTextBox_raises v.
Proof.
  intros v. unfold FpTextBox_from, FpTextBox_raises, text_box_locked, flagged_expr, need_list.
  destruct v as [| | | | |[|h [|x l]]]; try reflexivity; cbn [at_ nth_error bind length Nat.ltb Nat.leb]; destruct (h =s "fp_text_box"); try reflexivity.
  cbn [negb bind andb at_ nth_error]. destruct (x =s "locked"); cbn [bind].
  - destruct l as [|y l]; [reflexivity|]. cbn [nth_error bind]. destruct y; cbn [is_list negb]; cbn [at_ nth_error bind skipn]; apply (er_fold _ _ FpTextBox_step_e).
  - cbn [at_ nth_error bind skipn]; apply (er_fold _ _ FpTextBox_step_e).
Qed.
#[export] Hint Resolve FpTextBox_e : rsd.

Lemma FpCircle_step_e : forall o x, er (FpCircle_step o x) = (lists FpCircle_faults) x.
Proof. step_tac ltac:(unfold FpCircle_step, FpCircle_faults). Qed.
Lemma FpCircle_e : forall v, er (FpCircle_from v) = FpCircle_raises v.
Proof. from_tac (unfold FpCircle_from, FpCircle_raises) 0 FpCircle_step_e. Qed.
#[export] Hint Resolve FpCircle_e : rsd.

Lemma FpArc_step_e : forall o x, er (FpArc_step o x) = (lists FpArc_faults) x.
Proof. step_tac ltac:(unfold FpArc_step, FpArc_faults). Qed.
Lemma FpArc_e : forall v, er (FpArc_from v) = FpArc_raises v.
Proof. from_tac (unfold FpArc_from, FpArc_raises) 0 FpArc_step_e. Qed.
#[export] Hint Resolve FpArc_e : rsd.

Lemma FpPoly_step_e : forall o x, er (FpPoly_step o x) = (lists FpPoly_faults) x.
Proof. step_tac ltac:(unfold FpPoly_step, FpPoly_faults). Qed.
Lemma FpPoly_e : forall v, er (FpPoly_from v) = FpPoly_raises v.
Proof. from_tac (unfold FpPoly_from, FpPoly_raises) 0 FpPoly_step_e. Qed.
#[export] Hint Resolve FpPoly_e : rsd.

Lemma FpCurve_step_e : forall o x, er (FpCurve_step o x) = (lists FpCurve_faults) x.
Proof. step_tac ltac:(unfold FpCurve_step, FpCurve_faults). Qed.
Lemma FpCurve_e : forall v, er (FpCurve_from v) = FpCurve_raises v.
Proof. from_tac (unfold FpCurve_from, FpCurve_raises) 0 FpCurve_step_e. Qed.
#[export] Hint Resolve FpCurve_e : rsd.

Lemma GrText_step_e : forall o x, er (GrText_step o x) = (lists GrText_faults) x.
Proof. step_tac ltac:(unfold GrText_step, GrText_faults). Qed.
Lemma GrText_e : forall v, er (GrText_from v) = GrText_raises v.
Proof. from_tac (unfold GrText_from, GrText_raises) 1 GrText_step_e. Qed.
#[export] Hint Resolve GrText_e : rsd.

Lemma GrTextBox_step_e : forall o x, er (GrTextBox_step o x) = strict GrTextBox_faults x.
Proof. step_tac ltac:(unfold GrTextBox_step, GrTextBox_faults). Qed.
Lemma GrTextBox_e : forall v, er (GrTextBox_from v) = GrTextBox_raises v.
Proof.
  intros v. unfold GrTextBox_from, GrTextBox_raises, text_box_locked, flagged_expr, need_list.
  destruct v as [| | | | |[|h [|x l]]]; try reflexivity; cbn [at_ nth_error bind length Nat.ltb Nat.leb]; destruct (h =s "gr_text_box"); try reflexivity.
  cbn [negb bind andb at_ nth_error]. destruct (x =s "locked"); cbn [bind].
  - destruct l as [|y l]; [reflexivity|]. cbn [nth_error bind]. destruct y; cbn [is_list negb]; cbn [at_ nth_error bind skipn]; apply (er_fold _ _ GrTextBox_step_e).
  - cbn [at_ nth_error bind skipn]; apply (er_fold _ _ GrTextBox_step_e).
Qed.
#[export] Hint Resolve GrTextBox_e : rsd.

Lemma GrLine_step_e : forall o x, er (GrLine_step o x) = (lists GrLine_faults) x.
Proof. step_tac ltac:(unfold GrLine_step, GrLine_faults). Qed.
Lemma GrLine_e : forall v, er (GrLine_from v) = GrLine_raises v.
Proof. from_tac (unfold GrLine_from, GrLine_raises) 0 GrLine_step_e. Qed.
#[export] Hint Resolve GrLine_e : rsd.

Lemma GrRect_step_e : forall o x, er (GrRect_step o x) = (lists GrRect_faults) x.
Proof. step_tac ltac:(unfold GrRect_step, GrRect_faults). Qed.
Lemma GrRect_e : forall v, er (GrRect_from v) = GrRect_raises v.
Proof. from_tac (unfold GrRect_from, GrRect_raises) 0 GrRect_step_e. Qed.
#[export] Hint Resolve GrRect_e : rsd.

Lemma GrCircle_step_e : forall o x, er (GrCircle_step o x) = (lists GrCircle_faults) x.
Proof. step_tac ltac:(unfold GrCircle_step, GrCircle_faults). Qed.
Lemma GrCircle_e : forall v, er (GrCircle_from v) = GrCircle_raises v.
Proof. from_tac (unfold GrCircle_from, GrCircle_raises) 0 GrCircle_step_e. Qed.
#[export] Hint Resolve GrCircle_e : rsd.

Lemma GrArc_step_e : forall o x, er (GrArc_step o x) = (lists GrArc_faults) x.
Proof. step_tac ltac:(unfold GrArc_step, GrArc_faults). Qed.
Lemma GrArc_e : forall v, er (GrArc_from v) = GrArc_raises v.
Proof. from_tac (unfold GrArc_from, GrArc_raises) 0 GrArc_step_e. Qed.
#[export] Hint Resolve GrArc_e : rsd.

Lemma GrPoly_step_e : forall o x, er (GrPoly_step o x) = (lists GrPoly_faults) x.
Proof. step_tac ltac:(unfold GrPoly_step, GrPoly_faults). Qed.
Lemma GrPoly_e : forall v, er (GrPoly_from v) = GrPoly_raises v.
Proof. from_tac (unfold GrPoly_from, GrPoly_raises) 0 GrPoly_step_e. Qed.
#[export] Hint Resolve GrPoly_e : rsd.

Lemma GrCurve_step_e : forall o x, er (GrCurve_step o x) = (lists GrCurve_faults) x.
Proof. step_tac ltac:(unfold GrCurve_step, GrCurve_faults). Qed.
Lemma GrCurve_e : forall v, er (GrCurve_from v) = GrCurve_raises v.
Proof. from_tac (unfold GrCurve_from, GrCurve_raises) 0 GrCurve_step_e. Qed.
#[export] Hint Resolve GrCurve_e : rsd.

Lemma KeepoutSettings_step_e : forall o x, er (KeepoutSettings_step o x) = (lists KeepoutSettings_faults) x.
Proof. step_tac ltac:(unfold KeepoutSettings_step, KeepoutSettings_faults). Qed.
Lemma KeepoutSettings_e : forall v, er (KeepoutSettings_from v) = KeepoutSettings_raises v.
Proof. from_tac (unfold KeepoutSettings_from, KeepoutSettings_raises) 0 KeepoutSettings_step_e. Qed.
#[export] Hint Resolve KeepoutSettings_e : rsd.

Lemma FillSettings_step_e : forall o x, er (FillSettings_step o x) = (lists FillSettings_faults) x.
Proof. step_tac ltac:(unfold FillSettings_step, FillSettings_faults). Qed.
Lemma FillSettings_e : forall v, er (FillSettings_from v) = FillSettings_raises v.
Proof. from_tac (unfold FillSettings_from, FillSettings_raises) 0 FillSettings_step_e. Qed.
#[export] Hint Resolve FillSettings_e : rsd.

Lemma ZonePolygon_step_e : forall o x, er (ZonePolygon_step o x) = (lists ZonePolygon_faults) x.
Proof. step_tac ltac:(unfold ZonePolygon_step, ZonePolygon_faults). Qed.
Lemma ZonePolygon_e : forall v, er (ZonePolygon_from v) = ZonePolygon_raises v.
Proof. from_tac (unfold ZonePolygon_from, ZonePolygon_raises) 0 ZonePolygon_step_e. Qed.
#[export] Hint Resolve ZonePolygon_e : rsd.

Lemma FilledPolygon_step_e : forall o x, er (FilledPolygon_step o x) = (lists FilledPolygon_faults) x.
Proof. step_tac ltac:(unfold FilledPolygon_step, FilledPolygon_faults). Qed.
Lemma FilledPolygon_e : forall v, er (FilledPolygon_from v) = FilledPolygon_raises v.
Proof. from_tac (unfold FilledPolygon_from, FilledPolygon_raises) 0 FilledPolygon_step_e. Qed.
#[export] Hint Resolve FilledPolygon_e : rsd.

Lemma FillSegments_step_e : forall o x, er (FillSegments_step o x) = (lists FillSegments_faults) x.
Proof. step_tac ltac:(unfold FillSegments_step, FillSegments_faults). Qed.
Lemma FillSegments_e : forall v, er (FillSegments_from v) = FillSegments_raises v.
Proof. from_tac (unfold FillSegments_from, FillSegments_raises) 0 FillSegments_step_e. Qed.
#[export] Hint Resolve FillSegments_e : rsd.

Lemma Zone_step_e : forall o x, er (Zone_step o x) = (lists Zone_faults) x.
Proof. step_tac ltac:(unfold Zone_step, Zone_faults). Qed.
Lemma Zone_e : forall v, er (Zone_from v) = Zone_raises v.
Proof. from_tac (unfold Zone_from, Zone_raises) 0 Zone_step_e. Qed.
#[export] Hint Resolve Zone_e : rsd.

Lemma Attributes_e : forall v, er (Attributes_from v) = Attributes_raises v.
Proof.
  assert (F : forall l o, er (foldM Attributes_item o l) = None).
  { intros l o. rewrite (er_fold _ fine); [apply fine_all|]. intros. unfold Attributes_item. ifs. }
  intros v. unfold Attributes_from, Attributes_raises, expr, need_head, need_list.
  destruct v as [| | | | |[|h l]]; try reflexivity. cbn [at_ nth_error bind existsb orb length Nat.leb skipn].
  destruct (h =s "attr"); [|reflexivity]. cbn [negb bind andb]. rewrite fine_all.
  destruct l as [|x l]; cbn [length Nat.ltb Nat.leb on bind nth_error]; [apply F|].
  destruct (_ || _); unfold setf; cbn [on bind]; apply F.
Qed.
#[export] Hint Resolve Attributes_e : rsd.

Lemma Model_step_e : forall o x, er (Model_step o x) = strict Model_faults x.
Proof. step_tac ltac:(unfold Model_step, Model_faults). Qed.
Lemma Model_e : forall v, er (Model_from v) = Model_raises v.
Proof.
  intros v. unfold Model_from, Model_raises, expr, need_list, setf.
  destruct v as [| | | | |[|h [|p [|x [|y [|z l]]]]]]; cbn [length Nat.ltb Nat.leb existsb bind]; try reflexivity.
  cbn [at_ nth_error bind skipn]. rewrite orb_false_r. destruct (h =s "model"); [|reflexivity]. cbn [negb bind andb].
  rewrite <- (er_fold _ _ Model_step_e (x :: y :: z :: l) (if x =s "hide" then Model_default <| mo_path := p |> <| mo_hide := true |> else Model_default <| mo_path := p |>)).
  destruct (x =s "hide"); reflexivity.
Qed.
#[export] Hint Resolve Model_e : rsd.

Lemma DrillDefinition_step_e : forall o x, er (DrillDefinition_step o x) = lists DrillDefinition_faults x.
Proof. step_tac ltac:(unfold DrillDefinition_step, DrillDefinition_faults). Qed.
Lemma DrillDefinition_e : forall v, er (DrillDefinition_from v) = DrillDefinition_raises v.
Proof.
  intros v. unfold DrillDefinition_from, DrillDefinition_raises, need_head, need_list.
  destruct v as [| | | | |[|h [|x l]]]; try reflexivity; cbn [at_ nth_error bind]; destruct (h =s "drill") eqn:E; try reflexivity.
  apply is_str_true in E; subst h. cbn [negb bind andb at_ nth_error]. destruct (x =s "oval") eqn:E.
  - apply is_str_true in E; subst x. destruct l as [|a [|b l]]; [reflexivity|reflexivity|]. unfold setf; cbn [nth_error bind length Nat.leb andb]. now rewrite (er_fold _ _ DrillDefinition_step_e).
  - unfold setf; cbn [bind andb]. destruct l; cbn [length Nat.ltb Nat.leb on at_ nth_error bind]; now rewrite (er_fold _ _ DrillDefinition_step_e).
Qed.
#[export] Hint Resolve DrillDefinition_e : rsd.

Lemma PadOptions_step_e : forall o x, er (PadOptions_step o x) = (strict PadOptions_faults) x.
Proof. step_tac ltac:(unfold PadOptions_step, PadOptions_faults). Qed.
Lemma PadOptions_e : forall v, er (PadOptions_from v) = PadOptions_raises v.
Proof. from_tac (unfold PadOptions_from, PadOptions_raises) 0 PadOptions_step_e. Qed.
#[export] Hint Resolve PadOptions_e : rsd.

Lemma PadPrimitive_e : forall x, er (PadPrimitive_read x) = strict PadPrimitive_faults x.
Proof.
  intros x. unfold PadPrimitive_read, strict, rows, PadPrimitive_faults. destruct x as [| | | |s|l]; try reflexivity; [step_text s|].
  destruct l as [|h l]; [reflexivity|]. change (at_ (VList (h :: l)) 0) with (Ok h). cbn [bind first fst snd].
  repeat match goal with |- er (if is_str h ?k then _ else _) = _ => destruct (is_str h k) eqn:?E; cbn [andb];
    [match goal with H : is_str h k = true |- _ => apply is_str_true in H; subst h end; decide_heads; cbn [andb]; rewrite ?andb_true_r; err|] end.
  reflexivity.
Qed.
Lemma PadPrimitives_e l : er (PadPrimitives_read l) = first (strict PadPrimitive_faults) l.
Proof. unfold PadPrimitives_read. rewrite <- (er_map _ _ l PadPrimitive_e). now destruct (mapM _ l). Qed.
Lemma Pad_each l n : er (let! m := from_ (VList l) n in PadPrimitives_read m) = each n (strict PadPrimitive_faults) (VList l).
Proof. apply PadPrimitives_e. Qed.
#[export] Hint Resolve Pad_each : rsd.

Lemma Pad_step_e : forall o x, er (Pad_step o x) = (strict Pad_faults) x.
Proof. step_tac ltac:(unfold Pad_step, Pad_faults). Qed.
Lemma Pad_e : forall v, er (Pad_from v) = Pad_raises v.
Proof. from_tac (unfold Pad_from, Pad_raises) 3 Pad_step_e. Qed.
#[export] Hint Resolve Pad_e : rsd.

Lemma Footprint_item_e {A} (c : A -> FpItem) m o b : er m = b -> er (Footprint_item c m o) = b.
Proof. intros <-. unfold Footprint_item. rewrite er_addf. now destruct m. Qed.
Ltac erq_more ::= lazymatch goal with |- er (Footprint_item _ _ _) = _ => eapply Footprint_item_e; erq end.

Lemma Footprint_step_e : forall o x, er (Footprint_step o x) = (lists Footprint_faults) x.
Proof. step_tac ltac:(unfold Footprint_step, Footprint_faults). Qed.
Lemma Footprint_e now : forall v, er (Footprint_from now v) = Footprint_raises v.
Proof. from_tac (unfold Footprint_from, Footprint_raises) 1 Footprint_step_e. Qed.
#[export] Hint Resolve Footprint_e : rsd.

Lemma DimensionFormat_step_e : forall o x, er (DimensionFormat_step o x) = (lists DimensionFormat_faults) x.
Proof. step_tac ltac:(unfold DimensionFormat_step, DimensionFormat_faults). Qed.
Lemma DimensionFormat_e : forall v, er (DimensionFormat_from v) = DimensionFormat_raises v.
Proof. from_tac (unfold DimensionFormat_from, DimensionFormat_raises) 0 DimensionFormat_step_e. Qed.
#[export] Hint Resolve DimensionFormat_e : rsd.

Lemma DimensionStyle_step_e : forall o x, er (DimensionStyle_step o x) = (lists DimensionStyle_faults) x.
Proof. step_tac ltac:(unfold DimensionStyle_step, DimensionStyle_faults). Qed.
Lemma DimensionStyle_e : forall v, er (DimensionStyle_from v) = DimensionStyle_raises v.
Proof. from_tac (unfold DimensionStyle_from, DimensionStyle_raises) 0 DimensionStyle_step_e. Qed.
#[export] Hint Resolve DimensionStyle_e : rsd.

Lemma Dimension_step_e : forall o x, er (Dimension_step o x) = (lists Dimension_faults) x.
Proof. step_tac ltac:(unfold Dimension_step, Dimension_faults). Qed.
Lemma Dimension_e : forall v, er (Dimension_from v) = Dimension_raises v.
Proof. from_tac (unfold Dimension_from, Dimension_raises) 0 Dimension_step_e. Qed.
#[export] Hint Resolve Dimension_e : rsd.

Lemma GeneralSettings_step_e : forall o x, er (GeneralSettings_step o x) = (strict GeneralSettings_faults) x.
Proof. step_tac ltac:(unfold GeneralSettings_step, GeneralSettings_faults). Qed.
Lemma GeneralSettings_e : forall v, er (GeneralSettings_from v) = GeneralSettings_raises v.
Proof. from_tac (unfold GeneralSettings_from, GeneralSettings_raises) 0 GeneralSettings_step_e. Qed.
#[export] Hint Resolve GeneralSettings_e : rsd.

Lemma LayerToken_e : forall v, er (LayerToken_from v) = LayerToken_raises v.
Proof. small_tac (unfold LayerToken_from, LayerToken_raises). Qed.
#[export] Hint Resolve LayerToken_e : rsd.

Lemma StackupSubLayer_e : forall v, er (StackupSubLayer_from v) = StackupSubLayer_raises v.
Proof. reflexivity. Qed.
#[export] Hint Resolve StackupSubLayer_e : rsd.

Lemma StackupSubLayer_step_e o h l : er (StackupSubLayer_step o (VList (h :: l))) = lists StackupSubLayer_faults (VList (h :: l)).
Proof. unfold StackupSubLayer_step, lists, rows, StackupSubLayer_faults. change (at_ (VList (h :: l)) 0) with (Ok h). cbn [bind first fst snd]. chain. Qed.
Lemma StackupLayer_own_e o h l : er (StackupLayer_own o (VList (h :: l))) = lists StackupLayer_faults (VList (h :: l)).
Proof. unfold StackupLayer_own, lists, rows, StackupLayer_faults. change (at_ (VList (h :: l)) 0) with (Ok h). cbn [bind first fst snd]. chain. Qed.
Lemma StackupLayer_sub_e l : forall t o, er (foldM StackupLayer_next (Some t, o) l) = first (lists StackupSubLayer_faults) l.
Proof.
  induction l as [|x l IH]; intros t o; [reflexivity|]. cbn [foldM]. rewrite first_cons. unfold StackupLayer_next at 1.
  destruct x as [| | | |s|m]; [apply IH|apply IH|apply IH|apply IH| |].
  - cbn [is_list negb lists els]. destruct (VStr s =s "addsublayer"); unfold addf; cbn [bind]; apply IH.
  - cbn [is_list negb]. destruct m as [|h m]; [reflexivity|].
    rewrite <- (StackupSubLayer_step_e t h m). destruct (StackupSubLayer_step t (VList (h :: m))); [|reflexivity]. cbn [bind er els]. apply IH.
Qed.
Lemma StackupLayer_items_e l : forall o, er (foldM StackupLayer_next (None, o) l) = StackupLayer_item_faults l.
Proof.
  induction l as [|x l IH]; intros o; [reflexivity|]. cbn [foldM StackupLayer_item_faults]. unfold StackupLayer_next at 1.
  destruct x as [| | | |s|m]; [apply IH|apply IH|apply IH|apply IH| |].
  - cbn [is_list negb lists els]. destruct (VStr s =s "addsublayer"); cbn [bind]; [apply StackupLayer_sub_e|apply IH].
  - cbn [is_list negb is_str]. destruct m as [|h m]; [reflexivity|].
    rewrite <- (StackupLayer_own_e o h m). destruct (StackupLayer_own o (VList (h :: m))); [|reflexivity]. cbn [bind er els]. apply IH.
Qed.
Lemma StackupLayer_e : forall v, er (StackupLayer_from v) = StackupLayer_raises v.
Proof.
  intros v. unfold StackupLayer_from, StackupLayer_raises, need_head, need_list.
  destruct v as [| | | | |[|h [|x l]]]; try reflexivity; cbn [at_ nth_error bind]; destruct (h =s "layer"); try reflexivity.
  unfold setf; cbn [negb bind andb at_ nth_error skipn]. rewrite <- (StackupLayer_items_e l (StackupLayer_default <| sl_name := x |>)).
  destruct (foldM _ _ _) as [[[t|] o]|]; reflexivity.
Qed.
#[export] Hint Resolve StackupLayer_e : rsd.

Lemma Stackup_step_e : forall o x, er (Stackup_step o x) = (strict Stackup_faults) x.
Proof. step_tac ltac:(unfold Stackup_step, Stackup_faults). Qed.
Lemma Stackup_e : forall v, er (Stackup_from v) = Stackup_raises v.
Proof. from_tac (unfold Stackup_from, Stackup_raises) 0 Stackup_step_e. Qed.
#[export] Hint Resolve Stackup_e : rsd.

Lemma PlotSettings_step_e : forall o x, er (PlotSettings_step o x) = (strict PlotSettings_faults) x.
Proof. step_tac ltac:(unfold PlotSettings_step, PlotSettings_faults). Qed.
Lemma PlotSettings_e : forall v, er (PlotSettings_from v) = PlotSettings_raises v.
Proof. from_tac (unfold PlotSettings_from, PlotSettings_raises) 0 PlotSettings_step_e. Qed.
#[export] Hint Resolve PlotSettings_e : rsd.

Lemma SetupData_step_e : forall o x, er (SetupData_step o x) = (strict SetupData_faults) x.
Proof. step_tac ltac:(unfold SetupData_step, SetupData_faults). Qed.
Lemma SetupData_e : forall v, er (SetupData_from v) = SetupData_raises v.
Proof. from_tac (unfold SetupData_from, SetupData_raises) 0 SetupData_step_e. Qed.
#[export] Hint Resolve SetupData_e : rsd.

Lemma Segment_step_e : forall o x, er (Segment_step o x) = (lists Segment_faults) x.
Proof. step_tac ltac:(unfold Segment_step, Segment_faults). Qed.
Lemma Segment_e : forall v, er (Segment_from v) = Segment_raises v.
Proof. from_tac (unfold Segment_from, Segment_raises) 0 Segment_step_e. Qed.
#[export] Hint Resolve Segment_e : rsd.

Lemma Via_step_e : forall o x, er (Via_step o x) = (lists Via_faults) x.
Proof. step_tac ltac:(unfold Via_step, Via_faults). Qed.
Lemma Via_e : forall v, er (Via_from v) = Via_raises v.
Proof. from_tac (unfold Via_from, Via_raises) 0 Via_step_e. Qed.
#[export] Hint Resolve Via_e : rsd.

Lemma Arc_step_e : forall o x, er (Arc_step o x) = (lists Arc_faults) x.
Proof. step_tac ltac:(unfold Arc_step, Arc_faults). Qed.
Lemma Arc_e : forall v, er (Arc_from v) = Arc_raises v.
Proof. from_tac (unfold Arc_from, Arc_raises) 0 Arc_step_e. Qed.
#[export] Hint Resolve Arc_e : rsd.

Lemma Target_step_e : forall o x, er (Target_step o x) = (strict Target_faults) x.
Proof. step_tac ltac:(unfold Target_step, Target_faults). Qed.
Lemma Target_e : forall v, er (Target_from v) = Target_raises v.
Proof. from_tac (unfold Target_from, Target_raises) 1 Target_step_e. Qed.
#[export] Hint Resolve Target_e : rsd.

Lemma Board_item_e {A} (c : A -> BdItem) m o b : er m = b -> er (Board_item c m o) = b.
Proof. intros <-. unfold Board_item. rewrite er_addf. now destruct m. Qed.
Lemma Board_trace_e {A} (c : A -> TrItem) m o b : er m = b -> er (Board_trace c m o) = b.
Proof. intros <-. unfold Board_trace. rewrite er_addf. now destruct m. Qed.
Ltac erq_more ::= lazymatch goal with |- er (Board_item _ _ _) = _ => eapply Board_item_e; erq | |- er (Board_trace _ _ _) = _ => eapply Board_trace_e; erq end.

Lemma Board_step_e now : forall o x, er (Board_step now o x) = (strict Board_faults) x.
Proof. step_tac ltac:(unfold Board_step, Board_faults). Qed.
Lemma Board_e now : forall v, er (Board_from now v) = Board_raises v.
Proof. from_tac (unfold Board_from, Board_raises) 0 (Board_step_e now). Qed.
#[export] Hint Resolve Board_e : rsd.

Lemma Junction_step_e : forall o x, er (Junction_step o x) = (strict Junction_faults) x.
Proof. step_tac ltac:(unfold Junction_step, Junction_faults). Qed.
Lemma Junction_e : forall v, er (Junction_from v) = Junction_raises v.
Proof. from_tac (unfold Junction_from, Junction_raises) 0 Junction_step_e. Qed.
#[export] Hint Resolve Junction_e : rsd.

Lemma NoConnect_step_e : forall o x, er (NoConnect_step o x) = (strict NoConnect_faults) x.
Proof. step_tac ltac:(unfold NoConnect_step, NoConnect_faults). Qed.
Lemma NoConnect_e : forall v, er (NoConnect_from v) = NoConnect_raises v.
Proof. from_tac (unfold NoConnect_from, NoConnect_raises) 0 NoConnect_step_e. Qed.
#[export] Hint Resolve NoConnect_e : rsd.

Lemma BusEntry_step_e : forall o x, er (BusEntry_step o x) = (strict BusEntry_faults) x.
Proof. step_tac ltac:(unfold BusEntry_step, BusEntry_faults). Qed.
Lemma BusEntry_e : forall v, er (BusEntry_from v) = BusEntry_raises v.
Proof. from_tac (unfold BusEntry_from, BusEntry_raises) 0 BusEntry_step_e. Qed.
#[export] Hint Resolve BusEntry_e : rsd.

Lemma BusAlias_e : forall v, er (BusAlias_from v) = BusAlias_raises v.
Proof.
  intros v. unfold BusAlias_from, BusAlias_raises, need_head, need_list.
  destruct v as [| | | | |[|h [|x [|m [|y l]]]]]; try reflexivity; cbn [at_ nth_error bind]; destruct (h =s "bus_alias") eqn:E; cbn [negb bind];
    try reflexivity; try (destruct m as [| | | | |[|]]; rewrite ?E; reflexivity); try (destruct l; reflexivity); try (destruct m as [| | | | |[|]]; reflexivity).
  cbn [length Nat.eqb negb bind at_ nth_error]. destruct m as [| | | | |[|k m]]; try reflexivity. cbn [is_list negb bind at_ nth_error andb]. now destruct (k =s "members").
Qed.
#[export] Hint Resolve BusAlias_e : rsd.

Lemma Connection_step_e : forall o x, er (Connection_step o x) = (strict Connection_faults) x.
Proof. step_tac ltac:(unfold Connection_step, Connection_faults). Qed.
Lemma Connection_e : forall v, er (Connection_from v) = Connection_raises v.
Proof. from_tac (unfold Connection_from, Connection_raises) 0 Connection_step_e. Qed.
#[export] Hint Resolve Connection_e : rsd.

Lemma PolyLine_step_e : forall o x, er (PolyLine_step o x) = (strict PolyLine_faults) x.
Proof. step_tac ltac:(unfold PolyLine_step, PolyLine_faults). Qed.
Lemma PolyLine_e : forall v, er (PolyLine_from v) = PolyLine_raises v.
Proof. from_tac (unfold PolyLine_from, PolyLine_raises) 0 PolyLine_step_e. Qed.
#[export] Hint Resolve PolyLine_e : rsd.

Lemma Text_step_e : forall o x, er (Text_step o x) = (strict Text_faults) x.
Proof. step_tac ltac:(unfold Text_step, Text_faults). Qed.
Lemma Text_e : forall v, er (Text_from v) = Text_raises v.
Proof. from_tac (unfold Text_from, Text_raises) 1 Text_step_e. Qed.
#[export] Hint Resolve Text_e : rsd.

Lemma TextBox_step_e : forall o x, er (TextBox_step o x) = (strict TextBox_faults) x.
Proof. step_tac ltac:(unfold TextBox_step, TextBox_faults). Qed.
Lemma TextBox_e : forall v, er (TextBox_from v) = TextBox_raises v.
Proof. from_tac (unfold TextBox_from, TextBox_raises) 1 TextBox_step_e. Qed.
#[export] Hint Resolve TextBox_e : rsd.

Lemma LocalLabel_step_e : forall o x, er (LocalLabel_step o x) = (strict LocalLabel_faults) x.
Proof. step_tac ltac:(unfold LocalLabel_step, LocalLabel_faults). Qed.
Lemma LocalLabel_e : forall v, er (LocalLabel_from v) = LocalLabel_raises v.
Proof. from_tac (unfold LocalLabel_from, LocalLabel_raises) 1 LocalLabel_step_e. Qed.
#[export] Hint Resolve LocalLabel_e : rsd.

Lemma GlobalLabel_step_e : forall o x, er (GlobalLabel_step o x) = (strict GlobalLabel_faults) x.
Proof. step_tac ltac:(unfold GlobalLabel_step, GlobalLabel_faults). Qed.
Lemma GlobalLabel_e : forall v, er (GlobalLabel_from v) = GlobalLabel_raises v.
Proof. from_tac (unfold GlobalLabel_from, GlobalLabel_raises) 1 GlobalLabel_step_e. Qed.
#[export] Hint Resolve GlobalLabel_e : rsd.

Lemma HierarchicalLabel_step_e : forall o x, er (HierarchicalLabel_step o x) = (strict HierarchicalLabel_faults) x.
Proof. step_tac ltac:(unfold HierarchicalLabel_step, HierarchicalLabel_faults). Qed.
Lemma HierarchicalLabel_e : forall v, er (HierarchicalLabel_from v) = HierarchicalLabel_raises v.
Proof. from_tac (unfold HierarchicalLabel_from, HierarchicalLabel_raises) 1 HierarchicalLabel_step_e. Qed.
#[export] Hint Resolve HierarchicalLabel_e : rsd.

Lemma SymbolProjectPath_step_e : forall o x, er (SymbolProjectPath_step o x) = (strict SymbolProjectPath_faults) x.
Proof. step_tac ltac:(unfold SymbolProjectPath_step, SymbolProjectPath_faults). Qed.
Lemma SymbolProjectPath_e : forall v, er (SymbolProjectPath_from v) = SymbolProjectPath_raises v.
Proof. from_tac (unfold SymbolProjectPath_from, SymbolProjectPath_raises) 1 SymbolProjectPath_step_e. Qed.
#[export] Hint Resolve SymbolProjectPath_e : rsd.

Lemma SymbolProjectInstance_step_e : forall o x, er (SymbolProjectInstance_step o x) = (strict SymbolProjectInstance_faults) x.
Proof. step_tac ltac:(unfold SymbolProjectInstance_step, SymbolProjectInstance_faults). Qed.
Lemma SymbolProjectInstance_e : forall v, er (SymbolProjectInstance_from v) = SymbolProjectInstance_raises v.
Proof. from_tac (unfold SymbolProjectInstance_from, SymbolProjectInstance_raises) 1 SymbolProjectInstance_step_e. Qed.
#[export] Hint Resolve SymbolProjectInstance_e : rsd.

Lemma SchematicSymbol_id_e id o : er (SchematicSymbol_set_libId id o) = textual id.
Proof. unfold SchematicSymbol_set_libId. rewrite <- er_as_text. destruct (as_text id); [|reflexivity]. cbn [bind er]. now destruct (re_match re_nick a). Qed.
#[export] Hint Resolve SchematicSymbol_id_e : rsd.

Lemma SchematicSymbol_step_e : forall o x, er (SchematicSymbol_step o x) = (strict SchematicSymbol_faults) x.
Proof. step_tac ltac:(unfold SchematicSymbol_step, SchematicSymbol_faults). Qed.
Lemma SchematicSymbol_e : forall v, er (SchematicSymbol_from v) = SchematicSymbol_raises v.
Proof. from_tac (unfold SchematicSymbol_from, SchematicSymbol_raises) 0 SchematicSymbol_step_e. Qed.
#[export] Hint Resolve SchematicSymbol_e : rsd.

Lemma HierarchicalPin_step_e : forall o x, er (HierarchicalPin_step o x) = (strict HierarchicalPin_faults) x.
Proof. step_tac ltac:(unfold HierarchicalPin_step, HierarchicalPin_faults). Qed.
Lemma HierarchicalPin_e : forall v, er (HierarchicalPin_from v) = HierarchicalPin_raises v.
Proof. from_tac (unfold HierarchicalPin_from, HierarchicalPin_raises) 2 HierarchicalPin_step_e. Qed.
#[export] Hint Resolve HierarchicalPin_e : rsd.

Lemma HierarchicalSheetProjectPath_step_e : forall o x, er (HierarchicalSheetProjectPath_step o x) = (strict HierarchicalSheetProjectPath_faults) x.
Proof. step_tac ltac:(unfold HierarchicalSheetProjectPath_step, HierarchicalSheetProjectPath_faults). Qed.
Lemma HierarchicalSheetProjectPath_e : forall v, er (HierarchicalSheetProjectPath_from v) = HierarchicalSheetProjectPath_raises v.
Proof. from_tac (unfold HierarchicalSheetProjectPath_from, HierarchicalSheetProjectPath_raises) 1 HierarchicalSheetProjectPath_step_e. Qed.
#[export] Hint Resolve HierarchicalSheetProjectPath_e : rsd.

Lemma HierarchicalSheetProjectInstance_step_e : forall o x, er (HierarchicalSheetProjectInstance_step o x) = (strict HierarchicalSheetProjectInstance_faults) x.
Proof. step_tac ltac:(unfold HierarchicalSheetProjectInstance_step, HierarchicalSheetProjectInstance_faults). Qed.
Lemma HierarchicalSheetProjectInstance_e : forall v, er (HierarchicalSheetProjectInstance_from v) = HierarchicalSheetProjectInstance_raises v.
Proof. from_tac (unfold HierarchicalSheetProjectInstance_from, HierarchicalSheetProjectInstance_raises) 1 HierarchicalSheetProjectInstance_step_e. Qed.
#[export] Hint Resolve HierarchicalSheetProjectInstance_e : rsd.

Lemma HierarchicalSheet_property_e h l o : er (HierarchicalSheet_property (VList (h :: l)) o) = Property_raises (VList (h :: l)).
Proof.
  unfold HierarchicalSheet_property. rewrite <- Property_e. destruct l as [|k l].
  - unfold Property_from, need_head, need_list. cbn [at_ nth_error bind]. now destruct (h =s "property").
  - destruct (Property_from _); [|reflexivity]. cbn [bind at_ nth_error]. ifs.
Qed.
#[export] Hint Resolve HierarchicalSheet_property_e : rsd.

Lemma HierarchicalSheet_step_e : forall o x, er (HierarchicalSheet_step o x) = (strict HierarchicalSheet_faults) x.
Proof. step_tac ltac:(unfold HierarchicalSheet_step, HierarchicalSheet_faults). Qed.
Lemma HierarchicalSheet_e : forall v, er (HierarchicalSheet_from v) = HierarchicalSheet_raises v.
Proof. from_tac (unfold HierarchicalSheet_from, HierarchicalSheet_raises) 0 HierarchicalSheet_step_e. Qed.
#[export] Hint Resolve HierarchicalSheet_e : rsd.

Lemma HierarchicalSheetInstance_step_e : forall o x, er (HierarchicalSheetInstance_step o x) = (strict HierarchicalSheetInstance_faults) x.
Proof. step_tac ltac:(unfold HierarchicalSheetInstance_step, HierarchicalSheetInstance_faults). Qed.
Lemma HierarchicalSheetInstance_e : forall v, er (HierarchicalSheetInstance_from v) = HierarchicalSheetInstance_raises v.
Proof. from_tac (unfold HierarchicalSheetInstance_from, HierarchicalSheetInstance_raises) 1 HierarchicalSheetInstance_step_e. Qed.
#[export] Hint Resolve HierarchicalSheetInstance_e : rsd.

Lemma SymbolInstance_step_e : forall o x, er (SymbolInstance_step o x) = (strict SymbolInstance_faults) x.
Proof. step_tac ltac:(unfold SymbolInstance_step, SymbolInstance_faults). Qed.
Lemma SymbolInstance_e : forall v, er (SymbolInstance_from v) = SymbolInstance_raises v.
Proof. from_tac (unfold SymbolInstance_from, SymbolInstance_raises) 1 SymbolInstance_step_e. Qed.
#[export] Hint Resolve SymbolInstance_e : rsd.

Lemma Rectangle_step_e : forall o x, er (Rectangle_step o x) = (strict Rectangle_faults) x.
Proof. step_tac ltac:(unfold Rectangle_step, Rectangle_faults). Qed.
Lemma Rectangle_e : forall v, er (Rectangle_from v) = Rectangle_raises v.
Proof. from_tac (unfold Rectangle_from, Rectangle_raises) 0 Rectangle_step_e. Qed.
#[export] Hint Resolve Rectangle_e : rsd.

Lemma SchArc_step_e : forall o x, er (SchArc_step o x) = (strict SchArc_faults) x.
Proof. step_tac ltac:(unfold SchArc_step, SchArc_faults). Qed.
Lemma SchArc_e : forall v, er (SchArc_from v) = SchArc_raises v.
Proof. from_tac (unfold SchArc_from, SchArc_raises) 0 SchArc_step_e. Qed.
#[export] Hint Resolve SchArc_e : rsd.

Lemma Circle_step_e : forall o x, er (Circle_step o x) = (strict Circle_faults) x.
Proof. step_tac ltac:(unfold Circle_step, Circle_faults). Qed.
Lemma Circle_e : forall v, er (Circle_from v) = Circle_raises v.
Proof. from_tac (unfold Circle_from, Circle_raises) 0 Circle_step_e. Qed.
#[export] Hint Resolve Circle_e : rsd.

Lemma NetclassFlag_step_e : forall o x, er (NetclassFlag_step o x) = (strict NetclassFlag_faults) x.
Proof. step_tac ltac:(unfold NetclassFlag_step, NetclassFlag_faults). Qed.
Lemma NetclassFlag_e : forall v, er (NetclassFlag_from v) = NetclassFlag_raises v.
Proof. from_tac (unfold NetclassFlag_from, NetclassFlag_raises) 1 NetclassFlag_step_e. Qed.
#[export] Hint Resolve NetclassFlag_e : rsd.

Lemma Schematic_line_e {A} (c : A -> ScLine) m o b : er m = b -> er (Schematic_line c m o) = b.
Proof. intros <-. unfold Schematic_line. rewrite er_addf. now destruct m. Qed.
Lemma Schematic_shape_e {A} (c : A -> ScShape) m o b : er m = b -> er (Schematic_shape c m o) = b.
Proof. intros <-. unfold Schematic_shape. rewrite er_addf. now destruct m. Qed.
Ltac erq_more ::= lazymatch goal with |- er (Schematic_line _ _ _) = _ => eapply Schematic_line_e; erq | |- er (Schematic_shape _ _ _) = _ => eapply Schematic_shape_e; erq end.

Lemma Schematic_step_e : forall o x, er (Schematic_step o x) = (strict Schematic_faults) x.
Proof. step_tac ltac:(unfold Schematic_step, Schematic_faults). Qed.
Lemma Schematic_e : forall v, er (Schematic_from v) = Schematic_raises v.
Proof. from_tac (unfold Schematic_from, Schematic_raises) 0 Schematic_step_e. Qed.
#[export] Hint Resolve Schematic_e : rsd.

Lemma WksFontSize_e : forall v, er (WksFontSize_from v) = WksFontSize_raises v.
Proof. small_tac (unfold WksFontSize_from, WksFontSize_raises). Qed.
#[export] Hint Resolve WksFontSize_e : rsd.

Lemma WksFont_step_e : forall o x, er (WksFont_step o x) = (lists WksFont_faults) x.
Proof. step_tac ltac:(unfold WksFont_step, WksFont_faults). Qed.
Lemma WksFont_e : forall v, er (WksFont_from v) = WksFont_raises v.
Proof. from_tac (unfold WksFont_from, WksFont_raises) 0 WksFont_step_e. Qed.
#[export] Hint Resolve WksFont_e : rsd.

Lemma WksPosition_e : forall v, er (WksPosition_from v) = WksPosition_raises v.
Proof. small_tac (unfold WksPosition_from, WksPosition_raises). Qed.
#[export] Hint Resolve WksPosition_e : rsd.

Lemma Line_step_e : forall o x, er (Line_step o x) = (strict Line_faults) x.
Proof. step_tac ltac:(unfold Line_step, Line_faults). Qed.
Lemma Line_e : forall v, er (Line_from v) = Line_raises v.
Proof. from_tac (unfold Line_from, Line_raises) 0 Line_step_e. Qed.
#[export] Hint Resolve Line_e : rsd.

Lemma Rect_step_e : forall o x, er (Rect_step o x) = (strict Rect_faults) x.
Proof. step_tac ltac:(unfold Rect_step, Rect_faults). Qed.
Lemma Rect_e : forall v, er (Rect_from v) = Rect_raises v.
Proof. from_tac (unfold Rect_from, Rect_raises) 0 Rect_step_e. Qed.
#[export] Hint Resolve Rect_e : rsd.

Lemma Polygon_e : forall v, er (Polygon_from v) = Polygon_raises v.
Proof. reflexivity. Qed.
#[export] Hint Resolve Polygon_e : rsd.

Lemma Bitmap_data_e : forall o x, er (Bitmap_data o x) = strict [("data"%string, need 1)] x.
Proof.
  intros o x. unfold Bitmap_data. destruct x as [| | | |s|[|h l]]; try reflexivity; [destruct s as [|c s]; [reflexivity|]; cbn [strict]; text_chain|].
  cbn [strict rows first fst snd]. change (at_ (VList (h :: l)) 0) with (Ok h). cbn [bind]. rewrite els_none. destruct (h =s "data"); [|reflexivity]. now destruct l.
Qed.
Lemma Bitmap_each l n : er (let! m := from_ (VList l) n in foldM Bitmap_data [] m) = each n (strict [("data"%string, need 1)]) (VList l).
Proof. apply (er_fold _ _ Bitmap_data_e). Qed.
#[export] Hint Resolve Bitmap_each : rsd.

Lemma Bitmap_step_e : forall o x, er (Bitmap_step o x) = (strict Bitmap_faults) x.
Proof. step_tac ltac:(unfold Bitmap_step, Bitmap_faults). Qed.
Lemma Bitmap_e : forall v, er (Bitmap_from v) = Bitmap_raises v.
Proof. from_tac (unfold Bitmap_from, Bitmap_raises) 0 Bitmap_step_e. Qed.
#[export] Hint Resolve Bitmap_e : rsd.

Lemma TbText_step_e : forall o x, er (TbText_step o x) = (strict TbText_faults) x.
Proof. step_tac ltac:(unfold TbText_step, TbText_faults). Qed.
Lemma TbText_e : forall v, er (TbText_from v) = TbText_raises v.
Proof. from_tac (unfold TbText_from, TbText_raises) 1 TbText_step_e. Qed.
#[export] Hint Resolve TbText_e : rsd.

Lemma TextSize_e : forall v, er (TextSize_from v) = TextSize_raises v.
Proof. small_tac (unfold TextSize_from, TextSize_raises). Qed.
#[export] Hint Resolve TextSize_e : rsd.

Lemma Setup_step_e : forall o x, er (Setup_step o x) = (strict Setup_faults) x.
Proof. step_tac ltac:(unfold Setup_step, Setup_faults). Qed.
Lemma Setup_e : forall v, er (Setup_from v) = Setup_raises v.
Proof. from_tac (unfold Setup_from, Setup_raises) 0 Setup_step_e. Qed.
#[export] Hint Resolve Setup_e : rsd.

Lemma WorkSheet_item_e {A} (c : A -> WkItem) m o b : er m = b -> er (WorkSheet_item c m o) = b.
Proof. intros <-. unfold WorkSheet_item. rewrite er_addf. now destruct m. Qed.
Ltac erq_more ::= lazymatch goal with |- er (WorkSheet_item _ _ _) = _ => eapply WorkSheet_item_e; erq end.

Lemma WorkSheet_step_e : forall o x, er (WorkSheet_step o x) = (strict WorkSheet_faults) x.
Proof. step_tac ltac:(unfold WorkSheet_step, WorkSheet_faults). Qed.
Lemma WorkSheet_e : forall v, er (WorkSheet_from v) = WorkSheet_raises v.
Proof. from_tac (unfold WorkSheet_from, WorkSheet_raises) 0 WorkSheet_step_e. Qed.
#[export] Hint Resolve WorkSheet_e : rsd.
