(** Round trip lemmas for items/syitems.py and symbol.py. *)
From Verif Require Import PyBase PyNum PyStr Sexpr S_Leaf S_Tree M_Common S_Common PyRe M_Sym S_Sym L_Lex L_Tok L_Num L_Seq L_Tac L_Common.

@rt SyArc arc
@rt SyCircle circle
@rt SyCurve curve noto nort noopq
@rt SyPolyLine polyline
@rt SyRect rectangle
@rt SyText text npos=1

Lemma SyTextBox_rd o : SyTextBox_ok o = true -> SyTextBox_from (SyTextBox_tree o) = Ok o.
Proof.
  intros H. destruct o as [t p ps sz sk fl ef u]. unfold SyTextBox_ok in H. cbn in H. facts0.
  unfold SyTextBox_from, SyTextBox_tree. cbn [sb_text sb_private sb_position sb_size sb_stroke sb_fill sb_effects sb_uuid].
  change (need_head "text_box" (node "text_box" ?l)) with (Ok (VStr $"text_box" :: l)). cbn [bind].
  destruct p.
  - assert (E : forall l, SyTextBox_private (node "text_box" (optw "private" true ++ t :: l)) = Ok true).
    { intros l. unfold SyTextBox_private, optw, node. cbn. change (VStr $"private" =s "private") with true. cbv iota. now rewrite (txtb_leaf t). }
    cbn [app]. rewrite E. clear E. cbn [bind]. unfold optw; cbv iota; cbn [app].
    rd_post SyTextBox_step. match goal with Hst : ?st = SyTextBox_step |- _ => rd_loop st SyTextBox_step end.
  - assert (E : forall p l, SyTextBox_private (node "text_box" (optw "private" false ++ t :: at3_tree "at" p :: l)) = Ok false).
    { intros p l. unfold SyTextBox_private, optw, node. cbn. now destruct (t =s "private"). }
    cbn [app]. rewrite E. clear E. cbn [bind]. unfold optw; cbv iota; cbn [app].
    rd_post SyTextBox_step. match goal with Hst : ?st = SyTextBox_step |- _ => rd_loop st SyTextBox_step end.
Qed.
#[export] Hint Resolve SyTextBox_rd : rd.
Lemma SyTextBox_ign : ignores SyTextBox_from 2 ["at"%string; "size"%string; "effects"%string; "stroke"%string; "fill"%string; "uuid"%string].
Proof.
  intros h before u args after H Hu. cbn [existsb] in Hu.
  repeat (apply orb_false_elim in Hu; let E := fresh "E" in destruct Hu as [E Hu]).
  assert (U : forall o, SyTextBox_step o (VList (u :: args)) = Ok o).
  { intros o. unfold SyTextBox_step. cbn [at_ nth_error bind].
    repeat match goal with E : is_str u _ = false |- _ => rewrite E; clear E end. reflexivity. }
  clear - U H. do 2 kill_arg H before.
  unfold SyTextBox_from, SyTextBox_private, need_head, need_list. cbn [app at_ nth_error bind].
  destruct (h =s "text_box"); [|reflexivity]. cbn [bind].
  destruct (v =s "private"); cbn [bind]; [destruct (is_list v0)|]; cbn [negb skipn setf bind];
    repeat (apply fold_same; intros ?); apply (fold_ignore SyTextBox_step); exact U.
Qed.
Lemma SyTextBox_win : last_wins SyTextBox_from 2 ["at"%string; "size"%string; "effects"%string; "stroke"%string; "fill"%string; "uuid"%string].
Proof.
  intros h before k args1 args2 after o H Hk.
  assert (U : forall o o1, SyTextBox_step o (node k args1) = Ok o1 -> SyTextBox_step o1 (node k args2) = SyTextBox_step o (node k args2)).
  { clear - Hk. intros [] o1. cbn [In] in Hk.
    repeat (destruct Hk as [Hk|Hk]; [subst k; unfold SyTextBox_step; red_step; intros E; res_cases; inversion E; subst; red_step; res_cases; solve [reflexivity]|]).
    destruct Hk. }
  clear - U H. do 2 kill_arg H before.
  unfold SyTextBox_from, SyTextBox_private, need_head, need_list. cbn [app at_ nth_error bind].
  destruct (h =s "text_box"); [|discriminate]. cbn [bind].
  destruct (v =s "private"); cbn [bind]; [destruct (is_list v0)|]; cbn [negb skipn setf bind];
    repeat (refine (fold_imp _ _ _ _ _ _ _); intros ?); refine (fold_wins SyTextBox_step _ _ U _ _ _ _).
Qed.
@rt SyTextBox text_box npos=2 nord manign manwins

@rt SymbolAlternativePin alternate rdrefl

Lemma SymbolPin_wr o i n : SymbolPin_ok o = true -> Wr (SymbolPin_to o i n) (flat (SymbolPin_tree (SymbolPin_norm o))).
Proof.
  intros H. destruct o as [et gs ps len nm ne nu ue hd alts]. unfold SymbolPin_ok in H.
  cbn [sp_electricalType sp_graphicalStyle sp_position sp_length sp_name sp_nameEffects sp_number sp_numberEffects sp_hide sp_alternatePins] in H.
  facts. unfold SymbolPin_to, SymbolPin_tree, SymbolPin_norm.
  cbn [sp_electricalType sp_graphicalStyle sp_position sp_length sp_name sp_nameEffects sp_number sp_numberEffects sp_hide sp_alternatePins].
  destruct ne, ue, alts; opt_facts; cbn [no_object andb negb orb length Nat.ltb Nat.leb opto option_map opt_str map];
    (eapply Wr_eq; [wr_go|unfold opto; cbn [flat_map map]; tpeel]).
Qed.
#[export] Hint Resolve SymbolPin_wr : wr.
Lemma SymbolPin_rd o : SymbolPin_ok o = true -> SymbolPin_from (SymbolPin_tree o) = Ok o.
Proof.
  rd_start SymbolPin_ok SymbolPin_from SymbolPin_tree SymbolPin_step.
  destruct sp_nameEffects, sp_numberEffects; opt_facts;
    repeat match goal with H : Effects_ok ?e = true |- _ => pose proof (Effects_rd e H); clear H end; unfold opto;
    rd_loop st SymbolPin_step.
Qed.
#[export] Hint Resolve SymbolPin_rd : rd.
@rt SymbolPin pin npos=2 noto nord
@urt SyItem
(** The curve writer overwrites its own output: what is left starts with a closing parenthesis. *)
Lemma SyCurve_unbalanced o i n : SyCurve_ok o = true ->
  exists s, SyCurve_to o i n = Ok s /\ parse_sexp s = Err EAssertion.
Proof.
  intros H. assert (W : Wr (SyCurve_to o i n) (TR :: flat (Stroke_tree (Stroke_norm (sc_stroke o))) ++ flat (Fill_tree (Fill_norm (sc_fill o))) ++ [TR])).
  { unfold SyCurve_ok in H. facts. unfold SyCurve_to. eapply Wr_eq; [wr_go|tpeel]. }
  destruct W as (s & E & W). exists s. split; [assumption|]. destruct (W [] eq_refl) as [_ L]. rewrite app_nil_r in L.
  unfold parse_sexp. rewrite L. reflexivity.
Qed.
