(** Round trip lemmas for items/syitems.py and symbol.py. *)
From Verif Require Import PyBase PyNum PyStr Sexpr S_Leaf S_Tree M_Common S_Common PyRe M_Sym S_Sym L_Lex L_Tok L_Num L_Seq L_Tac L_Common.

Lemma SyArc_wr o i n : SyArc_ok o = true -> Wr (SyArc_to o i n) (flat (SyArc_tree (SyArc_norm o))).
Proof. wr SyArc_to SyArc_ok SyArc_tree SyArc_norm. Qed.
#[export] Hint Resolve SyArc_wr : wr.
Lemma SyArc_idem o : SyArc_norm (SyArc_norm o) = SyArc_norm o.
Proof. idem SyArc_norm. Qed.
#[export] Hint Rewrite SyArc_idem : idem.
Lemma SyArc_okn o : SyArc_ok o = true -> SyArc_ok (SyArc_norm o) = true.
Proof. okn SyArc_ok SyArc_norm. Qed.
#[export] Hint Resolve SyArc_okn : okn.
Lemma SyArc_hd o : exists l, SyArc_tree o = node "arc" l.
Proof. eexists. reflexivity. Qed.
#[export] Hint Resolve SyArc_hd : hd.
Lemma SyArc_rd o : SyArc_ok o = true -> SyArc_from (SyArc_tree o) = Ok o.
Proof. rd SyArc_ok SyArc_from SyArc_tree SyArc_step. Qed.
#[export] Hint Resolve SyArc_rd : rd.
Lemma SyArc_same o : SyArc_eqb o (SyArc_norm o) = true.
Proof. same SyArc_eqb SyArc_norm. Qed.
#[export] Hint Resolve SyArc_same : same.
Lemma SyArc_rt : roundtrips SyArc_to SyArc_from SyArc_ok SyArc_norm SyArc_eqb.
Proof. exact (rt_of _ _ _ SyArc_tree _ _ SyArc_wr SyArc_rd SyArc_same SyArc_okn SyArc_idem). Qed.
Lemma SyArc_fmt : conforms SyArc_to SyArc_from SyArc_ok SyArc_norm SyArc_tree.
Proof. exact (fmt_of _ _ _ _ _ SyArc_wr SyArc_rd). Qed.
Lemma SyArc_ref : refuses SyArc_from ["arc"%string].
Proof. refuse SyArc_from. Qed.
Lemma SyArc_ign : ignores SyArc_from 0 ["start"%string; "mid"%string; "end"%string; "stroke"%string; "fill"%string].
Proof. ign SyArc_from SyArc_step O. Qed.
Lemma SyArc_win : last_wins SyArc_from 0 ["start"%string; "mid"%string; "end"%string; "stroke"%string; "fill"%string].
Proof. wins SyArc_from SyArc_step O. Qed.
Global Opaque SyArc_from SyArc_tree SyArc_to SyArc_norm SyArc_ok SyArc_eqb.

Lemma SyCircle_wr o i n : SyCircle_ok o = true -> Wr (SyCircle_to o i n) (flat (SyCircle_tree (SyCircle_norm o))).
Proof. wr SyCircle_to SyCircle_ok SyCircle_tree SyCircle_norm. Qed.
#[export] Hint Resolve SyCircle_wr : wr.
Lemma SyCircle_idem o : SyCircle_norm (SyCircle_norm o) = SyCircle_norm o.
Proof. idem SyCircle_norm. Qed.
#[export] Hint Rewrite SyCircle_idem : idem.
Lemma SyCircle_okn o : SyCircle_ok o = true -> SyCircle_ok (SyCircle_norm o) = true.
Proof. okn SyCircle_ok SyCircle_norm. Qed.
#[export] Hint Resolve SyCircle_okn : okn.
Lemma SyCircle_hd o : exists l, SyCircle_tree o = node "circle" l.
Proof. eexists. reflexivity. Qed.
#[export] Hint Resolve SyCircle_hd : hd.
Lemma SyCircle_rd o : SyCircle_ok o = true -> SyCircle_from (SyCircle_tree o) = Ok o.
Proof. rd SyCircle_ok SyCircle_from SyCircle_tree SyCircle_step. Qed.
#[export] Hint Resolve SyCircle_rd : rd.
Lemma SyCircle_same o : SyCircle_eqb o (SyCircle_norm o) = true.
Proof. same SyCircle_eqb SyCircle_norm. Qed.
#[export] Hint Resolve SyCircle_same : same.
Lemma SyCircle_rt : roundtrips SyCircle_to SyCircle_from SyCircle_ok SyCircle_norm SyCircle_eqb.
Proof. exact (rt_of _ _ _ SyCircle_tree _ _ SyCircle_wr SyCircle_rd SyCircle_same SyCircle_okn SyCircle_idem). Qed.
Lemma SyCircle_fmt : conforms SyCircle_to SyCircle_from SyCircle_ok SyCircle_norm SyCircle_tree.
Proof. exact (fmt_of _ _ _ _ _ SyCircle_wr SyCircle_rd). Qed.
Lemma SyCircle_ref : refuses SyCircle_from ["circle"%string].
Proof. refuse SyCircle_from. Qed.
Lemma SyCircle_ign : ignores SyCircle_from 0 ["center"%string; "radius"%string; "stroke"%string; "fill"%string].
Proof. ign SyCircle_from SyCircle_step O. Qed.
Lemma SyCircle_win : last_wins SyCircle_from 0 ["center"%string; "radius"%string; "stroke"%string; "fill"%string].
Proof. wins SyCircle_from SyCircle_step O. Qed.
Global Opaque SyCircle_from SyCircle_tree SyCircle_to SyCircle_norm SyCircle_ok SyCircle_eqb.

Lemma SyCurve_idem o : SyCurve_norm (SyCurve_norm o) = SyCurve_norm o.
Proof. idem SyCurve_norm. Qed.
#[export] Hint Rewrite SyCurve_idem : idem.
Lemma SyCurve_okn o : SyCurve_ok o = true -> SyCurve_ok (SyCurve_norm o) = true.
Proof. okn SyCurve_ok SyCurve_norm. Qed.
#[export] Hint Resolve SyCurve_okn : okn.
Lemma SyCurve_hd o : exists l, SyCurve_tree o = node "curve" l.
Proof. eexists. reflexivity. Qed.
#[export] Hint Resolve SyCurve_hd : hd.
Lemma SyCurve_rd o : SyCurve_ok o = true -> SyCurve_from (SyCurve_tree o) = Ok o.
Proof. rd SyCurve_ok SyCurve_from SyCurve_tree SyCurve_step. Qed.
#[export] Hint Resolve SyCurve_rd : rd.
Lemma SyCurve_same o : SyCurve_eqb o (SyCurve_norm o) = true.
Proof. same SyCurve_eqb SyCurve_norm. Qed.
#[export] Hint Resolve SyCurve_same : same.
Lemma SyCurve_ref : refuses SyCurve_from ["curve"%string].
Proof. refuse SyCurve_from. Qed.
Lemma SyCurve_ign : ignores SyCurve_from 0 ["stroke"%string; "fill"%string; "pts"%string].
Proof. ign SyCurve_from SyCurve_step O. Qed.
Lemma SyCurve_win : last_wins SyCurve_from 0 ["stroke"%string; "fill"%string].
Proof. wins SyCurve_from SyCurve_step O. Qed.

Lemma SyPolyLine_wr o i n : SyPolyLine_ok o = true -> Wr (SyPolyLine_to o i n) (flat (SyPolyLine_tree (SyPolyLine_norm o))).
Proof. wr SyPolyLine_to SyPolyLine_ok SyPolyLine_tree SyPolyLine_norm. Qed.
#[export] Hint Resolve SyPolyLine_wr : wr.
Lemma SyPolyLine_idem o : SyPolyLine_norm (SyPolyLine_norm o) = SyPolyLine_norm o.
Proof. idem SyPolyLine_norm. Qed.
#[export] Hint Rewrite SyPolyLine_idem : idem.
Lemma SyPolyLine_okn o : SyPolyLine_ok o = true -> SyPolyLine_ok (SyPolyLine_norm o) = true.
Proof. okn SyPolyLine_ok SyPolyLine_norm. Qed.
#[export] Hint Resolve SyPolyLine_okn : okn.
Lemma SyPolyLine_hd o : exists l, SyPolyLine_tree o = node "polyline" l.
Proof. eexists. reflexivity. Qed.
#[export] Hint Resolve SyPolyLine_hd : hd.
Lemma SyPolyLine_rd o : SyPolyLine_ok o = true -> SyPolyLine_from (SyPolyLine_tree o) = Ok o.
Proof. rd SyPolyLine_ok SyPolyLine_from SyPolyLine_tree SyPolyLine_step. Qed.
#[export] Hint Resolve SyPolyLine_rd : rd.
Lemma SyPolyLine_same o : SyPolyLine_eqb o (SyPolyLine_norm o) = true.
Proof. same SyPolyLine_eqb SyPolyLine_norm. Qed.
#[export] Hint Resolve SyPolyLine_same : same.
Lemma SyPolyLine_rt : roundtrips SyPolyLine_to SyPolyLine_from SyPolyLine_ok SyPolyLine_norm SyPolyLine_eqb.
Proof. exact (rt_of _ _ _ SyPolyLine_tree _ _ SyPolyLine_wr SyPolyLine_rd SyPolyLine_same SyPolyLine_okn SyPolyLine_idem). Qed.
Lemma SyPolyLine_fmt : conforms SyPolyLine_to SyPolyLine_from SyPolyLine_ok SyPolyLine_norm SyPolyLine_tree.
Proof. exact (fmt_of _ _ _ _ _ SyPolyLine_wr SyPolyLine_rd). Qed.
Lemma SyPolyLine_ref : refuses SyPolyLine_from ["polyline"%string].
Proof. refuse SyPolyLine_from. Qed.
Lemma SyPolyLine_ign : ignores SyPolyLine_from 0 ["stroke"%string; "fill"%string; "pts"%string].
Proof. ign SyPolyLine_from SyPolyLine_step O. Qed.
Lemma SyPolyLine_win : last_wins SyPolyLine_from 0 ["stroke"%string; "fill"%string].
Proof. wins SyPolyLine_from SyPolyLine_step O. Qed.
Global Opaque SyPolyLine_from SyPolyLine_tree SyPolyLine_to SyPolyLine_norm SyPolyLine_ok SyPolyLine_eqb.

Lemma SyRect_wr o i n : SyRect_ok o = true -> Wr (SyRect_to o i n) (flat (SyRect_tree (SyRect_norm o))).
Proof. wr SyRect_to SyRect_ok SyRect_tree SyRect_norm. Qed.
#[export] Hint Resolve SyRect_wr : wr.
Lemma SyRect_idem o : SyRect_norm (SyRect_norm o) = SyRect_norm o.
Proof. idem SyRect_norm. Qed.
#[export] Hint Rewrite SyRect_idem : idem.
Lemma SyRect_okn o : SyRect_ok o = true -> SyRect_ok (SyRect_norm o) = true.
Proof. okn SyRect_ok SyRect_norm. Qed.
#[export] Hint Resolve SyRect_okn : okn.
Lemma SyRect_hd o : exists l, SyRect_tree o = node "rectangle" l.
Proof. eexists. reflexivity. Qed.
#[export] Hint Resolve SyRect_hd : hd.
Lemma SyRect_rd o : SyRect_ok o = true -> SyRect_from (SyRect_tree o) = Ok o.
Proof. rd SyRect_ok SyRect_from SyRect_tree SyRect_step. Qed.
#[export] Hint Resolve SyRect_rd : rd.
Lemma SyRect_same o : SyRect_eqb o (SyRect_norm o) = true.
Proof. same SyRect_eqb SyRect_norm. Qed.
#[export] Hint Resolve SyRect_same : same.
Lemma SyRect_rt : roundtrips SyRect_to SyRect_from SyRect_ok SyRect_norm SyRect_eqb.
Proof. exact (rt_of _ _ _ SyRect_tree _ _ SyRect_wr SyRect_rd SyRect_same SyRect_okn SyRect_idem). Qed.
Lemma SyRect_fmt : conforms SyRect_to SyRect_from SyRect_ok SyRect_norm SyRect_tree.
Proof. exact (fmt_of _ _ _ _ _ SyRect_wr SyRect_rd). Qed.
Lemma SyRect_ref : refuses SyRect_from ["rectangle"%string].
Proof. refuse SyRect_from. Qed.
Lemma SyRect_ign : ignores SyRect_from 0 ["start"%string; "end"%string; "stroke"%string; "fill"%string].
Proof. ign SyRect_from SyRect_step O. Qed.
Lemma SyRect_win : last_wins SyRect_from 0 ["start"%string; "end"%string; "stroke"%string; "fill"%string].
Proof. wins SyRect_from SyRect_step O. Qed.
Global Opaque SyRect_from SyRect_tree SyRect_to SyRect_norm SyRect_ok SyRect_eqb.

Lemma SyText_wr o i n : SyText_ok o = true -> Wr (SyText_to o i n) (flat (SyText_tree (SyText_norm o))).
Proof. wr SyText_to SyText_ok SyText_tree SyText_norm. Qed.
#[export] Hint Resolve SyText_wr : wr.
Lemma SyText_idem o : SyText_norm (SyText_norm o) = SyText_norm o.
Proof. idem SyText_norm. Qed.
#[export] Hint Rewrite SyText_idem : idem.
Lemma SyText_okn o : SyText_ok o = true -> SyText_ok (SyText_norm o) = true.
Proof. okn SyText_ok SyText_norm. Qed.
#[export] Hint Resolve SyText_okn : okn.
Lemma SyText_hd o : exists l, SyText_tree o = node "text" l.
Proof. eexists. reflexivity. Qed.
#[export] Hint Resolve SyText_hd : hd.
Lemma SyText_rd o : SyText_ok o = true -> SyText_from (SyText_tree o) = Ok o.
Proof. rd SyText_ok SyText_from SyText_tree SyText_step. Qed.
#[export] Hint Resolve SyText_rd : rd.
Lemma SyText_same o : SyText_eqb o (SyText_norm o) = true.
Proof. same SyText_eqb SyText_norm. Qed.
#[export] Hint Resolve SyText_same : same.
Lemma SyText_rt : roundtrips SyText_to SyText_from SyText_ok SyText_norm SyText_eqb.
Proof. exact (rt_of _ _ _ SyText_tree _ _ SyText_wr SyText_rd SyText_same SyText_okn SyText_idem). Qed.
Lemma SyText_fmt : conforms SyText_to SyText_from SyText_ok SyText_norm SyText_tree.
Proof. exact (fmt_of _ _ _ _ _ SyText_wr SyText_rd). Qed.
Lemma SyText_ref : refuses SyText_from ["text"%string].
Proof. refuse SyText_from. Qed.
Lemma SyText_ign : ignores SyText_from 1 ["at"%string; "effects"%string].
Proof. ign SyText_from SyText_step (S O). Qed.
Lemma SyText_win : last_wins SyText_from 1 ["at"%string; "effects"%string].
Proof. wins SyText_from SyText_step (S O). Qed.
Global Opaque SyText_from SyText_tree SyText_to SyText_norm SyText_ok SyText_eqb.


Lemma SyTextBox_rd o : SyTextBox_ok o = true -> SyTextBox_from (SyTextBox_tree o) = Ok o.
Proof.
  intros H. destruct o as [t p ps sz sk fl ef u]. unfold SyTextBox_ok in H. cbn in H. facts0.
  unfold SyTextBox_from, SyTextBox_tree. cbn [sb_text sb_private sb_position sb_size sb_stroke sb_fill sb_effects sb_uuid].
  change (need_head "text_box" (node "text_box" ?l)) with (Ok (VStr $"text_box" :: l)). cbn [bind].
  destruct p.
  - assert (E : forall l, SyTextBox_private (node "text_box" (optw "private" true ++ t :: l)) = Ok true).
    { intros l. unfold SyTextBox_private, optw, node. cbn. change (VStr $"private" =s "private") with true. cbv iota. now rewrite (txtb_leaf t). }
    cbn [app]. rewrite E. clear E. cbn [bind]. unfold optw; cbv iota; cbn [app].
    rd_post SyTextBox_step. match goal with Hst : ?st = SyTextBox_step |- _ => rd_loop st SyTextBox_step end.
  - assert (E : forall p l, SyTextBox_private (node "text_box" (optw "private" false ++ t :: at3_tree "at" p :: l)) = Ok false).
    { intros p l. unfold SyTextBox_private, optw, node. cbn. now destruct (t =s "private"). }
    cbn [app]. rewrite E. clear E. cbn [bind]. unfold optw; cbv iota; cbn [app].
    rd_post SyTextBox_step. match goal with Hst : ?st = SyTextBox_step |- _ => rd_loop st SyTextBox_step end.
Qed.
#[export] Hint Resolve SyTextBox_rd : rd.
Lemma SyTextBox_ign : ignores SyTextBox_from 2 ["at"%string; "size"%string; "effects"%string; "stroke"%string; "fill"%string; "uuid"%string].
Proof.
  intros h before u args after H Hu. cbn [existsb] in Hu.
  repeat (apply orb_false_elim in Hu; let E := fresh "E" in destruct Hu as [E Hu]).
  assert (U : forall o, SyTextBox_step o (VList (u :: args)) = Ok o).
  { intros o. unfold SyTextBox_step. cbn [at_ nth_error bind].
    repeat match goal with E : is_str u _ = false |- _ => rewrite E; clear E end. reflexivity. }
  clear - U H. do 2 kill_arg H before.
  unfold SyTextBox_from, SyTextBox_private, need_head, need_list. cbn [app at_ nth_error bind].
  destruct (h =s "text_box"); [|reflexivity]. cbn [bind].
  destruct (v =s "private"); cbn [bind]; [destruct (is_list v0)|]; cbn [negb skipn setf bind];
    repeat (apply fold_same; intros ?); apply (fold_ignore SyTextBox_step); exact U.
Qed.
Lemma SyTextBox_win : last_wins SyTextBox_from 2 ["at"%string; "size"%string; "effects"%string; "stroke"%string; "fill"%string; "uuid"%string].
Proof.
  intros h before k args1 args2 after o H Hk.
  assert (U : forall o o1, SyTextBox_step o (node k args1) = Ok o1 -> SyTextBox_step o1 (node k args2) = SyTextBox_step o (node k args2)).
  { clear - Hk. intros [] o1. cbn [In] in Hk.
    repeat (destruct Hk as [Hk|Hk]; [subst k; unfold SyTextBox_step; red_step; intros E; res_cases; inversion E; subst; red_step; res_cases; solve [reflexivity]|]).
    destruct Hk. }
  clear - U H. do 2 kill_arg H before.
  unfold SyTextBox_from, SyTextBox_private, need_head, need_list. cbn [app at_ nth_error bind].
  destruct (h =s "text_box"); [|discriminate]. cbn [bind].
  destruct (v =s "private"); cbn [bind]; [destruct (is_list v0)|]; cbn [negb skipn setf bind];
    repeat (refine (fold_imp _ _ _ _ _ _ _); intros ?); refine (fold_wins SyTextBox_step _ _ U _ _ _ _).
Qed.
Lemma SyTextBox_wr o i n : SyTextBox_ok o = true -> Wr (SyTextBox_to o i n) (flat (SyTextBox_tree (SyTextBox_norm o))).
Proof. wr SyTextBox_to SyTextBox_ok SyTextBox_tree SyTextBox_norm. Qed.
#[export] Hint Resolve SyTextBox_wr : wr.
Lemma SyTextBox_idem o : SyTextBox_norm (SyTextBox_norm o) = SyTextBox_norm o.
Proof. idem SyTextBox_norm. Qed.
#[export] Hint Rewrite SyTextBox_idem : idem.
Lemma SyTextBox_okn o : SyTextBox_ok o = true -> SyTextBox_ok (SyTextBox_norm o) = true.
Proof. okn SyTextBox_ok SyTextBox_norm. Qed.
#[export] Hint Resolve SyTextBox_okn : okn.
Lemma SyTextBox_hd o : exists l, SyTextBox_tree o = node "text_box" l.
Proof. eexists. reflexivity. Qed.
#[export] Hint Resolve SyTextBox_hd : hd.
Lemma SyTextBox_same o : SyTextBox_eqb o (SyTextBox_norm o) = true.
Proof. same SyTextBox_eqb SyTextBox_norm. Qed.
#[export] Hint Resolve SyTextBox_same : same.
Lemma SyTextBox_rt : roundtrips SyTextBox_to SyTextBox_from SyTextBox_ok SyTextBox_norm SyTextBox_eqb.
Proof. exact (rt_of _ _ _ SyTextBox_tree _ _ SyTextBox_wr SyTextBox_rd SyTextBox_same SyTextBox_okn SyTextBox_idem). Qed.
Lemma SyTextBox_fmt : conforms SyTextBox_to SyTextBox_from SyTextBox_ok SyTextBox_norm SyTextBox_tree.
Proof. exact (fmt_of _ _ _ _ _ SyTextBox_wr SyTextBox_rd). Qed.
Lemma SyTextBox_ref : refuses SyTextBox_from ["text_box"%string].
Proof. refuse SyTextBox_from. Qed.
Global Opaque SyTextBox_from SyTextBox_tree SyTextBox_to SyTextBox_norm SyTextBox_ok SyTextBox_eqb.


Lemma SymbolAlternativePin_wr o i n : SymbolAlternativePin_ok o = true -> Wr (SymbolAlternativePin_to o i n) (flat (SymbolAlternativePin_tree (SymbolAlternativePin_norm o))).
Proof. wr SymbolAlternativePin_to SymbolAlternativePin_ok SymbolAlternativePin_tree SymbolAlternativePin_norm. Qed.
#[export] Hint Resolve SymbolAlternativePin_wr : wr.
Lemma SymbolAlternativePin_idem o : SymbolAlternativePin_norm (SymbolAlternativePin_norm o) = SymbolAlternativePin_norm o.
Proof. idem SymbolAlternativePin_norm. Qed.
#[export] Hint Rewrite SymbolAlternativePin_idem : idem.
Lemma SymbolAlternativePin_okn o : SymbolAlternativePin_ok o = true -> SymbolAlternativePin_ok (SymbolAlternativePin_norm o) = true.
Proof. okn SymbolAlternativePin_ok SymbolAlternativePin_norm. Qed.
#[export] Hint Resolve SymbolAlternativePin_okn : okn.
Lemma SymbolAlternativePin_hd o : exists l, SymbolAlternativePin_tree o = node "alternate" l.
Proof. eexists. reflexivity. Qed.
#[export] Hint Resolve SymbolAlternativePin_hd : hd.
Lemma SymbolAlternativePin_rd o : SymbolAlternativePin_ok o = true -> SymbolAlternativePin_from (SymbolAlternativePin_tree o) = Ok o.
Proof. intros _. destruct o. reflexivity. Qed.
#[export] Hint Resolve SymbolAlternativePin_rd : rd.
Lemma SymbolAlternativePin_same o : SymbolAlternativePin_eqb o (SymbolAlternativePin_norm o) = true.
Proof. same SymbolAlternativePin_eqb SymbolAlternativePin_norm. Qed.
#[export] Hint Resolve SymbolAlternativePin_same : same.
Lemma SymbolAlternativePin_rt : roundtrips SymbolAlternativePin_to SymbolAlternativePin_from SymbolAlternativePin_ok SymbolAlternativePin_norm SymbolAlternativePin_eqb.
Proof. exact (rt_of _ _ _ SymbolAlternativePin_tree _ _ SymbolAlternativePin_wr SymbolAlternativePin_rd SymbolAlternativePin_same SymbolAlternativePin_okn SymbolAlternativePin_idem). Qed.
Lemma SymbolAlternativePin_fmt : conforms SymbolAlternativePin_to SymbolAlternativePin_from SymbolAlternativePin_ok SymbolAlternativePin_norm SymbolAlternativePin_tree.
Proof. exact (fmt_of _ _ _ _ _ SymbolAlternativePin_wr SymbolAlternativePin_rd). Qed.
Lemma SymbolAlternativePin_ref : refuses SymbolAlternativePin_from ["alternate"%string].
Proof. refuse SymbolAlternativePin_from. Qed.
Global Opaque SymbolAlternativePin_from SymbolAlternativePin_tree SymbolAlternativePin_to SymbolAlternativePin_norm SymbolAlternativePin_ok SymbolAlternativePin_eqb.


Lemma SymbolPin_wr o i n : SymbolPin_ok o = true -> Wr (SymbolPin_to o i n) (flat (SymbolPin_tree (SymbolPin_norm o))).
Proof.
  intros H. destruct o as [et gs ps len nm ne nu ue hd alts]. unfold SymbolPin_ok in H.
  cbn [sp_electricalType sp_graphicalStyle sp_position sp_length sp_name sp_nameEffects sp_number sp_numberEffects sp_hide sp_alternatePins] in H.
  facts. unfold SymbolPin_to, SymbolPin_tree, SymbolPin_norm.
  cbn [sp_electricalType sp_graphicalStyle sp_position sp_length sp_name sp_nameEffects sp_number sp_numberEffects sp_hide sp_alternatePins].
  destruct ne, ue, alts; opt_facts; cbn [no_object andb negb orb length Nat.ltb Nat.leb opto option_map opt_str map];
    (eapply Wr_eq; [wr_go|unfold opto; cbn [flat_map map]; tpeel]).
Qed.
#[export] Hint Resolve SymbolPin_wr : wr.
Lemma SymbolPin_rd o : SymbolPin_ok o = true -> SymbolPin_from (SymbolPin_tree o) = Ok o.
Proof.
  rd_start SymbolPin_ok SymbolPin_from SymbolPin_tree SymbolPin_step.
  destruct sp_nameEffects, sp_numberEffects; opt_facts;
    repeat match goal with H : Effects_ok ?e = true |- _ => pose proof (Effects_rd e H); clear H end; unfold opto;
    rd_loop st SymbolPin_step.
Qed.
#[export] Hint Resolve SymbolPin_rd : rd.
Lemma SymbolPin_idem o : SymbolPin_norm (SymbolPin_norm o) = SymbolPin_norm o.
Proof. idem SymbolPin_norm. Qed.
#[export] Hint Rewrite SymbolPin_idem : idem.
Lemma SymbolPin_okn o : SymbolPin_ok o = true -> SymbolPin_ok (SymbolPin_norm o) = true.
Proof. okn SymbolPin_ok SymbolPin_norm. Qed.
#[export] Hint Resolve SymbolPin_okn : okn.
Lemma SymbolPin_hd o : exists l, SymbolPin_tree o = node "pin" l.
Proof. eexists. reflexivity. Qed.
#[export] Hint Resolve SymbolPin_hd : hd.
Lemma SymbolPin_same o : SymbolPin_eqb o (SymbolPin_norm o) = true.
Proof. same SymbolPin_eqb SymbolPin_norm. Qed.
#[export] Hint Resolve SymbolPin_same : same.
Lemma SymbolPin_rt : roundtrips SymbolPin_to SymbolPin_from SymbolPin_ok SymbolPin_norm SymbolPin_eqb.
Proof. exact (rt_of _ _ _ SymbolPin_tree _ _ SymbolPin_wr SymbolPin_rd SymbolPin_same SymbolPin_okn SymbolPin_idem). Qed.
Lemma SymbolPin_fmt : conforms SymbolPin_to SymbolPin_from SymbolPin_ok SymbolPin_norm SymbolPin_tree.
Proof. exact (fmt_of _ _ _ _ _ SymbolPin_wr SymbolPin_rd). Qed.
Lemma SymbolPin_ref : refuses SymbolPin_from ["pin"%string].
Proof. refuse SymbolPin_from. Qed.
Lemma SymbolPin_ign : ignores SymbolPin_from 2 ["at"%string; "length"%string; "name"%string; "number"%string; "alternate"%string].
Proof. ign SymbolPin_from SymbolPin_step (S (S O)). Qed.
Lemma SymbolPin_win : last_wins SymbolPin_from 2 ["at"%string; "length"%string].
Proof. wins SymbolPin_from SymbolPin_step (S (S O)). Qed.
Global Opaque SymbolPin_from SymbolPin_tree SymbolPin_to SymbolPin_norm SymbolPin_ok SymbolPin_eqb.

#[export] Hint Extern 1 (IsUnion SyItem) => exact I : union.
Lemma SyItem_wr o i n : SyItem_ok o = true -> Wr (SyItem_to o i n) (flat (SyItem_tree (SyItem_norm o))).
Proof. destruct o; cbn [SyItem_to SyItem_ok SyItem_tree SyItem_norm]; try discriminate; eauto 2 with wr. Qed.
#[export] Hint Resolve SyItem_wr : wr.
Lemma SyItem_idem o : SyItem_norm (SyItem_norm o) = SyItem_norm o.
Proof. destruct o; cbn [SyItem_norm]; autorewrite with idem; reflexivity. Qed.
#[export] Hint Rewrite SyItem_idem : idem.
Lemma SyItem_okn o : SyItem_ok o = true -> SyItem_ok (SyItem_norm o) = true.
Proof. destruct o; cbn [SyItem_norm SyItem_ok]; try discriminate; eauto 2 with okn. Qed.
#[export] Hint Resolve SyItem_okn : okn.
Lemma SyItem_same o : SyItem_eqb o (SyItem_norm o) = true.
Proof. destruct o; cbn [SyItem_norm SyItem_eqb]; eauto 2 with same. Qed.
#[export] Hint Resolve SyItem_same : same.
Global Arguments SyItem_tree : simpl never. Global Arguments SyItem_norm : simpl never. Global Arguments SyItem_ok : simpl never.
Global Arguments SyItem_to : simpl never. Global Arguments SyItem_eqb : simpl never.

(** The curve writer overwrites its own output: what is left starts with a closing parenthesis. *)
Lemma SyCurve_unbalanced o i n : SyCurve_ok o = true ->
  exists s, SyCurve_to o i n = Ok s /\ parse_sexp s = Err EAssertion.
Proof.
  intros H. assert (W : Wr (SyCurve_to o i n) (TR :: flat (Stroke_tree (Stroke_norm (sc_stroke o))) ++ flat (Fill_tree (Fill_norm (sc_fill o))) ++ [TR])).
  { unfold SyCurve_ok in H. facts. unfold SyCurve_to. eapply Wr_eq; [wr_go|tpeel]. }
  destruct W as (s & E & W). exists s. split; [assumption|]. destruct (W [] eq_refl) as [_ L]. rewrite app_nil_r in L.
  unfold parse_sexp. rewrite L. reflexivity.
Qed.
