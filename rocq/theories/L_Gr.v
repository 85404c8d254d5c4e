(** Round trip lemmas for items/gritems.py. *)
From Verif Require Import PyBase PyNum PyStr Sexpr S_Leaf S_Tree M_Common S_Common M_Fp S_Fp M_Gr S_Gr L_Lex L_Tok L_Num L_Seq L_Tac L_Common L_Fp.

Ltac rd_more st X_step ::=
  lazymatch goal with
  | |- foldM st _ (width_tree _ ?s) = _ =>
      destruct s; cbv beta iota delta [width_tree]; width_facts; opt_facts; rd_one st X_step
  | H : layer_ok ?l ?k = true |- foldM st _ (layer_tree ?l ?k) = _ =>
      let B := fresh "B" in
      unfold layer_ok in H; cbv beta iota delta [layer_tree]; apply fold_if; intros B; rewrite B in H; cbn [negb orb] in H; andbs;
      [apply is_none_eq in B; subst; reflexivity | clear H; opt_facts; rd_one st X_step]
  end.
Global Arguments layer_ok : simpl never. Global Arguments layer_tree : simpl never.

(** what is written, locked or not *)
Lemma GrText_wr_any o i n : GrText_ok (o <| gt_locked := false |>) = true ->
  Wr (GrText_to o i n) (flat (node "gr_text" (optw "locked" (gt_locked o) ++ match GrText_tree (GrText_norm o) with VList (_ :: l) => l | _ => [] end))).
Proof.
  intros H. unfold GrText_ok in H. cbn in H. facts. eapply Wr_eq; [unfold GrText_to; wr_go|].
  unfold GrText_tree, GrText_norm, layer_tree, node at 2. cbn. tpeel.
Qed.
Lemma GrText_wr o i n : GrText_ok o = true -> Wr (GrText_to o i n) (flat (GrText_tree (GrText_norm o))).
Proof.
  intros H. eapply Wr_eq; [apply GrText_wr_any|].
  - destruct o. unfold GrText_ok in *. cbn in *. andbs. subst. now repeat match goal with E : ?x = true |- _ => rewrite E; clear E end.
  - unfold GrText_ok in H. andbs. match goal with E : gt_locked o = false |- _ => rewrite E end. reflexivity.
Qed.
#[export] Hint Resolve GrText_wr : wr.
Lemma GrText_idem o : GrText_norm (GrText_norm o) = GrText_norm o.
Proof. idem GrText_norm. Qed.
#[export] Hint Rewrite GrText_idem : idem.
Lemma GrText_okn o : GrText_ok o = true -> GrText_ok (GrText_norm o) = true.
Proof. okn GrText_ok GrText_norm. Qed.
#[export] Hint Resolve GrText_okn : okn.
Lemma GrText_hd o : exists l, GrText_tree o = node "gr_text" l.
Proof. eexists. reflexivity. Qed.
#[export] Hint Resolve GrText_hd : hd.
Lemma GrText_rd o : GrText_ok o = true -> GrText_from (GrText_tree o) = Ok o.
Proof. rd GrText_ok GrText_from GrText_tree GrText_step. Qed.
#[export] Hint Resolve GrText_rd : rd.
Lemma GrText_same o : GrText_eqb o (GrText_norm o) = true.
Proof. same GrText_eqb GrText_norm. Qed.
#[export] Hint Resolve GrText_same : same.
Lemma GrText_rt : roundtrips GrText_to GrText_from GrText_ok GrText_norm GrText_eqb.
Proof. exact (rt_of _ _ _ GrText_tree _ _ GrText_wr GrText_rd GrText_same GrText_okn GrText_idem). Qed.
Lemma GrText_fmt : conforms GrText_to GrText_from GrText_ok GrText_norm GrText_tree.
Proof. exact (fmt_of _ _ _ _ _ GrText_wr GrText_rd). Qed.
Lemma GrText_ref : refuses GrText_from ["gr_text"%string].
Proof. refuse GrText_from. Qed.
Lemma GrText_ign : ignores GrText_from 1 ["at"%string; "layer"%string; "effects"%string; "tstamp"%string; "render_cache"%string].
Proof. ign GrText_from GrText_step (S O). Qed.
Lemma GrText_win : last_wins GrText_from 1 ["at"%string; "effects"%string; "tstamp"%string; "render_cache"%string].
Proof. wins GrText_from GrText_step (S O). Qed.

(** a locked text comes back as the text "locked" *)
Lemma GrText_rd_locked o : GrText_ok o = true ->
  GrText_from (node "gr_text" (optw "locked" true ++ match GrText_tree o with VList (_ :: l) => l | _ => [] end))
  = Ok (o <| gt_text := VStr $"locked" |> <| gt_locked := gt_text o =s "locked" |>).
Proof.
  intros H. destruct o as [t ko ps ly ef ts lk rc]. unfold GrText_ok in H. cbn in H. facts0. fixed_subst.
  unfold GrText_from, GrText_tree, optw. unfold node at 2. cbv iota beta. cbn [app gt_text].
  match goal with |- _ = Ok ?x => change x with (mkGrText (VStr $"locked") ko ps ly ef ts (t =s "locked") rc) end.
  change (need_head "gr_text" (node "gr_text" ?l)) with (Ok (VStr $"gr_text" :: l)). cbn [bind].
  assert (S1 : forall a, GrText_step a t = Ok (if t =s "locked" then a <| gt_locked := true |> else a)).
  { intros a. unfold GrText_step. rewrite (txtb_leaf t) by assumption. cbn [negb]. unfold on. destruct (t =s "locked"); reflexivity. }
  cbn [node at_ nth_error bind skipn gt_position gt_layer gt_knockout gt_tstamp gt_effects gt_renderCache].
  eapply fold_cons; [apply S1|]. clear S1.
  destruct (t =s "locked"); rd_post GrText_step;
    match goal with Hst : ?st = GrText_step |- _ => rd_loop st GrText_step end.
Qed.
Lemma GrText_locked o i n : GrText_ok (o <| gt_locked := false |>) = true -> gt_locked o = true ->
  write_read GrText_to GrText_from o i n
  = Ok (GrText_norm o <| gt_text := VStr $"locked" |> <| gt_locked := gt_text o =s "locked" |>).
Proof.
  intros H L. destruct (GrText_wr_any o i n H) as (s & E & W). unfold write_read. rewrite E. cbn [bind].
  rewrite (parse_seq s _ W). cbn [bind]. apply GrText_okn in H. apply GrText_rd_locked in H. rewrite L. exact H.
Qed.
Global Opaque GrText_from GrText_tree GrText_to GrText_norm GrText_ok GrText_eqb.
Lemma GrLine_wr o i n : GrLine_ok o = true -> Wr (GrLine_to o i n) (flat (GrLine_tree (GrLine_norm o))).
Proof.
  intros H. unfold GrLine_ok in H. facts. unfold GrLine_to. match goal with E : is_none (gl_angle o) = true |- _ => rewrite E end.
  eapply Wr_eq; [wr_go|unfold GrLine_tree, GrLine_norm; cbn; tpeel].
Qed.
#[export] Hint Resolve GrLine_wr : wr.
(** an angle leaves its parenthesis open *)
Lemma parse_open s l : Seq KC s KC (TL :: flats l) -> parse_sexp s = Err EAssertion.
Proof.
  intros H. destruct (H [] eq_refl) as [_ L]. rewrite lex_nil, !app_nil_r in L. unfold parse_sexp. rewrite L. unfold parse_toks.
  change (foldM pstep ([], []) (TL :: flats l)) with (foldM pstep ([[]], []) (flats l)).
  enough (E : forall out, foldM pstep ([[]], out) (flats l) = Ok ([[]], out ++ l)) by now rewrite E.
  clear. induction l as [|x l IH]; intros out; [now rewrite flats_nil, app_nil_r|].
  now rewrite flats_cons, pstep_flat, IH, <- app_assoc.
Qed.
Lemma GrLine_open o i n : GrLine_ok (o <| gl_angle := VNone |>) = true -> numb (gl_angle o) = true ->
  exists s, GrLine_to o i n = Ok s /\ parse_sexp s = Err EAssertion.
Proof.
  intros H Ha. unfold GrLine_ok in H. cbn in H. facts.
  assert (W : Wr (GrLine_to o i n) (TL :: flats ([VStr $"gr_line"] ++ optw "locked" (gl_locked o)
    ++ [xy_tree "start" (Position_norm (gl_start o)); xy_tree "end" (Position_norm (gl_end o));
        node "angle" ([nrm (gl_angle o)] ++ optn "layer" (gl_layer o) ++ [node "width" [nrm (gl_width o)]] ++ optn "tstamp" (gl_tstamp o))]))).
  { unfold GrLine_to. rewrite (numb_nnone _ Ha). eapply Wr_eq; [wr_go|]. tpeel. }
  destruct W as (s & E & W). exists s. split; [assumption|]. exact (parse_open s _ W).
Qed.
Lemma GrLine_idem o : GrLine_norm (GrLine_norm o) = GrLine_norm o.
Proof. idem GrLine_norm. Qed.
#[export] Hint Rewrite GrLine_idem : idem.
Lemma GrLine_okn o : GrLine_ok o = true -> GrLine_ok (GrLine_norm o) = true.
Proof. okn GrLine_ok GrLine_norm. Qed.
#[export] Hint Resolve GrLine_okn : okn.
Lemma GrLine_hd o : exists l, GrLine_tree o = node "gr_line" l.
Proof. eexists. reflexivity. Qed.
#[export] Hint Resolve GrLine_hd : hd.
Lemma GrLine_rd o : GrLine_ok o = true -> GrLine_from (GrLine_tree o) = Ok o.
Proof. rd GrLine_ok GrLine_from GrLine_tree GrLine_step. Qed.
#[export] Hint Resolve GrLine_rd : rd.
Lemma GrLine_same o : GrLine_eqb o (GrLine_norm o) = true.
Proof. same GrLine_eqb GrLine_norm. Qed.
#[export] Hint Resolve GrLine_same : same.
Lemma GrLine_rt : roundtrips GrLine_to GrLine_from GrLine_ok GrLine_norm GrLine_eqb.
Proof. exact (rt_of _ _ _ GrLine_tree _ _ GrLine_wr GrLine_rd GrLine_same GrLine_okn GrLine_idem). Qed.
Lemma GrLine_fmt : conforms GrLine_to GrLine_from GrLine_ok GrLine_norm GrLine_tree.
Proof. exact (fmt_of _ _ _ _ _ GrLine_wr GrLine_rd). Qed.
Lemma GrLine_ref : refuses GrLine_from ["gr_line"%string].
Proof. refuse GrLine_from. Qed.
Lemma GrLine_ign : ignores GrLine_from 0 ["start"%string; "end"%string; "layer"%string; "tstamp"%string; "width"%string].
Proof. ign GrLine_from GrLine_step O. Qed.
Lemma GrLine_win : last_wins GrLine_from 0 ["start"%string; "end"%string; "layer"%string; "tstamp"%string; "width"%string].
Proof. wins GrLine_from GrLine_step O. Qed.
Global Opaque GrLine_from GrLine_tree GrLine_to GrLine_norm GrLine_ok GrLine_eqb.

Lemma GrRect_wr o i n : GrRect_ok o = true -> Wr (GrRect_to o i n) (flat (GrRect_tree (GrRect_norm o))).
Proof. wr GrRect_to GrRect_ok GrRect_tree GrRect_norm. Qed.
#[export] Hint Resolve GrRect_wr : wr.
Lemma GrRect_idem o : GrRect_norm (GrRect_norm o) = GrRect_norm o.
Proof. idem GrRect_norm. Qed.
#[export] Hint Rewrite GrRect_idem : idem.
Lemma GrRect_okn o : GrRect_ok o = true -> GrRect_ok (GrRect_norm o) = true.
Proof. okn GrRect_ok GrRect_norm. Qed.
#[export] Hint Resolve GrRect_okn : okn.
Lemma GrRect_hd o : exists l, GrRect_tree o = node "gr_rect" l.
Proof. eexists. reflexivity. Qed.
#[export] Hint Resolve GrRect_hd : hd.
Lemma GrRect_rd o : GrRect_ok o = true -> GrRect_from (GrRect_tree o) = Ok o.
Proof. rd GrRect_ok GrRect_from GrRect_tree GrRect_step. Qed.
#[export] Hint Resolve GrRect_rd : rd.
Lemma GrRect_same o : GrRect_eqb o (GrRect_norm o) = true.
Proof. same GrRect_eqb GrRect_norm. Qed.
#[export] Hint Resolve GrRect_same : same.
Lemma GrRect_rt : roundtrips GrRect_to GrRect_from GrRect_ok GrRect_norm GrRect_eqb.
Proof. exact (rt_of _ _ _ GrRect_tree _ _ GrRect_wr GrRect_rd GrRect_same GrRect_okn GrRect_idem). Qed.
Lemma GrRect_fmt : conforms GrRect_to GrRect_from GrRect_ok GrRect_norm GrRect_tree.
Proof. exact (fmt_of _ _ _ _ _ GrRect_wr GrRect_rd). Qed.
Lemma GrRect_ref : refuses GrRect_from ["gr_rect"%string].
Proof. refuse GrRect_from. Qed.
Lemma GrRect_ign : ignores GrRect_from 0 ["start"%string; "end"%string; "layer"%string; "tstamp"%string; "fill"%string; "width"%string].
Proof. ign GrRect_from GrRect_step O. Qed.
Lemma GrRect_win : last_wins GrRect_from 0 ["start"%string; "end"%string; "layer"%string; "tstamp"%string; "fill"%string; "width"%string].
Proof. wins GrRect_from GrRect_step O. Qed.
Global Opaque GrRect_from GrRect_tree GrRect_to GrRect_norm GrRect_ok GrRect_eqb.

Lemma GrCircle_wr o i n : GrCircle_ok o = true -> Wr (GrCircle_to o i n) (flat (GrCircle_tree (GrCircle_norm o))).
Proof. wr GrCircle_to GrCircle_ok GrCircle_tree GrCircle_norm. Qed.
#[export] Hint Resolve GrCircle_wr : wr.
Lemma GrCircle_idem o : GrCircle_norm (GrCircle_norm o) = GrCircle_norm o.
Proof. idem GrCircle_norm. Qed.
#[export] Hint Rewrite GrCircle_idem : idem.
Lemma GrCircle_okn o : GrCircle_ok o = true -> GrCircle_ok (GrCircle_norm o) = true.
Proof. okn GrCircle_ok GrCircle_norm. Qed.
#[export] Hint Resolve GrCircle_okn : okn.
Lemma GrCircle_hd o : exists l, GrCircle_tree o = node "gr_circle" l.
Proof. eexists. reflexivity. Qed.
#[export] Hint Resolve GrCircle_hd : hd.
Lemma GrCircle_rd o : GrCircle_ok o = true -> GrCircle_from (GrCircle_tree o) = Ok o.
Proof. rd GrCircle_ok GrCircle_from GrCircle_tree GrCircle_step. Qed.
#[export] Hint Resolve GrCircle_rd : rd.
Lemma GrCircle_same o : GrCircle_eqb o (GrCircle_norm o) = true.
Proof. same GrCircle_eqb GrCircle_norm. Qed.
#[export] Hint Resolve GrCircle_same : same.
Lemma GrCircle_rt : roundtrips GrCircle_to GrCircle_from GrCircle_ok GrCircle_norm GrCircle_eqb.
Proof. exact (rt_of _ _ _ GrCircle_tree _ _ GrCircle_wr GrCircle_rd GrCircle_same GrCircle_okn GrCircle_idem). Qed.
Lemma GrCircle_fmt : conforms GrCircle_to GrCircle_from GrCircle_ok GrCircle_norm GrCircle_tree.
Proof. exact (fmt_of _ _ _ _ _ GrCircle_wr GrCircle_rd). Qed.
Lemma GrCircle_ref : refuses GrCircle_from ["gr_circle"%string].
Proof. refuse GrCircle_from. Qed.
Lemma GrCircle_ign : ignores GrCircle_from 0 ["center"%string; "end"%string; "layer"%string; "tstamp"%string; "fill"%string; "width"%string].
Proof. ign GrCircle_from GrCircle_step O. Qed.
Lemma GrCircle_win : last_wins GrCircle_from 0 ["center"%string; "end"%string; "layer"%string; "tstamp"%string; "fill"%string; "width"%string].
Proof. wins GrCircle_from GrCircle_step O. Qed.
Global Opaque GrCircle_from GrCircle_tree GrCircle_to GrCircle_norm GrCircle_ok GrCircle_eqb.

Lemma GrArc_wr o i n : GrArc_ok o = true -> Wr (GrArc_to o i n) (flat (GrArc_tree (GrArc_norm o))).
Proof. wr GrArc_to GrArc_ok GrArc_tree GrArc_norm. Qed.
#[export] Hint Resolve GrArc_wr : wr.
Lemma GrArc_idem o : GrArc_norm (GrArc_norm o) = GrArc_norm o.
Proof. idem GrArc_norm. Qed.
#[export] Hint Rewrite GrArc_idem : idem.
Lemma GrArc_okn o : GrArc_ok o = true -> GrArc_ok (GrArc_norm o) = true.
Proof. okn GrArc_ok GrArc_norm. Qed.
#[export] Hint Resolve GrArc_okn : okn.
Lemma GrArc_hd o : exists l, GrArc_tree o = node "gr_arc" l.
Proof. eexists. reflexivity. Qed.
#[export] Hint Resolve GrArc_hd : hd.
Lemma GrArc_rd o : GrArc_ok o = true -> GrArc_from (GrArc_tree o) = Ok o.
Proof. rd GrArc_ok GrArc_from GrArc_tree GrArc_step. Qed.
#[export] Hint Resolve GrArc_rd : rd.
Lemma GrArc_same o : GrArc_eqb o (GrArc_norm o) = true.
Proof. same GrArc_eqb GrArc_norm. Qed.
#[export] Hint Resolve GrArc_same : same.
Lemma GrArc_rt : roundtrips GrArc_to GrArc_from GrArc_ok GrArc_norm GrArc_eqb.
Proof. exact (rt_of _ _ _ GrArc_tree _ _ GrArc_wr GrArc_rd GrArc_same GrArc_okn GrArc_idem). Qed.
Lemma GrArc_fmt : conforms GrArc_to GrArc_from GrArc_ok GrArc_norm GrArc_tree.
Proof. exact (fmt_of _ _ _ _ _ GrArc_wr GrArc_rd). Qed.
Lemma GrArc_ref : refuses GrArc_from ["gr_arc"%string].
Proof. refuse GrArc_from. Qed.
Lemma GrArc_ign : ignores GrArc_from 0 ["start"%string; "mid"%string; "end"%string; "layer"%string; "tstamp"%string; "width"%string].
Proof. ign GrArc_from GrArc_step O. Qed.
Lemma GrArc_win : last_wins GrArc_from 0 ["start"%string; "mid"%string; "end"%string; "layer"%string; "tstamp"%string; "width"%string].
Proof. wins GrArc_from GrArc_step O. Qed.
Global Opaque GrArc_from GrArc_tree GrArc_to GrArc_norm GrArc_ok GrArc_eqb.

Lemma GrPoly_wr_pts b o i n : GrPoly_ok o = true -> Wr (GrPoly_to_pts b o i n) (flat (GrPoly_tree (GrPoly_norm o))).
Proof.
  intros H. unfold GrPoly_ok in H. facts. unfold GrPoly_to_pts. match goal with E : Nat.eqb _ _ = _ |- _ => rewrite E end.
  destruct b; (eapply Wr_eq; [wr_go|unfold GrPoly_tree, GrPoly_norm; cbn; tpeel]).
Qed.
Lemma GrPoly_wr o i n : GrPoly_ok o = true -> Wr (GrPoly_to o i n) (flat (GrPoly_tree (GrPoly_norm o))).
Proof. apply GrPoly_wr_pts. Qed.
#[export] Hint Resolve GrPoly_wr GrPoly_wr_pts : wr.
Lemma GrPoly_idem o : GrPoly_norm (GrPoly_norm o) = GrPoly_norm o.
Proof. idem GrPoly_norm. Qed.
#[export] Hint Rewrite GrPoly_idem : idem.
Lemma GrPoly_okn o : GrPoly_ok o = true -> GrPoly_ok (GrPoly_norm o) = true.
Proof. okn GrPoly_ok GrPoly_norm. Qed.
#[export] Hint Resolve GrPoly_okn : okn.
Lemma GrPoly_hd o : exists l, GrPoly_tree o = node "gr_poly" l.
Proof. eexists. reflexivity. Qed.
#[export] Hint Resolve GrPoly_hd : hd.
Lemma GrPoly_rd o : GrPoly_ok o = true -> GrPoly_from (GrPoly_tree o) = Ok o.
Proof. rd GrPoly_ok GrPoly_from GrPoly_tree GrPoly_step. Qed.
#[export] Hint Resolve GrPoly_rd : rd.
Lemma GrPoly_same o : GrPoly_eqb o (GrPoly_norm o) = true.
Proof. same GrPoly_eqb GrPoly_norm. Qed.
#[export] Hint Resolve GrPoly_same : same.
Lemma GrPoly_rt : roundtrips GrPoly_to GrPoly_from GrPoly_ok GrPoly_norm GrPoly_eqb.
Proof. exact (rt_of _ _ _ GrPoly_tree _ _ GrPoly_wr GrPoly_rd GrPoly_same GrPoly_okn GrPoly_idem). Qed.
Lemma GrPoly_fmt : conforms GrPoly_to GrPoly_from GrPoly_ok GrPoly_norm GrPoly_tree.
Proof. exact (fmt_of _ _ _ _ _ GrPoly_wr GrPoly_rd). Qed.
Lemma GrPoly_ref : refuses GrPoly_from ["gr_poly"%string].
Proof. refuse GrPoly_from. Qed.
Lemma GrPoly_ign : ignores GrPoly_from 0 ["pts"%string; "layer"%string; "tstamp"%string; "fill"%string; "width"%string].
Proof. ign GrPoly_from GrPoly_step O. Qed.
Lemma GrPoly_win : last_wins GrPoly_from 0 ["layer"%string; "tstamp"%string; "fill"%string; "width"%string].
Proof. wins GrPoly_from GrPoly_step O. Qed.
Global Opaque GrPoly_from GrPoly_tree GrPoly_to GrPoly_norm GrPoly_ok GrPoly_eqb.

Lemma GrCurve_wr o i n : GrCurve_ok o = true -> Wr (GrCurve_to o i n) (flat (GrCurve_tree (GrCurve_norm o))).
Proof.
  intros H. unfold GrCurve_ok in H. facts. unfold GrCurve_to. match goal with E : Nat.eqb _ _ = _ |- _ => rewrite E end.
  eapply Wr_eq; [wr_go|unfold GrCurve_tree, GrCurve_norm; cbn; tpeel].
Qed.
#[export] Hint Resolve GrCurve_wr : wr.
Lemma GrCurve_idem o : GrCurve_norm (GrCurve_norm o) = GrCurve_norm o.
Proof. idem GrCurve_norm. Qed.
#[export] Hint Rewrite GrCurve_idem : idem.
Lemma GrCurve_okn o : GrCurve_ok o = true -> GrCurve_ok (GrCurve_norm o) = true.
Proof. okn GrCurve_ok GrCurve_norm. Qed.
#[export] Hint Resolve GrCurve_okn : okn.
Lemma GrCurve_hd o : exists l, GrCurve_tree o = node "gr_curve" l.
Proof. eexists. reflexivity. Qed.
#[export] Hint Resolve GrCurve_hd : hd.
Lemma GrCurve_rd o : GrCurve_ok o = true -> GrCurve_from (GrCurve_tree o) = Ok o.
Proof. rd GrCurve_ok GrCurve_from GrCurve_tree GrCurve_step. Qed.
#[export] Hint Resolve GrCurve_rd : rd.
Lemma GrCurve_same o : GrCurve_eqb o (GrCurve_norm o) = true.
Proof. same GrCurve_eqb GrCurve_norm. Qed.
#[export] Hint Resolve GrCurve_same : same.
Lemma GrCurve_rt : roundtrips GrCurve_to GrCurve_from GrCurve_ok GrCurve_norm GrCurve_eqb.
Proof. exact (rt_of _ _ _ GrCurve_tree _ _ GrCurve_wr GrCurve_rd GrCurve_same GrCurve_okn GrCurve_idem). Qed.
Lemma GrCurve_fmt : conforms GrCurve_to GrCurve_from GrCurve_ok GrCurve_norm GrCurve_tree.
Proof. exact (fmt_of _ _ _ _ _ GrCurve_wr GrCurve_rd). Qed.
Lemma GrCurve_ref : refuses GrCurve_from ["gr_curve"%string].
Proof. refuse GrCurve_from. Qed.
Lemma GrCurve_ign : ignores GrCurve_from 0 ["pts"%string; "layer"%string; "tstamp"%string; "width"%string].
Proof. ign GrCurve_from GrCurve_step O. Qed.
Lemma GrCurve_win : last_wins GrCurve_from 0 ["layer"%string; "tstamp"%string; "width"%string].
Proof. wins GrCurve_from GrCurve_step O. Qed.
Global Opaque GrCurve_from GrCurve_tree GrCurve_to GrCurve_norm GrCurve_ok GrCurve_eqb.


Lemma GrTextBox_wr o i n : GrTextBox_ok o = true -> Wr (GrTextBox_to o i n) (flat (GrTextBox_tree (GrTextBox_norm o))).
Proof.
  intros H. destruct o as [lk tx st en pts an ly ts ef sk rc]. unfold GrTextBox_ok in H.
  cbn [gb_locked gb_text gb_start gb_end gb_pts gb_angle gb_layer gb_tstamp gb_effects gb_stroke gb_renderCache] in H. facts0.
  match goal with Ha : optb numb an = true, T : text_box_ok _ _ _ _ = true |- _ => destruct (text_box_checks _ _ _ _ Ha T) as (C1 & C2 & C3) end.
  unfold GrTextBox_to, GrTextBox_tree, GrTextBox_norm.
  cbn [gb_locked gb_text gb_start gb_end gb_pts gb_angle gb_layer gb_tstamp gb_effects gb_stroke gb_renderCache].
  rewrite C1, C2. destruct C3 as [->|(a & b & c & d & ->)]; cbn [length Nat.eqb map forallb] in *; facts;
    (eapply Wr_eq; [wr_go|cbn [length Nat.eqb]; tpeel]).
Qed.
#[export] Hint Resolve GrTextBox_wr : wr.
Lemma GrTextBox_rd o : GrTextBox_ok o = true -> GrTextBox_from (GrTextBox_tree o) = Ok o.
Proof.
  intros H. destruct o as [lk tx st en pts an ly ts ef sk rc]. unfold GrTextBox_ok in H. cbn in H. facts0.
  unfold GrTextBox_from, GrTextBox_tree. cbn [gb_locked gb_text gb_start gb_end gb_pts gb_angle gb_layer gb_tstamp gb_effects gb_stroke gb_renderCache].
  destruct lk.
  - assert (E : forall l, text_box_locked (node "gr_text_box" (optw "locked" true ++ [tx] ++ l)) = Ok true).
    { intros l. unfold text_box_locked, optw, node. cbn. change (VStr $"locked" =s "locked") with true. cbv iota. now rewrite (txtb_leaf tx). }
    rewrite E. clear E. unfold optw; cbv iota; cbn [app].
    rd_post GrTextBox_step. match goal with Hst : ?st = GrTextBox_step |- _ => rd_loop st GrTextBox_step end.
  - assert (E : text_box_locked (node "gr_text_box" (optw "locked" false ++ [tx]
      ++ (if Nat.eqb (length pts) 0 then [] else [node "pts" (map (xy_tree "xy") pts)])
      ++ opto (xy_tree "start") st ++ opto (xy_tree "end") en ++ optn "angle" an
      ++ [node "layer" [ly]] ++ optn "tstamp" ts ++ opto Effects_tree ef
      ++ opto Stroke_tree sk ++ opto RenderCache_tree rc)) = Ok false).
    { unfold text_box_locked, optw, node. cbn [app at_ nth_error bind]. destruct (tx =s "locked"); [|reflexivity].
      unfold opto, optn. destruct (Nat.eqb (length pts) 0), st, en, (is_none an); reflexivity. }
    rewrite E. clear E. unfold optw; cbv iota; cbn [app].
    rd_post GrTextBox_step. match goal with Hst : ?st = GrTextBox_step |- _ => rd_loop st GrTextBox_step end.
Qed.
#[export] Hint Resolve GrTextBox_rd : rd.
Lemma GrTextBox_ref : refuses GrTextBox_from ["gr_text_box"%string].
Proof.
  unfold refuses, GrTextBox_from. repeat split.
  - intros e He. destruct e; try discriminate He; reflexivity.
  - eexists. reflexivity.
  - intros h l H. cbn [existsb] in H. apply orb_false_elim in H as [H _]. cbn [need_list bind].
    destruct (Nat.ltb (length (h :: l)) 2); [reflexivity|]. cbn [at_ nth_error bind]. now rewrite H.
Qed.
Lemma GrTextBox_ign : ignores GrTextBox_from 2 ["start"%string; "end"%string; "pts"%string; "angle"%string; "layer"%string; "tstamp"%string; "effects"%string; "stroke"%string; "render_cache"%string].
Proof.
  intros h before u args after H Hu. cbn [existsb] in Hu.
  repeat (apply orb_false_elim in Hu; let E := fresh "E" in destruct Hu as [E Hu]).
  assert (U : forall o, GrTextBox_step o (VList (u :: args)) = Ok o).
  { intros o. unfold GrTextBox_step. cbn [at_ nth_error bind].
    repeat match goal with E : is_str u _ = false |- _ => rewrite E; clear E end. reflexivity. }
  clear - U H. do 2 kill_arg H before.
  unfold GrTextBox_from, text_box_locked, need_list. cbn [app at_ nth_error bind length Nat.ltb Nat.leb].
  destruct (h =s "gr_text_box"); [|reflexivity]. cbn [negb].
  destruct (v =s "locked"); cbn [bind]; [destruct (is_list v0)|]; cbn [negb skipn bind nth_error];
    repeat (apply fold_same; intros ?); apply (fold_ignore GrTextBox_step); exact U.
Qed.
Lemma GrTextBox_win : last_wins GrTextBox_from 2 ["start"%string; "end"%string; "angle"%string; "layer"%string; "tstamp"%string; "effects"%string; "stroke"%string; "render_cache"%string].
Proof.
  intros h before k args1 args2 after o H Hk.
  assert (U : forall o o1, GrTextBox_step o (node k args1) = Ok o1 -> GrTextBox_step o1 (node k args2) = GrTextBox_step o (node k args2)).
  { clear - Hk. intros [] o1. cbn [In] in Hk.
    repeat (destruct Hk as [Hk|Hk]; [subst k; unfold GrTextBox_step; red_step; intros E; res_cases; inversion E; subst; red_step; res_cases; solve [reflexivity]|]).
    destruct Hk. }
  clear - U H. do 2 kill_arg H before.
  unfold GrTextBox_from, text_box_locked, need_list. cbn [app at_ nth_error bind length Nat.ltb Nat.leb].
  destruct (h =s "gr_text_box"); [|discriminate]. cbn [negb].
  destruct (v =s "locked"); cbn [bind]; [destruct (is_list v0)|]; cbn [negb skipn bind nth_error];
    repeat (refine (fold_imp _ _ _ _ _ _ _); intros ?); refine (fold_wins GrTextBox_step _ _ U _ _ _ _).
Qed.
Lemma GrTextBox_idem o : GrTextBox_norm (GrTextBox_norm o) = GrTextBox_norm o.
Proof. idem GrTextBox_norm. Qed.
#[export] Hint Rewrite GrTextBox_idem : idem.
Lemma GrTextBox_okn o : GrTextBox_ok o = true -> GrTextBox_ok (GrTextBox_norm o) = true.
Proof. okn GrTextBox_ok GrTextBox_norm. Qed.
#[export] Hint Resolve GrTextBox_okn : okn.
Lemma GrTextBox_hd o : exists l, GrTextBox_tree o = node "gr_text_box" l.
Proof. eexists. reflexivity. Qed.
#[export] Hint Resolve GrTextBox_hd : hd.
Lemma GrTextBox_same o : GrTextBox_eqb o (GrTextBox_norm o) = true.
Proof. same GrTextBox_eqb GrTextBox_norm. Qed.
#[export] Hint Resolve GrTextBox_same : same.
Lemma GrTextBox_rt : roundtrips GrTextBox_to GrTextBox_from GrTextBox_ok GrTextBox_norm GrTextBox_eqb.
Proof. exact (rt_of _ _ _ GrTextBox_tree _ _ GrTextBox_wr GrTextBox_rd GrTextBox_same GrTextBox_okn GrTextBox_idem). Qed.
Lemma GrTextBox_fmt : conforms GrTextBox_to GrTextBox_from GrTextBox_ok GrTextBox_norm GrTextBox_tree.
Proof. exact (fmt_of _ _ _ _ _ GrTextBox_wr GrTextBox_rd). Qed.
Global Opaque GrTextBox_from GrTextBox_tree GrTextBox_to GrTextBox_norm GrTextBox_ok GrTextBox_eqb.


Local Transparent GrText_to GrPoly_to GrCurve_to GrTextBox_to.
Lemma GrText_knockout o i n : is_none (gt_layer o) = true -> GrText_ok (o <| gt_knockout := false |>) = true ->
  write_read GrText_to GrText_from o i n = Ok (GrText_norm (o <| gt_knockout := false |>)).
Proof.
  intros N H. apply (rt_as _ _ _ _ _ o _ i n GrText_rt); [|exact H]. destruct o. cbn in N. unfold GrText_to. cbn. now rewrite N.
Qed.
Lemma GrPoly_empty o i n : gp_coordinates o = [] -> write_read GrPoly_to GrPoly_from o i n = Err EIndex.
Proof. intros H. unfold write_read, GrPoly_to, GrPoly_to_pts. rewrite H. cbn [length Nat.eqb bind]. now rewrite parse_blank. Qed.
Lemma GrCurve_empty o i n : gv_coordinates o = [] -> write_read GrCurve_to GrCurve_from o i n = Err EIndex.
Proof. intros H. unfold write_read, GrCurve_to. rewrite H. cbn [length Nat.eqb bind]. now rewrite parse_blank. Qed.
Lemma GrTextBox_refused o i n : optb numb (gb_angle o) = true ->
  (if is_none (gb_angle o) || right_angle (gb_angle o) then gb_start o = None \/ gb_end o = None else length (gb_pts o) <> 4) ->
  GrTextBox_to o i n = Err EException.
Proof.
  intros Ha H. unfold GrTextBox_to. destruct (text_box_checks_neg _ _ _ _ Ha H) as [->| ->]; [reflexivity|].
  now match goal with |- (if ?b then _ else _) = _ => destruct b end.
Qed.
