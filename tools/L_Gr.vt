(** Round trip lemmas for items/gritems.py. *)
From Verif Require Import PyBase PyNum PyStr Sexpr S_Leaf S_Tree M_Common S_Common M_Fp S_Fp M_Gr S_Gr L_Lex L_Tok L_Num L_Seq L_Tac L_Common L_Fp.

Ltac rd_more st X_step ::=
  lazymatch goal with
  | |- foldM st _ (width_tree _ ?s) = _ =>
      destruct s; cbv beta iota delta [width_tree]; width_facts; opt_facts; rd_one st X_step
  | H : layer_ok ?l ?k = true |- foldM st _ (layer_tree ?l ?k) = _ =>
      let B := fresh "B" in
      unfold layer_ok in H; cbv beta iota delta [layer_tree]; apply fold_if; intros B; rewrite B in H; cbn [negb orb] in H; andbs;
      [apply is_none_eq in B; subst; reflexivity | clear H; opt_facts; rd_one st X_step]
  end.
Global Arguments layer_ok : simpl never. Global Arguments layer_tree : simpl never.

(** what is written, locked or not *)
Lemma GrText_wr_any o i n : GrText_ok (o <| gt_locked := false |>) = true ->
  Wr (GrText_to o i n) (flat (node "gr_text" (optw "locked" (gt_locked o) ++ match GrText_tree (GrText_norm o) with VList (_ :: l) => l | _ => [] end))).
Proof.
  intros H. unfold GrText_ok in H. cbn in H. facts. eapply Wr_eq; [unfold GrText_to; wr_go|].
  unfold GrText_tree, GrText_norm, layer_tree, node at 2. cbn. tpeel.
Qed.
Lemma GrText_wr o i n : GrText_ok o = true -> Wr (GrText_to o i n) (flat (GrText_tree (GrText_norm o))).
Proof.
  intros H. eapply Wr_eq; [apply GrText_wr_any|].
  - destruct o. unfold GrText_ok in *. cbn in *. andbs. subst. now repeat match goal with E : ?x = true |- _ => rewrite E; clear E end.
  - unfold GrText_ok in H. andbs. match goal with E : gt_locked o = false |- _ => rewrite E end. reflexivity.
Qed.
#[export] Hint Resolve GrText_wr : wr.
@rt GrText gr_text noto npos=1 noopq
(** a locked text comes back as the text "locked" *)
Lemma GrText_rd_locked o : GrText_ok o = true ->
  GrText_from (node "gr_text" (optw "locked" true ++ match GrText_tree o with VList (_ :: l) => l | _ => [] end))
  = Ok (o <| gt_text := VStr $"locked" |> <| gt_locked := gt_text o =s "locked" |>).
Proof.
  intros H. destruct o as [t ko ps ly ef ts lk rc]. unfold GrText_ok in H. cbn in H. facts0. fixed_subst.
  unfold GrText_from, GrText_tree, optw. unfold node at 2. cbv iota beta. cbn [app gt_text].
  match goal with |- _ = Ok ?x => change x with (mkGrText (VStr $"locked") ko ps ly ef ts (t =s "locked") rc) end.
  change (need_head "gr_text" (node "gr_text" ?l)) with (Ok (VStr $"gr_text" :: l)). cbn [bind].
  assert (S1 : forall a, GrText_step a t = Ok (if t =s "locked" then a <| gt_locked := true |> else a)).
  { intros a. unfold GrText_step. rewrite (txtb_leaf t) by assumption. cbn [negb]. unfold on. destruct (t =s "locked"); reflexivity. }
  cbn [node at_ nth_error bind skipn gt_position gt_layer gt_knockout gt_tstamp gt_effects gt_renderCache].
  eapply fold_cons; [apply S1|]. clear S1.
  destruct (t =s "locked"); rd_post GrText_step;
    match goal with Hst : ?st = GrText_step |- _ => rd_loop st GrText_step end.
Qed.
Lemma GrText_locked o i n : GrText_ok (o <| gt_locked := false |>) = true -> gt_locked o = true ->
  write_read GrText_to GrText_from o i n
  = Ok (GrText_norm o <| gt_text := VStr $"locked" |> <| gt_locked := gt_text o =s "locked" |>).
Proof.
  intros H L. destruct (GrText_wr_any o i n H) as (s & E & W). unfold write_read. rewrite E. cbn [bind].
  rewrite (parse_seq s _ W). cbn [bind]. apply GrText_okn in H. apply GrText_rd_locked in H. rewrite L. exact H.
Qed.
Global Opaque GrText_from GrText_tree GrText_to GrText_norm GrText_ok GrText_eqb.
Lemma GrLine_wr o i n : GrLine_ok o = true -> Wr (GrLine_to o i n) (flat (GrLine_tree (GrLine_norm o))).
Proof.
  intros H. unfold GrLine_ok in H. facts. unfold GrLine_to. match goal with E : is_none (gl_angle o) = true |- _ => rewrite E end.
  eapply Wr_eq; [wr_go|unfold GrLine_tree, GrLine_norm; cbn; tpeel].
Qed.
#[export] Hint Resolve GrLine_wr : wr.
(** an angle leaves its parenthesis open *)
Lemma parse_open s l : Seq KC s KC (TL :: flats l) -> parse_sexp s = Err EAssertion.
Proof.
  intros H. destruct (H [] eq_refl) as [_ L]. rewrite lex_nil, !app_nil_r in L. unfold parse_sexp. rewrite L. unfold parse_toks.
  change (foldM pstep ([], []) (TL :: flats l)) with (foldM pstep ([[]], []) (flats l)).
  enough (E : forall out, foldM pstep ([[]], out) (flats l) = Ok ([[]], out ++ l)) by now rewrite E.
  clear. induction l as [|x l IH]; intros out; [now rewrite flats_nil, app_nil_r|].
  now rewrite flats_cons, pstep_flat, IH, <- app_assoc.
Qed.
Lemma GrLine_open o i n : GrLine_ok (o <| gl_angle := VNone |>) = true -> numb (gl_angle o) = true ->
  exists s, GrLine_to o i n = Ok s /\ parse_sexp s = Err EAssertion.
Proof.
  intros H Ha. unfold GrLine_ok in H. cbn in H. facts.
  assert (W : Wr (GrLine_to o i n) (TL :: flats ([VStr $"gr_line"] ++ optw "locked" (gl_locked o)
    ++ [xy_tree "start" (Position_norm (gl_start o)); xy_tree "end" (Position_norm (gl_end o));
        node "angle" ([nrm (gl_angle o)] ++ optn "layer" (gl_layer o) ++ [node "width" [nrm (gl_width o)]] ++ optn "tstamp" (gl_tstamp o))]))).
  { unfold GrLine_to. rewrite (numb_nnone _ Ha). eapply Wr_eq; [wr_go|]. tpeel. }
  destruct W as (s & E & W). exists s. split; [assumption|]. exact (parse_open s _ W).
Qed.
@rt GrLine gr_line noto
@rt GrRect gr_rect
@rt GrCircle gr_circle
@rt GrArc gr_arc
Lemma GrPoly_wr_pts b o i n : GrPoly_ok o = true -> Wr (GrPoly_to_pts b o i n) (flat (GrPoly_tree (GrPoly_norm o))).
Proof.
  intros H. unfold GrPoly_ok in H. facts. unfold GrPoly_to_pts. match goal with E : Nat.eqb _ _ = _ |- _ => rewrite E end.
  destruct b; (eapply Wr_eq; [wr_go|unfold GrPoly_tree, GrPoly_norm; cbn; tpeel]).
Qed.
Lemma GrPoly_wr o i n : GrPoly_ok o = true -> Wr (GrPoly_to o i n) (flat (GrPoly_tree (GrPoly_norm o))).
Proof. apply GrPoly_wr_pts. Qed.
#[export] Hint Resolve GrPoly_wr GrPoly_wr_pts : wr.
@rt GrPoly gr_poly noto
Lemma GrCurve_wr o i n : GrCurve_ok o = true -> Wr (GrCurve_to o i n) (flat (GrCurve_tree (GrCurve_norm o))).
Proof.
  intros H. unfold GrCurve_ok in H. facts. unfold GrCurve_to. match goal with E : Nat.eqb _ _ = _ |- _ => rewrite E end.
  eapply Wr_eq; [wr_go|unfold GrCurve_tree, GrCurve_norm; cbn; tpeel].
Qed.
#[export] Hint Resolve GrCurve_wr : wr.
@rt GrCurve gr_curve noto

Lemma GrTextBox_wr o i n : GrTextBox_ok o = true -> Wr (GrTextBox_to o i n) (flat (GrTextBox_tree (GrTextBox_norm o))).
Proof.
  intros H. destruct o as [lk tx st en pts an ly ts ef sk rc]. unfold GrTextBox_ok in H.
  cbn [gb_locked gb_text gb_start gb_end gb_pts gb_angle gb_layer gb_tstamp gb_effects gb_stroke gb_renderCache] in H. facts0.
  match goal with Ha : optb numb an = true, T : text_box_ok _ _ _ _ = true |- _ => destruct (text_box_checks _ _ _ _ Ha T) as (C1 & C2 & C3) end.
  unfold GrTextBox_to, GrTextBox_tree, GrTextBox_norm.
  cbn [gb_locked gb_text gb_start gb_end gb_pts gb_angle gb_layer gb_tstamp gb_effects gb_stroke gb_renderCache].
  rewrite C1, C2. destruct C3 as [->|(a & b & c & d & ->)]; cbn [length Nat.eqb map forallb] in *; facts;
    (eapply Wr_eq; [wr_go|cbn [length Nat.eqb]; tpeel]).
Qed.
#[export] Hint Resolve GrTextBox_wr : wr.
Lemma GrTextBox_rd o : GrTextBox_ok o = true -> GrTextBox_from (GrTextBox_tree o) = Ok o.
Proof.
  intros H. destruct o as [lk tx st en pts an ly ts ef sk rc]. unfold GrTextBox_ok in H. cbn in H. facts0.
  unfold GrTextBox_from, GrTextBox_tree. cbn [gb_locked gb_text gb_start gb_end gb_pts gb_angle gb_layer gb_tstamp gb_effects gb_stroke gb_renderCache].
  destruct lk.
  - assert (E : forall l, text_box_locked (node "gr_text_box" (optw "locked" true ++ [tx] ++ l)) = Ok true).
    { intros l. unfold text_box_locked, optw, node. cbn. change (VStr $"locked" =s "locked") with true. cbv iota. now rewrite (txtb_leaf tx). }
    rewrite E. clear E. unfold optw; cbv iota; cbn [app].
    rd_post GrTextBox_step. match goal with Hst : ?st = GrTextBox_step |- _ => rd_loop st GrTextBox_step end.
  - assert (E : text_box_locked (node "gr_text_box" (optw "locked" false ++ [tx]
      ++ (if Nat.eqb (length pts) 0 then [] else [node "pts" (map (xy_tree "xy") pts)])
      ++ opto (xy_tree "start") st ++ opto (xy_tree "end") en ++ optn "angle" an
      ++ [node "layer" [ly]] ++ optn "tstamp" ts ++ opto Effects_tree ef
      ++ opto Stroke_tree sk ++ opto RenderCache_tree rc)) = Ok false).
    { unfold text_box_locked, optw, node. cbn [app at_ nth_error bind]. destruct (tx =s "locked"); [|reflexivity].
      unfold opto, optn. destruct (Nat.eqb (length pts) 0), st, en, (is_none an); reflexivity. }
    rewrite E. clear E. unfold optw; cbv iota; cbn [app].
    rd_post GrTextBox_step. match goal with Hst : ?st = GrTextBox_step |- _ => rd_loop st GrTextBox_step end.
Qed.
#[export] Hint Resolve GrTextBox_rd : rd.
Lemma GrTextBox_ref : refuses GrTextBox_from ["gr_text_box"%string].
Proof.
  unfold refuses, GrTextBox_from. repeat split.
  - intros e He. destruct e; try discriminate He; reflexivity.
  - eexists. reflexivity.
  - intros h l H. cbn [existsb] in H. apply orb_false_elim in H as [H _]. cbn [need_list bind].
    destruct (Nat.ltb (length (h :: l)) 2); [reflexivity|]. cbn [at_ nth_error bind]. now rewrite H.
Qed.
Lemma GrTextBox_ign : ignores GrTextBox_from 2 ["start"%string; "end"%string; "pts"%string; "angle"%string; "layer"%string; "tstamp"%string; "effects"%string; "stroke"%string; "render_cache"%string].
Proof.
  intros h before u args after H Hu. cbn [existsb] in Hu.
  repeat (apply orb_false_elim in Hu; let E := fresh "E" in destruct Hu as [E Hu]).
  assert (U : forall o, GrTextBox_step o (VList (u :: args)) = Ok o).
  { intros o. unfold GrTextBox_step. cbn [at_ nth_error bind].
    repeat match goal with E : is_str u _ = false |- _ => rewrite E; clear E end. reflexivity. }
  clear - U H. do 2 kill_arg H before.
  unfold GrTextBox_from, text_box_locked, need_list. cbn [app at_ nth_error bind length Nat.ltb Nat.leb].
  destruct (h =s "gr_text_box"); [|reflexivity]. cbn [negb].
  destruct (v =s "locked"); cbn [bind]; [destruct (is_list v0)|]; cbn [negb skipn bind nth_error];
    repeat (apply fold_same; intros ?); apply (fold_ignore GrTextBox_step); exact U.
Qed.
Lemma GrTextBox_win : last_wins GrTextBox_from 2 ["start"%string; "end"%string; "angle"%string; "layer"%string; "tstamp"%string; "effects"%string; "stroke"%string; "render_cache"%string].
Proof.
  intros h before k args1 args2 after o H Hk.
  assert (U : forall o o1, GrTextBox_step o (node k args1) = Ok o1 -> GrTextBox_step o1 (node k args2) = GrTextBox_step o (node k args2)).
  { clear - Hk. intros [] o1. cbn [In] in Hk.
    repeat (destruct Hk as [Hk|Hk]; [subst k; unfold GrTextBox_step; red_step; intros E; res_cases; inversion E; subst; red_step; res_cases; solve [reflexivity]|]).
    destruct Hk. }
  clear - U H. do 2 kill_arg H before.
  unfold GrTextBox_from, text_box_locked, need_list. cbn [app at_ nth_error bind length Nat.ltb Nat.leb].
  destruct (h =s "gr_text_box"); [|discriminate]. cbn [negb].
  destruct (v =s "locked"); cbn [bind]; [destruct (is_list v0)|]; cbn [negb skipn bind nth_error];
    repeat (refine (fold_imp _ _ _ _ _ _ _); intros ?); refine (fold_wins GrTextBox_step _ _ U _ _ _ _).
Qed.
@rt GrTextBox gr_text_box npos=2 noto nord manref manign manwins

Local Transparent GrText_to GrPoly_to GrCurve_to GrTextBox_to.
Lemma GrText_knockout o i n : is_none (gt_layer o) = true -> GrText_ok (o <| gt_knockout := false |>) = true ->
  write_read GrText_to GrText_from o i n = Ok (GrText_norm (o <| gt_knockout := false |>)).
Proof.
  intros N H. apply (rt_as _ _ _ _ _ o _ i n GrText_rt); [|exact H]. destruct o. cbn in N. unfold GrText_to. cbn. now rewrite N.
Qed.
Lemma GrPoly_empty o i n : gp_coordinates o = [] -> write_read GrPoly_to GrPoly_from o i n = Err EIndex.
Proof. intros H. unfold write_read, GrPoly_to, GrPoly_to_pts. rewrite H. cbn [length Nat.eqb bind]. now rewrite parse_blank. Qed.
Lemma GrCurve_empty o i n : gv_coordinates o = [] -> write_read GrCurve_to GrCurve_from o i n = Err EIndex.
Proof. intros H. unfold write_read, GrCurve_to. rewrite H. cbn [length Nat.eqb bind]. now rewrite parse_blank. Qed.
Lemma GrTextBox_refused o i n : optb numb (gb_angle o) = true ->
  (if is_none (gb_angle o) || right_angle (gb_angle o) then gb_start o = None \/ gb_end o = None else length (gb_pts o) <> 4) ->
  GrTextBox_to o i n = Err EException.
Proof.
  intros Ha H. unfold GrTextBox_to. destruct (text_box_checks_neg _ _ _ _ Ha H) as [->| ->]; [reflexivity|].
  now match goal with |- (if ?b then _ else _) = _ => destruct b end.
Qed.
