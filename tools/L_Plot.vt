(** Round trip lemmas for items/brditems.py: plot settings and the setup section. *)
From Verif Require Import PyBase PyNum PyStr Sexpr S_Leaf S_Tree S_Fix M_Common S_Common M_Zone M_Brd S_Brd L_Lex L_Tok L_Num L_Seq L_Tac L_Fix L_Common L_Fp L_Zone L_Pad L_Dim L_Brd.

(** ** Plot settings *)
Lemma Seq_ps_line i key s k ts : wordb (lit key) = true -> Seq KC s k ts -> Seq KC (ps_line i key s) KC (TL :: TA (VStr (lit key)) :: ts ++ [TR]).
Proof.
  intros H Hs. unfold ps_line.
  refine (Seq_app KC _ _ [] _ _ _ (Seq_spaces _ _) _).
  refine (Seq_app _ $"  (" KC [TL] _ _ _ _ _); [now apply Seq_lit|].
  refine (Seq_app _ (lit key) KW [TA (VStr (lit key))] _ _ _ _ _); [exact (Seq_word (VStr (lit key)) H)|].
  refine (Seq_app _ $" " KC [] _ _ _ _ _); [now apply Seq_lit|].
  eapply Seq_app; [exact Hs|]. refine (Seq_lit k ($")" ++ nl) KC [TR] _ _); destruct k; reflexivity.
Qed.
Lemma Seq_lower b : Seq KC (lower b) KW (flat (VStr (if b then $"true" else $"false"))).
Proof. destruct b; [exact (Seq_word (VStr $"true") eq_refl)|exact (Seq_word (VStr $"false") eq_refl)]. Qed.
Lemma flat_node1 k v : flat (node k [v]) = TL :: TA (VStr (lit k)) :: flat v ++ [TR].
Proof. rewrite flat_node, flats_cons, flats_nil, app_nil_r. reflexivity. Qed.
Lemma Seq_ps_tf i k b : wordb (lit k) = true -> Seq KC (ps_line i k (lower b)) KC (flat (tf k b)).
Proof. intros H. unfold tf. rewrite flat_node1. exact (Seq_ps_line i k _ _ _ H (Seq_lower b)). Qed.
Lemma Seq_ps_num i k v : wordb (lit k) = true -> numb v = true -> Seq KC (ps_line i k (fmt v)) KC (flat (node k [nrm v])).
Proof. intros H Hv. rewrite flat_node1. exact (Seq_ps_line i k _ _ _ H (Seq_num v Hv)). Qed.
Lemma Seq_ps_atom i k v : wordb (lit k) = true -> atomb v = true -> Seq KC (ps_line i k (fmt v)) KC (flat (node k [nrm v])).
Proof. intros H Hv. rewrite flat_node1. exact (Seq_ps_line i k _ _ _ H (Seq_atom v Hv)). Qed.
Lemma Seq_ps_text i k v : wordb (lit k) = true -> txtb v = true -> Seq KC (ps_line i k (quoted v)) KC (flat (node k [v])).
Proof. intros H Hv. rewrite flat_node1. exact (Seq_ps_line i k _ _ _ H (Seq_quoted v Hv)). Qed.
Lemma Seq_ps_oatom i k v : wordb (lit k) = true -> optb atomb v = true ->
  Seq KC (if is_none v then [] else ps_line i k (fmt v)) KC (flats (optn k (nrm v))).
Proof.
  intros H Hv. unfold optn. rewrite nrm_none. destruct (is_none v) eqn:B; [apply Seq_nil|].
  apply (optb_spec _ v) in Hv; [|exact B]. rewrite flats_cons, flats_nil, app_nil_r. now apply Seq_ps_atom.
Qed.
Lemma Seq_ps_otf i k o : wordb (lit k) = true ->
  Seq KC (match o with Some b => ps_line i k (lower b) | None => [] end) KC (flats (opto (tf k) o)).
Proof.
  intros H. destruct o; [|apply Seq_nil]. unfold opto. rewrite flats_cons, flats_nil, app_nil_r. now apply Seq_ps_tf.
Qed.
Lemma ps_fixed_wr i key v : wordb (lit key) = true -> optb (fixb 6) v = true ->
  Wr (if is_none v then Ok [] else let! x := fmt_fixed 6 v in Ok (ps_line i key x)) (flats (optn key (nrm v))).
Proof.
  intros Hk H. unfold optn. rewrite nrm_none. destruct (is_none v) eqn:B; [apply Wr_nil|].
  apply (optb_spec _ v) in H; [|exact B]. destruct (Seq_fixb 6 v ltac:(lia) H) as (s & -> & S). cbn [bind].
  eapply Wr_eq; [apply Wr_ok; now apply (Seq_ps_line _ _ _ _ _ Hk S)|]. tpeel.
Qed.
(* a long list of items against its text, one after the other *)
Lemma fl_cons i x l k ts s t : Seq i s KC (flat x) -> Seq KC t k (flats l ++ ts) -> Seq i (s ++ t) k (flats (x :: l) ++ ts).
Proof. intros H1 H2. rewrite flats_cons, <- app_assoc. eapply Seq_app; [exact H1|exact H2]. Qed.
Lemma fl_seg i a l k ts s t : Seq i s KC (flats a) -> Seq KC t k (flats l ++ ts) -> Seq i (s ++ t) k (flats (a ++ l) ++ ts).
Proof. intros H1 H2. rewrite flats_app, <- app_assoc. eapply Seq_app; [exact H1|exact H2]. Qed.
Local Opaque lower fmt quoted ps_line tf.
Lemma PlotSettings_wr o i n : PlotSettings_ok o = true -> Wr (PlotSettings_to o i n) (flat (PlotSettings_tree (PlotSettings_norm o))).
Proof.
  intros H. unfold PlotSettings_ok in H. facts. unfold PlotSettings_to.
  match goal with H1 : optb (fixb 6) (ps_dashedLineDashRatio o) = true, H2 : optb (fixb 6) (ps_dashedLineGapRatio o) = true, H3 : fixb 6 (ps_hpglPenDiameter o) = true |- _ =>
    destruct (Seq_fixb 6 (ps_hpglPenDiameter o) ltac:(reflexivity) H3) as (pen & Ep & Sp);
    eapply Wr_bind; [apply ps_fixed_wr; [reflexivity|exact H1]|intros dash Sd];
    eapply Wr_bind; [apply ps_fixed_wr; [reflexivity|exact H2]|intros gap Sg]; clear H1 H2 H3
  end.
  cbv zeta. rewrite Ep. cbn [bind]. apply Wr_ok.
  unfold PlotSettings_tree, PlotSettings_norm. cbn [app ps_layerSelection ps_plotOnAllLayersSelection ps_disableApertMacros ps_useGerberExtensions ps_useGerberAttributes
    ps_useGerberAdvancedAttributes ps_createGerberJobFile ps_dashedLineDashRatio ps_dashedLineGapRatio ps_svgUseInch ps_svgPrecision ps_excludeEdgeLayer ps_plotFameRef ps_viasOnMask
    ps_mode ps_useAuxOrigin ps_hpglPenNumber ps_hpglPenSpeed ps_hpglPenDiameter ps_dxfPolygonMode ps_dxfImperialUnits ps_dxfUsePcbnewFont ps_psNegative ps_psA4Output
    ps_plotReference ps_plotValue ps_plotInvisibleText ps_sketchPadsOnFab ps_subtractMaskFromSilk ps_outputFormat ps_mirror ps_drillShape ps_scaleSelection ps_outputDirectory].
  match goal with E : ps_useAuxOrigin o = false |- _ => rewrite E end.
  rewrite flat_node. refine (Seq_app KC _ _ [] _ _ _ (Seq_spaces _ _) _).
  rewrite (app_assoc $"(pcbplotparams" nl). refine (Seq_app _ ($"(pcbplotparams" ++ nl) KC [TL; TA (VStr $"pcbplotparams")] _ _ _ _ _); [now apply Seq_lit|].
  repeat first
  [ apply fl_cons;
    [ first [ apply Seq_ps_tf; reflexivity
            | apply (Seq_ps_tf i _ false); reflexivity
            | apply Seq_ps_text; [reflexivity|assumption]
            | lazymatch goal with |- Seq _ (ps_line _ _ pen) _ _ => rewrite flat_node1; refine (Seq_ps_line i _ pen KN _ _ Sp); reflexivity end
            | apply Seq_ps_num; [reflexivity|assumption]
            | apply Seq_ps_atom; [reflexivity|assumption] ] | ]
  | apply fl_seg; [first [exact Sd | exact Sg | apply Seq_ps_oatom; [reflexivity|assumption] | apply Seq_ps_otf; reflexivity]|] ].
  rewrite flats_nil. cbn [app]. refine (Seq_app KC _ _ [] _ _ _ (Seq_spaces _ _) _).
  refine (Seq_app KC $")" KC [TR] _ KC [] _ _); [now apply Seq_lit|]. apply Seq_eol. reflexivity.
Qed.
#[export] Hint Resolve PlotSettings_wr : wr.
Local Transparent tf.
Lemma tf_true k : tf k true = node k [VStr $"true"]. Proof. reflexivity. Qed.
Lemma tf_false k : tf k false = node k [VStr $"false"]. Proof. reflexivity. Qed.
Global Opaque tf.
Ltac ev_sub ::=
  try match goal with |- context [at_ ?x 0] => sub_tree x end;
  try match goal with |- context [tf ?k ?b] => is_var b; destruct b; [rewrite (tf_true k)|rewrite (tf_false k)] end;
  try match goal with |- context [tf ?k false] => rewrite (tf_false k) end;
  try match goal with |- context [optw ?k ?b] => is_var b; destruct b; cbv beta iota delta [optw] end;
  try match goal with |- context [optv ?v] => is_var v; let B := fresh "B" in unfold optv; destruct (is_none v) eqn:B; [apply is_none_eq in B; subst v|]; cbn [app] end;
  leaf_tests; red_step; ev_more; reflexivity.
@rt PlotSettings pcbplotparams noto
@rt SetupData setup

Local Transparent PlotSettings_to.
Lemma PlotSettings_aux_text o b i n : PlotSettings_to (o <| ps_useAuxOrigin := b |>) i n = PlotSettings_to o i n.
Proof. destruct o. reflexivity. Qed.
Local Opaque PlotSettings_to.
Lemma PlotSettings_aux o i n : PlotSettings_ok (o <| ps_useAuxOrigin := false |>) = true ->
  write_read PlotSettings_to PlotSettings_from o i n = Ok (PlotSettings_norm (o <| ps_useAuxOrigin := false |>)).
Proof. intros H. apply (rt_as _ _ _ _ _ o _ i n PlotSettings_rt); [|exact H]. now rewrite PlotSettings_aux_text. Qed.
