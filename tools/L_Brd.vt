(** Round trip lemmas for items/brditems.py. *)
From Verif Require Import PyBase PyNum PyStr Sexpr S_Leaf S_Tree S_Fix M_Common S_Common M_Zone M_Brd S_Brd L_Lex L_Tok L_Num L_Seq L_Tac L_Fix L_Common L_Fp L_Zone L_Pad L_Dim.

@rt GeneralSettings general
@rt Segment segment
@rt Via via
@rt Arc arc
@rt Target target npos=1

(** ** Layers of the board *)
Lemma LayerToken_rd o : LayerToken_ok o = true -> LayerToken_from (LayerToken_tree o) = Ok o.
Proof.
  intros H. destruct o as [a b c d]. unfold LayerToken_tree, optv. cbn [lt_ordinal lt_name lt_type lt_userName].
  destruct (is_none d) eqn:B; [apply is_none_eq in B; subst d|]; reflexivity.
Qed.
#[export] Hint Resolve LayerToken_rd : rd.
@rt LayerToken none nohd nord noref
Local Transparent LayerToken_from.
Lemma LayerToken_refuses exp : (forall l, exp = VList l -> length l < 3 \/ 4 < length l) -> LayerToken_from exp = Err EException.
Proof.
  intros H. destruct exp as [| | | | |l]; try reflexivity. destruct (H l eq_refl) as [E|E]; unfold LayerToken_from; cbn [need_list bind].
  - apply Nat.ltb_lt in E. now rewrite E.
  - apply Nat.ltb_lt in E. now rewrite E, orb_true_r.
Qed.
Local Opaque LayerToken_from.

(** ** The stack-up *)
Lemma StackupSubLayer_idem o : StackupSubLayer_norm (StackupSubLayer_norm o) = StackupSubLayer_norm o.
Proof. idem StackupSubLayer_norm. Qed.
#[export] Hint Rewrite StackupSubLayer_idem : idem.
Lemma StackupSubLayer_okn o : StackupSubLayer_ok o = true -> StackupSubLayer_ok (StackupSubLayer_norm o) = true.
Proof. okn StackupSubLayer_ok StackupSubLayer_norm. Qed.
Lemma StackupSubLayer_same o : StackupSubLayer_eqb o (StackupSubLayer_norm o) = true.
Proof. same StackupSubLayer_eqb StackupSubLayer_norm. Qed.
#[export] Hint Resolve StackupSubLayer_okn : okn. #[export] Hint Resolve StackupSubLayer_same : same.
Definition sub_items (s : StackupSubLayer) : list val := VStr $"addsublayer" :: StackupSubLayer_items s.
Lemma StackupSubLayer_wr o i : StackupSubLayer_ok o = true -> Wr (let! t := StackupSubLayer_to o i false in Ok (nl ++ t)) (flats (sub_items (StackupSubLayer_norm o))).
Proof.
  intros H. unfold StackupSubLayer_ok in H. facts. eapply Wr_eq; [unfold StackupSubLayer_to; wr_go|].
  unfold sub_items, StackupSubLayer_items, StackupSubLayer_norm; cbn; tpeel.
Qed.
Lemma StackupLayer_wr o i n : StackupLayer_ok o = true -> Wr (StackupLayer_to o i n) (flat (StackupLayer_tree (StackupLayer_norm o))).
Proof.
  intros H. unfold StackupLayer_ok in H. facts. unfold StackupLayer_to.
  assert (W : Wr (concatM (fun s => let! t := StackupSubLayer_to s (i + 2) false in Ok (nl ++ t)) (sl_subLayers o))
                 (flats (flat_map sub_items (map StackupSubLayer_norm (sl_subLayers o))))).
  { eapply Wr_eq; [eapply Wr_concatM; intros x Hx; elem_facts; now apply StackupSubLayer_wr|].
    rewrite flats_flat_map, flat_map_map. induction (sl_subLayers o) as [|x l IH]; [reflexivity|].
    cbn [flat_map]. rewrite flat_map_app, <- IH. rewrite flats_flat_map. 1: reflexivity.
    all: cbn [forallb] in *; andbs; assumption. }
  eapply Wr_eq; [eapply Wr_bind; [exact W|intros subs Hs]; wr_go|].
  unfold StackupLayer_tree, StackupLayer_norm. cbn. fold sub_items. tpeel.
Qed.
#[export] Hint Resolve StackupLayer_wr : wr.
Lemma StackupSubLayer_rd o temp s : StackupSubLayer_ok s = true ->
  foldM StackupLayer_next (temp, o) (sub_items s)
  = Ok (Some s, match temp with Some t => o <| sl_subLayers := sl_subLayers o ++ [t] |> | None => o end).
Proof.
  intros H. unfold StackupSubLayer_ok in H. destruct s as [a b c d]. cbn in H. facts0.
  unfold sub_items, StackupSubLayer_items, optn. cbn [sb_thickness sb_material sb_epsilonR sb_lossTangent].
  (destruct (is_none b) eqn:B; [apply is_none_eq in B; subst b|]);
  (destruct (is_none c) eqn:C; [apply is_none_eq in C; subst c|]);
  (destruct (is_none d) eqn:D; [apply is_none_eq in D; subst d|]);
  destruct temp; reflexivity.
Qed.
Lemma subs_rd l : forallb StackupSubLayer_ok l = true -> forall temp o,
  (let! s := foldM StackupLayer_next (temp, o) (flat_map sub_items l) in
   match s with (Some t, o) => addf sl_subLayers (Ok t) o | (None, o) => Ok o end)
  = Ok (o <| sl_subLayers := sl_subLayers o ++ match temp with Some t => [t] | None => [] end ++ l |>).
Proof.
  induction l as [|x l IH]; intros H temp o.
  - cbn [flat_map foldM bind]. destruct temp, o; cbn; now rewrite ?app_nil_r.
  - cbn [forallb] in H. andbs. cbn [flat_map]. rewrite foldM_app, StackupSubLayer_rd by assumption. cbn [bind]. rewrite IH by assumption.
    destruct temp, o; cbn; now rewrite <- ?app_assoc.
Qed.
Lemma StackupLayer_rd o : StackupLayer_ok o = true -> StackupLayer_from (StackupLayer_tree o) = Ok o.
Proof.
  intros H. destruct o as [a b c d e f g l]. unfold StackupLayer_ok in H. cbn in H. facts0.
  unfold StackupLayer_from, StackupLayer_tree, optn. fold sub_items. cbn [sl_name sl_type sl_color sl_thickness sl_material sl_epsilonR sl_lossTangent sl_subLayers].
  pose proof (fun o => subs_rd l H0 None o) as S.
  (destruct (is_none c) eqn:C; [apply is_none_eq in C; subst c|]);
  (destruct (is_none d) eqn:D; [apply is_none_eq in D; subst d|]);
  (destruct (is_none e) eqn:E; [apply is_none_eq in E; subst e|]);
  (destruct (is_none f) eqn:F; [apply is_none_eq in F; subst f|]);
  (destruct (is_none g) eqn:G; [apply is_none_eq in G; subst g|]);
  exact (S _).
Qed.
#[export] Hint Resolve StackupLayer_rd : rd.
@rt StackupLayer layer npos=1 noto nord noign nowins
@rt Stackup stackup
Local Transparent StackupLayer_from.
Lemma StackupLayer_ign : ignores StackupLayer_from 1 ["type"; "thickness"; "material"; "epsilon_r"; "loss_tangent"; "color"]%string.
Proof.
  unfold ignores; intros h before u args after H Hu.
  cbn [existsb] in Hu; repeat (apply orb_false_elim in Hu; let E := fresh "E" in destruct Hu as [E Hu]).
  assert (U : forall o, StackupLayer_next o (VList (u :: args)) = Ok o).
  { intros [[t|] o]; unfold StackupLayer_next, StackupSubLayer_step, StackupLayer_own; cbn [is_list negb at_ nth_error bind];
      repeat match goal with E : is_str u _ = false |- _ => rewrite E; clear E end; reflexivity. }
  clear - U H. kill_arg H before. unfold StackupLayer_from, need_head, need_list; cbn [app at_ nth_error bind length skipn].
  destruct (is_str h "layer"); cbn [bind negb setf skipn]; [|reflexivity]. rewrite (fold_ignore _ _ U). reflexivity.
Qed.
Lemma StackupLayer_win : last_wins StackupLayer_from 1 ["type"; "thickness"; "material"; "epsilon_r"; "loss_tangent"; "color"]%string.
Proof.
  unfold last_wins; intros h before k args1 args2 after o H Hk.
  assert (U : forall o o1, StackupLayer_next o (node k args1) = Ok o1 -> StackupLayer_next o1 (node k args2) = StackupLayer_next o (node k args2)).
  { clear - Hk. intros [[t|] o] o1; cbn [In] in Hk;
    repeat (destruct Hk as [Hk|Hk]; [subst k; unfold StackupLayer_next, StackupSubLayer_step, StackupLayer_own; red_step; intros E; res_cases; inversion E; subst; red_step; res_cases; solve [reflexivity]|]);
    destruct Hk. }
  clear - U H. kill_arg H before. unfold StackupLayer_from, need_head, need_list; cbn [app at_ nth_error bind length skipn].
  destruct (is_str h "layer"); cbn [bind negb setf skipn]; [|discriminate]. intros E.
  destruct (foldM _ _ (before ++ node k args1 :: _)) as [s|] eqn:F; [|discriminate].
  now rewrite (fold_wins _ _ _ U _ _ _ _ F).
Qed.
Local Opaque StackupLayer_from.

Local Transparent Target_to.
Lemma Target_tstamp_none o i n : tg_tstamp o = VNone -> Target_to o i n = Target_to (o <| tg_tstamp := VStr $"None" |>) i n.
Proof. intros H. destruct o. cbn in H. subst. reflexivity. Qed.
Local Opaque Target_to.
Lemma Target_none o i n : tg_tstamp o = VNone -> Target_ok (o <| tg_tstamp := VStr $"None" |>) = true ->
  write_read Target_to Target_from o i n = Ok (Target_norm (o <| tg_tstamp := VStr $"None" |>)).
Proof. intros E H. apply (rt_as _ _ _ _ _ o _ i n Target_rt); [|exact H]. now apply Target_tstamp_none. Qed.
Local Transparent Stackup_from.
(** whatever the argument is, the flags are set *)
Lemma Stackup_flags l args : Stackup_from (node "stackup" (l ++ [node "castellated_pads" args]))
  = (let! o := Stackup_from (node "stackup" l) in Ok (o <| sk_castellatedPads := true |>))
  /\ Stackup_from (node "stackup" (l ++ [node "edge_plating" args]))
  = (let! o := Stackup_from (node "stackup" l) in Ok (o <| sk_edgePlating := true |>)).
Proof.
  unfold Stackup_from, node, need_head. cbn [need_list bind at_ nth_error].
  change (is_str (VStr $"stackup") "stackup") with true. cbn [negb bind].
  split; rewrite app_comm_cons, foldM_app; destruct (foldM Stackup_step _ _) as [o|]; try reflexivity; cbn [bind]; destruct o; reflexivity.
Qed.
Local Opaque Stackup_from.
