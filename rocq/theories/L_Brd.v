(** Round trip lemmas for items/brditems.py. *)
From Verif Require Import PyBase PyNum PyStr Sexpr S_Leaf S_Tree S_Fix M_Common S_Common M_Zone M_Brd S_Brd L_Lex L_Tok L_Num L_Seq L_Tac L_Fix L_Common L_Fp L_Zone L_Pad L_Dim.

Lemma GeneralSettings_wr o i n : GeneralSettings_ok o = true -> Wr (GeneralSettings_to o i n) (flat (GeneralSettings_tree (GeneralSettings_norm o))).
Proof. wr GeneralSettings_to GeneralSettings_ok GeneralSettings_tree GeneralSettings_norm. Qed.
#[export] Hint Resolve GeneralSettings_wr : wr.
Lemma GeneralSettings_idem o : GeneralSettings_norm (GeneralSettings_norm o) = GeneralSettings_norm o.
Proof. idem GeneralSettings_norm. Qed.
#[export] Hint Rewrite GeneralSettings_idem : idem.
Lemma GeneralSettings_okn o : GeneralSettings_ok o = true -> GeneralSettings_ok (GeneralSettings_norm o) = true.
Proof. okn GeneralSettings_ok GeneralSettings_norm. Qed.
#[export] Hint Resolve GeneralSettings_okn : okn.
Lemma GeneralSettings_hd o : exists l, GeneralSettings_tree o = node "general" l.
Proof. eexists. reflexivity. Qed.
#[export] Hint Resolve GeneralSettings_hd : hd.
Lemma GeneralSettings_rd o : GeneralSettings_ok o = true -> GeneralSettings_from (GeneralSettings_tree o) = Ok o.
Proof. rd GeneralSettings_ok GeneralSettings_from GeneralSettings_tree GeneralSettings_step. Qed.
#[export] Hint Resolve GeneralSettings_rd : rd.
Lemma GeneralSettings_same o : GeneralSettings_eqb o (GeneralSettings_norm o) = true.
Proof. same GeneralSettings_eqb GeneralSettings_norm. Qed.
#[export] Hint Resolve GeneralSettings_same : same.
Lemma GeneralSettings_rt : roundtrips GeneralSettings_to GeneralSettings_from GeneralSettings_ok GeneralSettings_norm GeneralSettings_eqb.
Proof. exact (rt_of _ _ _ GeneralSettings_tree _ _ GeneralSettings_wr GeneralSettings_rd GeneralSettings_same GeneralSettings_okn GeneralSettings_idem). Qed.
Lemma GeneralSettings_fmt : conforms GeneralSettings_to GeneralSettings_from GeneralSettings_ok GeneralSettings_norm GeneralSettings_tree.
Proof. exact (fmt_of _ _ _ _ _ GeneralSettings_wr GeneralSettings_rd). Qed.
Lemma GeneralSettings_ref : refuses GeneralSettings_from ["general"%string].
Proof. refuse GeneralSettings_from. Qed.
Lemma GeneralSettings_ign : ignores GeneralSettings_from 0 ["thickness"%string].
Proof. ign GeneralSettings_from GeneralSettings_step O. Qed.
Lemma GeneralSettings_win : last_wins GeneralSettings_from 0 ["thickness"%string].
Proof. wins GeneralSettings_from GeneralSettings_step O. Qed.
Global Opaque GeneralSettings_from GeneralSettings_tree GeneralSettings_to GeneralSettings_norm GeneralSettings_ok GeneralSettings_eqb.

Lemma Segment_wr o i n : Segment_ok o = true -> Wr (Segment_to o i n) (flat (Segment_tree (Segment_norm o))).
Proof. wr Segment_to Segment_ok Segment_tree Segment_norm. Qed.
#[export] Hint Resolve Segment_wr : wr.
Lemma Segment_idem o : Segment_norm (Segment_norm o) = Segment_norm o.
Proof. idem Segment_norm. Qed.
#[export] Hint Rewrite Segment_idem : idem.
Lemma Segment_okn o : Segment_ok o = true -> Segment_ok (Segment_norm o) = true.
Proof. okn Segment_ok Segment_norm. Qed.
#[export] Hint Resolve Segment_okn : okn.
Lemma Segment_hd o : exists l, Segment_tree o = node "segment" l.
Proof. eexists. reflexivity. Qed.
#[export] Hint Resolve Segment_hd : hd.
Lemma Segment_rd o : Segment_ok o = true -> Segment_from (Segment_tree o) = Ok o.
Proof. rd Segment_ok Segment_from Segment_tree Segment_step. Qed.
#[export] Hint Resolve Segment_rd : rd.
Lemma Segment_same o : Segment_eqb o (Segment_norm o) = true.
Proof. same Segment_eqb Segment_norm. Qed.
#[export] Hint Resolve Segment_same : same.
Lemma Segment_rt : roundtrips Segment_to Segment_from Segment_ok Segment_norm Segment_eqb.
Proof. exact (rt_of _ _ _ Segment_tree _ _ Segment_wr Segment_rd Segment_same Segment_okn Segment_idem). Qed.
Lemma Segment_fmt : conforms Segment_to Segment_from Segment_ok Segment_norm Segment_tree.
Proof. exact (fmt_of _ _ _ _ _ Segment_wr Segment_rd). Qed.
Lemma Segment_ref : refuses Segment_from ["segment"%string].
Proof. refuse Segment_from. Qed.
Lemma Segment_ign : ignores Segment_from 0 ["start"%string; "end"%string; "width"%string; "layer"%string; "net"%string; "tstamp"%string].
Proof. ign Segment_from Segment_step O. Qed.
Lemma Segment_win : last_wins Segment_from 0 ["start"%string; "end"%string; "width"%string; "layer"%string; "net"%string; "tstamp"%string].
Proof. wins Segment_from Segment_step O. Qed.
Global Opaque Segment_from Segment_tree Segment_to Segment_norm Segment_ok Segment_eqb.

Lemma Via_wr o i n : Via_ok o = true -> Wr (Via_to o i n) (flat (Via_tree (Via_norm o))).
Proof. wr Via_to Via_ok Via_tree Via_norm. Qed.
#[export] Hint Resolve Via_wr : wr.
Lemma Via_idem o : Via_norm (Via_norm o) = Via_norm o.
Proof. idem Via_norm. Qed.
#[export] Hint Rewrite Via_idem : idem.
Lemma Via_okn o : Via_ok o = true -> Via_ok (Via_norm o) = true.
Proof. okn Via_ok Via_norm. Qed.
#[export] Hint Resolve Via_okn : okn.
Lemma Via_hd o : exists l, Via_tree o = node "via" l.
Proof. eexists. reflexivity. Qed.
#[export] Hint Resolve Via_hd : hd.
Lemma Via_rd o : Via_ok o = true -> Via_from (Via_tree o) = Ok o.
Proof. rd Via_ok Via_from Via_tree Via_step. Qed.
#[export] Hint Resolve Via_rd : rd.
Lemma Via_same o : Via_eqb o (Via_norm o) = true.
Proof. same Via_eqb Via_norm. Qed.
#[export] Hint Resolve Via_same : same.
Lemma Via_rt : roundtrips Via_to Via_from Via_ok Via_norm Via_eqb.
Proof. exact (rt_of _ _ _ Via_tree _ _ Via_wr Via_rd Via_same Via_okn Via_idem). Qed.
Lemma Via_fmt : conforms Via_to Via_from Via_ok Via_norm Via_tree.
Proof. exact (fmt_of _ _ _ _ _ Via_wr Via_rd). Qed.
Lemma Via_ref : refuses Via_from ["via"%string].
Proof. refuse Via_from. Qed.
Lemma Via_ign : ignores Via_from 0 ["at"%string; "size"%string; "drill"%string; "layers"%string; "remove_unused_layers"%string; "keep_end_layers"%string; "free"%string; "net"%string; "tstamp"%string].
Proof. ign Via_from Via_step O. Qed.
Lemma Via_win : last_wins Via_from 0 ["at"%string; "size"%string; "drill"%string; "remove_unused_layers"%string; "keep_end_layers"%string; "free"%string; "net"%string; "tstamp"%string].
Proof. wins Via_from Via_step O. Qed.
Global Opaque Via_from Via_tree Via_to Via_norm Via_ok Via_eqb.

Lemma Arc_wr o i n : Arc_ok o = true -> Wr (Arc_to o i n) (flat (Arc_tree (Arc_norm o))).
Proof. wr Arc_to Arc_ok Arc_tree Arc_norm. Qed.
#[export] Hint Resolve Arc_wr : wr.
Lemma Arc_idem o : Arc_norm (Arc_norm o) = Arc_norm o.
Proof. idem Arc_norm. Qed.
#[export] Hint Rewrite Arc_idem : idem.
Lemma Arc_okn o : Arc_ok o = true -> Arc_ok (Arc_norm o) = true.
Proof. okn Arc_ok Arc_norm. Qed.
#[export] Hint Resolve Arc_okn : okn.
Lemma Arc_hd o : exists l, Arc_tree o = node "arc" l.
Proof. eexists. reflexivity. Qed.
#[export] Hint Resolve Arc_hd : hd.
Lemma Arc_rd o : Arc_ok o = true -> Arc_from (Arc_tree o) = Ok o.
Proof. rd Arc_ok Arc_from Arc_tree Arc_step. Qed.
#[export] Hint Resolve Arc_rd : rd.
Lemma Arc_same o : Arc_eqb o (Arc_norm o) = true.
Proof. same Arc_eqb Arc_norm. Qed.
#[export] Hint Resolve Arc_same : same.
Lemma Arc_rt : roundtrips Arc_to Arc_from Arc_ok Arc_norm Arc_eqb.
Proof. exact (rt_of _ _ _ Arc_tree _ _ Arc_wr Arc_rd Arc_same Arc_okn Arc_idem). Qed.
Lemma Arc_fmt : conforms Arc_to Arc_from Arc_ok Arc_norm Arc_tree.
Proof. exact (fmt_of _ _ _ _ _ Arc_wr Arc_rd). Qed.
Lemma Arc_ref : refuses Arc_from ["arc"%string].
Proof. refuse Arc_from. Qed.
Lemma Arc_ign : ignores Arc_from 0 ["start"%string; "mid"%string; "end"%string; "width"%string; "layer"%string; "net"%string; "tstamp"%string].
Proof. ign Arc_from Arc_step O. Qed.
Lemma Arc_win : last_wins Arc_from 0 ["start"%string; "mid"%string; "end"%string; "width"%string; "layer"%string; "net"%string; "tstamp"%string].
Proof. wins Arc_from Arc_step O. Qed.
Global Opaque Arc_from Arc_tree Arc_to Arc_norm Arc_ok Arc_eqb.

Lemma Target_wr o i n : Target_ok o = true -> Wr (Target_to o i n) (flat (Target_tree (Target_norm o))).
Proof. wr Target_to Target_ok Target_tree Target_norm. Qed.
#[export] Hint Resolve Target_wr : wr.
Lemma Target_idem o : Target_norm (Target_norm o) = Target_norm o.
Proof. idem Target_norm. Qed.
#[export] Hint Rewrite Target_idem : idem.
Lemma Target_okn o : Target_ok o = true -> Target_ok (Target_norm o) = true.
Proof. okn Target_ok Target_norm. Qed.
#[export] Hint Resolve Target_okn : okn.
Lemma Target_hd o : exists l, Target_tree o = node "target" l.
Proof. eexists. reflexivity. Qed.
#[export] Hint Resolve Target_hd : hd.
Lemma Target_rd o : Target_ok o = true -> Target_from (Target_tree o) = Ok o.
Proof. rd Target_ok Target_from Target_tree Target_step. Qed.
#[export] Hint Resolve Target_rd : rd.
Lemma Target_same o : Target_eqb o (Target_norm o) = true.
Proof. same Target_eqb Target_norm. Qed.
#[export] Hint Resolve Target_same : same.
Lemma Target_rt : roundtrips Target_to Target_from Target_ok Target_norm Target_eqb.
Proof. exact (rt_of _ _ _ Target_tree _ _ Target_wr Target_rd Target_same Target_okn Target_idem). Qed.
Lemma Target_fmt : conforms Target_to Target_from Target_ok Target_norm Target_tree.
Proof. exact (fmt_of _ _ _ _ _ Target_wr Target_rd). Qed.
Lemma Target_ref : refuses Target_from ["target"%string].
Proof. refuse Target_from. Qed.
Lemma Target_ign : ignores Target_from 1 ["at"%string; "size"%string; "width"%string; "layer"%string; "tstamp"%string].
Proof. ign Target_from Target_step (S O). Qed.
Lemma Target_win : last_wins Target_from 1 ["at"%string; "size"%string; "width"%string; "layer"%string; "tstamp"%string].
Proof. wins Target_from Target_step (S O). Qed.
Global Opaque Target_from Target_tree Target_to Target_norm Target_ok Target_eqb.


(** ** Layers of the board *)
Lemma LayerToken_rd o : LayerToken_ok o = true -> LayerToken_from (LayerToken_tree o) = Ok o.
Proof.
  intros H. destruct o as [a b c d]. unfold LayerToken_tree, optv. cbn [lt_ordinal lt_name lt_type lt_userName].
  destruct (is_none d) eqn:B; [apply is_none_eq in B; subst d|]; reflexivity.
Qed.
#[export] Hint Resolve LayerToken_rd : rd.
Lemma LayerToken_wr o i n : LayerToken_ok o = true -> Wr (LayerToken_to o i n) (flat (LayerToken_tree (LayerToken_norm o))).
Proof. wr LayerToken_to LayerToken_ok LayerToken_tree LayerToken_norm. Qed.
#[export] Hint Resolve LayerToken_wr : wr.
Lemma LayerToken_idem o : LayerToken_norm (LayerToken_norm o) = LayerToken_norm o.
Proof. idem LayerToken_norm. Qed.
#[export] Hint Rewrite LayerToken_idem : idem.
Lemma LayerToken_okn o : LayerToken_ok o = true -> LayerToken_ok (LayerToken_norm o) = true.
Proof. okn LayerToken_ok LayerToken_norm. Qed.
#[export] Hint Resolve LayerToken_okn : okn.
Lemma LayerToken_same o : LayerToken_eqb o (LayerToken_norm o) = true.
Proof. same LayerToken_eqb LayerToken_norm. Qed.
#[export] Hint Resolve LayerToken_same : same.
Lemma LayerToken_rt : roundtrips LayerToken_to LayerToken_from LayerToken_ok LayerToken_norm LayerToken_eqb.
Proof. exact (rt_of _ _ _ LayerToken_tree _ _ LayerToken_wr LayerToken_rd LayerToken_same LayerToken_okn LayerToken_idem). Qed.
Lemma LayerToken_fmt : conforms LayerToken_to LayerToken_from LayerToken_ok LayerToken_norm LayerToken_tree.
Proof. exact (fmt_of _ _ _ _ _ LayerToken_wr LayerToken_rd). Qed.
Global Opaque LayerToken_from LayerToken_tree LayerToken_to LayerToken_norm LayerToken_ok LayerToken_eqb.

Local Transparent LayerToken_from.
Lemma LayerToken_refuses exp : (forall l, exp = VList l -> length l < 3 \/ 4 < length l) -> LayerToken_from exp = Err EException.
Proof.
  intros H. destruct exp as [| | | | |l]; try reflexivity. destruct (H l eq_refl) as [E|E]; unfold LayerToken_from; cbn [need_list bind].
  - apply Nat.ltb_lt in E. now rewrite E.
  - apply Nat.ltb_lt in E. now rewrite E, orb_true_r.
Qed.
Local Opaque LayerToken_from.

(** ** The stack-up *)
Lemma StackupSubLayer_idem o : StackupSubLayer_norm (StackupSubLayer_norm o) = StackupSubLayer_norm o.
Proof. idem StackupSubLayer_norm. Qed.
#[export] Hint Rewrite StackupSubLayer_idem : idem.
Lemma StackupSubLayer_okn o : StackupSubLayer_ok o = true -> StackupSubLayer_ok (StackupSubLayer_norm o) = true.
Proof. okn StackupSubLayer_ok StackupSubLayer_norm. Qed.
Lemma StackupSubLayer_same o : StackupSubLayer_eqb o (StackupSubLayer_norm o) = true.
Proof. same StackupSubLayer_eqb StackupSubLayer_norm. Qed.
#[export] Hint Resolve StackupSubLayer_okn : okn. #[export] Hint Resolve StackupSubLayer_same : same.
Definition sub_items (s : StackupSubLayer) : list val := VStr $"addsublayer" :: StackupSubLayer_items s.
Lemma StackupSubLayer_wr o i : StackupSubLayer_ok o = true -> Wr (let! t := StackupSubLayer_to o i false in Ok (nl ++ t)) (flats (sub_items (StackupSubLayer_norm o))).
Proof.
  intros H. unfold StackupSubLayer_ok in H. facts. eapply Wr_eq; [unfold StackupSubLayer_to; wr_go|].
  unfold sub_items, StackupSubLayer_items, StackupSubLayer_norm; cbn; tpeel.
Qed.
Lemma StackupLayer_wr o i n : StackupLayer_ok o = true -> Wr (StackupLayer_to o i n) (flat (StackupLayer_tree (StackupLayer_norm o))).
Proof.
  intros H. unfold StackupLayer_ok in H. facts. unfold StackupLayer_to.
  assert (W : Wr (concatM (fun s => let! t := StackupSubLayer_to s (i + 2) false in Ok (nl ++ t)) (sl_subLayers o))
                 (flats (flat_map sub_items (map StackupSubLayer_norm (sl_subLayers o))))).
  { eapply Wr_eq; [eapply Wr_concatM; intros x Hx; elem_facts; now apply StackupSubLayer_wr|].
    rewrite flats_flat_map, flat_map_map. induction (sl_subLayers o) as [|x l IH]; [reflexivity|].
    cbn [flat_map]. rewrite flat_map_app, <- IH. rewrite flats_flat_map. 1: reflexivity.
    all: cbn [forallb] in *; andbs; assumption. }
  eapply Wr_eq; [eapply Wr_bind; [exact W|intros subs Hs]; wr_go|].
  unfold StackupLayer_tree, StackupLayer_norm. cbn. fold sub_items. tpeel.
Qed.
#[export] Hint Resolve StackupLayer_wr : wr.
Lemma StackupSubLayer_rd o temp s : StackupSubLayer_ok s = true ->
  foldM StackupLayer_next (temp, o) (sub_items s)
  = Ok (Some s, match temp with Some t => o <| sl_subLayers := sl_subLayers o ++ [t] |> | None => o end).
Proof.
  intros H. unfold StackupSubLayer_ok in H. destruct s as [a b c d]. cbn in H. facts0.
  unfold sub_items, StackupSubLayer_items, optn. cbn [sb_thickness sb_material sb_epsilonR sb_lossTangent].
  (destruct (is_none b) eqn:B; [apply is_none_eq in B; subst b|]);
  (destruct (is_none c) eqn:C; [apply is_none_eq in C; subst c|]);
  (destruct (is_none d) eqn:D; [apply is_none_eq in D; subst d|]);
  destruct temp; reflexivity.
Qed.
Lemma subs_rd l : forallb StackupSubLayer_ok l = true -> forall temp o,
  (let! s := foldM StackupLayer_next (temp, o) (flat_map sub_items l) in
   match s with (Some t, o) => addf sl_subLayers (Ok t) o | (None, o) => Ok o end)
  = Ok (o <| sl_subLayers := sl_subLayers o ++ match temp with Some t => [t] | None => [] end ++ l |>).
Proof.
  induction l as [|x l IH]; intros H temp o.
  - cbn [flat_map foldM bind]. destruct temp, o; cbn; now rewrite ?app_nil_r.
  - cbn [forallb] in H. andbs. cbn [flat_map]. rewrite foldM_app, StackupSubLayer_rd by assumption. cbn [bind]. rewrite IH by assumption.
    destruct temp, o; cbn; now rewrite <- ?app_assoc.
Qed.
Lemma StackupLayer_rd o : StackupLayer_ok o = true -> StackupLayer_from (StackupLayer_tree o) = Ok o.
Proof.
  intros H. destruct o as [a b c d e f g l]. unfold StackupLayer_ok in H. cbn in H. facts0.
  unfold StackupLayer_from, StackupLayer_tree, optn. fold sub_items. cbn [sl_name sl_type sl_color sl_thickness sl_material sl_epsilonR sl_lossTangent sl_subLayers].
  pose proof (fun o => subs_rd l H0 None o) as S.
  (destruct (is_none c) eqn:C; [apply is_none_eq in C; subst c|]);
  (destruct (is_none d) eqn:D; [apply is_none_eq in D; subst d|]);
  (destruct (is_none e) eqn:E; [apply is_none_eq in E; subst e|]);
  (destruct (is_none f) eqn:F; [apply is_none_eq in F; subst f|]);
  (destruct (is_none g) eqn:G; [apply is_none_eq in G; subst g|]);
  exact (S _).
Qed.
#[export] Hint Resolve StackupLayer_rd : rd.
Lemma StackupLayer_idem o : StackupLayer_norm (StackupLayer_norm o) = StackupLayer_norm o.
Proof. idem StackupLayer_norm. Qed.
#[export] Hint Rewrite StackupLayer_idem : idem.
Lemma StackupLayer_okn o : StackupLayer_ok o = true -> StackupLayer_ok (StackupLayer_norm o) = true.
Proof. okn StackupLayer_ok StackupLayer_norm. Qed.
#[export] Hint Resolve StackupLayer_okn : okn.
Lemma StackupLayer_hd o : exists l, StackupLayer_tree o = node "layer" l.
Proof. eexists. reflexivity. Qed.
#[export] Hint Resolve StackupLayer_hd : hd.
Lemma StackupLayer_same o : StackupLayer_eqb o (StackupLayer_norm o) = true.
Proof. same StackupLayer_eqb StackupLayer_norm. Qed.
#[export] Hint Resolve StackupLayer_same : same.
Lemma StackupLayer_rt : roundtrips StackupLayer_to StackupLayer_from StackupLayer_ok StackupLayer_norm StackupLayer_eqb.
Proof. exact (rt_of _ _ _ StackupLayer_tree _ _ StackupLayer_wr StackupLayer_rd StackupLayer_same StackupLayer_okn StackupLayer_idem). Qed.
Lemma StackupLayer_fmt : conforms StackupLayer_to StackupLayer_from StackupLayer_ok StackupLayer_norm StackupLayer_tree.
Proof. exact (fmt_of _ _ _ _ _ StackupLayer_wr StackupLayer_rd). Qed.
Lemma StackupLayer_ref : refuses StackupLayer_from ["layer"%string].
Proof. refuse StackupLayer_from. Qed.
Global Opaque StackupLayer_from StackupLayer_tree StackupLayer_to StackupLayer_norm StackupLayer_ok StackupLayer_eqb.

Lemma Stackup_wr o i n : Stackup_ok o = true -> Wr (Stackup_to o i n) (flat (Stackup_tree (Stackup_norm o))).
Proof. wr Stackup_to Stackup_ok Stackup_tree Stackup_norm. Qed.
#[export] Hint Resolve Stackup_wr : wr.
Lemma Stackup_idem o : Stackup_norm (Stackup_norm o) = Stackup_norm o.
Proof. idem Stackup_norm. Qed.
#[export] Hint Rewrite Stackup_idem : idem.
Lemma Stackup_okn o : Stackup_ok o = true -> Stackup_ok (Stackup_norm o) = true.
Proof. okn Stackup_ok Stackup_norm. Qed.
#[export] Hint Resolve Stackup_okn : okn.
Lemma Stackup_hd o : exists l, Stackup_tree o = node "stackup" l.
Proof. eexists. reflexivity. Qed.
#[export] Hint Resolve Stackup_hd : hd.
Lemma Stackup_rd o : Stackup_ok o = true -> Stackup_from (Stackup_tree o) = Ok o.
Proof. rd Stackup_ok Stackup_from Stackup_tree Stackup_step. Qed.
#[export] Hint Resolve Stackup_rd : rd.
Lemma Stackup_same o : Stackup_eqb o (Stackup_norm o) = true.
Proof. same Stackup_eqb Stackup_norm. Qed.
#[export] Hint Resolve Stackup_same : same.
Lemma Stackup_rt : roundtrips Stackup_to Stackup_from Stackup_ok Stackup_norm Stackup_eqb.
Proof. exact (rt_of _ _ _ Stackup_tree _ _ Stackup_wr Stackup_rd Stackup_same Stackup_okn Stackup_idem). Qed.
Lemma Stackup_fmt : conforms Stackup_to Stackup_from Stackup_ok Stackup_norm Stackup_tree.
Proof. exact (fmt_of _ _ _ _ _ Stackup_wr Stackup_rd). Qed.
Lemma Stackup_ref : refuses Stackup_from ["stackup"%string].
Proof. refuse Stackup_from. Qed.
Lemma Stackup_ign : ignores Stackup_from 0 ["layer"%string; "copper_finish"%string; "dielectric_constraints"%string; "edge_connector"%string; "castellated_pads"%string; "edge_plating"%string].
Proof. ign Stackup_from Stackup_step O. Qed.
Lemma Stackup_win : last_wins Stackup_from 0 ["copper_finish"%string; "dielectric_constraints"%string; "edge_connector"%string; "castellated_pads"%string; "edge_plating"%string].
Proof. wins Stackup_from Stackup_step O. Qed.
Global Opaque Stackup_from Stackup_tree Stackup_to Stackup_norm Stackup_ok Stackup_eqb.

Local Transparent StackupLayer_from.
Lemma StackupLayer_ign : ignores StackupLayer_from 1 ["type"; "thickness"; "material"; "epsilon_r"; "loss_tangent"; "color"]%string.
Proof.
  unfold ignores; intros h before u args after H Hu.
  cbn [existsb] in Hu; repeat (apply orb_false_elim in Hu; let E := fresh "E" in destruct Hu as [E Hu]).
  assert (U : forall o, StackupLayer_next o (VList (u :: args)) = Ok o).
  { intros [[t|] o]; unfold StackupLayer_next, StackupSubLayer_step, StackupLayer_own; cbn [is_list negb at_ nth_error bind];
      repeat match goal with E : is_str u _ = false |- _ => rewrite E; clear E end; reflexivity. }
  clear - U H. kill_arg H before. unfold StackupLayer_from, need_head, need_list; cbn [app at_ nth_error bind length skipn].
  destruct (is_str h "layer"); cbn [bind negb setf skipn]; [|reflexivity]. rewrite (fold_ignore _ _ U). reflexivity.
Qed.
Lemma StackupLayer_win : last_wins StackupLayer_from 1 ["type"; "thickness"; "material"; "epsilon_r"; "loss_tangent"; "color"]%string.
Proof.
  unfold last_wins; intros h before k args1 args2 after o H Hk.
  assert (U : forall o o1, StackupLayer_next o (node k args1) = Ok o1 -> StackupLayer_next o1 (node k args2) = StackupLayer_next o (node k args2)).
  { clear - Hk. intros [[t|] o] o1; cbn [In] in Hk;
    repeat (destruct Hk as [Hk|Hk]; [subst k; unfold StackupLayer_next, StackupSubLayer_step, StackupLayer_own; red_step; intros E; res_cases; inversion E; subst; red_step; res_cases; solve [reflexivity]|]);
    destruct Hk. }
  clear - U H. kill_arg H before. unfold StackupLayer_from, need_head, need_list; cbn [app at_ nth_error bind length skipn].
  destruct (is_str h "layer"); cbn [bind negb setf skipn]; [|discriminate]. intros E.
  destruct (foldM _ _ (before ++ node k args1 :: _)) as [s|] eqn:F; [|discriminate].
  now rewrite (fold_wins _ _ _ U _ _ _ _ F).
Qed.
Local Opaque StackupLayer_from.

Local Transparent Target_to.
Lemma Target_tstamp_none o i n : tg_tstamp o = VNone -> Target_to o i n = Target_to (o <| tg_tstamp := VStr $"None" |>) i n.
Proof. intros H. destruct o. cbn in H. subst. reflexivity. Qed.
Local Opaque Target_to.
Lemma Target_none o i n : tg_tstamp o = VNone -> Target_ok (o <| tg_tstamp := VStr $"None" |>) = true ->
  write_read Target_to Target_from o i n = Ok (Target_norm (o <| tg_tstamp := VStr $"None" |>)).
Proof. intros E H. apply (rt_as _ _ _ _ _ o _ i n Target_rt); [|exact H]. now apply Target_tstamp_none. Qed.
Local Transparent Stackup_from.
(** whatever the argument is, the flags are set *)
Lemma Stackup_flags l args : Stackup_from (node "stackup" (l ++ [node "castellated_pads" args]))
  = (let! o := Stackup_from (node "stackup" l) in Ok (o <| sk_castellatedPads := true |>))
  /\ Stackup_from (node "stackup" (l ++ [node "edge_plating" args]))
  = (let! o := Stackup_from (node "stackup" l) in Ok (o <| sk_edgePlating := true |>)).
Proof.
  unfold Stackup_from, node, need_head. cbn [need_list bind at_ nth_error].
  change (is_str (VStr $"stackup") "stackup") with true. cbn [negb bind].
  split; rewrite app_comm_cons, foldM_app; destruct (foldM Stackup_step _ _) as [o|]; try reflexivity; cbn [bind]; destruct o; reflexivity.
Qed.
Local Opaque Stackup_from.
