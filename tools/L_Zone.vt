(** Round trip lemmas for items/zones.py. *)
From Verif Require Import PyBase PyNum PyStr Sexpr S_Leaf S_Tree M_Common S_Common M_Zone S_Zone L_Lex L_Tok L_Num L_Seq L_Tac L_Common L_Fp.

Lemma Seq_quoted_list l k : forallb txtb l = true -> Seq k (quoted_list l) (kmax k KQ) (flats l).
Proof.
  revert k. induction l as [|x l IH]; intros k H.
  - rewrite flats_nil. eapply Seq_weaken; [|apply Seq_nil]. now destruct k.
  - cbn [forallb] in H. andbs. cbn [quoted_list flat_map]. fold (quoted_list l). rewrite flats_cons, <- app_assoc.
    eapply Seq_weaken with (k1 := KQ); [now destruct k|].
    apply (Seq_app k $" " KC [] _ KQ (flat x ++ flats l)); [now apply Seq_lit; destruct k|].
    eapply Seq_app; [now apply Seq_quoted|]. exact (IH KQ H0).
Qed.
Global Arguments quoted_list : simpl never.
#[export] Hint Resolve Seq_quoted_list : wr.

@rt KeepoutSettings keepout
@rt FillSettings fill
Lemma ZonePolygon_wr o i n : ZonePolygon_ok o = true -> Wr (ZonePolygon_to o i n) (flat (ZonePolygon_tree (ZonePolygon_norm o))).
Proof.
  intros H. unfold ZonePolygon_ok in H. facts. unfold ZonePolygon_to. match goal with E : Nat.eqb _ _ = _ |- _ => rewrite E end.
  eapply Wr_eq; [wr_go|unfold ZonePolygon_tree, ZonePolygon_norm; cbn; tpeel].
Qed.
#[export] Hint Resolve ZonePolygon_wr : wr.
@rt ZonePolygon polygon noto
Lemma FilledPolygon_wr o i n : FilledPolygon_ok o = true -> Wr (FilledPolygon_to o i n) (flat (FilledPolygon_tree (FilledPolygon_norm o))).
Proof.
  intros H. unfold FilledPolygon_ok in H. facts. unfold FilledPolygon_to. match goal with E : Nat.eqb _ _ = _ |- _ => rewrite E end.
  eapply Wr_eq; [wr_go|unfold FilledPolygon_tree, FilledPolygon_norm; cbn; tpeel].
Qed.
#[export] Hint Resolve FilledPolygon_wr : wr.
@rt FilledPolygon filled_polygon noto
Lemma FillSegments_wr o i n : FillSegments_ok o = true -> Wr (FillSegments_to o i n) (flat (FillSegments_tree (FillSegments_norm o))).
Proof.
  intros H. unfold FillSegments_ok in H. facts. unfold FillSegments_to. match goal with E : Nat.eqb _ _ = _ |- _ => rewrite E end.
  eapply Wr_eq; [wr_go|unfold FillSegments_tree, FillSegments_norm; cbn; tpeel].
Qed.
#[export] Hint Resolve FillSegments_wr : wr.
@rt FillSegments fill_segments noto

Lemma Zone_layer_token_wr l : forallb txtb l = true -> Nat.eqb (length l) 0 = false ->
  Wr (Zone_layer_token l) (flats (if one_layer l then [node "layer" l] else [node "layers" l])).
Proof.
  intros H E. unfold Zone_layer_token, one_layer, enumb. destruct l as [|x [|y l]]; [discriminate| |].
  - cbn [existsb]. rewrite orb_false_r, negb_orb. destruct (negb (x =s "F&B.Cu") && negb (x =s "*.Cu")); eapply Wr_eq; [wr_go|tpeel|wr_go|tpeel].
  - eapply Wr_eq; [wr_go|tpeel].
Qed.
#[export] Hint Resolve Zone_layer_token_wr : wr.
@rt Hatch hatch noto nord nort noref noign nowins noopq
Lemma Zone_wr o i n : Zone_ok o = true -> Wr (Zone_to o i n) (flat (Zone_tree (Zone_norm o))).
Proof.
  intros H; unfold Zone_ok, Hatch_ok in H; facts. eapply Wr_eq; [unfold Zone_to; wr_go | unfold Zone_tree, Zone_norm, Hatch_tree, Hatch_norm; cbn; tpeel].
Qed.
#[export] Hint Resolve Zone_wr : wr.
Lemma Zone_rd o : Zone_ok o = true -> Zone_from (Zone_tree o) = Ok o.
Proof.
  intros H. destruct o as [? ? ? ? ? ? []]. unfold Zone_ok, Hatch_ok in H. cbn in H. facts0. unfold Zone_from, Zone_tree, Hatch_tree.
  rd_post Zone_step. match goal with Hst : ?st = Zone_step |- _ => rd_loop st Zone_step end.
Qed.
#[export] Hint Resolve Zone_rd : rd.
@rt Zone zone noto nord
Global Opaque Hatch_ok Hatch_norm Hatch_eqb Hatch_tree.
Local Transparent ZonePolygon_to FilledPolygon_to FillSegments_to Zone_to Zone_from Zone_ok Zone_tree Zone_norm Hatch_ok Hatch_norm Hatch_tree.
Lemma ZonePolygon_empty o i n : zp_coordinates o = [] -> write_read ZonePolygon_to ZonePolygon_from o i n = Err EIndex.
Proof. intros H. unfold write_read, ZonePolygon_to. rewrite H. cbn [length Nat.eqb bind]. now rewrite parse_blank. Qed.
Lemma FilledPolygon_empty o i n : zf_coordinates o = [] -> write_read FilledPolygon_to FilledPolygon_from o i n = Err EIndex.
Proof. intros H. unfold write_read, FilledPolygon_to. rewrite H. cbn [length Nat.eqb bind]. now rewrite parse_blank. Qed.
Lemma FillSegments_empty o i n : zs_coordinates o = [] -> write_read FillSegments_to FillSegments_from o i n = Err EIndex.
Proof. intros H. unfold write_read, FillSegments_to. rewrite H. cbn [length Nat.eqb bind]. now rewrite parse_blank. Qed.
Lemma Zone_no_layers o i n : zo_layers o = [] -> Zone_to o i n = Err EException.
Proof. intros H. unfold Zone_to. now rewrite H. Qed.
Lemma Zone_layers h before k1 k2 l1 l2 after :
  (k1 = "layer"%string \/ k1 = "layers"%string) -> (k2 = "layer"%string \/ k2 = "layers"%string) ->
  Zone_from (VList (h :: before ++ node k1 l1 :: node k2 l2 :: after)) = Zone_from (VList (h :: before ++ node "layers" (l1 ++ l2) :: after)).
Proof.
  intros H1 H2. unfold Zone_from, need_head, need_list. cbn [at_ nth_error bind].
  destruct (h =s "zone"); [|reflexivity]. cbn [bind negb].
  revert before. enough (K : forall before o, foldM Zone_step o (before ++ node k1 l1 :: node k2 l2 :: after) = foldM Zone_step o (before ++ node "layers" (l1 ++ l2) :: after)).
  { intros before. exact (K (h :: before) _). }
  intros before o. rewrite !foldM_app. destruct (foldM Zone_step o before) as [o1|]; [|reflexivity]. cbn [bind]. rewrite !foldM_cons.
  assert (E : forall k l o, (k = "layer"%string \/ k = "layers"%string) -> Zone_step o (node k l) = Ok (o <| zo_layers := zo_layers o ++ l |>)).
  { intros k l []  [-> | ->]; reflexivity. }
  rewrite (E k1), (E "layers"%string) by auto. cbn [bind]. rewrite !foldM_cons, (E k2) by auto. cbn. now rewrite app_assoc.
Qed.
Lemma ZonePolygon_to_empty o i n : Nat.eqb (length (zp_coordinates o)) 0 = true -> ZonePolygon_to o i n = Ok (spaces i ++ eol n).
Proof. intros H. unfold ZonePolygon_to. now rewrite H. Qed.
Lemma FilledPolygon_to_empty o i n : Nat.eqb (length (zf_coordinates o)) 0 = true -> FilledPolygon_to o i n = Ok (spaces i ++ eol n).
Proof. intros H. unfold FilledPolygon_to. now rewrite H. Qed.
Local Opaque ZonePolygon_to FilledPolygon_to FillSegments_to.
Lemma ZonePolygons_wr l i : forallb ZonePolygon_ok (filter (fun p => negb (Nat.eqb (length (zp_coordinates p)) 0)) l) = true ->
  Wr (concatM (fun p => ZonePolygon_to p i true) l) (flats (map ZonePolygon_tree (map ZonePolygon_norm (filter (fun p => negb (Nat.eqb (length (zp_coordinates p)) 0)) l)))).
Proof.
  induction l as [|x l IH]; cbn [filter concatM]; intros H; [apply Wr_nil|].
  destruct (Nat.eqb (length (zp_coordinates x)) 0) eqn:E; cbn [negb] in *.
  - destruct (IH H) as (s & Es & Hs). rewrite Es. rewrite (ZonePolygon_to_empty _ _ _ E). eapply Wr_eq; [wr_go|reflexivity].
  - cbn [forallb] in H. andbs. destruct (IH H0) as (s & Es & Hs). rewrite Es. eapply Wr_eq; [wr_go|]. cbn [map]. now rewrite flats_cons.
Qed.
Lemma FilledPolygons_wr l i : forallb FilledPolygon_ok (filter (fun p => negb (Nat.eqb (length (zf_coordinates p)) 0)) l) = true ->
  Wr (concatM (fun p => FilledPolygon_to p i true) l) (flats (map FilledPolygon_tree (map FilledPolygon_norm (filter (fun p => negb (Nat.eqb (length (zf_coordinates p)) 0)) l)))).
Proof.
  induction l as [|x l IH]; cbn [filter concatM]; intros H; [apply Wr_nil|].
  destruct (Nat.eqb (length (zf_coordinates x)) 0) eqn:E; cbn [negb] in *.
  - destruct (IH H) as (s & Es & Hs). rewrite Es. rewrite (FilledPolygon_to_empty _ _ _ E). eapply Wr_eq; [wr_go|reflexivity].
  - cbn [forallb] in H. andbs. destruct (IH H0) as (s & Es & Hs). rewrite Es. eapply Wr_eq; [wr_go|]. cbn [map]. now rewrite flats_cons.
Qed.
Lemma Zone_empty_polygons o i n :
  let o' := o <| zo_polygons := filter (fun p => negb (Nat.eqb (length (zp_coordinates p)) 0)) (zo_polygons o) |>
              <| zo_filledPolygons := filter (fun p => negb (Nat.eqb (length (zf_coordinates p)) 0)) (zo_filledPolygons o) |> in
  Zone_ok o' = true -> write_read Zone_to Zone_from o i n = Ok (Zone_norm o').
Proof.
  intros o' H. assert (W : Wr (Zone_to o i n) (flat (Zone_tree (Zone_norm o')))).
  { unfold Zone_ok, Hatch_ok in H. subst o'. cbn in H. facts.
    unfold Zone_to. destruct (ZonePolygons_wr _ (i + 2) ltac:(eassumption)) as (s1 & E1 & S1).
    destruct (FilledPolygons_wr _ (i + 2) ltac:(eassumption)) as (s2 & E2 & S2). rewrite E1, E2. clear E1 E2.
    eapply Wr_eq; [wr_go | unfold Zone_tree, Zone_norm, Hatch_tree, Hatch_norm; cbn; tpeel]. }
  unfold write_read. destruct W as (s & -> & S). cbn [bind]. rewrite (parse_seq s _ S). cbn [bind]. apply Zone_rd. now apply Zone_okn.
Qed.
