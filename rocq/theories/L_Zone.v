(** Round trip lemmas for items/zones.py. *)
From Verif Require Import PyBase PyNum PyStr Sexpr S_Leaf S_Tree M_Common S_Common M_Zone S_Zone L_Lex L_Tok L_Num L_Seq L_Tac L_Common L_Fp.

Lemma Seq_quoted_list l k : forallb txtb l = true -> Seq k (quoted_list l) (kmax k KQ) (flats l).
Proof.
  revert k. induction l as [|x l IH]; intros k H.
  - rewrite flats_nil. eapply Seq_weaken; [|apply Seq_nil]. now destruct k.
  - cbn [forallb] in H. andbs. cbn [quoted_list flat_map]. fold (quoted_list l). rewrite flats_cons, <- app_assoc.
    eapply Seq_weaken with (k1 := KQ); [now destruct k|].
    apply (Seq_app k $" " KC [] _ KQ (flat x ++ flats l)); [now apply Seq_lit; destruct k|].
    eapply Seq_app; [now apply Seq_quoted|]. exact (IH KQ H0).
Qed.
Global Arguments quoted_list : simpl never.
#[export] Hint Resolve Seq_quoted_list : wr.

Lemma KeepoutSettings_wr o i n : KeepoutSettings_ok o = true -> Wr (KeepoutSettings_to o i n) (flat (KeepoutSettings_tree (KeepoutSettings_norm o))).
Proof. wr KeepoutSettings_to KeepoutSettings_ok KeepoutSettings_tree KeepoutSettings_norm. Qed.
#[export] Hint Resolve KeepoutSettings_wr : wr.
Lemma KeepoutSettings_idem o : KeepoutSettings_norm (KeepoutSettings_norm o) = KeepoutSettings_norm o.
Proof. idem KeepoutSettings_norm. Qed.
#[export] Hint Rewrite KeepoutSettings_idem : idem.
Lemma KeepoutSettings_okn o : KeepoutSettings_ok o = true -> KeepoutSettings_ok (KeepoutSettings_norm o) = true.
Proof. okn KeepoutSettings_ok KeepoutSettings_norm. Qed.
#[export] Hint Resolve KeepoutSettings_okn : okn.
Lemma KeepoutSettings_hd o : exists l, KeepoutSettings_tree o = node "keepout" l.
Proof. eexists. reflexivity. Qed.
#[export] Hint Resolve KeepoutSettings_hd : hd.
Lemma KeepoutSettings_rd o : KeepoutSettings_ok o = true -> KeepoutSettings_from (KeepoutSettings_tree o) = Ok o.
Proof. rd KeepoutSettings_ok KeepoutSettings_from KeepoutSettings_tree KeepoutSettings_step. Qed.
#[export] Hint Resolve KeepoutSettings_rd : rd.
Lemma KeepoutSettings_same o : KeepoutSettings_eqb o (KeepoutSettings_norm o) = true.
Proof. same KeepoutSettings_eqb KeepoutSettings_norm. Qed.
#[export] Hint Resolve KeepoutSettings_same : same.
Lemma KeepoutSettings_rt : roundtrips KeepoutSettings_to KeepoutSettings_from KeepoutSettings_ok KeepoutSettings_norm KeepoutSettings_eqb.
Proof. exact (rt_of _ _ _ KeepoutSettings_tree _ _ KeepoutSettings_wr KeepoutSettings_rd KeepoutSettings_same KeepoutSettings_okn KeepoutSettings_idem). Qed.
Lemma KeepoutSettings_fmt : conforms KeepoutSettings_to KeepoutSettings_from KeepoutSettings_ok KeepoutSettings_norm KeepoutSettings_tree.
Proof. exact (fmt_of _ _ _ _ _ KeepoutSettings_wr KeepoutSettings_rd). Qed.
Lemma KeepoutSettings_ref : refuses KeepoutSettings_from ["keepout"%string].
Proof. refuse KeepoutSettings_from. Qed.
Lemma KeepoutSettings_ign : ignores KeepoutSettings_from 0 ["tracks"%string; "vias"%string; "pads"%string; "copperpour"%string; "footprints"%string].
Proof. ign KeepoutSettings_from KeepoutSettings_step O. Qed.
Lemma KeepoutSettings_win : last_wins KeepoutSettings_from 0 ["tracks"%string; "vias"%string; "pads"%string; "copperpour"%string; "footprints"%string].
Proof. wins KeepoutSettings_from KeepoutSettings_step O. Qed.
Global Opaque KeepoutSettings_from KeepoutSettings_tree KeepoutSettings_to KeepoutSettings_norm KeepoutSettings_ok KeepoutSettings_eqb.

Lemma FillSettings_wr o i n : FillSettings_ok o = true -> Wr (FillSettings_to o i n) (flat (FillSettings_tree (FillSettings_norm o))).
Proof. wr FillSettings_to FillSettings_ok FillSettings_tree FillSettings_norm. Qed.
#[export] Hint Resolve FillSettings_wr : wr.
Lemma FillSettings_idem o : FillSettings_norm (FillSettings_norm o) = FillSettings_norm o.
Proof. idem FillSettings_norm. Qed.
#[export] Hint Rewrite FillSettings_idem : idem.
Lemma FillSettings_okn o : FillSettings_ok o = true -> FillSettings_ok (FillSettings_norm o) = true.
Proof. okn FillSettings_ok FillSettings_norm. Qed.
#[export] Hint Resolve FillSettings_okn : okn.
Lemma FillSettings_hd o : exists l, FillSettings_tree o = node "fill" l.
Proof. eexists. reflexivity. Qed.
#[export] Hint Resolve FillSettings_hd : hd.
Lemma FillSettings_rd o : FillSettings_ok o = true -> FillSettings_from (FillSettings_tree o) = Ok o.
Proof. rd FillSettings_ok FillSettings_from FillSettings_tree FillSettings_step. Qed.
#[export] Hint Resolve FillSettings_rd : rd.
Lemma FillSettings_same o : FillSettings_eqb o (FillSettings_norm o) = true.
Proof. same FillSettings_eqb FillSettings_norm. Qed.
#[export] Hint Resolve FillSettings_same : same.
Lemma FillSettings_rt : roundtrips FillSettings_to FillSettings_from FillSettings_ok FillSettings_norm FillSettings_eqb.
Proof. exact (rt_of _ _ _ FillSettings_tree _ _ FillSettings_wr FillSettings_rd FillSettings_same FillSettings_okn FillSettings_idem). Qed.
Lemma FillSettings_fmt : conforms FillSettings_to FillSettings_from FillSettings_ok FillSettings_norm FillSettings_tree.
Proof. exact (fmt_of _ _ _ _ _ FillSettings_wr FillSettings_rd). Qed.
Lemma FillSettings_ref : refuses FillSettings_from ["fill"%string].
Proof. refuse FillSettings_from. Qed.
Lemma FillSettings_ign : ignores FillSettings_from 0 ["mode"%string; "thermal_gap"%string; "thermal_bridge_width"%string; "smoothing"%string; "radius"%string; "island_removal_mode"%string; "island_area_min"%string; "hatch_thickness"%string; "hatch_gap"%string; "hatch_orientation"%string; "hatch_smoothing_level"%string; "hatch_smoothing_value"%string; "hatch_border_algorithm"%string; "hatch_min_hole_area"%string].
Proof. ign FillSettings_from FillSettings_step O. Qed.
Lemma FillSettings_win : last_wins FillSettings_from 0 ["mode"%string; "thermal_gap"%string; "thermal_bridge_width"%string; "smoothing"%string; "radius"%string; "island_removal_mode"%string; "island_area_min"%string; "hatch_thickness"%string; "hatch_gap"%string; "hatch_orientation"%string; "hatch_smoothing_level"%string; "hatch_smoothing_value"%string; "hatch_border_algorithm"%string; "hatch_min_hole_area"%string].
Proof. wins FillSettings_from FillSettings_step O. Qed.
Global Opaque FillSettings_from FillSettings_tree FillSettings_to FillSettings_norm FillSettings_ok FillSettings_eqb.

Lemma ZonePolygon_wr o i n : ZonePolygon_ok o = true -> Wr (ZonePolygon_to o i n) (flat (ZonePolygon_tree (ZonePolygon_norm o))).
Proof.
  intros H. unfold ZonePolygon_ok in H. facts. unfold ZonePolygon_to. match goal with E : Nat.eqb _ _ = _ |- _ => rewrite E end.
  eapply Wr_eq; [wr_go|unfold ZonePolygon_tree, ZonePolygon_norm; cbn; tpeel].
Qed.
#[export] Hint Resolve ZonePolygon_wr : wr.
Lemma ZonePolygon_idem o : ZonePolygon_norm (ZonePolygon_norm o) = ZonePolygon_norm o.
Proof. idem ZonePolygon_norm. Qed.
#[export] Hint Rewrite ZonePolygon_idem : idem.
Lemma ZonePolygon_okn o : ZonePolygon_ok o = true -> ZonePolygon_ok (ZonePolygon_norm o) = true.
Proof. okn ZonePolygon_ok ZonePolygon_norm. Qed.
#[export] Hint Resolve ZonePolygon_okn : okn.
Lemma ZonePolygon_hd o : exists l, ZonePolygon_tree o = node "polygon" l.
Proof. eexists. reflexivity. Qed.
#[export] Hint Resolve ZonePolygon_hd : hd.
Lemma ZonePolygon_rd o : ZonePolygon_ok o = true -> ZonePolygon_from (ZonePolygon_tree o) = Ok o.
Proof. rd ZonePolygon_ok ZonePolygon_from ZonePolygon_tree ZonePolygon_step. Qed.
#[export] Hint Resolve ZonePolygon_rd : rd.
Lemma ZonePolygon_same o : ZonePolygon_eqb o (ZonePolygon_norm o) = true.
Proof. same ZonePolygon_eqb ZonePolygon_norm. Qed.
#[export] Hint Resolve ZonePolygon_same : same.
Lemma ZonePolygon_rt : roundtrips ZonePolygon_to ZonePolygon_from ZonePolygon_ok ZonePolygon_norm ZonePolygon_eqb.
Proof. exact (rt_of _ _ _ ZonePolygon_tree _ _ ZonePolygon_wr ZonePolygon_rd ZonePolygon_same ZonePolygon_okn ZonePolygon_idem). Qed.
Lemma ZonePolygon_fmt : conforms ZonePolygon_to ZonePolygon_from ZonePolygon_ok ZonePolygon_norm ZonePolygon_tree.
Proof. exact (fmt_of _ _ _ _ _ ZonePolygon_wr ZonePolygon_rd). Qed.
Lemma ZonePolygon_ref : refuses ZonePolygon_from ["polygon"%string].
Proof. refuse ZonePolygon_from. Qed.
Lemma ZonePolygon_ign : ignores ZonePolygon_from 0 ["pts"%string].
Proof. ign ZonePolygon_from ZonePolygon_step O. Qed.
Global Opaque ZonePolygon_from ZonePolygon_tree ZonePolygon_to ZonePolygon_norm ZonePolygon_ok ZonePolygon_eqb.

Lemma FilledPolygon_wr o i n : FilledPolygon_ok o = true -> Wr (FilledPolygon_to o i n) (flat (FilledPolygon_tree (FilledPolygon_norm o))).
Proof.
  intros H. unfold FilledPolygon_ok in H. facts. unfold FilledPolygon_to. match goal with E : Nat.eqb _ _ = _ |- _ => rewrite E end.
  eapply Wr_eq; [wr_go|unfold FilledPolygon_tree, FilledPolygon_norm; cbn; tpeel].
Qed.
#[export] Hint Resolve FilledPolygon_wr : wr.
Lemma FilledPolygon_idem o : FilledPolygon_norm (FilledPolygon_norm o) = FilledPolygon_norm o.
Proof. idem FilledPolygon_norm. Qed.
#[export] Hint Rewrite FilledPolygon_idem : idem.
Lemma FilledPolygon_okn o : FilledPolygon_ok o = true -> FilledPolygon_ok (FilledPolygon_norm o) = true.
Proof. okn FilledPolygon_ok FilledPolygon_norm. Qed.
#[export] Hint Resolve FilledPolygon_okn : okn.
Lemma FilledPolygon_hd o : exists l, FilledPolygon_tree o = node "filled_polygon" l.
Proof. eexists. reflexivity. Qed.
#[export] Hint Resolve FilledPolygon_hd : hd.
Lemma FilledPolygon_rd o : FilledPolygon_ok o = true -> FilledPolygon_from (FilledPolygon_tree o) = Ok o.
Proof. rd FilledPolygon_ok FilledPolygon_from FilledPolygon_tree FilledPolygon_step. Qed.
#[export] Hint Resolve FilledPolygon_rd : rd.
Lemma FilledPolygon_same o : FilledPolygon_eqb o (FilledPolygon_norm o) = true.
Proof. same FilledPolygon_eqb FilledPolygon_norm. Qed.
#[export] Hint Resolve FilledPolygon_same : same.
Lemma FilledPolygon_rt : roundtrips FilledPolygon_to FilledPolygon_from FilledPolygon_ok FilledPolygon_norm FilledPolygon_eqb.
Proof. exact (rt_of _ _ _ FilledPolygon_tree _ _ FilledPolygon_wr FilledPolygon_rd FilledPolygon_same FilledPolygon_okn FilledPolygon_idem). Qed.
Lemma FilledPolygon_fmt : conforms FilledPolygon_to FilledPolygon_from FilledPolygon_ok FilledPolygon_norm FilledPolygon_tree.
Proof. exact (fmt_of _ _ _ _ _ FilledPolygon_wr FilledPolygon_rd). Qed.
Lemma FilledPolygon_ref : refuses FilledPolygon_from ["filled_polygon"%string].
Proof. refuse FilledPolygon_from. Qed.
Lemma FilledPolygon_ign : ignores FilledPolygon_from 0 ["layer"%string; "island"%string; "pts"%string].
Proof. ign FilledPolygon_from FilledPolygon_step O. Qed.
Lemma FilledPolygon_win : last_wins FilledPolygon_from 0 ["layer"%string; "island"%string].
Proof. wins FilledPolygon_from FilledPolygon_step O. Qed.
Global Opaque FilledPolygon_from FilledPolygon_tree FilledPolygon_to FilledPolygon_norm FilledPolygon_ok FilledPolygon_eqb.

Lemma FillSegments_wr o i n : FillSegments_ok o = true -> Wr (FillSegments_to o i n) (flat (FillSegments_tree (FillSegments_norm o))).
Proof.
  intros H. unfold FillSegments_ok in H. facts. unfold FillSegments_to. match goal with E : Nat.eqb _ _ = _ |- _ => rewrite E end.
  eapply Wr_eq; [wr_go|unfold FillSegments_tree, FillSegments_norm; cbn; tpeel].
Qed.
#[export] Hint Resolve FillSegments_wr : wr.
Lemma FillSegments_idem o : FillSegments_norm (FillSegments_norm o) = FillSegments_norm o.
Proof. idem FillSegments_norm. Qed.
#[export] Hint Rewrite FillSegments_idem : idem.
Lemma FillSegments_okn o : FillSegments_ok o = true -> FillSegments_ok (FillSegments_norm o) = true.
Proof. okn FillSegments_ok FillSegments_norm. Qed.
#[export] Hint Resolve FillSegments_okn : okn.
Lemma FillSegments_hd o : exists l, FillSegments_tree o = node "fill_segments" l.
Proof. eexists. reflexivity. Qed.
#[export] Hint Resolve FillSegments_hd : hd.
Lemma FillSegments_rd o : FillSegments_ok o = true -> FillSegments_from (FillSegments_tree o) = Ok o.
Proof. rd FillSegments_ok FillSegments_from FillSegments_tree FillSegments_step. Qed.
#[export] Hint Resolve FillSegments_rd : rd.
Lemma FillSegments_same o : FillSegments_eqb o (FillSegments_norm o) = true.
Proof. same FillSegments_eqb FillSegments_norm. Qed.
#[export] Hint Resolve FillSegments_same : same.
Lemma FillSegments_rt : roundtrips FillSegments_to FillSegments_from FillSegments_ok FillSegments_norm FillSegments_eqb.
Proof. exact (rt_of _ _ _ FillSegments_tree _ _ FillSegments_wr FillSegments_rd FillSegments_same FillSegments_okn FillSegments_idem). Qed.
Lemma FillSegments_fmt : conforms FillSegments_to FillSegments_from FillSegments_ok FillSegments_norm FillSegments_tree.
Proof. exact (fmt_of _ _ _ _ _ FillSegments_wr FillSegments_rd). Qed.
Lemma FillSegments_ref : refuses FillSegments_from ["fill_segments"%string].
Proof. refuse FillSegments_from. Qed.
Lemma FillSegments_ign : ignores FillSegments_from 0 ["layer"%string; "pts"%string].
Proof. ign FillSegments_from FillSegments_step O. Qed.
Lemma FillSegments_win : last_wins FillSegments_from 0 ["layer"%string].
Proof. wins FillSegments_from FillSegments_step O. Qed.
Global Opaque FillSegments_from FillSegments_tree FillSegments_to FillSegments_norm FillSegments_ok FillSegments_eqb.


Lemma Zone_layer_token_wr l : forallb txtb l = true -> Nat.eqb (length l) 0 = false ->
  Wr (Zone_layer_token l) (flats (if one_layer l then [node "layer" l] else [node "layers" l])).
Proof.
  intros H E. unfold Zone_layer_token, one_layer, enumb. destruct l as [|x [|y l]]; [discriminate| |].
  - cbn [existsb]. rewrite orb_false_r, negb_orb. destruct (negb (x =s "F&B.Cu") && negb (x =s "*.Cu")); eapply Wr_eq; [wr_go|tpeel|wr_go|tpeel].
  - eapply Wr_eq; [wr_go|tpeel].
Qed.
#[export] Hint Resolve Zone_layer_token_wr : wr.
Lemma Hatch_idem o : Hatch_norm (Hatch_norm o) = Hatch_norm o.
Proof. idem Hatch_norm. Qed.
#[export] Hint Rewrite Hatch_idem : idem.
Lemma Hatch_okn o : Hatch_ok o = true -> Hatch_ok (Hatch_norm o) = true.
Proof. okn Hatch_ok Hatch_norm. Qed.
#[export] Hint Resolve Hatch_okn : okn.
Lemma Hatch_hd o : exists l, Hatch_tree o = node "hatch" l.
Proof. eexists. reflexivity. Qed.
#[export] Hint Resolve Hatch_hd : hd.
Lemma Hatch_same o : Hatch_eqb o (Hatch_norm o) = true.
Proof. same Hatch_eqb Hatch_norm. Qed.
#[export] Hint Resolve Hatch_same : same.

Lemma Zone_wr o i n : Zone_ok o = true -> Wr (Zone_to o i n) (flat (Zone_tree (Zone_norm o))).
Proof.
  intros H; unfold Zone_ok, Hatch_ok in H; facts. eapply Wr_eq; [unfold Zone_to; wr_go | unfold Zone_tree, Zone_norm, Hatch_tree, Hatch_norm; cbn; tpeel].
Qed.
#[export] Hint Resolve Zone_wr : wr.
Lemma Zone_rd o : Zone_ok o = true -> Zone_from (Zone_tree o) = Ok o.
Proof.
  intros H. destruct o as [? ? ? ? ? ? []]. unfold Zone_ok, Hatch_ok in H. cbn in H. facts0. unfold Zone_from, Zone_tree, Hatch_tree.
  rd_post Zone_step. match goal with Hst : ?st = Zone_step |- _ => rd_loop st Zone_step end.
Qed.
#[export] Hint Resolve Zone_rd : rd.
Lemma Zone_idem o : Zone_norm (Zone_norm o) = Zone_norm o.
Proof. idem Zone_norm. Qed.
#[export] Hint Rewrite Zone_idem : idem.
Lemma Zone_okn o : Zone_ok o = true -> Zone_ok (Zone_norm o) = true.
Proof. okn Zone_ok Zone_norm. Qed.
#[export] Hint Resolve Zone_okn : okn.
Lemma Zone_hd o : exists l, Zone_tree o = node "zone" l.
Proof. eexists. reflexivity. Qed.
#[export] Hint Resolve Zone_hd : hd.
Lemma Zone_same o : Zone_eqb o (Zone_norm o) = true.
Proof. same Zone_eqb Zone_norm. Qed.
#[export] Hint Resolve Zone_same : same.
Lemma Zone_rt : roundtrips Zone_to Zone_from Zone_ok Zone_norm Zone_eqb.
Proof. exact (rt_of _ _ _ Zone_tree _ _ Zone_wr Zone_rd Zone_same Zone_okn Zone_idem). Qed.
Lemma Zone_fmt : conforms Zone_to Zone_from Zone_ok Zone_norm Zone_tree.
Proof. exact (fmt_of _ _ _ _ _ Zone_wr Zone_rd). Qed.
Lemma Zone_ref : refuses Zone_from ["zone"%string].
Proof. refuse Zone_from. Qed.
Lemma Zone_ign : ignores Zone_from 0 ["net"%string; "net_name"%string; "layers"%string; "layer"%string; "tstamp"%string; "name"%string; "hatch"%string; "priority"%string; "connect_pads"%string; "min_thickness"%string; "filled_areas_thickness"%string; "keepout"%string; "fill"%string; "polygon"%string; "filled_polygon"%string; "fill_segments"%string].
Proof. ign Zone_from Zone_step O. Qed.
Lemma Zone_win : last_wins Zone_from 0 ["net"%string; "net_name"%string; "tstamp"%string; "name"%string; "hatch"%string; "priority"%string; "min_thickness"%string; "filled_areas_thickness"%string; "keepout"%string; "fill"%string; "fill_segments"%string].
Proof. wins Zone_from Zone_step O. Qed.
Global Opaque Zone_from Zone_tree Zone_to Zone_norm Zone_ok Zone_eqb.

Global Opaque Hatch_ok Hatch_norm Hatch_eqb Hatch_tree.
Local Transparent ZonePolygon_to FilledPolygon_to FillSegments_to Zone_to Zone_from Zone_ok Zone_tree Zone_norm Hatch_ok Hatch_norm Hatch_tree.
Lemma ZonePolygon_empty o i n : zp_coordinates o = [] -> write_read ZonePolygon_to ZonePolygon_from o i n = Err EIndex.
Proof. intros H. unfold write_read, ZonePolygon_to. rewrite H. cbn [length Nat.eqb bind]. now rewrite parse_blank. Qed.
Lemma FilledPolygon_empty o i n : zf_coordinates o = [] -> write_read FilledPolygon_to FilledPolygon_from o i n = Err EIndex.
Proof. intros H. unfold write_read, FilledPolygon_to. rewrite H. cbn [length Nat.eqb bind]. now rewrite parse_blank. Qed.
Lemma FillSegments_empty o i n : zs_coordinates o = [] -> write_read FillSegments_to FillSegments_from o i n = Err EIndex.
Proof. intros H. unfold write_read, FillSegments_to. rewrite H. cbn [length Nat.eqb bind]. now rewrite parse_blank. Qed.
Lemma Zone_no_layers o i n : zo_layers o = [] -> Zone_to o i n = Err EException.
Proof. intros H. unfold Zone_to. now rewrite H. Qed.
Lemma Zone_layers h before k1 k2 l1 l2 after :
  (k1 = "layer"%string \/ k1 = "layers"%string) -> (k2 = "layer"%string \/ k2 = "layers"%string) ->
  Zone_from (VList (h :: before ++ node k1 l1 :: node k2 l2 :: after)) = Zone_from (VList (h :: before ++ node "layers" (l1 ++ l2) :: after)).
Proof.
  intros H1 H2. unfold Zone_from, need_head, need_list. cbn [at_ nth_error bind].
  destruct (h =s "zone"); [|reflexivity]. cbn [bind negb].
  revert before. enough (K : forall before o, foldM Zone_step o (before ++ node k1 l1 :: node k2 l2 :: after) = foldM Zone_step o (before ++ node "layers" (l1 ++ l2) :: after)).
  { intros before. exact (K (h :: before) _). }
  intros before o. rewrite !foldM_app. destruct (foldM Zone_step o before) as [o1|]; [|reflexivity]. cbn [bind]. rewrite !foldM_cons.
  assert (E : forall k l o, (k = "layer"%string \/ k = "layers"%string) -> Zone_step o (node k l) = Ok (o <| zo_layers := zo_layers o ++ l |>)).
  { intros k l []  [-> | ->]; reflexivity. }
  rewrite (E k1), (E "layers"%string) by auto. cbn [bind]. rewrite !foldM_cons, (E k2) by auto. cbn. now rewrite app_assoc.
Qed.
Lemma ZonePolygon_to_empty o i n : Nat.eqb (length (zp_coordinates o)) 0 = true -> ZonePolygon_to o i n = Ok (spaces i ++ eol n).
Proof. intros H. unfold ZonePolygon_to. now rewrite H. Qed.
Lemma FilledPolygon_to_empty o i n : Nat.eqb (length (zf_coordinates o)) 0 = true -> FilledPolygon_to o i n = Ok (spaces i ++ eol n).
Proof. intros H. unfold FilledPolygon_to. now rewrite H. Qed.
Local Opaque ZonePolygon_to FilledPolygon_to FillSegments_to.
Lemma ZonePolygons_wr l i : forallb ZonePolygon_ok (filter (fun p => negb (Nat.eqb (length (zp_coordinates p)) 0)) l) = true ->
  Wr (concatM (fun p => ZonePolygon_to p i true) l) (flats (map ZonePolygon_tree (map ZonePolygon_norm (filter (fun p => negb (Nat.eqb (length (zp_coordinates p)) 0)) l)))).
Proof.
  induction l as [|x l IH]; cbn [filter concatM]; intros H; [apply Wr_nil|].
  destruct (Nat.eqb (length (zp_coordinates x)) 0) eqn:E; cbn [negb] in *.
  - destruct (IH H) as (s & Es & Hs). rewrite Es. rewrite (ZonePolygon_to_empty _ _ _ E). eapply Wr_eq; [wr_go|reflexivity].
  - cbn [forallb] in H. andbs. destruct (IH H0) as (s & Es & Hs). rewrite Es. eapply Wr_eq; [wr_go|]. cbn [map]. now rewrite flats_cons.
Qed.
Lemma FilledPolygons_wr l i : forallb FilledPolygon_ok (filter (fun p => negb (Nat.eqb (length (zf_coordinates p)) 0)) l) = true ->
  Wr (concatM (fun p => FilledPolygon_to p i true) l) (flats (map FilledPolygon_tree (map FilledPolygon_norm (filter (fun p => negb (Nat.eqb (length (zf_coordinates p)) 0)) l)))).
Proof.
  induction l as [|x l IH]; cbn [filter concatM]; intros H; [apply Wr_nil|].
  destruct (Nat.eqb (length (zf_coordinates x)) 0) eqn:E; cbn [negb] in *.
  - destruct (IH H) as (s & Es & Hs). rewrite Es. rewrite (FilledPolygon_to_empty _ _ _ E). eapply Wr_eq; [wr_go|reflexivity].
  - cbn [forallb] in H. andbs. destruct (IH H0) as (s & Es & Hs). rewrite Es. eapply Wr_eq; [wr_go|]. cbn [map]. now rewrite flats_cons.
Qed.
Lemma Zone_empty_polygons o i n :
  let o' := o <| zo_polygons := filter (fun p => negb (Nat.eqb (length (zp_coordinates p)) 0)) (zo_polygons o) |>
              <| zo_filledPolygons := filter (fun p => negb (Nat.eqb (length (zf_coordinates p)) 0)) (zo_filledPolygons o) |> in
  Zone_ok o' = true -> write_read Zone_to Zone_from o i n = Ok (Zone_norm o').
Proof.
  intros o' H. assert (W : Wr (Zone_to o i n) (flat (Zone_tree (Zone_norm o')))).
  { unfold Zone_ok, Hatch_ok in H. subst o'. cbn in H. facts.
    unfold Zone_to. destruct (ZonePolygons_wr _ (i + 2) ltac:(eassumption)) as (s1 & E1 & S1).
    destruct (FilledPolygons_wr _ (i + 2) ltac:(eassumption)) as (s2 & E2 & S2). rewrite E1, E2. clear E1 E2.
    eapply Wr_eq; [wr_go | unfold Zone_tree, Zone_norm, Hatch_tree, Hatch_norm; cbn; tpeel]. }
  unfold write_read. destruct W as (s & -> & S). cbn [bind]. rewrite (parse_seq s _ S). cbn [bind]. apply Zone_rd. now apply Zone_okn.
Qed.
