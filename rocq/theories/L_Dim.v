(** Round trip lemmas for items/dimensions.py. *)
From Verif Require Import PyBase PyNum PyStr Sexpr S_Leaf S_Tree M_Common S_Common M_Gr S_Gr M_Dim S_Dim L_Lex L_Tok L_Num L_Seq L_Tac L_Common L_Fp L_Gr L_Pad.

Lemma DimensionFormat_wr o i n : DimensionFormat_ok o = true -> Wr (DimensionFormat_to o i n) (flat (DimensionFormat_tree (DimensionFormat_norm o))).
Proof. wr DimensionFormat_to DimensionFormat_ok DimensionFormat_tree DimensionFormat_norm. Qed.
#[export] Hint Resolve DimensionFormat_wr : wr.
Lemma DimensionFormat_idem o : DimensionFormat_norm (DimensionFormat_norm o) = DimensionFormat_norm o.
Proof. idem DimensionFormat_norm. Qed.
#[export] Hint Rewrite DimensionFormat_idem : idem.
Lemma DimensionFormat_okn o : DimensionFormat_ok o = true -> DimensionFormat_ok (DimensionFormat_norm o) = true.
Proof. okn DimensionFormat_ok DimensionFormat_norm. Qed.
#[export] Hint Resolve DimensionFormat_okn : okn.
Lemma DimensionFormat_hd o : exists l, DimensionFormat_tree o = node "format" l.
Proof. eexists. reflexivity. Qed.
#[export] Hint Resolve DimensionFormat_hd : hd.
Lemma DimensionFormat_rd o : DimensionFormat_ok o = true -> DimensionFormat_from (DimensionFormat_tree o) = Ok o.
Proof. rd DimensionFormat_ok DimensionFormat_from DimensionFormat_tree DimensionFormat_step. Qed.
#[export] Hint Resolve DimensionFormat_rd : rd.
Lemma DimensionFormat_same o : DimensionFormat_eqb o (DimensionFormat_norm o) = true.
Proof. same DimensionFormat_eqb DimensionFormat_norm. Qed.
#[export] Hint Resolve DimensionFormat_same : same.
Lemma DimensionFormat_rt : roundtrips DimensionFormat_to DimensionFormat_from DimensionFormat_ok DimensionFormat_norm DimensionFormat_eqb.
Proof. exact (rt_of _ _ _ DimensionFormat_tree _ _ DimensionFormat_wr DimensionFormat_rd DimensionFormat_same DimensionFormat_okn DimensionFormat_idem). Qed.
Lemma DimensionFormat_fmt : conforms DimensionFormat_to DimensionFormat_from DimensionFormat_ok DimensionFormat_norm DimensionFormat_tree.
Proof. exact (fmt_of _ _ _ _ _ DimensionFormat_wr DimensionFormat_rd). Qed.
Lemma DimensionFormat_ref : refuses DimensionFormat_from ["format"%string].
Proof. refuse DimensionFormat_from. Qed.
Lemma DimensionFormat_ign : ignores DimensionFormat_from 0 ["prefix"%string; "suffix"%string; "units"%string; "units_format"%string; "precision"%string; "override_value"%string].
Proof. ign DimensionFormat_from DimensionFormat_step O. Qed.
Lemma DimensionFormat_win : last_wins DimensionFormat_from 0 ["prefix"%string; "suffix"%string; "units"%string; "units_format"%string; "precision"%string; "override_value"%string].
Proof. wins DimensionFormat_from DimensionFormat_step O. Qed.
Global Opaque DimensionFormat_from DimensionFormat_tree DimensionFormat_to DimensionFormat_norm DimensionFormat_ok DimensionFormat_eqb.

Lemma DimensionStyle_wr o i n : DimensionStyle_ok o = true -> Wr (DimensionStyle_to o i n) (flat (DimensionStyle_tree (DimensionStyle_norm o))).
Proof. wr DimensionStyle_to DimensionStyle_ok DimensionStyle_tree DimensionStyle_norm. Qed.
#[export] Hint Resolve DimensionStyle_wr : wr.
Lemma DimensionStyle_idem o : DimensionStyle_norm (DimensionStyle_norm o) = DimensionStyle_norm o.
Proof. idem DimensionStyle_norm. Qed.
#[export] Hint Rewrite DimensionStyle_idem : idem.
Lemma DimensionStyle_okn o : DimensionStyle_ok o = true -> DimensionStyle_ok (DimensionStyle_norm o) = true.
Proof. okn DimensionStyle_ok DimensionStyle_norm. Qed.
#[export] Hint Resolve DimensionStyle_okn : okn.
Lemma DimensionStyle_hd o : exists l, DimensionStyle_tree o = node "style" l.
Proof. eexists. reflexivity. Qed.
#[export] Hint Resolve DimensionStyle_hd : hd.
Lemma DimensionStyle_rd o : DimensionStyle_ok o = true -> DimensionStyle_from (DimensionStyle_tree o) = Ok o.
Proof. rd DimensionStyle_ok DimensionStyle_from DimensionStyle_tree DimensionStyle_step. Qed.
#[export] Hint Resolve DimensionStyle_rd : rd.
Lemma DimensionStyle_same o : DimensionStyle_eqb o (DimensionStyle_norm o) = true.
Proof. same DimensionStyle_eqb DimensionStyle_norm. Qed.
#[export] Hint Resolve DimensionStyle_same : same.
Lemma DimensionStyle_rt : roundtrips DimensionStyle_to DimensionStyle_from DimensionStyle_ok DimensionStyle_norm DimensionStyle_eqb.
Proof. exact (rt_of _ _ _ DimensionStyle_tree _ _ DimensionStyle_wr DimensionStyle_rd DimensionStyle_same DimensionStyle_okn DimensionStyle_idem). Qed.
Lemma DimensionStyle_fmt : conforms DimensionStyle_to DimensionStyle_from DimensionStyle_ok DimensionStyle_norm DimensionStyle_tree.
Proof. exact (fmt_of _ _ _ _ _ DimensionStyle_wr DimensionStyle_rd). Qed.
Lemma DimensionStyle_ref : refuses DimensionStyle_from ["style"%string].
Proof. refuse DimensionStyle_from. Qed.
Lemma DimensionStyle_ign : ignores DimensionStyle_from 0 ["thickness"%string; "arrow_length"%string; "text_position_mode"%string; "extension_height"%string; "text_frame"%string; "extension_offset"%string].
Proof. ign DimensionStyle_from DimensionStyle_step O. Qed.
Lemma DimensionStyle_win : last_wins DimensionStyle_from 0 ["thickness"%string; "arrow_length"%string; "text_position_mode"%string; "extension_height"%string; "text_frame"%string; "extension_offset"%string].
Proof. wins DimensionStyle_from DimensionStyle_step O. Qed.
Global Opaque DimensionStyle_from DimensionStyle_tree DimensionStyle_to DimensionStyle_norm DimensionStyle_ok DimensionStyle_eqb.

Lemma Seq_blank s k ts : Seq KC (32%N :: s) k ts -> Seq KQ (32%N :: s) k ts.
Proof. intros H rest Hr. destruct (H rest Hr) as [_ E]. split; [reflexivity|exact E]. Qed.
(** points on one line, each after a blank *)
Lemma xy_line l : forallb pos2_ok l = true -> Nat.eqb (length l) 0 = false ->
  exists s, concatM (fun p => Ok ($" (xy " ++ fmt (po_X p) ++ $" " ++ fmt (po_Y p) ++ $")")) l = Ok s
    /\ Nat.eqb (length s) 0 = false /\ Seq KQ s KC (flats (map (xy_tree "xy") (map Position_norm l))).
Proof.
  intros H E.
  assert (W : Wr (concatM (fun p => Ok ($" (xy " ++ fmt (po_X p) ++ $" " ++ fmt (po_Y p) ++ $")")) l) (flats (map (xy_tree "xy") (map Position_norm l)))).
  { eapply Wr_eq; [wr_go|tpeel]. }
  destruct W as (s & Es & Hs). exists s. split; [exact Es|]. destruct l as [|p l]; [discriminate|].
  cbn [concatM] in Es. destruct (concatM _ l); [|discriminate]. cbn [bind] in Es. injection Es as <-.
  split; [reflexivity|]. now apply Seq_blank.
Qed.
Lemma Dimension_wr o i n : Dimension_ok o = true -> Wr (Dimension_to o i n) (flat (Dimension_tree (Dimension_norm o))).
Proof.
  intros H. unfold Dimension_ok in H. facts. unfold Dimension_to.
  destruct (xy_line (di_pts o)) as (s & Es & Ns & Hs); [assumption..|]. apply (Seq_start KQ KW) in Hs; [|reflexivity].
  rewrite Es. cbn [bind]. rewrite Ns. eapply Wr_eq; [wr_go|unfold Dimension_tree, Dimension_norm; cbn; tpeel].
Qed.
#[export] Hint Resolve Dimension_wr : wr.
Lemma Dimension_idem o : Dimension_norm (Dimension_norm o) = Dimension_norm o.
Proof. idem Dimension_norm. Qed.
#[export] Hint Rewrite Dimension_idem : idem.
Lemma Dimension_okn o : Dimension_ok o = true -> Dimension_ok (Dimension_norm o) = true.
Proof. okn Dimension_ok Dimension_norm. Qed.
#[export] Hint Resolve Dimension_okn : okn.
Lemma Dimension_hd o : exists l, Dimension_tree o = node "dimension" l.
Proof. eexists. reflexivity. Qed.
#[export] Hint Resolve Dimension_hd : hd.
Lemma Dimension_rd o : Dimension_ok o = true -> Dimension_from (Dimension_tree o) = Ok o.
Proof. rd Dimension_ok Dimension_from Dimension_tree Dimension_step. Qed.
#[export] Hint Resolve Dimension_rd : rd.
Lemma Dimension_same o : Dimension_eqb o (Dimension_norm o) = true.
Proof. same Dimension_eqb Dimension_norm. Qed.
#[export] Hint Resolve Dimension_same : same.
Lemma Dimension_rt : roundtrips Dimension_to Dimension_from Dimension_ok Dimension_norm Dimension_eqb.
Proof. exact (rt_of _ _ _ Dimension_tree _ _ Dimension_wr Dimension_rd Dimension_same Dimension_okn Dimension_idem). Qed.
Lemma Dimension_fmt : conforms Dimension_to Dimension_from Dimension_ok Dimension_norm Dimension_tree.
Proof. exact (fmt_of _ _ _ _ _ Dimension_wr Dimension_rd). Qed.
Lemma Dimension_ref : refuses Dimension_from ["dimension"%string].
Proof. refuse Dimension_from. Qed.
Lemma Dimension_ign : ignores Dimension_from 0 ["type"%string; "layer"%string; "tstamp"%string; "height"%string; "orientation"%string; "leader_length"%string; "gr_text"%string; "format"%string; "style"%string; "pts"%string].
Proof. ign Dimension_from Dimension_step O. Qed.
Lemma Dimension_win : last_wins Dimension_from 0 ["type"%string; "layer"%string; "tstamp"%string; "height"%string; "orientation"%string; "leader_length"%string; "gr_text"%string; "format"%string; "style"%string].
Proof. wins Dimension_from Dimension_step O. Qed.
Global Opaque Dimension_from Dimension_tree Dimension_to Dimension_norm Dimension_ok Dimension_eqb.

Local Transparent Dimension_to.
Lemma Dimension_no_points o i n : di_pts o = [] -> Dimension_to o i n = Err EException.
Proof. intros H. unfold Dimension_to. now rewrite H. Qed.
Lemma Dimension_unlocked o b i n : Dimension_to (o <| di_locked := b |>) i n = Dimension_to o i n.
Proof. destruct o. reflexivity. Qed.
Lemma Dimension_tstamp_none o i n : di_tstamp o = VNone -> Dimension_to o i n = Dimension_to (o <| di_tstamp := VStr $"None" |>) i n.
Proof. intros H. destruct o. cbn in H. subst. reflexivity. Qed.
Local Opaque Dimension_to.
Lemma Dimension_locked o i n : Dimension_ok (o <| di_locked := false |>) = true ->
  write_read Dimension_to Dimension_from o i n = Ok (Dimension_norm (o <| di_locked := false |>)).
Proof. intros H. apply (rt_as _ _ _ _ _ o _ i n Dimension_rt); [|exact H]. now rewrite Dimension_unlocked. Qed.
Lemma Dimension_none o i n : di_tstamp o = VNone -> Dimension_ok (o <| di_tstamp := VStr $"None" |>) = true ->
  write_read Dimension_to Dimension_from o i n = Ok (Dimension_norm (o <| di_tstamp := VStr $"None" |>)).
Proof. intros E H. apply (rt_as _ _ _ _ _ o _ i n Dimension_rt); [|exact H]. now apply Dimension_tstamp_none. Qed.
