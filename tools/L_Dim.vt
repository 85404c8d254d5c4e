(** Round trip lemmas for items/dimensions.py. *)
From Verif Require Import PyBase PyNum PyStr Sexpr S_Leaf S_Tree M_Common S_Common M_Gr S_Gr M_Dim S_Dim L_Lex L_Tok L_Num L_Seq L_Tac L_Common L_Fp L_Gr L_Pad.

@rt DimensionFormat format
@rt DimensionStyle style
Lemma Seq_blank s k ts : Seq KC (32%N :: s) k ts -> Seq KQ (32%N :: s) k ts.
Proof. intros H rest Hr. destruct (H rest Hr) as [_ E]. split; [reflexivity|exact E]. Qed.
(** points on one line, each after a blank *)
Lemma xy_line l : forallb pos2_ok l = true -> Nat.eqb (length l) 0 = false ->
  exists s, concatM (fun p => Ok ($" (xy " ++ fmt (po_X p) ++ $" " ++ fmt (po_Y p) ++ $")")) l = Ok s
    /\ Nat.eqb (length s) 0 = false /\ Seq KQ s KC (flats (map (xy_tree "xy") (map Position_norm l))).
Proof.
  intros H E.
  assert (W : Wr (concatM (fun p => Ok ($" (xy " ++ fmt (po_X p) ++ $" " ++ fmt (po_Y p) ++ $")")) l) (flats (map (xy_tree "xy") (map Position_norm l)))).
  { eapply Wr_eq; [wr_go|tpeel]. }
  destruct W as (s & Es & Hs). exists s. split; [exact Es|]. destruct l as [|p l]; [discriminate|].
  cbn [concatM] in Es. destruct (concatM _ l); [|discriminate]. cbn [bind] in Es. injection Es as <-.
  split; [reflexivity|]. now apply Seq_blank.
Qed.
Lemma Dimension_wr o i n : Dimension_ok o = true -> Wr (Dimension_to o i n) (flat (Dimension_tree (Dimension_norm o))).
Proof.
  intros H. unfold Dimension_ok in H. facts. unfold Dimension_to.
  destruct (xy_line (di_pts o)) as (s & Es & Ns & Hs); [assumption..|]. apply (Seq_start KQ KW) in Hs; [|reflexivity].
  rewrite Es. cbn [bind]. rewrite Ns. eapply Wr_eq; [wr_go|unfold Dimension_tree, Dimension_norm; cbn; tpeel].
Qed.
#[export] Hint Resolve Dimension_wr : wr.
@rt Dimension dimension noto
Local Transparent Dimension_to.
Lemma Dimension_no_points o i n : di_pts o = [] -> Dimension_to o i n = Err EException.
Proof. intros H. unfold Dimension_to. now rewrite H. Qed.
Lemma Dimension_unlocked o b i n : Dimension_to (o <| di_locked := b |>) i n = Dimension_to o i n.
Proof. destruct o. reflexivity. Qed.
Lemma Dimension_tstamp_none o i n : di_tstamp o = VNone -> Dimension_to o i n = Dimension_to (o <| di_tstamp := VStr $"None" |>) i n.
Proof. intros H. destruct o. cbn in H. subst. reflexivity. Qed.
Local Opaque Dimension_to.
Lemma Dimension_locked o i n : Dimension_ok (o <| di_locked := false |>) = true ->
  write_read Dimension_to Dimension_from o i n = Ok (Dimension_norm (o <| di_locked := false |>)).
Proof. intros H. apply (rt_as _ _ _ _ _ o _ i n Dimension_rt); [|exact H]. now rewrite Dimension_unlocked. Qed.
Lemma Dimension_none o i n : di_tstamp o = VNone -> Dimension_ok (o <| di_tstamp := VStr $"None" |>) = true ->
  write_read Dimension_to Dimension_from o i n = Ok (Dimension_norm (o <| di_tstamp := VStr $"None" |>)).
Proof. intros E H. apply (rt_as _ _ _ _ _ o _ i n Dimension_rt); [|exact H]. now apply Dimension_tstamp_none. Qed.
