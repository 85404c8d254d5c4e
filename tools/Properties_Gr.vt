(** Property theorems C19: board graphics (items/gritems.py). *)
From Verif Require Import PyBase PyNum PyStr Sexpr S_Leaf S_Tree M_Common S_Common M_Fp S_Fp M_Gr S_Gr L_Lex L_Num L_Seq L_Tac L_Fp L_Gr Properties_Common Properties_Fp.

@prop C19 GrText mkGrText (VStr $"a ""(b)"" \ c") true (mkPosition (VInt 1) (fdec 25 (-1)) (VInt 90) false) (VStr $"F.SilkS") ex_effects ex_stamp false (Some ex_cache)
@prop C19 GrTextBox mkGrTextBox true (VStr $"locked") None None ex_pts (fdec 455 (-1)) (VStr $"F.Fab") ex_stamp (Some ex_effects) (Some ex_stroke) (Some ex_cache)
@prop C19 GrLine mkGrLine (ex_xy (VInt 2) (VInt 3)) (ex_xy (VInt 2) (fdec 1 (-3))) VNone (VStr $"F.Fab") (VInt 1) ex_stamp true
@prop C19 GrRect mkGrRect (ex_xy (VInt 2) (VInt 3)) (ex_xy (VInt 2) (fdec 1 (-3))) (VStr $"F.Fab") (fdec 15 (-2)) (VStr $"solid") ex_stamp true
@prop C19 GrCircle mkGrCircle (ex_xy (VInt 2) (VInt 3)) (ex_xy (VInt 2) (fdec 1 (-3))) (VStr $"F.Fab") (fdec 15 (-2)) (VStr $"solid") ex_stamp true
@prop C19 GrArc mkGrArc (ex_xy (VInt 2) (VInt 3)) (ex_xy (VInt 5) (VInt 3)) (ex_xy (VInt 2) (fdec 1 (-3))) (VStr $"F.Fab") (fdec 15 (-2)) ex_stamp true
@prop C19 GrPoly mkGrPoly (VStr $"F.Fab") ex_pts (fdec 15 (-2)) (VStr $"solid") ex_stamp true
@prop C19 GrCurve mkGrCurve ex_pts VNone (fdec 15 (-2)) ex_stamp true
(** The polygon is written in two layouts. *)
Theorem C19_GrPoly_pts_newline : forall b, roundtrips (GrPoly_to_pts b) GrPoly_from GrPoly_ok GrPoly_norm GrPoly_eqb
  /\ conforms (GrPoly_to_pts b) GrPoly_from GrPoly_ok GrPoly_norm GrPoly_tree.
Proof.
  intros b. split; [exact (rt_of _ _ _ _ _ _ (GrPoly_wr_pts b) GrPoly_rd GrPoly_same GrPoly_okn GrPoly_idem)
                   |exact (fmt_of _ _ _ _ _ (GrPoly_wr_pts b) GrPoly_rd)].
Qed.
Print Assumptions C19_GrPoly_pts_newline.

(** ** What is lost or corrupted *)
(** A locked text is written as [(gr_text locked "text" ..)], but the reader takes the first
    argument as the text: every locked text comes back as the text "locked". *)
Theorem C19_GrText_locked_refuted : forall o indent newline,
  GrText_ok (o <| gt_locked := false |>) = true -> gt_locked o = true ->
  write_read GrText_to GrText_from o indent newline
  = Ok (GrText_norm o <| gt_text := VStr $"locked" |> <| gt_locked := gt_text o =s "locked" |>).
Proof. exact GrText_locked. Qed.
Print Assumptions C19_GrText_locked_refuted.
(** A line with an angle writes an unbalanced text, whatever the angle. *)
Theorem C19_GrLine_angle_refuted : forall o indent newline,
  GrLine_ok (o <| gl_angle := VNone |>) = true -> numb (gl_angle o) = true ->
  write_read GrLine_to GrLine_from o indent newline = Err EAssertion.
Proof. intros o i n H Ha. unfold write_read. destruct (GrLine_open o i n H Ha) as (s & -> & E). cbn [bind]. now rewrite E. Qed.
Print Assumptions C19_GrLine_angle_refuted.
Example C19_GrLine_angle_ex : let o := GrLine_default <| gl_angle := VInt 45 |> in
  GrLine_ok (o <| gl_angle := VNone |>) = true /\ numb (gl_angle o) = true.
Proof. split; vm_compute; reflexivity. Qed.
(** An angle in the text of a line is not read. *)
Theorem C19_GrLine_angle_ignored : forall h before a after,
  GrLine_from (VList (h :: before ++ node "angle" [a] :: after)) = GrLine_from (VList (h :: before ++ after)).
Proof. intros h b a c. apply (C28_GrLine h b); [apply Nat.le_0_l|reflexivity]. Qed.
Print Assumptions C19_GrLine_angle_ignored.
(** The stroke of KiCad 7 is not read by any of the shapes: the width keeps its default. *)
Theorem C19_stroke_ignored_refuted : forall h before args after,
  let e := VList (h :: before ++ node "stroke" args :: after) in let e' := VList (h :: before ++ after) in
  GrLine_from e = GrLine_from e' /\ GrRect_from e = GrRect_from e' /\ GrCircle_from e = GrCircle_from e'
  /\ GrArc_from e = GrArc_from e' /\ GrPoly_from e = GrPoly_from e' /\ GrCurve_from e = GrCurve_from e'.
Proof.
  intros h b a c. repeat split;
    [apply (C28_GrLine h b)|apply (C28_GrRect h b)|apply (C28_GrCircle h b)|apply (C28_GrArc h b)|apply (C28_GrPoly h b)|apply (C28_GrCurve h b)];
    solve [apply Nat.le_0_l|reflexivity].
Qed.
Print Assumptions C19_stroke_ignored_refuted.
(** A missing width is written as the word None. *)
Theorem C19_width_none_refuted :
  write_read GrLine_to GrLine_from (GrLine_default <| gl_width := VNone |>) 2 true = Ok (GrLine_norm (GrLine_default <| gl_width := VStr $"None" |>)).
Proof. vm_compute. reflexivity. Qed.
Print Assumptions C19_width_none_refuted.
(** The [knockout] flag is lost without a layer. *)
Theorem C19_GrText_knockout_refuted : forall o indent newline, is_none (gt_layer o) = true ->
  GrText_ok (o <| gt_knockout := false |>) = true ->
  write_read GrText_to GrText_from o indent newline = Ok (GrText_norm (o <| gt_knockout := false |>)).
Proof. exact GrText_knockout. Qed.
Print Assumptions C19_GrText_knockout_refuted.
Theorem C19_GrPoly_empty_refuted : forall o indent newline, gp_coordinates o = [] ->
  write_read GrPoly_to GrPoly_from o indent newline = Err EIndex.
Proof. exact GrPoly_empty. Qed.
Print Assumptions C19_GrPoly_empty_refuted.
Theorem C19_GrCurve_empty_refuted : forall o indent newline, gv_coordinates o = [] ->
  write_read GrCurve_to GrCurve_from o indent newline = Err EIndex.
Proof. exact GrCurve_empty. Qed.
Print Assumptions C19_GrCurve_empty_refuted.
Theorem C19_GrTextBox_refused : forall o indent newline, optb numb (gb_angle o) = true ->
  (if is_none (gb_angle o) || right_angle (gb_angle o) then gb_start o = None \/ gb_end o = None else length (gb_pts o) <> 4) ->
  GrTextBox_to o indent newline = Err EException.
Proof. exact GrTextBox_refused. Qed.
Print Assumptions C19_GrTextBox_refused.
