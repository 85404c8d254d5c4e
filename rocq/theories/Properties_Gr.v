(** Property theorems C19: board graphics (items/gritems.py). *)
From Verif Require Import PyBase PyNum PyStr Sexpr S_Leaf S_Tree M_Common S_Common M_Fp S_Fp M_Gr S_Gr L_Lex L_Num L_Seq L_Tac L_Fp L_Gr Properties_Common Properties_Fp.

Theorem C19_GrText : roundtrips GrText_to GrText_from GrText_ok GrText_norm GrText_eqb.
Proof. exact GrText_rt. Qed.
Print Assumptions C19_GrText.
Theorem C36_GrText : conforms GrText_to GrText_from GrText_ok GrText_norm GrText_tree.
Proof. exact GrText_fmt. Qed.
Print Assumptions C36_GrText.
Theorem C27_GrText : refuses GrText_from ["gr_text"%string].
Proof. exact GrText_ref. Qed.
Print Assumptions C27_GrText.
Theorem C28_GrText : ignores GrText_from 1 ["at"%string; "layer"%string; "effects"%string; "tstamp"%string; "render_cache"%string].
Proof. exact GrText_ign. Qed.
Print Assumptions C28_GrText.
Theorem C30_GrText : last_wins GrText_from 1 ["at"%string; "effects"%string; "tstamp"%string; "render_cache"%string].
Proof. exact GrText_win. Qed.
Print Assumptions C30_GrText.
Example C19_GrText_ex : GrText_ok (mkGrText (VStr $"a ""(b)"" \ c") true (mkPosition (VInt 1) (fdec 25 (-1)) (VInt 90) false) (VStr $"F.SilkS") ex_effects ex_stamp false (Some ex_cache)) = true.
Proof. vm_compute. reflexivity. Qed.

Theorem C19_GrTextBox : roundtrips GrTextBox_to GrTextBox_from GrTextBox_ok GrTextBox_norm GrTextBox_eqb.
Proof. exact GrTextBox_rt. Qed.
Print Assumptions C19_GrTextBox.
Theorem C36_GrTextBox : conforms GrTextBox_to GrTextBox_from GrTextBox_ok GrTextBox_norm GrTextBox_tree.
Proof. exact GrTextBox_fmt. Qed.
Print Assumptions C36_GrTextBox.
Theorem C27_GrTextBox : refuses GrTextBox_from ["gr_text_box"%string].
Proof. exact GrTextBox_ref. Qed.
Print Assumptions C27_GrTextBox.
Theorem C28_GrTextBox : ignores GrTextBox_from 2 ["start"%string; "end"%string; "pts"%string; "angle"%string; "layer"%string; "tstamp"%string; "effects"%string; "stroke"%string; "render_cache"%string].
Proof. exact GrTextBox_ign. Qed.
Print Assumptions C28_GrTextBox.
Theorem C30_GrTextBox : last_wins GrTextBox_from 2 ["start"%string; "end"%string; "angle"%string; "layer"%string; "tstamp"%string; "effects"%string; "stroke"%string; "render_cache"%string].
Proof. exact GrTextBox_win. Qed.
Print Assumptions C30_GrTextBox.
Example C19_GrTextBox_ex : GrTextBox_ok (mkGrTextBox true (VStr $"locked") None None ex_pts (fdec 455 (-1)) (VStr $"F.Fab") ex_stamp (Some ex_effects) (Some ex_stroke) (Some ex_cache)) = true.
Proof. vm_compute. reflexivity. Qed.

Theorem C19_GrLine : roundtrips GrLine_to GrLine_from GrLine_ok GrLine_norm GrLine_eqb.
Proof. exact GrLine_rt. Qed.
Print Assumptions C19_GrLine.
Theorem C36_GrLine : conforms GrLine_to GrLine_from GrLine_ok GrLine_norm GrLine_tree.
Proof. exact GrLine_fmt. Qed.
Print Assumptions C36_GrLine.
Theorem C27_GrLine : refuses GrLine_from ["gr_line"%string].
Proof. exact GrLine_ref. Qed.
Print Assumptions C27_GrLine.
Theorem C28_GrLine : ignores GrLine_from 0 ["start"%string; "end"%string; "layer"%string; "tstamp"%string; "width"%string].
Proof. exact GrLine_ign. Qed.
Print Assumptions C28_GrLine.
Theorem C30_GrLine : last_wins GrLine_from 0 ["start"%string; "end"%string; "layer"%string; "tstamp"%string; "width"%string].
Proof. exact GrLine_win. Qed.
Print Assumptions C30_GrLine.
Example C19_GrLine_ex : GrLine_ok (mkGrLine (ex_xy (VInt 2) (VInt 3)) (ex_xy (VInt 2) (fdec 1 (-3))) VNone (VStr $"F.Fab") (VInt 1) ex_stamp true) = true.
Proof. vm_compute. reflexivity. Qed.

Theorem C19_GrRect : roundtrips GrRect_to GrRect_from GrRect_ok GrRect_norm GrRect_eqb.
Proof. exact GrRect_rt. Qed.
Print Assumptions C19_GrRect.
Theorem C36_GrRect : conforms GrRect_to GrRect_from GrRect_ok GrRect_norm GrRect_tree.
Proof. exact GrRect_fmt. Qed.
Print Assumptions C36_GrRect.
Theorem C27_GrRect : refuses GrRect_from ["gr_rect"%string].
Proof. exact GrRect_ref. Qed.
Print Assumptions C27_GrRect.
Theorem C28_GrRect : ignores GrRect_from 0 ["start"%string; "end"%string; "layer"%string; "tstamp"%string; "fill"%string; "width"%string].
Proof. exact GrRect_ign. Qed.
Print Assumptions C28_GrRect.
Theorem C30_GrRect : last_wins GrRect_from 0 ["start"%string; "end"%string; "layer"%string; "tstamp"%string; "fill"%string; "width"%string].
Proof. exact GrRect_win. Qed.
Print Assumptions C30_GrRect.
Example C19_GrRect_ex : GrRect_ok (mkGrRect (ex_xy (VInt 2) (VInt 3)) (ex_xy (VInt 2) (fdec 1 (-3))) (VStr $"F.Fab") (fdec 15 (-2)) (VStr $"solid") ex_stamp true) = true.
Proof. vm_compute. reflexivity. Qed.

Theorem C19_GrCircle : roundtrips GrCircle_to GrCircle_from GrCircle_ok GrCircle_norm GrCircle_eqb.
Proof. exact GrCircle_rt. Qed.
Print Assumptions C19_GrCircle.
Theorem C36_GrCircle : conforms GrCircle_to GrCircle_from GrCircle_ok GrCircle_norm GrCircle_tree.
Proof. exact GrCircle_fmt. Qed.
Print Assumptions C36_GrCircle.
Theorem C27_GrCircle : refuses GrCircle_from ["gr_circle"%string].
Proof. exact GrCircle_ref. Qed.
Print Assumptions C27_GrCircle.
Theorem C28_GrCircle : ignores GrCircle_from 0 ["center"%string; "end"%string; "layer"%string; "tstamp"%string; "fill"%string; "width"%string].
Proof. exact GrCircle_ign. Qed.
Print Assumptions C28_GrCircle.
Theorem C30_GrCircle : last_wins GrCircle_from 0 ["center"%string; "end"%string; "layer"%string; "tstamp"%string; "fill"%string; "width"%string].
Proof. exact GrCircle_win. Qed.
Print Assumptions C30_GrCircle.
Example C19_GrCircle_ex : GrCircle_ok (mkGrCircle (ex_xy (VInt 2) (VInt 3)) (ex_xy (VInt 2) (fdec 1 (-3))) (VStr $"F.Fab") (fdec 15 (-2)) (VStr $"solid") ex_stamp true) = true.
Proof. vm_compute. reflexivity. Qed.

Theorem C19_GrArc : roundtrips GrArc_to GrArc_from GrArc_ok GrArc_norm GrArc_eqb.
Proof. exact GrArc_rt. Qed.
Print Assumptions C19_GrArc.
Theorem C36_GrArc : conforms GrArc_to GrArc_from GrArc_ok GrArc_norm GrArc_tree.
Proof. exact GrArc_fmt. Qed.
Print Assumptions C36_GrArc.
Theorem C27_GrArc : refuses GrArc_from ["gr_arc"%string].
Proof. exact GrArc_ref. Qed.
Print Assumptions C27_GrArc.
Theorem C28_GrArc : ignores GrArc_from 0 ["start"%string; "mid"%string; "end"%string; "layer"%string; "tstamp"%string; "width"%string].
Proof. exact GrArc_ign. Qed.
Print Assumptions C28_GrArc.
Theorem C30_GrArc : last_wins GrArc_from 0 ["start"%string; "mid"%string; "end"%string; "layer"%string; "tstamp"%string; "width"%string].
Proof. exact GrArc_win. Qed.
Print Assumptions C30_GrArc.
Example C19_GrArc_ex : GrArc_ok (mkGrArc (ex_xy (VInt 2) (VInt 3)) (ex_xy (VInt 5) (VInt 3)) (ex_xy (VInt 2) (fdec 1 (-3))) (VStr $"F.Fab") (fdec 15 (-2)) ex_stamp true) = true.
Proof. vm_compute. reflexivity. Qed.

Theorem C19_GrPoly : roundtrips GrPoly_to GrPoly_from GrPoly_ok GrPoly_norm GrPoly_eqb.
Proof. exact GrPoly_rt. Qed.
Print Assumptions C19_GrPoly.
Theorem C36_GrPoly : conforms GrPoly_to GrPoly_from GrPoly_ok GrPoly_norm GrPoly_tree.
Proof. exact GrPoly_fmt. Qed.
Print Assumptions C36_GrPoly.
Theorem C27_GrPoly : refuses GrPoly_from ["gr_poly"%string].
Proof. exact GrPoly_ref. Qed.
Print Assumptions C27_GrPoly.
Theorem C28_GrPoly : ignores GrPoly_from 0 ["pts"%string; "layer"%string; "tstamp"%string; "fill"%string; "width"%string].
Proof. exact GrPoly_ign. Qed.
Print Assumptions C28_GrPoly.
Theorem C30_GrPoly : last_wins GrPoly_from 0 ["layer"%string; "tstamp"%string; "fill"%string; "width"%string].
Proof. exact GrPoly_win. Qed.
Print Assumptions C30_GrPoly.
Example C19_GrPoly_ex : GrPoly_ok (mkGrPoly (VStr $"F.Fab") ex_pts (fdec 15 (-2)) (VStr $"solid") ex_stamp true) = true.
Proof. vm_compute. reflexivity. Qed.

Theorem C19_GrCurve : roundtrips GrCurve_to GrCurve_from GrCurve_ok GrCurve_norm GrCurve_eqb.
Proof. exact GrCurve_rt. Qed.
Print Assumptions C19_GrCurve.
Theorem C36_GrCurve : conforms GrCurve_to GrCurve_from GrCurve_ok GrCurve_norm GrCurve_tree.
Proof. exact GrCurve_fmt. Qed.
Print Assumptions C36_GrCurve.
Theorem C27_GrCurve : refuses GrCurve_from ["gr_curve"%string].
Proof. exact GrCurve_ref. Qed.
Print Assumptions C27_GrCurve.
Theorem C28_GrCurve : ignores GrCurve_from 0 ["pts"%string; "layer"%string; "tstamp"%string; "width"%string].
Proof. exact GrCurve_ign. Qed.
Print Assumptions C28_GrCurve.
Theorem C30_GrCurve : last_wins GrCurve_from 0 ["layer"%string; "tstamp"%string; "width"%string].
Proof. exact GrCurve_win. Qed.
Print Assumptions C30_GrCurve.
Example C19_GrCurve_ex : GrCurve_ok (mkGrCurve ex_pts VNone (fdec 15 (-2)) ex_stamp true) = true.
Proof. vm_compute. reflexivity. Qed.

(** The polygon is written in two layouts. *)
Theorem C19_GrPoly_pts_newline : forall b, roundtrips (GrPoly_to_pts b) GrPoly_from GrPoly_ok GrPoly_norm GrPoly_eqb
  /\ conforms (GrPoly_to_pts b) GrPoly_from GrPoly_ok GrPoly_norm GrPoly_tree.
Proof.
  intros b. split; [exact (rt_of _ _ _ _ _ _ (GrPoly_wr_pts b) GrPoly_rd GrPoly_same GrPoly_okn GrPoly_idem)
                   |exact (fmt_of _ _ _ _ _ (GrPoly_wr_pts b) GrPoly_rd)].
Qed.
Print Assumptions C19_GrPoly_pts_newline.

(** ** What is lost or corrupted *)
(** A locked text is written as [(gr_text locked "text" ..)], but the reader takes the first
    argument as the text: every locked text comes back as the text "locked". *)
Theorem C19_GrText_locked_refuted : forall o indent newline,
  GrText_ok (o <| gt_locked := false |>) = true -> gt_locked o = true ->
  write_read GrText_to GrText_from o indent newline
  = Ok (GrText_norm o <| gt_text := VStr $"locked" |> <| gt_locked := gt_text o =s "locked" |>).
Proof. exact GrText_locked. Qed.
Print Assumptions C19_GrText_locked_refuted.
(** A line with an angle writes an unbalanced text, whatever the angle. *)
Theorem C19_GrLine_angle_refuted : forall o indent newline,
  GrLine_ok (o <| gl_angle := VNone |>) = true -> numb (gl_angle o) = true ->
  write_read GrLine_to GrLine_from o indent newline = Err EAssertion.
Proof. intros o i n H Ha. unfold write_read. destruct (GrLine_open o i n H Ha) as (s & -> & E). cbn [bind]. now rewrite E. Qed.
Print Assumptions C19_GrLine_angle_refuted.
Example C19_GrLine_angle_ex : let o := GrLine_default <| gl_angle := VInt 45 |> in
  GrLine_ok (o <| gl_angle := VNone |>) = true /\ numb (gl_angle o) = true.
Proof. split; vm_compute; reflexivity. Qed.
(** An angle in the text of a line is not read. *)
Theorem C19_GrLine_angle_ignored : forall h before a after,
  GrLine_from (VList (h :: before ++ node "angle" [a] :: after)) = GrLine_from (VList (h :: before ++ after)).
Proof. intros h b a c. apply (C28_GrLine h b); [apply Nat.le_0_l|reflexivity]. Qed.
Print Assumptions C19_GrLine_angle_ignored.
(** The stroke of KiCad 7 is not read by any of the shapes: the width keeps its default. *)
Theorem C19_stroke_ignored_refuted : forall h before args after,
  let e := VList (h :: before ++ node "stroke" args :: after) in let e' := VList (h :: before ++ after) in
  GrLine_from e = GrLine_from e' /\ GrRect_from e = GrRect_from e' /\ GrCircle_from e = GrCircle_from e'
  /\ GrArc_from e = GrArc_from e' /\ GrPoly_from e = GrPoly_from e' /\ GrCurve_from e = GrCurve_from e'.
Proof.
  intros h b a c. repeat split;
    [apply (C28_GrLine h b)|apply (C28_GrRect h b)|apply (C28_GrCircle h b)|apply (C28_GrArc h b)|apply (C28_GrPoly h b)|apply (C28_GrCurve h b)];
    solve [apply Nat.le_0_l|reflexivity].
Qed.
Print Assumptions C19_stroke_ignored_refuted.
(** A missing width is written as the word None. *)
Theorem C19_width_none_refuted :
  write_read GrLine_to GrLine_from (GrLine_default <| gl_width := VNone |>) 2 true = Ok (GrLine_norm (GrLine_default <| gl_width := VStr $"None" |>)).
Proof. vm_compute. reflexivity. Qed.
Print Assumptions C19_width_none_refuted.
(** The [knockout] flag is lost without a layer. *)
Theorem C19_GrText_knockout_refuted : forall o indent newline, is_none (gt_layer o) = true ->
  GrText_ok (o <| gt_knockout := false |>) = true ->
  write_read GrText_to GrText_from o indent newline = Ok (GrText_norm (o <| gt_knockout := false |>)).
Proof. exact GrText_knockout. Qed.
Print Assumptions C19_GrText_knockout_refuted.
Theorem C19_GrPoly_empty_refuted : forall o indent newline, gp_coordinates o = [] ->
  write_read GrPoly_to GrPoly_from o indent newline = Err EIndex.
Proof. exact GrPoly_empty. Qed.
Print Assumptions C19_GrPoly_empty_refuted.
Theorem C19_GrCurve_empty_refuted : forall o indent newline, gv_coordinates o = [] ->
  write_read GrCurve_to GrCurve_from o indent newline = Err EIndex.
Proof. exact GrCurve_empty. Qed.
Print Assumptions C19_GrCurve_empty_refuted.
Theorem C19_GrTextBox_refused : forall o indent newline, optb numb (gb_angle o) = true ->
  (if is_none (gb_angle o) || right_angle (gb_angle o) then gb_start o = None \/ gb_end o = None else length (gb_pts o) <> 4) ->
  GrTextBox_to o indent newline = Err EException.
Proof. exact GrTextBox_refused. Qed.
Print Assumptions C19_GrTextBox_refused.
