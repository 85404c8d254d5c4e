(** Property theorems C17: footprint graphics (items/fpitems.py). *)
From Verif Require Import PyBase PyNum PyStr Sexpr S_Leaf S_Tree M_Common S_Common M_Fp S_Fp L_Lex L_Num L_Seq L_Tac L_Fp Properties_Common.

Definition ex_pts : list Position := [ex_xy (VInt 2) (VInt 3); ex_xy (fdec 1 (-1)) (VInt 0); ex_xy (VInt 2) (VInt 3); ex_xy (fdec (-15) (-1)) (VInt 7)].
Definition ex_stamp : val := VStr $"7c2f5ab1-44ff-4a1c-b96d-28f9f3a0fd1e".
Definition ex_cache : RenderCache := mkRenderCache (VStr $"ab""c") (VStr $"0") [ex_poly].
Theorem C17_FpText : roundtrips FpText_to FpText_from FpText_ok FpText_norm FpText_eqb.
Proof. exact FpText_rt. Qed.
Print Assumptions C17_FpText.
Theorem C36_FpText : conforms FpText_to FpText_from FpText_ok FpText_norm FpText_tree.
Proof. exact FpText_fmt. Qed.
Print Assumptions C36_FpText.
Theorem C27_FpText : refuses FpText_from ["fp_text"%string].
Proof. exact FpText_ref. Qed.
Print Assumptions C27_FpText.
Theorem C28_FpText : ignores FpText_from 2 ["at"%string; "layer"%string; "effects"%string; "tstamp"%string; "render_cache"%string].
Proof. exact FpText_ign. Qed.
Print Assumptions C28_FpText.
Theorem C30_FpText : last_wins FpText_from 2 ["at"%string; "effects"%string; "tstamp"%string; "render_cache"%string].
Proof. exact FpText_win. Qed.
Print Assumptions C30_FpText.
Example C17_FpText_ex : FpText_ok (mkFpText (VStr $"user") (VStr $"a ""(b)"" \ c") (mkPosition (VInt 1) (fdec 25 (-1)) (VInt 90) true) (VStr $"F.SilkS") true true ex_effects ex_stamp (Some ex_cache)) = true.
Proof. vm_compute. reflexivity. Qed.

Theorem C17_FpLine : roundtrips FpLine_to FpLine_from FpLine_ok FpLine_norm FpLine_eqb.
Proof. exact FpLine_rt. Qed.
Print Assumptions C17_FpLine.
Theorem C36_FpLine : conforms FpLine_to FpLine_from FpLine_ok FpLine_norm FpLine_tree.
Proof. exact FpLine_fmt. Qed.
Print Assumptions C36_FpLine.
Theorem C27_FpLine : refuses FpLine_from ["fp_line"%string].
Proof. exact FpLine_ref. Qed.
Print Assumptions C27_FpLine.
Theorem C28_FpLine : ignores FpLine_from 0 ["start"%string; "end"%string; "layer"%string; "tstamp"%string; "width"%string; "stroke"%string].
Proof. exact FpLine_ign. Qed.
Print Assumptions C28_FpLine.
Theorem C30_FpLine : last_wins FpLine_from 0 ["start"%string; "end"%string; "layer"%string; "tstamp"%string; "width"%string; "stroke"%string].
Proof. exact FpLine_win. Qed.
Print Assumptions C30_FpLine.
Example C17_FpLine_ex : FpLine_ok (mkFpLine (ex_xy (VInt 2) (VInt 3)) (ex_xy (VInt 2) (fdec 1 (-3))) (VStr $"F.Fab") VNone (Some ex_stroke) false ex_stamp) = true.
Proof. vm_compute. reflexivity. Qed.

Theorem C17_FpRect : roundtrips FpRect_to FpRect_from FpRect_ok FpRect_norm FpRect_eqb.
Proof. exact FpRect_rt. Qed.
Print Assumptions C17_FpRect.
Theorem C36_FpRect : conforms FpRect_to FpRect_from FpRect_ok FpRect_norm FpRect_tree.
Proof. exact FpRect_fmt. Qed.
Print Assumptions C36_FpRect.
Theorem C27_FpRect : refuses FpRect_from ["fp_rect"%string].
Proof. exact FpRect_ref. Qed.
Print Assumptions C27_FpRect.
Theorem C28_FpRect : ignores FpRect_from 0 ["start"%string; "end"%string; "layer"%string; "tstamp"%string; "fill"%string; "width"%string; "stroke"%string].
Proof. exact FpRect_ign. Qed.
Print Assumptions C28_FpRect.
Theorem C30_FpRect : last_wins FpRect_from 0 ["start"%string; "end"%string; "layer"%string; "tstamp"%string; "fill"%string; "width"%string; "stroke"%string].
Proof. exact FpRect_win. Qed.
Print Assumptions C30_FpRect.
Example C17_FpRect_ex : FpRect_ok (mkFpRect (ex_xy (VInt 2) (VInt 3)) (ex_xy (VInt 2) (fdec 1 (-3))) (VStr $"F.Fab") (fdec 15 (-2)) None (VStr $"solid") true ex_stamp) = true.
Proof. vm_compute. reflexivity. Qed.

Theorem C17_FpTextBox : roundtrips FpTextBox_to FpTextBox_from FpTextBox_ok FpTextBox_norm FpTextBox_eqb.
Proof. exact FpTextBox_rt. Qed.
Print Assumptions C17_FpTextBox.
Theorem C36_FpTextBox : conforms FpTextBox_to FpTextBox_from FpTextBox_ok FpTextBox_norm FpTextBox_tree.
Proof. exact FpTextBox_fmt. Qed.
Print Assumptions C36_FpTextBox.
Theorem C27_FpTextBox : refuses FpTextBox_from ["fp_text_box"%string].
Proof. exact FpTextBox_ref. Qed.
Print Assumptions C27_FpTextBox.
Theorem C28_FpTextBox : ignores FpTextBox_from 2 ["start"%string; "end"%string; "pts"%string; "angle"%string; "layer"%string; "tstamp"%string; "effects"%string; "stroke"%string; "render_cache"%string].
Proof. exact FpTextBox_ign. Qed.
Print Assumptions C28_FpTextBox.
Theorem C30_FpTextBox : last_wins FpTextBox_from 2 ["start"%string; "end"%string; "angle"%string; "layer"%string; "tstamp"%string; "effects"%string; "stroke"%string; "render_cache"%string].
Proof. exact FpTextBox_win. Qed.
Print Assumptions C30_FpTextBox.
Example C17_FpTextBox_ex : FpTextBox_ok (mkFpTextBox true (VStr $"locked") None None ex_pts (fdec 455 (-1)) (VStr $"F.Fab") ex_stamp (Some ex_effects) (Some ex_stroke) (Some ex_cache)) = true.
Proof. vm_compute. reflexivity. Qed.

Theorem C17_FpCircle : roundtrips FpCircle_to FpCircle_from FpCircle_ok FpCircle_norm FpCircle_eqb.
Proof. exact FpCircle_rt. Qed.
Print Assumptions C17_FpCircle.
Theorem C36_FpCircle : conforms FpCircle_to FpCircle_from FpCircle_ok FpCircle_norm FpCircle_tree.
Proof. exact FpCircle_fmt. Qed.
Print Assumptions C36_FpCircle.
Theorem C27_FpCircle : refuses FpCircle_from ["fp_circle"%string].
Proof. exact FpCircle_ref. Qed.
Print Assumptions C27_FpCircle.
Theorem C28_FpCircle : ignores FpCircle_from 0 ["center"%string; "end"%string; "layer"%string; "tstamp"%string; "fill"%string; "width"%string; "stroke"%string].
Proof. exact FpCircle_ign. Qed.
Print Assumptions C28_FpCircle.
Theorem C30_FpCircle : last_wins FpCircle_from 0 ["center"%string; "end"%string; "layer"%string; "tstamp"%string; "fill"%string; "width"%string; "stroke"%string].
Proof. exact FpCircle_win. Qed.
Print Assumptions C30_FpCircle.
Example C17_FpCircle_ex : FpCircle_ok (mkFpCircle (ex_xy (VInt 2) (VInt 3)) (ex_xy (VInt 2) (fdec 1 (-3))) (VStr $"F.Fab") VNone (Some ex_stroke) (VStr $"solid") true ex_stamp) = true.
Proof. vm_compute. reflexivity. Qed.

Theorem C17_FpArc : roundtrips FpArc_to FpArc_from FpArc_ok FpArc_norm FpArc_eqb.
Proof. exact FpArc_rt. Qed.
Print Assumptions C17_FpArc.
Theorem C36_FpArc : conforms FpArc_to FpArc_from FpArc_ok FpArc_norm FpArc_tree.
Proof. exact FpArc_fmt. Qed.
Print Assumptions C36_FpArc.
Theorem C27_FpArc : refuses FpArc_from ["fp_arc"%string].
Proof. exact FpArc_ref. Qed.
Print Assumptions C27_FpArc.
Theorem C28_FpArc : ignores FpArc_from 0 ["start"%string; "mid"%string; "end"%string; "layer"%string; "tstamp"%string; "width"%string; "stroke"%string].
Proof. exact FpArc_ign. Qed.
Print Assumptions C28_FpArc.
Theorem C30_FpArc : last_wins FpArc_from 0 ["start"%string; "mid"%string; "end"%string; "layer"%string; "tstamp"%string; "width"%string; "stroke"%string].
Proof. exact FpArc_win. Qed.
Print Assumptions C30_FpArc.
Example C17_FpArc_ex : FpArc_ok (mkFpArc (ex_xy (VInt 2) (VInt 3)) (ex_xy (VInt 5) (VInt 3)) (ex_xy (VInt 2) (fdec 1 (-3))) (VStr $"F.Fab") VNone (Some ex_stroke) true ex_stamp) = true.
Proof. vm_compute. reflexivity. Qed.

Theorem C17_FpPoly : roundtrips FpPoly_to FpPoly_from FpPoly_ok FpPoly_norm FpPoly_eqb.
Proof. exact FpPoly_rt. Qed.
Print Assumptions C17_FpPoly.
Theorem C36_FpPoly : conforms FpPoly_to FpPoly_from FpPoly_ok FpPoly_norm FpPoly_tree.
Proof. exact FpPoly_fmt. Qed.
Print Assumptions C36_FpPoly.
Theorem C27_FpPoly : refuses FpPoly_from ["fp_poly"%string].
Proof. exact FpPoly_ref. Qed.
Print Assumptions C27_FpPoly.
Theorem C28_FpPoly : ignores FpPoly_from 0 ["pts"%string; "layer"%string; "tstamp"%string; "fill"%string; "width"%string; "stroke"%string].
Proof. exact FpPoly_ign. Qed.
Print Assumptions C28_FpPoly.
Theorem C30_FpPoly : last_wins FpPoly_from 0 ["layer"%string; "tstamp"%string; "fill"%string; "width"%string; "stroke"%string].
Proof. exact FpPoly_win. Qed.
Print Assumptions C30_FpPoly.
Example C17_FpPoly_ex : FpPoly_ok (mkFpPoly (VStr $"F.Fab") ex_pts VNone (Some ex_stroke) (VStr $"solid") true ex_stamp) = true.
Proof. vm_compute. reflexivity. Qed.

Theorem C17_FpCurve : roundtrips FpCurve_to FpCurve_from FpCurve_ok FpCurve_norm FpCurve_eqb.
Proof. exact FpCurve_rt. Qed.
Print Assumptions C17_FpCurve.
Theorem C36_FpCurve : conforms FpCurve_to FpCurve_from FpCurve_ok FpCurve_norm FpCurve_tree.
Proof. exact FpCurve_fmt. Qed.
Print Assumptions C36_FpCurve.
Theorem C27_FpCurve : refuses FpCurve_from ["fp_curve"%string].
Proof. exact FpCurve_ref. Qed.
Print Assumptions C27_FpCurve.
Theorem C28_FpCurve : ignores FpCurve_from 0 ["pts"%string; "layer"%string; "tstamp"%string; "width"%string; "stroke"%string].
Proof. exact FpCurve_ign. Qed.
Print Assumptions C28_FpCurve.
Theorem C30_FpCurve : last_wins FpCurve_from 0 ["layer"%string; "tstamp"%string; "width"%string; "stroke"%string].
Proof. exact FpCurve_win. Qed.
Print Assumptions C30_FpCurve.
Example C17_FpCurve_ex : FpCurve_ok (mkFpCurve ex_pts (VStr $"F.Fab") (fdec 15 (-2)) None true ex_stamp) = true.
Proof. vm_compute. reflexivity. Qed.

(** the text box without angle and corners *)
Example C17_FpTextBox_ex2 : FpTextBox_ok (mkFpTextBox false (VStr $"locked") (Some (ex_xy (VInt 2) (VInt 3))) (Some (ex_xy (VInt 2) (VInt 3))) []
  (VInt 90) (VStr $"F.Fab") VNone None None None) = true.
Proof. vm_compute. reflexivity. Qed.

(** ** What is lost *)
(** A locked line comes back unlocked. *)
Theorem C17_FpLine_locked_refuted : forall o indent newline, FpLine_ok (o <| fl_locked := false |>) = true ->
  write_read FpLine_to FpLine_from o indent newline = Ok (FpLine_norm (o <| fl_locked := false |>)).
Proof. exact FpLine_locked. Qed.
Print Assumptions C17_FpLine_locked_refuted.
(** Of a width and a stroke only the width is written: the stroke is lost. *)
Theorem C17_FpRect_both_refuted : forall o indent newline,
  FpRect_ok (o <| fr_stroke := None |>) = true ->
  write_read FpRect_to FpRect_from o indent newline = Ok (FpRect_norm (o <| fr_stroke := None |>)).
Proof. exact FpRect_both. Qed.
Print Assumptions C17_FpRect_both_refuted.
(** Without either the object comes back with a width of 0.12. *)
Theorem C17_FpRect_neither_refuted : forall o indent newline,
  is_none (fr_width o) = true -> fr_stroke o = None -> FpRect_ok (o <| fr_width := fdec 12 (-2) |>) = true ->
  write_read FpRect_to FpRect_from o indent newline = Ok (FpRect_norm (o <| fr_width := fdec 12 (-2) |>)).
Proof. exact FpRect_neither. Qed.
Print Assumptions C17_FpRect_neither_refuted.
(** Polygons and curves without points write nothing that can be read. *)
Theorem C17_FpPoly_empty_refuted : forall o indent newline, fp_coordinates o = [] ->
  write_read FpPoly_to FpPoly_from o indent newline = Err EIndex.
Proof. exact FpPoly_empty. Qed.
Print Assumptions C17_FpPoly_empty_refuted.
Theorem C17_FpCurve_empty_refuted : forall o indent newline, fv_coordinates o = [] ->
  write_read FpCurve_to FpCurve_from o indent newline = Err EIndex.
Proof. exact FpCurve_empty. Qed.
Print Assumptions C17_FpCurve_empty_refuted.
(** A text box whose angle does not fit its corners is refused by the writer. *)
Theorem C17_FpTextBox_refused : forall o indent newline, optb numb (fb_angle o) = true ->
  (if is_none (fb_angle o) || right_angle (fb_angle o) then fb_start o = None \/ fb_end o = None else length (fb_pts o) <> 4) ->
  FpTextBox_to o indent newline = Err EException.
Proof. exact FpTextBox_refused. Qed.
Print Assumptions C17_FpTextBox_refused.
Example C17_FpTextBox_refused_ex : let o := FpTextBox_default <| fb_angle := fdec 455 (-1) |> <| fb_pts := [Position_default] |> in
  optb numb (fb_angle o) = true /\ is_none (fb_angle o) || right_angle (fb_angle o) = false /\ length (fb_pts o) = 1.
Proof. repeat split; vm_compute; reflexivity. Qed.
(** Corners are dropped unless there are exactly four. *)
Theorem C17_FpTextBox_pts_refuted : forall o indent newline, length (fb_pts o) <> 4 -> FpTextBox_ok (o <| fb_pts := [] |>) = true ->
  write_read FpTextBox_to FpTextBox_from o indent newline = Ok (FpTextBox_norm (o <| fb_pts := [] |>)).
Proof. exact FpTextBox_pts. Qed.
Print Assumptions C17_FpTextBox_pts_refuted.
