(** Property theorems C17: footprint graphics (items/fpitems.py). *)
From Verif Require Import PyBase PyNum PyStr Sexpr S_Leaf S_Tree M_Common S_Common M_Fp S_Fp L_Lex L_Num L_Seq L_Tac L_Fp Properties_Common.

Definition ex_pts : list Position := [ex_xy (VInt 2) (VInt 3); ex_xy (fdec 1 (-1)) (VInt 0); ex_xy (VInt 2) (VInt 3); ex_xy (fdec (-15) (-1)) (VInt 7)].
Definition ex_stamp : val := VStr $"7c2f5ab1-44ff-4a1c-b96d-28f9f3a0fd1e".
Definition ex_cache : RenderCache := mkRenderCache (VStr $"ab""c") (VStr $"0") [ex_poly].
@prop C17 FpText mkFpText (VStr $"user") (VStr $"a ""(b)"" \ c") (mkPosition (VInt 1) (fdec 25 (-1)) (VInt 90) true) (VStr $"F.SilkS") true true ex_effects ex_stamp (Some ex_cache)
@prop C17 FpLine mkFpLine (ex_xy (VInt 2) (VInt 3)) (ex_xy (VInt 2) (fdec 1 (-3))) (VStr $"F.Fab") VNone (Some ex_stroke) false ex_stamp
@prop C17 FpRect mkFpRect (ex_xy (VInt 2) (VInt 3)) (ex_xy (VInt 2) (fdec 1 (-3))) (VStr $"F.Fab") (fdec 15 (-2)) None (VStr $"solid") true ex_stamp
@prop C17 FpTextBox mkFpTextBox true (VStr $"locked") None None ex_pts (fdec 455 (-1)) (VStr $"F.Fab") ex_stamp (Some ex_effects) (Some ex_stroke) (Some ex_cache)
@prop C17 FpCircle mkFpCircle (ex_xy (VInt 2) (VInt 3)) (ex_xy (VInt 2) (fdec 1 (-3))) (VStr $"F.Fab") VNone (Some ex_stroke) (VStr $"solid") true ex_stamp
@prop C17 FpArc mkFpArc (ex_xy (VInt 2) (VInt 3)) (ex_xy (VInt 5) (VInt 3)) (ex_xy (VInt 2) (fdec 1 (-3))) (VStr $"F.Fab") VNone (Some ex_stroke) true ex_stamp
@prop C17 FpPoly mkFpPoly (VStr $"F.Fab") ex_pts VNone (Some ex_stroke) (VStr $"solid") true ex_stamp
@prop C17 FpCurve mkFpCurve ex_pts (VStr $"F.Fab") (fdec 15 (-2)) None true ex_stamp
(** the text box without angle and corners *)
Example C17_FpTextBox_ex2 : FpTextBox_ok (mkFpTextBox false (VStr $"locked") (Some (ex_xy (VInt 2) (VInt 3))) (Some (ex_xy (VInt 2) (VInt 3))) []
  (VInt 90) (VStr $"F.Fab") VNone None None None) = true.
Proof. vm_compute. reflexivity. Qed.

(** ** What is lost *)
(** A locked line comes back unlocked. *)
Theorem C17_FpLine_locked_refuted : forall o indent newline, FpLine_ok (o <| fl_locked := false |>) = true ->
  write_read FpLine_to FpLine_from o indent newline = Ok (FpLine_norm (o <| fl_locked := false |>)).
Proof. exact FpLine_locked. Qed.
Print Assumptions C17_FpLine_locked_refuted.
(** Of a width and a stroke only the width is written: the stroke is lost. *)
Theorem C17_FpRect_both_refuted : forall o indent newline,
  FpRect_ok (o <| fr_stroke := None |>) = true ->
  write_read FpRect_to FpRect_from o indent newline = Ok (FpRect_norm (o <| fr_stroke := None |>)).
Proof. exact FpRect_both. Qed.
Print Assumptions C17_FpRect_both_refuted.
(** Without either the object comes back with a width of 0.12. *)
Theorem C17_FpRect_neither_refuted : forall o indent newline,
  is_none (fr_width o) = true -> fr_stroke o = None -> FpRect_ok (o <| fr_width := fdec 12 (-2) |>) = true ->
  write_read FpRect_to FpRect_from o indent newline = Ok (FpRect_norm (o <| fr_width := fdec 12 (-2) |>)).
Proof. exact FpRect_neither. Qed.
Print Assumptions C17_FpRect_neither_refuted.
(** Polygons and curves without points write nothing that can be read. *)
Theorem C17_FpPoly_empty_refuted : forall o indent newline, fp_coordinates o = [] ->
  write_read FpPoly_to FpPoly_from o indent newline = Err EIndex.
Proof. exact FpPoly_empty. Qed.
Print Assumptions C17_FpPoly_empty_refuted.
Theorem C17_FpCurve_empty_refuted : forall o indent newline, fv_coordinates o = [] ->
  write_read FpCurve_to FpCurve_from o indent newline = Err EIndex.
Proof. exact FpCurve_empty. Qed.
Print Assumptions C17_FpCurve_empty_refuted.
(** A text box whose angle does not fit its corners is refused by the writer. *)
Theorem C17_FpTextBox_refused : forall o indent newline, optb numb (fb_angle o) = true ->
  (if is_none (fb_angle o) || right_angle (fb_angle o) then fb_start o = None \/ fb_end o = None else length (fb_pts o) <> 4) ->
  FpTextBox_to o indent newline = Err EException.
Proof. exact FpTextBox_refused. Qed.
Print Assumptions C17_FpTextBox_refused.
Example C17_FpTextBox_refused_ex : let o := FpTextBox_default <| fb_angle := fdec 455 (-1) |> <| fb_pts := [Position_default] |> in
  optb numb (fb_angle o) = true /\ is_none (fb_angle o) || right_angle (fb_angle o) = false /\ length (fb_pts o) = 1.
Proof. repeat split; vm_compute; reflexivity. Qed.
(** Corners are dropped unless there are exactly four. *)
Theorem C17_FpTextBox_pts_refuted : forall o indent newline, length (fb_pts o) <> 4 -> FpTextBox_ok (o <| fb_pts := [] |>) = true ->
  write_read FpTextBox_to FpTextBox_from o indent newline = Ok (FpTextBox_norm (o <| fb_pts := [] |>)).
Proof. exact FpTextBox_pts. Qed.
Print Assumptions C17_FpTextBox_pts_refuted.
