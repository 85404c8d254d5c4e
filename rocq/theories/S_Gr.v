(** Specification of items/gritems.py. *)
From Verif Require Import PyBase PyNum PyStr Sexpr S_Leaf S_Tree M_Common S_Common M_Fp S_Fp M_Gr.

(** the layer with its [knockout] flag, which needs a layer *)
Definition layer_tree (layer : val) (knockout : bool) : list val :=
  if is_none layer then [] else [node "layer" (layer :: optw "knockout" knockout)].
Definition layer_ok (layer : val) (knockout : bool) : bool := negb (is_none layer) || negb knockout.
Definition GrText_tree (o : GrText) : val :=
  node "gr_text" ([gt_text o; at3_tree "at" (gt_position o)] ++ layer_tree (gt_layer o) (gt_knockout o)
    ++ optn "tstamp" (gt_tstamp o) ++ [Effects_tree (gt_effects o)] ++ opto RenderCache_tree (gt_renderCache o)).
Definition GrText_norm (o : GrText) : GrText :=
  mkGrText (gt_text o) (gt_knockout o) (Position_norm (gt_position o)) (gt_layer o) (Effects_norm (gt_effects o)) (gt_tstamp o) (gt_locked o) (option_map RenderCache_norm (gt_renderCache o)).
(** dataclass == on GrText *)
Definition GrText_eqb (a b : GrText) : bool :=
  py_eqb (gt_text a) (gt_text b)
  && Bool.eqb (gt_knockout a) (gt_knockout b)
  && Position_eqb (gt_position a) (gt_position b)
  && py_eqb (gt_layer a) (gt_layer b)
  && Effects_eqb (gt_effects a) (gt_effects b)
  && py_eqb (gt_tstamp a) (gt_tstamp b)
  && Bool.eqb (gt_locked a) (gt_locked b)
  && oeqb RenderCache_eqb (gt_renderCache a) (gt_renderCache b).
Definition GrText_ok (o : GrText) : bool :=
  txtb (gt_text o)
  && pos3_ok (gt_position o)
  && optb txtb (gt_layer o)
  && Effects_ok (gt_effects o)
  && optb wordv (gt_tstamp o)
  && negb (gt_locked o)
  && optok RenderCache_ok (gt_renderCache o)
  && (layer_ok (gt_layer o) (gt_knockout o)).


Definition GrLine_tree (o : GrLine) : val :=
  node "gr_line" (optw "locked" (gl_locked o) ++ [xy_tree "start" (gl_start o); xy_tree "end" (gl_end o)] ++ optn "layer" (gl_layer o)
    ++ [node "width" [gl_width o]] ++ optn "tstamp" (gl_tstamp o)).
Definition GrLine_norm (o : GrLine) : GrLine :=
  mkGrLine (Position_norm (gl_start o)) (Position_norm (gl_end o)) (gl_angle o) (gl_layer o) (nrm (gl_width o)) (gl_tstamp o) (gl_locked o).
(** dataclass == on GrLine *)
Definition GrLine_eqb (a b : GrLine) : bool :=
  Position_eqb (gl_start a) (gl_start b)
  && Position_eqb (gl_end a) (gl_end b)
  && py_eqb (gl_angle a) (gl_angle b)
  && py_eqb (gl_layer a) (gl_layer b)
  && py_eqb (gl_width a) (gl_width b)
  && py_eqb (gl_tstamp a) (gl_tstamp b)
  && Bool.eqb (gl_locked a) (gl_locked b).
Definition GrLine_ok (o : GrLine) : bool :=
  pos2_ok (gl_start o)
  && pos2_ok (gl_end o)
  && is_none (gl_angle o)
  && optb txtb (gl_layer o)
  && numb (gl_width o)
  && optb wordv (gl_tstamp o).


Definition GrRect_tree (o : GrRect) : val :=
  node "gr_rect" (optw "locked" (gr_locked o) ++ [xy_tree "start" (gr_start o); xy_tree "end" (gr_end o)] ++ optn "layer" (gr_layer o)
    ++ [node "width" [gr_width o]] ++ optn "fill" (gr_fill o) ++ optn "tstamp" (gr_tstamp o)).
Definition GrRect_norm (o : GrRect) : GrRect :=
  mkGrRect (Position_norm (gr_start o)) (Position_norm (gr_end o)) (gr_layer o) (nrm (gr_width o)) (gr_fill o) (gr_tstamp o) (gr_locked o).
(** dataclass == on GrRect *)
Definition GrRect_eqb (a b : GrRect) : bool :=
  Position_eqb (gr_start a) (gr_start b)
  && Position_eqb (gr_end a) (gr_end b)
  && py_eqb (gr_layer a) (gr_layer b)
  && py_eqb (gr_width a) (gr_width b)
  && py_eqb (gr_fill a) (gr_fill b)
  && py_eqb (gr_tstamp a) (gr_tstamp b)
  && Bool.eqb (gr_locked a) (gr_locked b).
Definition GrRect_ok (o : GrRect) : bool :=
  pos2_ok (gr_start o)
  && pos2_ok (gr_end o)
  && optb txtb (gr_layer o)
  && numb (gr_width o)
  && optb wordv (gr_fill o)
  && optb wordv (gr_tstamp o).


Definition GrCircle_tree (o : GrCircle) : val :=
  node "gr_circle" (optw "locked" (gc_locked o) ++ [xy_tree "center" (gc_center o); xy_tree "end" (gc_end o)] ++ optn "layer" (gc_layer o)
    ++ [node "width" [gc_width o]] ++ optn "fill" (gc_fill o) ++ optn "tstamp" (gc_tstamp o)).
Definition GrCircle_norm (o : GrCircle) : GrCircle :=
  mkGrCircle (Position_norm (gc_center o)) (Position_norm (gc_end o)) (gc_layer o) (nrm (gc_width o)) (gc_fill o) (gc_tstamp o) (gc_locked o).
(** dataclass == on GrCircle *)
Definition GrCircle_eqb (a b : GrCircle) : bool :=
  Position_eqb (gc_center a) (gc_center b)
  && Position_eqb (gc_end a) (gc_end b)
  && py_eqb (gc_layer a) (gc_layer b)
  && py_eqb (gc_width a) (gc_width b)
  && py_eqb (gc_fill a) (gc_fill b)
  && py_eqb (gc_tstamp a) (gc_tstamp b)
  && Bool.eqb (gc_locked a) (gc_locked b).
Definition GrCircle_ok (o : GrCircle) : bool :=
  pos2_ok (gc_center o)
  && pos2_ok (gc_end o)
  && optb txtb (gc_layer o)
  && numb (gc_width o)
  && optb wordv (gc_fill o)
  && optb wordv (gc_tstamp o).


Definition GrArc_tree (o : GrArc) : val :=
  node "gr_arc" (optw "locked" (ga_locked o) ++ [xy_tree "start" (ga_start o); xy_tree "mid" (ga_mid o); xy_tree "end" (ga_end o)] ++ optn "layer" (ga_layer o)
    ++ [node "width" [ga_width o]] ++ optn "tstamp" (ga_tstamp o)).
Definition GrArc_norm (o : GrArc) : GrArc :=
  mkGrArc (Position_norm (ga_start o)) (Position_norm (ga_mid o)) (Position_norm (ga_end o)) (ga_layer o) (nrm (ga_width o)) (ga_tstamp o) (ga_locked o).
(** dataclass == on GrArc *)
Definition GrArc_eqb (a b : GrArc) : bool :=
  Position_eqb (ga_start a) (ga_start b)
  && Position_eqb (ga_mid a) (ga_mid b)
  && Position_eqb (ga_end a) (ga_end b)
  && py_eqb (ga_layer a) (ga_layer b)
  && py_eqb (ga_width a) (ga_width b)
  && py_eqb (ga_tstamp a) (ga_tstamp b)
  && Bool.eqb (ga_locked a) (ga_locked b).
Definition GrArc_ok (o : GrArc) : bool :=
  pos2_ok (ga_start o)
  && pos2_ok (ga_mid o)
  && pos2_ok (ga_end o)
  && optb txtb (ga_layer o)
  && numb (ga_width o)
  && optb wordv (ga_tstamp o).


Definition GrPoly_tree (o : GrPoly) : val :=
  node "gr_poly" (optw "locked" (gp_locked o) ++ [node "pts" (map (xy_tree "xy") (gp_coordinates o))] ++ optn "layer" (gp_layer o)
    ++ [node "width" [gp_width o]] ++ optn "fill" (gp_fill o) ++ optn "tstamp" (gp_tstamp o)).
Definition GrPoly_norm (o : GrPoly) : GrPoly :=
  mkGrPoly (gp_layer o) (map Position_norm (gp_coordinates o)) (nrm (gp_width o)) (gp_fill o) (gp_tstamp o) (gp_locked o).
(** dataclass == on GrPoly *)
Definition GrPoly_eqb (a b : GrPoly) : bool :=
  py_eqb (gp_layer a) (gp_layer b)
  && leqb Position_eqb (gp_coordinates a) (gp_coordinates b)
  && py_eqb (gp_width a) (gp_width b)
  && py_eqb (gp_fill a) (gp_fill b)
  && py_eqb (gp_tstamp a) (gp_tstamp b)
  && Bool.eqb (gp_locked a) (gp_locked b).
Definition GrPoly_ok (o : GrPoly) : bool :=
  optb txtb (gp_layer o)
  && forallb pos2_ok (gp_coordinates o)
  && numb (gp_width o)
  && optb wordv (gp_fill o)
  && optb wordv (gp_tstamp o)
  && (negb (Nat.eqb (length (gp_coordinates o)) 0)).


Definition GrCurve_tree (o : GrCurve) : val :=
  node "gr_curve" (optw "locked" (gv_locked o) ++ [node "pts" (map (xy_tree "xy") (gv_coordinates o))] ++ optn "layer" (gv_layer o)
    ++ [node "width" [gv_width o]] ++ optn "tstamp" (gv_tstamp o)).
Definition GrCurve_norm (o : GrCurve) : GrCurve :=
  mkGrCurve (map Position_norm (gv_coordinates o)) (gv_layer o) (nrm (gv_width o)) (gv_tstamp o) (gv_locked o).
(** dataclass == on GrCurve *)
Definition GrCurve_eqb (a b : GrCurve) : bool :=
  leqb Position_eqb (gv_coordinates a) (gv_coordinates b)
  && py_eqb (gv_layer a) (gv_layer b)
  && py_eqb (gv_width a) (gv_width b)
  && py_eqb (gv_tstamp a) (gv_tstamp b)
  && Bool.eqb (gv_locked a) (gv_locked b).
Definition GrCurve_ok (o : GrCurve) : bool :=
  forallb pos2_ok (gv_coordinates o)
  && optb txtb (gv_layer o)
  && numb (gv_width o)
  && optb wordv (gv_tstamp o)
  && (negb (Nat.eqb (length (gv_coordinates o)) 0)).


Definition GrTextBox_tree (o : GrTextBox) : val :=
  node "gr_text_box" (optw "locked" (gb_locked o) ++ [gb_text o]
    ++ (if Nat.eqb (length (gb_pts o)) 0 then [] else [node "pts" (map (xy_tree "xy") (gb_pts o))])
    ++ opto (xy_tree "start") (gb_start o) ++ opto (xy_tree "end") (gb_end o) ++ optn "angle" (gb_angle o)
    ++ [node "layer" [gb_layer o]] ++ optn "tstamp" (gb_tstamp o) ++ opto Effects_tree (gb_effects o)
    ++ opto Stroke_tree (gb_stroke o) ++ opto RenderCache_tree (gb_renderCache o)).
Definition GrTextBox_norm (o : GrTextBox) : GrTextBox :=
  mkGrTextBox (gb_locked o) (gb_text o) (option_map Position_norm (gb_start o)) (option_map Position_norm (gb_end o)) (map Position_norm (gb_pts o)) (nrm (gb_angle o)) (gb_layer o) (gb_tstamp o) (option_map Effects_norm (gb_effects o)) (option_map Stroke_norm (gb_stroke o)) (option_map RenderCache_norm (gb_renderCache o)).
(** dataclass == on GrTextBox *)
Definition GrTextBox_eqb (a b : GrTextBox) : bool :=
  Bool.eqb (gb_locked a) (gb_locked b)
  && py_eqb (gb_text a) (gb_text b)
  && oeqb Position_eqb (gb_start a) (gb_start b)
  && oeqb Position_eqb (gb_end a) (gb_end b)
  && leqb Position_eqb (gb_pts a) (gb_pts b)
  && py_eqb (gb_angle a) (gb_angle b)
  && py_eqb (gb_layer a) (gb_layer b)
  && py_eqb (gb_tstamp a) (gb_tstamp b)
  && oeqb Effects_eqb (gb_effects a) (gb_effects b)
  && oeqb Stroke_eqb (gb_stroke a) (gb_stroke b)
  && oeqb RenderCache_eqb (gb_renderCache a) (gb_renderCache b).
Definition GrTextBox_ok (o : GrTextBox) : bool :=
  txtb (gb_text o)
  && optok pos2_ok (gb_start o)
  && optok pos2_ok (gb_end o)
  && forallb pos2_ok (gb_pts o)
  && optb numb (gb_angle o)
  && txtb (gb_layer o)
  && optb wordv (gb_tstamp o)
  && optok Effects_ok (gb_effects o)
  && optok Stroke_ok (gb_stroke o)
  && optok RenderCache_ok (gb_renderCache o)
  && (text_box_ok (gb_angle o) (gb_pts o) (gb_start o) (gb_end o)).

