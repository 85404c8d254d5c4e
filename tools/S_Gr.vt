(** Specification of items/gritems.py. *)
From Verif Require Import PyBase PyNum PyStr Sexpr S_Leaf S_Tree M_Common S_Common M_Fp S_Fp M_Gr.

(** the layer with its [knockout] flag, which needs a layer *)
Definition layer_tree (layer : val) (knockout : bool) : list val :=
  if is_none layer then [] else [node "layer" (layer :: optw "knockout" knockout)].
Definition layer_ok (layer : val) (knockout : bool) : bool := negb (is_none layer) || negb knockout.
Definition GrText_tree (o : GrText) : val :=
  node "gr_text" ([gt_text o; at3_tree "at" (gt_position o)] ++ layer_tree (gt_layer o) (gt_knockout o)
    ++ optn "tstamp" (gt_tstamp o) ++ [Effects_tree (gt_effects o)] ++ opto RenderCache_tree (gt_renderCache o)).
@ok GrText layer_ok (gt_layer o) (gt_knockout o)

Definition GrLine_tree (o : GrLine) : val :=
  node "gr_line" (optw "locked" (gl_locked o) ++ [xy_tree "start" (gl_start o); xy_tree "end" (gl_end o)] ++ optn "layer" (gl_layer o)
    ++ [node "width" [gl_width o]] ++ optn "tstamp" (gl_tstamp o)).
@ok GrLine

Definition GrRect_tree (o : GrRect) : val :=
  node "gr_rect" (optw "locked" (gr_locked o) ++ [xy_tree "start" (gr_start o); xy_tree "end" (gr_end o)] ++ optn "layer" (gr_layer o)
    ++ [node "width" [gr_width o]] ++ optn "fill" (gr_fill o) ++ optn "tstamp" (gr_tstamp o)).
@ok GrRect

Definition GrCircle_tree (o : GrCircle) : val :=
  node "gr_circle" (optw "locked" (gc_locked o) ++ [xy_tree "center" (gc_center o); xy_tree "end" (gc_end o)] ++ optn "layer" (gc_layer o)
    ++ [node "width" [gc_width o]] ++ optn "fill" (gc_fill o) ++ optn "tstamp" (gc_tstamp o)).
@ok GrCircle

Definition GrArc_tree (o : GrArc) : val :=
  node "gr_arc" (optw "locked" (ga_locked o) ++ [xy_tree "start" (ga_start o); xy_tree "mid" (ga_mid o); xy_tree "end" (ga_end o)] ++ optn "layer" (ga_layer o)
    ++ [node "width" [ga_width o]] ++ optn "tstamp" (ga_tstamp o)).
@ok GrArc

Definition GrPoly_tree (o : GrPoly) : val :=
  node "gr_poly" (optw "locked" (gp_locked o) ++ [node "pts" (map (xy_tree "xy") (gp_coordinates o))] ++ optn "layer" (gp_layer o)
    ++ [node "width" [gp_width o]] ++ optn "fill" (gp_fill o) ++ optn "tstamp" (gp_tstamp o)).
@ok GrPoly negb (Nat.eqb (length (gp_coordinates o)) 0)

Definition GrCurve_tree (o : GrCurve) : val :=
  node "gr_curve" (optw "locked" (gv_locked o) ++ [node "pts" (map (xy_tree "xy") (gv_coordinates o))] ++ optn "layer" (gv_layer o)
    ++ [node "width" [gv_width o]] ++ optn "tstamp" (gv_tstamp o)).
@ok GrCurve negb (Nat.eqb (length (gv_coordinates o)) 0)

Definition GrTextBox_tree (o : GrTextBox) : val :=
  node "gr_text_box" (optw "locked" (gb_locked o) ++ [gb_text o]
    ++ (if Nat.eqb (length (gb_pts o)) 0 then [] else [node "pts" (map (xy_tree "xy") (gb_pts o))])
    ++ opto (xy_tree "start") (gb_start o) ++ opto (xy_tree "end") (gb_end o) ++ optn "angle" (gb_angle o)
    ++ [node "layer" [gb_layer o]] ++ optn "tstamp" (gb_tstamp o) ++ opto Effects_tree (gb_effects o)
    ++ opto Stroke_tree (gb_stroke o) ++ opto RenderCache_tree (gb_renderCache o)).
@ok GrTextBox text_box_ok (gb_angle o) (gb_pts o) (gb_start o) (gb_end o)
