(** Specification of items/fpitems.py. *)
From Verif Require Import PyBase PyNum PyStr Sexpr S_Leaf S_Tree M_Common S_Common M_Fp.

Definition FpText_tree (o : FpText) : val :=
  node "fp_text" ([ft_type o; ft_text o; at_tree "at" (ft_position o); node "layer" (ft_layer o :: optw "knockout" (ft_knockout o))]
    ++ optw "hide" (ft_hide o) ++ [Effects_tree (ft_effects o)] ++ optn "tstamp" (ft_tstamp o)
    ++ opto RenderCache_tree (ft_renderCache o)).
Definition FpText_norm (o : FpText) : FpText :=
  mkFpText (ft_type o) (ft_text o) (Position_norm (ft_position o)) (ft_layer o) (ft_knockout o) (ft_hide o) (Effects_norm (ft_effects o)) (ft_tstamp o) (option_map RenderCache_norm (ft_renderCache o)).
(** dataclass == on FpText *)
Definition FpText_eqb (a b : FpText) : bool :=
  py_eqb (ft_type a) (ft_type b)
  && py_eqb (ft_text a) (ft_text b)
  && Position_eqb (ft_position a) (ft_position b)
  && py_eqb (ft_layer a) (ft_layer b)
  && Bool.eqb (ft_knockout a) (ft_knockout b)
  && Bool.eqb (ft_hide a) (ft_hide b)
  && Effects_eqb (ft_effects a) (ft_effects b)
  && py_eqb (ft_tstamp a) (ft_tstamp b)
  && oeqb RenderCache_eqb (ft_renderCache a) (ft_renderCache b).
Definition FpText_ok (o : FpText) : bool :=
  wordv (ft_type o)
  && txtb (ft_text o)
  && pos4_ok (ft_position o)
  && txtb (ft_layer o)
  && Effects_ok (ft_effects o)
  && optb wordv (ft_tstamp o)
  && optok RenderCache_ok (ft_renderCache o).


(** The line is described by a [stroke] (KiCad 7) or else by a [width]; exactly one of the two has
    to be given: without either the reader supplies its default width. *)
Definition width_tree (width : val) (stroke : option Stroke) : list val :=
  match stroke with Some s => [Stroke_tree s] | None => [node "width" [width]] end.
Definition width_ok (width : val) (stroke : option Stroke) : bool :=
  Bool.eqb (is_none width) (negb (no_object stroke)).
(** A text box needs [start] and [end] unless its angle is given and is no multiple of a right angle;
    then it needs four corners. *)
Definition right_angle (v : val) : bool :=
  match v with
  | VInt z => existsb (Z.eqb z) [0; 90; 180; 270]%Z
  | VFloat f => existsb (dbl_eq_Z f) [0; 90; 180; 270]%Z
  | _ => false
  end.
Definition text_box_ok (angle : val) (pts : list Position) (start end_ : option Position) : bool :=
  existsb (Nat.eqb (length pts)) [0; 4]
  && (if is_none angle || right_angle angle then negb (no_object start) && negb (no_object end_) else Nat.eqb (length pts) 4).

Definition FpLine_tree (o : FpLine) : val :=
  node "fp_line" ([xy_tree "start" (fl_start o); xy_tree "end" (fl_end o); node "layer" [fl_layer o]]
    ++ width_tree (fl_width o) (fl_stroke o) ++ optn "tstamp" (fl_tstamp o)).
Definition FpLine_norm (o : FpLine) : FpLine :=
  mkFpLine (Position_norm (fl_start o)) (Position_norm (fl_end o)) (fl_layer o) (nrm (fl_width o)) (option_map Stroke_norm (fl_stroke o)) (fl_locked o) (fl_tstamp o).
(** dataclass == on FpLine *)
Definition FpLine_eqb (a b : FpLine) : bool :=
  Position_eqb (fl_start a) (fl_start b)
  && Position_eqb (fl_end a) (fl_end b)
  && py_eqb (fl_layer a) (fl_layer b)
  && py_eqb (fl_width a) (fl_width b)
  && oeqb Stroke_eqb (fl_stroke a) (fl_stroke b)
  && Bool.eqb (fl_locked a) (fl_locked b)
  && py_eqb (fl_tstamp a) (fl_tstamp b).
Definition FpLine_ok (o : FpLine) : bool :=
  pos2_ok (fl_start o)
  && pos2_ok (fl_end o)
  && txtb (fl_layer o)
  && optb numb (fl_width o)
  && optok Stroke_ok (fl_stroke o)
  && negb (fl_locked o)
  && optb wordv (fl_tstamp o)
  && (width_ok (fl_width o) (fl_stroke o)).


Definition FpRect_tree (o : FpRect) : val :=
  node "fp_rect" ([xy_tree "start" (fr_start o); xy_tree "end" (fr_end o); node "layer" [fr_layer o]]
    ++ width_tree (fr_width o) (fr_stroke o) ++ optn "fill" (fr_fill o) ++ optw "locked" (fr_locked o) ++ optn "tstamp" (fr_tstamp o)).
Definition FpRect_norm (o : FpRect) : FpRect :=
  mkFpRect (Position_norm (fr_start o)) (Position_norm (fr_end o)) (fr_layer o) (nrm (fr_width o)) (option_map Stroke_norm (fr_stroke o)) (fr_fill o) (fr_locked o) (fr_tstamp o).
(** dataclass == on FpRect *)
Definition FpRect_eqb (a b : FpRect) : bool :=
  Position_eqb (fr_start a) (fr_start b)
  && Position_eqb (fr_end a) (fr_end b)
  && py_eqb (fr_layer a) (fr_layer b)
  && py_eqb (fr_width a) (fr_width b)
  && oeqb Stroke_eqb (fr_stroke a) (fr_stroke b)
  && py_eqb (fr_fill a) (fr_fill b)
  && Bool.eqb (fr_locked a) (fr_locked b)
  && py_eqb (fr_tstamp a) (fr_tstamp b).
Definition FpRect_ok (o : FpRect) : bool :=
  pos2_ok (fr_start o)
  && pos2_ok (fr_end o)
  && txtb (fr_layer o)
  && optb numb (fr_width o)
  && optok Stroke_ok (fr_stroke o)
  && optb wordv (fr_fill o)
  && optb wordv (fr_tstamp o)
  && (width_ok (fr_width o) (fr_stroke o)).


Definition FpCircle_tree (o : FpCircle) : val :=
  node "fp_circle" ([xy_tree "center" (fc_center o); xy_tree "end" (fc_end o); node "layer" [fc_layer o]]
    ++ width_tree (fc_width o) (fc_stroke o) ++ optn "fill" (fc_fill o) ++ optw "locked" (fc_locked o) ++ optn "tstamp" (fc_tstamp o)).
Definition FpCircle_norm (o : FpCircle) : FpCircle :=
  mkFpCircle (Position_norm (fc_center o)) (Position_norm (fc_end o)) (fc_layer o) (nrm (fc_width o)) (option_map Stroke_norm (fc_stroke o)) (fc_fill o) (fc_locked o) (fc_tstamp o).
(** dataclass == on FpCircle *)
Definition FpCircle_eqb (a b : FpCircle) : bool :=
  Position_eqb (fc_center a) (fc_center b)
  && Position_eqb (fc_end a) (fc_end b)
  && py_eqb (fc_layer a) (fc_layer b)
  && py_eqb (fc_width a) (fc_width b)
  && oeqb Stroke_eqb (fc_stroke a) (fc_stroke b)
  && py_eqb (fc_fill a) (fc_fill b)
  && Bool.eqb (fc_locked a) (fc_locked b)
  && py_eqb (fc_tstamp a) (fc_tstamp b).
Definition FpCircle_ok (o : FpCircle) : bool :=
  pos2_ok (fc_center o)
  && pos2_ok (fc_end o)
  && txtb (fc_layer o)
  && optb numb (fc_width o)
  && optok Stroke_ok (fc_stroke o)
  && optb wordv (fc_fill o)
  && optb wordv (fc_tstamp o)
  && (width_ok (fc_width o) (fc_stroke o)).


Definition FpArc_tree (o : FpArc) : val :=
  node "fp_arc" ([xy_tree "start" (fa_start o); xy_tree "mid" (fa_mid o); xy_tree "end" (fa_end o); node "layer" [fa_layer o]]
    ++ width_tree (fa_width o) (fa_stroke o) ++ optw "locked" (fa_locked o) ++ optn "tstamp" (fa_tstamp o)).
Definition FpArc_norm (o : FpArc) : FpArc :=
  mkFpArc (Position_norm (fa_start o)) (Position_norm (fa_mid o)) (Position_norm (fa_end o)) (fa_layer o) (nrm (fa_width o)) (option_map Stroke_norm (fa_stroke o)) (fa_locked o) (fa_tstamp o).
(** dataclass == on FpArc *)
Definition FpArc_eqb (a b : FpArc) : bool :=
  Position_eqb (fa_start a) (fa_start b)
  && Position_eqb (fa_mid a) (fa_mid b)
  && Position_eqb (fa_end a) (fa_end b)
  && py_eqb (fa_layer a) (fa_layer b)
  && py_eqb (fa_width a) (fa_width b)
  && oeqb Stroke_eqb (fa_stroke a) (fa_stroke b)
  && Bool.eqb (fa_locked a) (fa_locked b)
  && py_eqb (fa_tstamp a) (fa_tstamp b).
Definition FpArc_ok (o : FpArc) : bool :=
  pos2_ok (fa_start o)
  && pos2_ok (fa_mid o)
  && pos2_ok (fa_end o)
  && txtb (fa_layer o)
  && optb numb (fa_width o)
  && optok Stroke_ok (fa_stroke o)
  && optb wordv (fa_tstamp o)
  && (width_ok (fa_width o) (fa_stroke o)).


Definition FpPoly_tree (o : FpPoly) : val :=
  node "fp_poly" ([node "pts" (map (xy_tree "xy") (fp_coordinates o)); node "layer" [fp_layer o]]
    ++ width_tree (fp_width o) (fp_stroke o) ++ optn "fill" (fp_fill o) ++ optw "locked" (fp_locked o) ++ optn "tstamp" (fp_tstamp o)).
Definition FpPoly_norm (o : FpPoly) : FpPoly :=
  mkFpPoly (fp_layer o) (map Position_norm (fp_coordinates o)) (nrm (fp_width o)) (option_map Stroke_norm (fp_stroke o)) (fp_fill o) (fp_locked o) (fp_tstamp o).
(** dataclass == on FpPoly *)
Definition FpPoly_eqb (a b : FpPoly) : bool :=
  py_eqb (fp_layer a) (fp_layer b)
  && leqb Position_eqb (fp_coordinates a) (fp_coordinates b)
  && py_eqb (fp_width a) (fp_width b)
  && oeqb Stroke_eqb (fp_stroke a) (fp_stroke b)
  && py_eqb (fp_fill a) (fp_fill b)
  && Bool.eqb (fp_locked a) (fp_locked b)
  && py_eqb (fp_tstamp a) (fp_tstamp b).
Definition FpPoly_ok (o : FpPoly) : bool :=
  txtb (fp_layer o)
  && forallb pos2_ok (fp_coordinates o)
  && optb numb (fp_width o)
  && optok Stroke_ok (fp_stroke o)
  && optb wordv (fp_fill o)
  && optb wordv (fp_tstamp o)
  && (width_ok (fp_width o) (fp_stroke o) && negb (Nat.eqb (length (fp_coordinates o)) 0)).


Definition FpCurve_tree (o : FpCurve) : val :=
  node "fp_curve" ([node "pts" (map (xy_tree "xy") (fv_coordinates o)); node "layer" [fv_layer o]]
    ++ width_tree (fv_width o) (fv_stroke o) ++ optw "locked" (fv_locked o) ++ optn "tstamp" (fv_tstamp o)).
Definition FpCurve_norm (o : FpCurve) : FpCurve :=
  mkFpCurve (map Position_norm (fv_coordinates o)) (fv_layer o) (nrm (fv_width o)) (option_map Stroke_norm (fv_stroke o)) (fv_locked o) (fv_tstamp o).
(** dataclass == on FpCurve *)
Definition FpCurve_eqb (a b : FpCurve) : bool :=
  leqb Position_eqb (fv_coordinates a) (fv_coordinates b)
  && py_eqb (fv_layer a) (fv_layer b)
  && py_eqb (fv_width a) (fv_width b)
  && oeqb Stroke_eqb (fv_stroke a) (fv_stroke b)
  && Bool.eqb (fv_locked a) (fv_locked b)
  && py_eqb (fv_tstamp a) (fv_tstamp b).
Definition FpCurve_ok (o : FpCurve) : bool :=
  forallb pos2_ok (fv_coordinates o)
  && txtb (fv_layer o)
  && optb numb (fv_width o)
  && optok Stroke_ok (fv_stroke o)
  && optb wordv (fv_tstamp o)
  && (width_ok (fv_width o) (fv_stroke o) && negb (Nat.eqb (length (fv_coordinates o)) 0)).


Definition FpTextBox_tree (o : FpTextBox) : val :=
  node "fp_text_box" (optw "locked" (fb_locked o) ++ [fb_text o]
    ++ (if Nat.eqb (length (fb_pts o)) 0 then [] else [node "pts" (map (xy_tree "xy") (fb_pts o))])
    ++ opto (xy_tree "start") (fb_start o) ++ opto (xy_tree "end") (fb_end o) ++ optn "angle" (fb_angle o)
    ++ [node "layer" [fb_layer o]] ++ optn "tstamp" (fb_tstamp o) ++ opto Effects_tree (fb_effects o)
    ++ opto Stroke_tree (fb_stroke o) ++ opto RenderCache_tree (fb_renderCache o)).
Definition FpTextBox_norm (o : FpTextBox) : FpTextBox :=
  mkFpTextBox (fb_locked o) (fb_text o) (option_map Position_norm (fb_start o)) (option_map Position_norm (fb_end o)) (map Position_norm (fb_pts o)) (nrm (fb_angle o)) (fb_layer o) (fb_tstamp o) (option_map Effects_norm (fb_effects o)) (option_map Stroke_norm (fb_stroke o)) (option_map RenderCache_norm (fb_renderCache o)).
(** dataclass == on FpTextBox *)
Definition FpTextBox_eqb (a b : FpTextBox) : bool :=
  Bool.eqb (fb_locked a) (fb_locked b)
  && py_eqb (fb_text a) (fb_text b)
  && oeqb Position_eqb (fb_start a) (fb_start b)
  && oeqb Position_eqb (fb_end a) (fb_end b)
  && leqb Position_eqb (fb_pts a) (fb_pts b)
  && py_eqb (fb_angle a) (fb_angle b)
  && py_eqb (fb_layer a) (fb_layer b)
  && py_eqb (fb_tstamp a) (fb_tstamp b)
  && oeqb Effects_eqb (fb_effects a) (fb_effects b)
  && oeqb Stroke_eqb (fb_stroke a) (fb_stroke b)
  && oeqb RenderCache_eqb (fb_renderCache a) (fb_renderCache b).
Definition FpTextBox_ok (o : FpTextBox) : bool :=
  txtb (fb_text o)
  && optok pos2_ok (fb_start o)
  && optok pos2_ok (fb_end o)
  && forallb pos2_ok (fb_pts o)
  && optb numb (fb_angle o)
  && txtb (fb_layer o)
  && optb wordv (fb_tstamp o)
  && optok Effects_ok (fb_effects o)
  && optok Stroke_ok (fb_stroke o)
  && optok RenderCache_ok (fb_renderCache o)
  && (text_box_ok (fb_angle o) (fb_pts o) (fb_start o) (fb_end o)).

