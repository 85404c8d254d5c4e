(** Specification of items/fpitems.py. *)
From Verif Require Import PyBase PyNum PyStr Sexpr S_Leaf S_Tree M_Common S_Common M_Fp.

Definition FpText_tree (o : FpText) : val :=
  node "fp_text" ([ft_type o; ft_text o; at_tree "at" (ft_position o); node "layer" (ft_layer o :: optw "knockout" (ft_knockout o))]
    ++ optw "hide" (ft_hide o) ++ [Effects_tree (ft_effects o)] ++ optn "tstamp" (ft_tstamp o)
    ++ opto RenderCache_tree (ft_renderCache o)).
@ok FpText

(** The line is described by a [stroke] (KiCad 7) or else by a [width]; exactly one of the two has
    to be given: without either the reader supplies its default width. *)
Definition width_tree (width : val) (stroke : option Stroke) : list val :=
  match stroke with Some s => [Stroke_tree s] | None => [node "width" [width]] end.
Definition width_ok (width : val) (stroke : option Stroke) : bool :=
  Bool.eqb (is_none width) (negb (no_object stroke)).
(** A text box needs [start] and [end] unless its angle is given and is no multiple of a right angle;
    then it needs four corners. *)
Definition right_angle (v : val) : bool :=
  match v with
  | VInt z => existsb (Z.eqb z) [0; 90; 180; 270]%Z
  | VFloat f => existsb (dbl_eq_Z f) [0; 90; 180; 270]%Z
  | _ => false
  end.
Definition text_box_ok (angle : val) (pts : list Position) (start end_ : option Position) : bool :=
  existsb (Nat.eqb (length pts)) [0; 4]
  && (if is_none angle || right_angle angle then negb (no_object start) && negb (no_object end_) else Nat.eqb (length pts) 4).

Definition FpLine_tree (o : FpLine) : val :=
  node "fp_line" ([xy_tree "start" (fl_start o); xy_tree "end" (fl_end o); node "layer" [fl_layer o]]
    ++ width_tree (fl_width o) (fl_stroke o) ++ optn "tstamp" (fl_tstamp o)).
@ok FpLine width_ok (fl_width o) (fl_stroke o)

Definition FpRect_tree (o : FpRect) : val :=
  node "fp_rect" ([xy_tree "start" (fr_start o); xy_tree "end" (fr_end o); node "layer" [fr_layer o]]
    ++ width_tree (fr_width o) (fr_stroke o) ++ optn "fill" (fr_fill o) ++ optw "locked" (fr_locked o) ++ optn "tstamp" (fr_tstamp o)).
@ok FpRect width_ok (fr_width o) (fr_stroke o)

Definition FpCircle_tree (o : FpCircle) : val :=
  node "fp_circle" ([xy_tree "center" (fc_center o); xy_tree "end" (fc_end o); node "layer" [fc_layer o]]
    ++ width_tree (fc_width o) (fc_stroke o) ++ optn "fill" (fc_fill o) ++ optw "locked" (fc_locked o) ++ optn "tstamp" (fc_tstamp o)).
@ok FpCircle width_ok (fc_width o) (fc_stroke o)

Definition FpArc_tree (o : FpArc) : val :=
  node "fp_arc" ([xy_tree "start" (fa_start o); xy_tree "mid" (fa_mid o); xy_tree "end" (fa_end o); node "layer" [fa_layer o]]
    ++ width_tree (fa_width o) (fa_stroke o) ++ optw "locked" (fa_locked o) ++ optn "tstamp" (fa_tstamp o)).
@ok FpArc width_ok (fa_width o) (fa_stroke o)

Definition FpPoly_tree (o : FpPoly) : val :=
  node "fp_poly" ([node "pts" (map (xy_tree "xy") (fp_coordinates o)); node "layer" [fp_layer o]]
    ++ width_tree (fp_width o) (fp_stroke o) ++ optn "fill" (fp_fill o) ++ optw "locked" (fp_locked o) ++ optn "tstamp" (fp_tstamp o)).
@ok FpPoly width_ok (fp_width o) (fp_stroke o) && negb (Nat.eqb (length (fp_coordinates o)) 0)

Definition FpCurve_tree (o : FpCurve) : val :=
  node "fp_curve" ([node "pts" (map (xy_tree "xy") (fv_coordinates o)); node "layer" [fv_layer o]]
    ++ width_tree (fv_width o) (fv_stroke o) ++ optw "locked" (fv_locked o) ++ optn "tstamp" (fv_tstamp o)).
@ok FpCurve width_ok (fv_width o) (fv_stroke o) && negb (Nat.eqb (length (fv_coordinates o)) 0)

Definition FpTextBox_tree (o : FpTextBox) : val :=
  node "fp_text_box" (optw "locked" (fb_locked o) ++ [fb_text o]
    ++ (if Nat.eqb (length (fb_pts o)) 0 then [] else [node "pts" (map (xy_tree "xy") (fb_pts o))])
    ++ opto (xy_tree "start") (fb_start o) ++ opto (xy_tree "end") (fb_end o) ++ optn "angle" (fb_angle o)
    ++ [node "layer" [fb_layer o]] ++ optn "tstamp" (fb_tstamp o) ++ opto Effects_tree (fb_effects o)
    ++ opto Stroke_tree (fb_stroke o) ++ opto RenderCache_tree (fb_renderCache o)).
@ok FpTextBox text_box_ok (fb_angle o) (fb_pts o) (fb_start o) (fb_end o)
