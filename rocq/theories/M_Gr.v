(** Model of items/gritems.py. *)
From Verif Require Import PyBase PyNum PyStr Sexpr M_Common M_Fp.

(** items/gritems.py:26-61: attributes of GrText and their defaults *)
Record GrText := mkGrText {
  gt_text : val;
  gt_knockout : bool;
  gt_position : Position;
  gt_layer : val;
  gt_effects : Effects;
  gt_tstamp : val;
  gt_locked : bool;
  gt_renderCache : option RenderCache }.
#[export] Instance eta_GrText : Settable GrText :=
  settable! mkGrText <gt_text; gt_knockout; gt_position; gt_layer; gt_effects; gt_tstamp; gt_locked; gt_renderCache>.
Definition GrText_default : GrText :=
  mkGrText (VStr []) false Position_default VNone Effects_default VNone false None.

(** gritems.py:86-97 *)
Definition GrText_step (o : GrText) (item : val) : res GrText :=
  if negb (is_list item) then on (item =s "locked") (setf gt_locked (Ok true)) o else
  let! h := item@0 in
  let! o := on (h =s "at") (setf gt_position (Position_from item)) o in
  let! o := on (h =s "layer") (fun o =>
    let! o := setf gt_layer (item@1) o in
    let! n := len_ item in
    if Nat.ltb 2 n then let! k := item@2 in on (k =s "knockout") (setf gt_knockout (Ok true)) o else Ok o) o in
  let! o := on (h =s "effects") (setf gt_effects (Effects_from item)) o in
  let! o := on (h =s "tstamp") (setf gt_tstamp (item@1)) o in
  let! o := on (h =s "render_cache") (setf gt_renderCache (let! r := RenderCache_from item in Ok (Some r))) o in
  Ok o.
(** gritems.py:63-98 *)
Definition GrText_from (exp : val) : res GrText :=
  let! l := need_head "gr_text" exp in
  let! text := exp@1 in
  foldM GrText_step (GrText_default <| gt_text := text |>) (skipn 2 l).
(** gritems.py:100-124 *)
Definition GrText_to (o : GrText) (indent : nat) (newline : bool) : res str :=
  let indents := spaces indent in
  let ko := if gt_knockout o then $" knockout" else [] in
  let posA := angle_str (gt_position o) in
  let layer := if is_none (gt_layer o) then [] else $" (layer " ++ quoted (gt_layer o) ++ ko ++ $")" in
  let tstamp := if is_none (gt_tstamp o) then [] else $" (tstamp " ++ fmt (gt_tstamp o) ++ $")" in
  let locked := if gt_locked o then $" locked" else [] in
  let! effects := Effects_to (gt_effects o) 0 true in
  let! cache := opt_str (gt_renderCache o) (fun r => RenderCache_to r (indent + 2) true) in
  Ok (indents ++ $"(gr_text" ++ locked ++ $" " ++ quoted (gt_text o) ++ $" (at " ++ fmt (po_X (gt_position o)) ++ $" "
      ++ fmt (po_Y (gt_position o)) ++ posA ++ $")" ++ layer ++ tstamp ++ nl
      ++ indents ++ $"  " ++ effects ++ cache ++ indents ++ $")" ++ eol newline).

(** items/gritems.py:275-302: attributes of GrLine and their defaults *)
Record GrLine := mkGrLine {
  gl_start : Position;
  gl_end : Position;
  gl_angle : val;
  gl_layer : val;
  gl_width : val;
  gl_tstamp : val;
  gl_locked : bool }.
#[export] Instance eta_GrLine : Settable GrLine :=
  settable! mkGrLine <gl_start; gl_end; gl_angle; gl_layer; gl_width; gl_tstamp; gl_locked>.
Definition GrLine_default : GrLine :=
  mkGrLine Position_default Position_default VNone VNone (fdec 12 (-2)) VNone false.

(** gritems.py:326-333 *)
Definition GrLine_step (o : GrLine) (item : val) : res GrLine :=
  if negb (is_list item) then on (item =s "locked") (setf gl_locked (Ok true)) o else
  let! h := item@0 in
  let! o := on (h =s "start") (setf gl_start (Position_from item)) o in
  let! o := on (h =s "end") (setf gl_end (Position_from item)) o in
  let! o := on (h =s "layer") (setf gl_layer (item@1)) o in
  let! o := on (h =s "tstamp") (setf gl_tstamp (item@1)) o in
  let! o := on (h =s "width") (setf gl_width (item@1)) o in
  Ok o.
(** gritems.py:304-334 *)
Definition GrLine_from (exp : val) : res GrLine :=
  let! l := need_head "gr_line" exp in foldM GrLine_step GrLine_default l.
(** gritems.py:336-354: the closing parenthesis of the angle is missing *)
Definition GrLine_to (o : GrLine) (indent : nat) (newline : bool) : res str :=
  let indents := spaces indent in
  let tstamp := if is_none (gl_tstamp o) then [] else $" (tstamp " ++ fmt (gl_tstamp o) ++ $")" in
  let layer := if is_none (gl_layer o) then [] else $" (layer " ++ quoted (gl_layer o) ++ $")" in
  let locked := if gl_locked o then $" locked" else [] in
  let angle := if is_none (gl_angle o) then [] else $" (angle " ++ fmt (gl_angle o) in
  Ok (indents ++ $"(gr_line" ++ locked ++ $" (start " ++ fmt (po_X (gl_start o)) ++ $" " ++ fmt (po_Y (gl_start o)) ++ $")" ++ $" (end " ++ fmt (po_X (gl_end o)) ++ $" " ++ fmt (po_Y (gl_end o)) ++ $")"
      ++ angle ++ layer ++ $" (width " ++ fmt (gl_width o) ++ $")" ++ tstamp ++ $")" ++ eol newline).

(** items/gritems.py:356-383: attributes of GrRect and their defaults *)
Record GrRect := mkGrRect {
  gr_start : Position;
  gr_end : Position;
  gr_layer : val;
  gr_width : val;
  gr_fill : val;
  gr_tstamp : val;
  gr_locked : bool }.
#[export] Instance eta_GrRect : Settable GrRect :=
  settable! mkGrRect <gr_start; gr_end; gr_layer; gr_width; gr_fill; gr_tstamp; gr_locked>.
Definition GrRect_default : GrRect :=
  mkGrRect Position_default Position_default VNone (fdec 12 (-2)) VNone VNone false.

(** gritems.py:407-415 *)
Definition GrRect_step (o : GrRect) (item : val) : res GrRect :=
  if negb (is_list item) then on (item =s "locked") (setf gr_locked (Ok true)) o else
  let! h := item@0 in
  let! o := on (h =s "start") (setf gr_start (Position_from item)) o in
  let! o := on (h =s "end") (setf gr_end (Position_from item)) o in
  let! o := on (h =s "layer") (setf gr_layer (item@1)) o in
  let! o := on (h =s "tstamp") (setf gr_tstamp (item@1)) o in
  let! o := on (h =s "fill") (setf gr_fill (item@1)) o in
  let! o := on (h =s "width") (setf gr_width (item@1)) o in
  Ok o.
(** gritems.py:385-416 *)
Definition GrRect_from (exp : val) : res GrRect :=
  let! l := need_head "gr_rect" exp in foldM GrRect_step GrRect_default l.
(** gritems.py:418-436 *)
Definition GrRect_to (o : GrRect) (indent : nat) (newline : bool) : res str :=
  let indents := spaces indent in
  let tstamp := if is_none (gr_tstamp o) then [] else $" (tstamp " ++ fmt (gr_tstamp o) ++ $")" in
  let layer := if is_none (gr_layer o) then [] else $" (layer " ++ quoted (gr_layer o) ++ $")" in
  let locked := if gr_locked o then $" locked" else [] in
  let fill := if is_none (gr_fill o) then [] else $" (fill " ++ fmt (gr_fill o) ++ $")" in
  Ok (indents ++ $"(gr_rect" ++ locked ++ $" (start " ++ fmt (po_X (gr_start o)) ++ $" " ++ fmt (po_Y (gr_start o)) ++ $")" ++ $" (end " ++ fmt (po_X (gr_end o)) ++ $" " ++ fmt (po_Y (gr_end o)) ++ $")"
      ++ layer ++ $" (width " ++ fmt (gr_width o) ++ $")" ++ fill ++ tstamp ++ $")" ++ eol newline).

(** items/gritems.py:438-465: attributes of GrCircle and their defaults *)
Record GrCircle := mkGrCircle {
  gc_center : Position;
  gc_end : Position;
  gc_layer : val;
  gc_width : val;
  gc_fill : val;
  gc_tstamp : val;
  gc_locked : bool }.
#[export] Instance eta_GrCircle : Settable GrCircle :=
  settable! mkGrCircle <gc_center; gc_end; gc_layer; gc_width; gc_fill; gc_tstamp; gc_locked>.
Definition GrCircle_default : GrCircle :=
  mkGrCircle Position_default Position_default VNone (fdec 12 (-2)) VNone VNone false.

(** gritems.py:489-497 *)
Definition GrCircle_step (o : GrCircle) (item : val) : res GrCircle :=
  if negb (is_list item) then on (item =s "locked") (setf gc_locked (Ok true)) o else
  let! h := item@0 in
  let! o := on (h =s "center") (setf gc_center (Position_from item)) o in
  let! o := on (h =s "end") (setf gc_end (Position_from item)) o in
  let! o := on (h =s "layer") (setf gc_layer (item@1)) o in
  let! o := on (h =s "tstamp") (setf gc_tstamp (item@1)) o in
  let! o := on (h =s "fill") (setf gc_fill (item@1)) o in
  let! o := on (h =s "width") (setf gc_width (item@1)) o in
  Ok o.
(** gritems.py:467-499 *)
Definition GrCircle_from (exp : val) : res GrCircle :=
  let! l := need_head "gr_circle" exp in foldM GrCircle_step GrCircle_default l.
(** gritems.py:501-519 *)
Definition GrCircle_to (o : GrCircle) (indent : nat) (newline : bool) : res str :=
  let indents := spaces indent in
  let tstamp := if is_none (gc_tstamp o) then [] else $" (tstamp " ++ fmt (gc_tstamp o) ++ $")" in
  let layer := if is_none (gc_layer o) then [] else $" (layer " ++ quoted (gc_layer o) ++ $")" in
  let locked := if gc_locked o then $" locked" else [] in
  let fill := if is_none (gc_fill o) then [] else $" (fill " ++ fmt (gc_fill o) ++ $")" in
  Ok (indents ++ $"(gr_circle" ++ locked ++ $" (center " ++ fmt (po_X (gc_center o)) ++ $" " ++ fmt (po_Y (gc_center o)) ++ $")" ++ $" (end " ++ fmt (po_X (gc_end o)) ++ $" " ++ fmt (po_Y (gc_end o)) ++ $")"
      ++ layer ++ $" (width " ++ fmt (gc_width o) ++ $")" ++ fill ++ tstamp ++ $")" ++ eol newline).

(** items/gritems.py:521-548: attributes of GrArc and their defaults *)
Record GrArc := mkGrArc {
  ga_start : Position;
  ga_mid : Position;
  ga_end : Position;
  ga_layer : val;
  ga_width : val;
  ga_tstamp : val;
  ga_locked : bool }.
#[export] Instance eta_GrArc : Settable GrArc :=
  settable! mkGrArc <ga_start; ga_mid; ga_end; ga_layer; ga_width; ga_tstamp; ga_locked>.
Definition GrArc_default : GrArc :=
  mkGrArc Position_default Position_default Position_default VNone (fdec 12 (-2)) VNone false.

(** gritems.py:572-580 *)
Definition GrArc_step (o : GrArc) (item : val) : res GrArc :=
  if negb (is_list item) then on (item =s "locked") (setf ga_locked (Ok true)) o else
  let! h := item@0 in
  let! o := on (h =s "start") (setf ga_start (Position_from item)) o in
  let! o := on (h =s "mid") (setf ga_mid (Position_from item)) o in
  let! o := on (h =s "end") (setf ga_end (Position_from item)) o in
  let! o := on (h =s "layer") (setf ga_layer (item@1)) o in
  let! o := on (h =s "tstamp") (setf ga_tstamp (item@1)) o in
  let! o := on (h =s "width") (setf ga_width (item@1)) o in
  Ok o.
(** gritems.py:550-582 *)
Definition GrArc_from (exp : val) : res GrArc :=
  let! l := need_head "gr_arc" exp in foldM GrArc_step GrArc_default l.
(** gritems.py:584-601 *)
Definition GrArc_to (o : GrArc) (indent : nat) (newline : bool) : res str :=
  let indents := spaces indent in
  let tstamp := if is_none (ga_tstamp o) then [] else $" (tstamp " ++ fmt (ga_tstamp o) ++ $")" in
  let layer := if is_none (ga_layer o) then [] else $" (layer " ++ quoted (ga_layer o) ++ $")" in
  let locked := if ga_locked o then $" locked" else [] in
  Ok (indents ++ $"(gr_arc" ++ locked ++ $" (start " ++ fmt (po_X (ga_start o)) ++ $" " ++ fmt (po_Y (ga_start o)) ++ $")" ++ $" (mid " ++ fmt (po_X (ga_mid o)) ++ $" " ++ fmt (po_Y (ga_mid o)) ++ $")" ++ $" (end " ++ fmt (po_X (ga_end o)) ++ $" " ++ fmt (po_Y (ga_end o)) ++ $")"
      ++ layer ++ $" (width " ++ fmt (ga_width o) ++ $")" ++ tstamp ++ $")" ++ eol newline).

(** items/gritems.py:603-627: attributes of GrPoly and their defaults *)
Record GrPoly := mkGrPoly {
  gp_layer : val;
  gp_coordinates : list Position;
  gp_width : val;
  gp_fill : val;
  gp_tstamp : val;
  gp_locked : bool }.
#[export] Instance eta_GrPoly : Settable GrPoly :=
  settable! mkGrPoly <gp_layer; gp_coordinates; gp_width; gp_fill; gp_tstamp; gp_locked>.
Definition GrPoly_default : GrPoly :=
  mkGrPoly VNone [] (fdec 12 (-2)) VNone VNone false.

(** gritems.py:652-661 *)
Definition GrPoly_step (o : GrPoly) (item : val) : res GrPoly :=
  if negb (is_list item) then on (item =s "locked") (setf gp_locked (Ok true)) o else
  let! h := item@0 in
  let! o := on (h =s "pts") (extf gp_coordinates (let! l := from_ item 1 in mapM Position_from l)) o in
  let! o := on (h =s "layer") (setf gp_layer (item@1)) o in
  let! o := on (h =s "tstamp") (setf gp_tstamp (item@1)) o in
  let! o := on (h =s "fill") (setf gp_fill (item@1)) o in
  let! o := on (h =s "width") (setf gp_width (item@1)) o in
  Ok o.
(** gritems.py:629-663 *)
Definition GrPoly_from (exp : val) : res GrPoly :=
  let! l := need_head "gr_poly" exp in foldM GrPoly_step GrPoly_default l.
(** gritems.py:665-698 *)
Definition GrPoly_to_pts (pts_newline : bool) (o : GrPoly) (indent : nat) (newline : bool) : res str :=
  let indents := spaces indent in
  if Nat.eqb (length (gp_coordinates o)) 0 then Ok (indents ++ eol newline) else
  let tstamp := if is_none (gp_tstamp o) then [] else $" (tstamp " ++ fmt (gp_tstamp o) ++ $")" in
  let layer := if is_none (gp_layer o) then [] else $" (layer " ++ quoted (gp_layer o) ++ $")" in
  let locked := if gp_locked o then $" locked" else [] in
  let fill := if is_none (gp_fill o) then [] else $" (fill " ++ fmt (gp_fill o) ++ $")" in
  let! pts := concatM (fun p => Ok (indents ++ $"    (xy " ++ fmt (po_X p) ++ $" " ++ fmt (po_Y p) ++ $")" ++ nl)) (gp_coordinates o) in
  let head := if pts_newline then indents ++ $"(gr_poly" ++ locked ++ nl ++ indents ++ $"  (pts" ++ nl
              else indents ++ $"(gr_poly" ++ locked ++ $" (pts" ++ nl in
  Ok (head ++ pts ++ indents ++ $"  )" ++ layer ++ $" (width " ++ fmt (gp_width o) ++ $")" ++ fill ++ tstamp ++ $")" ++ eol newline).
(** without the keyword argument *)
Definition GrPoly_to : GrPoly -> nat -> bool -> res str := GrPoly_to_pts false.

(** items/gritems.py:700-720: attributes of GrCurve and their defaults *)
Record GrCurve := mkGrCurve {
  gv_coordinates : list Position;
  gv_layer : val;
  gv_width : val;
  gv_tstamp : val;
  gv_locked : bool }.
#[export] Instance eta_GrCurve : Settable GrCurve :=
  settable! mkGrCurve <gv_coordinates; gv_layer; gv_width; gv_tstamp; gv_locked>.
Definition GrCurve_default : GrCurve :=
  mkGrCurve [] VNone (fdec 12 (-2)) VNone false.

(** gritems.py:744-752 *)
Definition GrCurve_step (o : GrCurve) (item : val) : res GrCurve :=
  if negb (is_list item) then on (item =s "locked") (setf gv_locked (Ok true)) o else
  let! h := item@0 in
  let! o := on (h =s "pts") (extf gv_coordinates (let! l := from_ item 1 in mapM Position_from l)) o in
  let! o := on (h =s "layer") (setf gv_layer (item@1)) o in
  let! o := on (h =s "tstamp") (setf gv_tstamp (item@1)) o in
  let! o := on (h =s "width") (setf gv_width (item@1)) o in
  Ok o.
(** gritems.py:722-754 *)
Definition GrCurve_from (exp : val) : res GrCurve :=
  let! l := need_head "gr_curve" exp in foldM GrCurve_step GrCurve_default l.
(** gritems.py:756-780 *)
Definition GrCurve_to (o : GrCurve) (indent : nat) (newline : bool) : res str :=
  let indents := spaces indent in
  if Nat.eqb (length (gv_coordinates o)) 0 then Ok (indents ++ eol newline) else
  let tstamp := if is_none (gv_tstamp o) then [] else $" (tstamp " ++ fmt (gv_tstamp o) ++ $")" in
  let layer := if is_none (gv_layer o) then [] else $" (layer " ++ quoted (gv_layer o) ++ $")" in
  let locked := if gv_locked o then $" locked" else [] in
  let! pts := concatM (fun p => Ok (indents ++ $"  (xy " ++ fmt (po_X p) ++ $" " ++ fmt (po_Y p) ++ $")" ++ nl)) (gv_coordinates o) in
  Ok (indents ++ $"(gr_curve" ++ locked ++ $" (pts" ++ nl ++ pts ++ indents ++ $")" ++ layer ++ $" (width " ++ fmt (gv_width o) ++ $")" ++ tstamp ++ $")" ++ eol newline).

(** items/gritems.py:126-180: attributes of GrTextBox and their defaults *)
Record GrTextBox := mkGrTextBox {
  gb_locked : bool;
  gb_text : val;
  gb_start : option Position;
  gb_end : option Position;
  gb_pts : list Position;
  gb_angle : val;
  gb_layer : val;
  gb_tstamp : val;
  gb_effects : option Effects;
  gb_stroke : option Stroke;
  gb_renderCache : option RenderCache }.
#[export] Instance eta_GrTextBox : Settable GrTextBox :=
  settable! mkGrTextBox <gb_locked; gb_text; gb_start; gb_end; gb_pts; gb_angle; gb_layer; gb_tstamp; gb_effects; gb_stroke; gb_renderCache>.
Definition GrTextBox_default : GrTextBox :=
  mkGrTextBox false (VStr []) None None [] VNone (VStr $"F.Cu") VNone None None None.

(** gritems.py:214-224 *)
Definition GrTextBox_step (o : GrTextBox) (item : val) : res GrTextBox :=
  let! h := item@0 in
  let! o := on (h =s "start") (setf gb_start (let! p := Position_from item in Ok (Some p))) o in
  let! o := on (h =s "end") (setf gb_end (let! p := Position_from item in Ok (Some p))) o in
  let! o := on (h =s "pts") (extf gb_pts (let! l := from_ item 1 in mapM Position_from l)) o in
  let! o := on (h =s "angle") (setf gb_angle (item@1)) o in
  let! o := on (h =s "layer") (setf gb_layer (item@1)) o in
  let! o := on (h =s "tstamp") (setf gb_tstamp (item@1)) o in
  let! o := on (h =s "effects") (setf gb_effects (let! e := Effects_from item in Ok (Some e))) o in
  let! o := on (h =s "stroke") (setf gb_stroke (let! s := Stroke_from item in Ok (Some s))) o in
  let! o := on (h =s "render_cache") (setf gb_renderCache (let! r := RenderCache_from item in Ok (Some r))) o in
  Ok o.
(** gritems.py:182-226 *)
Definition GrTextBox_from (exp : val) : res GrTextBox :=
  let! l := need_list exp in
  if Nat.ltb (length l) 2 then Err EException else
  let! h := exp@0 in
  if negb (h =s "gr_text_box") then Err EException else
  let! locked := text_box_locked exp in
  let! text := exp@(if locked then 2 else 1) in
  foldM GrTextBox_step (GrTextBox_default <| gb_locked := locked |> <| gb_text := text |>) (skipn (if locked then 3 else 2) l).
(** gritems.py:228-273 *)
Definition GrTextBox_to (o : GrTextBox) (indent : nat) (newline : bool) : res str :=
  if negb (is_none (gb_angle o)) && negb (cardinal (gb_angle o)) && negb (Nat.eqb (length (gb_pts o)) 4) then Err EException else
  if (is_none (gb_angle o) || cardinal (gb_angle o)) && (no_object (gb_start o) || no_object (gb_end o)) then Err EException else
  let indents := spaces indent in
  let tstamp := if is_none (gb_tstamp o) then [] else $" (tstamp " ++ fmt (gb_tstamp o) ++ $")" in
  let angle := if is_none (gb_angle o) then [] else $"(angle " ++ fmt (gb_angle o) ++ $") " in
  let! start := opt_str (gb_start o) (fun p => Ok ($"(start " ++ fmt (po_X p) ++ $" " ++ fmt (po_Y p) ++ $") ")) in
  let! end_ := opt_str (gb_end o) (fun p => Ok ($"(end " ++ fmt (po_X p) ++ $" " ++ fmt (po_Y p) ++ $") ")) in
  let locked := if gb_locked o then $" locked" else [] in
  let pts :=
    match gb_pts o with
    | [a; b; c; d] =>
        indents ++ $"  (pts" ++ nl
        ++ indents ++ $"    (xy " ++ fmt (po_X a) ++ $" " ++ fmt (po_Y a) ++ $")        (xy " ++ fmt (po_X b) ++ $" " ++ fmt (po_Y b)
        ++ $")        (xy " ++ fmt (po_X c) ++ $" " ++ fmt (po_Y c) ++ $")        (xy " ++ fmt (po_X d) ++ $" " ++ fmt (po_Y d) ++ $")" ++ nl
        ++ indents ++ $"  )" ++ nl
    | _ => []
    end in
  let! effects := opt_str (gb_effects o) (fun e => Effects_to e (indent + 2) true) in
  let! stroke := opt_str (gb_stroke o) (fun s => Stroke_to s (indent + 2) true) in
  let! cache := opt_str (gb_renderCache o) (fun r => RenderCache_to r (indent + 2) true) in
  Ok (indents ++ $"(gr_text_box" ++ locked ++ $" " ++ quoted (gb_text o) ++ nl ++ pts
      ++ indents ++ $"  " ++ start ++ end_ ++ angle ++ $"(layer " ++ quoted (gb_layer o) ++ $")" ++ tstamp ++ nl
      ++ effects ++ stroke ++ cache ++ indents ++ $")" ++ eol newline).
