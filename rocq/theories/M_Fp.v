(** Model of items/fpitems.py. *)
From Verif Require Import PyBase PyNum PyStr Sexpr M_Common.

(** items/fpitems.py:29-68: attributes of FpText and their defaults *)
Record FpText := mkFpText {
  ft_type : val;
  ft_text : val;
  ft_position : Position;
  ft_layer : val;
  ft_knockout : bool;
  ft_hide : bool;
  ft_effects : Effects;
  ft_tstamp : val;
  ft_renderCache : option RenderCache }.
#[export] Instance eta_FpText : Settable FpText :=
  settable! mkFpText <ft_type; ft_text; ft_position; ft_layer; ft_knockout; ft_hide; ft_effects; ft_tstamp; ft_renderCache>.
Definition FpText_default : FpText :=
  mkFpText (VStr $"reference") (VStr $"%REF") Position_default (VStr $"F.Cu") false false Effects_default VNone None.

(** fpitems.py:94-105 *)
Definition FpText_step (o : FpText) (item : val) : res FpText :=
  if negb (is_list item) then on (item =s "hide") (setf ft_hide (Ok true)) o else
  let! h := item@0 in
  let! o := on (h =s "at") (setf ft_position (Position_from item)) o in
  let! o := on (h =s "layer") (fun o =>
    let! o := setf ft_layer (item@1) o in
    let! n := len_ item in
    if Nat.ltb 2 n then let! k := item@2 in on (k =s "knockout") (setf ft_knockout (Ok true)) o else Ok o) o in
  let! o := on (h =s "effects") (setf ft_effects (Effects_from item)) o in
  let! o := on (h =s "tstamp") (setf ft_tstamp (item@1)) o in
  let! o := on (h =s "render_cache") (setf ft_renderCache (let! r := RenderCache_from item in Ok (Some r))) o in
  Ok o.
(** fpitems.py:70-106 *)
Definition FpText_from (exp : val) : res FpText :=
  let! l := need_head "fp_text" exp in
  let! type := exp@1 in
  let! text := exp@2 in
  foldM FpText_step (FpText_default <| ft_type := type |> <| ft_text := text |>) (skipn 3 l).
(** fpitems.py:108-133 *)
Definition FpText_to (o : FpText) (indent : nat) (newline : bool) : res str :=
  let indents := spaces indent in
  let hide := if ft_hide o then $" hide" else [] in
  let unlocked := if po_unlocked (ft_position o) then $" unlocked" else [] in
  let posA := angle_str (ft_position o) in
  let ko := if ft_knockout o then $" knockout" else [] in
  let! effects := Effects_to (ft_effects o) 0 true in
  let tstamp := if is_none (ft_tstamp o) then [] else indents ++ $"  (tstamp " ++ fmt (ft_tstamp o) ++ $")" ++ nl in
  let! cache := opt_str (ft_renderCache o) (fun r => RenderCache_to r (indent + 2) true) in
  Ok (indents ++ $"(fp_text " ++ fmt (ft_type o) ++ $" " ++ quoted (ft_text o) ++ $" (at " ++ fmt (po_X (ft_position o)) ++ $" "
      ++ fmt (po_Y (ft_position o)) ++ posA ++ unlocked ++ $") (layer " ++ quoted (ft_layer o) ++ ko ++ $")" ++ hide ++ nl
      ++ indents ++ $"  " ++ effects ++ tstamp ++ cache ++ indents ++ $")" ++ eol newline).

(** fpitems.py:218-223, 317-322, 563-568, 660-665, 761-766, 859-864: [width] *)
Definition width_str (width : val) (stroke : option Stroke) : res str :=
  if is_none width then
    match stroke with
    | Some s => let! s := Stroke_to s 0 false in Ok ($" " ++ s)
    | None => Ok []
    end
  else Ok ($" (width " ++ fmt width ++ $")").
(** fpitems.py:442-445, gritems.py:244-247: [self.angle in [0.0, 90.0, 180.0, 270.0]] *)
Definition cardinal (angle : val) : bool :=
  existsb (py_eqb angle) [fdec 0 0; fdec 90 0; fdec 180 0; fdec 270 0].
(** fpitems.py:403, gritems.py:205: [exp[1] == "locked" and not isinstance(exp[2], list)] *)
Definition text_box_locked (exp : val) : res bool :=
  let! x := exp@1 in
  if x =s "locked" then let! y := exp@2 in Ok (negb (is_list y)) else Ok false.

(** items/fpitems.py:135-164: attributes of FpLine and their defaults *)
Record FpLine := mkFpLine {
  fl_start : Position;
  fl_end : Position;
  fl_layer : val;
  fl_width : val;
  fl_stroke : option Stroke;
  fl_locked : bool;
  fl_tstamp : val }.
#[export] Instance eta_FpLine : Settable FpLine :=
  settable! mkFpLine <fl_start; fl_end; fl_layer; fl_width; fl_stroke; fl_locked; fl_tstamp>.
Definition FpLine_default : FpLine :=
  mkFpLine Position_default Position_default (VStr $"F.Cu") (fdec 12 (-2)) None false VNone.

(** fpitems.py:188-201: the bare word [locked] goes on to the tests of [item[0]], a letter *)
Definition FpLine_step (o : FpLine) (item : val) : res FpLine :=
  if negb (is_list item) && negb (item =s "locked") then Ok o else
  let! o := on (negb (is_list item)) (setf fl_locked (Ok true)) o in
  let! h := item@0 in
  let! o := on (h =s "start") (setf fl_start (Position_from item)) o in
  let! o := on (h =s "end") (setf fl_end (Position_from item)) o in
  let! o := on (h =s "layer") (setf fl_layer (item@1)) o in
  let! o := on (h =s "tstamp") (setf fl_tstamp (item@1)) o in
  let! o := on (h =s "width") (setf fl_width (item@1)) o in
  let! o := on (h =s "width") (setf fl_stroke (Ok None)) o in
  let! o := on (h =s "stroke") (setf fl_stroke (let! s := Stroke_from item in Ok (Some s))) o in
  let! o := on (h =s "stroke") (setf fl_width (Ok VNone)) o in
  Ok o.
(** fpitems.py:166-203 *)
Definition FpLine_from (exp : val) : res FpLine :=
  let! l := need_head "fp_line" exp in foldM FpLine_step FpLine_default l.
(** fpitems.py:205-225 *)
Definition FpLine_to (o : FpLine) (indent : nat) (newline : bool) : res str :=
  let indents := spaces indent in
  let tstamp := if is_none (fl_tstamp o) then [] else $" (tstamp " ++ fmt (fl_tstamp o) ++ $")" in
  let! width := width_str (fl_width o) (fl_stroke o) in
  Ok (indents ++ $"(fp_line" ++ $" (start " ++ fmt (po_X (fl_start o)) ++ $" " ++ fmt (po_Y (fl_start o)) ++ $")" ++ $" (end " ++ fmt (po_X (fl_end o)) ++ $" " ++ fmt (po_Y (fl_end o)) ++ $")"
      ++ $" (layer " ++ quoted (fl_layer o) ++ $")" ++ width ++ tstamp ++ $")" ++ eol newline).

(** items/fpitems.py:227-258: attributes of FpRect and their defaults *)
Record FpRect := mkFpRect {
  fr_start : Position;
  fr_end : Position;
  fr_layer : val;
  fr_width : val;
  fr_stroke : option Stroke;
  fr_fill : val;
  fr_locked : bool;
  fr_tstamp : val }.
#[export] Instance eta_FpRect : Settable FpRect :=
  settable! mkFpRect <fr_start; fr_end; fr_layer; fr_width; fr_stroke; fr_fill; fr_locked; fr_tstamp>.
Definition FpRect_default : FpRect :=
  mkFpRect Position_default Position_default (VStr $"F.Cu") (fdec 12 (-2)) None VNone false VNone.

(** fpitems.py:282-296: the bare word [locked] goes on to the tests of [item[0]], a letter *)
Definition FpRect_step (o : FpRect) (item : val) : res FpRect :=
  if negb (is_list item) && negb (item =s "locked") then Ok o else
  let! o := on (negb (is_list item)) (setf fr_locked (Ok true)) o in
  let! h := item@0 in
  let! o := on (h =s "start") (setf fr_start (Position_from item)) o in
  let! o := on (h =s "end") (setf fr_end (Position_from item)) o in
  let! o := on (h =s "layer") (setf fr_layer (item@1)) o in
  let! o := on (h =s "tstamp") (setf fr_tstamp (item@1)) o in
  let! o := on (h =s "fill") (setf fr_fill (item@1)) o in
  let! o := on (h =s "width") (setf fr_width (item@1)) o in
  let! o := on (h =s "width") (setf fr_stroke (Ok None)) o in
  let! o := on (h =s "stroke") (setf fr_stroke (let! s := Stroke_from item in Ok (Some s))) o in
  let! o := on (h =s "stroke") (setf fr_width (Ok VNone)) o in
  Ok o.
(** fpitems.py:260-298 *)
Definition FpRect_from (exp : val) : res FpRect :=
  let! l := need_head "fp_rect" exp in foldM FpRect_step FpRect_default l.
(** fpitems.py:300-324 *)
Definition FpRect_to (o : FpRect) (indent : nat) (newline : bool) : res str :=
  let indents := spaces indent in
  let tstamp := if is_none (fr_tstamp o) then [] else $" (tstamp " ++ fmt (fr_tstamp o) ++ $")" in
  let locked := if fr_locked o then $" locked" else [] in
  let fill := if is_none (fr_fill o) then [] else $" (fill " ++ fmt (fr_fill o) ++ $")" in
  let! width := width_str (fr_width o) (fr_stroke o) in
  Ok (indents ++ $"(fp_rect" ++ $" (start " ++ fmt (po_X (fr_start o)) ++ $" " ++ fmt (po_Y (fr_start o)) ++ $")" ++ $" (end " ++ fmt (po_X (fr_end o)) ++ $" " ++ fmt (po_Y (fr_end o)) ++ $")"
      ++ $" (layer " ++ quoted (fr_layer o) ++ $")" ++ width ++ fill ++ locked ++ tstamp ++ $")" ++ eol newline).

(** items/fpitems.py:473-504: attributes of FpCircle and their defaults *)
Record FpCircle := mkFpCircle {
  fc_center : Position;
  fc_end : Position;
  fc_layer : val;
  fc_width : val;
  fc_stroke : option Stroke;
  fc_fill : val;
  fc_locked : bool;
  fc_tstamp : val }.
#[export] Instance eta_FpCircle : Settable FpCircle :=
  settable! mkFpCircle <fc_center; fc_end; fc_layer; fc_width; fc_stroke; fc_fill; fc_locked; fc_tstamp>.
Definition FpCircle_default : FpCircle :=
  mkFpCircle Position_default Position_default (VStr $"F.Cu") (fdec 12 (-2)) None VNone false VNone.

(** fpitems.py:528-542: the bare word [locked] goes on to the tests of [item[0]], a letter *)
Definition FpCircle_step (o : FpCircle) (item : val) : res FpCircle :=
  if negb (is_list item) && negb (item =s "locked") then Ok o else
  let! o := on (negb (is_list item)) (setf fc_locked (Ok true)) o in
  let! h := item@0 in
  let! o := on (h =s "center") (setf fc_center (Position_from item)) o in
  let! o := on (h =s "end") (setf fc_end (Position_from item)) o in
  let! o := on (h =s "layer") (setf fc_layer (item@1)) o in
  let! o := on (h =s "tstamp") (setf fc_tstamp (item@1)) o in
  let! o := on (h =s "fill") (setf fc_fill (item@1)) o in
  let! o := on (h =s "width") (setf fc_width (item@1)) o in
  let! o := on (h =s "width") (setf fc_stroke (Ok None)) o in
  let! o := on (h =s "stroke") (setf fc_stroke (let! s := Stroke_from item in Ok (Some s))) o in
  let! o := on (h =s "stroke") (setf fc_width (Ok VNone)) o in
  Ok o.
(** fpitems.py:506-544 *)
Definition FpCircle_from (exp : val) : res FpCircle :=
  let! l := need_head "fp_circle" exp in foldM FpCircle_step FpCircle_default l.
(** fpitems.py:546-570 *)
Definition FpCircle_to (o : FpCircle) (indent : nat) (newline : bool) : res str :=
  let indents := spaces indent in
  let tstamp := if is_none (fc_tstamp o) then [] else $" (tstamp " ++ fmt (fc_tstamp o) ++ $")" in
  let locked := if fc_locked o then $" locked" else [] in
  let fill := if is_none (fc_fill o) then [] else $" (fill " ++ fmt (fc_fill o) ++ $")" in
  let! width := width_str (fc_width o) (fc_stroke o) in
  Ok (indents ++ $"(fp_circle" ++ $" (center " ++ fmt (po_X (fc_center o)) ++ $" " ++ fmt (po_Y (fc_center o)) ++ $")" ++ $" (end " ++ fmt (po_X (fc_end o)) ++ $" " ++ fmt (po_Y (fc_end o)) ++ $")"
      ++ $" (layer " ++ quoted (fc_layer o) ++ $")" ++ width ++ fill ++ locked ++ tstamp ++ $")" ++ eol newline).

(** items/fpitems.py:572-602: attributes of FpArc and their defaults *)
Record FpArc := mkFpArc {
  fa_start : Position;
  fa_mid : Position;
  fa_end : Position;
  fa_layer : val;
  fa_width : val;
  fa_stroke : option Stroke;
  fa_locked : bool;
  fa_tstamp : val }.
#[export] Instance eta_FpArc : Settable FpArc :=
  settable! mkFpArc <fa_start; fa_mid; fa_end; fa_layer; fa_width; fa_stroke; fa_locked; fa_tstamp>.
Definition FpArc_default : FpArc :=
  mkFpArc Position_default Position_default Position_default (VStr $"F.Cu") (fdec 12 (-2)) None false VNone.

(** fpitems.py:626-640: the bare word [locked] goes on to the tests of [item[0]], a letter *)
Definition FpArc_step (o : FpArc) (item : val) : res FpArc :=
  if negb (is_list item) && negb (item =s "locked") then Ok o else
  let! o := on (negb (is_list item)) (setf fa_locked (Ok true)) o in
  let! h := item@0 in
  let! o := on (h =s "start") (setf fa_start (Position_from item)) o in
  let! o := on (h =s "mid") (setf fa_mid (Position_from item)) o in
  let! o := on (h =s "end") (setf fa_end (Position_from item)) o in
  let! o := on (h =s "layer") (setf fa_layer (item@1)) o in
  let! o := on (h =s "tstamp") (setf fa_tstamp (item@1)) o in
  let! o := on (h =s "width") (setf fa_width (item@1)) o in
  let! o := on (h =s "width") (setf fa_stroke (Ok None)) o in
  let! o := on (h =s "stroke") (setf fa_stroke (let! s := Stroke_from item in Ok (Some s))) o in
  let! o := on (h =s "stroke") (setf fa_width (Ok VNone)) o in
  Ok o.
(** fpitems.py:604-642 *)
Definition FpArc_from (exp : val) : res FpArc :=
  let! l := need_head "fp_arc" exp in foldM FpArc_step FpArc_default l.
(** fpitems.py:644-667 *)
Definition FpArc_to (o : FpArc) (indent : nat) (newline : bool) : res str :=
  let indents := spaces indent in
  let tstamp := if is_none (fa_tstamp o) then [] else $" (tstamp " ++ fmt (fa_tstamp o) ++ $")" in
  let locked := if fa_locked o then $" locked" else [] in
  let! width := width_str (fa_width o) (fa_stroke o) in
  Ok (indents ++ $"(fp_arc" ++ $" (start " ++ fmt (po_X (fa_start o)) ++ $" " ++ fmt (po_Y (fa_start o)) ++ $")" ++ $" (mid " ++ fmt (po_X (fa_mid o)) ++ $" " ++ fmt (po_Y (fa_mid o)) ++ $")" ++ $" (end " ++ fmt (po_X (fa_end o)) ++ $" " ++ fmt (po_Y (fa_end o)) ++ $")"
      ++ $" (layer " ++ quoted (fa_layer o) ++ $")" ++ width ++ locked ++ tstamp ++ $")" ++ eol newline).

(** items/fpitems.py:669-697: attributes of FpPoly and their defaults *)
Record FpPoly := mkFpPoly {
  fp_layer : val;
  fp_coordinates : list Position;
  fp_width : val;
  fp_stroke : option Stroke;
  fp_fill : val;
  fp_locked : bool;
  fp_tstamp : val }.
#[export] Instance eta_FpPoly : Settable FpPoly :=
  settable! mkFpPoly <fp_layer; fp_coordinates; fp_width; fp_stroke; fp_fill; fp_locked; fp_tstamp>.
Definition FpPoly_default : FpPoly :=
  mkFpPoly (VStr $"F.Cu") [] (fdec 12 (-2)) None VNone false VNone.

(** fpitems.py:722-737: the bare word [locked] goes on to the tests of [item[0]], a letter *)
Definition FpPoly_step (o : FpPoly) (item : val) : res FpPoly :=
  if negb (is_list item) && negb (item =s "locked") then Ok o else
  let! o := on (negb (is_list item)) (setf fp_locked (Ok true)) o in
  let! h := item@0 in
  let! o := on (h =s "pts") (extf fp_coordinates (let! l := from_ item 1 in mapM Position_from l)) o in
  let! o := on (h =s "layer") (setf fp_layer (item@1)) o in
  let! o := on (h =s "tstamp") (setf fp_tstamp (item@1)) o in
  let! o := on (h =s "fill") (setf fp_fill (item@1)) o in
  let! o := on (h =s "width") (setf fp_width (item@1)) o in
  let! o := on (h =s "width") (setf fp_stroke (Ok None)) o in
  let! o := on (h =s "stroke") (setf fp_stroke (let! s := Stroke_from item in Ok (Some s))) o in
  let! o := on (h =s "stroke") (setf fp_width (Ok VNone)) o in
  Ok o.
(** fpitems.py:699-739 *)
Definition FpPoly_from (exp : val) : res FpPoly :=
  let! l := need_head "fp_poly" exp in foldM FpPoly_step FpPoly_default l.
(** fpitems.py:741-772 *)
Definition FpPoly_to (o : FpPoly) (indent : nat) (newline : bool) : res str :=
  let indents := spaces indent in
  if Nat.eqb (length (fp_coordinates o)) 0 then Ok (indents ++ eol newline) else
  let tstamp := if is_none (fp_tstamp o) then [] else $" (tstamp " ++ fmt (fp_tstamp o) ++ $")" in
  let locked := if fp_locked o then $" locked" else [] in
  let fill := if is_none (fp_fill o) then [] else $" (fill " ++ fmt (fp_fill o) ++ $")" in
  let! width := width_str (fp_width o) (fp_stroke o) in
  let! pts := concatM (fun p => Ok (indents ++ $"    (xy " ++ fmt (po_X p) ++ $" " ++ fmt (po_Y p) ++ $")" ++ nl)) (fp_coordinates o) in
  Ok (indents ++ $"(fp_poly (pts" ++ nl ++ pts ++ indents ++ $"  )"
      ++ $" (layer " ++ quoted (fp_layer o) ++ $")" ++ width ++ fill ++ locked ++ tstamp ++ $")" ++ eol newline).

(** items/fpitems.py:774-798: attributes of FpCurve and their defaults *)
Record FpCurve := mkFpCurve {
  fv_coordinates : list Position;
  fv_layer : val;
  fv_width : val;
  fv_stroke : option Stroke;
  fv_locked : bool;
  fv_tstamp : val }.
#[export] Instance eta_FpCurve : Settable FpCurve :=
  settable! mkFpCurve <fv_coordinates; fv_layer; fv_width; fv_stroke; fv_locked; fv_tstamp>.
Definition FpCurve_default : FpCurve :=
  mkFpCurve [] (VStr $"F.Cu") (fdec 12 (-2)) None false VNone.

(** fpitems.py:822-836: the bare word [locked] goes on to the tests of [item[0]], a letter *)
Definition FpCurve_step (o : FpCurve) (item : val) : res FpCurve :=
  if negb (is_list item) && negb (item =s "locked") then Ok o else
  let! o := on (negb (is_list item)) (setf fv_locked (Ok true)) o in
  let! h := item@0 in
  let! o := on (h =s "pts") (extf fv_coordinates (let! l := from_ item 1 in mapM Position_from l)) o in
  let! o := on (h =s "layer") (setf fv_layer (item@1)) o in
  let! o := on (h =s "tstamp") (setf fv_tstamp (item@1)) o in
  let! o := on (h =s "width") (setf fv_width (item@1)) o in
  let! o := on (h =s "width") (setf fv_stroke (Ok None)) o in
  let! o := on (h =s "stroke") (setf fv_stroke (let! s := Stroke_from item in Ok (Some s))) o in
  let! o := on (h =s "stroke") (setf fv_width (Ok VNone)) o in
  Ok o.
(** fpitems.py:800-838 *)
Definition FpCurve_from (exp : val) : res FpCurve :=
  let! l := need_head "fp_curve" exp in foldM FpCurve_step FpCurve_default l.
(** fpitems.py:840-870 *)
Definition FpCurve_to (o : FpCurve) (indent : nat) (newline : bool) : res str :=
  let indents := spaces indent in
  if Nat.eqb (length (fv_coordinates o)) 0 then Ok (indents ++ eol newline) else
  let tstamp := if is_none (fv_tstamp o) then [] else $" (tstamp " ++ fmt (fv_tstamp o) ++ $")" in
  let locked := if fv_locked o then $" locked" else [] in
  let! width := width_str (fv_width o) (fv_stroke o) in
  let! pts := concatM (fun p => Ok (indents ++ $"  (xy " ++ fmt (po_X p) ++ $" " ++ fmt (po_Y p) ++ $")" ++ nl)) (fv_coordinates o) in
  Ok (indents ++ $"(fp_curve (pts" ++ nl ++ pts ++ indents ++ $")"
      ++ $" (layer " ++ quoted (fv_layer o) ++ $")" ++ width ++ locked ++ tstamp ++ $")" ++ eol newline).

(** items/fpitems.py:326-378: attributes of FpTextBox and their defaults *)
Record FpTextBox := mkFpTextBox {
  fb_locked : bool;
  fb_text : val;
  fb_start : option Position;
  fb_end : option Position;
  fb_pts : list Position;
  fb_angle : val;
  fb_layer : val;
  fb_tstamp : val;
  fb_effects : option Effects;
  fb_stroke : option Stroke;
  fb_renderCache : option RenderCache }.
#[export] Instance eta_FpTextBox : Settable FpTextBox :=
  settable! mkFpTextBox <fb_locked; fb_text; fb_start; fb_end; fb_pts; fb_angle; fb_layer; fb_tstamp; fb_effects; fb_stroke; fb_renderCache>.
Definition FpTextBox_default : FpTextBox :=
  mkFpTextBox false (VStr []) None None [] VNone (VStr $"F.Cu") VNone None None None.

(** fpitems.py:412-422 *)
Definition FpTextBox_step (o : FpTextBox) (item : val) : res FpTextBox :=
  let! h := item@0 in
  let! o := on (h =s "start") (setf fb_start (let! p := Position_from item in Ok (Some p))) o in
  let! o := on (h =s "end") (setf fb_end (let! p := Position_from item in Ok (Some p))) o in
  let! o := on (h =s "pts") (extf fb_pts (let! l := from_ item 1 in mapM Position_from l)) o in
  let! o := on (h =s "angle") (setf fb_angle (item@1)) o in
  let! o := on (h =s "layer") (setf fb_layer (item@1)) o in
  let! o := on (h =s "tstamp") (setf fb_tstamp (item@1)) o in
  let! o := on (h =s "effects") (setf fb_effects (let! e := Effects_from item in Ok (Some e))) o in
  let! o := on (h =s "stroke") (setf fb_stroke (let! s := Stroke_from item in Ok (Some s))) o in
  let! o := on (h =s "render_cache") (setf fb_renderCache (let! r := RenderCache_from item in Ok (Some r))) o in
  Ok o.
(** fpitems.py:380-424 *)
Definition FpTextBox_from (exp : val) : res FpTextBox :=
  let! l := need_list exp in
  if Nat.ltb (length l) 2 then Err EException else
  let! h := exp@0 in
  if negb (h =s "fp_text_box") then Err EException else
  let! locked := text_box_locked exp in
  let! text := exp@(if locked then 2 else 1) in
  foldM FpTextBox_step (FpTextBox_default <| fb_locked := locked |> <| fb_text := text |>) (skipn (if locked then 3 else 2) l).
(** fpitems.py:426-471 *)
Definition FpTextBox_to (o : FpTextBox) (indent : nat) (newline : bool) : res str :=
  if negb (is_none (fb_angle o)) && negb (cardinal (fb_angle o)) && negb (Nat.eqb (length (fb_pts o)) 4) then Err EException else
  if (is_none (fb_angle o) || cardinal (fb_angle o)) && (no_object (fb_start o) || no_object (fb_end o)) then Err EException else
  let indents := spaces indent in
  let tstamp := if is_none (fb_tstamp o) then [] else $" (tstamp " ++ fmt (fb_tstamp o) ++ $")" in
  let angle := if is_none (fb_angle o) then [] else $"(angle " ++ fmt (fb_angle o) ++ $") " in
  let! start := opt_str (fb_start o) (fun p => Ok ($"(start " ++ fmt (po_X p) ++ $" " ++ fmt (po_Y p) ++ $") ")) in
  let! end_ := opt_str (fb_end o) (fun p => Ok ($"(end " ++ fmt (po_X p) ++ $" " ++ fmt (po_Y p) ++ $") ")) in
  let locked := if fb_locked o then $" locked" else [] in
  let pts :=
    match fb_pts o with
    | [a; b; c; d] =>
        indents ++ $"  (pts" ++ nl
        ++ indents ++ $"    (xy " ++ fmt (po_X a) ++ $" " ++ fmt (po_Y a) ++ $")      (xy " ++ fmt (po_X b) ++ $" " ++ fmt (po_Y b)
        ++ $")      (xy " ++ fmt (po_X c) ++ $" " ++ fmt (po_Y c) ++ $")      (xy " ++ fmt (po_X d) ++ $" " ++ fmt (po_Y d) ++ $")" ++ nl
        ++ indents ++ $"  )" ++ nl
    | _ => []
    end in
  let! effects := opt_str (fb_effects o) (fun e => Effects_to e (indent + 2) true) in
  let! stroke := opt_str (fb_stroke o) (fun s => Stroke_to s (indent + 2) true) in
  let! cache := opt_str (fb_renderCache o) (fun r => RenderCache_to r (indent + 2) true) in
  Ok (indents ++ $"(fp_text_box" ++ locked ++ $" " ++ quoted (fb_text o) ++ nl ++ pts
      ++ indents ++ $"  " ++ start ++ end_ ++ angle ++ $"(layer " ++ quoted (fb_layer o) ++ $")" ++ tstamp ++ nl
      ++ effects ++ stroke ++ cache ++ indents ++ $")" ++ eol newline).
