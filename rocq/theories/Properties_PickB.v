(** From which token each attribute is taken, and how (C41). The statements were generated from the syntax trees of
    the from_sexpr methods. Beside each theorem stand expressions to which its parts apply. *)
From Verif Require Import PyBase PyNum PyStr Sexpr S_Leaf S_Tree S_Reader S_Gather S_Pick M_Common M_Sym M_Fp M_Gr M_Zone M_Footprint.
From Verif Require L_PickB.

Theorem C41_FpText : marks FpText_from 3 ["hide"]%string "hide"%string true ft_hide /\
  picks FpText_from 3 ["at"]%string "at"%string Position_from ft_position /\
  picks FpText_from 3 ["layer"]%string "layer"%string (arg 1) ft_layer /\
  picks FpText_from 3 ["effects"]%string "effects"%string Effects_from ft_effects /\
  picks FpText_from 3 ["tstamp"]%string "tstamp"%string (arg 1) ft_tstamp /\
  picks FpText_from 3 ["render_cache"]%string "render_cache"%string (as_ Some RenderCache_from) ft_renderCache.
Proof. exact L_PickB.FpText_pick. Qed.
Print Assumptions C41_FpText.
Example C41_FpText_case : let b := [VStr $"fp_text"; VStr $"F"; VStr $"F"; node "zzz" [VInt 1]] in
  (match FpText_from (VList (b ++ [VStr $"hide"; node "zzz" [VInt 1]])) with Ok o => ft_hide o = true | Err _ => False end) /\
  (match FpText_from (VList (b ++ [node "at" [VInt 7; VInt 8]; node "zzz" [VInt 1]])) with Ok o => Position_from (node "at" [VInt 7; VInt 8]) = Ok (ft_position o) | Err _ => False end) /\
  (match FpText_from (VList (b ++ [node "layer" [VInt 7]; node "zzz" [VInt 1]])) with Ok o => (arg 1) (node "layer" [VInt 7]) = Ok (ft_layer o) | Err _ => False end) /\
  (match FpText_from (VList (b ++ [node "effects" [VInt 7]; node "zzz" [VInt 1]])) with Ok o => Effects_from (node "effects" [VInt 7]) = Ok (ft_effects o) | Err _ => False end) /\
  (match FpText_from (VList (b ++ [node "tstamp" [VInt 7]; node "zzz" [VInt 1]])) with Ok o => (arg 1) (node "tstamp" [VInt 7]) = Ok (ft_tstamp o) | Err _ => False end) /\
  (match FpText_from (VList (b ++ [node "render_cache" [VStr $"a"; VStr $"b"]; node "zzz" [VInt 1]])) with Ok o => (as_ Some RenderCache_from) (node "render_cache" [VStr $"a"; VStr $"b"]) = Ok (ft_renderCache o) | Err _ => False end).
Proof. vm_compute. repeat split. Qed.

Theorem C41_FpLine : marks FpLine_from 0 ["locked"]%string "locked"%string true fl_locked /\
  picks FpLine_from 0 ["start"]%string "start"%string Position_from fl_start /\
  picks FpLine_from 0 ["end"]%string "end"%string Position_from fl_end /\
  picks FpLine_from 0 ["layer"]%string "layer"%string (arg 1) fl_layer /\
  picks FpLine_from 0 ["tstamp"]%string "tstamp"%string (arg 1) fl_tstamp /\
  picks FpLine_from 0 ["width"; "stroke"]%string "width"%string (arg 1) fl_width /\
  picks FpLine_from 0 ["width"; "stroke"]%string "width"%string (const None) fl_stroke /\
  picks FpLine_from 0 ["width"; "stroke"]%string "stroke"%string (as_ Some Stroke_from) fl_stroke /\
  picks FpLine_from 0 ["width"; "stroke"]%string "stroke"%string (const VNone) fl_width.
Proof. exact L_PickB.FpLine_pick. Qed.
Print Assumptions C41_FpLine.
Example C41_FpLine_case : let b := [VStr $"fp_line"; node "zzz" [VInt 1]] in
  (match FpLine_from (VList (b ++ [VStr $"locked"; node "zzz" [VInt 1]])) with Ok o => fl_locked o = true | Err _ => False end) /\
  (match FpLine_from (VList (b ++ [node "start" [VInt 7; VInt 8]; node "zzz" [VInt 1]])) with Ok o => Position_from (node "start" [VInt 7; VInt 8]) = Ok (fl_start o) | Err _ => False end) /\
  (match FpLine_from (VList (b ++ [node "end" [VInt 7; VInt 8]; node "zzz" [VInt 1]])) with Ok o => Position_from (node "end" [VInt 7; VInt 8]) = Ok (fl_end o) | Err _ => False end) /\
  (match FpLine_from (VList (b ++ [node "layer" [VInt 7]; node "zzz" [VInt 1]])) with Ok o => (arg 1) (node "layer" [VInt 7]) = Ok (fl_layer o) | Err _ => False end) /\
  (match FpLine_from (VList (b ++ [node "tstamp" [VInt 7]; node "zzz" [VInt 1]])) with Ok o => (arg 1) (node "tstamp" [VInt 7]) = Ok (fl_tstamp o) | Err _ => False end) /\
  (match FpLine_from (VList (b ++ [node "width" [VInt 7]; node "zzz" [VInt 1]])) with Ok o => (arg 1) (node "width" [VInt 7]) = Ok (fl_width o) | Err _ => False end) /\
  (match FpLine_from (VList (b ++ [node "width" [VInt 7]; node "zzz" [VInt 1]])) with Ok o => (const None) (node "width" [VInt 7]) = Ok (fl_stroke o) | Err _ => False end) /\
  (match FpLine_from (VList (b ++ [node "stroke" [VInt 7]; node "zzz" [VInt 1]])) with Ok o => (as_ Some Stroke_from) (node "stroke" [VInt 7]) = Ok (fl_stroke o) | Err _ => False end) /\
  (match FpLine_from (VList (b ++ [node "stroke" [VInt 7]; node "zzz" [VInt 1]])) with Ok o => (const VNone) (node "stroke" [VInt 7]) = Ok (fl_width o) | Err _ => False end).
Proof. vm_compute. repeat split. Qed.

Theorem C41_FpRect : marks FpRect_from 0 ["locked"]%string "locked"%string true fr_locked /\
  picks FpRect_from 0 ["start"]%string "start"%string Position_from fr_start /\
  picks FpRect_from 0 ["end"]%string "end"%string Position_from fr_end /\
  picks FpRect_from 0 ["layer"]%string "layer"%string (arg 1) fr_layer /\
  picks FpRect_from 0 ["tstamp"]%string "tstamp"%string (arg 1) fr_tstamp /\
  picks FpRect_from 0 ["fill"]%string "fill"%string (arg 1) fr_fill /\
  picks FpRect_from 0 ["width"; "stroke"]%string "width"%string (arg 1) fr_width /\
  picks FpRect_from 0 ["width"; "stroke"]%string "width"%string (const None) fr_stroke /\
  picks FpRect_from 0 ["width"; "stroke"]%string "stroke"%string (as_ Some Stroke_from) fr_stroke /\
  picks FpRect_from 0 ["width"; "stroke"]%string "stroke"%string (const VNone) fr_width.
Proof. exact L_PickB.FpRect_pick. Qed.
Print Assumptions C41_FpRect.
Example C41_FpRect_case : let b := [VStr $"fp_rect"; node "zzz" [VInt 1]] in
  (match FpRect_from (VList (b ++ [VStr $"locked"; node "zzz" [VInt 1]])) with Ok o => fr_locked o = true | Err _ => False end) /\
  (match FpRect_from (VList (b ++ [node "start" [VInt 7; VInt 8]; node "zzz" [VInt 1]])) with Ok o => Position_from (node "start" [VInt 7; VInt 8]) = Ok (fr_start o) | Err _ => False end) /\
  (match FpRect_from (VList (b ++ [node "end" [VInt 7; VInt 8]; node "zzz" [VInt 1]])) with Ok o => Position_from (node "end" [VInt 7; VInt 8]) = Ok (fr_end o) | Err _ => False end) /\
  (match FpRect_from (VList (b ++ [node "layer" [VInt 7]; node "zzz" [VInt 1]])) with Ok o => (arg 1) (node "layer" [VInt 7]) = Ok (fr_layer o) | Err _ => False end) /\
  (match FpRect_from (VList (b ++ [node "tstamp" [VInt 7]; node "zzz" [VInt 1]])) with Ok o => (arg 1) (node "tstamp" [VInt 7]) = Ok (fr_tstamp o) | Err _ => False end) /\
  (match FpRect_from (VList (b ++ [node "fill" [VInt 7]; node "zzz" [VInt 1]])) with Ok o => (arg 1) (node "fill" [VInt 7]) = Ok (fr_fill o) | Err _ => False end) /\
  (match FpRect_from (VList (b ++ [node "width" [VInt 7]; node "zzz" [VInt 1]])) with Ok o => (arg 1) (node "width" [VInt 7]) = Ok (fr_width o) | Err _ => False end) /\
  (match FpRect_from (VList (b ++ [node "width" [VInt 7]; node "zzz" [VInt 1]])) with Ok o => (const None) (node "width" [VInt 7]) = Ok (fr_stroke o) | Err _ => False end) /\
  (match FpRect_from (VList (b ++ [node "stroke" [VInt 7]; node "zzz" [VInt 1]])) with Ok o => (as_ Some Stroke_from) (node "stroke" [VInt 7]) = Ok (fr_stroke o) | Err _ => False end) /\
  (match FpRect_from (VList (b ++ [node "stroke" [VInt 7]; node "zzz" [VInt 1]])) with Ok o => (const VNone) (node "stroke" [VInt 7]) = Ok (fr_width o) | Err _ => False end).
Proof. vm_compute. repeat split. Qed.

Theorem C41_FpCircle : marks FpCircle_from 0 ["locked"]%string "locked"%string true fc_locked /\
  picks FpCircle_from 0 ["center"]%string "center"%string Position_from fc_center /\
  picks FpCircle_from 0 ["end"]%string "end"%string Position_from fc_end /\
  picks FpCircle_from 0 ["layer"]%string "layer"%string (arg 1) fc_layer /\
  picks FpCircle_from 0 ["tstamp"]%string "tstamp"%string (arg 1) fc_tstamp /\
  picks FpCircle_from 0 ["fill"]%string "fill"%string (arg 1) fc_fill /\
  picks FpCircle_from 0 ["width"; "stroke"]%string "width"%string (arg 1) fc_width /\
  picks FpCircle_from 0 ["width"; "stroke"]%string "width"%string (const None) fc_stroke /\
  picks FpCircle_from 0 ["width"; "stroke"]%string "stroke"%string (as_ Some Stroke_from) fc_stroke /\
  picks FpCircle_from 0 ["width"; "stroke"]%string "stroke"%string (const VNone) fc_width.
Proof. exact L_PickB.FpCircle_pick. Qed.
Print Assumptions C41_FpCircle.
Example C41_FpCircle_case : let b := [VStr $"fp_circle"; node "zzz" [VInt 1]] in
  (match FpCircle_from (VList (b ++ [VStr $"locked"; node "zzz" [VInt 1]])) with Ok o => fc_locked o = true | Err _ => False end) /\
  (match FpCircle_from (VList (b ++ [node "center" [VInt 7; VInt 8]; node "zzz" [VInt 1]])) with Ok o => Position_from (node "center" [VInt 7; VInt 8]) = Ok (fc_center o) | Err _ => False end) /\
  (match FpCircle_from (VList (b ++ [node "end" [VInt 7; VInt 8]; node "zzz" [VInt 1]])) with Ok o => Position_from (node "end" [VInt 7; VInt 8]) = Ok (fc_end o) | Err _ => False end) /\
  (match FpCircle_from (VList (b ++ [node "layer" [VInt 7]; node "zzz" [VInt 1]])) with Ok o => (arg 1) (node "layer" [VInt 7]) = Ok (fc_layer o) | Err _ => False end) /\
  (match FpCircle_from (VList (b ++ [node "tstamp" [VInt 7]; node "zzz" [VInt 1]])) with Ok o => (arg 1) (node "tstamp" [VInt 7]) = Ok (fc_tstamp o) | Err _ => False end) /\
  (match FpCircle_from (VList (b ++ [node "fill" [VInt 7]; node "zzz" [VInt 1]])) with Ok o => (arg 1) (node "fill" [VInt 7]) = Ok (fc_fill o) | Err _ => False end) /\
  (match FpCircle_from (VList (b ++ [node "width" [VInt 7]; node "zzz" [VInt 1]])) with Ok o => (arg 1) (node "width" [VInt 7]) = Ok (fc_width o) | Err _ => False end) /\
  (match FpCircle_from (VList (b ++ [node "width" [VInt 7]; node "zzz" [VInt 1]])) with Ok o => (const None) (node "width" [VInt 7]) = Ok (fc_stroke o) | Err _ => False end) /\
  (match FpCircle_from (VList (b ++ [node "stroke" [VInt 7]; node "zzz" [VInt 1]])) with Ok o => (as_ Some Stroke_from) (node "stroke" [VInt 7]) = Ok (fc_stroke o) | Err _ => False end) /\
  (match FpCircle_from (VList (b ++ [node "stroke" [VInt 7]; node "zzz" [VInt 1]])) with Ok o => (const VNone) (node "stroke" [VInt 7]) = Ok (fc_width o) | Err _ => False end).
Proof. vm_compute. repeat split. Qed.

Theorem C41_FpArc : marks FpArc_from 0 ["locked"]%string "locked"%string true fa_locked /\
  picks FpArc_from 0 ["start"]%string "start"%string Position_from fa_start /\
  picks FpArc_from 0 ["mid"]%string "mid"%string Position_from fa_mid /\
  picks FpArc_from 0 ["end"]%string "end"%string Position_from fa_end /\
  picks FpArc_from 0 ["layer"]%string "layer"%string (arg 1) fa_layer /\
  picks FpArc_from 0 ["tstamp"]%string "tstamp"%string (arg 1) fa_tstamp /\
  picks FpArc_from 0 ["width"; "stroke"]%string "width"%string (arg 1) fa_width /\
  picks FpArc_from 0 ["width"; "stroke"]%string "width"%string (const None) fa_stroke /\
  picks FpArc_from 0 ["width"; "stroke"]%string "stroke"%string (as_ Some Stroke_from) fa_stroke /\
  picks FpArc_from 0 ["width"; "stroke"]%string "stroke"%string (const VNone) fa_width.
Proof. exact L_PickB.FpArc_pick. Qed.
Print Assumptions C41_FpArc.
Example C41_FpArc_case : let b := [VStr $"fp_arc"; node "zzz" [VInt 1]] in
  (match FpArc_from (VList (b ++ [VStr $"locked"; node "zzz" [VInt 1]])) with Ok o => fa_locked o = true | Err _ => False end) /\
  (match FpArc_from (VList (b ++ [node "start" [VInt 7; VInt 8]; node "zzz" [VInt 1]])) with Ok o => Position_from (node "start" [VInt 7; VInt 8]) = Ok (fa_start o) | Err _ => False end) /\
  (match FpArc_from (VList (b ++ [node "mid" [VInt 7; VInt 8]; node "zzz" [VInt 1]])) with Ok o => Position_from (node "mid" [VInt 7; VInt 8]) = Ok (fa_mid o) | Err _ => False end) /\
  (match FpArc_from (VList (b ++ [node "end" [VInt 7; VInt 8]; node "zzz" [VInt 1]])) with Ok o => Position_from (node "end" [VInt 7; VInt 8]) = Ok (fa_end o) | Err _ => False end) /\
  (match FpArc_from (VList (b ++ [node "layer" [VInt 7]; node "zzz" [VInt 1]])) with Ok o => (arg 1) (node "layer" [VInt 7]) = Ok (fa_layer o) | Err _ => False end) /\
  (match FpArc_from (VList (b ++ [node "tstamp" [VInt 7]; node "zzz" [VInt 1]])) with Ok o => (arg 1) (node "tstamp" [VInt 7]) = Ok (fa_tstamp o) | Err _ => False end) /\
  (match FpArc_from (VList (b ++ [node "width" [VInt 7]; node "zzz" [VInt 1]])) with Ok o => (arg 1) (node "width" [VInt 7]) = Ok (fa_width o) | Err _ => False end) /\
  (match FpArc_from (VList (b ++ [node "width" [VInt 7]; node "zzz" [VInt 1]])) with Ok o => (const None) (node "width" [VInt 7]) = Ok (fa_stroke o) | Err _ => False end) /\
  (match FpArc_from (VList (b ++ [node "stroke" [VInt 7]; node "zzz" [VInt 1]])) with Ok o => (as_ Some Stroke_from) (node "stroke" [VInt 7]) = Ok (fa_stroke o) | Err _ => False end) /\
  (match FpArc_from (VList (b ++ [node "stroke" [VInt 7]; node "zzz" [VInt 1]])) with Ok o => (const VNone) (node "stroke" [VInt 7]) = Ok (fa_width o) | Err _ => False end).
Proof. vm_compute. repeat split. Qed.

Theorem C41_FpPoly : marks FpPoly_from 0 ["locked"]%string "locked"%string true fp_locked /\
  picks FpPoly_from 0 ["layer"]%string "layer"%string (arg 1) fp_layer /\
  picks FpPoly_from 0 ["tstamp"]%string "tstamp"%string (arg 1) fp_tstamp /\
  picks FpPoly_from 0 ["fill"]%string "fill"%string (arg 1) fp_fill /\
  picks FpPoly_from 0 ["width"; "stroke"]%string "width"%string (arg 1) fp_width /\
  picks FpPoly_from 0 ["width"; "stroke"]%string "width"%string (const None) fp_stroke /\
  picks FpPoly_from 0 ["width"; "stroke"]%string "stroke"%string (as_ Some Stroke_from) fp_stroke /\
  picks FpPoly_from 0 ["width"; "stroke"]%string "stroke"%string (const VNone) fp_width.
Proof. exact L_PickB.FpPoly_pick. Qed.
Print Assumptions C41_FpPoly.
Example C41_FpPoly_case : let b := [VStr $"fp_poly"; node "zzz" [VInt 1]] in
  (match FpPoly_from (VList (b ++ [VStr $"locked"; node "zzz" [VInt 1]])) with Ok o => fp_locked o = true | Err _ => False end) /\
  (match FpPoly_from (VList (b ++ [node "layer" [VInt 7]; node "zzz" [VInt 1]])) with Ok o => (arg 1) (node "layer" [VInt 7]) = Ok (fp_layer o) | Err _ => False end) /\
  (match FpPoly_from (VList (b ++ [node "tstamp" [VInt 7]; node "zzz" [VInt 1]])) with Ok o => (arg 1) (node "tstamp" [VInt 7]) = Ok (fp_tstamp o) | Err _ => False end) /\
  (match FpPoly_from (VList (b ++ [node "fill" [VInt 7]; node "zzz" [VInt 1]])) with Ok o => (arg 1) (node "fill" [VInt 7]) = Ok (fp_fill o) | Err _ => False end) /\
  (match FpPoly_from (VList (b ++ [node "width" [VInt 7]; node "zzz" [VInt 1]])) with Ok o => (arg 1) (node "width" [VInt 7]) = Ok (fp_width o) | Err _ => False end) /\
  (match FpPoly_from (VList (b ++ [node "width" [VInt 7]; node "zzz" [VInt 1]])) with Ok o => (const None) (node "width" [VInt 7]) = Ok (fp_stroke o) | Err _ => False end) /\
  (match FpPoly_from (VList (b ++ [node "stroke" [VInt 7]; node "zzz" [VInt 1]])) with Ok o => (as_ Some Stroke_from) (node "stroke" [VInt 7]) = Ok (fp_stroke o) | Err _ => False end) /\
  (match FpPoly_from (VList (b ++ [node "stroke" [VInt 7]; node "zzz" [VInt 1]])) with Ok o => (const VNone) (node "stroke" [VInt 7]) = Ok (fp_width o) | Err _ => False end).
Proof. vm_compute. repeat split. Qed.

Theorem C41_FpCurve : marks FpCurve_from 0 ["locked"]%string "locked"%string true fv_locked /\
  picks FpCurve_from 0 ["layer"]%string "layer"%string (arg 1) fv_layer /\
  picks FpCurve_from 0 ["tstamp"]%string "tstamp"%string (arg 1) fv_tstamp /\
  picks FpCurve_from 0 ["width"; "stroke"]%string "width"%string (arg 1) fv_width /\
  picks FpCurve_from 0 ["width"; "stroke"]%string "width"%string (const None) fv_stroke /\
  picks FpCurve_from 0 ["width"; "stroke"]%string "stroke"%string (as_ Some Stroke_from) fv_stroke /\
  picks FpCurve_from 0 ["width"; "stroke"]%string "stroke"%string (const VNone) fv_width.
Proof. exact L_PickB.FpCurve_pick. Qed.
Print Assumptions C41_FpCurve.
Example C41_FpCurve_case : let b := [VStr $"fp_curve"; node "zzz" [VInt 1]] in
  (match FpCurve_from (VList (b ++ [VStr $"locked"; node "zzz" [VInt 1]])) with Ok o => fv_locked o = true | Err _ => False end) /\
  (match FpCurve_from (VList (b ++ [node "layer" [VInt 7]; node "zzz" [VInt 1]])) with Ok o => (arg 1) (node "layer" [VInt 7]) = Ok (fv_layer o) | Err _ => False end) /\
  (match FpCurve_from (VList (b ++ [node "tstamp" [VInt 7]; node "zzz" [VInt 1]])) with Ok o => (arg 1) (node "tstamp" [VInt 7]) = Ok (fv_tstamp o) | Err _ => False end) /\
  (match FpCurve_from (VList (b ++ [node "width" [VInt 7]; node "zzz" [VInt 1]])) with Ok o => (arg 1) (node "width" [VInt 7]) = Ok (fv_width o) | Err _ => False end) /\
  (match FpCurve_from (VList (b ++ [node "width" [VInt 7]; node "zzz" [VInt 1]])) with Ok o => (const None) (node "width" [VInt 7]) = Ok (fv_stroke o) | Err _ => False end) /\
  (match FpCurve_from (VList (b ++ [node "stroke" [VInt 7]; node "zzz" [VInt 1]])) with Ok o => (as_ Some Stroke_from) (node "stroke" [VInt 7]) = Ok (fv_stroke o) | Err _ => False end) /\
  (match FpCurve_from (VList (b ++ [node "stroke" [VInt 7]; node "zzz" [VInt 1]])) with Ok o => (const VNone) (node "stroke" [VInt 7]) = Ok (fv_width o) | Err _ => False end).
Proof. vm_compute. repeat split. Qed.

Theorem C41_FpTextBox : picks FpTextBox_from 3 ["start"]%string "start"%string (as_ Some Position_from) fb_start /\
  picks FpTextBox_from 3 ["end"]%string "end"%string (as_ Some Position_from) fb_end /\
  picks FpTextBox_from 3 ["angle"]%string "angle"%string (arg 1) fb_angle /\
  picks FpTextBox_from 3 ["layer"]%string "layer"%string (arg 1) fb_layer /\
  picks FpTextBox_from 3 ["tstamp"]%string "tstamp"%string (arg 1) fb_tstamp /\
  picks FpTextBox_from 3 ["effects"]%string "effects"%string (as_ Some Effects_from) fb_effects /\
  picks FpTextBox_from 3 ["stroke"]%string "stroke"%string (as_ Some Stroke_from) fb_stroke /\
  picks FpTextBox_from 3 ["render_cache"]%string "render_cache"%string (as_ Some RenderCache_from) fb_renderCache.
Proof. exact L_PickB.FpTextBox_pick. Qed.
Print Assumptions C41_FpTextBox.
Example C41_FpTextBox_case : let b := [VStr $"fp_text_box"; VStr $"F"; VStr $"F"; node "zzz" [VInt 1]] in
  (match FpTextBox_from (VList (b ++ [node "start" [VInt 7; VInt 8]; node "zzz" [VInt 1]])) with Ok o => (as_ Some Position_from) (node "start" [VInt 7; VInt 8]) = Ok (fb_start o) | Err _ => False end) /\
  (match FpTextBox_from (VList (b ++ [node "end" [VInt 7; VInt 8]; node "zzz" [VInt 1]])) with Ok o => (as_ Some Position_from) (node "end" [VInt 7; VInt 8]) = Ok (fb_end o) | Err _ => False end) /\
  (match FpTextBox_from (VList (b ++ [node "angle" [VInt 7]; node "zzz" [VInt 1]])) with Ok o => (arg 1) (node "angle" [VInt 7]) = Ok (fb_angle o) | Err _ => False end) /\
  (match FpTextBox_from (VList (b ++ [node "layer" [VInt 7]; node "zzz" [VInt 1]])) with Ok o => (arg 1) (node "layer" [VInt 7]) = Ok (fb_layer o) | Err _ => False end) /\
  (match FpTextBox_from (VList (b ++ [node "tstamp" [VInt 7]; node "zzz" [VInt 1]])) with Ok o => (arg 1) (node "tstamp" [VInt 7]) = Ok (fb_tstamp o) | Err _ => False end) /\
  (match FpTextBox_from (VList (b ++ [node "effects" [VInt 7]; node "zzz" [VInt 1]])) with Ok o => (as_ Some Effects_from) (node "effects" [VInt 7]) = Ok (fb_effects o) | Err _ => False end) /\
  (match FpTextBox_from (VList (b ++ [node "stroke" [VInt 7]; node "zzz" [VInt 1]])) with Ok o => (as_ Some Stroke_from) (node "stroke" [VInt 7]) = Ok (fb_stroke o) | Err _ => False end) /\
  (match FpTextBox_from (VList (b ++ [node "render_cache" [VStr $"a"; VStr $"b"]; node "zzz" [VInt 1]])) with Ok o => (as_ Some RenderCache_from) (node "render_cache" [VStr $"a"; VStr $"b"]) = Ok (fb_renderCache o) | Err _ => False end).
Proof. vm_compute. repeat split. Qed.

Theorem C41_GrText : marks GrText_from 2 ["locked"]%string "locked"%string true gt_locked /\
  picks GrText_from 2 ["at"]%string "at"%string Position_from gt_position /\
  picks GrText_from 2 ["layer"]%string "layer"%string (arg 1) gt_layer /\
  picks GrText_from 2 ["effects"]%string "effects"%string Effects_from gt_effects /\
  picks GrText_from 2 ["tstamp"]%string "tstamp"%string (arg 1) gt_tstamp /\
  picks GrText_from 2 ["render_cache"]%string "render_cache"%string (as_ Some RenderCache_from) gt_renderCache.
Proof. exact L_PickB.GrText_pick. Qed.
Print Assumptions C41_GrText.
Example C41_GrText_case : let b := [VStr $"gr_text"; VStr $"F"; node "zzz" [VInt 1]] in
  (match GrText_from (VList (b ++ [VStr $"locked"; node "zzz" [VInt 1]])) with Ok o => gt_locked o = true | Err _ => False end) /\
  (match GrText_from (VList (b ++ [node "at" [VInt 7; VInt 8]; node "zzz" [VInt 1]])) with Ok o => Position_from (node "at" [VInt 7; VInt 8]) = Ok (gt_position o) | Err _ => False end) /\
  (match GrText_from (VList (b ++ [node "layer" [VInt 7]; node "zzz" [VInt 1]])) with Ok o => (arg 1) (node "layer" [VInt 7]) = Ok (gt_layer o) | Err _ => False end) /\
  (match GrText_from (VList (b ++ [node "effects" [VInt 7]; node "zzz" [VInt 1]])) with Ok o => Effects_from (node "effects" [VInt 7]) = Ok (gt_effects o) | Err _ => False end) /\
  (match GrText_from (VList (b ++ [node "tstamp" [VInt 7]; node "zzz" [VInt 1]])) with Ok o => (arg 1) (node "tstamp" [VInt 7]) = Ok (gt_tstamp o) | Err _ => False end) /\
  (match GrText_from (VList (b ++ [node "render_cache" [VStr $"a"; VStr $"b"]; node "zzz" [VInt 1]])) with Ok o => (as_ Some RenderCache_from) (node "render_cache" [VStr $"a"; VStr $"b"]) = Ok (gt_renderCache o) | Err _ => False end).
Proof. vm_compute. repeat split. Qed.

Theorem C41_GrLine : marks GrLine_from 0 ["locked"]%string "locked"%string true gl_locked /\
  picks GrLine_from 0 ["start"]%string "start"%string Position_from gl_start /\
  picks GrLine_from 0 ["end"]%string "end"%string Position_from gl_end /\
  picks GrLine_from 0 ["layer"]%string "layer"%string (arg 1) gl_layer /\
  picks GrLine_from 0 ["tstamp"]%string "tstamp"%string (arg 1) gl_tstamp /\
  picks GrLine_from 0 ["width"]%string "width"%string (arg 1) gl_width.
Proof. exact L_PickB.GrLine_pick. Qed.
Print Assumptions C41_GrLine.
Example C41_GrLine_case : let b := [VStr $"gr_line"; node "zzz" [VInt 1]] in
  (match GrLine_from (VList (b ++ [VStr $"locked"; node "zzz" [VInt 1]])) with Ok o => gl_locked o = true | Err _ => False end) /\
  (match GrLine_from (VList (b ++ [node "start" [VInt 7; VInt 8]; node "zzz" [VInt 1]])) with Ok o => Position_from (node "start" [VInt 7; VInt 8]) = Ok (gl_start o) | Err _ => False end) /\
  (match GrLine_from (VList (b ++ [node "end" [VInt 7; VInt 8]; node "zzz" [VInt 1]])) with Ok o => Position_from (node "end" [VInt 7; VInt 8]) = Ok (gl_end o) | Err _ => False end) /\
  (match GrLine_from (VList (b ++ [node "layer" [VInt 7]; node "zzz" [VInt 1]])) with Ok o => (arg 1) (node "layer" [VInt 7]) = Ok (gl_layer o) | Err _ => False end) /\
  (match GrLine_from (VList (b ++ [node "tstamp" [VInt 7]; node "zzz" [VInt 1]])) with Ok o => (arg 1) (node "tstamp" [VInt 7]) = Ok (gl_tstamp o) | Err _ => False end) /\
  (match GrLine_from (VList (b ++ [node "width" [VInt 7]; node "zzz" [VInt 1]])) with Ok o => (arg 1) (node "width" [VInt 7]) = Ok (gl_width o) | Err _ => False end).
Proof. vm_compute. repeat split. Qed.

Theorem C41_GrRect : marks GrRect_from 0 ["locked"]%string "locked"%string true gr_locked /\
  picks GrRect_from 0 ["start"]%string "start"%string Position_from gr_start /\
  picks GrRect_from 0 ["end"]%string "end"%string Position_from gr_end /\
  picks GrRect_from 0 ["layer"]%string "layer"%string (arg 1) gr_layer /\
  picks GrRect_from 0 ["tstamp"]%string "tstamp"%string (arg 1) gr_tstamp /\
  picks GrRect_from 0 ["fill"]%string "fill"%string (arg 1) gr_fill /\
  picks GrRect_from 0 ["width"]%string "width"%string (arg 1) gr_width.
Proof. exact L_PickB.GrRect_pick. Qed.
Print Assumptions C41_GrRect.
Example C41_GrRect_case : let b := [VStr $"gr_rect"; node "zzz" [VInt 1]] in
  (match GrRect_from (VList (b ++ [VStr $"locked"; node "zzz" [VInt 1]])) with Ok o => gr_locked o = true | Err _ => False end) /\
  (match GrRect_from (VList (b ++ [node "start" [VInt 7; VInt 8]; node "zzz" [VInt 1]])) with Ok o => Position_from (node "start" [VInt 7; VInt 8]) = Ok (gr_start o) | Err _ => False end) /\
  (match GrRect_from (VList (b ++ [node "end" [VInt 7; VInt 8]; node "zzz" [VInt 1]])) with Ok o => Position_from (node "end" [VInt 7; VInt 8]) = Ok (gr_end o) | Err _ => False end) /\
  (match GrRect_from (VList (b ++ [node "layer" [VInt 7]; node "zzz" [VInt 1]])) with Ok o => (arg 1) (node "layer" [VInt 7]) = Ok (gr_layer o) | Err _ => False end) /\
  (match GrRect_from (VList (b ++ [node "tstamp" [VInt 7]; node "zzz" [VInt 1]])) with Ok o => (arg 1) (node "tstamp" [VInt 7]) = Ok (gr_tstamp o) | Err _ => False end) /\
  (match GrRect_from (VList (b ++ [node "fill" [VInt 7]; node "zzz" [VInt 1]])) with Ok o => (arg 1) (node "fill" [VInt 7]) = Ok (gr_fill o) | Err _ => False end) /\
  (match GrRect_from (VList (b ++ [node "width" [VInt 7]; node "zzz" [VInt 1]])) with Ok o => (arg 1) (node "width" [VInt 7]) = Ok (gr_width o) | Err _ => False end).
Proof. vm_compute. repeat split. Qed.

Theorem C41_GrCircle : marks GrCircle_from 0 ["locked"]%string "locked"%string true gc_locked /\
  picks GrCircle_from 0 ["center"]%string "center"%string Position_from gc_center /\
  picks GrCircle_from 0 ["end"]%string "end"%string Position_from gc_end /\
  picks GrCircle_from 0 ["layer"]%string "layer"%string (arg 1) gc_layer /\
  picks GrCircle_from 0 ["tstamp"]%string "tstamp"%string (arg 1) gc_tstamp /\
  picks GrCircle_from 0 ["fill"]%string "fill"%string (arg 1) gc_fill /\
  picks GrCircle_from 0 ["width"]%string "width"%string (arg 1) gc_width.
Proof. exact L_PickB.GrCircle_pick. Qed.
Print Assumptions C41_GrCircle.
Example C41_GrCircle_case : let b := [VStr $"gr_circle"; node "zzz" [VInt 1]] in
  (match GrCircle_from (VList (b ++ [VStr $"locked"; node "zzz" [VInt 1]])) with Ok o => gc_locked o = true | Err _ => False end) /\
  (match GrCircle_from (VList (b ++ [node "center" [VInt 7; VInt 8]; node "zzz" [VInt 1]])) with Ok o => Position_from (node "center" [VInt 7; VInt 8]) = Ok (gc_center o) | Err _ => False end) /\
  (match GrCircle_from (VList (b ++ [node "end" [VInt 7; VInt 8]; node "zzz" [VInt 1]])) with Ok o => Position_from (node "end" [VInt 7; VInt 8]) = Ok (gc_end o) | Err _ => False end) /\
  (match GrCircle_from (VList (b ++ [node "layer" [VInt 7]; node "zzz" [VInt 1]])) with Ok o => (arg 1) (node "layer" [VInt 7]) = Ok (gc_layer o) | Err _ => False end) /\
  (match GrCircle_from (VList (b ++ [node "tstamp" [VInt 7]; node "zzz" [VInt 1]])) with Ok o => (arg 1) (node "tstamp" [VInt 7]) = Ok (gc_tstamp o) | Err _ => False end) /\
  (match GrCircle_from (VList (b ++ [node "fill" [VInt 7]; node "zzz" [VInt 1]])) with Ok o => (arg 1) (node "fill" [VInt 7]) = Ok (gc_fill o) | Err _ => False end) /\
  (match GrCircle_from (VList (b ++ [node "width" [VInt 7]; node "zzz" [VInt 1]])) with Ok o => (arg 1) (node "width" [VInt 7]) = Ok (gc_width o) | Err _ => False end).
Proof. vm_compute. repeat split. Qed.

Theorem C41_GrArc : marks GrArc_from 0 ["locked"]%string "locked"%string true ga_locked /\
  picks GrArc_from 0 ["start"]%string "start"%string Position_from ga_start /\
  picks GrArc_from 0 ["mid"]%string "mid"%string Position_from ga_mid /\
  picks GrArc_from 0 ["end"]%string "end"%string Position_from ga_end /\
  picks GrArc_from 0 ["layer"]%string "layer"%string (arg 1) ga_layer /\
  picks GrArc_from 0 ["tstamp"]%string "tstamp"%string (arg 1) ga_tstamp /\
  picks GrArc_from 0 ["width"]%string "width"%string (arg 1) ga_width.
Proof. exact L_PickB.GrArc_pick. Qed.
Print Assumptions C41_GrArc.
Example C41_GrArc_case : let b := [VStr $"gr_arc"; node "zzz" [VInt 1]] in
  (match GrArc_from (VList (b ++ [VStr $"locked"; node "zzz" [VInt 1]])) with Ok o => ga_locked o = true | Err _ => False end) /\
  (match GrArc_from (VList (b ++ [node "start" [VInt 7; VInt 8]; node "zzz" [VInt 1]])) with Ok o => Position_from (node "start" [VInt 7; VInt 8]) = Ok (ga_start o) | Err _ => False end) /\
  (match GrArc_from (VList (b ++ [node "mid" [VInt 7; VInt 8]; node "zzz" [VInt 1]])) with Ok o => Position_from (node "mid" [VInt 7; VInt 8]) = Ok (ga_mid o) | Err _ => False end) /\
  (match GrArc_from (VList (b ++ [node "end" [VInt 7; VInt 8]; node "zzz" [VInt 1]])) with Ok o => Position_from (node "end" [VInt 7; VInt 8]) = Ok (ga_end o) | Err _ => False end) /\
  (match GrArc_from (VList (b ++ [node "layer" [VInt 7]; node "zzz" [VInt 1]])) with Ok o => (arg 1) (node "layer" [VInt 7]) = Ok (ga_layer o) | Err _ => False end) /\
  (match GrArc_from (VList (b ++ [node "tstamp" [VInt 7]; node "zzz" [VInt 1]])) with Ok o => (arg 1) (node "tstamp" [VInt 7]) = Ok (ga_tstamp o) | Err _ => False end) /\
  (match GrArc_from (VList (b ++ [node "width" [VInt 7]; node "zzz" [VInt 1]])) with Ok o => (arg 1) (node "width" [VInt 7]) = Ok (ga_width o) | Err _ => False end).
Proof. vm_compute. repeat split. Qed.

Theorem C41_GrPoly : marks GrPoly_from 0 ["locked"]%string "locked"%string true gp_locked /\
  picks GrPoly_from 0 ["layer"]%string "layer"%string (arg 1) gp_layer /\
  picks GrPoly_from 0 ["tstamp"]%string "tstamp"%string (arg 1) gp_tstamp /\
  picks GrPoly_from 0 ["fill"]%string "fill"%string (arg 1) gp_fill /\
  picks GrPoly_from 0 ["width"]%string "width"%string (arg 1) gp_width.
Proof. exact L_PickB.GrPoly_pick. Qed.
Print Assumptions C41_GrPoly.
Example C41_GrPoly_case : let b := [VStr $"gr_poly"; node "zzz" [VInt 1]] in
  (match GrPoly_from (VList (b ++ [VStr $"locked"; node "zzz" [VInt 1]])) with Ok o => gp_locked o = true | Err _ => False end) /\
  (match GrPoly_from (VList (b ++ [node "layer" [VInt 7]; node "zzz" [VInt 1]])) with Ok o => (arg 1) (node "layer" [VInt 7]) = Ok (gp_layer o) | Err _ => False end) /\
  (match GrPoly_from (VList (b ++ [node "tstamp" [VInt 7]; node "zzz" [VInt 1]])) with Ok o => (arg 1) (node "tstamp" [VInt 7]) = Ok (gp_tstamp o) | Err _ => False end) /\
  (match GrPoly_from (VList (b ++ [node "fill" [VInt 7]; node "zzz" [VInt 1]])) with Ok o => (arg 1) (node "fill" [VInt 7]) = Ok (gp_fill o) | Err _ => False end) /\
  (match GrPoly_from (VList (b ++ [node "width" [VInt 7]; node "zzz" [VInt 1]])) with Ok o => (arg 1) (node "width" [VInt 7]) = Ok (gp_width o) | Err _ => False end).
Proof. vm_compute. repeat split. Qed.

Theorem C41_GrCurve : marks GrCurve_from 0 ["locked"]%string "locked"%string true gv_locked /\
  picks GrCurve_from 0 ["layer"]%string "layer"%string (arg 1) gv_layer /\
  picks GrCurve_from 0 ["tstamp"]%string "tstamp"%string (arg 1) gv_tstamp /\
  picks GrCurve_from 0 ["width"]%string "width"%string (arg 1) gv_width.
Proof. exact L_PickB.GrCurve_pick. Qed.
Print Assumptions C41_GrCurve.
Example C41_GrCurve_case : let b := [VStr $"gr_curve"; node "zzz" [VInt 1]] in
  (match GrCurve_from (VList (b ++ [VStr $"locked"; node "zzz" [VInt 1]])) with Ok o => gv_locked o = true | Err _ => False end) /\
  (match GrCurve_from (VList (b ++ [node "layer" [VInt 7]; node "zzz" [VInt 1]])) with Ok o => (arg 1) (node "layer" [VInt 7]) = Ok (gv_layer o) | Err _ => False end) /\
  (match GrCurve_from (VList (b ++ [node "tstamp" [VInt 7]; node "zzz" [VInt 1]])) with Ok o => (arg 1) (node "tstamp" [VInt 7]) = Ok (gv_tstamp o) | Err _ => False end) /\
  (match GrCurve_from (VList (b ++ [node "width" [VInt 7]; node "zzz" [VInt 1]])) with Ok o => (arg 1) (node "width" [VInt 7]) = Ok (gv_width o) | Err _ => False end).
Proof. vm_compute. repeat split. Qed.

Theorem C41_GrTextBox : picks GrTextBox_from 3 ["start"]%string "start"%string (as_ Some Position_from) gb_start /\
  picks GrTextBox_from 3 ["end"]%string "end"%string (as_ Some Position_from) gb_end /\
  picks GrTextBox_from 3 ["angle"]%string "angle"%string (arg 1) gb_angle /\
  picks GrTextBox_from 3 ["layer"]%string "layer"%string (arg 1) gb_layer /\
  picks GrTextBox_from 3 ["tstamp"]%string "tstamp"%string (arg 1) gb_tstamp /\
  picks GrTextBox_from 3 ["effects"]%string "effects"%string (as_ Some Effects_from) gb_effects /\
  picks GrTextBox_from 3 ["stroke"]%string "stroke"%string (as_ Some Stroke_from) gb_stroke /\
  picks GrTextBox_from 3 ["render_cache"]%string "render_cache"%string (as_ Some RenderCache_from) gb_renderCache.
Proof. exact L_PickB.GrTextBox_pick. Qed.
Print Assumptions C41_GrTextBox.
Example C41_GrTextBox_case : let b := [VStr $"gr_text_box"; VStr $"F"; VStr $"F"; node "zzz" [VInt 1]] in
  (match GrTextBox_from (VList (b ++ [node "start" [VInt 7; VInt 8]; node "zzz" [VInt 1]])) with Ok o => (as_ Some Position_from) (node "start" [VInt 7; VInt 8]) = Ok (gb_start o) | Err _ => False end) /\
  (match GrTextBox_from (VList (b ++ [node "end" [VInt 7; VInt 8]; node "zzz" [VInt 1]])) with Ok o => (as_ Some Position_from) (node "end" [VInt 7; VInt 8]) = Ok (gb_end o) | Err _ => False end) /\
  (match GrTextBox_from (VList (b ++ [node "angle" [VInt 7]; node "zzz" [VInt 1]])) with Ok o => (arg 1) (node "angle" [VInt 7]) = Ok (gb_angle o) | Err _ => False end) /\
  (match GrTextBox_from (VList (b ++ [node "layer" [VInt 7]; node "zzz" [VInt 1]])) with Ok o => (arg 1) (node "layer" [VInt 7]) = Ok (gb_layer o) | Err _ => False end) /\
  (match GrTextBox_from (VList (b ++ [node "tstamp" [VInt 7]; node "zzz" [VInt 1]])) with Ok o => (arg 1) (node "tstamp" [VInt 7]) = Ok (gb_tstamp o) | Err _ => False end) /\
  (match GrTextBox_from (VList (b ++ [node "effects" [VInt 7]; node "zzz" [VInt 1]])) with Ok o => (as_ Some Effects_from) (node "effects" [VInt 7]) = Ok (gb_effects o) | Err _ => False end) /\
  (match GrTextBox_from (VList (b ++ [node "stroke" [VInt 7]; node "zzz" [VInt 1]])) with Ok o => (as_ Some Stroke_from) (node "stroke" [VInt 7]) = Ok (gb_stroke o) | Err _ => False end) /\
  (match GrTextBox_from (VList (b ++ [node "render_cache" [VStr $"a"; VStr $"b"]; node "zzz" [VInt 1]])) with Ok o => (as_ Some RenderCache_from) (node "render_cache" [VStr $"a"; VStr $"b"]) = Ok (gb_renderCache o) | Err _ => False end).
Proof. vm_compute. repeat split. Qed.

Theorem C41_KeepoutSettings : picks KeepoutSettings_from 0 ["tracks"]%string "tracks"%string (arg 1) ks_tracks /\
  picks KeepoutSettings_from 0 ["vias"]%string "vias"%string (arg 1) ks_vias /\
  picks KeepoutSettings_from 0 ["pads"]%string "pads"%string (arg 1) ks_pads /\
  picks KeepoutSettings_from 0 ["copperpour"]%string "copperpour"%string (arg 1) ks_copperpour /\
  picks KeepoutSettings_from 0 ["footprints"]%string "footprints"%string (arg 1) ks_footprints.
Proof. exact L_PickB.KeepoutSettings_pick. Qed.
Print Assumptions C41_KeepoutSettings.
Example C41_KeepoutSettings_case : let b := [VStr $"keepout"; node "zzz" [VInt 1]] in
  (match KeepoutSettings_from (VList (b ++ [node "tracks" [VInt 7]; node "zzz" [VInt 1]])) with Ok o => (arg 1) (node "tracks" [VInt 7]) = Ok (ks_tracks o) | Err _ => False end) /\
  (match KeepoutSettings_from (VList (b ++ [node "vias" [VInt 7]; node "zzz" [VInt 1]])) with Ok o => (arg 1) (node "vias" [VInt 7]) = Ok (ks_vias o) | Err _ => False end) /\
  (match KeepoutSettings_from (VList (b ++ [node "pads" [VInt 7]; node "zzz" [VInt 1]])) with Ok o => (arg 1) (node "pads" [VInt 7]) = Ok (ks_pads o) | Err _ => False end) /\
  (match KeepoutSettings_from (VList (b ++ [node "copperpour" [VInt 7]; node "zzz" [VInt 1]])) with Ok o => (arg 1) (node "copperpour" [VInt 7]) = Ok (ks_copperpour o) | Err _ => False end) /\
  (match KeepoutSettings_from (VList (b ++ [node "footprints" [VInt 7]; node "zzz" [VInt 1]])) with Ok o => (arg 1) (node "footprints" [VInt 7]) = Ok (ks_footprints o) | Err _ => False end).
Proof. vm_compute. repeat split. Qed.

Theorem C41_FillSettings : marks FillSettings_from 0 ["yes"]%string "yes"%string true fs_yes /\
  picks FillSettings_from 0 ["mode"]%string "mode"%string (arg 1) fs_mode /\
  picks FillSettings_from 0 ["thermal_gap"]%string "thermal_gap"%string (arg 1) fs_thermalGap /\
  picks FillSettings_from 0 ["thermal_bridge_width"]%string "thermal_bridge_width"%string (arg 1) fs_thermalBridgeWidth /\
  picks FillSettings_from 0 ["smoothing"]%string "smoothing"%string (arg 1) fs_smoothingStyle /\
  picks FillSettings_from 0 ["radius"]%string "radius"%string (arg 1) fs_smoothingRadius /\
  picks FillSettings_from 0 ["island_removal_mode"]%string "island_removal_mode"%string (arg 1) fs_islandRemovalMode /\
  picks FillSettings_from 0 ["island_area_min"]%string "island_area_min"%string (arg 1) fs_islandAreaMin /\
  picks FillSettings_from 0 ["hatch_thickness"]%string "hatch_thickness"%string (arg 1) fs_hatchThickness /\
  picks FillSettings_from 0 ["hatch_gap"]%string "hatch_gap"%string (arg 1) fs_hatchGap /\
  picks FillSettings_from 0 ["hatch_orientation"]%string "hatch_orientation"%string (arg 1) fs_hatchOrientation /\
  picks FillSettings_from 0 ["hatch_smoothing_level"]%string "hatch_smoothing_level"%string (arg 1) fs_hatchSmoothingLevel /\
  picks FillSettings_from 0 ["hatch_smoothing_value"]%string "hatch_smoothing_value"%string (arg 1) fs_hatchSmoothingValue /\
  picks FillSettings_from 0 ["hatch_border_algorithm"]%string "hatch_border_algorithm"%string (arg 1) fs_hatchBorderAlgorithm /\
  picks FillSettings_from 0 ["hatch_min_hole_area"]%string "hatch_min_hole_area"%string (arg 1) fs_hatchMinHoleArea.
Proof. exact L_PickB.FillSettings_pick. Qed.
Print Assumptions C41_FillSettings.
Example C41_FillSettings_case : let b := [VStr $"fill"; node "zzz" [VInt 1]] in
  (match FillSettings_from (VList (b ++ [VStr $"yes"; node "zzz" [VInt 1]])) with Ok o => fs_yes o = true | Err _ => False end) /\
  (match FillSettings_from (VList (b ++ [node "mode" [VInt 7]; node "zzz" [VInt 1]])) with Ok o => (arg 1) (node "mode" [VInt 7]) = Ok (fs_mode o) | Err _ => False end) /\
  (match FillSettings_from (VList (b ++ [node "thermal_gap" [VInt 7]; node "zzz" [VInt 1]])) with Ok o => (arg 1) (node "thermal_gap" [VInt 7]) = Ok (fs_thermalGap o) | Err _ => False end) /\
  (match FillSettings_from (VList (b ++ [node "thermal_bridge_width" [VInt 7]; node "zzz" [VInt 1]])) with Ok o => (arg 1) (node "thermal_bridge_width" [VInt 7]) = Ok (fs_thermalBridgeWidth o) | Err _ => False end) /\
  (match FillSettings_from (VList (b ++ [node "smoothing" [VInt 7]; node "zzz" [VInt 1]])) with Ok o => (arg 1) (node "smoothing" [VInt 7]) = Ok (fs_smoothingStyle o) | Err _ => False end) /\
  (match FillSettings_from (VList (b ++ [node "radius" [VInt 7]; node "zzz" [VInt 1]])) with Ok o => (arg 1) (node "radius" [VInt 7]) = Ok (fs_smoothingRadius o) | Err _ => False end) /\
  (match FillSettings_from (VList (b ++ [node "island_removal_mode" [VInt 7]; node "zzz" [VInt 1]])) with Ok o => (arg 1) (node "island_removal_mode" [VInt 7]) = Ok (fs_islandRemovalMode o) | Err _ => False end) /\
  (match FillSettings_from (VList (b ++ [node "island_area_min" [VInt 7]; node "zzz" [VInt 1]])) with Ok o => (arg 1) (node "island_area_min" [VInt 7]) = Ok (fs_islandAreaMin o) | Err _ => False end) /\
  (match FillSettings_from (VList (b ++ [node "hatch_thickness" [VInt 7]; node "zzz" [VInt 1]])) with Ok o => (arg 1) (node "hatch_thickness" [VInt 7]) = Ok (fs_hatchThickness o) | Err _ => False end) /\
  (match FillSettings_from (VList (b ++ [node "hatch_gap" [VInt 7]; node "zzz" [VInt 1]])) with Ok o => (arg 1) (node "hatch_gap" [VInt 7]) = Ok (fs_hatchGap o) | Err _ => False end) /\
  (match FillSettings_from (VList (b ++ [node "hatch_orientation" [VInt 7]; node "zzz" [VInt 1]])) with Ok o => (arg 1) (node "hatch_orientation" [VInt 7]) = Ok (fs_hatchOrientation o) | Err _ => False end) /\
  (match FillSettings_from (VList (b ++ [node "hatch_smoothing_level" [VInt 7]; node "zzz" [VInt 1]])) with Ok o => (arg 1) (node "hatch_smoothing_level" [VInt 7]) = Ok (fs_hatchSmoothingLevel o) | Err _ => False end) /\
  (match FillSettings_from (VList (b ++ [node "hatch_smoothing_value" [VInt 7]; node "zzz" [VInt 1]])) with Ok o => (arg 1) (node "hatch_smoothing_value" [VInt 7]) = Ok (fs_hatchSmoothingValue o) | Err _ => False end) /\
  (match FillSettings_from (VList (b ++ [node "hatch_border_algorithm" [VInt 7]; node "zzz" [VInt 1]])) with Ok o => (arg 1) (node "hatch_border_algorithm" [VInt 7]) = Ok (fs_hatchBorderAlgorithm o) | Err _ => False end) /\
  (match FillSettings_from (VList (b ++ [node "hatch_min_hole_area" [VInt 7]; node "zzz" [VInt 1]])) with Ok o => (arg 1) (node "hatch_min_hole_area" [VInt 7]) = Ok (fs_hatchMinHoleArea o) | Err _ => False end).
Proof. vm_compute. repeat split. Qed.

Theorem C41_FilledPolygon : picks FilledPolygon_from 0 ["layer"]%string "layer"%string (arg 1) zf_layer /\
  picks FilledPolygon_from 0 ["island"]%string "island"%string (const true) zf_island.
Proof. exact L_PickB.FilledPolygon_pick. Qed.
Print Assumptions C41_FilledPolygon.
Example C41_FilledPolygon_case : let b := [VStr $"filled_polygon"; node "zzz" [VInt 1]] in
  (match FilledPolygon_from (VList (b ++ [node "layer" [VInt 7]; node "zzz" [VInt 1]])) with Ok o => (arg 1) (node "layer" [VInt 7]) = Ok (zf_layer o) | Err _ => False end) /\
  (match FilledPolygon_from (VList (b ++ [node "island" [VInt 7]; node "zzz" [VInt 1]])) with Ok o => (const true) (node "island" [VInt 7]) = Ok (zf_island o) | Err _ => False end).
Proof. vm_compute. repeat split. Qed.

Theorem C41_FillSegments : picks FillSegments_from 0 ["layer"]%string "layer"%string (arg 1) zs_layer.
Proof. exact L_PickB.FillSegments_pick. Qed.
Print Assumptions C41_FillSegments.
Example C41_FillSegments_case : let b := [VStr $"fill_segments"; node "zzz" [VInt 1]] in
  (match FillSegments_from (VList (b ++ [node "layer" [VInt 7]; node "zzz" [VInt 1]])) with Ok o => (arg 1) (node "layer" [VInt 7]) = Ok (zs_layer o) | Err _ => False end).
Proof. vm_compute. repeat split. Qed.

Theorem C41_Zone : marks Zone_from 0 ["locked"]%string "locked"%string true zo_locked /\
  picks Zone_from 0 ["net"]%string "net"%string (arg 1) zo_net /\
  picks Zone_from 0 ["net_name"]%string "net_name"%string (arg 1) zo_netName /\
  picks Zone_from 0 ["tstamp"]%string "tstamp"%string (arg 1) zo_tstamp /\
  picks Zone_from 0 ["name"]%string "name"%string (arg 1) zo_name /\
  picks Zone_from 0 ["hatch"]%string "hatch"%string (fun x => let! s := arg 1 x in let! p := arg 2 x in Ok (mkHatch s p)) zo_hatch /\
  picks Zone_from 0 ["priority"]%string "priority"%string (arg 1) zo_priority /\
  picks Zone_from 0 ["min_thickness"]%string "min_thickness"%string (arg 1) zo_minThickness /\
  picks Zone_from 0 ["filled_areas_thickness"]%string "filled_areas_thickness"%string (arg 1) zo_filledAreasThickness /\
  picks Zone_from 0 ["keepout"]%string "keepout"%string (as_ Some KeepoutSettings_from) zo_keepoutSettings /\
  picks Zone_from 0 ["fill"]%string "fill"%string (as_ Some FillSettings_from) zo_fillSettings /\
  picks Zone_from 0 ["fill_segments"]%string "fill_segments"%string (as_ Some FillSegments_from) zo_fillSegments.
Proof. exact L_PickB.Zone_pick. Qed.
Print Assumptions C41_Zone.
Example C41_Zone_case : let b := [VStr $"zone"; node "zzz" [VInt 1]] in
  (match Zone_from (VList (b ++ [VStr $"locked"; node "zzz" [VInt 1]])) with Ok o => zo_locked o = true | Err _ => False end) /\
  (match Zone_from (VList (b ++ [node "net" [VInt 7]; node "zzz" [VInt 1]])) with Ok o => (arg 1) (node "net" [VInt 7]) = Ok (zo_net o) | Err _ => False end) /\
  (match Zone_from (VList (b ++ [node "net_name" [VInt 7]; node "zzz" [VInt 1]])) with Ok o => (arg 1) (node "net_name" [VInt 7]) = Ok (zo_netName o) | Err _ => False end) /\
  (match Zone_from (VList (b ++ [node "tstamp" [VInt 7]; node "zzz" [VInt 1]])) with Ok o => (arg 1) (node "tstamp" [VInt 7]) = Ok (zo_tstamp o) | Err _ => False end) /\
  (match Zone_from (VList (b ++ [node "name" [VInt 7]; node "zzz" [VInt 1]])) with Ok o => (arg 1) (node "name" [VInt 7]) = Ok (zo_name o) | Err _ => False end) /\
  (match Zone_from (VList (b ++ [node "hatch" [VInt 7; VInt 8]; node "zzz" [VInt 1]])) with Ok o => (fun x => let! s := arg 1 x in let! p := arg 2 x in Ok (mkHatch s p)) (node "hatch" [VInt 7; VInt 8]) = Ok (zo_hatch o) | Err _ => False end) /\
  (match Zone_from (VList (b ++ [node "priority" [VInt 7]; node "zzz" [VInt 1]])) with Ok o => (arg 1) (node "priority" [VInt 7]) = Ok (zo_priority o) | Err _ => False end) /\
  (match Zone_from (VList (b ++ [node "min_thickness" [VInt 7]; node "zzz" [VInt 1]])) with Ok o => (arg 1) (node "min_thickness" [VInt 7]) = Ok (zo_minThickness o) | Err _ => False end) /\
  (match Zone_from (VList (b ++ [node "filled_areas_thickness" [VInt 7]; node "zzz" [VInt 1]])) with Ok o => (arg 1) (node "filled_areas_thickness" [VInt 7]) = Ok (zo_filledAreasThickness o) | Err _ => False end) /\
  (match Zone_from (VList (b ++ [node "keepout" [VInt 7]; node "zzz" [VInt 1]])) with Ok o => (as_ Some KeepoutSettings_from) (node "keepout" [VInt 7]) = Ok (zo_keepoutSettings o) | Err _ => False end) /\
  (match Zone_from (VList (b ++ [node "fill" [VInt 7]; node "zzz" [VInt 1]])) with Ok o => (as_ Some FillSettings_from) (node "fill" [VInt 7]) = Ok (zo_fillSettings o) | Err _ => False end) /\
  (match Zone_from (VList (b ++ [node "fill_segments" [VInt 7]; node "zzz" [VInt 1]])) with Ok o => (as_ Some FillSegments_from) (node "fill_segments" [VInt 7]) = Ok (zo_fillSegments o) | Err _ => False end).
Proof. vm_compute. repeat split. Qed.

Theorem C41_Attributes : marks Attributes_from 0 ["board_only"]%string "board_only"%string true fx_boardOnly /\
  marks Attributes_from 0 ["exclude_from_pos_files"]%string "exclude_from_pos_files"%string true fx_excludeFromPosFiles /\
  marks Attributes_from 0 ["exclude_from_bom"]%string "exclude_from_bom"%string true fx_excludeFromBom /\
  marks Attributes_from 0 ["allow_missing_courtyard"]%string "allow_missing_courtyard"%string true fx_allowMissingCourtyard.
Proof. exact L_PickB.Attributes_pick. Qed.
Print Assumptions C41_Attributes.
Example C41_Attributes_case : let b := [VStr $"attr"; VStr $"F"; node "zzz" [VInt 1]] in
  (match Attributes_from (VList (b ++ [VStr $"board_only"; node "zzz" [VInt 1]])) with Ok o => fx_boardOnly o = true | Err _ => False end) /\
  (match Attributes_from (VList (b ++ [VStr $"exclude_from_pos_files"; node "zzz" [VInt 1]])) with Ok o => fx_excludeFromPosFiles o = true | Err _ => False end) /\
  (match Attributes_from (VList (b ++ [VStr $"exclude_from_bom"; node "zzz" [VInt 1]])) with Ok o => fx_excludeFromBom o = true | Err _ => False end) /\
  (match Attributes_from (VList (b ++ [VStr $"allow_missing_courtyard"; node "zzz" [VInt 1]])) with Ok o => fx_allowMissingCourtyard o = true | Err _ => False end).
Proof. vm_compute. repeat split. Qed.

Theorem C41_Model : picks Model_from 2 ["opacity"]%string "opacity"%string (arg 1) mo_opacity /\
  picks Model_from 2 ["offset"]%string "offset"%string (in_arg 1 Coordinate_from) mo_pos /\
  picks Model_from 2 ["scale"]%string "scale"%string (in_arg 1 Coordinate_from) mo_scale /\
  picks Model_from 2 ["rotate"]%string "rotate"%string (in_arg 1 Coordinate_from) mo_rotate.
Proof. exact L_PickB.Model_pick. Qed.
Print Assumptions C41_Model.
Example C41_Model_case : let b := [VStr $"model"; VStr $"F"; VStr $"F"; node "zzz" [VInt 1]; node "zzz" [VInt 1]; node "zzz" [VInt 1]] in
  (match Model_from (VList (b ++ [node "opacity" [VInt 7]; node "zzz" [VInt 1]])) with Ok o => (arg 1) (node "opacity" [VInt 7]) = Ok (mo_opacity o) | Err _ => False end) /\
  (match Model_from (VList (b ++ [node "offset" [node "xyz" [VInt 7; VInt 8; VInt 9]]; node "zzz" [VInt 1]])) with Ok o => (in_arg 1 Coordinate_from) (node "offset" [node "xyz" [VInt 7; VInt 8; VInt 9]]) = Ok (mo_pos o) | Err _ => False end) /\
  (match Model_from (VList (b ++ [node "scale" [node "xyz" [VInt 7; VInt 8; VInt 9]]; node "zzz" [VInt 1]])) with Ok o => (in_arg 1 Coordinate_from) (node "scale" [node "xyz" [VInt 7; VInt 8; VInt 9]]) = Ok (mo_scale o) | Err _ => False end) /\
  (match Model_from (VList (b ++ [node "rotate" [node "xyz" [VInt 7; VInt 8; VInt 9]]; node "zzz" [VInt 1]])) with Ok o => (in_arg 1 Coordinate_from) (node "rotate" [node "xyz" [VInt 7; VInt 8; VInt 9]]) = Ok (mo_rotate o) | Err _ => False end).
Proof. vm_compute. repeat split. Qed.

Theorem C41_DrillDefinition : picks DrillDefinition_from 0 ["offset"]%string "offset"%string (as_ Some Position_from) dd_offset.
Proof. exact L_PickB.DrillDefinition_pick. Qed.
Print Assumptions C41_DrillDefinition.
Example C41_DrillDefinition_case : let b := [VStr $"drill"; VStr $"F"; VStr $"F"; VStr $"F"; node "zzz" [VInt 1]] in
  (match DrillDefinition_from (VList (b ++ [node "offset" [VInt 7; VInt 8]; node "zzz" [VInt 1]])) with Ok o => (as_ Some Position_from) (node "offset" [VInt 7; VInt 8]) = Ok (dd_offset o) | Err _ => False end).
Proof. vm_compute. repeat split. Qed.

Theorem C41_PadOptions : picks PadOptions_from 0 ["clearance"]%string "clearance"%string (arg 1) pq_clearance /\
  picks PadOptions_from 0 ["anchor"]%string "anchor"%string (arg 1) pq_anchor.
Proof. exact L_PickB.PadOptions_pick. Qed.
Print Assumptions C41_PadOptions.
Example C41_PadOptions_case : let b := [VStr $"options"; node "zzz" [VInt 1]] in
  (match PadOptions_from (VList (b ++ [node "clearance" [VInt 7]; node "zzz" [VInt 1]])) with Ok o => (arg 1) (node "clearance" [VInt 7]) = Ok (pq_clearance o) | Err _ => False end) /\
  (match PadOptions_from (VList (b ++ [node "anchor" [VInt 7]; node "zzz" [VInt 1]])) with Ok o => (arg 1) (node "anchor" [VInt 7]) = Ok (pq_anchor o) | Err _ => False end).
Proof. vm_compute. repeat split. Qed.

Theorem C41_Pad : marks Pad_from 3 ["locked"]%string "locked"%string true pd_locked /\
  picks Pad_from 3 ["at"]%string "at"%string Position_from pd_position /\
  picks Pad_from 3 ["size"]%string "size"%string Position_from pd_size /\
  picks Pad_from 3 ["drill"]%string "drill"%string (as_ Some DrillDefinition_from) pd_drill /\
  picks Pad_from 3 ["property"]%string "property"%string (arg 1) pd_property /\
  picks Pad_from 3 ["remove_unused_layers"]%string "remove_unused_layers"%string (const true) pd_removeUnusedLayers /\
  picks Pad_from 3 ["keep_end_layers"]%string "keep_end_layers"%string (const true) pd_keepEndLayers /\
  picks Pad_from 3 ["roundrect_rratio"]%string "roundrect_rratio"%string (arg 1) pd_roundrectRatio /\
  picks Pad_from 3 ["chamfer_ratio"]%string "chamfer_ratio"%string (arg 1) pd_chamferRatio /\
  picks Pad_from 3 ["net"]%string "net"%string (as_ Some Net_from) pd_net /\
  picks Pad_from 3 ["tstamp"]%string "tstamp"%string (arg 1) pd_tstamp /\
  picks Pad_from 3 ["pinfunction"]%string "pinfunction"%string (arg 1) pd_pinFunction /\
  picks Pad_from 3 ["pintype"]%string "pintype"%string (arg 1) pd_pinType /\
  picks Pad_from 3 ["die_length"]%string "die_length"%string (arg 1) pd_dieLength /\
  picks Pad_from 3 ["solder_mask_margin"]%string "solder_mask_margin"%string (arg 1) pd_solderMaskMargin /\
  picks Pad_from 3 ["solder_paste_margin"]%string "solder_paste_margin"%string (arg 1) pd_solderPasteMargin /\
  picks Pad_from 3 ["solder_paste_margin_ratio"]%string "solder_paste_margin_ratio"%string (arg 1) pd_solderPasteMarginRatio /\
  picks Pad_from 3 ["clearance"]%string "clearance"%string (arg 1) pd_clearance /\
  picks Pad_from 3 ["zone_connect"]%string "zone_connect"%string (arg 1) pd_zoneConnect /\
  picks Pad_from 3 ["thermal_width"]%string "thermal_width"%string (arg 1) pd_thermalWidth /\
  picks Pad_from 3 ["thermal_gap"]%string "thermal_gap"%string (arg 1) pd_thermalGap /\
  picks Pad_from 3 ["options"]%string "options"%string (as_ Some PadOptions_from) pd_customPadOptions.
Proof. exact L_PickB.Pad_pick. Qed.
Print Assumptions C41_Pad.
Example C41_Pad_case : let b := [VStr $"pad"; VStr $"F"; VStr $"F"; VStr $"F"; node "zzz" [VInt 1]] in
  (match Pad_from (VList (b ++ [VStr $"locked"; node "zzz" [VInt 1]])) with Ok o => pd_locked o = true | Err _ => False end) /\
  (match Pad_from (VList (b ++ [node "at" [VInt 7; VInt 8]; node "zzz" [VInt 1]])) with Ok o => Position_from (node "at" [VInt 7; VInt 8]) = Ok (pd_position o) | Err _ => False end) /\
  (match Pad_from (VList (b ++ [node "size" [VInt 7; VInt 8]; node "zzz" [VInt 1]])) with Ok o => Position_from (node "size" [VInt 7; VInt 8]) = Ok (pd_size o) | Err _ => False end) /\
  (match Pad_from (VList (b ++ [node "drill" [VInt 7]; node "zzz" [VInt 1]])) with Ok o => (as_ Some DrillDefinition_from) (node "drill" [VInt 7]) = Ok (pd_drill o) | Err _ => False end) /\
  (match Pad_from (VList (b ++ [node "property" [VInt 7]; node "zzz" [VInt 1]])) with Ok o => (arg 1) (node "property" [VInt 7]) = Ok (pd_property o) | Err _ => False end) /\
  (match Pad_from (VList (b ++ [node "remove_unused_layers" [VInt 7]; node "zzz" [VInt 1]])) with Ok o => (const true) (node "remove_unused_layers" [VInt 7]) = Ok (pd_removeUnusedLayers o) | Err _ => False end) /\
  (match Pad_from (VList (b ++ [node "keep_end_layers" [VInt 7]; node "zzz" [VInt 1]])) with Ok o => (const true) (node "keep_end_layers" [VInt 7]) = Ok (pd_keepEndLayers o) | Err _ => False end) /\
  (match Pad_from (VList (b ++ [node "roundrect_rratio" [VInt 7]; node "zzz" [VInt 1]])) with Ok o => (arg 1) (node "roundrect_rratio" [VInt 7]) = Ok (pd_roundrectRatio o) | Err _ => False end) /\
  (match Pad_from (VList (b ++ [node "chamfer_ratio" [VInt 7]; node "zzz" [VInt 1]])) with Ok o => (arg 1) (node "chamfer_ratio" [VInt 7]) = Ok (pd_chamferRatio o) | Err _ => False end) /\
  (match Pad_from (VList (b ++ [node "net" [VInt 7; VInt 8]; node "zzz" [VInt 1]])) with Ok o => (as_ Some Net_from) (node "net" [VInt 7; VInt 8]) = Ok (pd_net o) | Err _ => False end) /\
  (match Pad_from (VList (b ++ [node "tstamp" [VInt 7]; node "zzz" [VInt 1]])) with Ok o => (arg 1) (node "tstamp" [VInt 7]) = Ok (pd_tstamp o) | Err _ => False end) /\
  (match Pad_from (VList (b ++ [node "pinfunction" [VInt 7]; node "zzz" [VInt 1]])) with Ok o => (arg 1) (node "pinfunction" [VInt 7]) = Ok (pd_pinFunction o) | Err _ => False end) /\
  (match Pad_from (VList (b ++ [node "pintype" [VInt 7]; node "zzz" [VInt 1]])) with Ok o => (arg 1) (node "pintype" [VInt 7]) = Ok (pd_pinType o) | Err _ => False end) /\
  (match Pad_from (VList (b ++ [node "die_length" [VInt 7]; node "zzz" [VInt 1]])) with Ok o => (arg 1) (node "die_length" [VInt 7]) = Ok (pd_dieLength o) | Err _ => False end) /\
  (match Pad_from (VList (b ++ [node "solder_mask_margin" [VInt 7]; node "zzz" [VInt 1]])) with Ok o => (arg 1) (node "solder_mask_margin" [VInt 7]) = Ok (pd_solderMaskMargin o) | Err _ => False end) /\
  (match Pad_from (VList (b ++ [node "solder_paste_margin" [VInt 7]; node "zzz" [VInt 1]])) with Ok o => (arg 1) (node "solder_paste_margin" [VInt 7]) = Ok (pd_solderPasteMargin o) | Err _ => False end) /\
  (match Pad_from (VList (b ++ [node "solder_paste_margin_ratio" [VInt 7]; node "zzz" [VInt 1]])) with Ok o => (arg 1) (node "solder_paste_margin_ratio" [VInt 7]) = Ok (pd_solderPasteMarginRatio o) | Err _ => False end) /\
  (match Pad_from (VList (b ++ [node "clearance" [VInt 7]; node "zzz" [VInt 1]])) with Ok o => (arg 1) (node "clearance" [VInt 7]) = Ok (pd_clearance o) | Err _ => False end) /\
  (match Pad_from (VList (b ++ [node "zone_connect" [VInt 7]; node "zzz" [VInt 1]])) with Ok o => (arg 1) (node "zone_connect" [VInt 7]) = Ok (pd_zoneConnect o) | Err _ => False end) /\
  (match Pad_from (VList (b ++ [node "thermal_width" [VInt 7]; node "zzz" [VInt 1]])) with Ok o => (arg 1) (node "thermal_width" [VInt 7]) = Ok (pd_thermalWidth o) | Err _ => False end) /\
  (match Pad_from (VList (b ++ [node "thermal_gap" [VInt 7]; node "zzz" [VInt 1]])) with Ok o => (arg 1) (node "thermal_gap" [VInt 7]) = Ok (pd_thermalGap o) | Err _ => False end) /\
  (match Pad_from (VList (b ++ [node "options" [VStr $"yes"]; node "zzz" [VInt 1]])) with Ok o => (as_ Some PadOptions_from) (node "options" [VStr $"yes"]) = Ok (pd_customPadOptions o) | Err _ => False end).
Proof. vm_compute. repeat split. Qed.

Theorem C41_Footprint now : marks (Footprint_from now) 2 ["locked"]%string "locked"%string true fd_locked /\
  marks (Footprint_from now) 2 ["placed"]%string "placed"%string true fd_placed /\
  picks (Footprint_from now) 2 ["version"]%string "version"%string (arg 1) fd_version /\
  picks (Footprint_from now) 2 ["generator"]%string "generator"%string (arg 1) fd_generator /\
  picks (Footprint_from now) 2 ["layer"]%string "layer"%string (arg 1) fd_layer /\
  picks (Footprint_from now) 2 ["tedit"]%string "tedit"%string (arg 1) fd_tedit /\
  picks (Footprint_from now) 2 ["tstamp"]%string "tstamp"%string (arg 1) fd_tstamp /\
  picks (Footprint_from now) 2 ["descr"]%string "descr"%string (arg 1) fd_description /\
  picks (Footprint_from now) 2 ["tags"]%string "tags"%string (arg 1) fd_tags /\
  picks (Footprint_from now) 2 ["path"]%string "path"%string (arg 1) fd_path /\
  picks (Footprint_from now) 2 ["at"]%string "at"%string (as_ Some Position_from) fd_position /\
  picks (Footprint_from now) 2 ["autoplace_cost90"]%string "autoplace_cost90"%string (arg 1) fd_autoplaceCost90 /\
  picks (Footprint_from now) 2 ["autoplace_cost180"]%string "autoplace_cost180"%string (arg 1) fd_autoplaceCost180 /\
  picks (Footprint_from now) 2 ["solder_mask_margin"]%string "solder_mask_margin"%string (arg 1) fd_solderMaskMargin /\
  picks (Footprint_from now) 2 ["solder_paste_margin"]%string "solder_paste_margin"%string (arg 1) fd_solderPasteMargin /\
  picks (Footprint_from now) 2 ["solder_paste_ratio"]%string "solder_paste_ratio"%string (arg 1) fd_solderPasteRatio /\
  picks (Footprint_from now) 2 ["clearance"]%string "clearance"%string (arg 1) fd_clearance /\
  picks (Footprint_from now) 2 ["zone_connect"]%string "zone_connect"%string (arg 1) fd_zoneConnect /\
  picks (Footprint_from now) 2 ["thermal_width"]%string "thermal_width"%string (arg 1) fd_thermalWidth /\
  picks (Footprint_from now) 2 ["thermal_gap"]%string "thermal_gap"%string (arg 1) fd_thermalGap /\
  picks (Footprint_from now) 2 ["attr"]%string "attr"%string Attributes_from fd_attributes.
Proof. exact (L_PickB.Footprint_pick now). Qed.
Print Assumptions C41_Footprint.
Example C41_Footprint_case : let b := [VStr $"module"; VStr $"F"; VStr $"F"; node "zzz" [VInt 1]] in
  (match (Footprint_from (VStr [])) (VList (b ++ [VStr $"locked"; node "zzz" [VInt 1]])) with Ok o => fd_locked o = true | Err _ => False end) /\
  (match (Footprint_from (VStr [])) (VList (b ++ [VStr $"placed"; node "zzz" [VInt 1]])) with Ok o => fd_placed o = true | Err _ => False end) /\
  (match (Footprint_from (VStr [])) (VList (b ++ [node "version" [VInt 7]; node "zzz" [VInt 1]])) with Ok o => (arg 1) (node "version" [VInt 7]) = Ok (fd_version o) | Err _ => False end) /\
  (match (Footprint_from (VStr [])) (VList (b ++ [node "generator" [VInt 7]; node "zzz" [VInt 1]])) with Ok o => (arg 1) (node "generator" [VInt 7]) = Ok (fd_generator o) | Err _ => False end) /\
  (match (Footprint_from (VStr [])) (VList (b ++ [node "layer" [VInt 7]; node "zzz" [VInt 1]])) with Ok o => (arg 1) (node "layer" [VInt 7]) = Ok (fd_layer o) | Err _ => False end) /\
  (match (Footprint_from (VStr [])) (VList (b ++ [node "tedit" [VInt 7]; node "zzz" [VInt 1]])) with Ok o => (arg 1) (node "tedit" [VInt 7]) = Ok (fd_tedit o) | Err _ => False end) /\
  (match (Footprint_from (VStr [])) (VList (b ++ [node "tstamp" [VInt 7]; node "zzz" [VInt 1]])) with Ok o => (arg 1) (node "tstamp" [VInt 7]) = Ok (fd_tstamp o) | Err _ => False end) /\
  (match (Footprint_from (VStr [])) (VList (b ++ [node "descr" [VInt 7]; node "zzz" [VInt 1]])) with Ok o => (arg 1) (node "descr" [VInt 7]) = Ok (fd_description o) | Err _ => False end) /\
  (match (Footprint_from (VStr [])) (VList (b ++ [node "tags" [VInt 7]; node "zzz" [VInt 1]])) with Ok o => (arg 1) (node "tags" [VInt 7]) = Ok (fd_tags o) | Err _ => False end) /\
  (match (Footprint_from (VStr [])) (VList (b ++ [node "path" [VInt 7]; node "zzz" [VInt 1]])) with Ok o => (arg 1) (node "path" [VInt 7]) = Ok (fd_path o) | Err _ => False end) /\
  (match (Footprint_from (VStr [])) (VList (b ++ [node "at" [VInt 7; VInt 8]; node "zzz" [VInt 1]])) with Ok o => (as_ Some Position_from) (node "at" [VInt 7; VInt 8]) = Ok (fd_position o) | Err _ => False end) /\
  (match (Footprint_from (VStr [])) (VList (b ++ [node "autoplace_cost90" [VInt 7]; node "zzz" [VInt 1]])) with Ok o => (arg 1) (node "autoplace_cost90" [VInt 7]) = Ok (fd_autoplaceCost90 o) | Err _ => False end) /\
  (match (Footprint_from (VStr [])) (VList (b ++ [node "autoplace_cost180" [VInt 7]; node "zzz" [VInt 1]])) with Ok o => (arg 1) (node "autoplace_cost180" [VInt 7]) = Ok (fd_autoplaceCost180 o) | Err _ => False end) /\
  (match (Footprint_from (VStr [])) (VList (b ++ [node "solder_mask_margin" [VInt 7]; node "zzz" [VInt 1]])) with Ok o => (arg 1) (node "solder_mask_margin" [VInt 7]) = Ok (fd_solderMaskMargin o) | Err _ => False end) /\
  (match (Footprint_from (VStr [])) (VList (b ++ [node "solder_paste_margin" [VInt 7]; node "zzz" [VInt 1]])) with Ok o => (arg 1) (node "solder_paste_margin" [VInt 7]) = Ok (fd_solderPasteMargin o) | Err _ => False end) /\
  (match (Footprint_from (VStr [])) (VList (b ++ [node "solder_paste_ratio" [VInt 7]; node "zzz" [VInt 1]])) with Ok o => (arg 1) (node "solder_paste_ratio" [VInt 7]) = Ok (fd_solderPasteRatio o) | Err _ => False end) /\
  (match (Footprint_from (VStr [])) (VList (b ++ [node "clearance" [VInt 7]; node "zzz" [VInt 1]])) with Ok o => (arg 1) (node "clearance" [VInt 7]) = Ok (fd_clearance o) | Err _ => False end) /\
  (match (Footprint_from (VStr [])) (VList (b ++ [node "zone_connect" [VInt 7]; node "zzz" [VInt 1]])) with Ok o => (arg 1) (node "zone_connect" [VInt 7]) = Ok (fd_zoneConnect o) | Err _ => False end) /\
  (match (Footprint_from (VStr [])) (VList (b ++ [node "thermal_width" [VInt 7]; node "zzz" [VInt 1]])) with Ok o => (arg 1) (node "thermal_width" [VInt 7]) = Ok (fd_thermalWidth o) | Err _ => False end) /\
  (match (Footprint_from (VStr [])) (VList (b ++ [node "thermal_gap" [VInt 7]; node "zzz" [VInt 1]])) with Ok o => (arg 1) (node "thermal_gap" [VInt 7]) = Ok (fd_thermalGap o) | Err _ => False end) /\
  (match (Footprint_from (VStr [])) (VList (b ++ [node "attr" [VInt 7]; node "zzz" [VInt 1]])) with Ok o => Attributes_from (node "attr" [VInt 7]) = Ok (fd_attributes o) | Err _ => False end).
Proof. vm_compute. repeat split. Qed.
