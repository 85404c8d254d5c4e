(** Order of the children of an expression (C29). The lists name the tokens that must keep their order among
    themselves; any two other neighbouring items may change places behind the positional arguments. Each [case]
    is an accepted expression with two such items. *)
From Verif Require Import PyBase PyNum PyStr Sexpr S_Leaf S_Tree S_Reader M_Common M_Lib M_Sym M_Fp M_Gr M_Zone.
From Verif Require L_SwapB.

Theorem C29_FpText : swaps FpText_from 2 [["hide"]; ["at"]; ["layer"]; ["effects"]; ["tstamp"]; ["render_cache"]]%string.
Proof. exact L_SwapB.FpText_swap. Qed.
Print Assumptions C29_FpText.
Example C29_FpText_case : let x := VStr $"hide" in let y := node "render_cache" [VStr $"a"; VStr $"b"] in
  (apart [["hide"]; ["at"]; ["layer"]; ["effects"]; ["tstamp"]; ["render_cache"]]%string x y && accepts (FpText_from) (VList [VStr $"fp_text"; VStr $"F"; VStr $"F"; node "zzz" [VInt 1]; x; y]))%bool = true.
Proof. vm_compute. reflexivity. Qed.

Theorem C29_FpLine : swaps FpLine_from 0 [["locked"]; ["start"]; ["end"]; ["layer"]; ["tstamp"]; ["width"; "stroke"]]%string.
Proof. exact L_SwapB.FpLine_swap. Qed.
Print Assumptions C29_FpLine.
Example C29_FpLine_case : let x := VStr $"locked" in let y := node "width" [VStr $"a"] in
  (apart [["locked"]; ["start"]; ["end"]; ["layer"]; ["tstamp"]; ["width"; "stroke"]]%string x y && accepts (FpLine_from) (VList [VStr $"fp_line"; node "zzz" [VInt 1]; x; y]))%bool = true.
Proof. vm_compute. reflexivity. Qed.

Theorem C29_FpRect : swaps FpRect_from 0 [["locked"]; ["start"]; ["end"]; ["layer"]; ["tstamp"]; ["fill"]; ["width"; "stroke"]]%string.
Proof. exact L_SwapB.FpRect_swap. Qed.
Print Assumptions C29_FpRect.
Example C29_FpRect_case : let x := VStr $"locked" in let y := node "width" [VStr $"a"] in
  (apart [["locked"]; ["start"]; ["end"]; ["layer"]; ["tstamp"]; ["fill"]; ["width"; "stroke"]]%string x y && accepts (FpRect_from) (VList [VStr $"fp_rect"; node "zzz" [VInt 1]; x; y]))%bool = true.
Proof. vm_compute. reflexivity. Qed.

Theorem C29_FpCircle : swaps FpCircle_from 0 [["locked"]; ["center"]; ["end"]; ["layer"]; ["tstamp"]; ["fill"]; ["width"; "stroke"]]%string.
Proof. exact L_SwapB.FpCircle_swap. Qed.
Print Assumptions C29_FpCircle.
Example C29_FpCircle_case : let x := VStr $"locked" in let y := node "width" [VStr $"a"] in
  (apart [["locked"]; ["center"]; ["end"]; ["layer"]; ["tstamp"]; ["fill"]; ["width"; "stroke"]]%string x y && accepts (FpCircle_from) (VList [VStr $"fp_circle"; node "zzz" [VInt 1]; x; y]))%bool = true.
Proof. vm_compute. reflexivity. Qed.

Theorem C29_FpArc : swaps FpArc_from 0 [["locked"]; ["start"]; ["mid"]; ["end"]; ["layer"]; ["tstamp"]; ["width"; "stroke"]]%string.
Proof. exact L_SwapB.FpArc_swap. Qed.
Print Assumptions C29_FpArc.
Example C29_FpArc_case : let x := VStr $"locked" in let y := node "width" [VStr $"a"] in
  (apart [["locked"]; ["start"]; ["mid"]; ["end"]; ["layer"]; ["tstamp"]; ["width"; "stroke"]]%string x y && accepts (FpArc_from) (VList [VStr $"fp_arc"; node "zzz" [VInt 1]; x; y]))%bool = true.
Proof. vm_compute. reflexivity. Qed.

Theorem C29_FpPoly : swaps FpPoly_from 0 [["locked"]; ["pts"]; ["layer"]; ["tstamp"]; ["fill"]; ["width"; "stroke"]]%string.
Proof. exact L_SwapB.FpPoly_swap. Qed.
Print Assumptions C29_FpPoly.
Example C29_FpPoly_case : let x := VStr $"locked" in let y := node "width" [VStr $"a"] in
  (apart [["locked"]; ["pts"]; ["layer"]; ["tstamp"]; ["fill"]; ["width"; "stroke"]]%string x y && accepts (FpPoly_from) (VList [VStr $"fp_poly"; node "zzz" [VInt 1]; x; y]))%bool = true.
Proof. vm_compute. reflexivity. Qed.

Theorem C29_FpCurve : swaps FpCurve_from 0 [["locked"]; ["pts"]; ["layer"]; ["tstamp"]; ["width"; "stroke"]]%string.
Proof. exact L_SwapB.FpCurve_swap. Qed.
Print Assumptions C29_FpCurve.
Example C29_FpCurve_case : let x := VStr $"locked" in let y := node "width" [VStr $"a"] in
  (apart [["locked"]; ["pts"]; ["layer"]; ["tstamp"]; ["width"; "stroke"]]%string x y && accepts (FpCurve_from) (VList [VStr $"fp_curve"; node "zzz" [VInt 1]; x; y]))%bool = true.
Proof. vm_compute. reflexivity. Qed.

Theorem C29_FpTextBox : swaps FpTextBox_from 2 [["start"]; ["end"]; ["pts"]; ["angle"]; ["layer"]; ["tstamp"]; ["effects"]; ["stroke"]; ["render_cache"]]%string.
Proof. exact L_SwapB.FpTextBox_swap. Qed.
Print Assumptions C29_FpTextBox.
Example C29_FpTextBox_case : let x := node "start" [VInt 1; VInt 2] in let y := node "render_cache" [VStr $"a"; VStr $"b"] in
  (apart [["start"]; ["end"]; ["pts"]; ["angle"]; ["layer"]; ["tstamp"]; ["effects"]; ["stroke"]; ["render_cache"]]%string x y && accepts (FpTextBox_from) (VList [VStr $"fp_text_box"; VStr $"F"; VStr $"F"; node "zzz" [VInt 1]; x; y]))%bool = true.
Proof. vm_compute. reflexivity. Qed.

Theorem C29_GrText : swaps GrText_from 1 [["locked"]; ["at"]; ["layer"]; ["effects"]; ["tstamp"]; ["render_cache"]]%string.
Proof. exact L_SwapB.GrText_swap. Qed.
Print Assumptions C29_GrText.
Example C29_GrText_case : let x := VStr $"locked" in let y := node "render_cache" [VStr $"a"; VStr $"b"] in
  (apart [["locked"]; ["at"]; ["layer"]; ["effects"]; ["tstamp"]; ["render_cache"]]%string x y && accepts (GrText_from) (VList [VStr $"gr_text"; VStr $"F"; node "zzz" [VInt 1]; x; y]))%bool = true.
Proof. vm_compute. reflexivity. Qed.

Theorem C29_GrLine : swaps GrLine_from 0 [["locked"]; ["start"]; ["end"]; ["layer"]; ["tstamp"]; ["width"]]%string.
Proof. exact L_SwapB.GrLine_swap. Qed.
Print Assumptions C29_GrLine.
Example C29_GrLine_case : let x := VStr $"locked" in let y := node "width" [VStr $"a"] in
  (apart [["locked"]; ["start"]; ["end"]; ["layer"]; ["tstamp"]; ["width"]]%string x y && accepts (GrLine_from) (VList [VStr $"gr_line"; node "zzz" [VInt 1]; x; y]))%bool = true.
Proof. vm_compute. reflexivity. Qed.

Theorem C29_GrRect : swaps GrRect_from 0 [["locked"]; ["start"]; ["end"]; ["layer"]; ["tstamp"]; ["fill"]; ["width"]]%string.
Proof. exact L_SwapB.GrRect_swap. Qed.
Print Assumptions C29_GrRect.
Example C29_GrRect_case : let x := VStr $"locked" in let y := node "width" [VStr $"a"] in
  (apart [["locked"]; ["start"]; ["end"]; ["layer"]; ["tstamp"]; ["fill"]; ["width"]]%string x y && accepts (GrRect_from) (VList [VStr $"gr_rect"; node "zzz" [VInt 1]; x; y]))%bool = true.
Proof. vm_compute. reflexivity. Qed.

Theorem C29_GrCircle : swaps GrCircle_from 0 [["locked"]; ["center"]; ["end"]; ["layer"]; ["tstamp"]; ["fill"]; ["width"]]%string.
Proof. exact L_SwapB.GrCircle_swap. Qed.
Print Assumptions C29_GrCircle.
Example C29_GrCircle_case : let x := VStr $"locked" in let y := node "width" [VStr $"a"] in
  (apart [["locked"]; ["center"]; ["end"]; ["layer"]; ["tstamp"]; ["fill"]; ["width"]]%string x y && accepts (GrCircle_from) (VList [VStr $"gr_circle"; node "zzz" [VInt 1]; x; y]))%bool = true.
Proof. vm_compute. reflexivity. Qed.

Theorem C29_GrArc : swaps GrArc_from 0 [["locked"]; ["start"]; ["mid"]; ["end"]; ["layer"]; ["tstamp"]; ["width"]]%string.
Proof. exact L_SwapB.GrArc_swap. Qed.
Print Assumptions C29_GrArc.
Example C29_GrArc_case : let x := VStr $"locked" in let y := node "width" [VStr $"a"] in
  (apart [["locked"]; ["start"]; ["mid"]; ["end"]; ["layer"]; ["tstamp"]; ["width"]]%string x y && accepts (GrArc_from) (VList [VStr $"gr_arc"; node "zzz" [VInt 1]; x; y]))%bool = true.
Proof. vm_compute. reflexivity. Qed.

Theorem C29_GrPoly : swaps GrPoly_from 0 [["locked"]; ["pts"]; ["layer"]; ["tstamp"]; ["fill"]; ["width"]]%string.
Proof. exact L_SwapB.GrPoly_swap. Qed.
Print Assumptions C29_GrPoly.
Example C29_GrPoly_case : let x := VStr $"locked" in let y := node "width" [VStr $"a"] in
  (apart [["locked"]; ["pts"]; ["layer"]; ["tstamp"]; ["fill"]; ["width"]]%string x y && accepts (GrPoly_from) (VList [VStr $"gr_poly"; node "zzz" [VInt 1]; x; y]))%bool = true.
Proof. vm_compute. reflexivity. Qed.

Theorem C29_GrCurve : swaps GrCurve_from 0 [["locked"]; ["pts"]; ["layer"]; ["tstamp"]; ["width"]]%string.
Proof. exact L_SwapB.GrCurve_swap. Qed.
Print Assumptions C29_GrCurve.
Example C29_GrCurve_case : let x := VStr $"locked" in let y := node "width" [VStr $"a"] in
  (apart [["locked"]; ["pts"]; ["layer"]; ["tstamp"]; ["width"]]%string x y && accepts (GrCurve_from) (VList [VStr $"gr_curve"; node "zzz" [VInt 1]; x; y]))%bool = true.
Proof. vm_compute. reflexivity. Qed.

Theorem C29_GrTextBox : swaps GrTextBox_from 2 [["start"]; ["end"]; ["pts"]; ["angle"]; ["layer"]; ["tstamp"]; ["effects"]; ["stroke"]; ["render_cache"]]%string.
Proof. exact L_SwapB.GrTextBox_swap. Qed.
Print Assumptions C29_GrTextBox.
Example C29_GrTextBox_case : let x := node "start" [VInt 1; VInt 2] in let y := node "render_cache" [VStr $"a"; VStr $"b"] in
  (apart [["start"]; ["end"]; ["pts"]; ["angle"]; ["layer"]; ["tstamp"]; ["effects"]; ["stroke"]; ["render_cache"]]%string x y && accepts (GrTextBox_from) (VList [VStr $"gr_text_box"; VStr $"F"; VStr $"F"; node "zzz" [VInt 1]; x; y]))%bool = true.
Proof. vm_compute. reflexivity. Qed.

Theorem C29_KeepoutSettings : swaps KeepoutSettings_from 0 [["tracks"]; ["vias"]; ["pads"]; ["copperpour"]; ["footprints"]]%string.
Proof. exact L_SwapB.KeepoutSettings_swap. Qed.
Print Assumptions C29_KeepoutSettings.
Example C29_KeepoutSettings_case : let x := node "tracks" [VStr $"a"] in let y := node "footprints" [VStr $"a"] in
  (apart [["tracks"]; ["vias"]; ["pads"]; ["copperpour"]; ["footprints"]]%string x y && accepts (KeepoutSettings_from) (VList [VStr $"keepout"; node "zzz" [VInt 1]; x; y]))%bool = true.
Proof. vm_compute. reflexivity. Qed.

Theorem C29_FillSettings : swaps FillSettings_from 0 [["yes"]; ["mode"]; ["thermal_gap"]; ["thermal_bridge_width"]; ["smoothing"]; ["radius"]; ["island_removal_mode"]; ["island_area_min"]; ["hatch_thickness"]; ["hatch_gap"]; ["hatch_orientation"]; ["hatch_smoothing_level"]; ["hatch_smoothing_value"]; ["hatch_border_algorithm"]; ["hatch_min_hole_area"]]%string.
Proof. exact L_SwapB.FillSettings_swap. Qed.
Print Assumptions C29_FillSettings.
Example C29_FillSettings_case : let x := VStr $"yes" in let y := node "hatch_min_hole_area" [VStr $"a"] in
  (apart [["yes"]; ["mode"]; ["thermal_gap"]; ["thermal_bridge_width"]; ["smoothing"]; ["radius"]; ["island_removal_mode"]; ["island_area_min"]; ["hatch_thickness"]; ["hatch_gap"]; ["hatch_orientation"]; ["hatch_smoothing_level"]; ["hatch_smoothing_value"]; ["hatch_border_algorithm"]; ["hatch_min_hole_area"]]%string x y && accepts (FillSettings_from) (VList [VStr $"fill"; node "zzz" [VInt 1]; x; y]))%bool = true.
Proof. vm_compute. reflexivity. Qed.

Theorem C29_ZonePolygon : swaps ZonePolygon_from 0 [["pts"]]%string.
Proof. exact L_SwapB.ZonePolygon_swap. Qed.
Print Assumptions C29_ZonePolygon.
Example C29_ZonePolygon_case : let x := node "pts" [] in let y := node "zzz" [VInt 1] in
  (apart [["pts"]]%string x y && accepts (ZonePolygon_from) (VList [VStr $"polygon"; node "zzz" [VInt 1]; x; y]))%bool = true.
Proof. vm_compute. reflexivity. Qed.

Theorem C29_FilledPolygon : swaps FilledPolygon_from 0 [["layer"]; ["island"]; ["pts"]]%string.
Proof. exact L_SwapB.FilledPolygon_swap. Qed.
Print Assumptions C29_FilledPolygon.
Example C29_FilledPolygon_case : let x := node "layer" [VStr $"a"] in let y := node "pts" [] in
  (apart [["layer"]; ["island"]; ["pts"]]%string x y && accepts (FilledPolygon_from) (VList [VStr $"filled_polygon"; node "zzz" [VInt 1]; x; y]))%bool = true.
Proof. vm_compute. reflexivity. Qed.

Theorem C29_FillSegments : swaps FillSegments_from 0 [["layer"]; ["pts"]]%string.
Proof. exact L_SwapB.FillSegments_swap. Qed.
Print Assumptions C29_FillSegments.
Example C29_FillSegments_case : let x := node "layer" [VStr $"a"] in let y := node "pts" [] in
  (apart [["layer"]; ["pts"]]%string x y && accepts (FillSegments_from) (VList [VStr $"fill_segments"; node "zzz" [VInt 1]; x; y]))%bool = true.
Proof. vm_compute. reflexivity. Qed.

Theorem C29_Zone : swaps Zone_from 0 [["locked"]; ["net"]; ["net_name"]; ["layers"; "layer"]; ["tstamp"]; ["name"]; ["hatch"]; ["priority"]; ["connect_pads"]; ["min_thickness"]; ["filled_areas_thickness"]; ["keepout"]; ["fill"]; ["polygon"]; ["filled_polygon"]; ["fill_segments"]]%string.
Proof. exact L_SwapB.Zone_swap. Qed.
Print Assumptions C29_Zone.
Example C29_Zone_case : let x := VStr $"locked" in let y := node "fill_segments" [VStr $"a"] in
  (apart [["locked"]; ["net"]; ["net_name"]; ["layers"; "layer"]; ["tstamp"]; ["name"]; ["hatch"]; ["priority"]; ["connect_pads"]; ["min_thickness"]; ["filled_areas_thickness"]; ["keepout"]; ["fill"]; ["polygon"]; ["filled_polygon"]; ["fill_segments"]]%string x y && accepts (Zone_from) (VList [VStr $"zone"; node "zzz" [VInt 1]; x; y]))%bool = true.
Proof. vm_compute. reflexivity. Qed.
