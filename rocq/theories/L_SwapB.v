(** Order of the children: proofs. *)
From Verif Require Import PyBase PyNum PyStr PyRe Sexpr S_Leaf S_Tree S_Reader L_Keep L_Swap M_Common M_Lib M_Sym M_Fp M_Gr M_Zone.

Lemma FpText_swap : swaps FpText_from 2 [["hide"]; ["at"]; ["layer"]; ["effects"]; ["tstamp"]; ["render_cache"]]%string.
Proof. swap_in FpText_from FpText_step 2. Qed.
Lemma FpLine_swap : swaps FpLine_from 0 [["locked"]; ["start"]; ["end"]; ["layer"]; ["tstamp"]; ["width"; "stroke"]]%string.
Proof. swap_in FpLine_from FpLine_step 0. Qed.
Lemma FpRect_swap : swaps FpRect_from 0 [["locked"]; ["start"]; ["end"]; ["layer"]; ["tstamp"]; ["fill"]; ["width"; "stroke"]]%string.
Proof. swap_in FpRect_from FpRect_step 0. Qed.
Lemma FpCircle_swap : swaps FpCircle_from 0 [["locked"]; ["center"]; ["end"]; ["layer"]; ["tstamp"]; ["fill"]; ["width"; "stroke"]]%string.
Proof. swap_in FpCircle_from FpCircle_step 0. Qed.
Lemma FpArc_swap : swaps FpArc_from 0 [["locked"]; ["start"]; ["mid"]; ["end"]; ["layer"]; ["tstamp"]; ["width"; "stroke"]]%string.
Proof. swap_in FpArc_from FpArc_step 0. Qed.
Lemma FpPoly_swap : swaps FpPoly_from 0 [["locked"]; ["pts"]; ["layer"]; ["tstamp"]; ["fill"]; ["width"; "stroke"]]%string.
Proof. swap_in FpPoly_from FpPoly_step 0. Qed.
Lemma FpCurve_swap : swaps FpCurve_from 0 [["locked"]; ["pts"]; ["layer"]; ["tstamp"]; ["width"; "stroke"]]%string.
Proof. swap_in FpCurve_from FpCurve_step 0. Qed.
Lemma FpTextBox_swap : swaps FpTextBox_from 2 [["start"]; ["end"]; ["pts"]; ["angle"]; ["layer"]; ["tstamp"]; ["effects"]; ["stroke"]; ["render_cache"]]%string.
Proof. swap_in FpTextBox_from FpTextBox_step 2 using text_box_locked. Qed.
Lemma GrText_swap : swaps GrText_from 1 [["locked"]; ["at"]; ["layer"]; ["effects"]; ["tstamp"]; ["render_cache"]]%string.
Proof. swap_in GrText_from GrText_step 1. Qed.
Lemma GrLine_swap : swaps GrLine_from 0 [["locked"]; ["start"]; ["end"]; ["layer"]; ["tstamp"]; ["width"]]%string.
Proof. swap_in GrLine_from GrLine_step 0. Qed.
Lemma GrRect_swap : swaps GrRect_from 0 [["locked"]; ["start"]; ["end"]; ["layer"]; ["tstamp"]; ["fill"]; ["width"]]%string.
Proof. swap_in GrRect_from GrRect_step 0. Qed.
Lemma GrCircle_swap : swaps GrCircle_from 0 [["locked"]; ["center"]; ["end"]; ["layer"]; ["tstamp"]; ["fill"]; ["width"]]%string.
Proof. swap_in GrCircle_from GrCircle_step 0. Qed.
Lemma GrArc_swap : swaps GrArc_from 0 [["locked"]; ["start"]; ["mid"]; ["end"]; ["layer"]; ["tstamp"]; ["width"]]%string.
Proof. swap_in GrArc_from GrArc_step 0. Qed.
Lemma GrPoly_swap : swaps GrPoly_from 0 [["locked"]; ["pts"]; ["layer"]; ["tstamp"]; ["fill"]; ["width"]]%string.
Proof. swap_in GrPoly_from GrPoly_step 0. Qed.
Lemma GrCurve_swap : swaps GrCurve_from 0 [["locked"]; ["pts"]; ["layer"]; ["tstamp"]; ["width"]]%string.
Proof. swap_in GrCurve_from GrCurve_step 0. Qed.
Lemma GrTextBox_swap : swaps GrTextBox_from 2 [["start"]; ["end"]; ["pts"]; ["angle"]; ["layer"]; ["tstamp"]; ["effects"]; ["stroke"]; ["render_cache"]]%string.
Proof. swap_in GrTextBox_from GrTextBox_step 2 using text_box_locked. Qed.
Lemma KeepoutSettings_swap : swaps KeepoutSettings_from 0 [["tracks"]; ["vias"]; ["pads"]; ["copperpour"]; ["footprints"]]%string.
Proof. swap_in KeepoutSettings_from KeepoutSettings_step 0. Qed.
Lemma FillSettings_swap : swaps FillSettings_from 0 [["yes"]; ["mode"]; ["thermal_gap"]; ["thermal_bridge_width"]; ["smoothing"]; ["radius"]; ["island_removal_mode"]; ["island_area_min"]; ["hatch_thickness"]; ["hatch_gap"]; ["hatch_orientation"]; ["hatch_smoothing_level"]; ["hatch_smoothing_value"]; ["hatch_border_algorithm"]; ["hatch_min_hole_area"]]%string.
Proof. swap_in FillSettings_from FillSettings_step 0. Qed.
Lemma ZonePolygon_swap : swaps ZonePolygon_from 0 [["pts"]]%string.
Proof. swap_in ZonePolygon_from ZonePolygon_step 0. Qed.
Lemma FilledPolygon_swap : swaps FilledPolygon_from 0 [["layer"]; ["island"]; ["pts"]]%string.
Proof. swap_in FilledPolygon_from FilledPolygon_step 0. Qed.
Lemma FillSegments_swap : swaps FillSegments_from 0 [["layer"]; ["pts"]]%string.
Proof. swap_in FillSegments_from FillSegments_step 0. Qed.
Lemma Zone_swap : swaps Zone_from 0 [["locked"]; ["net"]; ["net_name"]; ["layers"; "layer"]; ["tstamp"]; ["name"]; ["hatch"]; ["priority"]; ["connect_pads"]; ["min_thickness"]; ["filled_areas_thickness"]; ["keepout"]; ["fill"]; ["polygon"]; ["filled_polygon"]; ["fill_segments"]]%string.
Proof. swap_in Zone_from Zone_step 0. Qed.
