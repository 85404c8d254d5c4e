(** Missing tokens: what the readers put in place of a token that does not occur (C38). Each [case] is an
    expression without any of the keys of the theorem that the reader accepts. *)
From Verif Require Import PyBase PyNum PyStr Sexpr S_Leaf S_Tree S_Reader M_Common M_Lib M_Sym M_Fp M_Gr M_Zone M_Footprint.
From Verif Require L_AbsentB.

Theorem C38_FpText : absent FpText_from ["at"]%string ft_position (mkPosition (fdec 0 0) (fdec 0 0) VNone false) /\
  absent FpText_from ["layer"]%string ft_layer (VStr $"F.Cu") /\
  absent FpText_from ["layer"]%string ft_knockout false /\
  absent FpText_from ["hide"]%string ft_hide false /\
  absent FpText_from ["effects"]%string ft_effects (mkEffects (mkFont VNone (fdec 1 0) (fdec 1 0) VNone false false VNone None) (mkJustify VNone VNone false) false VNone) /\
  absent FpText_from ["tstamp"]%string ft_tstamp VNone /\
  absent FpText_from ["render_cache"]%string ft_renderCache None.
Proof. exact L_AbsentB.FpText_absent. Qed.
Print Assumptions C38_FpText.
Example C38_FpText_case : let items := [VStr $"fp_text"; VStr $"F"; VStr $"F"; node "zzz" [VInt 1]] in
  (lacks ["at"; "layer"; "hide"; "effects"; "tstamp"; "render_cache"]%string items && accepts (FpText_from) (VList items))%bool = true.
Proof. vm_compute. reflexivity. Qed.

Theorem C38_FpLine : absent FpLine_from ["start"]%string fl_start (mkPosition (fdec 0 0) (fdec 0 0) VNone false) /\
  absent FpLine_from ["end"]%string fl_end (mkPosition (fdec 0 0) (fdec 0 0) VNone false) /\
  absent FpLine_from ["layer"]%string fl_layer (VStr $"F.Cu") /\
  absent FpLine_from ["width"; "stroke"]%string fl_width (fdec 12 (-2)) /\
  absent FpLine_from ["width"; "stroke"]%string fl_stroke None /\
  absent FpLine_from ["locked"]%string fl_locked false /\
  absent FpLine_from ["tstamp"]%string fl_tstamp VNone.
Proof. exact L_AbsentB.FpLine_absent. Qed.
Print Assumptions C38_FpLine.
Example C38_FpLine_case : let items := [VStr $"fp_line"; node "zzz" [VInt 1]] in
  (lacks ["start"; "end"; "layer"; "width"; "stroke"; "locked"; "tstamp"]%string items && accepts (FpLine_from) (VList items))%bool = true.
Proof. vm_compute. reflexivity. Qed.

Theorem C38_FpRect : absent FpRect_from ["start"]%string fr_start (mkPosition (fdec 0 0) (fdec 0 0) VNone false) /\
  absent FpRect_from ["end"]%string fr_end (mkPosition (fdec 0 0) (fdec 0 0) VNone false) /\
  absent FpRect_from ["layer"]%string fr_layer (VStr $"F.Cu") /\
  absent FpRect_from ["width"; "stroke"]%string fr_width (fdec 12 (-2)) /\
  absent FpRect_from ["width"; "stroke"]%string fr_stroke None /\
  absent FpRect_from ["fill"]%string fr_fill VNone /\
  absent FpRect_from ["locked"]%string fr_locked false /\
  absent FpRect_from ["tstamp"]%string fr_tstamp VNone.
Proof. exact L_AbsentB.FpRect_absent. Qed.
Print Assumptions C38_FpRect.
Example C38_FpRect_case : let items := [VStr $"fp_rect"; node "zzz" [VInt 1]] in
  (lacks ["start"; "end"; "layer"; "width"; "stroke"; "fill"; "locked"; "tstamp"]%string items && accepts (FpRect_from) (VList items))%bool = true.
Proof. vm_compute. reflexivity. Qed.

Theorem C38_FpCircle : absent FpCircle_from ["center"]%string fc_center (mkPosition (fdec 0 0) (fdec 0 0) VNone false) /\
  absent FpCircle_from ["end"]%string fc_end (mkPosition (fdec 0 0) (fdec 0 0) VNone false) /\
  absent FpCircle_from ["layer"]%string fc_layer (VStr $"F.Cu") /\
  absent FpCircle_from ["width"; "stroke"]%string fc_width (fdec 12 (-2)) /\
  absent FpCircle_from ["width"; "stroke"]%string fc_stroke None /\
  absent FpCircle_from ["fill"]%string fc_fill VNone /\
  absent FpCircle_from ["locked"]%string fc_locked false /\
  absent FpCircle_from ["tstamp"]%string fc_tstamp VNone.
Proof. exact L_AbsentB.FpCircle_absent. Qed.
Print Assumptions C38_FpCircle.
Example C38_FpCircle_case : let items := [VStr $"fp_circle"; node "zzz" [VInt 1]] in
  (lacks ["center"; "end"; "layer"; "width"; "stroke"; "fill"; "locked"; "tstamp"]%string items && accepts (FpCircle_from) (VList items))%bool = true.
Proof. vm_compute. reflexivity. Qed.

Theorem C38_FpArc : absent FpArc_from ["start"]%string fa_start (mkPosition (fdec 0 0) (fdec 0 0) VNone false) /\
  absent FpArc_from ["mid"]%string fa_mid (mkPosition (fdec 0 0) (fdec 0 0) VNone false) /\
  absent FpArc_from ["end"]%string fa_end (mkPosition (fdec 0 0) (fdec 0 0) VNone false) /\
  absent FpArc_from ["layer"]%string fa_layer (VStr $"F.Cu") /\
  absent FpArc_from ["width"; "stroke"]%string fa_width (fdec 12 (-2)) /\
  absent FpArc_from ["width"; "stroke"]%string fa_stroke None /\
  absent FpArc_from ["locked"]%string fa_locked false /\
  absent FpArc_from ["tstamp"]%string fa_tstamp VNone.
Proof. exact L_AbsentB.FpArc_absent. Qed.
Print Assumptions C38_FpArc.
Example C38_FpArc_case : let items := [VStr $"fp_arc"; node "zzz" [VInt 1]] in
  (lacks ["start"; "mid"; "end"; "layer"; "width"; "stroke"; "locked"; "tstamp"]%string items && accepts (FpArc_from) (VList items))%bool = true.
Proof. vm_compute. reflexivity. Qed.

Theorem C38_FpPoly : absent FpPoly_from ["layer"]%string fp_layer (VStr $"F.Cu") /\
  absent FpPoly_from ["pts"]%string fp_coordinates [] /\
  absent FpPoly_from ["width"; "stroke"]%string fp_width (fdec 12 (-2)) /\
  absent FpPoly_from ["width"; "stroke"]%string fp_stroke None /\
  absent FpPoly_from ["fill"]%string fp_fill VNone /\
  absent FpPoly_from ["locked"]%string fp_locked false /\
  absent FpPoly_from ["tstamp"]%string fp_tstamp VNone.
Proof. exact L_AbsentB.FpPoly_absent. Qed.
Print Assumptions C38_FpPoly.
Example C38_FpPoly_case : let items := [VStr $"fp_poly"; node "zzz" [VInt 1]] in
  (lacks ["layer"; "pts"; "width"; "stroke"; "fill"; "locked"; "tstamp"]%string items && accepts (FpPoly_from) (VList items))%bool = true.
Proof. vm_compute. reflexivity. Qed.

Theorem C38_FpCurve : absent FpCurve_from ["pts"]%string fv_coordinates [] /\
  absent FpCurve_from ["layer"]%string fv_layer (VStr $"F.Cu") /\
  absent FpCurve_from ["width"; "stroke"]%string fv_width (fdec 12 (-2)) /\
  absent FpCurve_from ["width"; "stroke"]%string fv_stroke None /\
  absent FpCurve_from ["locked"]%string fv_locked false /\
  absent FpCurve_from ["tstamp"]%string fv_tstamp VNone.
Proof. exact L_AbsentB.FpCurve_absent. Qed.
Print Assumptions C38_FpCurve.
Example C38_FpCurve_case : let items := [VStr $"fp_curve"; node "zzz" [VInt 1]] in
  (lacks ["pts"; "layer"; "width"; "stroke"; "locked"; "tstamp"]%string items && accepts (FpCurve_from) (VList items))%bool = true.
Proof. vm_compute. reflexivity. Qed.

Theorem C38_FpTextBox : absent FpTextBox_from ["start"]%string fb_start None /\
  absent FpTextBox_from ["end"]%string fb_end None /\
  absent FpTextBox_from ["pts"]%string fb_pts [] /\
  absent FpTextBox_from ["angle"]%string fb_angle VNone /\
  absent FpTextBox_from ["layer"]%string fb_layer (VStr $"F.Cu") /\
  absent FpTextBox_from ["tstamp"]%string fb_tstamp VNone /\
  absent FpTextBox_from ["effects"]%string fb_effects None /\
  absent FpTextBox_from ["stroke"]%string fb_stroke None /\
  absent FpTextBox_from ["render_cache"]%string fb_renderCache None /\
  absent FpTextBox_from ["locked"]%string fb_locked false.
Proof. exact L_AbsentB.FpTextBox_absent. Qed.
Print Assumptions C38_FpTextBox.
Example C38_FpTextBox_case : let items := [VStr $"fp_text_box"; VStr $"F"; VStr $"F"; node "zzz" [VInt 1]] in
  (lacks ["start"; "end"; "pts"; "angle"; "layer"; "tstamp"; "effects"; "stroke"; "render_cache"; "locked"]%string items && accepts (FpTextBox_from) (VList items))%bool = true.
Proof. vm_compute. reflexivity. Qed.

Theorem C38_GrText : absent GrText_from ["layer"]%string gt_knockout false /\
  absent GrText_from ["at"]%string gt_position (mkPosition (fdec 0 0) (fdec 0 0) VNone false) /\
  absent GrText_from ["layer"]%string gt_layer VNone /\
  absent GrText_from ["effects"]%string gt_effects (mkEffects (mkFont VNone (fdec 1 0) (fdec 1 0) VNone false false VNone None) (mkJustify VNone VNone false) false VNone) /\
  absent GrText_from ["tstamp"]%string gt_tstamp VNone /\
  absent GrText_from ["locked"]%string gt_locked false /\
  absent GrText_from ["render_cache"]%string gt_renderCache None.
Proof. exact L_AbsentB.GrText_absent. Qed.
Print Assumptions C38_GrText.
Example C38_GrText_case : let items := [VStr $"gr_text"; VStr $"F"; node "zzz" [VInt 1]] in
  (lacks ["layer"; "at"; "effects"; "tstamp"; "locked"; "render_cache"]%string items && accepts (GrText_from) (VList items))%bool = true.
Proof. vm_compute. reflexivity. Qed.

Theorem C38_GrLine : absent GrLine_from ["start"]%string gl_start (mkPosition (fdec 0 0) (fdec 0 0) VNone false) /\
  absent GrLine_from ["end"]%string gl_end (mkPosition (fdec 0 0) (fdec 0 0) VNone false) /\
  absent GrLine_from [] gl_angle VNone /\
  absent GrLine_from ["layer"]%string gl_layer VNone /\
  absent GrLine_from ["width"]%string gl_width (fdec 12 (-2)) /\
  absent GrLine_from ["tstamp"]%string gl_tstamp VNone /\
  absent GrLine_from ["locked"]%string gl_locked false.
Proof. exact L_AbsentB.GrLine_absent. Qed.
Print Assumptions C38_GrLine.
Example C38_GrLine_case : let items := [VStr $"gr_line"; node "zzz" [VInt 1]] in
  (lacks ["start"; "end"; "layer"; "width"; "tstamp"; "locked"]%string items && accepts (GrLine_from) (VList items))%bool = true.
Proof. vm_compute. reflexivity. Qed.

Theorem C38_GrRect : absent GrRect_from ["start"]%string gr_start (mkPosition (fdec 0 0) (fdec 0 0) VNone false) /\
  absent GrRect_from ["end"]%string gr_end (mkPosition (fdec 0 0) (fdec 0 0) VNone false) /\
  absent GrRect_from ["layer"]%string gr_layer VNone /\
  absent GrRect_from ["width"]%string gr_width (fdec 12 (-2)) /\
  absent GrRect_from ["fill"]%string gr_fill VNone /\
  absent GrRect_from ["tstamp"]%string gr_tstamp VNone /\
  absent GrRect_from ["locked"]%string gr_locked false.
Proof. exact L_AbsentB.GrRect_absent. Qed.
Print Assumptions C38_GrRect.
Example C38_GrRect_case : let items := [VStr $"gr_rect"; node "zzz" [VInt 1]] in
  (lacks ["start"; "end"; "layer"; "width"; "fill"; "tstamp"; "locked"]%string items && accepts (GrRect_from) (VList items))%bool = true.
Proof. vm_compute. reflexivity. Qed.

Theorem C38_GrCircle : absent GrCircle_from ["center"]%string gc_center (mkPosition (fdec 0 0) (fdec 0 0) VNone false) /\
  absent GrCircle_from ["end"]%string gc_end (mkPosition (fdec 0 0) (fdec 0 0) VNone false) /\
  absent GrCircle_from ["layer"]%string gc_layer VNone /\
  absent GrCircle_from ["width"]%string gc_width (fdec 12 (-2)) /\
  absent GrCircle_from ["fill"]%string gc_fill VNone /\
  absent GrCircle_from ["tstamp"]%string gc_tstamp VNone /\
  absent GrCircle_from ["locked"]%string gc_locked false.
Proof. exact L_AbsentB.GrCircle_absent. Qed.
Print Assumptions C38_GrCircle.
Example C38_GrCircle_case : let items := [VStr $"gr_circle"; node "zzz" [VInt 1]] in
  (lacks ["center"; "end"; "layer"; "width"; "fill"; "tstamp"; "locked"]%string items && accepts (GrCircle_from) (VList items))%bool = true.
Proof. vm_compute. reflexivity. Qed.

Theorem C38_GrArc : absent GrArc_from ["start"]%string ga_start (mkPosition (fdec 0 0) (fdec 0 0) VNone false) /\
  absent GrArc_from ["mid"]%string ga_mid (mkPosition (fdec 0 0) (fdec 0 0) VNone false) /\
  absent GrArc_from ["end"]%string ga_end (mkPosition (fdec 0 0) (fdec 0 0) VNone false) /\
  absent GrArc_from ["layer"]%string ga_layer VNone /\
  absent GrArc_from ["width"]%string ga_width (fdec 12 (-2)) /\
  absent GrArc_from ["tstamp"]%string ga_tstamp VNone /\
  absent GrArc_from ["locked"]%string ga_locked false.
Proof. exact L_AbsentB.GrArc_absent. Qed.
Print Assumptions C38_GrArc.
Example C38_GrArc_case : let items := [VStr $"gr_arc"; node "zzz" [VInt 1]] in
  (lacks ["start"; "mid"; "end"; "layer"; "width"; "tstamp"; "locked"]%string items && accepts (GrArc_from) (VList items))%bool = true.
Proof. vm_compute. reflexivity. Qed.

Theorem C38_GrPoly : absent GrPoly_from ["layer"]%string gp_layer VNone /\
  absent GrPoly_from ["pts"]%string gp_coordinates [] /\
  absent GrPoly_from ["width"]%string gp_width (fdec 12 (-2)) /\
  absent GrPoly_from ["fill"]%string gp_fill VNone /\
  absent GrPoly_from ["tstamp"]%string gp_tstamp VNone /\
  absent GrPoly_from ["locked"]%string gp_locked false.
Proof. exact L_AbsentB.GrPoly_absent. Qed.
Print Assumptions C38_GrPoly.
Example C38_GrPoly_case : let items := [VStr $"gr_poly"; node "zzz" [VInt 1]] in
  (lacks ["layer"; "pts"; "width"; "fill"; "tstamp"; "locked"]%string items && accepts (GrPoly_from) (VList items))%bool = true.
Proof. vm_compute. reflexivity. Qed.

Theorem C38_GrCurve : absent GrCurve_from ["pts"]%string gv_coordinates [] /\
  absent GrCurve_from ["layer"]%string gv_layer VNone /\
  absent GrCurve_from ["width"]%string gv_width (fdec 12 (-2)) /\
  absent GrCurve_from ["tstamp"]%string gv_tstamp VNone /\
  absent GrCurve_from ["locked"]%string gv_locked false.
Proof. exact L_AbsentB.GrCurve_absent. Qed.
Print Assumptions C38_GrCurve.
Example C38_GrCurve_case : let items := [VStr $"gr_curve"; node "zzz" [VInt 1]] in
  (lacks ["pts"; "layer"; "width"; "tstamp"; "locked"]%string items && accepts (GrCurve_from) (VList items))%bool = true.
Proof. vm_compute. reflexivity. Qed.

Theorem C38_GrTextBox : absent GrTextBox_from ["start"]%string gb_start None /\
  absent GrTextBox_from ["end"]%string gb_end None /\
  absent GrTextBox_from ["pts"]%string gb_pts [] /\
  absent GrTextBox_from ["angle"]%string gb_angle VNone /\
  absent GrTextBox_from ["layer"]%string gb_layer (VStr $"F.Cu") /\
  absent GrTextBox_from ["tstamp"]%string gb_tstamp VNone /\
  absent GrTextBox_from ["effects"]%string gb_effects None /\
  absent GrTextBox_from ["stroke"]%string gb_stroke None /\
  absent GrTextBox_from ["render_cache"]%string gb_renderCache None /\
  absent GrTextBox_from ["locked"]%string gb_locked false.
Proof. exact L_AbsentB.GrTextBox_absent. Qed.
Print Assumptions C38_GrTextBox.
Example C38_GrTextBox_case : let items := [VStr $"gr_text_box"; VStr $"F"; VStr $"F"; node "zzz" [VInt 1]] in
  (lacks ["start"; "end"; "pts"; "angle"; "layer"; "tstamp"; "effects"; "stroke"; "render_cache"; "locked"]%string items && accepts (GrTextBox_from) (VList items))%bool = true.
Proof. vm_compute. reflexivity. Qed.

Theorem C38_KeepoutSettings : absent KeepoutSettings_from ["tracks"]%string ks_tracks (VStr $"allowed") /\
  absent KeepoutSettings_from ["vias"]%string ks_vias (VStr $"allowed") /\
  absent KeepoutSettings_from ["pads"]%string ks_pads (VStr $"allowed") /\
  absent KeepoutSettings_from ["copperpour"]%string ks_copperpour (VStr $"not-allowed") /\
  absent KeepoutSettings_from ["footprints"]%string ks_footprints (VStr $"not-allowed").
Proof. exact L_AbsentB.KeepoutSettings_absent. Qed.
Print Assumptions C38_KeepoutSettings.
Example C38_KeepoutSettings_case : let items := [VStr $"keepout"; node "zzz" [VInt 1]] in
  (lacks ["tracks"; "vias"; "pads"; "copperpour"; "footprints"]%string items && accepts (KeepoutSettings_from) (VList items))%bool = true.
Proof. vm_compute. reflexivity. Qed.

Theorem C38_FillSettings : absent FillSettings_from ["yes"]%string fs_yes false /\
  absent FillSettings_from ["mode"]%string fs_mode VNone /\
  absent FillSettings_from ["thermal_gap"]%string fs_thermalGap VNone /\
  absent FillSettings_from ["thermal_bridge_width"]%string fs_thermalBridgeWidth VNone /\
  absent FillSettings_from ["smoothing"]%string fs_smoothingStyle VNone /\
  absent FillSettings_from ["radius"]%string fs_smoothingRadius VNone /\
  absent FillSettings_from ["island_removal_mode"]%string fs_islandRemovalMode VNone /\
  absent FillSettings_from ["island_area_min"]%string fs_islandAreaMin VNone /\
  absent FillSettings_from ["hatch_thickness"]%string fs_hatchThickness VNone /\
  absent FillSettings_from ["hatch_gap"]%string fs_hatchGap VNone /\
  absent FillSettings_from ["hatch_orientation"]%string fs_hatchOrientation VNone /\
  absent FillSettings_from ["hatch_smoothing_level"]%string fs_hatchSmoothingLevel VNone /\
  absent FillSettings_from ["hatch_smoothing_value"]%string fs_hatchSmoothingValue VNone /\
  absent FillSettings_from ["hatch_border_algorithm"]%string fs_hatchBorderAlgorithm VNone /\
  absent FillSettings_from ["hatch_min_hole_area"]%string fs_hatchMinHoleArea VNone.
Proof. exact L_AbsentB.FillSettings_absent. Qed.
Print Assumptions C38_FillSettings.
Example C38_FillSettings_case : let items := [VStr $"fill"; node "zzz" [VInt 1]] in
  (lacks ["yes"; "mode"; "thermal_gap"; "thermal_bridge_width"; "smoothing"; "radius"; "island_removal_mode"; "island_area_min"; "hatch_thickness"; "hatch_gap"; "hatch_orientation"; "hatch_smoothing_level"; "hatch_smoothing_value"; "hatch_border_algorithm"; "hatch_min_hole_area"]%string items && accepts (FillSettings_from) (VList items))%bool = true.
Proof. vm_compute. reflexivity. Qed.

Theorem C38_ZonePolygon : absent ZonePolygon_from ["pts"]%string zp_coordinates [].
Proof. exact L_AbsentB.ZonePolygon_absent. Qed.
Print Assumptions C38_ZonePolygon.
Example C38_ZonePolygon_case : let items := [VStr $"polygon"; node "zzz" [VInt 1]] in
  (lacks ["pts"]%string items && accepts (ZonePolygon_from) (VList items))%bool = true.
Proof. vm_compute. reflexivity. Qed.

Theorem C38_FilledPolygon : absent FilledPolygon_from ["layer"]%string zf_layer (VStr $"F.Cu") /\
  absent FilledPolygon_from ["island"]%string zf_island false /\
  absent FilledPolygon_from ["pts"]%string zf_coordinates [].
Proof. exact L_AbsentB.FilledPolygon_absent. Qed.
Print Assumptions C38_FilledPolygon.
Example C38_FilledPolygon_case : let items := [VStr $"filled_polygon"; node "zzz" [VInt 1]] in
  (lacks ["layer"; "island"; "pts"]%string items && accepts (FilledPolygon_from) (VList items))%bool = true.
Proof. vm_compute. reflexivity. Qed.

Theorem C38_FillSegments : absent FillSegments_from ["layer"]%string zs_layer (VStr $"F.Cu") /\
  absent FillSegments_from ["pts"]%string zs_coordinates [].
Proof. exact L_AbsentB.FillSegments_absent. Qed.
Print Assumptions C38_FillSegments.
Example C38_FillSegments_case : let items := [VStr $"fill_segments"; node "zzz" [VInt 1]] in
  (lacks ["layer"; "pts"]%string items && accepts (FillSegments_from) (VList items))%bool = true.
Proof. vm_compute. reflexivity. Qed.

Theorem C38_Zone : absent Zone_from ["locked"]%string zo_locked false /\
  absent Zone_from ["net"]%string zo_net (VInt 0) /\
  absent Zone_from ["net_name"]%string zo_netName (VStr $"unknown") /\
  absent Zone_from ["layers"; "layer"]%string zo_layers [] /\
  absent Zone_from ["tstamp"]%string zo_tstamp VNone /\
  absent Zone_from ["name"]%string zo_name VNone /\
  absent Zone_from ["hatch"]%string zo_hatch (mkHatch (VStr $"none") (fdec 0 0)) /\
  absent Zone_from ["priority"]%string zo_priority VNone /\
  absent Zone_from ["connect_pads"]%string zo_connectPads VNone /\
  absent Zone_from ["connect_pads"]%string zo_clearance (fdec 254 (-3)) /\
  absent Zone_from ["min_thickness"]%string zo_minThickness (fdec 254 (-3)) /\
  absent Zone_from ["filled_areas_thickness"]%string zo_filledAreasThickness VNone /\
  absent Zone_from ["keepout"]%string zo_keepoutSettings None /\
  absent Zone_from ["fill"]%string zo_fillSettings None /\
  absent Zone_from ["polygon"]%string zo_polygons [] /\
  absent Zone_from ["filled_polygon"]%string zo_filledPolygons [] /\
  absent Zone_from ["fill_segments"]%string zo_fillSegments None.
Proof. exact L_AbsentB.Zone_absent. Qed.
Print Assumptions C38_Zone.
Example C38_Zone_case : let items := [VStr $"zone"; node "zzz" [VInt 1]] in
  (lacks ["locked"; "net"; "net_name"; "layers"; "layer"; "tstamp"; "name"; "hatch"; "priority"; "connect_pads"; "min_thickness"; "filled_areas_thickness"; "keepout"; "fill"; "polygon"; "filled_polygon"; "fill_segments"]%string items && accepts (Zone_from) (VList items))%bool = true.
Proof. vm_compute. reflexivity. Qed.

Theorem C38_Attributes : absent Attributes_from ["board_only"]%string fx_boardOnly false /\
  absent Attributes_from ["exclude_from_pos_files"]%string fx_excludeFromPosFiles false /\
  absent Attributes_from ["exclude_from_bom"]%string fx_excludeFromBom false /\
  absent Attributes_from ["allow_missing_courtyard"]%string fx_allowMissingCourtyard false /\
  absent Attributes_from ["through_hole"; "smd"]%string fx_type VNone.
Proof. exact L_AbsentB.Attributes_absent. Qed.
Print Assumptions C38_Attributes.
Example C38_Attributes_case : let items := [VStr $"attr"; VStr $"F"; node "zzz" [VInt 1]] in
  (lacks ["board_only"; "exclude_from_pos_files"; "exclude_from_bom"; "allow_missing_courtyard"; "through_hole"; "smd"]%string items && accepts (Attributes_from) (VList items))%bool = true.
Proof. vm_compute. reflexivity. Qed.

Theorem C38_Model : absent Model_from ["offset"]%string mo_pos (mkCoordinate (fdec 0 0) (fdec 0 0) (fdec 0 0)) /\
  absent Model_from ["scale"]%string mo_scale (mkCoordinate (fdec 1 0) (fdec 1 0) (fdec 1 0)) /\
  absent Model_from ["rotate"]%string mo_rotate (mkCoordinate (fdec 0 0) (fdec 0 0) (fdec 0 0)) /\
  absent Model_from ["opacity"]%string mo_opacity VNone /\
  absent Model_from ["hide"]%string mo_hide false.
Proof. exact L_AbsentB.Model_absent. Qed.
Print Assumptions C38_Model.
Example C38_Model_case : let items := [VStr $"model"; VStr $"F"; VStr $"F"; node "zzz" [VInt 1]; node "zzz" [VInt 1]; node "zzz" [VInt 1]] in
  (lacks ["offset"; "scale"; "rotate"; "opacity"; "hide"]%string items && accepts (Model_from) (VList items))%bool = true.
Proof. vm_compute. reflexivity. Qed.

Theorem C38_DrillDefinition : absent DrillDefinition_from ["offset"]%string dd_offset None /\
  absent DrillDefinition_from ["oval"]%string dd_oval false.
Proof. exact L_AbsentB.DrillDefinition_absent. Qed.
Print Assumptions C38_DrillDefinition.
Example C38_DrillDefinition_case : let items := [VStr $"drill"; VStr $"F"; VStr $"F"; VStr $"F"; node "zzz" [VInt 1]] in
  (lacks ["offset"; "oval"]%string items && accepts (DrillDefinition_from) (VList items))%bool = true.
Proof. vm_compute. reflexivity. Qed.

Theorem C38_PadOptions : absent PadOptions_from ["clearance"]%string pq_clearance (VStr $"outline") /\
  absent PadOptions_from ["anchor"]%string pq_anchor (VStr $"rect").
Proof. exact L_AbsentB.PadOptions_absent. Qed.
Print Assumptions C38_PadOptions.
Example C38_PadOptions_case : let items := [VStr $"options"; node "zzz" [VInt 1]] in
  (lacks ["clearance"; "anchor"]%string items && accepts (PadOptions_from) (VList items))%bool = true.
Proof. vm_compute. reflexivity. Qed.

Theorem C38_Pad : absent Pad_from ["at"]%string pd_position (mkPosition (fdec 0 0) (fdec 0 0) VNone false) /\
  absent Pad_from ["locked"]%string pd_locked false /\
  absent Pad_from ["size"]%string pd_size (mkPosition (fdec 0 0) (fdec 0 0) VNone false) /\
  absent Pad_from ["drill"]%string pd_drill None /\
  absent Pad_from ["layers"]%string pd_layers [] /\
  absent Pad_from ["property"]%string pd_property VNone /\
  absent Pad_from ["remove_unused_layers"]%string pd_removeUnusedLayers false /\
  absent Pad_from ["keep_end_layers"]%string pd_keepEndLayers false /\
  absent Pad_from ["roundrect_rratio"]%string pd_roundrectRatio VNone /\
  absent Pad_from ["chamfer_ratio"]%string pd_chamferRatio VNone /\
  absent Pad_from ["chamfer"]%string pd_chamfer [] /\
  absent Pad_from ["net"]%string pd_net None /\
  absent Pad_from ["tstamp"]%string pd_tstamp VNone /\
  absent Pad_from ["pinfunction"]%string pd_pinFunction VNone /\
  absent Pad_from ["pintype"]%string pd_pinType VNone /\
  absent Pad_from ["die_length"]%string pd_dieLength VNone /\
  absent Pad_from ["solder_mask_margin"]%string pd_solderMaskMargin VNone /\
  absent Pad_from ["solder_paste_margin"]%string pd_solderPasteMargin VNone /\
  absent Pad_from ["solder_paste_margin_ratio"]%string pd_solderPasteMarginRatio VNone /\
  absent Pad_from ["clearance"]%string pd_clearance VNone /\
  absent Pad_from ["zone_connect"]%string pd_zoneConnect VNone /\
  absent Pad_from ["thermal_width"]%string pd_thermalWidth VNone /\
  absent Pad_from ["thermal_gap"]%string pd_thermalGap VNone /\
  absent Pad_from ["options"]%string pd_customPadOptions None /\
  absent Pad_from ["primitives"]%string pd_customPadPrimitives [].
Proof. exact L_AbsentB.Pad_absent. Qed.
Print Assumptions C38_Pad.
Example C38_Pad_case : let items := [VStr $"pad"; VStr $"F"; VStr $"F"; VStr $"F"; node "zzz" [VInt 1]] in
  (lacks ["at"; "locked"; "size"; "drill"; "layers"; "property"; "remove_unused_layers"; "keep_end_layers"; "roundrect_rratio"; "chamfer_ratio"; "chamfer"; "net"; "tstamp"; "pinfunction"; "pintype"; "die_length"; "solder_mask_margin"; "solder_paste_margin"; "solder_paste_margin_ratio"; "clearance"; "zone_connect"; "thermal_width"; "thermal_gap"; "options"; "primitives"]%string items && accepts (Pad_from) (VList items))%bool = true.
Proof. vm_compute. reflexivity. Qed.

Theorem C38_Footprint : forall now, absent (Footprint_from now) ["version"]%string fd_version VNone /\
  absent (Footprint_from now) ["generator"]%string fd_generator VNone /\
  absent (Footprint_from now) ["locked"]%string fd_locked false /\
  absent (Footprint_from now) ["placed"]%string fd_placed false /\
  absent (Footprint_from now) ["layer"]%string fd_layer (VStr $"F.Cu") /\
  absent (Footprint_from now) ["tedit"]%string fd_tedit now /\
  absent (Footprint_from now) ["tstamp"]%string fd_tstamp VNone /\
  absent (Footprint_from now) ["at"]%string fd_position None /\
  absent (Footprint_from now) ["descr"]%string fd_description VNone /\
  absent (Footprint_from now) ["tags"]%string fd_tags VNone /\
  absent (Footprint_from now) ["property"]%string fd_properties [] /\
  absent (Footprint_from now) ["path"]%string fd_path VNone /\
  absent (Footprint_from now) ["autoplace_cost90"]%string fd_autoplaceCost90 VNone /\
  absent (Footprint_from now) ["autoplace_cost180"]%string fd_autoplaceCost180 VNone /\
  absent (Footprint_from now) ["solder_mask_margin"]%string fd_solderMaskMargin VNone /\
  absent (Footprint_from now) ["solder_paste_margin"]%string fd_solderPasteMargin VNone /\
  absent (Footprint_from now) ["solder_paste_ratio"]%string fd_solderPasteRatio VNone /\
  absent (Footprint_from now) ["clearance"]%string fd_clearance VNone /\
  absent (Footprint_from now) ["zone_connect"]%string fd_zoneConnect VNone /\
  absent (Footprint_from now) ["thermal_width"]%string fd_thermalWidth VNone /\
  absent (Footprint_from now) ["thermal_gap"]%string fd_thermalGap VNone /\
  absent (Footprint_from now) ["attr"]%string fd_attributes (mkAttributes VNone false false false false) /\
  absent (Footprint_from now) ["private_layers"]%string fd_privateLayers [] /\
  absent (Footprint_from now) ["net_tie_pad_groups"]%string fd_netTiePadGroups [] /\
  absent (Footprint_from now) ["fp_text"; "fp_text_box"; "fp_line"; "fp_rect"; "fp_circle"; "fp_arc"; "fp_poly"; "fp_curve"; "image"]%string fd_graphicItems [] /\
  absent (Footprint_from now) ["pad"]%string fd_pads [] /\
  absent (Footprint_from now) ["zone"]%string fd_zones [] /\
  absent (Footprint_from now) ["group"]%string fd_groups [] /\
  absent (Footprint_from now) ["model"]%string fd_models [] /\
  absent (Footprint_from now) [] fd_filePath VNone.
Proof. exact L_AbsentB.Footprint_absent. Qed.
Print Assumptions C38_Footprint.
Example C38_Footprint_case : let items := [VStr $"module"; VStr $"F"; VStr $"F"; node "zzz" [VInt 1]] in
  (lacks ["version"; "generator"; "locked"; "placed"; "layer"; "tedit"; "tstamp"; "at"; "descr"; "tags"; "property"; "path"; "autoplace_cost90"; "autoplace_cost180"; "solder_mask_margin"; "solder_paste_margin"; "solder_paste_ratio"; "clearance"; "zone_connect"; "thermal_width"; "thermal_gap"; "attr"; "private_layers"; "net_tie_pad_groups"; "fp_text"; "fp_text_box"; "fp_line"; "fp_rect"; "fp_circle"; "fp_arc"; "fp_poly"; "fp_curve"; "image"; "pad"; "zone"; "group"; "model"]%string items && accepts (Footprint_from (VStr $"0")) (VList items))%bool = true.
Proof. vm_compute. reflexivity. Qed.
