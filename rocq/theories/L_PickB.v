(** From which tokens the attributes are taken: proofs.  The statements were generated from the
    from_sexpr methods in /repo/src/kiutils, by reading their syntax trees. *)
From Verif Require Import PyBase PyNum PyStr PyRe Sexpr S_Leaf S_Tree S_Reader S_Gather S_Pick L_Lex L_Seq L_Keep L_Swap L_Pick M_Common M_Sym M_Fp M_Gr M_Zone M_Footprint.

Lemma FpText_pick : marks FpText_from 3 ["hide"]%string "hide"%string true ft_hide /\
  picks FpText_from 3 ["at"]%string "at"%string Position_from ft_position /\
  picks FpText_from 3 ["layer"]%string "layer"%string (arg 1) ft_layer /\
  picks FpText_from 3 ["effects"]%string "effects"%string Effects_from ft_effects /\
  picks FpText_from 3 ["tstamp"]%string "tstamp"%string (arg 1) ft_tstamp /\
  picks FpText_from 3 ["render_cache"]%string "render_cache"%string (as_ Some RenderCache_from) ft_renderCache.
Proof. repeat apply conj; pick_in FpText_from FpText_step. Qed.
Lemma FpLine_pick : marks FpLine_from 0 ["locked"]%string "locked"%string true fl_locked /\
  picks FpLine_from 0 ["start"]%string "start"%string Position_from fl_start /\
  picks FpLine_from 0 ["end"]%string "end"%string Position_from fl_end /\
  picks FpLine_from 0 ["layer"]%string "layer"%string (arg 1) fl_layer /\
  picks FpLine_from 0 ["tstamp"]%string "tstamp"%string (arg 1) fl_tstamp /\
  picks FpLine_from 0 ["width"; "stroke"]%string "width"%string (arg 1) fl_width /\
  picks FpLine_from 0 ["width"; "stroke"]%string "width"%string (const None) fl_stroke /\
  picks FpLine_from 0 ["width"; "stroke"]%string "stroke"%string (as_ Some Stroke_from) fl_stroke /\
  picks FpLine_from 0 ["width"; "stroke"]%string "stroke"%string (const VNone) fl_width.
Proof. repeat apply conj; pick_in FpLine_from FpLine_step. Qed.
Lemma FpRect_pick : marks FpRect_from 0 ["locked"]%string "locked"%string true fr_locked /\
  picks FpRect_from 0 ["start"]%string "start"%string Position_from fr_start /\
  picks FpRect_from 0 ["end"]%string "end"%string Position_from fr_end /\
  picks FpRect_from 0 ["layer"]%string "layer"%string (arg 1) fr_layer /\
  picks FpRect_from 0 ["tstamp"]%string "tstamp"%string (arg 1) fr_tstamp /\
  picks FpRect_from 0 ["fill"]%string "fill"%string (arg 1) fr_fill /\
  picks FpRect_from 0 ["width"; "stroke"]%string "width"%string (arg 1) fr_width /\
  picks FpRect_from 0 ["width"; "stroke"]%string "width"%string (const None) fr_stroke /\
  picks FpRect_from 0 ["width"; "stroke"]%string "stroke"%string (as_ Some Stroke_from) fr_stroke /\
  picks FpRect_from 0 ["width"; "stroke"]%string "stroke"%string (const VNone) fr_width.
Proof. repeat apply conj; pick_in FpRect_from FpRect_step. Qed.
Lemma FpCircle_pick : marks FpCircle_from 0 ["locked"]%string "locked"%string true fc_locked /\
  picks FpCircle_from 0 ["center"]%string "center"%string Position_from fc_center /\
  picks FpCircle_from 0 ["end"]%string "end"%string Position_from fc_end /\
  picks FpCircle_from 0 ["layer"]%string "layer"%string (arg 1) fc_layer /\
  picks FpCircle_from 0 ["tstamp"]%string "tstamp"%string (arg 1) fc_tstamp /\
  picks FpCircle_from 0 ["fill"]%string "fill"%string (arg 1) fc_fill /\
  picks FpCircle_from 0 ["width"; "stroke"]%string "width"%string (arg 1) fc_width /\
  picks FpCircle_from 0 ["width"; "stroke"]%string "width"%string (const None) fc_stroke /\
  picks FpCircle_from 0 ["width"; "stroke"]%string "stroke"%string (as_ Some Stroke_from) fc_stroke /\
  picks FpCircle_from 0 ["width"; "stroke"]%string "stroke"%string (const VNone) fc_width.
Proof. repeat apply conj; pick_in FpCircle_from FpCircle_step. Qed.
Lemma FpArc_pick : marks FpArc_from 0 ["locked"]%string "locked"%string true fa_locked /\
  picks FpArc_from 0 ["start"]%string "start"%string Position_from fa_start /\
  picks FpArc_from 0 ["mid"]%string "mid"%string Position_from fa_mid /\
  picks FpArc_from 0 ["end"]%string "end"%string Position_from fa_end /\
  picks FpArc_from 0 ["layer"]%string "layer"%string (arg 1) fa_layer /\
  picks FpArc_from 0 ["tstamp"]%string "tstamp"%string (arg 1) fa_tstamp /\
  picks FpArc_from 0 ["width"; "stroke"]%string "width"%string (arg 1) fa_width /\
  picks FpArc_from 0 ["width"; "stroke"]%string "width"%string (const None) fa_stroke /\
  picks FpArc_from 0 ["width"; "stroke"]%string "stroke"%string (as_ Some Stroke_from) fa_stroke /\
  picks FpArc_from 0 ["width"; "stroke"]%string "stroke"%string (const VNone) fa_width.
Proof. repeat apply conj; pick_in FpArc_from FpArc_step. Qed.
Lemma FpPoly_pick : marks FpPoly_from 0 ["locked"]%string "locked"%string true fp_locked /\
  picks FpPoly_from 0 ["layer"]%string "layer"%string (arg 1) fp_layer /\
  picks FpPoly_from 0 ["tstamp"]%string "tstamp"%string (arg 1) fp_tstamp /\
  picks FpPoly_from 0 ["fill"]%string "fill"%string (arg 1) fp_fill /\
  picks FpPoly_from 0 ["width"; "stroke"]%string "width"%string (arg 1) fp_width /\
  picks FpPoly_from 0 ["width"; "stroke"]%string "width"%string (const None) fp_stroke /\
  picks FpPoly_from 0 ["width"; "stroke"]%string "stroke"%string (as_ Some Stroke_from) fp_stroke /\
  picks FpPoly_from 0 ["width"; "stroke"]%string "stroke"%string (const VNone) fp_width.
Proof. repeat apply conj; pick_in FpPoly_from FpPoly_step. Qed.
Lemma FpCurve_pick : marks FpCurve_from 0 ["locked"]%string "locked"%string true fv_locked /\
  picks FpCurve_from 0 ["layer"]%string "layer"%string (arg 1) fv_layer /\
  picks FpCurve_from 0 ["tstamp"]%string "tstamp"%string (arg 1) fv_tstamp /\
  picks FpCurve_from 0 ["width"; "stroke"]%string "width"%string (arg 1) fv_width /\
  picks FpCurve_from 0 ["width"; "stroke"]%string "width"%string (const None) fv_stroke /\
  picks FpCurve_from 0 ["width"; "stroke"]%string "stroke"%string (as_ Some Stroke_from) fv_stroke /\
  picks FpCurve_from 0 ["width"; "stroke"]%string "stroke"%string (const VNone) fv_width.
Proof. repeat apply conj; pick_in FpCurve_from FpCurve_step. Qed.
Lemma FpTextBox_pick : picks FpTextBox_from 3 ["start"]%string "start"%string (as_ Some Position_from) fb_start /\
  picks FpTextBox_from 3 ["end"]%string "end"%string (as_ Some Position_from) fb_end /\
  picks FpTextBox_from 3 ["angle"]%string "angle"%string (arg 1) fb_angle /\
  picks FpTextBox_from 3 ["layer"]%string "layer"%string (arg 1) fb_layer /\
  picks FpTextBox_from 3 ["tstamp"]%string "tstamp"%string (arg 1) fb_tstamp /\
  picks FpTextBox_from 3 ["effects"]%string "effects"%string (as_ Some Effects_from) fb_effects /\
  picks FpTextBox_from 3 ["stroke"]%string "stroke"%string (as_ Some Stroke_from) fb_stroke /\
  picks FpTextBox_from 3 ["render_cache"]%string "render_cache"%string (as_ Some RenderCache_from) fb_renderCache.
Proof. repeat apply conj; pick_in FpTextBox_from FpTextBox_step. Qed.
Lemma GrText_pick : marks GrText_from 2 ["locked"]%string "locked"%string true gt_locked /\
  picks GrText_from 2 ["at"]%string "at"%string Position_from gt_position /\
  picks GrText_from 2 ["layer"]%string "layer"%string (arg 1) gt_layer /\
  picks GrText_from 2 ["effects"]%string "effects"%string Effects_from gt_effects /\
  picks GrText_from 2 ["tstamp"]%string "tstamp"%string (arg 1) gt_tstamp /\
  picks GrText_from 2 ["render_cache"]%string "render_cache"%string (as_ Some RenderCache_from) gt_renderCache.
Proof. repeat apply conj; pick_in GrText_from GrText_step. Qed.
Lemma GrLine_pick : marks GrLine_from 0 ["locked"]%string "locked"%string true gl_locked /\
  picks GrLine_from 0 ["start"]%string "start"%string Position_from gl_start /\
  picks GrLine_from 0 ["end"]%string "end"%string Position_from gl_end /\
  picks GrLine_from 0 ["layer"]%string "layer"%string (arg 1) gl_layer /\
  picks GrLine_from 0 ["tstamp"]%string "tstamp"%string (arg 1) gl_tstamp /\
  picks GrLine_from 0 ["width"]%string "width"%string (arg 1) gl_width.
Proof. repeat apply conj; pick_in GrLine_from GrLine_step. Qed.
Lemma GrRect_pick : marks GrRect_from 0 ["locked"]%string "locked"%string true gr_locked /\
  picks GrRect_from 0 ["start"]%string "start"%string Position_from gr_start /\
  picks GrRect_from 0 ["end"]%string "end"%string Position_from gr_end /\
  picks GrRect_from 0 ["layer"]%string "layer"%string (arg 1) gr_layer /\
  picks GrRect_from 0 ["tstamp"]%string "tstamp"%string (arg 1) gr_tstamp /\
  picks GrRect_from 0 ["fill"]%string "fill"%string (arg 1) gr_fill /\
  picks GrRect_from 0 ["width"]%string "width"%string (arg 1) gr_width.
Proof. repeat apply conj; pick_in GrRect_from GrRect_step. Qed.
Lemma GrCircle_pick : marks GrCircle_from 0 ["locked"]%string "locked"%string true gc_locked /\
  picks GrCircle_from 0 ["center"]%string "center"%string Position_from gc_center /\
  picks GrCircle_from 0 ["end"]%string "end"%string Position_from gc_end /\
  picks GrCircle_from 0 ["layer"]%string "layer"%string (arg 1) gc_layer /\
  picks GrCircle_from 0 ["tstamp"]%string "tstamp"%string (arg 1) gc_tstamp /\
  picks GrCircle_from 0 ["fill"]%string "fill"%string (arg 1) gc_fill /\
  picks GrCircle_from 0 ["width"]%string "width"%string (arg 1) gc_width.
Proof. repeat apply conj; pick_in GrCircle_from GrCircle_step. Qed.
Lemma GrArc_pick : marks GrArc_from 0 ["locked"]%string "locked"%string true ga_locked /\
  picks GrArc_from 0 ["start"]%string "start"%string Position_from ga_start /\
  picks GrArc_from 0 ["mid"]%string "mid"%string Position_from ga_mid /\
  picks GrArc_from 0 ["end"]%string "end"%string Position_from ga_end /\
  picks GrArc_from 0 ["layer"]%string "layer"%string (arg 1) ga_layer /\
  picks GrArc_from 0 ["tstamp"]%string "tstamp"%string (arg 1) ga_tstamp /\
  picks GrArc_from 0 ["width"]%string "width"%string (arg 1) ga_width.
Proof. repeat apply conj; pick_in GrArc_from GrArc_step. Qed.
Lemma GrPoly_pick : marks GrPoly_from 0 ["locked"]%string "locked"%string true gp_locked /\
  picks GrPoly_from 0 ["layer"]%string "layer"%string (arg 1) gp_layer /\
  picks GrPoly_from 0 ["tstamp"]%string "tstamp"%string (arg 1) gp_tstamp /\
  picks GrPoly_from 0 ["fill"]%string "fill"%string (arg 1) gp_fill /\
  picks GrPoly_from 0 ["width"]%string "width"%string (arg 1) gp_width.
Proof. repeat apply conj; pick_in GrPoly_from GrPoly_step. Qed.
Lemma GrCurve_pick : marks GrCurve_from 0 ["locked"]%string "locked"%string true gv_locked /\
  picks GrCurve_from 0 ["layer"]%string "layer"%string (arg 1) gv_layer /\
  picks GrCurve_from 0 ["tstamp"]%string "tstamp"%string (arg 1) gv_tstamp /\
  picks GrCurve_from 0 ["width"]%string "width"%string (arg 1) gv_width.
Proof. repeat apply conj; pick_in GrCurve_from GrCurve_step. Qed.
Lemma GrTextBox_pick : picks GrTextBox_from 3 ["start"]%string "start"%string (as_ Some Position_from) gb_start /\
  picks GrTextBox_from 3 ["end"]%string "end"%string (as_ Some Position_from) gb_end /\
  picks GrTextBox_from 3 ["angle"]%string "angle"%string (arg 1) gb_angle /\
  picks GrTextBox_from 3 ["layer"]%string "layer"%string (arg 1) gb_layer /\
  picks GrTextBox_from 3 ["tstamp"]%string "tstamp"%string (arg 1) gb_tstamp /\
  picks GrTextBox_from 3 ["effects"]%string "effects"%string (as_ Some Effects_from) gb_effects /\
  picks GrTextBox_from 3 ["stroke"]%string "stroke"%string (as_ Some Stroke_from) gb_stroke /\
  picks GrTextBox_from 3 ["render_cache"]%string "render_cache"%string (as_ Some RenderCache_from) gb_renderCache.
Proof. repeat apply conj; pick_in GrTextBox_from GrTextBox_step. Qed.
Lemma KeepoutSettings_pick : picks KeepoutSettings_from 0 ["tracks"]%string "tracks"%string (arg 1) ks_tracks /\
  picks KeepoutSettings_from 0 ["vias"]%string "vias"%string (arg 1) ks_vias /\
  picks KeepoutSettings_from 0 ["pads"]%string "pads"%string (arg 1) ks_pads /\
  picks KeepoutSettings_from 0 ["copperpour"]%string "copperpour"%string (arg 1) ks_copperpour /\
  picks KeepoutSettings_from 0 ["footprints"]%string "footprints"%string (arg 1) ks_footprints.
Proof. repeat apply conj; pick_in KeepoutSettings_from KeepoutSettings_step. Qed.
Lemma FillSettings_pick : marks FillSettings_from 0 ["yes"]%string "yes"%string true fs_yes /\
  picks FillSettings_from 0 ["mode"]%string "mode"%string (arg 1) fs_mode /\
  picks FillSettings_from 0 ["thermal_gap"]%string "thermal_gap"%string (arg 1) fs_thermalGap /\
  picks FillSettings_from 0 ["thermal_bridge_width"]%string "thermal_bridge_width"%string (arg 1) fs_thermalBridgeWidth /\
  picks FillSettings_from 0 ["smoothing"]%string "smoothing"%string (arg 1) fs_smoothingStyle /\
  picks FillSettings_from 0 ["radius"]%string "radius"%string (arg 1) fs_smoothingRadius /\
  picks FillSettings_from 0 ["island_removal_mode"]%string "island_removal_mode"%string (arg 1) fs_islandRemovalMode /\
  picks FillSettings_from 0 ["island_area_min"]%string "island_area_min"%string (arg 1) fs_islandAreaMin /\
  picks FillSettings_from 0 ["hatch_thickness"]%string "hatch_thickness"%string (arg 1) fs_hatchThickness /\
  picks FillSettings_from 0 ["hatch_gap"]%string "hatch_gap"%string (arg 1) fs_hatchGap /\
  picks FillSettings_from 0 ["hatch_orientation"]%string "hatch_orientation"%string (arg 1) fs_hatchOrientation /\
  picks FillSettings_from 0 ["hatch_smoothing_level"]%string "hatch_smoothing_level"%string (arg 1) fs_hatchSmoothingLevel /\
  picks FillSettings_from 0 ["hatch_smoothing_value"]%string "hatch_smoothing_value"%string (arg 1) fs_hatchSmoothingValue /\
  picks FillSettings_from 0 ["hatch_border_algorithm"]%string "hatch_border_algorithm"%string (arg 1) fs_hatchBorderAlgorithm /\
  picks FillSettings_from 0 ["hatch_min_hole_area"]%string "hatch_min_hole_area"%string (arg 1) fs_hatchMinHoleArea.
Proof. repeat apply conj; pick_in FillSettings_from FillSettings_step. Qed.
Lemma FilledPolygon_pick : picks FilledPolygon_from 0 ["layer"]%string "layer"%string (arg 1) zf_layer /\
  picks FilledPolygon_from 0 ["island"]%string "island"%string (const true) zf_island.
Proof. repeat apply conj; pick_in FilledPolygon_from FilledPolygon_step. Qed.
Lemma FillSegments_pick : picks FillSegments_from 0 ["layer"]%string "layer"%string (arg 1) zs_layer.
Proof. repeat apply conj; pick_in FillSegments_from FillSegments_step. Qed.
Lemma Zone_pick : marks Zone_from 0 ["locked"]%string "locked"%string true zo_locked /\
  picks Zone_from 0 ["net"]%string "net"%string (arg 1) zo_net /\
  picks Zone_from 0 ["net_name"]%string "net_name"%string (arg 1) zo_netName /\
  picks Zone_from 0 ["tstamp"]%string "tstamp"%string (arg 1) zo_tstamp /\
  picks Zone_from 0 ["name"]%string "name"%string (arg 1) zo_name /\
  picks Zone_from 0 ["hatch"]%string "hatch"%string (fun x => let! s := arg 1 x in let! p := arg 2 x in Ok (mkHatch s p)) zo_hatch /\
  picks Zone_from 0 ["priority"]%string "priority"%string (arg 1) zo_priority /\
  picks Zone_from 0 ["min_thickness"]%string "min_thickness"%string (arg 1) zo_minThickness /\
  picks Zone_from 0 ["filled_areas_thickness"]%string "filled_areas_thickness"%string (arg 1) zo_filledAreasThickness /\
  picks Zone_from 0 ["keepout"]%string "keepout"%string (as_ Some KeepoutSettings_from) zo_keepoutSettings /\
  picks Zone_from 0 ["fill"]%string "fill"%string (as_ Some FillSettings_from) zo_fillSettings /\
  picks Zone_from 0 ["fill_segments"]%string "fill_segments"%string (as_ Some FillSegments_from) zo_fillSegments.
Proof. repeat apply conj; pick_in Zone_from Zone_step. Qed.
Lemma Attributes_pick : marks Attributes_from 0 ["board_only"]%string "board_only"%string true fx_boardOnly /\
  marks Attributes_from 0 ["exclude_from_pos_files"]%string "exclude_from_pos_files"%string true fx_excludeFromPosFiles /\
  marks Attributes_from 0 ["exclude_from_bom"]%string "exclude_from_bom"%string true fx_excludeFromBom /\
  marks Attributes_from 0 ["allow_missing_courtyard"]%string "allow_missing_courtyard"%string true fx_allowMissingCourtyard.
Proof. repeat apply conj; pick_in Attributes_from Attributes_item. Qed.
Lemma Model_pick : picks Model_from 2 ["opacity"]%string "opacity"%string (arg 1) mo_opacity /\
  picks Model_from 2 ["offset"]%string "offset"%string (in_arg 1 Coordinate_from) mo_pos /\
  picks Model_from 2 ["scale"]%string "scale"%string (in_arg 1 Coordinate_from) mo_scale /\
  picks Model_from 2 ["rotate"]%string "rotate"%string (in_arg 1 Coordinate_from) mo_rotate.
Proof. repeat apply conj; pick_in Model_from Model_step. Qed.
Lemma DrillDefinition_pick : picks DrillDefinition_from 0 ["offset"]%string "offset"%string (as_ Some Position_from) dd_offset.
Proof. repeat apply conj; pick_in DrillDefinition_from DrillDefinition_step. Qed.
Lemma PadOptions_pick : picks PadOptions_from 0 ["clearance"]%string "clearance"%string (arg 1) pq_clearance /\
  picks PadOptions_from 0 ["anchor"]%string "anchor"%string (arg 1) pq_anchor.
Proof. repeat apply conj; pick_in PadOptions_from PadOptions_step. Qed.
Lemma Pad_pick : marks Pad_from 3 ["locked"]%string "locked"%string true pd_locked /\
  picks Pad_from 3 ["at"]%string "at"%string Position_from pd_position /\
  picks Pad_from 3 ["size"]%string "size"%string Position_from pd_size /\
  picks Pad_from 3 ["drill"]%string "drill"%string (as_ Some DrillDefinition_from) pd_drill /\
  picks Pad_from 3 ["property"]%string "property"%string (arg 1) pd_property /\
  picks Pad_from 3 ["remove_unused_layers"]%string "remove_unused_layers"%string (const true) pd_removeUnusedLayers /\
  picks Pad_from 3 ["keep_end_layers"]%string "keep_end_layers"%string (const true) pd_keepEndLayers /\
  picks Pad_from 3 ["roundrect_rratio"]%string "roundrect_rratio"%string (arg 1) pd_roundrectRatio /\
  picks Pad_from 3 ["chamfer_ratio"]%string "chamfer_ratio"%string (arg 1) pd_chamferRatio /\
  picks Pad_from 3 ["net"]%string "net"%string (as_ Some Net_from) pd_net /\
  picks Pad_from 3 ["tstamp"]%string "tstamp"%string (arg 1) pd_tstamp /\
  picks Pad_from 3 ["pinfunction"]%string "pinfunction"%string (arg 1) pd_pinFunction /\
  picks Pad_from 3 ["pintype"]%string "pintype"%string (arg 1) pd_pinType /\
  picks Pad_from 3 ["die_length"]%string "die_length"%string (arg 1) pd_dieLength /\
  picks Pad_from 3 ["solder_mask_margin"]%string "solder_mask_margin"%string (arg 1) pd_solderMaskMargin /\
  picks Pad_from 3 ["solder_paste_margin"]%string "solder_paste_margin"%string (arg 1) pd_solderPasteMargin /\
  picks Pad_from 3 ["solder_paste_margin_ratio"]%string "solder_paste_margin_ratio"%string (arg 1) pd_solderPasteMarginRatio /\
  picks Pad_from 3 ["clearance"]%string "clearance"%string (arg 1) pd_clearance /\
  picks Pad_from 3 ["zone_connect"]%string "zone_connect"%string (arg 1) pd_zoneConnect /\
  picks Pad_from 3 ["thermal_width"]%string "thermal_width"%string (arg 1) pd_thermalWidth /\
  picks Pad_from 3 ["thermal_gap"]%string "thermal_gap"%string (arg 1) pd_thermalGap /\
  picks Pad_from 3 ["options"]%string "options"%string (as_ Some PadOptions_from) pd_customPadOptions.
Proof. repeat apply conj; pick_in Pad_from Pad_step. Qed.
Lemma Footprint_pick now : marks (Footprint_from now) 2 ["locked"]%string "locked"%string true fd_locked /\
  marks (Footprint_from now) 2 ["placed"]%string "placed"%string true fd_placed /\
  picks (Footprint_from now) 2 ["version"]%string "version"%string (arg 1) fd_version /\
  picks (Footprint_from now) 2 ["generator"]%string "generator"%string (arg 1) fd_generator /\
  picks (Footprint_from now) 2 ["layer"]%string "layer"%string (arg 1) fd_layer /\
  picks (Footprint_from now) 2 ["tedit"]%string "tedit"%string (arg 1) fd_tedit /\
  picks (Footprint_from now) 2 ["tstamp"]%string "tstamp"%string (arg 1) fd_tstamp /\
  picks (Footprint_from now) 2 ["descr"]%string "descr"%string (arg 1) fd_description /\
  picks (Footprint_from now) 2 ["tags"]%string "tags"%string (arg 1) fd_tags /\
  picks (Footprint_from now) 2 ["path"]%string "path"%string (arg 1) fd_path /\
  picks (Footprint_from now) 2 ["at"]%string "at"%string (as_ Some Position_from) fd_position /\
  picks (Footprint_from now) 2 ["autoplace_cost90"]%string "autoplace_cost90"%string (arg 1) fd_autoplaceCost90 /\
  picks (Footprint_from now) 2 ["autoplace_cost180"]%string "autoplace_cost180"%string (arg 1) fd_autoplaceCost180 /\
  picks (Footprint_from now) 2 ["solder_mask_margin"]%string "solder_mask_margin"%string (arg 1) fd_solderMaskMargin /\
  picks (Footprint_from now) 2 ["solder_paste_margin"]%string "solder_paste_margin"%string (arg 1) fd_solderPasteMargin /\
  picks (Footprint_from now) 2 ["solder_paste_ratio"]%string "solder_paste_ratio"%string (arg 1) fd_solderPasteRatio /\
  picks (Footprint_from now) 2 ["clearance"]%string "clearance"%string (arg 1) fd_clearance /\
  picks (Footprint_from now) 2 ["zone_connect"]%string "zone_connect"%string (arg 1) fd_zoneConnect /\
  picks (Footprint_from now) 2 ["thermal_width"]%string "thermal_width"%string (arg 1) fd_thermalWidth /\
  picks (Footprint_from now) 2 ["thermal_gap"]%string "thermal_gap"%string (arg 1) fd_thermalGap /\
  picks (Footprint_from now) 2 ["attr"]%string "attr"%string Attributes_from fd_attributes.
Proof. repeat apply conj; pick_in Footprint_from Footprint_step. Qed.
