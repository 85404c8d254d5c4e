(** Specification for C56: the attributes of each class, and when two values of an attribute are equal.

    The order is the one of the source, which the generated __eq__ of a dataclass follows. *)
From Coq Require Import String.
From Verif Require Import PyBase PyNum PyStr Sexpr RecordSet S_Leaf S_Tree.
From Verif Require Import M_Common M_Lib M_Sym M_Fp M_Gr M_Zone M_Footprint M_Dim M_Brd M_Board M_Sch M_Schematic M_Wks.
From Verif Require Import S_Common S_Lib S_Sym S_Fp S_Gr S_Zone S_Footprint S_Dim S_Brd S_Board S_Sch S_Schematic S_Wks.

(** An attribute: how to get it, and when two values are equal *)
Inductive attr (A : Type) := Attr (B : Type) (get : A -> B) (alike : B -> B -> bool).
Arguments Attr {A B}.
Definition agrees {A} (o o' : A) (e : attr A) : bool := match e with Attr get alike => alike (get o) (get o') end.
Definition identical {A} (o o' : A) (e : attr A) : Prop := match e with Attr get alike => get o = get o' end.
(** Two objects are equal if and only if they agree in every attribute; and no attribute is left out of the
    list, since objects that are identical in all of them are identical. *)
Definition compares_all {A} (same : A -> A -> bool) (attrs : list (attr A)) : Prop :=
  (forall o o', same o o' = forallb (agrees o o') attrs)
  /\ forall o o', Forall (identical o o') attrs -> o = o'.

Definition Position_attrs : list (attr Position) :=
  [Attr po_X py_eqb; Attr po_Y py_eqb; Attr po_angle py_eqb; Attr po_unlocked Bool.eqb].

Definition Coordinate_attrs : list (attr Coordinate) :=
  [Attr co_X py_eqb; Attr co_Y py_eqb; Attr co_Z py_eqb].

Definition ColorRGBA_attrs : list (attr ColorRGBA) :=
  [Attr ca_R py_eqb; Attr ca_G py_eqb; Attr ca_B py_eqb; Attr ca_A py_eqb; Attr ca_precision py_eqb].

Definition Stroke_attrs : list (attr Stroke) :=
  [Attr st_width py_eqb; Attr st_type py_eqb; Attr st_color (oeqb ColorRGBA_eqb)].

Definition Font_attrs : list (attr Font) :=
  [Attr fo_face py_eqb; Attr fo_height py_eqb; Attr fo_width py_eqb; Attr fo_thickness py_eqb; Attr fo_bold Bool.eqb; Attr fo_italic Bool.eqb; Attr fo_lineSpacing py_eqb; Attr fo_color (oeqb ColorRGBA_eqb)].

Definition Justify_attrs : list (attr Justify) :=
  [Attr ju_horizontally py_eqb; Attr ju_vertically py_eqb; Attr ju_mirror Bool.eqb].

Definition Effects_attrs : list (attr Effects) :=
  [Attr ef_font Font_eqb; Attr ef_justify Justify_eqb; Attr ef_hide Bool.eqb; Attr ef_href py_eqb].

Definition Net_attrs : list (attr Net) :=
  [Attr ne_number py_eqb; Attr ne_name py_eqb].

Definition Group_attrs : list (attr Group) :=
  [Attr gr_name py_eqb; Attr M_Common.gr_locked Bool.eqb; Attr gr_id py_eqb; Attr gr_members (leqb py_eqb)].

Definition PageSettings_attrs : list (attr PageSettings) :=
  [Attr pg_paperSize py_eqb; Attr pg_width py_eqb; Attr pg_height py_eqb; Attr pg_portrait Bool.eqb].

Definition TitleBlock_attrs : list (attr TitleBlock) :=
  [Attr tb_title py_eqb; Attr tb_date py_eqb; Attr tb_revision py_eqb; Attr tb_company py_eqb; Attr tb_comments (leqb kveqb)].

Definition Property_attrs : list (attr Property) :=
  [Attr pr_key py_eqb; Attr pr_value py_eqb; Attr pr_id py_eqb; Attr pr_position Position_eqb; Attr pr_effects (oeqb Effects_eqb); Attr pr_showName Bool.eqb].

Definition RenderCachePolygon_attrs : list (attr RenderCachePolygon) :=
  [Attr rp_pts (leqb Position_eqb)].

Definition RenderCache_attrs : list (attr RenderCache) :=
  [Attr rc_text py_eqb; Attr rc_id py_eqb; Attr rc_polygons (leqb RenderCachePolygon_eqb)].

Definition Fill_attrs : list (attr Fill) :=
  [Attr fi_type py_eqb; Attr fi_color (oeqb ColorRGBA_eqb)].

Definition Image_attrs : list (attr Image) :=
  [Attr im_position Position_eqb; Attr im_scale py_eqb; Attr im_data (leqb py_eqb); Attr im_uuid py_eqb; Attr im_layer py_eqb].

Definition Library_attrs : list (attr Library) :=
  [Attr lb_name py_eqb; Attr lb_type py_eqb; Attr lb_uri py_eqb; Attr lb_options py_eqb; Attr lb_description py_eqb; Attr lb_active Bool.eqb].

Definition LibTable_attrs : list (attr LibTable) :=
  [Attr M_Lib.lt_type py_eqb; Attr lt_libs (leqb Library_eqb); Attr lt_filePath py_eqb].

Definition Constraint_attrs : list (attr Constraint) :=
  [Attr cn_type py_eqb; Attr cn_min py_eqb; Attr cn_opt py_eqb; Attr cn_max py_eqb; Attr cn_elements (leqb py_eqb)].

Definition Rule_attrs : list (attr Rule) :=
  [Attr ru_name py_eqb; Attr ru_constraints (leqb Constraint_eqb); Attr ru_condition py_eqb; Attr ru_layer py_eqb; Attr ru_severity py_eqb].

Definition DesignRules_attrs : list (attr DesignRules) :=
  [Attr dr_version py_eqb; Attr dr_rules (leqb Rule_eqb); Attr dr_filePath py_eqb].

Definition SyArc_attrs : list (attr SyArc) :=
  [Attr sa_private Bool.eqb; Attr sa_start Position_eqb; Attr sa_mid Position_eqb; Attr sa_end Position_eqb; Attr sa_stroke Stroke_eqb; Attr sa_fill Fill_eqb].

Definition SyCircle_attrs : list (attr SyCircle) :=
  [Attr si_private Bool.eqb; Attr si_center Position_eqb; Attr si_radius py_eqb; Attr si_stroke Stroke_eqb; Attr si_fill Fill_eqb].

Definition SyCurve_attrs : list (attr SyCurve) :=
  [Attr sc_points (leqb Position_eqb); Attr sc_stroke Stroke_eqb; Attr sc_fill Fill_eqb].

Definition SyPolyLine_attrs : list (attr SyPolyLine) :=
  [Attr sl_points (leqb Position_eqb); Attr sl_stroke Stroke_eqb; Attr sl_fill Fill_eqb].

Definition SyRect_attrs : list (attr SyRect) :=
  [Attr sr_private Bool.eqb; Attr sr_start Position_eqb; Attr sr_end Position_eqb; Attr sr_stroke Stroke_eqb; Attr sr_fill Fill_eqb].

Definition SyText_attrs : list (attr SyText) :=
  [Attr sx_text py_eqb; Attr sx_position Position_eqb; Attr sx_effects Effects_eqb].

Definition SyTextBox_attrs : list (attr SyTextBox) :=
  [Attr sb_text py_eqb; Attr sb_private Bool.eqb; Attr sb_position Position_eqb; Attr sb_size Position_eqb; Attr sb_stroke Stroke_eqb; Attr sb_fill Fill_eqb; Attr sb_effects Effects_eqb; Attr sb_uuid py_eqb].

Definition SymbolAlternativePin_attrs : list (attr SymbolAlternativePin) :=
  [Attr ap_pinName py_eqb; Attr ap_electricalType py_eqb; Attr ap_graphicalStyle py_eqb].

Definition SymbolPin_attrs : list (attr SymbolPin) :=
  [Attr sp_electricalType py_eqb; Attr sp_graphicalStyle py_eqb; Attr sp_position Position_eqb; Attr sp_length py_eqb; Attr sp_name py_eqb; Attr sp_nameEffects (oeqb Effects_eqb); Attr sp_number py_eqb; Attr sp_numberEffects (oeqb Effects_eqb); Attr sp_hide Bool.eqb; Attr sp_alternatePins (leqb SymbolAlternativePin_eqb)].

Definition Symbol_attrs : list (attr Symbol) :=
  [Attr sy_libraryNickname py_eqb; Attr sy_entryName py_eqb; Attr sy_unitId py_eqb; Attr sy_styleId py_eqb; Attr sy_extends py_eqb; Attr sy_hidePinNumbers Bool.eqb; Attr sy_pinNames Bool.eqb; Attr sy_pinNamesHide Bool.eqb; Attr sy_pinNamesOffset py_eqb; Attr sy_inBom (oeqb Bool.eqb); Attr sy_onBoard (oeqb Bool.eqb); Attr sy_isPower Bool.eqb; Attr sy_properties (leqb Property_eqb); Attr sy_graphicItems (leqb SyItem_eqb); Attr sy_pins (leqb SymbolPin_eqb); Attr sy_units (leqb Symbol_eqb)].

Definition SymbolLib_attrs : list (attr SymbolLib) :=
  [Attr sj_version py_eqb; Attr sj_generator py_eqb; Attr sj_symbols (leqb Symbol_eqb); Attr sj_filePath py_eqb].

Definition FpText_attrs : list (attr FpText) :=
  [Attr ft_type py_eqb; Attr ft_text py_eqb; Attr ft_position Position_eqb; Attr ft_layer py_eqb; Attr ft_knockout Bool.eqb; Attr ft_hide Bool.eqb; Attr ft_effects Effects_eqb; Attr ft_tstamp py_eqb; Attr ft_renderCache (oeqb RenderCache_eqb)].

Definition FpLine_attrs : list (attr FpLine) :=
  [Attr fl_start Position_eqb; Attr fl_end Position_eqb; Attr fl_layer py_eqb; Attr fl_width py_eqb; Attr fl_stroke (oeqb Stroke_eqb); Attr fl_locked Bool.eqb; Attr fl_tstamp py_eqb].

Definition FpRect_attrs : list (attr FpRect) :=
  [Attr fr_start Position_eqb; Attr fr_end Position_eqb; Attr fr_layer py_eqb; Attr fr_width py_eqb; Attr fr_stroke (oeqb Stroke_eqb); Attr fr_fill py_eqb; Attr fr_locked Bool.eqb; Attr fr_tstamp py_eqb].

Definition FpCircle_attrs : list (attr FpCircle) :=
  [Attr fc_center Position_eqb; Attr fc_end Position_eqb; Attr fc_layer py_eqb; Attr fc_width py_eqb; Attr fc_stroke (oeqb Stroke_eqb); Attr fc_fill py_eqb; Attr fc_locked Bool.eqb; Attr fc_tstamp py_eqb].

Definition FpArc_attrs : list (attr FpArc) :=
  [Attr fa_start Position_eqb; Attr fa_mid Position_eqb; Attr fa_end Position_eqb; Attr fa_layer py_eqb; Attr fa_width py_eqb; Attr fa_stroke (oeqb Stroke_eqb); Attr fa_locked Bool.eqb; Attr fa_tstamp py_eqb].

Definition FpPoly_attrs : list (attr FpPoly) :=
  [Attr fp_layer py_eqb; Attr fp_coordinates (leqb Position_eqb); Attr fp_width py_eqb; Attr fp_stroke (oeqb Stroke_eqb); Attr fp_fill py_eqb; Attr fp_locked Bool.eqb; Attr fp_tstamp py_eqb].

Definition FpCurve_attrs : list (attr FpCurve) :=
  [Attr fv_coordinates (leqb Position_eqb); Attr fv_layer py_eqb; Attr fv_width py_eqb; Attr fv_stroke (oeqb Stroke_eqb); Attr fv_locked Bool.eqb; Attr fv_tstamp py_eqb].

Definition FpTextBox_attrs : list (attr FpTextBox) :=
  [Attr fb_locked Bool.eqb; Attr fb_text py_eqb; Attr fb_start (oeqb Position_eqb); Attr fb_end (oeqb Position_eqb); Attr fb_pts (leqb Position_eqb); Attr fb_angle py_eqb; Attr fb_layer py_eqb; Attr fb_tstamp py_eqb; Attr fb_effects (oeqb Effects_eqb); Attr fb_stroke (oeqb Stroke_eqb); Attr fb_renderCache (oeqb RenderCache_eqb)].

Definition GrText_attrs : list (attr GrText) :=
  [Attr gt_text py_eqb; Attr gt_knockout Bool.eqb; Attr gt_position Position_eqb; Attr gt_layer py_eqb; Attr gt_effects Effects_eqb; Attr gt_tstamp py_eqb; Attr gt_locked Bool.eqb; Attr gt_renderCache (oeqb RenderCache_eqb)].

Definition GrLine_attrs : list (attr GrLine) :=
  [Attr gl_start Position_eqb; Attr gl_end Position_eqb; Attr gl_angle py_eqb; Attr gl_layer py_eqb; Attr gl_width py_eqb; Attr gl_tstamp py_eqb; Attr gl_locked Bool.eqb].

Definition GrRect_attrs : list (attr GrRect) :=
  [Attr gr_start Position_eqb; Attr gr_end Position_eqb; Attr gr_layer py_eqb; Attr gr_width py_eqb; Attr gr_fill py_eqb; Attr gr_tstamp py_eqb; Attr M_Gr.gr_locked Bool.eqb].

Definition GrCircle_attrs : list (attr GrCircle) :=
  [Attr gc_center Position_eqb; Attr gc_end Position_eqb; Attr gc_layer py_eqb; Attr gc_width py_eqb; Attr gc_fill py_eqb; Attr gc_tstamp py_eqb; Attr gc_locked Bool.eqb].

Definition GrArc_attrs : list (attr GrArc) :=
  [Attr ga_start Position_eqb; Attr ga_mid Position_eqb; Attr ga_end Position_eqb; Attr ga_layer py_eqb; Attr ga_width py_eqb; Attr ga_tstamp py_eqb; Attr ga_locked Bool.eqb].

Definition GrPoly_attrs : list (attr GrPoly) :=
  [Attr gp_layer py_eqb; Attr gp_coordinates (leqb Position_eqb); Attr gp_width py_eqb; Attr gp_fill py_eqb; Attr gp_tstamp py_eqb; Attr gp_locked Bool.eqb].

Definition GrCurve_attrs : list (attr GrCurve) :=
  [Attr gv_coordinates (leqb Position_eqb); Attr gv_layer py_eqb; Attr gv_width py_eqb; Attr gv_tstamp py_eqb; Attr gv_locked Bool.eqb].

Definition GrTextBox_attrs : list (attr GrTextBox) :=
  [Attr gb_locked Bool.eqb; Attr gb_text py_eqb; Attr gb_start (oeqb Position_eqb); Attr gb_end (oeqb Position_eqb); Attr gb_pts (leqb Position_eqb); Attr gb_angle py_eqb; Attr gb_layer py_eqb; Attr gb_tstamp py_eqb; Attr gb_effects (oeqb Effects_eqb); Attr gb_stroke (oeqb Stroke_eqb); Attr gb_renderCache (oeqb RenderCache_eqb)].

Definition KeepoutSettings_attrs : list (attr KeepoutSettings) :=
  [Attr ks_tracks py_eqb; Attr ks_vias py_eqb; Attr ks_pads py_eqb; Attr ks_copperpour py_eqb; Attr ks_footprints py_eqb].

Definition FillSettings_attrs : list (attr FillSettings) :=
  [Attr fs_yes Bool.eqb; Attr fs_mode py_eqb; Attr fs_thermalGap py_eqb; Attr fs_thermalBridgeWidth py_eqb; Attr fs_smoothingStyle py_eqb; Attr fs_smoothingRadius py_eqb; Attr fs_islandRemovalMode py_eqb; Attr fs_islandAreaMin py_eqb; Attr fs_hatchThickness py_eqb; Attr fs_hatchGap py_eqb; Attr fs_hatchOrientation py_eqb; Attr fs_hatchSmoothingLevel py_eqb; Attr fs_hatchSmoothingValue py_eqb; Attr fs_hatchBorderAlgorithm py_eqb; Attr fs_hatchMinHoleArea py_eqb].

Definition ZonePolygon_attrs : list (attr ZonePolygon) :=
  [Attr zp_coordinates (leqb Position_eqb)].

Definition FilledPolygon_attrs : list (attr FilledPolygon) :=
  [Attr zf_layer py_eqb; Attr zf_island Bool.eqb; Attr zf_coordinates (leqb Position_eqb)].

Definition FillSegments_attrs : list (attr FillSegments) :=
  [Attr zs_layer py_eqb; Attr zs_coordinates (leqb Position_eqb)].

Definition Hatch_attrs : list (attr Hatch) :=
  [Attr ht_style py_eqb; Attr ht_pitch py_eqb].

Definition Zone_attrs : list (attr Zone) :=
  [Attr zo_locked Bool.eqb; Attr zo_net py_eqb; Attr zo_netName py_eqb; Attr zo_layers (leqb py_eqb); Attr zo_tstamp py_eqb; Attr zo_name py_eqb; Attr zo_hatch Hatch_eqb; Attr zo_priority py_eqb; Attr zo_connectPads py_eqb; Attr zo_clearance py_eqb; Attr zo_minThickness py_eqb; Attr zo_filledAreasThickness py_eqb; Attr zo_keepoutSettings (oeqb KeepoutSettings_eqb); Attr zo_fillSettings (oeqb FillSettings_eqb); Attr zo_polygons (leqb ZonePolygon_eqb); Attr zo_filledPolygons (leqb FilledPolygon_eqb); Attr zo_fillSegments (oeqb FillSegments_eqb)].

Definition Attributes_attrs : list (attr Attributes) :=
  [Attr fx_type py_eqb; Attr fx_boardOnly Bool.eqb; Attr fx_excludeFromPosFiles Bool.eqb; Attr fx_excludeFromBom Bool.eqb; Attr fx_allowMissingCourtyard Bool.eqb].

Definition Model_attrs : list (attr Model) :=
  [Attr mo_path py_eqb; Attr mo_pos Coordinate_eqb; Attr mo_scale Coordinate_eqb; Attr mo_rotate Coordinate_eqb; Attr mo_hide Bool.eqb; Attr mo_opacity py_eqb].

Definition DrillDefinition_attrs : list (attr DrillDefinition) :=
  [Attr dd_oval Bool.eqb; Attr dd_diameter py_eqb; Attr dd_width py_eqb; Attr dd_offset (oeqb Position_eqb)].

Definition PadOptions_attrs : list (attr PadOptions) :=
  [Attr pq_clearance py_eqb; Attr pq_anchor py_eqb].

Definition Pad_attrs : list (attr Pad) :=
  [Attr pd_number py_eqb; Attr pd_type py_eqb; Attr pd_shape py_eqb; Attr pd_position Position_eqb; Attr pd_locked Bool.eqb; Attr pd_size Position_eqb; Attr pd_drill (oeqb DrillDefinition_eqb); Attr pd_layers (leqb py_eqb); Attr pd_property py_eqb; Attr pd_removeUnusedLayers Bool.eqb; Attr pd_keepEndLayers Bool.eqb; Attr pd_roundrectRatio py_eqb; Attr pd_chamferRatio py_eqb; Attr pd_chamfer (leqb py_eqb); Attr pd_net (oeqb Net_eqb); Attr pd_tstamp py_eqb; Attr pd_pinFunction py_eqb; Attr pd_pinType py_eqb; Attr pd_dieLength py_eqb; Attr pd_solderMaskMargin py_eqb; Attr pd_solderPasteMargin py_eqb; Attr pd_solderPasteMarginRatio py_eqb; Attr pd_clearance py_eqb; Attr pd_zoneConnect py_eqb; Attr pd_thermalWidth py_eqb; Attr pd_thermalGap py_eqb; Attr pd_customPadOptions (oeqb PadOptions_eqb); Attr pd_customPadPrimitives (leqb PadPrimitive_eqb)].

Definition Footprint_attrs : list (attr Footprint) :=
  [Attr fd_libraryNickname py_eqb; Attr fd_entryName py_eqb; Attr fd_version py_eqb; Attr fd_generator py_eqb; Attr fd_locked Bool.eqb; Attr fd_placed Bool.eqb; Attr fd_layer py_eqb; Attr fd_tedit py_eqb; Attr fd_tstamp py_eqb; Attr fd_position (oeqb Position_eqb); Attr fd_description py_eqb; Attr fd_tags py_eqb; Attr fd_properties (leqb kveqb); Attr fd_path py_eqb; Attr fd_autoplaceCost90 py_eqb; Attr fd_autoplaceCost180 py_eqb; Attr fd_solderMaskMargin py_eqb; Attr fd_solderPasteMargin py_eqb; Attr fd_solderPasteRatio py_eqb; Attr fd_clearance py_eqb; Attr fd_zoneConnect py_eqb; Attr fd_thermalWidth py_eqb; Attr fd_thermalGap py_eqb; Attr fd_attributes Attributes_eqb; Attr fd_privateLayers (leqb py_eqb); Attr fd_netTiePadGroups (leqb py_eqb); Attr fd_graphicItems (leqb FpItem_eqb); Attr fd_pads (leqb Pad_eqb); Attr fd_zones (leqb Zone_eqb); Attr fd_groups (leqb Group_eqb); Attr fd_models (leqb Model_eqb); Attr fd_filePath py_eqb].

Definition DimensionFormat_attrs : list (attr DimensionFormat) :=
  [Attr df_prefix py_eqb; Attr df_suffix py_eqb; Attr df_units py_eqb; Attr df_unitsFormat py_eqb; Attr df_precision py_eqb; Attr df_overrideValue py_eqb; Attr df_suppressZeroes Bool.eqb].

Definition DimensionStyle_attrs : list (attr DimensionStyle) :=
  [Attr ds_thickness py_eqb; Attr ds_arrowLength py_eqb; Attr ds_textPositionMode py_eqb; Attr ds_extensionHeight py_eqb; Attr ds_textFrame py_eqb; Attr ds_extensionOffset py_eqb; Attr ds_keepTextAligned Bool.eqb].

Definition Dimension_attrs : list (attr Dimension) :=
  [Attr di_locked Bool.eqb; Attr di_type py_eqb; Attr di_layer py_eqb; Attr di_tstamp py_eqb; Attr di_pts (leqb Position_eqb); Attr di_height py_eqb; Attr di_orientation py_eqb; Attr di_leaderLength py_eqb; Attr di_grText (oeqb GrText_eqb); Attr di_format (oeqb DimensionFormat_eqb); Attr di_style DimensionStyle_eqb].

Definition GeneralSettings_attrs : list (attr GeneralSettings) :=
  [Attr gs_thickness py_eqb].

Definition LayerToken_attrs : list (attr LayerToken) :=
  [Attr lt_ordinal py_eqb; Attr lt_name py_eqb; Attr M_Brd.lt_type py_eqb; Attr lt_userName py_eqb].

Definition StackupSubLayer_attrs : list (attr StackupSubLayer) :=
  [Attr sb_thickness py_eqb; Attr sb_material py_eqb; Attr sb_epsilonR py_eqb; Attr sb_lossTangent py_eqb].

Definition StackupLayer_attrs : list (attr StackupLayer) :=
  [Attr sl_name py_eqb; Attr sl_type py_eqb; Attr sl_color py_eqb; Attr sl_thickness py_eqb; Attr sl_material py_eqb; Attr sl_epsilonR py_eqb; Attr sl_lossTangent py_eqb; Attr sl_subLayers (leqb StackupSubLayer_eqb)].

Definition Stackup_attrs : list (attr Stackup) :=
  [Attr sk_layers (leqb StackupLayer_eqb); Attr sk_copperFinish py_eqb; Attr sk_dielectricContraints py_eqb; Attr sk_edgeConnector py_eqb; Attr sk_castellatedPads Bool.eqb; Attr sk_edgePlating Bool.eqb].

Definition PlotSettings_attrs : list (attr PlotSettings) :=
  [Attr ps_layerSelection py_eqb; Attr ps_plotOnAllLayersSelection py_eqb; Attr ps_disableApertMacros Bool.eqb; Attr ps_useGerberExtensions Bool.eqb; Attr ps_useGerberAttributes Bool.eqb; Attr ps_useGerberAdvancedAttributes Bool.eqb; Attr ps_createGerberJobFile Bool.eqb; Attr ps_dashedLineDashRatio py_eqb; Attr ps_dashedLineGapRatio py_eqb; Attr ps_svgUseInch (oeqb Bool.eqb); Attr ps_svgPrecision py_eqb; Attr ps_excludeEdgeLayer (oeqb Bool.eqb); Attr ps_plotFameRef Bool.eqb; Attr ps_viasOnMask Bool.eqb; Attr ps_mode py_eqb; Attr ps_useAuxOrigin Bool.eqb; Attr ps_hpglPenNumber py_eqb; Attr ps_hpglPenSpeed py_eqb; Attr ps_hpglPenDiameter py_eqb; Attr ps_dxfPolygonMode Bool.eqb; Attr ps_dxfImperialUnits Bool.eqb; Attr ps_dxfUsePcbnewFont Bool.eqb; Attr ps_psNegative Bool.eqb; Attr ps_psA4Output Bool.eqb; Attr ps_plotReference Bool.eqb; Attr ps_plotValue Bool.eqb; Attr ps_plotInvisibleText Bool.eqb; Attr ps_sketchPadsOnFab Bool.eqb; Attr ps_subtractMaskFromSilk Bool.eqb; Attr ps_outputFormat py_eqb; Attr ps_mirror Bool.eqb; Attr ps_drillShape py_eqb; Attr ps_scaleSelection py_eqb; Attr ps_outputDirectory py_eqb].

Definition SetupData_attrs : list (attr SetupData) :=
  [Attr sd_stackup (oeqb Stackup_eqb); Attr sd_packToMaskClearance py_eqb; Attr sd_solderMaskMinWidth py_eqb; Attr sd_padToPasteClearance py_eqb; Attr sd_padToPasteClearanceRatio py_eqb; Attr sd_auxAxisOrigin (oeqb Position_eqb); Attr sd_gridOrigin (oeqb Position_eqb); Attr sd_plotSettings (oeqb PlotSettings_eqb)].

Definition Segment_attrs : list (attr Segment) :=
  [Attr sg_start Position_eqb; Attr sg_end Position_eqb; Attr sg_width py_eqb; Attr sg_layer py_eqb; Attr sg_locked Bool.eqb; Attr sg_net py_eqb; Attr sg_tstamp py_eqb].

Definition Via_attrs : list (attr Via) :=
  [Attr vi_type py_eqb; Attr vi_locked Bool.eqb; Attr vi_position Position_eqb; Attr vi_size py_eqb; Attr vi_drill py_eqb; Attr vi_layers (leqb py_eqb); Attr vi_removeUnusedLayers Bool.eqb; Attr vi_keepEndLayers Bool.eqb; Attr vi_free Bool.eqb; Attr vi_net py_eqb; Attr vi_tstamp py_eqb].

Definition Arc_attrs : list (attr Arc) :=
  [Attr ac_start Position_eqb; Attr ac_mid Position_eqb; Attr ac_end Position_eqb; Attr ac_width py_eqb; Attr ac_layer py_eqb; Attr ac_locked Bool.eqb; Attr ac_net py_eqb; Attr ac_tstamp py_eqb].

Definition Target_attrs : list (attr Target) :=
  [Attr tg_type py_eqb; Attr tg_position Position_eqb; Attr tg_size py_eqb; Attr tg_width py_eqb; Attr tg_layer py_eqb; Attr tg_tstamp py_eqb].

Definition Board_attrs : list (attr Board) :=
  [Attr bd_version py_eqb; Attr bd_generator py_eqb; Attr bd_general GeneralSettings_eqb; Attr bd_paper PageSettings_eqb; Attr bd_titleBlock (oeqb TitleBlock_eqb); Attr bd_layers (leqb LayerToken_eqb); Attr bd_setup SetupData_eqb; Attr bd_properties (leqb kveqb); Attr bd_nets (leqb Net_eqb); Attr bd_footprints (leqb Footprint_eqb); Attr bd_graphicItems (leqb BdItem_eqb); Attr bd_traceItems (leqb TrItem_eqb); Attr bd_zones (leqb Zone_eqb); Attr bd_dimensions (leqb Dimension_eqb); Attr bd_targets (leqb Target_eqb); Attr bd_groups (leqb Group_eqb); Attr bd_filePath py_eqb].

Definition Junction_attrs : list (attr Junction) :=
  [Attr jn_position Position_eqb; Attr jn_diameter py_eqb; Attr jn_color JColor_eqb; Attr jn_uuid py_eqb].

Definition NoConnect_attrs : list (attr NoConnect) :=
  [Attr nc_position Position_eqb; Attr nc_uuid py_eqb].

Definition BusEntry_attrs : list (attr BusEntry) :=
  [Attr be_position Position_eqb; Attr be_uuid py_eqb; Attr be_size Position_eqb; Attr be_stroke Stroke_eqb].

Definition BusAlias_attrs : list (attr BusAlias) :=
  [Attr ba_name py_eqb; Attr ba_members (leqb py_eqb)].

Definition Connection_attrs : list (attr Connection) :=
  [Attr cx_type py_eqb; Attr cx_points (leqb Position_eqb); Attr cx_stroke Stroke_eqb; Attr cx_uuid py_eqb].

Definition PolyLine_attrs : list (attr PolyLine) :=
  [Attr pl_points (leqb Position_eqb); Attr pl_stroke Stroke_eqb; Attr pl_uuid py_eqb].

Definition Text_attrs : list (attr Text) :=
  [Attr tx_text py_eqb; Attr tx_position Position_eqb; Attr tx_effects Effects_eqb; Attr tx_uuid py_eqb].

Definition TextBox_attrs : list (attr TextBox) :=
  [Attr bx_text py_eqb; Attr bx_position Position_eqb; Attr bx_size Position_eqb; Attr bx_stroke Stroke_eqb; Attr bx_fill Fill_eqb; Attr bx_effects Effects_eqb; Attr bx_uuid py_eqb].

Definition LocalLabel_attrs : list (attr LocalLabel) :=
  [Attr ll_text py_eqb; Attr ll_position Position_eqb; Attr ll_effects Effects_eqb; Attr ll_uuid py_eqb; Attr ll_fieldsAutoplaced Bool.eqb].

Definition GlobalLabel_attrs : list (attr GlobalLabel) :=
  [Attr gla_text py_eqb; Attr gla_shape py_eqb; Attr gla_fieldsAutoplaced Bool.eqb; Attr gla_position Position_eqb; Attr gla_effects Effects_eqb; Attr gla_uuid py_eqb; Attr gla_properties (leqb Property_eqb)].

Definition HierarchicalLabel_attrs : list (attr HierarchicalLabel) :=
  [Attr hl_text py_eqb; Attr hl_shape py_eqb; Attr hl_position Position_eqb; Attr hl_effects Effects_eqb; Attr hl_uuid py_eqb; Attr hl_fieldsAutoplaced Bool.eqb].

Definition SymbolProjectPath_attrs : list (attr SymbolProjectPath) :=
  [Attr spp_sheetInstancePath py_eqb; Attr spp_reference py_eqb; Attr spp_unit py_eqb].

Definition SymbolProjectInstance_attrs : list (attr SymbolProjectInstance) :=
  [Attr spi_name py_eqb; Attr spi_paths (leqb SymbolProjectPath_eqb)].

Definition SchematicSymbol_attrs : list (attr SchematicSymbol) :=
  [Attr ss_libraryNickname py_eqb; Attr ss_entryName py_eqb; Attr ss_libName py_eqb; Attr ss_position Position_eqb; Attr ss_unit py_eqb; Attr ss_inBom Bool.eqb; Attr ss_onBoard Bool.eqb; Attr ss_dnp (oeqb Bool.eqb); Attr ss_fieldsAutoplaced Bool.eqb; Attr ss_uuid py_eqb; Attr ss_properties (leqb Property_eqb); Attr ss_pins (leqb kveqb); Attr ss_mirror py_eqb; Attr ss_instances (leqb SymbolProjectInstance_eqb)].

Definition HierarchicalPin_attrs : list (attr HierarchicalPin) :=
  [Attr hp_name py_eqb; Attr hp_connectionType py_eqb; Attr hp_position Position_eqb; Attr hp_effects Effects_eqb; Attr hp_uuid py_eqb].

Definition HierarchicalSheetProjectPath_attrs : list (attr HierarchicalSheetProjectPath) :=
  [Attr hpp_sheetInstancePath py_eqb; Attr hpp_page py_eqb].

Definition HierarchicalSheetProjectInstance_attrs : list (attr HierarchicalSheetProjectInstance) :=
  [Attr hpi_name py_eqb; Attr hpi_paths (leqb HierarchicalSheetProjectPath_eqb)].

Definition HierarchicalSheet_attrs : list (attr HierarchicalSheet) :=
  [Attr hs_position Position_eqb; Attr hs_width py_eqb; Attr hs_height py_eqb; Attr hs_fieldsAutoplaced Bool.eqb; Attr hs_stroke Stroke_eqb; Attr hs_fill ColorRGBA_eqb; Attr hs_uuid py_eqb; Attr hs_sheetName Property_eqb; Attr hs_fileName Property_eqb; Attr hs_properties (leqb Property_eqb); Attr hs_pins (leqb HierarchicalPin_eqb); Attr hs_instances (leqb HierarchicalSheetProjectInstance_eqb)].

Definition HierarchicalSheetInstance_attrs : list (attr HierarchicalSheetInstance) :=
  [Attr hi_instancePath py_eqb; Attr hi_page py_eqb].

Definition SymbolInstance_attrs : list (attr SymbolInstance) :=
  [Attr syi_path py_eqb; Attr syi_reference py_eqb; Attr syi_unit py_eqb; Attr syi_value py_eqb; Attr syi_footprint py_eqb].

Definition Rectangle_attrs : list (attr Rectangle) :=
  [Attr rct_start Position_eqb; Attr rct_end Position_eqb; Attr rct_stroke Stroke_eqb; Attr rct_fill Fill_eqb; Attr rct_uuid py_eqb].

Definition SchArc_attrs : list (attr SchArc) :=
  [Attr sar_start Position_eqb; Attr sar_mid Position_eqb; Attr sar_end Position_eqb; Attr sar_stroke Stroke_eqb; Attr sar_fill Fill_eqb; Attr sar_uuid py_eqb].

Definition Circle_attrs : list (attr Circle) :=
  [Attr cir_center Position_eqb; Attr cir_radius py_eqb; Attr cir_stroke Stroke_eqb; Attr cir_fill Fill_eqb; Attr cir_uuid py_eqb].

Definition NetclassFlag_attrs : list (attr NetclassFlag) :=
  [Attr nf_text py_eqb; Attr nf_length py_eqb; Attr nf_shape py_eqb; Attr nf_position (oeqb Position_eqb); Attr nf_effects (oeqb Effects_eqb); Attr nf_properties (leqb Property_eqb); Attr nf_uuid py_eqb; Attr nf_fieldsAutoplaced Bool.eqb].

Definition Schematic_attrs : list (attr Schematic) :=
  [Attr sc_version py_eqb; Attr sc_generator py_eqb; Attr sc_uuid py_eqb; Attr sc_paper PageSettings_eqb; Attr sc_titleBlock (oeqb TitleBlock_eqb); Attr sc_libSymbols (leqb Symbol_eqb); Attr sc_schematicSymbols (leqb SchematicSymbol_eqb); Attr sc_junctions (leqb Junction_eqb); Attr sc_noConnects (leqb NoConnect_eqb); Attr sc_busEntries (leqb BusEntry_eqb); Attr sc_busAliases (leqb BusAlias_eqb); Attr sc_graphicalItems (leqb ScLine_eqb); Attr sc_shapes (leqb ScShape_eqb); Attr sc_images (leqb Image_eqb); Attr sc_texts (leqb Text_eqb); Attr sc_textBoxes (leqb TextBox_eqb); Attr sc_labels (leqb LocalLabel_eqb); Attr sc_globalLabels (leqb GlobalLabel_eqb); Attr sc_hierarchicalLabels (leqb HierarchicalLabel_eqb); Attr sc_netclassFlags (leqb NetclassFlag_eqb); Attr sc_sheets (leqb HierarchicalSheet_eqb); Attr sc_sheetInstances (leqb HierarchicalSheetInstance_eqb); Attr sc_symbolInstances (leqb SymbolInstance_eqb); Attr sc_filePath py_eqb].

Definition WksFontSize_attrs : list (attr WksFontSize) :=
  [Attr wz_width py_eqb; Attr wz_height py_eqb].

Definition WksFont_attrs : list (attr WksFont) :=
  [Attr wf_linewidth py_eqb; Attr wf_size (oeqb WksFontSize_eqb); Attr wf_bold Bool.eqb; Attr wf_italic Bool.eqb].

Definition WksPosition_attrs : list (attr WksPosition) :=
  [Attr wp_X py_eqb; Attr wp_Y py_eqb; Attr wp_corner py_eqb].

Definition Line_attrs : list (attr Line) :=
  [Attr wl_name py_eqb; Attr wl_start WksPosition_eqb; Attr wl_end WksPosition_eqb; Attr wl_option py_eqb; Attr wl_lineWidth py_eqb; Attr wl_repeat py_eqb; Attr wl_incrx py_eqb; Attr wl_incry py_eqb; Attr wl_comment py_eqb].

Definition Rect_attrs : list (attr Rect) :=
  [Attr wr_name py_eqb; Attr wr_start WksPosition_eqb; Attr wr_end WksPosition_eqb; Attr wr_option py_eqb; Attr wr_lineWidth py_eqb; Attr wr_repeat py_eqb; Attr wr_incrx py_eqb; Attr wr_incry py_eqb; Attr wr_comment py_eqb].

Definition Polygon_attrs : list (attr Polygon) :=
  [Attr wg_name py_eqb; Attr wg_position WksPosition_eqb; Attr wg_option py_eqb; Attr wg_rotate py_eqb; Attr wg_coordinates (leqb WksPosition_eqb); Attr wg_repeat py_eqb; Attr wg_incrx py_eqb; Attr wg_incry py_eqb; Attr wg_comment py_eqb].

Definition Bitmap_attrs : list (attr Bitmap) :=
  [Attr wb_name py_eqb; Attr wb_position WksPosition_eqb; Attr wb_option py_eqb; Attr wb_scale py_eqb; Attr wb_repeat py_eqb; Attr wb_incrx py_eqb; Attr wb_incry py_eqb; Attr wb_comment py_eqb; Attr wb_pngdata (leqb py_eqb)].

Definition TbText_attrs : list (attr TbText) :=
  [Attr tt_text py_eqb; Attr tt_name py_eqb; Attr tt_position WksPosition_eqb; Attr tt_option py_eqb; Attr tt_rotate py_eqb; Attr tt_font WksFont_eqb; Attr tt_justify (oeqb Justify_eqb); Attr tt_maxlen py_eqb; Attr tt_maxheight py_eqb; Attr tt_repeat py_eqb; Attr tt_incrx py_eqb; Attr tt_incry py_eqb; Attr tt_incrlabel py_eqb; Attr tt_comment py_eqb].

Definition TextSize_attrs : list (attr TextSize) :=
  [Attr tz_width py_eqb; Attr tz_height py_eqb].

Definition Setup_attrs : list (attr Setup) :=
  [Attr wu_textSize TextSize_eqb; Attr wu_lineWidth py_eqb; Attr wu_textLineWidth py_eqb; Attr wu_leftMargin py_eqb; Attr wu_rightMargin py_eqb; Attr wu_topMargin py_eqb; Attr wu_bottomMargin py_eqb].

Definition WorkSheet_attrs : list (attr WorkSheet) :=
  [Attr wk_version py_eqb; Attr wk_generator py_eqb; Attr wk_setup Setup_eqb; Attr wk_drawingObjects (leqb WkItem_eqb); Attr wk_filePath py_eqb].

(** ** Lists of objects of several classes: an item is of one class, and only items of the same class can be equal *)
Inductive case (U : Type) := Case (X : Type) (view : U -> option X) (alike : X -> X -> bool).
Arguments Case {U X}.
Definition both {U} (a b : U) (c : case U) : bool :=
  match c with Case view alike => match view a, view b with Some x, Some y => alike x y | _, _ => false end end.
Definition has_class {U} (a : U) (c : case U) : bool := match c with Case view alike => match view a with Some _ => true | None => false end end.
Definition compares_class {U} (same : U -> U -> bool) (cases : list (case U)) : Prop :=
  (forall a b, same a b = existsb (both a b) cases)
  /\ forall a, length (filter (has_class a) cases) = 1.
Definition SyItem_cases : list (case SyItem) :=
  [Case (fun u => match u with SyItem_SyArc x => Some x | _ => None end) SyArc_eqb;
   Case (fun u => match u with SyItem_SyCircle x => Some x | _ => None end) SyCircle_eqb;
   Case (fun u => match u with SyItem_SyCurve x => Some x | _ => None end) SyCurve_eqb;
   Case (fun u => match u with SyItem_SyPolyLine x => Some x | _ => None end) SyPolyLine_eqb;
   Case (fun u => match u with SyItem_SyRect x => Some x | _ => None end) SyRect_eqb;
   Case (fun u => match u with SyItem_SyText x => Some x | _ => None end) SyText_eqb;
   Case (fun u => match u with SyItem_SyTextBox x => Some x | _ => None end) SyTextBox_eqb].
Definition PadPrimitive_cases : list (case PadPrimitive) :=
  [Case (fun u => match u with PadPrimitive_GrText x => Some x | _ => None end) GrText_eqb;
   Case (fun u => match u with PadPrimitive_GrTextBox x => Some x | _ => None end) GrTextBox_eqb;
   Case (fun u => match u with PadPrimitive_GrLine x => Some x | _ => None end) GrLine_eqb;
   Case (fun u => match u with PadPrimitive_GrRect x => Some x | _ => None end) GrRect_eqb;
   Case (fun u => match u with PadPrimitive_GrCircle x => Some x | _ => None end) GrCircle_eqb;
   Case (fun u => match u with PadPrimitive_GrArc x => Some x | _ => None end) GrArc_eqb;
   Case (fun u => match u with PadPrimitive_GrPoly x => Some x | _ => None end) GrPoly_eqb;
   Case (fun u => match u with PadPrimitive_GrCurve x => Some x | _ => None end) GrCurve_eqb].
Definition FpItem_cases : list (case FpItem) :=
  [Case (fun u => match u with FpItem_FpText x => Some x | _ => None end) FpText_eqb;
   Case (fun u => match u with FpItem_FpTextBox x => Some x | _ => None end) FpTextBox_eqb;
   Case (fun u => match u with FpItem_FpLine x => Some x | _ => None end) FpLine_eqb;
   Case (fun u => match u with FpItem_FpRect x => Some x | _ => None end) FpRect_eqb;
   Case (fun u => match u with FpItem_FpCircle x => Some x | _ => None end) FpCircle_eqb;
   Case (fun u => match u with FpItem_FpArc x => Some x | _ => None end) FpArc_eqb;
   Case (fun u => match u with FpItem_FpPoly x => Some x | _ => None end) FpPoly_eqb;
   Case (fun u => match u with FpItem_FpCurve x => Some x | _ => None end) FpCurve_eqb;
   Case (fun u => match u with FpItem_Image x => Some x | _ => None end) Image_eqb].
Definition BdItem_cases : list (case BdItem) :=
  [Case (fun u => match u with BdItem_GrText x => Some x | _ => None end) GrText_eqb;
   Case (fun u => match u with BdItem_GrTextBox x => Some x | _ => None end) GrTextBox_eqb;
   Case (fun u => match u with BdItem_GrLine x => Some x | _ => None end) GrLine_eqb;
   Case (fun u => match u with BdItem_GrRect x => Some x | _ => None end) GrRect_eqb;
   Case (fun u => match u with BdItem_GrCircle x => Some x | _ => None end) GrCircle_eqb;
   Case (fun u => match u with BdItem_GrArc x => Some x | _ => None end) GrArc_eqb;
   Case (fun u => match u with BdItem_GrPoly x => Some x | _ => None end) GrPoly_eqb;
   Case (fun u => match u with BdItem_GrCurve x => Some x | _ => None end) GrCurve_eqb;
   Case (fun u => match u with BdItem_Image x => Some x | _ => None end) Image_eqb].
Definition TrItem_cases : list (case TrItem) :=
  [Case (fun u => match u with TrItem_Segment x => Some x | _ => None end) Segment_eqb;
   Case (fun u => match u with TrItem_Arc x => Some x | _ => None end) Arc_eqb;
   Case (fun u => match u with TrItem_Via x => Some x | _ => None end) Via_eqb].
Definition JColor_cases : list (case JColor) :=
  [Case (fun u => match u with JColor_obj x => Some x | _ => None end) ColorRGBA_eqb;
   Case (fun u => match u with JColor_val x => Some x | _ => None end) py_eqb].
Definition ScLine_cases : list (case ScLine) :=
  [Case (fun u => match u with ScLine_Connection x => Some x | _ => None end) Connection_eqb;
   Case (fun u => match u with ScLine_PolyLine x => Some x | _ => None end) PolyLine_eqb].
Definition ScShape_cases : list (case ScShape) :=
  [Case (fun u => match u with ScShape_SchArc x => Some x | _ => None end) SchArc_eqb;
   Case (fun u => match u with ScShape_Circle x => Some x | _ => None end) Circle_eqb;
   Case (fun u => match u with ScShape_Rectangle x => Some x | _ => None end) Rectangle_eqb].
Definition WkItem_cases : list (case WkItem) :=
  [Case (fun u => match u with WkItem_Line x => Some x | _ => None end) Line_eqb;
   Case (fun u => match u with WkItem_Rect x => Some x | _ => None end) Rect_eqb;
   Case (fun u => match u with WkItem_Polygon x => Some x | _ => None end) Polygon_eqb;
   Case (fun u => match u with WkItem_Bitmap x => Some x | _ => None end) Bitmap_eqb;
   Case (fun u => match u with WkItem_TbText x => Some x | _ => None end) TbText_eqb].
