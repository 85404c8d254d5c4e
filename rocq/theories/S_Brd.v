(** Specification of items/brditems.py. *)
From Verif Require Import PyBase PyNum PyStr Sexpr S_Leaf S_Tree S_Fix M_Common S_Common M_Brd.

Definition GeneralSettings_tree (o : GeneralSettings) : val := node "general" [node "thickness" [gs_thickness o]].
Definition GeneralSettings_norm (o : GeneralSettings) : GeneralSettings :=
  mkGeneralSettings (nrm (gs_thickness o)).
(** dataclass == on GeneralSettings *)
Definition GeneralSettings_eqb (a b : GeneralSettings) : bool :=
  py_eqb (gs_thickness a) (gs_thickness b).
Definition GeneralSettings_ok (o : GeneralSettings) : bool :=
  numb (gs_thickness o).

(** a layer is a list that starts with its number *)
Definition LayerToken_tree (o : LayerToken) : val := VList ([lt_ordinal o; lt_name o; lt_type o] ++ optv (lt_userName o)).
Definition LayerToken_norm (o : LayerToken) : LayerToken :=
  mkLayerToken (nrm (lt_ordinal o)) (lt_name o) (nrm (lt_type o)) (lt_userName o).
(** dataclass == on LayerToken *)
Definition LayerToken_eqb (a b : LayerToken) : bool :=
  py_eqb (lt_ordinal a) (lt_ordinal b)
  && py_eqb (lt_name a) (lt_name b)
  && py_eqb (lt_type a) (lt_type b)
  && py_eqb (lt_userName a) (lt_userName b).
Definition LayerToken_ok (o : LayerToken) : bool :=
  numb (lt_ordinal o)
  && txtb (lt_name o)
  && atomb (lt_type o)
  && optb txtb (lt_userName o).

(** the material of a sub layer follows the word [addsublayer] without a list of its own *)
Definition StackupSubLayer_items (o : StackupSubLayer) : list val :=
  [node "thickness" [sb_thickness o]] ++ optn "material" (sb_material o) ++ optn "epsilon_r" (sb_epsilonR o) ++ optn "loss_tangent" (sb_lossTangent o).
Definition StackupSubLayer_norm (o : StackupSubLayer) : StackupSubLayer :=
  mkStackupSubLayer (nrm (sb_thickness o)) (sb_material o) (nrm (sb_epsilonR o)) (nrm (sb_lossTangent o)).
(** dataclass == on StackupSubLayer *)
Definition StackupSubLayer_eqb (a b : StackupSubLayer) : bool :=
  py_eqb (sb_thickness a) (sb_thickness b)
  && py_eqb (sb_material a) (sb_material b)
  && py_eqb (sb_epsilonR a) (sb_epsilonR b)
  && py_eqb (sb_lossTangent a) (sb_lossTangent b).
Definition StackupSubLayer_ok (o : StackupSubLayer) : bool :=
  numb (sb_thickness o)
  && optb txtb (sb_material o)
  && optb numb (sb_epsilonR o)
  && optb numb (sb_lossTangent o).

Definition StackupLayer_tree (o : StackupLayer) : val :=
  node "layer" ([sl_name o; node "type" [sl_type o]] ++ optn "color" (sl_color o) ++ optn "thickness" (sl_thickness o) ++ optn "material" (sl_material o)
    ++ optn "epsilon_r" (sl_epsilonR o) ++ optn "loss_tangent" (sl_lossTangent o)
    ++ flat_map (fun s => VStr $"addsublayer" :: StackupSubLayer_items s) (sl_subLayers o)).
Definition StackupLayer_norm (o : StackupLayer) : StackupLayer :=
  mkStackupLayer (sl_name o) (sl_type o) (sl_color o) (nrm (sl_thickness o)) (sl_material o) (nrm (sl_epsilonR o)) (nrm (sl_lossTangent o)) (map StackupSubLayer_norm (sl_subLayers o)).
(** dataclass == on StackupLayer *)
Definition StackupLayer_eqb (a b : StackupLayer) : bool :=
  py_eqb (sl_name a) (sl_name b)
  && py_eqb (sl_type a) (sl_type b)
  && py_eqb (sl_color a) (sl_color b)
  && py_eqb (sl_thickness a) (sl_thickness b)
  && py_eqb (sl_material a) (sl_material b)
  && py_eqb (sl_epsilonR a) (sl_epsilonR b)
  && py_eqb (sl_lossTangent a) (sl_lossTangent b)
  && leqb StackupSubLayer_eqb (sl_subLayers a) (sl_subLayers b).
Definition StackupLayer_ok (o : StackupLayer) : bool :=
  txtb (sl_name o)
  && rawtxtb (sl_type o)
  && optb txtb (sl_color o)
  && optb numb (sl_thickness o)
  && optb txtb (sl_material o)
  && optb numb (sl_epsilonR o)
  && optb numb (sl_lossTangent o)
  && forallb StackupSubLayer_ok (sl_subLayers o).

Definition Stackup_tree (o : Stackup) : val :=
  node "stackup" (map StackupLayer_tree (sk_layers o) ++ optn "copper_finish" (sk_copperFinish o) ++ optn "dielectric_constraints" (sk_dielectricContraints o)
    ++ optn "edge_connector" (sk_edgeConnector o) ++ (if sk_castellatedPads o then [node "castellated_pads" [VStr $"yes"]] else [])
    ++ (if sk_edgePlating o then [node "edge_plating" [VStr $"yes"]] else [])).
Definition Stackup_norm (o : Stackup) : Stackup :=
  mkStackup (map StackupLayer_norm (sk_layers o)) (sk_copperFinish o) (nrm (sk_dielectricContraints o)) (nrm (sk_edgeConnector o)) (sk_castellatedPads o) (sk_edgePlating o).
(** dataclass == on Stackup *)
Definition Stackup_eqb (a b : Stackup) : bool :=
  leqb StackupLayer_eqb (sk_layers a) (sk_layers b)
  && py_eqb (sk_copperFinish a) (sk_copperFinish b)
  && py_eqb (sk_dielectricContraints a) (sk_dielectricContraints b)
  && py_eqb (sk_edgeConnector a) (sk_edgeConnector b)
  && Bool.eqb (sk_castellatedPads a) (sk_castellatedPads b)
  && Bool.eqb (sk_edgePlating a) (sk_edgePlating b).
Definition Stackup_ok (o : Stackup) : bool :=
  forallb StackupLayer_ok (sk_layers o)
  && optb txtb (sk_copperFinish o)
  && optb atomb (sk_dielectricContraints o)
  && optb atomb (sk_edgeConnector o).

(** [(key true)] or [(key false)] *)
Definition tf (key : String.string) (b : bool) : val := node key [VStr (if b then $"true" else $"false")].
Arguments tf key%string b.
Definition PlotSettings_tree (o : PlotSettings) : val :=
  node "pcbplotparams" ([node "layerselection" [ps_layerSelection o]] ++ optn "plot_on_all_layers_selection" (ps_plotOnAllLayersSelection o)
    ++ [tf "disableapertmacros" (ps_disableApertMacros o); tf "usegerberextensions" (ps_useGerberExtensions o);
        tf "usegerberattributes" (ps_useGerberAttributes o); tf "usegerberadvancedattributes" (ps_useGerberAdvancedAttributes o);
        tf "creategerberjobfile" (ps_createGerberJobFile o)]
    ++ optn "dashed_line_dash_ratio" (ps_dashedLineDashRatio o) ++ optn "dashed_line_gap_ratio" (ps_dashedLineGapRatio o)
    ++ opto (tf "svguseinch") (ps_svgUseInch o) ++ [node "svgprecision" [ps_svgPrecision o]] ++ opto (tf "excludeedgelayer") (ps_excludeEdgeLayer o)
    ++ [tf "plotframeref" (ps_plotFameRef o); tf "viasonmask" (ps_viasOnMask o); node "mode" [ps_mode o]; tf "useauxorigin" (ps_useAuxOrigin o);
        node "hpglpennumber" [ps_hpglPenNumber o]; node "hpglpenspeed" [ps_hpglPenSpeed o]; node "hpglpendiameter" [ps_hpglPenDiameter o];
        tf "dxfpolygonmode" (ps_dxfPolygonMode o); tf "dxfimperialunits" (ps_dxfImperialUnits o); tf "dxfusepcbnewfont" (ps_dxfUsePcbnewFont o);
        tf "psnegative" (ps_psNegative o); tf "psa4output" (ps_psA4Output o); tf "plotreference" (ps_plotReference o); tf "plotvalue" (ps_plotValue o);
        tf "plotinvisibletext" (ps_plotInvisibleText o); tf "sketchpadsonfab" (ps_sketchPadsOnFab o); tf "subtractmaskfromsilk" (ps_subtractMaskFromSilk o);
        node "outputformat" [ps_outputFormat o]; tf "mirror" (ps_mirror o); node "drillshape" [ps_drillShape o];
        node "scaleselection" [ps_scaleSelection o]; node "outputdirectory" [ps_outputDirectory o]]).
Definition PlotSettings_norm (o : PlotSettings) : PlotSettings :=
  mkPlotSettings (nrm (ps_layerSelection o)) (nrm (ps_plotOnAllLayersSelection o)) (ps_disableApertMacros o) (ps_useGerberExtensions o) (ps_useGerberAttributes o) (ps_useGerberAdvancedAttributes o) (ps_createGerberJobFile o) (nrm (ps_dashedLineDashRatio o)) (nrm (ps_dashedLineGapRatio o)) (ps_svgUseInch o) (nrm (ps_svgPrecision o)) (ps_excludeEdgeLayer o) (ps_plotFameRef o) (ps_viasOnMask o) (nrm (ps_mode o)) (ps_useAuxOrigin o) (nrm (ps_hpglPenNumber o)) (nrm (ps_hpglPenSpeed o)) (nrm (ps_hpglPenDiameter o)) (ps_dxfPolygonMode o) (ps_dxfImperialUnits o) (ps_dxfUsePcbnewFont o) (ps_psNegative o) (ps_psA4Output o) (ps_plotReference o) (ps_plotValue o) (ps_plotInvisibleText o) (ps_sketchPadsOnFab o) (ps_subtractMaskFromSilk o) (nrm (ps_outputFormat o)) (ps_mirror o) (nrm (ps_drillShape o)) (nrm (ps_scaleSelection o)) (ps_outputDirectory o).
(** dataclass == on PlotSettings *)
Definition PlotSettings_eqb (a b : PlotSettings) : bool :=
  py_eqb (ps_layerSelection a) (ps_layerSelection b)
  && py_eqb (ps_plotOnAllLayersSelection a) (ps_plotOnAllLayersSelection b)
  && Bool.eqb (ps_disableApertMacros a) (ps_disableApertMacros b)
  && Bool.eqb (ps_useGerberExtensions a) (ps_useGerberExtensions b)
  && Bool.eqb (ps_useGerberAttributes a) (ps_useGerberAttributes b)
  && Bool.eqb (ps_useGerberAdvancedAttributes a) (ps_useGerberAdvancedAttributes b)
  && Bool.eqb (ps_createGerberJobFile a) (ps_createGerberJobFile b)
  && py_eqb (ps_dashedLineDashRatio a) (ps_dashedLineDashRatio b)
  && py_eqb (ps_dashedLineGapRatio a) (ps_dashedLineGapRatio b)
  && oeqb Bool.eqb (ps_svgUseInch a) (ps_svgUseInch b)
  && py_eqb (ps_svgPrecision a) (ps_svgPrecision b)
  && oeqb Bool.eqb (ps_excludeEdgeLayer a) (ps_excludeEdgeLayer b)
  && Bool.eqb (ps_plotFameRef a) (ps_plotFameRef b)
  && Bool.eqb (ps_viasOnMask a) (ps_viasOnMask b)
  && py_eqb (ps_mode a) (ps_mode b)
  && Bool.eqb (ps_useAuxOrigin a) (ps_useAuxOrigin b)
  && py_eqb (ps_hpglPenNumber a) (ps_hpglPenNumber b)
  && py_eqb (ps_hpglPenSpeed a) (ps_hpglPenSpeed b)
  && py_eqb (ps_hpglPenDiameter a) (ps_hpglPenDiameter b)
  && Bool.eqb (ps_dxfPolygonMode a) (ps_dxfPolygonMode b)
  && Bool.eqb (ps_dxfImperialUnits a) (ps_dxfImperialUnits b)
  && Bool.eqb (ps_dxfUsePcbnewFont a) (ps_dxfUsePcbnewFont b)
  && Bool.eqb (ps_psNegative a) (ps_psNegative b)
  && Bool.eqb (ps_psA4Output a) (ps_psA4Output b)
  && Bool.eqb (ps_plotReference a) (ps_plotReference b)
  && Bool.eqb (ps_plotValue a) (ps_plotValue b)
  && Bool.eqb (ps_plotInvisibleText a) (ps_plotInvisibleText b)
  && Bool.eqb (ps_sketchPadsOnFab a) (ps_sketchPadsOnFab b)
  && Bool.eqb (ps_subtractMaskFromSilk a) (ps_subtractMaskFromSilk b)
  && py_eqb (ps_outputFormat a) (ps_outputFormat b)
  && Bool.eqb (ps_mirror a) (ps_mirror b)
  && py_eqb (ps_drillShape a) (ps_drillShape b)
  && py_eqb (ps_scaleSelection a) (ps_scaleSelection b)
  && py_eqb (ps_outputDirectory a) (ps_outputDirectory b).
Definition PlotSettings_ok (o : PlotSettings) : bool :=
  atomb (ps_layerSelection o)
  && optb atomb (ps_plotOnAllLayersSelection o)
  && optb (fixb 6) (ps_dashedLineDashRatio o)
  && optb (fixb 6) (ps_dashedLineGapRatio o)
  && numb (ps_svgPrecision o)
  && numb (ps_mode o)
  && negb (ps_useAuxOrigin o)
  && numb (ps_hpglPenNumber o)
  && numb (ps_hpglPenSpeed o)
  && fixb 6 (ps_hpglPenDiameter o)
  && numb (ps_outputFormat o)
  && numb (ps_drillShape o)
  && numb (ps_scaleSelection o)
  && txtb (ps_outputDirectory o).

Definition SetupData_tree (o : SetupData) : val :=
  node "setup" (opto Stackup_tree (sd_stackup o) ++ [node "pad_to_mask_clearance" [sd_packToMaskClearance o]]
    ++ optn "solder_mask_min_width" (sd_solderMaskMinWidth o) ++ optn "pad_to_paste_clearance" (sd_padToPasteClearance o)
    ++ optn "pad_to_paste_clearance_ratio" (sd_padToPasteClearanceRatio o)
    ++ opto (xy_tree "aux_axis_origin") (sd_auxAxisOrigin o) ++ opto (xy_tree "grid_origin") (sd_gridOrigin o)
    ++ opto PlotSettings_tree (sd_plotSettings o)).
Definition SetupData_norm (o : SetupData) : SetupData :=
  mkSetupData (option_map Stackup_norm (sd_stackup o)) (nrm (sd_packToMaskClearance o)) (nrm (sd_solderMaskMinWidth o)) (nrm (sd_padToPasteClearance o)) (nrm (sd_padToPasteClearanceRatio o)) (option_map Position_norm (sd_auxAxisOrigin o)) (option_map Position_norm (sd_gridOrigin o)) (option_map PlotSettings_norm (sd_plotSettings o)).
(** dataclass == on SetupData *)
Definition SetupData_eqb (a b : SetupData) : bool :=
  oeqb Stackup_eqb (sd_stackup a) (sd_stackup b)
  && py_eqb (sd_packToMaskClearance a) (sd_packToMaskClearance b)
  && py_eqb (sd_solderMaskMinWidth a) (sd_solderMaskMinWidth b)
  && py_eqb (sd_padToPasteClearance a) (sd_padToPasteClearance b)
  && py_eqb (sd_padToPasteClearanceRatio a) (sd_padToPasteClearanceRatio b)
  && oeqb Position_eqb (sd_auxAxisOrigin a) (sd_auxAxisOrigin b)
  && oeqb Position_eqb (sd_gridOrigin a) (sd_gridOrigin b)
  && oeqb PlotSettings_eqb (sd_plotSettings a) (sd_plotSettings b).
Definition SetupData_ok (o : SetupData) : bool :=
  optok Stackup_ok (sd_stackup o)
  && numb (sd_packToMaskClearance o)
  && optb numb (sd_solderMaskMinWidth o)
  && optb numb (sd_padToPasteClearance o)
  && optb numb (sd_padToPasteClearanceRatio o)
  && optok pos2_ok (sd_auxAxisOrigin o)
  && optok pos2_ok (sd_gridOrigin o)
  && optok PlotSettings_ok (sd_plotSettings o).

Definition Segment_tree (o : Segment) : val :=
  node "segment" (optw "locked" (sg_locked o) ++ [xy_tree "start" (sg_start o); xy_tree "end" (sg_end o); node "width" [sg_width o];
    node "layer" [sg_layer o]; node "net" [sg_net o]; node "tstamp" [sg_tstamp o]]).
Definition Segment_norm (o : Segment) : Segment :=
  mkSegment (Position_norm (sg_start o)) (Position_norm (sg_end o)) (nrm (sg_width o)) (sg_layer o) (sg_locked o) (nrm (sg_net o)) (nrm (sg_tstamp o)).
(** dataclass == on Segment *)
Definition Segment_eqb (a b : Segment) : bool :=
  Position_eqb (sg_start a) (sg_start b)
  && Position_eqb (sg_end a) (sg_end b)
  && py_eqb (sg_width a) (sg_width b)
  && py_eqb (sg_layer a) (sg_layer b)
  && Bool.eqb (sg_locked a) (sg_locked b)
  && py_eqb (sg_net a) (sg_net b)
  && py_eqb (sg_tstamp a) (sg_tstamp b).
Definition Segment_ok (o : Segment) : bool :=
  pos2_ok (sg_start o)
  && pos2_ok (sg_end o)
  && numb (sg_width o)
  && txtb (sg_layer o)
  && numb (sg_net o)
  && atomb (sg_tstamp o).

Definition Via_tree (o : Via) : val :=
  node "via" (optv (vi_type o) ++ optw "locked" (vi_locked o) ++ [xy_tree "at" (vi_position o); node "size" [vi_size o]; node "drill" [vi_drill o];
    node "layers" (vi_layers o)] ++ optl "remove_unused_layers" (vi_removeUnusedLayers o) ++ optl "keep_end_layers" (vi_keepEndLayers o)
    ++ optl "free" (vi_free o) ++ [node "net" [vi_net o]] ++ optn "tstamp" (vi_tstamp o)).
Definition Via_norm (o : Via) : Via :=
  mkVia (vi_type o) (vi_locked o) (Position_norm (vi_position o)) (nrm (vi_size o)) (nrm (vi_drill o)) (vi_layers o) (vi_removeUnusedLayers o) (vi_keepEndLayers o) (vi_free o) (nrm (vi_net o)) (nrm (vi_tstamp o)).
(** dataclass == on Via *)
Definition Via_eqb (a b : Via) : bool :=
  py_eqb (vi_type a) (vi_type b)
  && Bool.eqb (vi_locked a) (vi_locked b)
  && Position_eqb (vi_position a) (vi_position b)
  && py_eqb (vi_size a) (vi_size b)
  && py_eqb (vi_drill a) (vi_drill b)
  && leqb py_eqb (vi_layers a) (vi_layers b)
  && Bool.eqb (vi_removeUnusedLayers a) (vi_removeUnusedLayers b)
  && Bool.eqb (vi_keepEndLayers a) (vi_keepEndLayers b)
  && Bool.eqb (vi_free a) (vi_free b)
  && py_eqb (vi_net a) (vi_net b)
  && py_eqb (vi_tstamp a) (vi_tstamp b).
Definition Via_ok (o : Via) : bool :=
  optb (enumb ["micro"%string; "blind"%string]) (vi_type o)
  && pos2_ok (vi_position o)
  && numb (vi_size o)
  && numb (vi_drill o)
  && forallb txtb (vi_layers o)
  && numb (vi_net o)
  && optb atomb (vi_tstamp o).

Definition Arc_tree (o : Arc) : val :=
  node "arc" (optw "locked" (ac_locked o) ++ [xy_tree "start" (ac_start o); xy_tree "mid" (ac_mid o); xy_tree "end" (ac_end o); node "width" [ac_width o];
    node "layer" [ac_layer o]; node "net" [ac_net o]] ++ optn "tstamp" (ac_tstamp o)).
Definition Arc_norm (o : Arc) : Arc :=
  mkArc (Position_norm (ac_start o)) (Position_norm (ac_mid o)) (Position_norm (ac_end o)) (nrm (ac_width o)) (ac_layer o) (ac_locked o) (nrm (ac_net o)) (nrm (ac_tstamp o)).
(** dataclass == on Arc *)
Definition Arc_eqb (a b : Arc) : bool :=
  Position_eqb (ac_start a) (ac_start b)
  && Position_eqb (ac_mid a) (ac_mid b)
  && Position_eqb (ac_end a) (ac_end b)
  && py_eqb (ac_width a) (ac_width b)
  && py_eqb (ac_layer a) (ac_layer b)
  && Bool.eqb (ac_locked a) (ac_locked b)
  && py_eqb (ac_net a) (ac_net b)
  && py_eqb (ac_tstamp a) (ac_tstamp b).
Definition Arc_ok (o : Arc) : bool :=
  pos2_ok (ac_start o)
  && pos2_ok (ac_mid o)
  && pos2_ok (ac_end o)
  && numb (ac_width o)
  && txtb (ac_layer o)
  && numb (ac_net o)
  && optb atomb (ac_tstamp o).

Definition Target_tree (o : Target) : val :=
  node "target" [tg_type o; xy_tree "at" (tg_position o); node "size" [tg_size o]; node "width" [tg_width o]; node "layer" [tg_layer o]; node "tstamp" [tg_tstamp o]].
Definition Target_norm (o : Target) : Target :=
  mkTarget (nrm (tg_type o)) (Position_norm (tg_position o)) (nrm (tg_size o)) (nrm (tg_width o)) (tg_layer o) (nrm (tg_tstamp o)).
(** dataclass == on Target *)
Definition Target_eqb (a b : Target) : bool :=
  py_eqb (tg_type a) (tg_type b)
  && Position_eqb (tg_position a) (tg_position b)
  && py_eqb (tg_size a) (tg_size b)
  && py_eqb (tg_width a) (tg_width b)
  && py_eqb (tg_layer a) (tg_layer b)
  && py_eqb (tg_tstamp a) (tg_tstamp b).
Definition Target_ok (o : Target) : bool :=
  atomb (tg_type o)
  && pos2_ok (tg_position o)
  && numb (tg_size o)
  && numb (tg_width o)
  && rawtxtb (tg_layer o)
  && atomb (tg_tstamp o).

