(** From which token each attribute is taken, and how (C41). The statements were generated from the syntax trees of
    the from_sexpr methods. Beside each theorem stand expressions to which its parts apply. *)
From Verif Require Import PyBase PyNum PyStr Sexpr S_Leaf S_Tree S_Reader S_Gather S_Pick M_Common M_Gr M_Zone M_Footprint M_Dim M_Brd M_Board.
From Verif Require L_PickC.

Theorem C41_DimensionFormat : marks DimensionFormat_from 1 ["suppress_zeroes"]%string "suppress_zeroes"%string true df_suppressZeroes /\
  picks DimensionFormat_from 1 ["prefix"]%string "prefix"%string (arg 1) df_prefix /\
  picks DimensionFormat_from 1 ["suffix"]%string "suffix"%string (arg 1) df_suffix /\
  picks DimensionFormat_from 1 ["units"]%string "units"%string (arg 1) df_units /\
  picks DimensionFormat_from 1 ["units_format"]%string "units_format"%string (arg 1) df_unitsFormat /\
  picks DimensionFormat_from 1 ["precision"]%string "precision"%string (arg 1) df_precision /\
  picks DimensionFormat_from 1 ["override_value"]%string "override_value"%string (arg 1) df_overrideValue.
Proof. exact L_PickC.DimensionFormat_pick. Qed.
Print Assumptions C41_DimensionFormat.
Example C41_DimensionFormat_case : let b := [VStr $"format"; node "zzz" [VInt 1]] in
  (match DimensionFormat_from (VList (b ++ [VStr $"suppress_zeroes"; node "zzz" [VInt 1]])) with Ok o => df_suppressZeroes o = true | Err _ => False end) /\
  (match DimensionFormat_from (VList (b ++ [node "prefix" [VInt 7]; node "zzz" [VInt 1]])) with Ok o => (arg 1) (node "prefix" [VInt 7]) = Ok (df_prefix o) | Err _ => False end) /\
  (match DimensionFormat_from (VList (b ++ [node "suffix" [VInt 7]; node "zzz" [VInt 1]])) with Ok o => (arg 1) (node "suffix" [VInt 7]) = Ok (df_suffix o) | Err _ => False end) /\
  (match DimensionFormat_from (VList (b ++ [node "units" [VInt 7]; node "zzz" [VInt 1]])) with Ok o => (arg 1) (node "units" [VInt 7]) = Ok (df_units o) | Err _ => False end) /\
  (match DimensionFormat_from (VList (b ++ [node "units_format" [VInt 7]; node "zzz" [VInt 1]])) with Ok o => (arg 1) (node "units_format" [VInt 7]) = Ok (df_unitsFormat o) | Err _ => False end) /\
  (match DimensionFormat_from (VList (b ++ [node "precision" [VInt 7]; node "zzz" [VInt 1]])) with Ok o => (arg 1) (node "precision" [VInt 7]) = Ok (df_precision o) | Err _ => False end) /\
  (match DimensionFormat_from (VList (b ++ [node "override_value" [VInt 7]; node "zzz" [VInt 1]])) with Ok o => (arg 1) (node "override_value" [VInt 7]) = Ok (df_overrideValue o) | Err _ => False end).
Proof. vm_compute. repeat split. Qed.

Theorem C41_DimensionStyle : marks DimensionStyle_from 1 ["keep_text_aligned"]%string "keep_text_aligned"%string true ds_keepTextAligned /\
  picks DimensionStyle_from 1 ["thickness"]%string "thickness"%string (arg 1) ds_thickness /\
  picks DimensionStyle_from 1 ["arrow_length"]%string "arrow_length"%string (arg 1) ds_arrowLength /\
  picks DimensionStyle_from 1 ["text_position_mode"]%string "text_position_mode"%string (arg 1) ds_textPositionMode /\
  picks DimensionStyle_from 1 ["extension_height"]%string "extension_height"%string (arg 1) ds_extensionHeight /\
  picks DimensionStyle_from 1 ["text_frame"]%string "text_frame"%string (arg 1) ds_textFrame /\
  picks DimensionStyle_from 1 ["extension_offset"]%string "extension_offset"%string (arg 1) ds_extensionOffset.
Proof. exact L_PickC.DimensionStyle_pick. Qed.
Print Assumptions C41_DimensionStyle.
Example C41_DimensionStyle_case : let b := [VStr $"style"; node "zzz" [VInt 1]] in
  (match DimensionStyle_from (VList (b ++ [VStr $"keep_text_aligned"; node "zzz" [VInt 1]])) with Ok o => ds_keepTextAligned o = true | Err _ => False end) /\
  (match DimensionStyle_from (VList (b ++ [node "thickness" [VInt 7]; node "zzz" [VInt 1]])) with Ok o => (arg 1) (node "thickness" [VInt 7]) = Ok (ds_thickness o) | Err _ => False end) /\
  (match DimensionStyle_from (VList (b ++ [node "arrow_length" [VInt 7]; node "zzz" [VInt 1]])) with Ok o => (arg 1) (node "arrow_length" [VInt 7]) = Ok (ds_arrowLength o) | Err _ => False end) /\
  (match DimensionStyle_from (VList (b ++ [node "text_position_mode" [VInt 7]; node "zzz" [VInt 1]])) with Ok o => (arg 1) (node "text_position_mode" [VInt 7]) = Ok (ds_textPositionMode o) | Err _ => False end) /\
  (match DimensionStyle_from (VList (b ++ [node "extension_height" [VInt 7]; node "zzz" [VInt 1]])) with Ok o => (arg 1) (node "extension_height" [VInt 7]) = Ok (ds_extensionHeight o) | Err _ => False end) /\
  (match DimensionStyle_from (VList (b ++ [node "text_frame" [VInt 7]; node "zzz" [VInt 1]])) with Ok o => (arg 1) (node "text_frame" [VInt 7]) = Ok (ds_textFrame o) | Err _ => False end) /\
  (match DimensionStyle_from (VList (b ++ [node "extension_offset" [VInt 7]; node "zzz" [VInt 1]])) with Ok o => (arg 1) (node "extension_offset" [VInt 7]) = Ok (ds_extensionOffset o) | Err _ => False end).
Proof. vm_compute. repeat split. Qed.

Theorem C41_Dimension : marks Dimension_from 1 ["locked"]%string "locked"%string true di_locked /\
  picks Dimension_from 1 ["type"]%string "type"%string (arg 1) di_type /\
  picks Dimension_from 1 ["layer"]%string "layer"%string (arg 1) di_layer /\
  picks Dimension_from 1 ["tstamp"]%string "tstamp"%string (arg 1) di_tstamp /\
  picks Dimension_from 1 ["height"]%string "height"%string (arg 1) di_height /\
  picks Dimension_from 1 ["orientation"]%string "orientation"%string (arg 1) di_orientation /\
  picks Dimension_from 1 ["leader_length"]%string "leader_length"%string (arg 1) di_leaderLength /\
  picks Dimension_from 1 ["gr_text"]%string "gr_text"%string (as_ Some GrText_from) di_grText /\
  picks Dimension_from 1 ["format"]%string "format"%string (as_ Some DimensionFormat_from) di_format /\
  picks Dimension_from 1 ["style"]%string "style"%string DimensionStyle_from di_style.
Proof. exact L_PickC.Dimension_pick. Qed.
Print Assumptions C41_Dimension.
Example C41_Dimension_case : let b := [VStr $"dimension"; node "zzz" [VInt 1]] in
  (match Dimension_from (VList (b ++ [VStr $"locked"; node "zzz" [VInt 1]])) with Ok o => di_locked o = true | Err _ => False end) /\
  (match Dimension_from (VList (b ++ [node "type" [VInt 7]; node "zzz" [VInt 1]])) with Ok o => (arg 1) (node "type" [VInt 7]) = Ok (di_type o) | Err _ => False end) /\
  (match Dimension_from (VList (b ++ [node "layer" [VInt 7]; node "zzz" [VInt 1]])) with Ok o => (arg 1) (node "layer" [VInt 7]) = Ok (di_layer o) | Err _ => False end) /\
  (match Dimension_from (VList (b ++ [node "tstamp" [VInt 7]; node "zzz" [VInt 1]])) with Ok o => (arg 1) (node "tstamp" [VInt 7]) = Ok (di_tstamp o) | Err _ => False end) /\
  (match Dimension_from (VList (b ++ [node "height" [VInt 7]; node "zzz" [VInt 1]])) with Ok o => (arg 1) (node "height" [VInt 7]) = Ok (di_height o) | Err _ => False end) /\
  (match Dimension_from (VList (b ++ [node "orientation" [VInt 7]; node "zzz" [VInt 1]])) with Ok o => (arg 1) (node "orientation" [VInt 7]) = Ok (di_orientation o) | Err _ => False end) /\
  (match Dimension_from (VList (b ++ [node "leader_length" [VInt 7]; node "zzz" [VInt 1]])) with Ok o => (arg 1) (node "leader_length" [VInt 7]) = Ok (di_leaderLength o) | Err _ => False end) /\
  (match Dimension_from (VList (b ++ [node "gr_text" [VInt 7]; node "zzz" [VInt 1]])) with Ok o => (as_ Some GrText_from) (node "gr_text" [VInt 7]) = Ok (di_grText o) | Err _ => False end) /\
  (match Dimension_from (VList (b ++ [node "format" [VInt 7]; node "zzz" [VInt 1]])) with Ok o => (as_ Some DimensionFormat_from) (node "format" [VInt 7]) = Ok (di_format o) | Err _ => False end) /\
  (match Dimension_from (VList (b ++ [node "style" [VInt 7]; node "zzz" [VInt 1]])) with Ok o => DimensionStyle_from (node "style" [VInt 7]) = Ok (di_style o) | Err _ => False end).
Proof. vm_compute. repeat split. Qed.

Theorem C41_GeneralSettings : picks GeneralSettings_from 0 ["thickness"]%string "thickness"%string (arg 1) gs_thickness.
Proof. exact L_PickC.GeneralSettings_pick. Qed.
Print Assumptions C41_GeneralSettings.
Example C41_GeneralSettings_case : let b := [VStr $"general"; node "zzz" [VInt 1]] in
  (match GeneralSettings_from (VList (b ++ [node "thickness" [VInt 7]; node "zzz" [VInt 1]])) with Ok o => (arg 1) (node "thickness" [VInt 7]) = Ok (gs_thickness o) | Err _ => False end).
Proof. vm_compute. repeat split. Qed.

Theorem C41_StackupLayer : picks_until StackupLayer_from 2 "addsublayer"%string ["type"]%string "type"%string (arg 1) sl_type /\
  picks_until StackupLayer_from 2 "addsublayer"%string ["thickness"]%string "thickness"%string (arg 1) sl_thickness /\
  picks_until StackupLayer_from 2 "addsublayer"%string ["material"]%string "material"%string (arg 1) sl_material /\
  picks_until StackupLayer_from 2 "addsublayer"%string ["epsilon_r"]%string "epsilon_r"%string (arg 1) sl_epsilonR /\
  picks_until StackupLayer_from 2 "addsublayer"%string ["loss_tangent"]%string "loss_tangent"%string (arg 1) sl_lossTangent /\
  picks_until StackupLayer_from 2 "addsublayer"%string ["color"]%string "color"%string (arg 1) sl_color.
Proof. exact L_PickC.StackupLayer_pick. Qed.
Print Assumptions C41_StackupLayer.
Example C41_StackupLayer_case : let b := [VStr $"layer"; VStr $"dielectric 1"; node "zzz" [VInt 1]] in
  (match StackupLayer_from (VList (b ++ [node "type" [VInt 7]; node "zzz" [VInt 1]])) with Ok o => (arg 1) (node "type" [VInt 7]) = Ok (sl_type o) | Err _ => False end) /\
  (match StackupLayer_from (VList (b ++ [node "thickness" [VInt 7]; node "zzz" [VInt 1]])) with Ok o => (arg 1) (node "thickness" [VInt 7]) = Ok (sl_thickness o) | Err _ => False end) /\
  (match StackupLayer_from (VList (b ++ [node "material" [VInt 7]; node "zzz" [VInt 1]])) with Ok o => (arg 1) (node "material" [VInt 7]) = Ok (sl_material o) | Err _ => False end) /\
  (match StackupLayer_from (VList (b ++ [node "epsilon_r" [VInt 7]; node "zzz" [VInt 1]])) with Ok o => (arg 1) (node "epsilon_r" [VInt 7]) = Ok (sl_epsilonR o) | Err _ => False end) /\
  (match StackupLayer_from (VList (b ++ [node "loss_tangent" [VInt 7]; node "zzz" [VInt 1]])) with Ok o => (arg 1) (node "loss_tangent" [VInt 7]) = Ok (sl_lossTangent o) | Err _ => False end) /\
  (match StackupLayer_from (VList (b ++ [node "color" [VInt 7]; node "zzz" [VInt 1]])) with Ok o => (arg 1) (node "color" [VInt 7]) = Ok (sl_color o) | Err _ => False end).
Proof. vm_compute. repeat split. Qed.

Theorem C41_Stackup : picks Stackup_from 0 ["copper_finish"]%string "copper_finish"%string (arg 1) sk_copperFinish /\
  picks Stackup_from 0 ["dielectric_constraints"]%string "dielectric_constraints"%string (arg 1) sk_dielectricContraints /\
  picks Stackup_from 0 ["edge_connector"]%string "edge_connector"%string (arg 1) sk_edgeConnector /\
  picks Stackup_from 0 ["castellated_pads"]%string "castellated_pads"%string (const true) sk_castellatedPads /\
  picks Stackup_from 0 ["edge_plating"]%string "edge_plating"%string (const true) sk_edgePlating.
Proof. exact L_PickC.Stackup_pick. Qed.
Print Assumptions C41_Stackup.
Example C41_Stackup_case : let b := [VStr $"stackup"; node "zzz" [VInt 1]] in
  (match Stackup_from (VList (b ++ [node "copper_finish" [VInt 7]; node "zzz" [VInt 1]])) with Ok o => (arg 1) (node "copper_finish" [VInt 7]) = Ok (sk_copperFinish o) | Err _ => False end) /\
  (match Stackup_from (VList (b ++ [node "dielectric_constraints" [VInt 7]; node "zzz" [VInt 1]])) with Ok o => (arg 1) (node "dielectric_constraints" [VInt 7]) = Ok (sk_dielectricContraints o) | Err _ => False end) /\
  (match Stackup_from (VList (b ++ [node "edge_connector" [VInt 7]; node "zzz" [VInt 1]])) with Ok o => (arg 1) (node "edge_connector" [VInt 7]) = Ok (sk_edgeConnector o) | Err _ => False end) /\
  (match Stackup_from (VList (b ++ [node "castellated_pads" [VInt 7]; node "zzz" [VInt 1]])) with Ok o => (const true) (node "castellated_pads" [VInt 7]) = Ok (sk_castellatedPads o) | Err _ => False end) /\
  (match Stackup_from (VList (b ++ [node "edge_plating" [VInt 7]; node "zzz" [VInt 1]])) with Ok o => (const true) (node "edge_plating" [VInt 7]) = Ok (sk_edgePlating o) | Err _ => False end).
Proof. vm_compute. repeat split. Qed.

Theorem C41_PlotSettings : picks PlotSettings_from 0 ["layerselection"]%string "layerselection"%string (arg 1) ps_layerSelection /\
  picks PlotSettings_from 0 ["plot_on_all_layers_selection"]%string "plot_on_all_layers_selection"%string (arg 1) ps_plotOnAllLayersSelection /\
  picks PlotSettings_from 0 ["disableapertmacros"]%string "disableapertmacros"%string (arg_is 1 "true"%string) ps_disableApertMacros /\
  picks PlotSettings_from 0 ["usegerberextensions"]%string "usegerberextensions"%string (arg_is 1 "true"%string) ps_useGerberExtensions /\
  picks PlotSettings_from 0 ["usegerberattributes"]%string "usegerberattributes"%string (arg_is 1 "true"%string) ps_useGerberAttributes /\
  picks PlotSettings_from 0 ["usegerberadvancedattributes"]%string "usegerberadvancedattributes"%string (arg_is 1 "true"%string) ps_useGerberAdvancedAttributes /\
  picks PlotSettings_from 0 ["creategerberjobfile"]%string "creategerberjobfile"%string (arg_is 1 "true"%string) ps_createGerberJobFile /\
  picks PlotSettings_from 0 ["dashed_line_dash_ratio"]%string "dashed_line_dash_ratio"%string (arg 1) ps_dashedLineDashRatio /\
  picks PlotSettings_from 0 ["dashed_line_gap_ratio"]%string "dashed_line_gap_ratio"%string (arg 1) ps_dashedLineGapRatio /\
  picks PlotSettings_from 0 ["svguseinch"]%string "svguseinch"%string (as_ Some (arg_is 1 "true"%string)) ps_svgUseInch /\
  picks PlotSettings_from 0 ["svgprecision"]%string "svgprecision"%string (arg 1) ps_svgPrecision /\
  picks PlotSettings_from 0 ["excludeedgelayer"]%string "excludeedgelayer"%string (as_ Some (arg_is 1 "true"%string)) ps_excludeEdgeLayer /\
  picks PlotSettings_from 0 ["plotframeref"]%string "plotframeref"%string (arg_is 1 "true"%string) ps_plotFameRef /\
  picks PlotSettings_from 0 ["viasonmask"]%string "viasonmask"%string (arg_is 1 "true"%string) ps_viasOnMask /\
  picks PlotSettings_from 0 ["mode"]%string "mode"%string (arg 1) ps_mode /\
  picks PlotSettings_from 0 ["useauxorigin"]%string "useauxorigin"%string (arg_is 1 "true"%string) ps_useAuxOrigin /\
  picks PlotSettings_from 0 ["hpglpennumber"]%string "hpglpennumber"%string (arg 1) ps_hpglPenNumber /\
  picks PlotSettings_from 0 ["hpglpenspeed"]%string "hpglpenspeed"%string (arg 1) ps_hpglPenSpeed /\
  picks PlotSettings_from 0 ["hpglpendiameter"]%string "hpglpendiameter"%string (arg 1) ps_hpglPenDiameter /\
  picks PlotSettings_from 0 ["dxfpolygonmode"]%string "dxfpolygonmode"%string (arg_is 1 "true"%string) ps_dxfPolygonMode /\
  picks PlotSettings_from 0 ["dxfimperialunits"]%string "dxfimperialunits"%string (arg_is 1 "true"%string) ps_dxfImperialUnits /\
  picks PlotSettings_from 0 ["dxfusepcbnewfont"]%string "dxfusepcbnewfont"%string (arg_is 1 "true"%string) ps_dxfUsePcbnewFont /\
  picks PlotSettings_from 0 ["psnegative"]%string "psnegative"%string (arg_is 1 "true"%string) ps_psNegative /\
  picks PlotSettings_from 0 ["psa4output"]%string "psa4output"%string (arg_is 1 "true"%string) ps_psA4Output /\
  picks PlotSettings_from 0 ["plotreference"]%string "plotreference"%string (arg_is 1 "true"%string) ps_plotReference /\
  picks PlotSettings_from 0 ["plotvalue"]%string "plotvalue"%string (arg_is 1 "true"%string) ps_plotValue /\
  picks PlotSettings_from 0 ["plotinvisibletext"]%string "plotinvisibletext"%string (arg_is 1 "true"%string) ps_plotInvisibleText /\
  picks PlotSettings_from 0 ["sketchpadsonfab"]%string "sketchpadsonfab"%string (arg_is 1 "true"%string) ps_sketchPadsOnFab /\
  picks PlotSettings_from 0 ["subtractmaskfromsilk"]%string "subtractmaskfromsilk"%string (arg_is 1 "true"%string) ps_subtractMaskFromSilk /\
  picks PlotSettings_from 0 ["outputformat"]%string "outputformat"%string (arg 1) ps_outputFormat /\
  picks PlotSettings_from 0 ["mirror"]%string "mirror"%string (arg_is 1 "true"%string) ps_mirror /\
  picks PlotSettings_from 0 ["drillshape"]%string "drillshape"%string (arg 1) ps_drillShape /\
  picks PlotSettings_from 0 ["scaleselection"]%string "scaleselection"%string (arg 1) ps_scaleSelection /\
  picks PlotSettings_from 0 ["outputdirectory"]%string "outputdirectory"%string (arg 1) ps_outputDirectory.
Proof. exact L_PickC.PlotSettings_pick. Qed.
Print Assumptions C41_PlotSettings.
Example C41_PlotSettings_case : let b := [VStr $"pcbplotparams"; node "zzz" [VInt 1]] in
  (match PlotSettings_from (VList (b ++ [node "layerselection" [VInt 7]; node "zzz" [VInt 1]])) with Ok o => (arg 1) (node "layerselection" [VInt 7]) = Ok (ps_layerSelection o) | Err _ => False end) /\
  (match PlotSettings_from (VList (b ++ [node "plot_on_all_layers_selection" [VInt 7]; node "zzz" [VInt 1]])) with Ok o => (arg 1) (node "plot_on_all_layers_selection" [VInt 7]) = Ok (ps_plotOnAllLayersSelection o) | Err _ => False end) /\
  (match PlotSettings_from (VList (b ++ [node "disableapertmacros" [VInt 7]; node "zzz" [VInt 1]])) with Ok o => (arg_is 1 "true"%string) (node "disableapertmacros" [VInt 7]) = Ok (ps_disableApertMacros o) | Err _ => False end) /\
  (match PlotSettings_from (VList (b ++ [node "usegerberextensions" [VInt 7]; node "zzz" [VInt 1]])) with Ok o => (arg_is 1 "true"%string) (node "usegerberextensions" [VInt 7]) = Ok (ps_useGerberExtensions o) | Err _ => False end) /\
  (match PlotSettings_from (VList (b ++ [node "usegerberattributes" [VInt 7]; node "zzz" [VInt 1]])) with Ok o => (arg_is 1 "true"%string) (node "usegerberattributes" [VInt 7]) = Ok (ps_useGerberAttributes o) | Err _ => False end) /\
  (match PlotSettings_from (VList (b ++ [node "usegerberadvancedattributes" [VInt 7]; node "zzz" [VInt 1]])) with Ok o => (arg_is 1 "true"%string) (node "usegerberadvancedattributes" [VInt 7]) = Ok (ps_useGerberAdvancedAttributes o) | Err _ => False end) /\
  (match PlotSettings_from (VList (b ++ [node "creategerberjobfile" [VInt 7]; node "zzz" [VInt 1]])) with Ok o => (arg_is 1 "true"%string) (node "creategerberjobfile" [VInt 7]) = Ok (ps_createGerberJobFile o) | Err _ => False end) /\
  (match PlotSettings_from (VList (b ++ [node "dashed_line_dash_ratio" [VInt 7]; node "zzz" [VInt 1]])) with Ok o => (arg 1) (node "dashed_line_dash_ratio" [VInt 7]) = Ok (ps_dashedLineDashRatio o) | Err _ => False end) /\
  (match PlotSettings_from (VList (b ++ [node "dashed_line_gap_ratio" [VInt 7]; node "zzz" [VInt 1]])) with Ok o => (arg 1) (node "dashed_line_gap_ratio" [VInt 7]) = Ok (ps_dashedLineGapRatio o) | Err _ => False end) /\
  (match PlotSettings_from (VList (b ++ [node "svguseinch" [VInt 7]; node "zzz" [VInt 1]])) with Ok o => (as_ Some (arg_is 1 "true"%string)) (node "svguseinch" [VInt 7]) = Ok (ps_svgUseInch o) | Err _ => False end) /\
  (match PlotSettings_from (VList (b ++ [node "svgprecision" [VInt 7]; node "zzz" [VInt 1]])) with Ok o => (arg 1) (node "svgprecision" [VInt 7]) = Ok (ps_svgPrecision o) | Err _ => False end) /\
  (match PlotSettings_from (VList (b ++ [node "excludeedgelayer" [VInt 7]; node "zzz" [VInt 1]])) with Ok o => (as_ Some (arg_is 1 "true"%string)) (node "excludeedgelayer" [VInt 7]) = Ok (ps_excludeEdgeLayer o) | Err _ => False end) /\
  (match PlotSettings_from (VList (b ++ [node "plotframeref" [VInt 7]; node "zzz" [VInt 1]])) with Ok o => (arg_is 1 "true"%string) (node "plotframeref" [VInt 7]) = Ok (ps_plotFameRef o) | Err _ => False end) /\
  (match PlotSettings_from (VList (b ++ [node "viasonmask" [VInt 7]; node "zzz" [VInt 1]])) with Ok o => (arg_is 1 "true"%string) (node "viasonmask" [VInt 7]) = Ok (ps_viasOnMask o) | Err _ => False end) /\
  (match PlotSettings_from (VList (b ++ [node "mode" [VInt 7]; node "zzz" [VInt 1]])) with Ok o => (arg 1) (node "mode" [VInt 7]) = Ok (ps_mode o) | Err _ => False end) /\
  (match PlotSettings_from (VList (b ++ [node "useauxorigin" [VInt 7]; node "zzz" [VInt 1]])) with Ok o => (arg_is 1 "true"%string) (node "useauxorigin" [VInt 7]) = Ok (ps_useAuxOrigin o) | Err _ => False end) /\
  (match PlotSettings_from (VList (b ++ [node "hpglpennumber" [VInt 7]; node "zzz" [VInt 1]])) with Ok o => (arg 1) (node "hpglpennumber" [VInt 7]) = Ok (ps_hpglPenNumber o) | Err _ => False end) /\
  (match PlotSettings_from (VList (b ++ [node "hpglpenspeed" [VInt 7]; node "zzz" [VInt 1]])) with Ok o => (arg 1) (node "hpglpenspeed" [VInt 7]) = Ok (ps_hpglPenSpeed o) | Err _ => False end) /\
  (match PlotSettings_from (VList (b ++ [node "hpglpendiameter" [VInt 7]; node "zzz" [VInt 1]])) with Ok o => (arg 1) (node "hpglpendiameter" [VInt 7]) = Ok (ps_hpglPenDiameter o) | Err _ => False end) /\
  (match PlotSettings_from (VList (b ++ [node "dxfpolygonmode" [VInt 7]; node "zzz" [VInt 1]])) with Ok o => (arg_is 1 "true"%string) (node "dxfpolygonmode" [VInt 7]) = Ok (ps_dxfPolygonMode o) | Err _ => False end) /\
  (match PlotSettings_from (VList (b ++ [node "dxfimperialunits" [VInt 7]; node "zzz" [VInt 1]])) with Ok o => (arg_is 1 "true"%string) (node "dxfimperialunits" [VInt 7]) = Ok (ps_dxfImperialUnits o) | Err _ => False end) /\
  (match PlotSettings_from (VList (b ++ [node "dxfusepcbnewfont" [VInt 7]; node "zzz" [VInt 1]])) with Ok o => (arg_is 1 "true"%string) (node "dxfusepcbnewfont" [VInt 7]) = Ok (ps_dxfUsePcbnewFont o) | Err _ => False end) /\
  (match PlotSettings_from (VList (b ++ [node "psnegative" [VInt 7]; node "zzz" [VInt 1]])) with Ok o => (arg_is 1 "true"%string) (node "psnegative" [VInt 7]) = Ok (ps_psNegative o) | Err _ => False end) /\
  (match PlotSettings_from (VList (b ++ [node "psa4output" [VInt 7]; node "zzz" [VInt 1]])) with Ok o => (arg_is 1 "true"%string) (node "psa4output" [VInt 7]) = Ok (ps_psA4Output o) | Err _ => False end) /\
  (match PlotSettings_from (VList (b ++ [node "plotreference" [VInt 7]; node "zzz" [VInt 1]])) with Ok o => (arg_is 1 "true"%string) (node "plotreference" [VInt 7]) = Ok (ps_plotReference o) | Err _ => False end) /\
  (match PlotSettings_from (VList (b ++ [node "plotvalue" [VInt 7]; node "zzz" [VInt 1]])) with Ok o => (arg_is 1 "true"%string) (node "plotvalue" [VInt 7]) = Ok (ps_plotValue o) | Err _ => False end) /\
  (match PlotSettings_from (VList (b ++ [node "plotinvisibletext" [VInt 7]; node "zzz" [VInt 1]])) with Ok o => (arg_is 1 "true"%string) (node "plotinvisibletext" [VInt 7]) = Ok (ps_plotInvisibleText o) | Err _ => False end) /\
  (match PlotSettings_from (VList (b ++ [node "sketchpadsonfab" [VInt 7]; node "zzz" [VInt 1]])) with Ok o => (arg_is 1 "true"%string) (node "sketchpadsonfab" [VInt 7]) = Ok (ps_sketchPadsOnFab o) | Err _ => False end) /\
  (match PlotSettings_from (VList (b ++ [node "subtractmaskfromsilk" [VInt 7]; node "zzz" [VInt 1]])) with Ok o => (arg_is 1 "true"%string) (node "subtractmaskfromsilk" [VInt 7]) = Ok (ps_subtractMaskFromSilk o) | Err _ => False end) /\
  (match PlotSettings_from (VList (b ++ [node "outputformat" [VInt 7]; node "zzz" [VInt 1]])) with Ok o => (arg 1) (node "outputformat" [VInt 7]) = Ok (ps_outputFormat o) | Err _ => False end) /\
  (match PlotSettings_from (VList (b ++ [node "mirror" [VInt 7]; node "zzz" [VInt 1]])) with Ok o => (arg_is 1 "true"%string) (node "mirror" [VInt 7]) = Ok (ps_mirror o) | Err _ => False end) /\
  (match PlotSettings_from (VList (b ++ [node "drillshape" [VInt 7]; node "zzz" [VInt 1]])) with Ok o => (arg 1) (node "drillshape" [VInt 7]) = Ok (ps_drillShape o) | Err _ => False end) /\
  (match PlotSettings_from (VList (b ++ [node "scaleselection" [VInt 7]; node "zzz" [VInt 1]])) with Ok o => (arg 1) (node "scaleselection" [VInt 7]) = Ok (ps_scaleSelection o) | Err _ => False end) /\
  (match PlotSettings_from (VList (b ++ [node "outputdirectory" [VInt 7]; node "zzz" [VInt 1]])) with Ok o => (arg 1) (node "outputdirectory" [VInt 7]) = Ok (ps_outputDirectory o) | Err _ => False end).
Proof. vm_compute. repeat split. Qed.

Theorem C41_SetupData : picks SetupData_from 0 ["stackup"]%string "stackup"%string (as_ Some Stackup_from) sd_stackup /\
  picks SetupData_from 0 ["pcbplotparams"]%string "pcbplotparams"%string (as_ Some PlotSettings_from) sd_plotSettings /\
  picks SetupData_from 0 ["pad_to_mask_clearance"]%string "pad_to_mask_clearance"%string (arg 1) sd_packToMaskClearance /\
  picks SetupData_from 0 ["solder_mask_min_width"]%string "solder_mask_min_width"%string (arg 1) sd_solderMaskMinWidth /\
  picks SetupData_from 0 ["pad_to_paste_clearance"]%string "pad_to_paste_clearance"%string (arg 1) sd_padToPasteClearance /\
  picks SetupData_from 0 ["pad_to_paste_clearance_ratio"]%string "pad_to_paste_clearance_ratio"%string (arg 1) sd_padToPasteClearanceRatio /\
  picks SetupData_from 0 ["aux_axis_origin"]%string "aux_axis_origin"%string (as_ Some Position_from) sd_auxAxisOrigin /\
  picks SetupData_from 0 ["grid_origin"]%string "grid_origin"%string (as_ Some Position_from) sd_gridOrigin.
Proof. exact L_PickC.SetupData_pick. Qed.
Print Assumptions C41_SetupData.
Example C41_SetupData_case : let b := [VStr $"setup"; node "zzz" [VInt 1]] in
  (match SetupData_from (VList (b ++ [node "stackup" [VStr $"yes"]; node "zzz" [VInt 1]])) with Ok o => (as_ Some Stackup_from) (node "stackup" [VStr $"yes"]) = Ok (sd_stackup o) | Err _ => False end) /\
  (match SetupData_from (VList (b ++ [node "pcbplotparams" [VStr $"yes"]; node "zzz" [VInt 1]])) with Ok o => (as_ Some PlotSettings_from) (node "pcbplotparams" [VStr $"yes"]) = Ok (sd_plotSettings o) | Err _ => False end) /\
  (match SetupData_from (VList (b ++ [node "pad_to_mask_clearance" [VInt 7]; node "zzz" [VInt 1]])) with Ok o => (arg 1) (node "pad_to_mask_clearance" [VInt 7]) = Ok (sd_packToMaskClearance o) | Err _ => False end) /\
  (match SetupData_from (VList (b ++ [node "solder_mask_min_width" [VInt 7]; node "zzz" [VInt 1]])) with Ok o => (arg 1) (node "solder_mask_min_width" [VInt 7]) = Ok (sd_solderMaskMinWidth o) | Err _ => False end) /\
  (match SetupData_from (VList (b ++ [node "pad_to_paste_clearance" [VInt 7]; node "zzz" [VInt 1]])) with Ok o => (arg 1) (node "pad_to_paste_clearance" [VInt 7]) = Ok (sd_padToPasteClearance o) | Err _ => False end) /\
  (match SetupData_from (VList (b ++ [node "pad_to_paste_clearance_ratio" [VInt 7]; node "zzz" [VInt 1]])) with Ok o => (arg 1) (node "pad_to_paste_clearance_ratio" [VInt 7]) = Ok (sd_padToPasteClearanceRatio o) | Err _ => False end) /\
  (match SetupData_from (VList (b ++ [node "aux_axis_origin" [VInt 7; VInt 8]; node "zzz" [VInt 1]])) with Ok o => (as_ Some Position_from) (node "aux_axis_origin" [VInt 7; VInt 8]) = Ok (sd_auxAxisOrigin o) | Err _ => False end) /\
  (match SetupData_from (VList (b ++ [node "grid_origin" [VInt 7; VInt 8]; node "zzz" [VInt 1]])) with Ok o => (as_ Some Position_from) (node "grid_origin" [VInt 7; VInt 8]) = Ok (sd_gridOrigin o) | Err _ => False end).
Proof. vm_compute. repeat split. Qed.

Theorem C41_Segment : marks Segment_from 0 ["locked"]%string "locked"%string true sg_locked /\
  picks Segment_from 0 ["start"]%string "start"%string Position_from sg_start /\
  picks Segment_from 0 ["end"]%string "end"%string Position_from sg_end /\
  picks Segment_from 0 ["width"]%string "width"%string (arg 1) sg_width /\
  picks Segment_from 0 ["layer"]%string "layer"%string (arg 1) sg_layer /\
  picks Segment_from 0 ["net"]%string "net"%string (arg 1) sg_net /\
  picks Segment_from 0 ["tstamp"]%string "tstamp"%string (arg 1) sg_tstamp.
Proof. exact L_PickC.Segment_pick. Qed.
Print Assumptions C41_Segment.
Example C41_Segment_case : let b := [VStr $"segment"; node "zzz" [VInt 1]] in
  (match Segment_from (VList (b ++ [VStr $"locked"; node "zzz" [VInt 1]])) with Ok o => sg_locked o = true | Err _ => False end) /\
  (match Segment_from (VList (b ++ [node "start" [VInt 7; VInt 8]; node "zzz" [VInt 1]])) with Ok o => Position_from (node "start" [VInt 7; VInt 8]) = Ok (sg_start o) | Err _ => False end) /\
  (match Segment_from (VList (b ++ [node "end" [VInt 7; VInt 8]; node "zzz" [VInt 1]])) with Ok o => Position_from (node "end" [VInt 7; VInt 8]) = Ok (sg_end o) | Err _ => False end) /\
  (match Segment_from (VList (b ++ [node "width" [VInt 7]; node "zzz" [VInt 1]])) with Ok o => (arg 1) (node "width" [VInt 7]) = Ok (sg_width o) | Err _ => False end) /\
  (match Segment_from (VList (b ++ [node "layer" [VInt 7]; node "zzz" [VInt 1]])) with Ok o => (arg 1) (node "layer" [VInt 7]) = Ok (sg_layer o) | Err _ => False end) /\
  (match Segment_from (VList (b ++ [node "net" [VInt 7]; node "zzz" [VInt 1]])) with Ok o => (arg 1) (node "net" [VInt 7]) = Ok (sg_net o) | Err _ => False end) /\
  (match Segment_from (VList (b ++ [node "tstamp" [VInt 7]; node "zzz" [VInt 1]])) with Ok o => (arg 1) (node "tstamp" [VInt 7]) = Ok (sg_tstamp o) | Err _ => False end).
Proof. vm_compute. repeat split. Qed.

Theorem C41_Via : marks Via_from 0 ["locked"]%string "locked"%string true vi_locked /\
  marks Via_from 0 ["micro"; "blind"]%string "micro"%string (VStr $"micro") vi_type /\
  marks Via_from 0 ["micro"; "blind"]%string "blind"%string (VStr $"blind") vi_type /\
  picks Via_from 0 ["at"]%string "at"%string Position_from vi_position /\
  picks Via_from 0 ["size"]%string "size"%string (arg 1) vi_size /\
  picks Via_from 0 ["drill"]%string "drill"%string (arg 1) vi_drill /\
  picks Via_from 0 ["remove_unused_layers"]%string "remove_unused_layers"%string (const true) vi_removeUnusedLayers /\
  picks Via_from 0 ["keep_end_layers"]%string "keep_end_layers"%string (const true) vi_keepEndLayers /\
  picks Via_from 0 ["free"]%string "free"%string (const true) vi_free /\
  picks Via_from 0 ["net"]%string "net"%string (arg 1) vi_net /\
  picks Via_from 0 ["tstamp"]%string "tstamp"%string (arg 1) vi_tstamp.
Proof. exact L_PickC.Via_pick. Qed.
Print Assumptions C41_Via.
Example C41_Via_case : let b := [VStr $"via"; node "zzz" [VInt 1]] in
  (match Via_from (VList (b ++ [VStr $"locked"; node "zzz" [VInt 1]])) with Ok o => vi_locked o = true | Err _ => False end) /\
  (match Via_from (VList (b ++ [VStr $"micro"; node "zzz" [VInt 1]])) with Ok o => vi_type o = (VStr $"micro") | Err _ => False end) /\
  (match Via_from (VList (b ++ [VStr $"blind"; node "zzz" [VInt 1]])) with Ok o => vi_type o = (VStr $"blind") | Err _ => False end) /\
  (match Via_from (VList (b ++ [node "at" [VInt 7; VInt 8]; node "zzz" [VInt 1]])) with Ok o => Position_from (node "at" [VInt 7; VInt 8]) = Ok (vi_position o) | Err _ => False end) /\
  (match Via_from (VList (b ++ [node "size" [VInt 7]; node "zzz" [VInt 1]])) with Ok o => (arg 1) (node "size" [VInt 7]) = Ok (vi_size o) | Err _ => False end) /\
  (match Via_from (VList (b ++ [node "drill" [VInt 7]; node "zzz" [VInt 1]])) with Ok o => (arg 1) (node "drill" [VInt 7]) = Ok (vi_drill o) | Err _ => False end) /\
  (match Via_from (VList (b ++ [node "remove_unused_layers" [VInt 7]; node "zzz" [VInt 1]])) with Ok o => (const true) (node "remove_unused_layers" [VInt 7]) = Ok (vi_removeUnusedLayers o) | Err _ => False end) /\
  (match Via_from (VList (b ++ [node "keep_end_layers" [VInt 7]; node "zzz" [VInt 1]])) with Ok o => (const true) (node "keep_end_layers" [VInt 7]) = Ok (vi_keepEndLayers o) | Err _ => False end) /\
  (match Via_from (VList (b ++ [node "free" [VInt 7]; node "zzz" [VInt 1]])) with Ok o => (const true) (node "free" [VInt 7]) = Ok (vi_free o) | Err _ => False end) /\
  (match Via_from (VList (b ++ [node "net" [VInt 7]; node "zzz" [VInt 1]])) with Ok o => (arg 1) (node "net" [VInt 7]) = Ok (vi_net o) | Err _ => False end) /\
  (match Via_from (VList (b ++ [node "tstamp" [VInt 7]; node "zzz" [VInt 1]])) with Ok o => (arg 1) (node "tstamp" [VInt 7]) = Ok (vi_tstamp o) | Err _ => False end).
Proof. vm_compute. repeat split. Qed.

Theorem C41_Arc : marks Arc_from 0 ["locked"]%string "locked"%string true ac_locked /\
  picks Arc_from 0 ["start"]%string "start"%string Position_from ac_start /\
  picks Arc_from 0 ["mid"]%string "mid"%string Position_from ac_mid /\
  picks Arc_from 0 ["end"]%string "end"%string Position_from ac_end /\
  picks Arc_from 0 ["width"]%string "width"%string (arg 1) ac_width /\
  picks Arc_from 0 ["layer"]%string "layer"%string (arg 1) ac_layer /\
  picks Arc_from 0 ["net"]%string "net"%string (arg 1) ac_net /\
  picks Arc_from 0 ["tstamp"]%string "tstamp"%string (arg 1) ac_tstamp.
Proof. exact L_PickC.Arc_pick. Qed.
Print Assumptions C41_Arc.
Example C41_Arc_case : let b := [VStr $"arc"; node "zzz" [VInt 1]] in
  (match Arc_from (VList (b ++ [VStr $"locked"; node "zzz" [VInt 1]])) with Ok o => ac_locked o = true | Err _ => False end) /\
  (match Arc_from (VList (b ++ [node "start" [VInt 7; VInt 8]; node "zzz" [VInt 1]])) with Ok o => Position_from (node "start" [VInt 7; VInt 8]) = Ok (ac_start o) | Err _ => False end) /\
  (match Arc_from (VList (b ++ [node "mid" [VInt 7; VInt 8]; node "zzz" [VInt 1]])) with Ok o => Position_from (node "mid" [VInt 7; VInt 8]) = Ok (ac_mid o) | Err _ => False end) /\
  (match Arc_from (VList (b ++ [node "end" [VInt 7; VInt 8]; node "zzz" [VInt 1]])) with Ok o => Position_from (node "end" [VInt 7; VInt 8]) = Ok (ac_end o) | Err _ => False end) /\
  (match Arc_from (VList (b ++ [node "width" [VInt 7]; node "zzz" [VInt 1]])) with Ok o => (arg 1) (node "width" [VInt 7]) = Ok (ac_width o) | Err _ => False end) /\
  (match Arc_from (VList (b ++ [node "layer" [VInt 7]; node "zzz" [VInt 1]])) with Ok o => (arg 1) (node "layer" [VInt 7]) = Ok (ac_layer o) | Err _ => False end) /\
  (match Arc_from (VList (b ++ [node "net" [VInt 7]; node "zzz" [VInt 1]])) with Ok o => (arg 1) (node "net" [VInt 7]) = Ok (ac_net o) | Err _ => False end) /\
  (match Arc_from (VList (b ++ [node "tstamp" [VInt 7]; node "zzz" [VInt 1]])) with Ok o => (arg 1) (node "tstamp" [VInt 7]) = Ok (ac_tstamp o) | Err _ => False end).
Proof. vm_compute. repeat split. Qed.

Theorem C41_Target : picks Target_from 2 ["at"]%string "at"%string Position_from tg_position /\
  picks Target_from 2 ["size"]%string "size"%string (arg 1) tg_size /\
  picks Target_from 2 ["width"]%string "width"%string (arg 1) tg_width /\
  picks Target_from 2 ["layer"]%string "layer"%string (arg 1) tg_layer /\
  picks Target_from 2 ["tstamp"]%string "tstamp"%string (arg 1) tg_tstamp.
Proof. exact L_PickC.Target_pick. Qed.
Print Assumptions C41_Target.
Example C41_Target_case : let b := [VStr $"target"; VStr $"F"; node "zzz" [VInt 1]] in
  (match Target_from (VList (b ++ [node "at" [VInt 7; VInt 8]; node "zzz" [VInt 1]])) with Ok o => Position_from (node "at" [VInt 7; VInt 8]) = Ok (tg_position o) | Err _ => False end) /\
  (match Target_from (VList (b ++ [node "size" [VInt 7]; node "zzz" [VInt 1]])) with Ok o => (arg 1) (node "size" [VInt 7]) = Ok (tg_size o) | Err _ => False end) /\
  (match Target_from (VList (b ++ [node "width" [VInt 7]; node "zzz" [VInt 1]])) with Ok o => (arg 1) (node "width" [VInt 7]) = Ok (tg_width o) | Err _ => False end) /\
  (match Target_from (VList (b ++ [node "layer" [VInt 7]; node "zzz" [VInt 1]])) with Ok o => (arg 1) (node "layer" [VInt 7]) = Ok (tg_layer o) | Err _ => False end) /\
  (match Target_from (VList (b ++ [node "tstamp" [VInt 7]; node "zzz" [VInt 1]])) with Ok o => (arg 1) (node "tstamp" [VInt 7]) = Ok (tg_tstamp o) | Err _ => False end).
Proof. vm_compute. repeat split. Qed.

Theorem C41_Board now : picks (Board_from now) 0 ["version"]%string "version"%string (arg 1) bd_version /\
  picks (Board_from now) 0 ["generator"]%string "generator"%string (arg 1) bd_generator /\
  picks (Board_from now) 0 ["general"]%string "general"%string GeneralSettings_from bd_general /\
  picks (Board_from now) 0 ["paper"]%string "paper"%string PageSettings_from bd_paper /\
  picks (Board_from now) 0 ["title_block"]%string "title_block"%string (as_ Some TitleBlock_from) bd_titleBlock /\
  picks (Board_from now) 0 ["setup"]%string "setup"%string SetupData_from bd_setup.
Proof. exact (L_PickC.Board_pick now). Qed.
Print Assumptions C41_Board.
Example C41_Board_case : let b := [VStr $"kicad_pcb"; node "zzz" [VInt 1]] in
  (match (Board_from (VStr [])) (VList (b ++ [node "version" [VInt 7]; node "zzz" [VInt 1]])) with Ok o => (arg 1) (node "version" [VInt 7]) = Ok (bd_version o) | Err _ => False end) /\
  (match (Board_from (VStr [])) (VList (b ++ [node "generator" [VInt 7]; node "zzz" [VInt 1]])) with Ok o => (arg 1) (node "generator" [VInt 7]) = Ok (bd_generator o) | Err _ => False end) /\
  (match (Board_from (VStr [])) (VList (b ++ [node "general" [VStr $"yes"]; node "zzz" [VInt 1]])) with Ok o => GeneralSettings_from (node "general" [VStr $"yes"]) = Ok (bd_general o) | Err _ => False end) /\
  (match (Board_from (VStr [])) (VList (b ++ [node "paper" [VInt 7]; node "zzz" [VInt 1]])) with Ok o => PageSettings_from (node "paper" [VInt 7]) = Ok (bd_paper o) | Err _ => False end) /\
  (match (Board_from (VStr [])) (VList (b ++ [node "title_block" [VStr $"yes"]; node "zzz" [VInt 1]])) with Ok o => (as_ Some TitleBlock_from) (node "title_block" [VStr $"yes"]) = Ok (bd_titleBlock o) | Err _ => False end) /\
  (match (Board_from (VStr [])) (VList (b ++ [node "setup" [VStr $"yes"]; node "zzz" [VInt 1]])) with Ok o => SetupData_from (node "setup" [VStr $"yes"]) = Ok (bd_setup o) | Err _ => False end).
Proof. vm_compute. repeat split. Qed.
