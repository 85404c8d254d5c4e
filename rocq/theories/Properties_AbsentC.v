(** Missing tokens: what the readers put in place of a token that does not occur (C38). Each [case] is an
    expression without any of the keys of the theorem that the reader accepts. *)
From Verif Require Import PyBase PyNum PyStr Sexpr S_Leaf S_Tree S_Reader M_Common M_Lib M_Sym M_Fp M_Gr M_Zone M_Footprint M_Dim M_Brd M_Board.
From Verif Require L_AbsentC.

Theorem C38_DimensionFormat : absent DimensionFormat_from ["prefix"]%string df_prefix VNone /\
  absent DimensionFormat_from ["suffix"]%string df_suffix VNone /\
  absent DimensionFormat_from ["units"]%string df_units (VInt 3) /\
  absent DimensionFormat_from ["units_format"]%string df_unitsFormat (VInt 1) /\
  absent DimensionFormat_from ["precision"]%string df_precision (VInt 4) /\
  absent DimensionFormat_from ["override_value"]%string df_overrideValue VNone /\
  absent DimensionFormat_from ["suppress_zeroes"]%string df_suppressZeroes false.
Proof. exact L_AbsentC.DimensionFormat_absent. Qed.
Print Assumptions C38_DimensionFormat.
Example C38_DimensionFormat_case : let items := [VStr $"format"; node "zzz" [VInt 1]] in
  (lacks ["prefix"; "suffix"; "units"; "units_format"; "precision"; "override_value"; "suppress_zeroes"]%string items && accepts (DimensionFormat_from) (VList items))%bool = true.
Proof. vm_compute. reflexivity. Qed.

Theorem C38_DimensionStyle : absent DimensionStyle_from ["thickness"]%string ds_thickness (fdec 0 0) /\
  absent DimensionStyle_from ["arrow_length"]%string ds_arrowLength (fdec 0 0) /\
  absent DimensionStyle_from ["text_position_mode"]%string ds_textPositionMode (VInt 0) /\
  absent DimensionStyle_from ["extension_height"]%string ds_extensionHeight VNone /\
  absent DimensionStyle_from ["text_frame"]%string ds_textFrame VNone /\
  absent DimensionStyle_from ["extension_offset"]%string ds_extensionOffset VNone /\
  absent DimensionStyle_from ["keep_text_aligned"]%string ds_keepTextAligned false.
Proof. exact L_AbsentC.DimensionStyle_absent. Qed.
Print Assumptions C38_DimensionStyle.
Example C38_DimensionStyle_case : let items := [VStr $"style"; node "zzz" [VInt 1]] in
  (lacks ["thickness"; "arrow_length"; "text_position_mode"; "extension_height"; "text_frame"; "extension_offset"; "keep_text_aligned"]%string items && accepts (DimensionStyle_from) (VList items))%bool = true.
Proof. vm_compute. reflexivity. Qed.

Theorem C38_Dimension : absent Dimension_from ["locked"]%string di_locked false /\
  absent Dimension_from ["type"]%string di_type (VStr $"aligned") /\
  absent Dimension_from ["layer"]%string di_layer (VStr $"F.Cu") /\
  absent Dimension_from ["tstamp"]%string di_tstamp VNone /\
  absent Dimension_from ["pts"]%string di_pts [] /\
  absent Dimension_from ["height"]%string di_height VNone /\
  absent Dimension_from ["orientation"]%string di_orientation VNone /\
  absent Dimension_from ["leader_length"]%string di_leaderLength VNone /\
  absent Dimension_from ["gr_text"]%string di_grText None /\
  absent Dimension_from ["format"]%string di_format None /\
  absent Dimension_from ["style"]%string di_style (mkDimensionStyle (fdec 0 0) (fdec 0 0) (VInt 0) VNone VNone VNone false).
Proof. exact L_AbsentC.Dimension_absent. Qed.
Print Assumptions C38_Dimension.
Example C38_Dimension_case : let items := [VStr $"dimension"; node "zzz" [VInt 1]] in
  (lacks ["locked"; "type"; "layer"; "tstamp"; "pts"; "height"; "orientation"; "leader_length"; "gr_text"; "format"; "style"]%string items && accepts (Dimension_from) (VList items))%bool = true.
Proof. vm_compute. reflexivity. Qed.

Theorem C38_GeneralSettings : absent GeneralSettings_from ["thickness"]%string gs_thickness (fdec 16 (-1)).
Proof. exact L_AbsentC.GeneralSettings_absent. Qed.
Print Assumptions C38_GeneralSettings.
Example C38_GeneralSettings_case : let items := [VStr $"general"; node "zzz" [VInt 1]] in
  (lacks ["thickness"]%string items && accepts (GeneralSettings_from) (VList items))%bool = true.
Proof. vm_compute. reflexivity. Qed.

Theorem C38_StackupLayer : absent StackupLayer_from ["type"%string] sl_type (VStr []) /\
  absent StackupLayer_from ["color"%string] sl_color VNone /\
  absent StackupLayer_from ["thickness"%string] sl_thickness VNone /\
  absent StackupLayer_from ["material"%string] sl_material VNone /\
  absent StackupLayer_from ["epsilon_r"%string] sl_epsilonR VNone /\
  absent StackupLayer_from ["loss_tangent"%string] sl_lossTangent VNone /\
  absent StackupLayer_from ["addsublayer"%string] sl_subLayers [].
Proof. exact L_AbsentC.StackupLayer_absent. Qed.
Print Assumptions C38_StackupLayer.
Example C38_StackupLayer_case : let items := [VStr $"layer"; VStr $"dielectric 1"; node "zzz" [VInt 1]] in
  (lacks ["type"; "color"; "thickness"; "material"; "epsilon_r"; "loss_tangent"; "addsublayer"]%string items && accepts (StackupLayer_from) (VList items))%bool = true.
Proof. vm_compute. reflexivity. Qed.

Theorem C38_Stackup : absent Stackup_from ["layer"]%string sk_layers [] /\
  absent Stackup_from ["copper_finish"]%string sk_copperFinish VNone /\
  absent Stackup_from ["dielectric_constraints"]%string sk_dielectricContraints VNone /\
  absent Stackup_from ["edge_connector"]%string sk_edgeConnector VNone /\
  absent Stackup_from ["castellated_pads"]%string sk_castellatedPads false /\
  absent Stackup_from ["edge_plating"]%string sk_edgePlating false.
Proof. exact L_AbsentC.Stackup_absent. Qed.
Print Assumptions C38_Stackup.
Example C38_Stackup_case : let items := [VStr $"stackup"; node "zzz" [VInt 1]] in
  (lacks ["layer"; "copper_finish"; "dielectric_constraints"; "edge_connector"; "castellated_pads"; "edge_plating"]%string items && accepts (Stackup_from) (VList items))%bool = true.
Proof. vm_compute. reflexivity. Qed.

Theorem C38_PlotSettings : absent PlotSettings_from ["layerselection"]%string ps_layerSelection (VStr []) /\
  absent PlotSettings_from ["plot_on_all_layers_selection"]%string ps_plotOnAllLayersSelection VNone /\
  absent PlotSettings_from ["disableapertmacros"]%string ps_disableApertMacros false /\
  absent PlotSettings_from ["usegerberextensions"]%string ps_useGerberExtensions false /\
  absent PlotSettings_from ["usegerberattributes"]%string ps_useGerberAttributes false /\
  absent PlotSettings_from ["usegerberadvancedattributes"]%string ps_useGerberAdvancedAttributes false /\
  absent PlotSettings_from ["creategerberjobfile"]%string ps_createGerberJobFile false /\
  absent PlotSettings_from ["dashed_line_dash_ratio"]%string ps_dashedLineDashRatio VNone /\
  absent PlotSettings_from ["dashed_line_gap_ratio"]%string ps_dashedLineGapRatio VNone /\
  absent PlotSettings_from ["svguseinch"]%string ps_svgUseInch None /\
  absent PlotSettings_from ["svgprecision"]%string ps_svgPrecision (fdec 0 0) /\
  absent PlotSettings_from ["excludeedgelayer"]%string ps_excludeEdgeLayer None /\
  absent PlotSettings_from ["plotframeref"]%string ps_plotFameRef false /\
  absent PlotSettings_from ["viasonmask"]%string ps_viasOnMask false /\
  absent PlotSettings_from ["mode"]%string ps_mode (VInt 1) /\
  absent PlotSettings_from ["useauxorigin"]%string ps_useAuxOrigin false /\
  absent PlotSettings_from ["hpglpennumber"]%string ps_hpglPenNumber (VInt 0) /\
  absent PlotSettings_from ["hpglpenspeed"]%string ps_hpglPenSpeed (VInt 0) /\
  absent PlotSettings_from ["hpglpendiameter"]%string ps_hpglPenDiameter (fdec 0 0) /\
  absent PlotSettings_from ["dxfpolygonmode"]%string ps_dxfPolygonMode false /\
  absent PlotSettings_from ["dxfimperialunits"]%string ps_dxfImperialUnits false /\
  absent PlotSettings_from ["dxfusepcbnewfont"]%string ps_dxfUsePcbnewFont false /\
  absent PlotSettings_from ["psnegative"]%string ps_psNegative false /\
  absent PlotSettings_from ["psa4output"]%string ps_psA4Output false /\
  absent PlotSettings_from ["plotreference"]%string ps_plotReference false /\
  absent PlotSettings_from ["plotvalue"]%string ps_plotValue false /\
  absent PlotSettings_from ["plotinvisibletext"]%string ps_plotInvisibleText false /\
  absent PlotSettings_from ["sketchpadsonfab"]%string ps_sketchPadsOnFab false /\
  absent PlotSettings_from ["subtractmaskfromsilk"]%string ps_subtractMaskFromSilk false /\
  absent PlotSettings_from ["outputformat"]%string ps_outputFormat (VInt 0) /\
  absent PlotSettings_from ["mirror"]%string ps_mirror false /\
  absent PlotSettings_from ["drillshape"]%string ps_drillShape (VInt 0) /\
  absent PlotSettings_from ["scaleselection"]%string ps_scaleSelection (VInt 1) /\
  absent PlotSettings_from ["outputdirectory"]%string ps_outputDirectory (VStr []).
Proof. exact L_AbsentC.PlotSettings_absent. Qed.
Print Assumptions C38_PlotSettings.
Example C38_PlotSettings_case : let items := [VStr $"pcbplotparams"; node "zzz" [VInt 1]] in
  (lacks ["layerselection"; "plot_on_all_layers_selection"; "disableapertmacros"; "usegerberextensions"; "usegerberattributes"; "usegerberadvancedattributes"; "creategerberjobfile"; "dashed_line_dash_ratio"; "dashed_line_gap_ratio"; "svguseinch"; "svgprecision"; "excludeedgelayer"; "plotframeref"; "viasonmask"; "mode"; "useauxorigin"; "hpglpennumber"; "hpglpenspeed"; "hpglpendiameter"; "dxfpolygonmode"; "dxfimperialunits"; "dxfusepcbnewfont"; "psnegative"; "psa4output"; "plotreference"; "plotvalue"; "plotinvisibletext"; "sketchpadsonfab"; "subtractmaskfromsilk"; "outputformat"; "mirror"; "drillshape"; "scaleselection"; "outputdirectory"]%string items && accepts (PlotSettings_from) (VList items))%bool = true.
Proof. vm_compute. reflexivity. Qed.

Theorem C38_SetupData : absent SetupData_from ["stackup"]%string sd_stackup None /\
  absent SetupData_from ["pad_to_mask_clearance"]%string sd_packToMaskClearance (fdec 0 0) /\
  absent SetupData_from ["solder_mask_min_width"]%string sd_solderMaskMinWidth VNone /\
  absent SetupData_from ["pad_to_paste_clearance"]%string sd_padToPasteClearance VNone /\
  absent SetupData_from ["pad_to_paste_clearance_ratio"]%string sd_padToPasteClearanceRatio VNone /\
  absent SetupData_from ["aux_axis_origin"]%string sd_auxAxisOrigin None /\
  absent SetupData_from ["grid_origin"]%string sd_gridOrigin None /\
  absent SetupData_from ["pcbplotparams"]%string sd_plotSettings None.
Proof. exact L_AbsentC.SetupData_absent. Qed.
Print Assumptions C38_SetupData.
Example C38_SetupData_case : let items := [VStr $"setup"; node "zzz" [VInt 1]] in
  (lacks ["stackup"; "pad_to_mask_clearance"; "solder_mask_min_width"; "pad_to_paste_clearance"; "pad_to_paste_clearance_ratio"; "aux_axis_origin"; "grid_origin"; "pcbplotparams"]%string items && accepts (SetupData_from) (VList items))%bool = true.
Proof. vm_compute. reflexivity. Qed.

Theorem C38_Segment : absent Segment_from ["start"]%string sg_start (mkPosition (fdec 0 0) (fdec 0 0) VNone false) /\
  absent Segment_from ["end"]%string sg_end (mkPosition (fdec 0 0) (fdec 0 0) VNone false) /\
  absent Segment_from ["width"]%string sg_width (fdec 1 (-1)) /\
  absent Segment_from ["layer"]%string sg_layer (VStr $"F.Cu") /\
  absent Segment_from ["locked"]%string sg_locked false /\
  absent Segment_from ["net"]%string sg_net (VInt 0) /\
  absent Segment_from ["tstamp"]%string sg_tstamp (VStr []).
Proof. exact L_AbsentC.Segment_absent. Qed.
Print Assumptions C38_Segment.
Example C38_Segment_case : let items := [VStr $"segment"; node "zzz" [VInt 1]] in
  (lacks ["start"; "end"; "width"; "layer"; "locked"; "net"; "tstamp"]%string items && accepts (Segment_from) (VList items))%bool = true.
Proof. vm_compute. reflexivity. Qed.

Theorem C38_Via : absent Via_from ["micro"; "blind"]%string vi_type VNone /\
  absent Via_from ["locked"]%string vi_locked false /\
  absent Via_from ["at"]%string vi_position (mkPosition (fdec 0 0) (fdec 0 0) VNone false) /\
  absent Via_from ["size"]%string vi_size (fdec 0 0) /\
  absent Via_from ["drill"]%string vi_drill (fdec 0 0) /\
  absent Via_from ["layers"]%string vi_layers [] /\
  absent Via_from ["remove_unused_layers"]%string vi_removeUnusedLayers false /\
  absent Via_from ["keep_end_layers"]%string vi_keepEndLayers false /\
  absent Via_from ["free"]%string vi_free false /\
  absent Via_from ["net"]%string vi_net (VInt 0) /\
  absent Via_from ["tstamp"]%string vi_tstamp VNone.
Proof. exact L_AbsentC.Via_absent. Qed.
Print Assumptions C38_Via.
Example C38_Via_case : let items := [VStr $"via"; node "zzz" [VInt 1]] in
  (lacks ["micro"; "blind"; "locked"; "at"; "size"; "drill"; "layers"; "remove_unused_layers"; "keep_end_layers"; "free"; "net"; "tstamp"]%string items && accepts (Via_from) (VList items))%bool = true.
Proof. vm_compute. reflexivity. Qed.

Theorem C38_Arc : absent Arc_from ["start"]%string ac_start (mkPosition (fdec 0 0) (fdec 0 0) VNone false) /\
  absent Arc_from ["mid"]%string ac_mid (mkPosition (fdec 0 0) (fdec 0 0) VNone false) /\
  absent Arc_from ["end"]%string ac_end (mkPosition (fdec 0 0) (fdec 0 0) VNone false) /\
  absent Arc_from ["width"]%string ac_width (fdec 2 (-1)) /\
  absent Arc_from ["layer"]%string ac_layer (VStr $"F.Cu") /\
  absent Arc_from ["locked"]%string ac_locked false /\
  absent Arc_from ["net"]%string ac_net (VInt 0) /\
  absent Arc_from ["tstamp"]%string ac_tstamp VNone.
Proof. exact L_AbsentC.Arc_absent. Qed.
Print Assumptions C38_Arc.
Example C38_Arc_case : let items := [VStr $"arc"; node "zzz" [VInt 1]] in
  (lacks ["start"; "mid"; "end"; "width"; "layer"; "locked"; "net"; "tstamp"]%string items && accepts (Arc_from) (VList items))%bool = true.
Proof. vm_compute. reflexivity. Qed.

Theorem C38_Target : absent Target_from ["at"]%string tg_position (mkPosition (fdec 0 0) (fdec 0 0) VNone false) /\
  absent Target_from ["size"]%string tg_size (VInt 0) /\
  absent Target_from ["width"]%string tg_width (fdec 1 (-1)) /\
  absent Target_from ["layer"]%string tg_layer (VStr $"F.Cu") /\
  absent Target_from ["tstamp"]%string tg_tstamp VNone.
Proof. exact L_AbsentC.Target_absent. Qed.
Print Assumptions C38_Target.
Example C38_Target_case : let items := [VStr $"target"; VStr $"F"; node "zzz" [VInt 1]] in
  (lacks ["at"; "size"; "width"; "layer"; "tstamp"]%string items && accepts (Target_from) (VList items))%bool = true.
Proof. vm_compute. reflexivity. Qed.

Theorem C38_Board : forall now, absent (Board_from now) ["version"]%string bd_version (VStr []) /\
  absent (Board_from now) ["generator"]%string bd_generator (VStr []) /\
  absent (Board_from now) ["general"]%string bd_general (mkGeneralSettings (fdec 16 (-1))) /\
  absent (Board_from now) ["paper"]%string bd_paper (mkPageSettings (VStr $"A4") VNone VNone false) /\
  absent (Board_from now) ["title_block"]%string bd_titleBlock None /\
  absent (Board_from now) ["layers"]%string bd_layers [] /\
  absent (Board_from now) ["setup"]%string bd_setup (mkSetupData None (fdec 0 0) VNone VNone VNone None None None) /\
  absent (Board_from now) ["property"]%string bd_properties [] /\
  absent (Board_from now) ["net"]%string bd_nets [] /\
  absent (Board_from now) ["footprint"]%string bd_footprints [] /\
  absent (Board_from now) ["gr_text"; "gr_text_box"; "gr_line"; "gr_rect"; "gr_circle"; "gr_arc"; "gr_poly"; "gr_curve"; "image"]%string bd_graphicItems [] /\
  absent (Board_from now) ["segment"; "arc"; "via"]%string bd_traceItems [] /\
  absent (Board_from now) ["zone"]%string bd_zones [] /\
  absent (Board_from now) ["dimension"]%string bd_dimensions [] /\
  absent (Board_from now) ["target"]%string bd_targets [] /\
  absent (Board_from now) ["group"]%string bd_groups [] /\
  absent (Board_from now) [] bd_filePath VNone.
Proof. exact L_AbsentC.Board_absent. Qed.
Print Assumptions C38_Board.
Example C38_Board_case : let items := [VStr $"kicad_pcb"; node "zzz" [VInt 1]] in
  (lacks ["version"; "generator"; "general"; "paper"; "title_block"; "layers"; "setup"; "property"; "net"; "footprint"; "gr_text"; "gr_text_box"; "gr_line"; "gr_rect"; "gr_circle"; "gr_arc"; "gr_poly"; "gr_curve"; "image"; "segment"; "arc"; "via"; "zone"; "dimension"; "target"; "group"]%string items && accepts (Board_from (VStr $"0")) (VList items))%bool = true.
Proof. vm_compute. reflexivity. Qed.
