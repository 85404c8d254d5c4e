(** Specification of items/brditems.py. *)
From Verif Require Import PyBase PyNum PyStr Sexpr S_Leaf S_Tree S_Fix M_Common S_Common M_Brd.

Definition GeneralSettings_tree (o : GeneralSettings) : val := node "general" [node "thickness" [gs_thickness o]].
@ok GeneralSettings
(** a layer is a list that starts with its number *)
Definition LayerToken_tree (o : LayerToken) : val := VList ([lt_ordinal o; lt_name o; lt_type o] ++ optv (lt_userName o)).
@ok LayerToken
(** the material of a sub layer follows the word [addsublayer] without a list of its own *)
Definition StackupSubLayer_items (o : StackupSubLayer) : list val :=
  [node "thickness" [sb_thickness o]] ++ optn "material" (sb_material o) ++ optn "epsilon_r" (sb_epsilonR o) ++ optn "loss_tangent" (sb_lossTangent o).
@ok StackupSubLayer
Definition StackupLayer_tree (o : StackupLayer) : val :=
  node "layer" ([sl_name o; node "type" [sl_type o]] ++ optn "color" (sl_color o) ++ optn "thickness" (sl_thickness o) ++ optn "material" (sl_material o)
    ++ optn "epsilon_r" (sl_epsilonR o) ++ optn "loss_tangent" (sl_lossTangent o)
    ++ flat_map (fun s => VStr $"addsublayer" :: StackupSubLayer_items s) (sl_subLayers o)).
@ok StackupLayer
Definition Stackup_tree (o : Stackup) : val :=
  node "stackup" (map StackupLayer_tree (sk_layers o) ++ optn "copper_finish" (sk_copperFinish o) ++ optn "dielectric_constraints" (sk_dielectricContraints o)
    ++ optn "edge_connector" (sk_edgeConnector o) ++ (if sk_castellatedPads o then [node "castellated_pads" [VStr $"yes"]] else [])
    ++ (if sk_edgePlating o then [node "edge_plating" [VStr $"yes"]] else [])).
@ok Stackup
(** [(key true)] or [(key false)] *)
Definition tf (key : String.string) (b : bool) : val := node key [VStr (if b then $"true" else $"false")].
Arguments tf key%string b.
Definition PlotSettings_tree (o : PlotSettings) : val :=
  node "pcbplotparams" ([node "layerselection" [ps_layerSelection o]] ++ optn "plot_on_all_layers_selection" (ps_plotOnAllLayersSelection o)
    ++ [tf "disableapertmacros" (ps_disableApertMacros o); tf "usegerberextensions" (ps_useGerberExtensions o);
        tf "usegerberattributes" (ps_useGerberAttributes o); tf "usegerberadvancedattributes" (ps_useGerberAdvancedAttributes o);
        tf "creategerberjobfile" (ps_createGerberJobFile o)]
    ++ optn "dashed_line_dash_ratio" (ps_dashedLineDashRatio o) ++ optn "dashed_line_gap_ratio" (ps_dashedLineGapRatio o)
    ++ opto (tf "svguseinch") (ps_svgUseInch o) ++ [node "svgprecision" [ps_svgPrecision o]] ++ opto (tf "excludeedgelayer") (ps_excludeEdgeLayer o)
    ++ [tf "plotframeref" (ps_plotFameRef o); tf "viasonmask" (ps_viasOnMask o); node "mode" [ps_mode o]; tf "useauxorigin" (ps_useAuxOrigin o);
        node "hpglpennumber" [ps_hpglPenNumber o]; node "hpglpenspeed" [ps_hpglPenSpeed o]; node "hpglpendiameter" [ps_hpglPenDiameter o];
        tf "dxfpolygonmode" (ps_dxfPolygonMode o); tf "dxfimperialunits" (ps_dxfImperialUnits o); tf "dxfusepcbnewfont" (ps_dxfUsePcbnewFont o);
        tf "psnegative" (ps_psNegative o); tf "psa4output" (ps_psA4Output o); tf "plotreference" (ps_plotReference o); tf "plotvalue" (ps_plotValue o);
        tf "plotinvisibletext" (ps_plotInvisibleText o); tf "sketchpadsonfab" (ps_sketchPadsOnFab o); tf "subtractmaskfromsilk" (ps_subtractMaskFromSilk o);
        node "outputformat" [ps_outputFormat o]; tf "mirror" (ps_mirror o); node "drillshape" [ps_drillShape o];
        node "scaleselection" [ps_scaleSelection o]; node "outputdirectory" [ps_outputDirectory o]]).
@ok PlotSettings
Definition SetupData_tree (o : SetupData) : val :=
  node "setup" (opto Stackup_tree (sd_stackup o) ++ [node "pad_to_mask_clearance" [sd_packToMaskClearance o]]
    ++ optn "solder_mask_min_width" (sd_solderMaskMinWidth o) ++ optn "pad_to_paste_clearance" (sd_padToPasteClearance o)
    ++ optn "pad_to_paste_clearance_ratio" (sd_padToPasteClearanceRatio o)
    ++ opto (xy_tree "aux_axis_origin") (sd_auxAxisOrigin o) ++ opto (xy_tree "grid_origin") (sd_gridOrigin o)
    ++ opto PlotSettings_tree (sd_plotSettings o)).
@ok SetupData
Definition Segment_tree (o : Segment) : val :=
  node "segment" (optw "locked" (sg_locked o) ++ [xy_tree "start" (sg_start o); xy_tree "end" (sg_end o); node "width" [sg_width o];
    node "layer" [sg_layer o]; node "net" [sg_net o]; node "tstamp" [sg_tstamp o]]).
@ok Segment
Definition Via_tree (o : Via) : val :=
  node "via" (optv (vi_type o) ++ optw "locked" (vi_locked o) ++ [xy_tree "at" (vi_position o); node "size" [vi_size o]; node "drill" [vi_drill o];
    node "layers" (vi_layers o)] ++ optl "remove_unused_layers" (vi_removeUnusedLayers o) ++ optl "keep_end_layers" (vi_keepEndLayers o)
    ++ optl "free" (vi_free o) ++ [node "net" [vi_net o]] ++ optn "tstamp" (vi_tstamp o)).
@ok Via
Definition Arc_tree (o : Arc) : val :=
  node "arc" (optw "locked" (ac_locked o) ++ [xy_tree "start" (ac_start o); xy_tree "mid" (ac_mid o); xy_tree "end" (ac_end o); node "width" [ac_width o];
    node "layer" [ac_layer o]; node "net" [ac_net o]] ++ optn "tstamp" (ac_tstamp o)).
@ok Arc
Definition Target_tree (o : Target) : val :=
  node "target" [tg_type o; xy_tree "at" (tg_position o); node "size" [tg_size o]; node "width" [tg_width o]; node "layer" [tg_layer o]; node "tstamp" [tg_tstamp o]].
@ok Target
