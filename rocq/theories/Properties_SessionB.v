(** * C58: saves and loads leave no trace

    Someone works on a printable object: they set attributes of it and of its parts, at any depth, to values that fit,
    as often as they like, and whenever they like save the object and continue with what they load.  No save or load
    fails, and they end with an object equal to the one that the same edits give without any save or load.  Beside
    each theorem stands a session that sets one attribute after the other to the value of another object, saving and
    loading after each. *)
From Coq Require Import String.
From Verif Require Import PyBase PyNum PyStr Sexpr RecordSet S_Leaf S_Tree S_Fix S_Equal S_Edit S_Deep S_Session L_Tac L_Equal L_EqualA L_Edit L_Deep L_Session Properties_SessionA.
From Verif Require Import M_Common M_Lib M_Sym M_Fp M_Gr M_Zone M_Footprint M_Dim M_Brd M_Board M_Sch M_Schematic M_Wks.
From Verif Require Import S_Common S_Lib S_Sym S_Fp S_Gr S_Zone S_Footprint S_Dim S_Brd S_Board S_Sch S_Schematic S_Wks.
From Verif Require Import L_Common L_Lib L_Sym L_Symbol L_Fp L_Gr L_Zone L_Pad L_Footprint L_Dim L_Brd L_Plot L_Board L_Sch L_Sheet L_Schematic L_Wks.

Theorem C58_DimensionFormat : no_trace DimensionFormat_to (fun _ : unit => DimensionFormat_from) DimensionFormat_ok DimensionFormat_eqb.
Proof. exact (leave_no_trace _ _ _ _ _ DimensionFormat_q (fun _ => DimensionFormat_rt)). Qed.
Print Assumptions C58_DimensionFormat.
Example C58_DimensionFormat_case : starts DimensionFormat_to DimensionFormat_from DimensionFormat_ok DimensionFormat_eqb DimensionFormat_edits DimensionFormat_default "(format (prefix ""a \""("") (suffix ""mm"") (units 2) (units_format 0) (precision 7) (override_value ""1 \ 2"") suppress_zeroes)" = true.
Proof. vm_compute. reflexivity. Qed.

Theorem C58_DimensionStyle : no_trace DimensionStyle_to (fun _ : unit => DimensionStyle_from) DimensionStyle_ok DimensionStyle_eqb.
Proof. exact (leave_no_trace _ _ _ _ _ DimensionStyle_q (fun _ => DimensionStyle_rt)). Qed.
Print Assumptions C58_DimensionStyle.
Example C58_DimensionStyle_case : starts DimensionStyle_to DimensionStyle_from DimensionStyle_ok DimensionStyle_eqb DimensionStyle_edits DimensionStyle_default "(style (thickness 0.15) (arrow_length 1.27) (text_position_mode 2) (extension_height 0.58642) (text_frame 3) (extension_offset 0.5) keep_text_aligned)" = true.
Proof. vm_compute. reflexivity. Qed.

Theorem C58_Dimension : no_trace Dimension_to (fun _ : unit => Dimension_from) Dimension_ok Dimension_eqb.
Proof. exact (leave_no_trace _ _ _ _ _ Dimension_q (fun _ => Dimension_rt)). Qed.
Print Assumptions C58_Dimension.
Example C58_Dimension_case : starts Dimension_to Dimension_from Dimension_ok Dimension_eqb Dimension_edits Dimension_default "(dimension (type orthogonal) (layer ""Dwgs.User (1)"") (tstamp 7c2f5ab1-44ff-4a1c-b96d-28f9f3a0fd1e)
  (pts (xy 2 3) (xy 0.1 0) (xy 2 3) (xy -1.5 7))
  (height -2.5)
  (orientation 1)
  (leader_length 2)
  (gr_text ""a \""(b)\"" \ c"" (at 1 2.5 90) (layer ""F.SilkS"" knockout) (tstamp 7c2f5ab1-44ff-4a1c-b96d-28f9f3a0fd1e)
    (effects (font (face ""A \""b\"" \c"") (size 1.27 2) (color 255 0 128 0.5) (thickness 0.3) bold italic (line_spacing 1.1)) (justify right top mirror) (href ""https://x.y/(z)"") hide)
    (render_cache ""ab\""c"" 0
      (polygon
        (pts
          (xy 1 2)          (xy 1.5 2)          (xy 0 -7)          (xy 0 0)
          (xy 9 9)
        )
      )
    )
  )
  (format (prefix ""a \""("") (suffix ""mm"") (units 2) (units_format 0) (precision 7) (override_value ""1 \ 2"") suppress_zeroes)
  (style (thickness 0.15) (arrow_length 1.27) (text_position_mode 2) (extension_height 0.58642) (text_frame 3) (extension_offset 0.5) keep_text_aligned)
)" = true.
Proof. vm_compute. reflexivity. Qed.

Theorem C58_GeneralSettings : no_trace GeneralSettings_to (fun _ : unit => GeneralSettings_from) GeneralSettings_ok GeneralSettings_eqb.
Proof. exact (leave_no_trace _ _ _ _ _ GeneralSettings_q (fun _ => GeneralSettings_rt)). Qed.
Print Assumptions C58_GeneralSettings.
Example C58_GeneralSettings_case : starts GeneralSettings_to GeneralSettings_from GeneralSettings_ok GeneralSettings_eqb GeneralSettings_edits GeneralSettings_default "(general (thickness 0.8))" = true.
Proof. vm_compute. reflexivity. Qed.

Theorem C58_LayerToken : no_trace LayerToken_to (fun _ : unit => LayerToken_from) LayerToken_ok LayerToken_eqb.
Proof. exact (leave_no_trace _ _ _ _ _ LayerToken_q (fun _ => LayerToken_rt)). Qed.
Print Assumptions C58_LayerToken.
Example C58_LayerToken_case : starts LayerToken_to LayerToken_from LayerToken_ok LayerToken_eqb LayerToken_edits LayerToken_default "(37 ""F.Silk\""S"" user ""F.Silkscreen (top)"")" = true.
Proof. vm_compute. reflexivity. Qed.

Theorem C58_StackupLayer : no_trace StackupLayer_to (fun _ : unit => StackupLayer_from) StackupLayer_ok StackupLayer_eqb.
Proof. exact (leave_no_trace _ _ _ _ _ StackupLayer_q (fun _ => StackupLayer_rt)). Qed.
Print Assumptions C58_StackupLayer.
Example C58_StackupLayer_case : starts StackupLayer_to StackupLayer_from StackupLayer_ok StackupLayer_eqb StackupLayer_edits StackupLayer_default "(layer ""dielectric 1"" (type ""core"") (color ""Green"") (thickness 1.51) (material ""FR4"") (epsilon_r 4.5)
  addsublayer (thickness 0.48) (material ""FR4 \""(x)\"""") (epsilon_r 4.5) (loss_tangent 0.02)
  addsublayer (thickness 1) (loss_tangent 0.02)
  addsublayer (thickness 0.48) (material ""FR4 \""(x)\"""") (epsilon_r 4.5) (loss_tangent 0.02))" = true.
Proof. vm_compute. reflexivity. Qed.

Theorem C58_Stackup : no_trace Stackup_to (fun _ : unit => Stackup_from) Stackup_ok Stackup_eqb.
Proof. exact (leave_no_trace _ _ _ _ _ Stackup_q (fun _ => Stackup_rt)). Qed.
Print Assumptions C58_Stackup.
Example C58_Stackup_case : starts Stackup_to Stackup_from Stackup_ok Stackup_eqb Stackup_edits Stackup_default "(stackup
  (layer ""F.SilkS"" (type ""Top Silk Screen""))
  (layer ""dielectric 1"" (type ""core"") (color ""Green"") (thickness 1.51) (material ""FR4"") (epsilon_r 4.5)
    addsublayer (thickness 0.48) (material ""FR4 \""(x)\"""") (epsilon_r 4.5) (loss_tangent 0.02)
    addsublayer (thickness 1) (loss_tangent 0.02)
    addsublayer (thickness 0.48) (material ""FR4 \""(x)\"""") (epsilon_r 4.5) (loss_tangent 0.02))
  (copper_finish ""ENIG"")
  (dielectric_constraints no)
  (edge_connector bevelled)
  (castellated_pads yes)
)" = true.
Proof. vm_compute. reflexivity. Qed.

Theorem C58_PlotSettings : no_trace PlotSettings_to (fun _ : unit => PlotSettings_from) PlotSettings_ok PlotSettings_eqb.
Proof. exact (leave_no_trace _ _ _ _ _ PlotSettings_q (fun _ => PlotSettings_rt)). Qed.
Print Assumptions C58_PlotSettings.
Example C58_PlotSettings_case : starts PlotSettings_to PlotSettings_from PlotSettings_ok PlotSettings_eqb PlotSettings_edits PlotSettings_default "(pcbplotparams
  (layerselection 0x00010fc_ffffffff)
  (plot_on_all_layers_selection 0x0000000_00000000)
  (disableapertmacros false)
  (usegerberextensions false)
  (usegerberattributes false)
  (usegerberadvancedattributes false)
  (creategerberjobfile false)
  (dashed_line_dash_ratio 12.000000)
  (dashed_line_gap_ratio 3.000001)
  (svguseinch false)
  (svgprecision 0.0)
  (excludeedgelayer true)
  (plotframeref false)
  (viasonmask true)
  (mode 1)
  (useauxorigin false)
  (hpglpennumber 0)
  (hpglpenspeed 0)
  (hpglpendiameter 1.500000)
  (dxfpolygonmode false)
  (dxfimperialunits false)
  (dxfusepcbnewfont false)
  (psnegative false)
  (psa4output false)
  (plotreference false)
  (plotvalue false)
  (plotinvisibletext false)
  (sketchpadsonfab false)
  (subtractmaskfromsilk false)
  (outputformat 0)
  (mirror true)
  (drillshape 0)
  (scaleselection 1)
  (outputdirectory ""out \""(1)\""/"")
)" = true.
Proof. vm_compute. reflexivity. Qed.

Theorem C58_SetupData : no_trace SetupData_to (fun _ : unit => SetupData_from) SetupData_ok SetupData_eqb.
Proof. exact (leave_no_trace _ _ _ _ _ SetupData_q (fun _ => SetupData_rt)). Qed.
Print Assumptions C58_SetupData.
Example C58_SetupData_case : starts SetupData_to SetupData_from SetupData_ok SetupData_eqb SetupData_edits SetupData_default "(setup
  (stackup
    (layer ""F.SilkS"" (type ""Top Silk Screen""))
    (layer ""dielectric 1"" (type ""core"") (color ""Green"") (thickness 1.51) (material ""FR4"") (epsilon_r 4.5)
      addsublayer (thickness 0.48) (material ""FR4 \""(x)\"""") (epsilon_r 4.5) (loss_tangent 0.02)
      addsublayer (thickness 1) (loss_tangent 0.02)
      addsublayer (thickness 0.48) (material ""FR4 \""(x)\"""") (epsilon_r 4.5) (loss_tangent 0.02))
    (copper_finish ""ENIG"")
    (dielectric_constraints no)
    (edge_connector bevelled)
    (castellated_pads yes)
  )
  (pad_to_mask_clearance 0.05)
  (solder_mask_min_width 0.1)
  (pad_to_paste_clearance_ratio -0.05)
  (aux_axis_origin 1 2.5)
  (pcbplotparams
    (layerselection 0x00010fc_ffffffff)
    (plot_on_all_layers_selection 0x0000000_00000000)
    (disableapertmacros false)
    (usegerberextensions false)
    (usegerberattributes false)
    (usegerberadvancedattributes false)
    (creategerberjobfile false)
    (dashed_line_dash_ratio 12.000000)
    (dashed_line_gap_ratio 3.000001)
    (svguseinch false)
    (svgprecision 0.0)
    (excludeedgelayer true)
    (plotframeref false)
    (viasonmask true)
    (mode 1)
    (useauxorigin false)
    (hpglpennumber 0)
    (hpglpenspeed 0)
    (hpglpendiameter 1.500000)
    (dxfpolygonmode false)
    (dxfimperialunits false)
    (dxfusepcbnewfont false)
    (psnegative false)
    (psa4output false)
    (plotreference false)
    (plotvalue false)
    (plotinvisibletext false)
    (sketchpadsonfab false)
    (subtractmaskfromsilk false)
    (outputformat 0)
    (mirror true)
    (drillshape 0)
    (scaleselection 1)
    (outputdirectory ""out \""(1)\""/"")
  )
)" = true.
Proof. vm_compute. reflexivity. Qed.

Theorem C58_Segment : no_trace Segment_to (fun _ : unit => Segment_from) Segment_ok Segment_eqb.
Proof. exact (leave_no_trace _ _ _ _ _ Segment_q (fun _ => Segment_rt)). Qed.
Print Assumptions C58_Segment.
Example C58_Segment_case : starts Segment_to Segment_from Segment_ok Segment_eqb Segment_edits Segment_default "(segment locked (start 1 2.5) (end 3 4) (width 0.25) (layer ""F.Cu"") (net 7) (tstamp 7c2f5ab1-44ff-4a1c-b96d-28f9f3a0fd1e))" = true.
Proof. vm_compute. reflexivity. Qed.

Theorem C58_Via : no_trace Via_to (fun _ : unit => Via_from) Via_ok Via_eqb.
Proof. exact (leave_no_trace _ _ _ _ _ Via_q (fun _ => Via_rt)). Qed.
Print Assumptions C58_Via.
Example C58_Via_case : starts Via_to Via_from Via_ok Via_eqb Via_edits Via_default "(via blind locked (at 1 2.5) (size 0.8) (drill 0.4) (layers ""F.Cu"" ""In 1 \""(x)\"""") (remove_unused_layers) (keep_end_layers) (free) (net 3) (tstamp 7c2f5ab1-44ff-4a1c-b96d-28f9f3a0fd1e))" = true.
Proof. vm_compute. reflexivity. Qed.

Theorem C58_Arc : no_trace Arc_to (fun _ : unit => Arc_from) Arc_ok Arc_eqb.
Proof. exact (leave_no_trace _ _ _ _ _ Arc_q (fun _ => Arc_rt)). Qed.
Print Assumptions C58_Arc.
Example C58_Arc_case : starts Arc_to Arc_from Arc_ok Arc_eqb Arc_edits Arc_default "(arc locked (start 1 2.5) (mid 3 4) (end 5 4) (width 0.25) (layer ""F \""Cu"") (net 7))" = true.
Proof. vm_compute. reflexivity. Qed.

Theorem C58_Target : no_trace Target_to (fun _ : unit => Target_from) Target_ok Target_eqb.
Proof. exact (leave_no_trace _ _ _ _ _ Target_q (fun _ => Target_rt)). Qed.
Print Assumptions C58_Target.
Example C58_Target_case : starts Target_to Target_from Target_ok Target_eqb Target_edits Target_default "(target x (at 1 2.5) (size 5) (width 0.05) (layer ""Edge.Cuts"") (tstamp 7c2f5ab1-44ff-4a1c-b96d-28f9f3a0fd1e))" = true.
Proof. vm_compute. reflexivity. Qed.

Theorem C58_Junction : no_trace Junction_to (fun _ : unit => Junction_from) Junction_ok Junction_eqb.
Proof. exact (leave_no_trace _ _ _ _ _ Junction_q (fun _ => Junction_rt)). Qed.
Print Assumptions C58_Junction.
Example C58_Junction_case : starts Junction_to Junction_from Junction_ok Junction_eqb Junction_edits Junction_default "(junction (at 123.45 -7) (diameter 0) (color 255 0 128 0.5)
  (uuid 7c2f5ab1-44ff-4a1c-b96d-28f9f3a0fd1e)
)" = true.
Proof. vm_compute. reflexivity. Qed.

Theorem C58_NoConnect : no_trace NoConnect_to (fun _ : unit => NoConnect_from) NoConnect_ok NoConnect_eqb.
Proof. exact (leave_no_trace _ _ _ _ _ NoConnect_q (fun _ => NoConnect_rt)). Qed.
Print Assumptions C58_NoConnect.
Example C58_NoConnect_case : starts NoConnect_to NoConnect_from NoConnect_ok NoConnect_eqb NoConnect_edits NoConnect_default "(no_connect (at 123.45 -7) (uuid 7c2f5ab1-44ff-4a1c-b96d-28f9f3a0fd1e))" = true.
Proof. vm_compute. reflexivity. Qed.

Theorem C58_BusEntry : no_trace BusEntry_to (fun _ : unit => BusEntry_from) BusEntry_ok BusEntry_eqb.
Proof. exact (leave_no_trace _ _ _ _ _ BusEntry_q (fun _ => BusEntry_rt)). Qed.
Print Assumptions C58_BusEntry.
Example C58_BusEntry_case : starts BusEntry_to BusEntry_from BusEntry_ok BusEntry_eqb BusEntry_edits BusEntry_default "(bus_entry (at 123.45 -7) (size 2.54 3)
  (stroke (width 0.254) (type dash_dot) (color 255 0 128 0.5))
  (uuid 7c2f5ab1-44ff-4a1c-b96d-28f9f3a0fd1e)
)" = true.
Proof. vm_compute. reflexivity. Qed.

Theorem C58_BusAlias : no_trace BusAlias_to (fun _ : unit => BusAlias_from) BusAlias_ok BusAlias_eqb.
Proof. exact (leave_no_trace _ _ _ _ _ BusAlias_q (fun _ => BusAlias_rt)). Qed.
Print Assumptions C58_BusAlias.
Example C58_BusAlias_case : starts BusAlias_to BusAlias_from BusAlias_ok BusAlias_eqb BusAlias_edits BusAlias_default "(bus_alias ""a \""b\"""" (members ""A[0..7]"" """" ""x (y)""))" = true.
Proof. vm_compute. reflexivity. Qed.

Theorem C58_Connection : no_trace Connection_to (fun _ : unit => Connection_from) Connection_ok Connection_eqb.
Proof. exact (leave_no_trace _ _ _ _ _ Connection_q (fun _ => Connection_rt)). Qed.
Print Assumptions C58_Connection.
Example C58_Connection_case : starts Connection_to Connection_from Connection_ok Connection_eqb Connection_edits Connection_default "(bus (pts (xy 123.45 -7) (xy 1 0.5))
  (stroke (width 0.254) (type dash_dot) (color 255 0 128 0.5))
  (uuid 7c2f5ab1-44ff-4a1c-b96d-28f9f3a0fd1e)
)" = true.
Proof. vm_compute. reflexivity. Qed.

Theorem C58_PolyLine : no_trace PolyLine_to (fun _ : unit => PolyLine_from) PolyLine_ok PolyLine_eqb.
Proof. exact (leave_no_trace _ _ _ _ _ PolyLine_q (fun _ => PolyLine_rt)). Qed.
Print Assumptions C58_PolyLine.
Example C58_PolyLine_case : starts PolyLine_to PolyLine_from PolyLine_ok PolyLine_eqb PolyLine_edits PolyLine_default "(polyline (pts (xy 123.45 -7) (xy 1 0.5))
  (stroke (width 0.254) (type dash_dot) (color 255 0 128 0.5))
  (uuid 7c2f5ab1-44ff-4a1c-b96d-28f9f3a0fd1e)
)" = true.
Proof. vm_compute. reflexivity. Qed.

Theorem C58_Text : no_trace Text_to (fun _ : unit => Text_from) Text_ok Text_eqb.
Proof. exact (leave_no_trace _ _ _ _ _ Text_q (fun _ => Text_rt)). Qed.
Print Assumptions C58_Text.
Example C58_Text_case : starts Text_to Text_from Text_ok Text_eqb Text_edits Text_default "(text ""0123456789 0123456789 0123456789 (\""0123456789\"") 0123456""
  (at 123.45 7 270)
  (effects (font (face ""A \""b\"" \c"") (size 1.27 2) (color 255 0 128 0.5) (thickness 0.3) bold italic (line_spacing 1.1)) (justify right top mirror) (href ""https://x.y/(z)"") hide)
  (uuid 7c2f5ab1-44ff-4a1c-b96d-28f9f3a0fd1e)
)" = true.
Proof. vm_compute. reflexivity. Qed.

Theorem C58_TextBox : no_trace TextBox_to (fun _ : unit => TextBox_from) TextBox_ok TextBox_eqb.
Proof. exact (leave_no_trace _ _ _ _ _ TextBox_q (fun _ => TextBox_rt)). Qed.
Print Assumptions C58_TextBox.
Example C58_TextBox_case : starts TextBox_to TextBox_from TextBox_ok TextBox_eqb TextBox_edits TextBox_default "(text_box ""a \""b\""""
  (at 123.45 7 270) (size 3 0.001)
  (stroke (width 0.254) (type dash_dot) (color 255 0 128 0.5))
  (fill (type color) (color 255 0 128 0.5))
  (effects (font (face ""A \""b\"" \c"") (size 1.27 2) (color 255 0 128 0.5) (thickness 0.3) bold italic (line_spacing 1.1)) (justify right top mirror) (href ""https://x.y/(z)"") hide)
  (uuid 7c2f5ab1-44ff-4a1c-b96d-28f9f3a0fd1e)
)" = true.
Proof. vm_compute. reflexivity. Qed.

Theorem C58_LocalLabel : no_trace LocalLabel_to (fun _ : unit => LocalLabel_from) LocalLabel_ok LocalLabel_eqb.
Proof. exact (leave_no_trace _ _ _ _ _ LocalLabel_q (fun _ => LocalLabel_rt)). Qed.
Print Assumptions C58_LocalLabel.
Example C58_LocalLabel_case : starts LocalLabel_to LocalLabel_from LocalLabel_ok LocalLabel_eqb LocalLabel_edits LocalLabel_default "(label ""a \""b\"""" (at 123.45 7 270) (fields_autoplaced)
  (effects (font (face ""A \""b\"" \c"") (size 1.27 2) (color 255 0 128 0.5) (thickness 0.3) bold italic (line_spacing 1.1)) (justify right top mirror) (href ""https://x.y/(z)"") hide)
  (uuid 7c2f5ab1-44ff-4a1c-b96d-28f9f3a0fd1e)
)" = true.
Proof. vm_compute. reflexivity. Qed.

Theorem C58_GlobalLabel : no_trace GlobalLabel_to (fun _ : unit => GlobalLabel_from) GlobalLabel_ok GlobalLabel_eqb.
Proof. exact (leave_no_trace _ _ _ _ _ GlobalLabel_q (fun _ => GlobalLabel_rt)). Qed.
Print Assumptions C58_GlobalLabel.
Example C58_GlobalLabel_case : starts GlobalLabel_to GlobalLabel_from GlobalLabel_ok GlobalLabel_eqb GlobalLabel_edits GlobalLabel_default "(global_label ""a \""b\"""" (shape bidirectional) (at 123.45 7 270) (fields_autoplaced)
  (effects (font (face ""A \""b\"" \c"") (size 1.27 2) (color 255 0 128 0.5) (thickness 0.3) bold italic (line_spacing 1.1)) (justify right top mirror) (href ""https://x.y/(z)"") hide)
  (uuid 7c2f5ab1-44ff-4a1c-b96d-28f9f3a0fd1e)
  (property ""Sheet name"" ""a\b\"""" (id 3) (at 1 2.5 90) (show_name)
    (effects (font (face ""A \""b\"" \c"") (size 1.27 2) (color 255 0 128 0.5) (thickness 0.3) bold italic (line_spacing 1.1)) (justify right top mirror) (href ""https://x.y/(z)"") hide)
  )
  (property ""Sheet name"" ""a\b\"""" (id 3) (at 1 2.5 90) (show_name)
    (effects (font (face ""A \""b\"" \c"") (size 1.27 2) (color 255 0 128 0.5) (thickness 0.3) bold italic (line_spacing 1.1)) (justify right top mirror) (href ""https://x.y/(z)"") hide)
  )
)" = true.
Proof. vm_compute. reflexivity. Qed.

Theorem C58_HierarchicalLabel : no_trace HierarchicalLabel_to (fun _ : unit => HierarchicalLabel_from) HierarchicalLabel_ok HierarchicalLabel_eqb.
Proof. exact (leave_no_trace _ _ _ _ _ HierarchicalLabel_q (fun _ => HierarchicalLabel_rt)). Qed.
Print Assumptions C58_HierarchicalLabel.
Example C58_HierarchicalLabel_case : starts HierarchicalLabel_to HierarchicalLabel_from HierarchicalLabel_ok HierarchicalLabel_eqb HierarchicalLabel_edits HierarchicalLabel_default "(hierarchical_label ""a \""b\"""" (shape output) (at 123.45 7 270) (fields_autoplaced)
  (effects (font (face ""A \""b\"" \c"") (size 1.27 2) (color 255 0 128 0.5) (thickness 0.3) bold italic (line_spacing 1.1)) (justify right top mirror) (href ""https://x.y/(z)"") hide)
  (uuid 7c2f5ab1-44ff-4a1c-b96d-28f9f3a0fd1e)
)" = true.
Proof. vm_compute. reflexivity. Qed.

Theorem C58_SymbolProjectPath : no_trace SymbolProjectPath_to (fun _ : unit => SymbolProjectPath_from) SymbolProjectPath_ok SymbolProjectPath_eqb.
Proof. exact (leave_no_trace _ _ _ _ _ SymbolProjectPath_q (fun _ => SymbolProjectPath_rt)). Qed.
Print Assumptions C58_SymbolProjectPath.
Example C58_SymbolProjectPath_case : starts SymbolProjectPath_to SymbolProjectPath_from SymbolProjectPath_ok SymbolProjectPath_eqb SymbolProjectPath_edits SymbolProjectPath_default "(path ""/00000000-0000-0000-0000-00005f325e1e""
  (reference ""U 1"") (unit 3)
)" = true.
Proof. vm_compute. reflexivity. Qed.

Theorem C58_SymbolProjectInstance : no_trace SymbolProjectInstance_to (fun _ : unit => SymbolProjectInstance_from) SymbolProjectInstance_ok SymbolProjectInstance_eqb.
Proof. exact (leave_no_trace _ _ _ _ _ SymbolProjectInstance_q (fun _ => SymbolProjectInstance_rt)). Qed.
Print Assumptions C58_SymbolProjectInstance.
Example C58_SymbolProjectInstance_case : starts SymbolProjectInstance_to SymbolProjectInstance_from SymbolProjectInstance_ok SymbolProjectInstance_eqb SymbolProjectInstance_edits SymbolProjectInstance_default "(project ""my \""project\""""
  (path ""/00000000-0000-0000-0000-00005f325e1e""
    (reference ""U 1"") (unit 1)
  )
  (path ""/00000000-0000-0000-0000-00005f325e1e""
    (reference ""U 1"") (unit 2)
  )
)" = true.
Proof. vm_compute. reflexivity. Qed.

Theorem C58_SchematicSymbol : no_trace SchematicSymbol_to (fun _ : unit => SchematicSymbol_from) SchematicSymbol_ok SchematicSymbol_eqb.
Proof. exact (leave_no_trace _ _ _ _ _ SchematicSymbol_q (fun _ => SchematicSymbol_rt)). Qed.
Print Assumptions C58_SchematicSymbol.
Example C58_SchematicSymbol_case : starts SchematicSymbol_to SchematicSymbol_from SchematicSymbol_ok SchematicSymbol_eqb SchematicSymbol_edits SchematicSymbol_default "(symbol (lib_name ""R_1"") (lib_id ""Device:R:x_1_2"") (at 123.45 7 270) (mirror x) (unit 2)
  (in_bom yes) (on_board no) (dnp no) (fields_autoplaced)
  (uuid 7c2f5ab1-44ff-4a1c-b96d-28f9f3a0fd1e)
  (property ""Sheet name"" ""a\b\"""" (id 3) (at 1 2.5 90) (show_name)
    (effects (font (face ""A \""b\"" \c"") (size 1.27 2) (color 255 0 128 0.5) (thickness 0.3) bold italic (line_spacing 1.1)) (justify right top mirror) (href ""https://x.y/(z)"") hide)
  )
  (property ""Sheet name"" ""a\b\"""" (id 3) (at 1 2.5 90) (show_name)
    (effects (font (face ""A \""b\"" \c"") (size 1.27 2) (color 255 0 128 0.5) (thickness 0.3) bold italic (line_spacing 1.1)) (justify right top mirror) (href ""https://x.y/(z)"") hide)
  )
  (pin ""1"" (uuid 7c2f5ab1-44ff-4a1c-b96d-28f9f3a0fd1e))
  (pin ""A \""2\"""" (uuid abc-12))
  (instances
    (project ""my \""project\""""
      (path ""/00000000-0000-0000-0000-00005f325e1e""
        (reference ""U 1"") (unit 1)
      )
      (path ""/00000000-0000-0000-0000-00005f325e1e""
        (reference ""U 1"") (unit 2)
      )
    )
    (project """"
    )
  )
)" = true.
Proof. vm_compute. reflexivity. Qed.

Theorem C58_HierarchicalPin : no_trace HierarchicalPin_to (fun _ : unit => HierarchicalPin_from) HierarchicalPin_ok HierarchicalPin_eqb.
Proof. exact (leave_no_trace _ _ _ _ _ HierarchicalPin_q (fun _ => HierarchicalPin_rt)). Qed.
Print Assumptions C58_HierarchicalPin.
Example C58_HierarchicalPin_case : starts HierarchicalPin_to HierarchicalPin_from HierarchicalPin_ok HierarchicalPin_eqb HierarchicalPin_edits HierarchicalPin_default "(pin ""a \""b\"""" tri_state (at 123.45 7 270)
  (effects (font (face ""A \""b\"" \c"") (size 1.27 2) (color 255 0 128 0.5) (thickness 0.3) bold italic (line_spacing 1.1)) (justify right top mirror) (href ""https://x.y/(z)"") hide)
  (uuid 7c2f5ab1-44ff-4a1c-b96d-28f9f3a0fd1e)
)" = true.
Proof. vm_compute. reflexivity. Qed.

Theorem C58_HierarchicalSheetProjectPath : no_trace HierarchicalSheetProjectPath_to (fun _ : unit => HierarchicalSheetProjectPath_from) HierarchicalSheetProjectPath_ok HierarchicalSheetProjectPath_eqb.
Proof. exact (leave_no_trace _ _ _ _ _ HierarchicalSheetProjectPath_q (fun _ => HierarchicalSheetProjectPath_rt)). Qed.
Print Assumptions C58_HierarchicalSheetProjectPath.
Example C58_HierarchicalSheetProjectPath_case : starts HierarchicalSheetProjectPath_to HierarchicalSheetProjectPath_from HierarchicalSheetProjectPath_ok HierarchicalSheetProjectPath_eqb HierarchicalSheetProjectPath_edits HierarchicalSheetProjectPath_default "(path ""/a b/c"" (page ""2 \""a\""""))" = true.
Proof. vm_compute. reflexivity. Qed.

Theorem C58_HierarchicalSheetProjectInstance : no_trace HierarchicalSheetProjectInstance_to (fun _ : unit => HierarchicalSheetProjectInstance_from) HierarchicalSheetProjectInstance_ok HierarchicalSheetProjectInstance_eqb.
Proof. exact (leave_no_trace _ _ _ _ _ HierarchicalSheetProjectInstance_q (fun _ => HierarchicalSheetProjectInstance_rt)). Qed.
Print Assumptions C58_HierarchicalSheetProjectInstance.
Example C58_HierarchicalSheetProjectInstance_case : starts HierarchicalSheetProjectInstance_to HierarchicalSheetProjectInstance_from HierarchicalSheetProjectInstance_ok HierarchicalSheetProjectInstance_eqb HierarchicalSheetProjectInstance_edits HierarchicalSheetProjectInstance_default "(project ""my \""project\""""
  (path ""/a b/c"" (page ""2 \""a\""""))
  (path ""/a b/c"" (page ""2 \""a\""""))
)" = true.
Proof. vm_compute. reflexivity. Qed.

Theorem C58_HierarchicalSheet : no_trace HierarchicalSheet_to (fun _ : unit => HierarchicalSheet_from) HierarchicalSheet_ok HierarchicalSheet_eqb.
Proof. exact (leave_no_trace _ _ _ _ _ HierarchicalSheet_q (fun _ => HierarchicalSheet_rt)). Qed.
Print Assumptions C58_HierarchicalSheet.
Example C58_HierarchicalSheet_case : starts HierarchicalSheet_to HierarchicalSheet_from HierarchicalSheet_ok HierarchicalSheet_eqb HierarchicalSheet_edits HierarchicalSheet_default "(sheet (at 123.45 -7) (size 30 45.72) (fields_autoplaced)
  (stroke (width 0.254) (type dash_dot) (color 255 0 128 0.5))
  (fill (color 1 2 255 0.1234))
  (uuid 7c2f5ab1-44ff-4a1c-b96d-28f9f3a0fd1e)
  (property ""Sheetname"" ""a\b\"""" (id 3) (at 1 2.5 90) (show_name)
    (effects (font (face ""A \""b\"" \c"") (size 1.27 2) (color 255 0 128 0.5) (thickness 0.3) bold italic (line_spacing 1.1)) (justify right top mirror) (href ""https://x.y/(z)"") hide)
  )
  (property ""Sheet file"" ""a\b\"""" (id 3) (at 1 2.5 90) (show_name)
    (effects (font (face ""A \""b\"" \c"") (size 1.27 2) (color 255 0 128 0.5) (thickness 0.3) bold italic (line_spacing 1.1)) (justify right top mirror) (href ""https://x.y/(z)"") hide)
  )
  (property ""a \""b\"""" ""a\b\"""" (id 3) (at 1 2.5 90) (show_name)
    (effects (font (face ""A \""b\"" \c"") (size 1.27 2) (color 255 0 128 0.5) (thickness 0.3) bold italic (line_spacing 1.1)) (justify right top mirror) (href ""https://x.y/(z)"") hide)
  )
  (property ""Field2"" ""a\b\"""" (id 3) (at 1 2.5 90) (show_name)
    (effects (font (face ""A \""b\"" \c"") (size 1.27 2) (color 255 0 128 0.5) (thickness 0.3) bold italic (line_spacing 1.1)) (justify right top mirror) (href ""https://x.y/(z)"") hide)
  )
  (pin ""a \""b\"""" tri_state (at 123.45 7 270)
    (effects (font (face ""A \""b\"" \c"") (size 1.27 2) (color 255 0 128 0.5) (thickness 0.3) bold italic (line_spacing 1.1)) (justify right top mirror) (href ""https://x.y/(z)"") hide)
    (uuid 7c2f5ab1-44ff-4a1c-b96d-28f9f3a0fd1e)
  )
  (pin """" input (at 0.0 0.0)
    (effects (font (size 1.0 1.0)))
  )
  (instances
    (project ""my \""project\""""
      (path ""/a b/c"" (page ""2 \""a\""""))
      (path ""/a b/c"" (page ""2 \""a\""""))
    )
  )
)" = true.
Proof. vm_compute. reflexivity. Qed.

Theorem C58_HierarchicalSheetInstance : no_trace HierarchicalSheetInstance_to (fun _ : unit => HierarchicalSheetInstance_from) HierarchicalSheetInstance_ok HierarchicalSheetInstance_eqb.
Proof. exact (leave_no_trace _ _ _ _ _ HierarchicalSheetInstance_q (fun _ => HierarchicalSheetInstance_rt)). Qed.
Print Assumptions C58_HierarchicalSheetInstance.
Example C58_HierarchicalSheetInstance_case : starts HierarchicalSheetInstance_to HierarchicalSheetInstance_from HierarchicalSheetInstance_ok HierarchicalSheetInstance_eqb HierarchicalSheetInstance_edits HierarchicalSheetInstance_default "(path ""/a b/c"" (page ""2 \""a\""""))" = true.
Proof. vm_compute. reflexivity. Qed.

Theorem C58_SymbolInstance : no_trace SymbolInstance_to (fun _ : unit => SymbolInstance_from) SymbolInstance_ok SymbolInstance_eqb.
Proof. exact (leave_no_trace _ _ _ _ _ SymbolInstance_q (fun _ => SymbolInstance_rt)). Qed.
Print Assumptions C58_SymbolInstance.
Example C58_SymbolInstance_case : starts SymbolInstance_to SymbolInstance_from SymbolInstance_ok SymbolInstance_eqb SymbolInstance_edits SymbolInstance_default "(path ""/a b/c""
  (reference ""U1"") (unit 2) (value ""1 \""k\"""") (footprint ""Lib:F (x)"")
)" = true.
Proof. vm_compute. reflexivity. Qed.

Theorem C58_Rectangle : no_trace Rectangle_to (fun _ : unit => Rectangle_from) Rectangle_ok Rectangle_eqb.
Proof. exact (leave_no_trace _ _ _ _ _ Rectangle_q (fun _ => Rectangle_rt)). Qed.
Print Assumptions C58_Rectangle.
Example C58_Rectangle_case : starts Rectangle_to Rectangle_from Rectangle_ok Rectangle_eqb Rectangle_edits Rectangle_default "(rectangle (start 123.45 -7) (end 3 0.001)
  (stroke (width 0.254) (type dash_dot) (color 255 0 128 0.5))
  (fill (type color) (color 255 0 128 0.5))
  (uuid 7c2f5ab1-44ff-4a1c-b96d-28f9f3a0fd1e)
)" = true.
Proof. vm_compute. reflexivity. Qed.

Theorem C58_SchArc : no_trace SchArc_to (fun _ : unit => SchArc_from) SchArc_ok SchArc_eqb.
Proof. exact (leave_no_trace _ _ _ _ _ SchArc_q (fun _ => SchArc_rt)). Qed.
Print Assumptions C58_SchArc.
Example C58_SchArc_case : starts SchArc_to SchArc_from SchArc_ok SchArc_eqb SchArc_edits SchArc_default "(arc (start 123.45 -7) (mid 3 0.001) (end 4 1.2)
  (stroke (width 0.254) (type dash_dot) (color 255 0 128 0.5))
  (fill (type color) (color 255 0 128 0.5))
  (uuid 7c2f5ab1-44ff-4a1c-b96d-28f9f3a0fd1e)
)" = true.
Proof. vm_compute. reflexivity. Qed.

Theorem C58_Circle : no_trace Circle_to (fun _ : unit => Circle_from) Circle_ok Circle_eqb.
Proof. exact (leave_no_trace _ _ _ _ _ Circle_q (fun _ => Circle_rt)). Qed.
Print Assumptions C58_Circle.
Example C58_Circle_case : starts Circle_to Circle_from Circle_ok Circle_eqb Circle_edits Circle_default "(circle (center 123.45 -7) (radius 1.5)
  (stroke (width 0.254) (type dash_dot) (color 255 0 128 0.5))
  (fill (type color) (color 255 0 128 0.5))
  (uuid 7c2f5ab1-44ff-4a1c-b96d-28f9f3a0fd1e)
)" = true.
Proof. vm_compute. reflexivity. Qed.

Theorem C58_NetclassFlag : no_trace NetclassFlag_to (fun _ : unit => NetclassFlag_from) NetclassFlag_ok NetclassFlag_eqb.
Proof. exact (leave_no_trace _ _ _ _ _ NetclassFlag_q (fun _ => NetclassFlag_rt)). Qed.
Print Assumptions C58_NetclassFlag.
Example C58_NetclassFlag_case : starts NetclassFlag_to NetclassFlag_from NetclassFlag_ok NetclassFlag_eqb NetclassFlag_edits NetclassFlag_default "(netclass_flag ""a \""b\"""" (length 2.54) (shape dot) (at 123.45 7 270) (fields_autoplaced)
  (effects (font (face ""A \""b\"" \c"") (size 1.27 2) (color 255 0 128 0.5) (thickness 0.3) bold italic (line_spacing 1.1)) (justify right top mirror) (href ""https://x.y/(z)"") hide)
  (uuid 7c2f5ab1-44ff-4a1c-b96d-28f9f3a0fd1e)
  (property ""Sheet name"" ""a\b\"""" (id 3) (at 1 2.5 90) (show_name)
    (effects (font (face ""A \""b\"" \c"") (size 1.27 2) (color 255 0 128 0.5) (thickness 0.3) bold italic (line_spacing 1.1)) (justify right top mirror) (href ""https://x.y/(z)"") hide)
  )
  (property ""Sheet name"" ""a\b\"""" (id 3) (at 1 2.5 90) (show_name)
    (effects (font (face ""A \""b\"" \c"") (size 1.27 2) (color 255 0 128 0.5) (thickness 0.3) bold italic (line_spacing 1.1)) (justify right top mirror) (href ""https://x.y/(z)"") hide)
  )
)" = true.
Proof. vm_compute. reflexivity. Qed.

Theorem C58_Schematic : no_trace Schematic_to (fun _ : unit => Schematic_from) Schematic_ok Schematic_eqb.
Proof. exact (leave_no_trace _ _ _ _ _ Schematic_q (fun _ => Schematic_rt)). Qed.
Print Assumptions C58_Schematic.
Example C58_Schematic_case : starts Schematic_to Schematic_from Schematic_ok Schematic_eqb Schematic_edits Schematic_default "(kicad_sch (version 20230121) (generator eeschema)

  (uuid 7c2f5ab1-44ff-4a1c-b96d-28f9f3a0fd1e)

  (paper ""A3"" portrait)

  (title_block
    (title ""T"")
    (rev ""1.0"")
    (company """")
    (comment 1 ""one"")
    (comment 4 ""four (4)"")
  )

  (lib_symbols
    (symbol ""Amplifier:LM 358"" (extends ""LM \""X\"""") (power) (pin_numbers hide) (pin_names (offset 0.5) hide) (in_bom yes) (on_board no)
      (property ""Sheet name"" ""a\b\"""" (id 3) (at 1 2.5 90) (show_name)
        (effects (font (face ""A \""b\"" \c"") (size 1.27 2) (color 255 0 128 0.5) (thickness 0.3) bold italic (line_spacing 1.1)) (justify right top mirror) (href ""https://x.y/(z)"") hide)
      )
      (property ""Sheet name"" ""a\b\"""" (id 3) (at 1 2.5 90) (show_name)
        (effects (font (face ""A \""b\"" \c"") (size 1.27 2) (color 255 0 128 0.5) (thickness 0.3) bold italic (line_spacing 1.1)) (justify right top mirror) (href ""https://x.y/(z)"") hide)
      )
      (circle (center 0.0 0.0) (radius 0.0)
        (stroke (width 0.0))
        (fill (type none))
      )
      (text """" (at 0.0 0.0)
        (effects (font (size 1.0 1.0)))
      )
      (pin power_in line (at 2 3 90) (length 2.54) hide
        (name ""~{RST}"" (effects (font (face ""A \""b\"" \c"") (size 1.27 2) (color 255 0 128 0.5) (thickness 0.3) bold italic (line_spacing 1.1)) (justify right top mirror) (href ""https://x.y/(z)"") hide))
        (number ""12"")
        (alternate """" input line)
        (alternate """" input line)
      )
      (pin input line (at 0.0 0.0) (length 0.254) (name """") (number ""0""))
      (symbol ""LM 358_0_1""
        (rectangle (start 0.0 0.0) (end 0.0 0.0)
          (stroke (width 0.0))
          (fill (type none))
        )
        (arc (start 0.0 0.0) (mid 0.0 0.0) (end 0.0 0.0)
          (stroke (width 0.0))
          (fill (type none))
        )
        (pin power_in line (at 2 3 90) (length 2.54) hide
          (name ""~{RST}"" (effects (font (face ""A \""b\"" \c"") (size 1.27 2) (color 255 0 128 0.5) (thickness 0.3) bold italic (line_spacing 1.1)) (justify right top mirror) (href ""https://x.y/(z)"") hide))
          (number ""12"")
          (alternate """" input line)
          (alternate """" input line)
        )
      )
      (symbol ""LM 358_1_1""
        (rectangle (start 0.0 0.0) (end 0.0 0.0)
          (stroke (width 0.0))
          (fill (type none))
        )
        (arc (start 0.0 0.0) (mid 0.0 0.0) (end 0.0 0.0)
          (stroke (width 0.0))
          (fill (type none))
        )
        (pin power_in line (at 2 3 90) (length 2.54) hide
          (name ""~{RST}"" (effects (font (face ""A \""b\"" \c"") (size 1.27 2) (color 255 0 128 0.5) (thickness 0.3) bold italic (line_spacing 1.1)) (justify right top mirror) (href ""https://x.y/(z)"") hide))
          (number ""12"")
          (alternate """" input line)
          (alternate """" input line)
        )
        (symbol ""LM 358_7_1""
          (rectangle (start 0.0 0.0) (end 0.0 0.0)
            (stroke (width 0.0))
            (fill (type none))
          )
          (arc (start 0.0 0.0) (mid 0.0 0.0) (end 0.0 0.0)
            (stroke (width 0.0))
            (fill (type none))
          )
          (pin power_in line (at 2 3 90) (length 2.54) hide
            (name ""~{RST}"" (effects (font (face ""A \""b\"" \c"") (size 1.27 2) (color 255 0 128 0.5) (thickness 0.3) bold italic (line_spacing 1.1)) (justify right top mirror) (href ""https://x.y/(z)"") hide))
            (number ""12"")
            (alternate """" input line)
            (alternate """" input line)
          )
        )
        (symbol ""LM 358_8_1""
          (rectangle (start 0.0 0.0) (end 0.0 0.0)
            (stroke (width 0.0))
            (fill (type none))
          )
          (arc (start 0.0 0.0) (mid 0.0 0.0) (end 0.0 0.0)
            (stroke (width 0.0))
            (fill (type none))
          )
          (pin power_in line (at 2 3 90) (length 2.54) hide
            (name ""~{RST}"" (effects (font (face ""A \""b\"" \c"") (size 1.27 2) (color 255 0 128 0.5) (thickness 0.3) bold italic (line_spacing 1.1)) (justify right top mirror) (href ""https://x.y/(z)"") hide))
            (number ""12"")
            (alternate """" input line)
            (alternate """" input line)
          )
        )
      )
    )

    (symbol ""Amplifier:LM 358"" (extends ""LM \""X\"""") (power) (pin_numbers hide) (pin_names (offset 0.5) hide) (in_bom yes) (on_board no)
      (property ""Sheet name"" ""a\b\"""" (id 3) (at 1 2.5 90) (show_name)
        (effects (font (face ""A \""b\"" \c"") (size 1.27 2) (color 255 0 128 0.5) (thickness 0.3) bold italic (line_spacing 1.1)) (justify right top mirror) (href ""https://x.y/(z)"") hide)
      )
      (property ""Sheet name"" ""a\b\"""" (id 3) (at 1 2.5 90) (show_name)
        (effects (font (face ""A \""b\"" \c"") (size 1.27 2) (color 255 0 128 0.5) (thickness 0.3) bold italic (line_spacing 1.1)) (justify right top mirror) (href ""https://x.y/(z)"") hide)
      )
      (circle (center 0.0 0.0) (radius 0.0)
        (stroke (width 0.0))
        (fill (type none))
      )
      (text """" (at 0.0 0.0)
        (effects (font (size 1.0 1.0)))
      )
      (pin power_in line (at 2 3 90) (length 2.54) hide
        (name ""~{RST}"" (effects (font (face ""A \""b\"" \c"") (size 1.27 2) (color 255 0 128 0.5) (thickness 0.3) bold italic (line_spacing 1.1)) (justify right top mirror) (href ""https://x.y/(z)"") hide))
        (number ""12"")
        (alternate """" input line)
        (alternate """" input line)
      )
      (pin input line (at 0.0 0.0) (length 0.254) (name """") (number ""0""))
      (symbol ""LM 358_0_1""
        (rectangle (start 0.0 0.0) (end 0.0 0.0)
          (stroke (width 0.0))
          (fill (type none))
        )
        (arc (start 0.0 0.0) (mid 0.0 0.0) (end 0.0 0.0)
          (stroke (width 0.0))
          (fill (type none))
        )
        (pin power_in line (at 2 3 90) (length 2.54) hide
          (name ""~{RST}"" (effects (font (face ""A \""b\"" \c"") (size 1.27 2) (color 255 0 128 0.5) (thickness 0.3) bold italic (line_spacing 1.1)) (justify right top mirror) (href ""https://x.y/(z)"") hide))
          (number ""12"")
          (alternate """" input line)
          (alternate """" input line)
        )
      )
      (symbol ""LM 358_1_1""
        (rectangle (start 0.0 0.0) (end 0.0 0.0)
          (stroke (width 0.0))
          (fill (type none))
        )
        (arc (start 0.0 0.0) (mid 0.0 0.0) (end 0.0 0.0)
          (stroke (width 0.0))
          (fill (type none))
        )
        (pin power_in line (at 2 3 90) (length 2.54) hide
          (name ""~{RST}"" (effects (font (face ""A \""b\"" \c"") (size 1.27 2) (color 255 0 128 0.5) (thickness 0.3) bold italic (line_spacing 1.1)) (justify right top mirror) (href ""https://x.y/(z)"") hide))
          (number ""12"")
          (alternate """" input line)
          (alternate """" input line)
        )
        (symbol ""LM 358_7_1""
          (rectangle (start 0.0 0.0) (end 0.0 0.0)
            (stroke (width 0.0))
            (fill (type none))
          )
          (arc (start 0.0 0.0) (mid 0.0 0.0) (end 0.0 0.0)
            (stroke (width 0.0))
            (fill (type none))
          )
          (pin power_in line (at 2 3 90) (length 2.54) hide
            (name ""~{RST}"" (effects (font (face ""A \""b\"" \c"") (size 1.27 2) (color 255 0 128 0.5) (thickness 0.3) bold italic (line_spacing 1.1)) (justify right top mirror) (href ""https://x.y/(z)"") hide))
            (number ""12"")
            (alternate """" input line)
            (alternate """" input line)
          )
        )
        (symbol ""LM 358_8_1""
          (rectangle (start 0.0 0.0) (end 0.0 0.0)
            (stroke (width 0.0))
            (fill (type none))
          )
          (arc (start 0.0 0.0) (mid 0.0 0.0) (end 0.0 0.0)
            (stroke (width 0.0))
            (fill (type none))
          )
          (pin power_in line (at 2 3 90) (length 2.54) hide
            (name ""~{RST}"" (effects (font (face ""A \""b\"" \c"") (size 1.27 2) (color 255 0 128 0.5) (thickness 0.3) bold italic (line_spacing 1.1)) (justify right top mirror) (href ""https://x.y/(z)"") hide))
            (number ""12"")
            (alternate """" input line)
            (alternate """" input line)
          )
        )
      )
    )
  )

  (junction (at 123.45 -7) (diameter 0) (color 255 0 128 0.5)
    (uuid 7c2f5ab1-44ff-4a1c-b96d-28f9f3a0fd1e)
  )
  (junction (at 0.0 0.0) (diameter 0) (color 0 0 0 0)  )

  (no_connect (at 123.45 -7) (uuid 7c2f5ab1-44ff-4a1c-b96d-28f9f3a0fd1e))

  (bus_entry (at 123.45 -7) (size 2.54 3)
    (stroke (width 0.254) (type dash_dot) (color 255 0 128 0.5))
    (uuid 7c2f5ab1-44ff-4a1c-b96d-28f9f3a0fd1e)
  )

  (bus_alias ""a \""b\"""" (members ""A[0..7]"" """"))

  (bus (pts (xy 123.45 -7) (xy 1 0.5))
    (stroke (width 0.254) (type dash_dot) (color 255 0 128 0.5))
    (uuid 7c2f5ab1-44ff-4a1c-b96d-28f9f3a0fd1e)
  )
  (polyline (pts (xy 123.45 -7) (xy 1 0.5))
    (stroke (width 0.254) (type dash_dot) (color 255 0 128 0.5))
    (uuid 7c2f5ab1-44ff-4a1c-b96d-28f9f3a0fd1e)
  )
  (wire (pts (xy 123.45 -7) (xy 1 0.5))
    (stroke (width 0.254) (type dash_dot) (color 255 0 128 0.5))
    (uuid 7c2f5ab1-44ff-4a1c-b96d-28f9f3a0fd1e)
  )

  (circle (center 123.45 -7) (radius 1.5)
    (stroke (width 0.254) (type dash_dot) (color 255 0 128 0.5))
    (fill (type color) (color 255 0 128 0.5))
    (uuid 7c2f5ab1-44ff-4a1c-b96d-28f9f3a0fd1e)
  )
  (arc (start 0.0 0.0) (mid 0.0 0.0) (end 0.0 0.0)
    (stroke (width 0.0))
    (fill (type none))
  )
  (rectangle (start 0.0 0.0) (end 0.0 0.0)
    (stroke (width 0.0))
    (fill (type none))
  )

  (image (at 12.34 5) (scale 0.5)
    (uuid a-b-c)
    (data
      iVBORw0KGgo=
      12
    )
  )

  (text_box ""a \""b\""""
    (at 123.45 7 270) (size 3 0.001)
    (stroke (width 0.254) (type dash_dot) (color 255 0 128 0.5))
    (fill (type color) (color 255 0 128 0.5))
    (effects (font (face ""A \""b\"" \c"") (size 1.27 2) (color 255 0 128 0.5) (thickness 0.3) bold italic (line_spacing 1.1)) (justify right top mirror) (href ""https://x.y/(z)"") hide)
    (uuid 7c2f5ab1-44ff-4a1c-b96d-28f9f3a0fd1e)
  )

  (text ""0123456789 0123456789 0123456789 (\""0123456789\"") 0123456""
    (at 123.45 7 270)
    (effects (font (face ""A \""b\"" \c"") (size 1.27 2) (color 255 0 128 0.5) (thickness 0.3) bold italic (line_spacing 1.1)) (justify right top mirror) (href ""https://x.y/(z)"") hide)
    (uuid 7c2f5ab1-44ff-4a1c-b96d-28f9f3a0fd1e)
  )

  (label ""a \""b\"""" (at 123.45 7 270) (fields_autoplaced)
    (effects (font (face ""A \""b\"" \c"") (size 1.27 2) (color 255 0 128 0.5) (thickness 0.3) bold italic (line_spacing 1.1)) (justify right top mirror) (href ""https://x.y/(z)"") hide)
    (uuid 7c2f5ab1-44ff-4a1c-b96d-28f9f3a0fd1e)
  )

  (global_label ""a \""b\"""" (shape bidirectional) (at 123.45 7 270) (fields_autoplaced)
    (effects (font (face ""A \""b\"" \c"") (size 1.27 2) (color 255 0 128 0.5) (thickness 0.3) bold italic (line_spacing 1.1)) (justify right top mirror) (href ""https://x.y/(z)"") hide)
    (uuid 7c2f5ab1-44ff-4a1c-b96d-28f9f3a0fd1e)
    (property ""Sheet name"" ""a\b\"""" (id 3) (at 1 2.5 90) (show_name)
      (effects (font (face ""A \""b\"" \c"") (size 1.27 2) (color 255 0 128 0.5) (thickness 0.3) bold italic (line_spacing 1.1)) (justify right top mirror) (href ""https://x.y/(z)"") hide)
    )
    (property ""Sheet name"" ""a\b\"""" (id 3) (at 1 2.5 90) (show_name)
      (effects (font (face ""A \""b\"" \c"") (size 1.27 2) (color 255 0 128 0.5) (thickness 0.3) bold italic (line_spacing 1.1)) (justify right top mirror) (href ""https://x.y/(z)"") hide)
    )
  )

  (hierarchical_label ""a \""b\"""" (shape output) (at 123.45 7 270) (fields_autoplaced)
    (effects (font (face ""A \""b\"" \c"") (size 1.27 2) (color 255 0 128 0.5) (thickness 0.3) bold italic (line_spacing 1.1)) (justify right top mirror) (href ""https://x.y/(z)"") hide)
    (uuid 7c2f5ab1-44ff-4a1c-b96d-28f9f3a0fd1e)
  )

  (netclass_flag ""a \""b\"""" (length 2.54) (shape dot) (at 123.45 7 270) (fields_autoplaced)
    (effects (font (face ""A \""b\"" \c"") (size 1.27 2) (color 255 0 128 0.5) (thickness 0.3) bold italic (line_spacing 1.1)) (justify right top mirror) (href ""https://x.y/(z)"") hide)
    (uuid 7c2f5ab1-44ff-4a1c-b96d-28f9f3a0fd1e)
    (property ""Sheet name"" ""a\b\"""" (id 3) (at 1 2.5 90) (show_name)
      (effects (font (face ""A \""b\"" \c"") (size 1.27 2) (color 255 0 128 0.5) (thickness 0.3) bold italic (line_spacing 1.1)) (justify right top mirror) (href ""https://x.y/(z)"") hide)
    )
    (property ""Sheet name"" ""a\b\"""" (id 3) (at 1 2.5 90) (show_name)
      (effects (font (face ""A \""b\"" \c"") (size 1.27 2) (color 255 0 128 0.5) (thickness 0.3) bold italic (line_spacing 1.1)) (justify right top mirror) (href ""https://x.y/(z)"") hide)
    )
  )

  (symbol (lib_name ""R_1"") (lib_id ""Device:R:x_1_2"") (at 123.45 7 270) (mirror x) (unit 2)
    (in_bom yes) (on_board no) (dnp no) (fields_autoplaced)
    (uuid 7c2f5ab1-44ff-4a1c-b96d-28f9f3a0fd1e)
    (property ""Sheet name"" ""a\b\"""" (id 3) (at 1 2.5 90) (show_name)
      (effects (font (face ""A \""b\"" \c"") (size 1.27 2) (color 255 0 128 0.5) (thickness 0.3) bold italic (line_spacing 1.1)) (justify right top mirror) (href ""https://x.y/(z)"") hide)
    )
    (property ""Sheet name"" ""a\b\"""" (id 3) (at 1 2.5 90) (show_name)
      (effects (font (face ""A \""b\"" \c"") (size 1.27 2) (color 255 0 128 0.5) (thickness 0.3) bold italic (line_spacing 1.1)) (justify right top mirror) (href ""https://x.y/(z)"") hide)
    )
    (pin ""1"" (uuid 7c2f5ab1-44ff-4a1c-b96d-28f9f3a0fd1e))
    (pin ""A \""2\"""" (uuid abc-12))
    (instances
      (project ""my \""project\""""
        (path ""/00000000-0000-0000-0000-00005f325e1e""
          (reference ""U 1"") (unit 1)
        )
        (path ""/00000000-0000-0000-0000-00005f325e1e""
          (reference ""U 1"") (unit 2)
        )
      )
      (project """"
      )
    )
  )

  (symbol (lib_name ""R_1"") (lib_id ""Device:R:x_1_2"") (at 123.45 7 270) (mirror x) (unit 2)
    (in_bom yes) (on_board no) (dnp no) (fields_autoplaced)
    (uuid 7c2f5ab1-44ff-4a1c-b96d-28f9f3a0fd1e)
    (property ""Sheet name"" ""a\b\"""" (id 3) (at 1 2.5 90) (show_name)
      (effects (font (face ""A \""b\"" \c"") (size 1.27 2) (color 255 0 128 0.5) (thickness 0.3) bold italic (line_spacing 1.1)) (justify right top mirror) (href ""https://x.y/(z)"") hide)
    )
    (property ""Sheet name"" ""a\b\"""" (id 3) (at 1 2.5 90) (show_name)
      (effects (font (face ""A \""b\"" \c"") (size 1.27 2) (color 255 0 128 0.5) (thickness 0.3) bold italic (line_spacing 1.1)) (justify right top mirror) (href ""https://x.y/(z)"") hide)
    )
    (pin ""1"" (uuid 7c2f5ab1-44ff-4a1c-b96d-28f9f3a0fd1e))
    (pin ""A \""2\"""" (uuid abc-12))
    (instances
      (project ""my \""project\""""
        (path ""/00000000-0000-0000-0000-00005f325e1e""
          (reference ""U 1"") (unit 1)
        )
        (path ""/00000000-0000-0000-0000-00005f325e1e""
          (reference ""U 1"") (unit 2)
        )
      )
      (project """"
      )
    )
  )

  (sheet (at 123.45 -7) (size 30 45.72) (fields_autoplaced)
    (stroke (width 0.254) (type dash_dot) (color 255 0 128 0.5))
    (fill (color 1 2 255 0.1234))
    (uuid 7c2f5ab1-44ff-4a1c-b96d-28f9f3a0fd1e)
    (property ""Sheetname"" ""a\b\"""" (id 3) (at 1 2.5 90) (show_name)
      (effects (font (face ""A \""b\"" \c"") (size 1.27 2) (color 255 0 128 0.5) (thickness 0.3) bold italic (line_spacing 1.1)) (justify right top mirror) (href ""https://x.y/(z)"") hide)
    )
    (property ""Sheet file"" ""a\b\"""" (id 3) (at 1 2.5 90) (show_name)
      (effects (font (face ""A \""b\"" \c"") (size 1.27 2) (color 255 0 128 0.5) (thickness 0.3) bold italic (line_spacing 1.1)) (justify right top mirror) (href ""https://x.y/(z)"") hide)
    )
    (property ""a \""b\"""" ""a\b\"""" (id 3) (at 1 2.5 90) (show_name)
      (effects (font (face ""A \""b\"" \c"") (size 1.27 2) (color 255 0 128 0.5) (thickness 0.3) bold italic (line_spacing 1.1)) (justify right top mirror) (href ""https://x.y/(z)"") hide)
    )
    (property ""Field2"" ""a\b\"""" (id 3) (at 1 2.5 90) (show_name)
      (effects (font (face ""A \""b\"" \c"") (size 1.27 2) (color 255 0 128 0.5) (thickness 0.3) bold italic (line_spacing 1.1)) (justify right top mirror) (href ""https://x.y/(z)"") hide)
    )
    (pin ""a \""b\"""" tri_state (at 123.45 7 270)
      (effects (font (face ""A \""b\"" \c"") (size 1.27 2) (color 255 0 128 0.5) (thickness 0.3) bold italic (line_spacing 1.1)) (justify right top mirror) (href ""https://x.y/(z)"") hide)
      (uuid 7c2f5ab1-44ff-4a1c-b96d-28f9f3a0fd1e)
    )
    (pin """" input (at 0.0 0.0)
      (effects (font (size 1.0 1.0)))
    )
    (instances
      (project ""my \""project\""""
        (path ""/a b/c"" (page ""2 \""a\""""))
        (path ""/a b/c"" (page ""2 \""a\""""))
      )
    )
  )

  (sheet (at 123.45 -7) (size 30 45.72) (fields_autoplaced)
    (stroke (width 0.254) (type dash_dot) (color 255 0 128 0.5))
    (fill (color 1 2 255 0.1234))
    (uuid 7c2f5ab1-44ff-4a1c-b96d-28f9f3a0fd1e)
    (property ""Sheetname"" ""a\b\"""" (id 3) (at 1 2.5 90) (show_name)
      (effects (font (face ""A \""b\"" \c"") (size 1.27 2) (color 255 0 128 0.5) (thickness 0.3) bold italic (line_spacing 1.1)) (justify right top mirror) (href ""https://x.y/(z)"") hide)
    )
    (property ""Sheet file"" ""a\b\"""" (id 3) (at 1 2.5 90) (show_name)
      (effects (font (face ""A \""b\"" \c"") (size 1.27 2) (color 255 0 128 0.5) (thickness 0.3) bold italic (line_spacing 1.1)) (justify right top mirror) (href ""https://x.y/(z)"") hide)
    )
    (property ""a \""b\"""" ""a\b\"""" (id 3) (at 1 2.5 90) (show_name)
      (effects (font (face ""A \""b\"" \c"") (size 1.27 2) (color 255 0 128 0.5) (thickness 0.3) bold italic (line_spacing 1.1)) (justify right top mirror) (href ""https://x.y/(z)"") hide)
    )
    (property ""Field2"" ""a\b\"""" (id 3) (at 1 2.5 90) (show_name)
      (effects (font (face ""A \""b\"" \c"") (size 1.27 2) (color 255 0 128 0.5) (thickness 0.3) bold italic (line_spacing 1.1)) (justify right top mirror) (href ""https://x.y/(z)"") hide)
    )
    (pin ""a \""b\"""" tri_state (at 123.45 7 270)
      (effects (font (face ""A \""b\"" \c"") (size 1.27 2) (color 255 0 128 0.5) (thickness 0.3) bold italic (line_spacing 1.1)) (justify right top mirror) (href ""https://x.y/(z)"") hide)
      (uuid 7c2f5ab1-44ff-4a1c-b96d-28f9f3a0fd1e)
    )
    (pin """" input (at 0.0 0.0)
      (effects (font (size 1.0 1.0)))
    )
    (instances
      (project ""my \""project\""""
        (path ""/a b/c"" (page ""2 \""a\""""))
        (path ""/a b/c"" (page ""2 \""a\""""))
      )
    )
  )

  (sheet_instances
    (path ""/"" (page ""1""))
    (path ""/a b/c"" (page ""2 \""a\""""))
  )

  (symbol_instances
    (path ""/a b/c""
      (reference ""U1"") (unit 2) (value ""1 \""k\"""") (footprint ""Lib:F (x)"")
    )
  )
)" = true.
Proof. vm_compute. reflexivity. Qed.

Theorem C58_WksFontSize : no_trace WksFontSize_to (fun _ : unit => WksFontSize_from) WksFontSize_ok WksFontSize_eqb.
Proof. exact (leave_no_trace _ _ _ _ _ WksFontSize_q (fun _ => WksFontSize_rt)). Qed.
Print Assumptions C58_WksFontSize.
Example C58_WksFontSize_case : starts WksFontSize_to WksFontSize_from WksFontSize_ok WksFontSize_eqb WksFontSize_edits WksFontSize_default "(size 1.3 2)" = true.
Proof. vm_compute. reflexivity. Qed.

Theorem C58_WksFont : no_trace WksFont_to (fun _ : unit => WksFont_from) WksFont_ok1 WksFont_eqb.
Proof. exact (leave_no_trace _ _ _ _ _ WksFont_q (fun _ => WksFont_rt1)). Qed.
Print Assumptions C58_WksFont.
Example C58_WksFont_case : starts WksFont_to WksFont_from WksFont_ok1 WksFont_eqb WksFont_edits WksFont_default "(font (linewidth 0.15) (size 1.3 2) bold italic)" = true.
Proof. vm_compute. reflexivity. Qed.

Theorem C58_Line : no_trace Line_to (fun _ : unit => Line_from) Line_ok Line_eqb.
Proof. exact (leave_no_trace _ _ _ _ _ Line_q (fun _ => Line_rt)). Qed.
Print Assumptions C58_Line.
Example C58_Line_case : starts Line_to Line_from Line_ok Line_eqb Line_edits Line_default "(line (name ""a \""b\"""") (start 2.5 7 ltcorner) (end 2.5 7) (option page1only) (linewidth 0.15) (repeat 3) (incrx 5) (incry 0.5) (comment ""c (d)"")
)" = true.
Proof. vm_compute. reflexivity. Qed.

Theorem C58_Rect : no_trace Rect_to (fun _ : unit => Rect_from) Rect_ok Rect_eqb.
Proof. exact (leave_no_trace _ _ _ _ _ Rect_q (fun _ => Rect_rt)). Qed.
Print Assumptions C58_Rect.
Example C58_Rect_case : starts Rect_to Rect_from Rect_ok Rect_eqb Rect_edits Rect_default "(rect (name ""a \""b\"""") (start 2.5 7 ltcorner) (end 2.5 7) (option page1only) (linewidth 0.15) (repeat 3) (incrx 5) (incry 0.5) (comment ""c (d)"")
)" = true.
Proof. vm_compute. reflexivity. Qed.

Theorem C58_Bitmap : no_trace Bitmap_to (fun _ : unit => Bitmap_from) Bitmap_ok Bitmap_eqb.
Proof. exact (leave_no_trace _ _ _ _ _ Bitmap_q (fun _ => Bitmap_rt)). Qed.
Print Assumptions C58_Bitmap.
Example C58_Bitmap_case : starts Bitmap_to Bitmap_from Bitmap_ok Bitmap_eqb Bitmap_edits Bitmap_default "(bitmap (name ""a \""b\"""") (pos 2.5 7 ltcorner) (option notonpage1) (scale 0.5) (repeat 2) (incrx 5) (incry 0.5)
 (comment ""c (d)"")
(pngdata
  (data ""89 50 4E 47 "")
  (data ""0D 0A "")
  )
)" = true.
Proof. vm_compute. reflexivity. Qed.

Theorem C58_TbText : no_trace TbText_to (fun _ : unit => TbText_from) TbText_ok TbText_eqb.
Proof. exact (leave_no_trace _ _ _ _ _ TbText_q (fun _ => TbText_rt)). Qed.
Print Assumptions C58_TbText.
Example C58_TbText_case : starts TbText_to TbText_from TbText_ok TbText_eqb TbText_edits TbText_default "(tbtext ""Id: \""${#}\"" (x)"" (name ""n"") (pos 2.5 7 ltcorner) (option page1only) (rotate 90) (font (linewidth 0.15) (size 1.3 2) bold italic) (justify right top mirror) (maxlen 70) (maxheight 3.5) (repeat 2) (incrx 5) (incry 0.5) (incrlabel 1) (comment ""c (d)"")
)" = true.
Proof. vm_compute. reflexivity. Qed.

Theorem C58_TextSize : no_trace TextSize_to (fun _ : unit => TextSize_from) TextSize_ok TextSize_eqb.
Proof. exact (leave_no_trace _ _ _ _ _ TextSize_q (fun _ => TextSize_rt)). Qed.
Print Assumptions C58_TextSize.
Example C58_TextSize_case : starts TextSize_to TextSize_from TextSize_ok TextSize_eqb TextSize_edits TextSize_default "(textsize 1.5 2)" = true.
Proof. vm_compute. reflexivity. Qed.

Theorem C58_Setup : no_trace Setup_to (fun _ : unit => Setup_from) Setup_ok Setup_eqb.
Proof. exact (leave_no_trace _ _ _ _ _ Setup_q (fun _ => Setup_rt)). Qed.
Print Assumptions C58_Setup.
Example C58_Setup_case : starts Setup_to Setup_from Setup_ok Setup_eqb Setup_edits Setup_default "(setup (textsize 1.5 2)(linewidth 0.15)(textlinewidth 1)
(left_margin 10)(right_margin 10.5)(top_margin 11)(bottom_margin 12))" = true.
Proof. vm_compute. reflexivity. Qed.

Theorem C58_WorkSheet : no_trace WorkSheet_to (fun _ : unit => WorkSheet_from) WorkSheet_ok WorkSheet_eqb.
Proof. exact (leave_no_trace _ _ _ _ _ WorkSheet_q (fun _ => WorkSheet_rt)). Qed.
Print Assumptions C58_WorkSheet.
Example C58_WorkSheet_case : starts WorkSheet_to WorkSheet_from WorkSheet_ok WorkSheet_eqb WorkSheet_edits WorkSheet_default "(kicad_wks (version 20220228) (generator pl_editor)
  (setup (textsize 1.5 2)(linewidth 0.15)(textlinewidth 1)
  (left_margin 10)(right_margin 10.5)(top_margin 11)(bottom_margin 12))
  (tbtext ""Id: \""${#}\"" (x)"" (name ""n"") (pos 2.5 7 ltcorner) (option page1only) (rotate 90) (font (linewidth 0.15) (size 1.3 2) bold italic) (justify right top mirror) (maxlen 70) (maxheight 3.5) (repeat 2) (incrx 5) (incry 0.5) (incrlabel 1) (comment ""c (d)"")
)
  (line (name """") (start 0.0 0.0) (end 0.0 0.0))
  (rect (name """") (start 0.0 0.0) (end 0.0 0.0))
  (bitmap (name ""a \""b\"""") (pos 2.5 7 ltcorner) (option notonpage1) (scale 0.5) (repeat 2) (incrx 5) (incry 0.5)
 (comment ""c (d)"")
  (pngdata
    (data ""89 50 4E 47 "")
    (data ""0D 0A "")
    )
  )
  (tbtext """" (name """") (pos 0.0 0.0))
)" = true.
Proof. vm_compute. reflexivity. Qed.
