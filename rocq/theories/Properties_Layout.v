(** The frame of the written text (C43): the indentation in front, one expression in parentheses and the line feed behind
    it that [newline] asks for.  Beside each theorem stands an object that can be written. *)
From Verif Require Import PyBase PyNum PyStr PyRe Sexpr S_Layout M_Common M_Lib M_Sym M_Fp M_Gr M_Zone M_Footprint M_Dim M_Brd M_Board M_Sch M_Schematic M_Wks.
From Verif Require L_Layout L_LayoutA.

Theorem C43_Coordinate : lays_out Coordinate_to.
Proof. exact L_LayoutA.Coordinate_lay. Qed.
Print Assumptions C43_Coordinate.
Example C43_Coordinate_case : match Coordinate_to Coordinate_default 2 true with Ok (32 :: 32 :: 40 :: _)%N => true | _ => false end = true.
Proof. vm_compute. reflexivity. Qed.

Theorem C43_ColorRGBA : lays_out ColorRGBA_to.
Proof. exact L_LayoutA.ColorRGBA_lay. Qed.
Print Assumptions C43_ColorRGBA.
Example C43_ColorRGBA_case : match ColorRGBA_to ColorRGBA_default 2 true with Ok (32 :: 32 :: 40 :: _)%N => true | _ => false end = true.
Proof. vm_compute. reflexivity. Qed.

Theorem C43_Stroke : lays_out Stroke_to.
Proof. exact L_LayoutA.Stroke_lay. Qed.
Print Assumptions C43_Stroke.
Example C43_Stroke_case : match Stroke_to Stroke_default 2 true with Ok (32 :: 32 :: 40 :: _)%N => true | _ => false end = true.
Proof. vm_compute. reflexivity. Qed.

Theorem C43_Font : lays_out Font_to.
Proof. exact L_LayoutA.Font_lay. Qed.
Print Assumptions C43_Font.
Example C43_Font_case : match Font_to Font_default 2 true with Ok (32 :: 32 :: 40 :: _)%N => true | _ => false end = true.
Proof. vm_compute. reflexivity. Qed.

Theorem C43_Justify : lays_out_or_blank (fun o => is_none (ju_horizontally o) && is_none (ju_vertically o) && negb (ju_mirror o)) Justify_to.
Proof. exact L_LayoutA.Justify_lay. Qed.
Print Assumptions C43_Justify.
Example C43_Justify_case : match Justify_to (Justify_default <| ju_mirror := true |>) 2 true with Ok (32 :: 32 :: 40 :: _)%N => true | _ => false end = true.
Proof. vm_compute. reflexivity. Qed.

Theorem C43_Effects : lays_out Effects_to.
Proof. exact L_LayoutA.Effects_lay. Qed.
Print Assumptions C43_Effects.
Example C43_Effects_case : match Effects_to Effects_default 2 true with Ok (32 :: 32 :: 40 :: _)%N => true | _ => false end = true.
Proof. vm_compute. reflexivity. Qed.

Theorem C43_Net : lays_out Net_to.
Proof. exact L_LayoutA.Net_lay. Qed.
Print Assumptions C43_Net.
Example C43_Net_case : match Net_to Net_default 2 true with Ok (32 :: 32 :: 40 :: _)%N => true | _ => false end = true.
Proof. vm_compute. reflexivity. Qed.

Theorem C43_Group : lays_out Group_to.
Proof. exact L_LayoutA.Group_lay. Qed.
Print Assumptions C43_Group.
Example C43_Group_case : match Group_to Group_default 2 true with Ok (32 :: 32 :: 40 :: _)%N => true | _ => false end = true.
Proof. vm_compute. reflexivity. Qed.

Theorem C43_PageSettings : lays_out PageSettings_to.
Proof. exact L_LayoutA.PageSettings_lay. Qed.
Print Assumptions C43_PageSettings.
Example C43_PageSettings_case : match PageSettings_to PageSettings_default 2 true with Ok (32 :: 32 :: 40 :: _)%N => true | _ => false end = true.
Proof. vm_compute. reflexivity. Qed.

Theorem C43_TitleBlock : lays_out TitleBlock_to.
Proof. exact L_LayoutA.TitleBlock_lay. Qed.
Print Assumptions C43_TitleBlock.
Example C43_TitleBlock_case : match TitleBlock_to TitleBlock_default 2 true with Ok (32 :: 32 :: 40 :: _)%N => true | _ => false end = true.
Proof. vm_compute. reflexivity. Qed.

Theorem C43_Property : lays_out Property_to.
Proof. exact L_LayoutA.Property_lay. Qed.
Print Assumptions C43_Property.
Example C43_Property_case : match Property_to Property_default 2 true with Ok (32 :: 32 :: 40 :: _)%N => true | _ => false end = true.
Proof. vm_compute. reflexivity. Qed.

Theorem C43_RenderCachePolygon : lays_out RenderCachePolygon_to.
Proof. exact L_LayoutA.RenderCachePolygon_lay. Qed.
Print Assumptions C43_RenderCachePolygon.
Example C43_RenderCachePolygon_case : match RenderCachePolygon_to RenderCachePolygon_default 2 true with Ok (32 :: 32 :: 40 :: _)%N => true | _ => false end = true.
Proof. vm_compute. reflexivity. Qed.

Theorem C43_RenderCache : lays_out RenderCache_to.
Proof. exact L_LayoutA.RenderCache_lay. Qed.
Print Assumptions C43_RenderCache.
Example C43_RenderCache_case : match RenderCache_to RenderCache_default 2 true with Ok (32 :: 32 :: 40 :: _)%N => true | _ => false end = true.
Proof. vm_compute. reflexivity. Qed.

Theorem C43_Fill : lays_out Fill_to.
Proof. exact L_LayoutA.Fill_lay. Qed.
Print Assumptions C43_Fill.
Example C43_Fill_case : match Fill_to Fill_default 2 true with Ok (32 :: 32 :: 40 :: _)%N => true | _ => false end = true.
Proof. vm_compute. reflexivity. Qed.

Theorem C43_Image : lays_out Image_to.
Proof. exact L_LayoutA.Image_lay. Qed.
Print Assumptions C43_Image.
Example C43_Image_case : match Image_to Image_default 2 true with Ok (32 :: 32 :: 40 :: _)%N => true | _ => false end = true.
Proof. vm_compute. reflexivity. Qed.

Theorem C43_Library : lays_out Library_to.
Proof. exact L_LayoutA.Library_lay. Qed.
Print Assumptions C43_Library.
Example C43_Library_case : match Library_to Library_default 2 true with Ok (32 :: 32 :: 40 :: _)%N => true | _ => false end = true.
Proof. vm_compute. reflexivity. Qed.

Theorem C43_LibTable : lays_out LibTable_to.
Proof. exact L_LayoutA.LibTable_lay. Qed.
Print Assumptions C43_LibTable.
Example C43_LibTable_case : match LibTable_to LibTable_default 2 true with Ok (32 :: 32 :: 40 :: _)%N => true | _ => false end = true.
Proof. vm_compute. reflexivity. Qed.

Theorem C43_Constraint : lays_out Constraint_to.
Proof. exact L_LayoutA.Constraint_lay. Qed.
Print Assumptions C43_Constraint.
Example C43_Constraint_case : match Constraint_to Constraint_default 2 true with Ok (32 :: 32 :: 40 :: _)%N => true | _ => false end = true.
Proof. vm_compute. reflexivity. Qed.

Theorem C43_Rule : lays_out_lines (fun _ => false) Rule_to.
Proof. exact L_LayoutA.Rule_lay. Qed.
Print Assumptions C43_Rule.
Example C43_Rule_case : match Rule_to Rule_default 2 true with Ok (32 :: 32 :: 40 :: _)%N => true | _ => false end = true.
Proof. vm_compute. reflexivity. Qed.

Theorem C43_SyArc : lays_out SyArc_to.
Proof. exact L_LayoutA.SyArc_lay. Qed.
Print Assumptions C43_SyArc.
Example C43_SyArc_case : match SyArc_to SyArc_default 2 true with Ok (32 :: 32 :: 40 :: _)%N => true | _ => false end = true.
Proof. vm_compute. reflexivity. Qed.

Theorem C43_SyCircle : lays_out SyCircle_to.
Proof. exact L_LayoutA.SyCircle_lay. Qed.
Print Assumptions C43_SyCircle.
Example C43_SyCircle_case : match SyCircle_to SyCircle_default 2 true with Ok (32 :: 32 :: 40 :: _)%N => true | _ => false end = true.
Proof. vm_compute. reflexivity. Qed.

Theorem C43_SyPolyLine : lays_out SyPolyLine_to.
Proof. exact L_LayoutA.SyPolyLine_lay. Qed.
Print Assumptions C43_SyPolyLine.
Example C43_SyPolyLine_case : match SyPolyLine_to SyPolyLine_default 2 true with Ok (32 :: 32 :: 40 :: _)%N => true | _ => false end = true.
Proof. vm_compute. reflexivity. Qed.

Theorem C43_SyRect : lays_out SyRect_to.
Proof. exact L_LayoutA.SyRect_lay. Qed.
Print Assumptions C43_SyRect.
Example C43_SyRect_case : match SyRect_to SyRect_default 2 true with Ok (32 :: 32 :: 40 :: _)%N => true | _ => false end = true.
Proof. vm_compute. reflexivity. Qed.

Theorem C43_SyText : lays_out SyText_to.
Proof. exact L_LayoutA.SyText_lay. Qed.
Print Assumptions C43_SyText.
Example C43_SyText_case : match SyText_to SyText_default 2 true with Ok (32 :: 32 :: 40 :: _)%N => true | _ => false end = true.
Proof. vm_compute. reflexivity. Qed.

Theorem C43_SyTextBox : lays_out SyTextBox_to.
Proof. exact L_LayoutA.SyTextBox_lay. Qed.
Print Assumptions C43_SyTextBox.
Example C43_SyTextBox_case : match SyTextBox_to SyTextBox_default 2 true with Ok (32 :: 32 :: 40 :: _)%N => true | _ => false end = true.
Proof. vm_compute. reflexivity. Qed.

Theorem C43_SymbolAlternativePin : lays_out SymbolAlternativePin_to.
Proof. exact L_LayoutA.SymbolAlternativePin_lay. Qed.
Print Assumptions C43_SymbolAlternativePin.
Example C43_SymbolAlternativePin_case : match SymbolAlternativePin_to SymbolAlternativePin_default 2 true with Ok (32 :: 32 :: 40 :: _)%N => true | _ => false end = true.
Proof. vm_compute. reflexivity. Qed.

Theorem C43_SymbolPin : lays_out SymbolPin_to.
Proof. exact L_LayoutA.SymbolPin_lay. Qed.
Print Assumptions C43_SymbolPin.
Example C43_SymbolPin_case : match SymbolPin_to SymbolPin_default 2 true with Ok (32 :: 32 :: 40 :: _)%N => true | _ => false end = true.
Proof. vm_compute. reflexivity. Qed.

Theorem C43_Symbol : lays_out Symbol_to.
Proof. exact L_LayoutA.Symbol_lay. Qed.
Print Assumptions C43_Symbol.
Example C43_Symbol_case : match Symbol_to Symbol_default 2 true with Ok (32 :: 32 :: 40 :: _)%N => true | _ => false end = true.
Proof. vm_compute. reflexivity. Qed.

Theorem C43_SymbolLib : lays_out SymbolLib_to.
Proof. exact L_LayoutA.SymbolLib_lay. Qed.
Print Assumptions C43_SymbolLib.
Example C43_SymbolLib_case : match SymbolLib_to SymbolLib_default 2 true with Ok (32 :: 32 :: 40 :: _)%N => true | _ => false end = true.
Proof. vm_compute. reflexivity. Qed.

Theorem C43_FpText : lays_out FpText_to.
Proof. exact L_LayoutA.FpText_lay. Qed.
Print Assumptions C43_FpText.
Example C43_FpText_case : match FpText_to FpText_default 2 true with Ok (32 :: 32 :: 40 :: _)%N => true | _ => false end = true.
Proof. vm_compute. reflexivity. Qed.

Theorem C43_FpLine : lays_out FpLine_to.
Proof. exact L_LayoutA.FpLine_lay. Qed.
Print Assumptions C43_FpLine.
Example C43_FpLine_case : match FpLine_to FpLine_default 2 true with Ok (32 :: 32 :: 40 :: _)%N => true | _ => false end = true.
Proof. vm_compute. reflexivity. Qed.

Theorem C43_FpRect : lays_out FpRect_to.
Proof. exact L_LayoutA.FpRect_lay. Qed.
Print Assumptions C43_FpRect.
Example C43_FpRect_case : match FpRect_to FpRect_default 2 true with Ok (32 :: 32 :: 40 :: _)%N => true | _ => false end = true.
Proof. vm_compute. reflexivity. Qed.

Theorem C43_FpCircle : lays_out FpCircle_to.
Proof. exact L_LayoutA.FpCircle_lay. Qed.
Print Assumptions C43_FpCircle.
Example C43_FpCircle_case : match FpCircle_to FpCircle_default 2 true with Ok (32 :: 32 :: 40 :: _)%N => true | _ => false end = true.
Proof. vm_compute. reflexivity. Qed.

Theorem C43_FpArc : lays_out FpArc_to.
Proof. exact L_LayoutA.FpArc_lay. Qed.
Print Assumptions C43_FpArc.
Example C43_FpArc_case : match FpArc_to FpArc_default 2 true with Ok (32 :: 32 :: 40 :: _)%N => true | _ => false end = true.
Proof. vm_compute. reflexivity. Qed.

Theorem C43_FpPoly : lays_out_or_blank (fun o => match fp_coordinates o with [] => true | _ => false end) FpPoly_to.
Proof. exact L_LayoutA.FpPoly_lay. Qed.
Print Assumptions C43_FpPoly.
Example C43_FpPoly_case : match FpPoly_to (FpPoly_default <| fp_coordinates := [Position_default] |>) 2 true with Ok (32 :: 32 :: 40 :: _)%N => true | _ => false end = true.
Proof. vm_compute. reflexivity. Qed.

Theorem C43_FpCurve : lays_out_or_blank (fun o => match fv_coordinates o with [] => true | _ => false end) FpCurve_to.
Proof. exact L_LayoutA.FpCurve_lay. Qed.
Print Assumptions C43_FpCurve.
Example C43_FpCurve_case : match FpCurve_to (FpCurve_default <| fv_coordinates := [Position_default] |>) 2 true with Ok (32 :: 32 :: 40 :: _)%N => true | _ => false end = true.
Proof. vm_compute. reflexivity. Qed.

Theorem C43_FpTextBox : lays_out FpTextBox_to.
Proof. exact L_LayoutA.FpTextBox_lay. Qed.
Print Assumptions C43_FpTextBox.
Example C43_FpTextBox_case : match FpTextBox_to (FpTextBox_default <| fb_start := Some Position_default |> <| fb_end := Some Position_default |>) 2 true with Ok (32 :: 32 :: 40 :: _)%N => true | _ => false end = true.
Proof. vm_compute. reflexivity. Qed.

Theorem C43_GrText : lays_out GrText_to.
Proof. exact L_LayoutA.GrText_lay. Qed.
Print Assumptions C43_GrText.
Example C43_GrText_case : match GrText_to GrText_default 2 true with Ok (32 :: 32 :: 40 :: _)%N => true | _ => false end = true.
Proof. vm_compute. reflexivity. Qed.

Theorem C43_GrLine : lays_out GrLine_to.
Proof. exact L_LayoutA.GrLine_lay. Qed.
Print Assumptions C43_GrLine.
Example C43_GrLine_case : match GrLine_to GrLine_default 2 true with Ok (32 :: 32 :: 40 :: _)%N => true | _ => false end = true.
Proof. vm_compute. reflexivity. Qed.

Theorem C43_GrRect : lays_out GrRect_to.
Proof. exact L_LayoutA.GrRect_lay. Qed.
Print Assumptions C43_GrRect.
Example C43_GrRect_case : match GrRect_to GrRect_default 2 true with Ok (32 :: 32 :: 40 :: _)%N => true | _ => false end = true.
Proof. vm_compute. reflexivity. Qed.

Theorem C43_GrCircle : lays_out GrCircle_to.
Proof. exact L_LayoutA.GrCircle_lay. Qed.
Print Assumptions C43_GrCircle.
Example C43_GrCircle_case : match GrCircle_to GrCircle_default 2 true with Ok (32 :: 32 :: 40 :: _)%N => true | _ => false end = true.
Proof. vm_compute. reflexivity. Qed.

Theorem C43_GrArc : lays_out GrArc_to.
Proof. exact L_LayoutA.GrArc_lay. Qed.
Print Assumptions C43_GrArc.
Example C43_GrArc_case : match GrArc_to GrArc_default 2 true with Ok (32 :: 32 :: 40 :: _)%N => true | _ => false end = true.
Proof. vm_compute. reflexivity. Qed.

Theorem C43_GrPoly : lays_out_or_blank (fun o => match gp_coordinates o with [] => true | _ => false end) GrPoly_to.
Proof. exact L_LayoutA.GrPoly_lay. Qed.
Print Assumptions C43_GrPoly.
Example C43_GrPoly_case : match GrPoly_to (GrPoly_default <| gp_coordinates := [Position_default] |>) 2 true with Ok (32 :: 32 :: 40 :: _)%N => true | _ => false end = true.
Proof. vm_compute. reflexivity. Qed.

Theorem C43_GrCurve : lays_out_or_blank (fun o => match gv_coordinates o with [] => true | _ => false end) GrCurve_to.
Proof. exact L_LayoutA.GrCurve_lay. Qed.
Print Assumptions C43_GrCurve.
Example C43_GrCurve_case : match GrCurve_to (GrCurve_default <| gv_coordinates := [Position_default] |>) 2 true with Ok (32 :: 32 :: 40 :: _)%N => true | _ => false end = true.
Proof. vm_compute. reflexivity. Qed.

Theorem C43_GrTextBox : lays_out GrTextBox_to.
Proof. exact L_LayoutA.GrTextBox_lay. Qed.
Print Assumptions C43_GrTextBox.
Example C43_GrTextBox_case : match GrTextBox_to (GrTextBox_default <| gb_start := Some Position_default |> <| gb_end := Some Position_default |>) 2 true with Ok (32 :: 32 :: 40 :: _)%N => true | _ => false end = true.
Proof. vm_compute. reflexivity. Qed.

Theorem C43_KeepoutSettings : lays_out KeepoutSettings_to.
Proof. exact L_LayoutA.KeepoutSettings_lay. Qed.
Print Assumptions C43_KeepoutSettings.
Example C43_KeepoutSettings_case : match KeepoutSettings_to KeepoutSettings_default 2 true with Ok (32 :: 32 :: 40 :: _)%N => true | _ => false end = true.
Proof. vm_compute. reflexivity. Qed.

Theorem C43_FillSettings : lays_out FillSettings_to.
Proof. exact L_LayoutA.FillSettings_lay. Qed.
Print Assumptions C43_FillSettings.
Example C43_FillSettings_case : match FillSettings_to FillSettings_default 2 true with Ok (32 :: 32 :: 40 :: _)%N => true | _ => false end = true.
Proof. vm_compute. reflexivity. Qed.

Theorem C43_ZonePolygon : lays_out_lines (fun o => match zp_coordinates o with [] => true | _ => false end) ZonePolygon_to.
Proof. exact L_LayoutA.ZonePolygon_lay. Qed.
Print Assumptions C43_ZonePolygon.
Example C43_ZonePolygon_case : match ZonePolygon_to (ZonePolygon_default <| zp_coordinates := [Position_default] |>) 2 true with Ok (32 :: 32 :: 40 :: _)%N => true | _ => false end = true.
Proof. vm_compute. reflexivity. Qed.

Theorem C43_FilledPolygon : lays_out_lines (fun o => match zf_coordinates o with [] => true | _ => false end) FilledPolygon_to.
Proof. exact L_LayoutA.FilledPolygon_lay. Qed.
Print Assumptions C43_FilledPolygon.
Example C43_FilledPolygon_case : match FilledPolygon_to (FilledPolygon_default <| zf_coordinates := [Position_default] |>) 2 true with Ok (32 :: 32 :: 40 :: _)%N => true | _ => false end = true.
Proof. vm_compute. reflexivity. Qed.

Theorem C43_FillSegments : lays_out_lines (fun o => match zs_coordinates o with [] => true | _ => false end) FillSegments_to.
Proof. exact L_LayoutA.FillSegments_lay. Qed.
Print Assumptions C43_FillSegments.
Example C43_FillSegments_case : match FillSegments_to (FillSegments_default <| zs_coordinates := [Position_default] |>) 2 true with Ok (32 :: 32 :: 40 :: _)%N => true | _ => false end = true.
Proof. vm_compute. reflexivity. Qed.

Theorem C43_Zone : lays_out Zone_to.
Proof. exact L_LayoutA.Zone_lay. Qed.
Print Assumptions C43_Zone.
Example C43_Zone_case : match Zone_to (Zone_default <| zo_layers := [VStr $"F.Cu"] |>) 2 true with Ok (32 :: 32 :: 40 :: _)%N => true | _ => false end = true.
Proof. vm_compute. reflexivity. Qed.

Theorem C43_Attributes : lays_out_or_nothing (fun o => is_none (fx_type o) && negb (fx_boardOnly o) && negb (fx_excludeFromBom o) && negb (fx_excludeFromPosFiles o) && negb (fx_allowMissingCourtyard o)) Attributes_to.
Proof. exact L_LayoutA.Attributes_lay. Qed.
Print Assumptions C43_Attributes.
Example C43_Attributes_case : match Attributes_to (Attributes_default <| fx_boardOnly := true |>) 2 true with Ok (32 :: 32 :: 40 :: _)%N => true | _ => false end = true.
Proof. vm_compute. reflexivity. Qed.

Theorem C43_Model : lays_out Model_to.
Proof. exact L_LayoutA.Model_lay. Qed.
Print Assumptions C43_Model.
Example C43_Model_case : match Model_to Model_default 2 true with Ok (32 :: 32 :: 40 :: _)%N => true | _ => false end = true.
Proof. vm_compute. reflexivity. Qed.

Theorem C43_DrillDefinition : lays_out DrillDefinition_to.
Proof. exact L_LayoutA.DrillDefinition_lay. Qed.
Print Assumptions C43_DrillDefinition.
Example C43_DrillDefinition_case : match DrillDefinition_to DrillDefinition_default 2 true with Ok (32 :: 32 :: 40 :: _)%N => true | _ => false end = true.
Proof. vm_compute. reflexivity. Qed.

Theorem C43_PadOptions : lays_out PadOptions_to.
Proof. exact L_LayoutA.PadOptions_lay. Qed.
Print Assumptions C43_PadOptions.
Example C43_PadOptions_case : match PadOptions_to PadOptions_default 2 true with Ok (32 :: 32 :: 40 :: _)%N => true | _ => false end = true.
Proof. vm_compute. reflexivity. Qed.

Theorem C43_Pad : lays_out Pad_to.
Proof. exact L_LayoutA.Pad_lay. Qed.
Print Assumptions C43_Pad.
Example C43_Pad_case : match Pad_to Pad_default 2 true with Ok (32 :: 32 :: 40 :: _)%N => true | _ => false end = true.
Proof. vm_compute. reflexivity. Qed.

Theorem C43_Footprint : lays_out Footprint_to.
Proof. exact L_LayoutA.Footprint_lay. Qed.
Print Assumptions C43_Footprint.
Example C43_Footprint_case : match Footprint_to (Footprint_default (VStr $"5A")) 2 true with Ok (32 :: 32 :: 40 :: _)%N => true | _ => false end = true.
Proof. vm_compute. reflexivity. Qed.

Theorem C43_DimensionFormat : lays_out DimensionFormat_to.
Proof. exact L_LayoutA.DimensionFormat_lay. Qed.
Print Assumptions C43_DimensionFormat.
Example C43_DimensionFormat_case : match DimensionFormat_to DimensionFormat_default 2 true with Ok (32 :: 32 :: 40 :: _)%N => true | _ => false end = true.
Proof. vm_compute. reflexivity. Qed.

Theorem C43_DimensionStyle : lays_out DimensionStyle_to.
Proof. exact L_LayoutA.DimensionStyle_lay. Qed.
Print Assumptions C43_DimensionStyle.
Example C43_DimensionStyle_case : match DimensionStyle_to DimensionStyle_default 2 true with Ok (32 :: 32 :: 40 :: _)%N => true | _ => false end = true.
Proof. vm_compute. reflexivity. Qed.

Theorem C43_Dimension : lays_out Dimension_to.
Proof. exact L_LayoutA.Dimension_lay. Qed.
Print Assumptions C43_Dimension.
Example C43_Dimension_case : match Dimension_to (Dimension_default <| di_pts := [Position_default] |>) 2 true with Ok (32 :: 32 :: 40 :: _)%N => true | _ => false end = true.
Proof. vm_compute. reflexivity. Qed.

Theorem C43_GeneralSettings : lays_out GeneralSettings_to.
Proof. exact L_LayoutA.GeneralSettings_lay. Qed.
Print Assumptions C43_GeneralSettings.
Example C43_GeneralSettings_case : match GeneralSettings_to GeneralSettings_default 2 true with Ok (32 :: 32 :: 40 :: _)%N => true | _ => false end = true.
Proof. vm_compute. reflexivity. Qed.

Theorem C43_LayerToken : lays_out LayerToken_to.
Proof. exact L_LayoutA.LayerToken_lay. Qed.
Print Assumptions C43_LayerToken.
Example C43_LayerToken_case : match LayerToken_to LayerToken_default 2 true with Ok (32 :: 32 :: 40 :: _)%N => true | _ => false end = true.
Proof. vm_compute. reflexivity. Qed.

Theorem C43_StackupLayer : lays_out StackupLayer_to.
Proof. exact L_LayoutA.StackupLayer_lay. Qed.
Print Assumptions C43_StackupLayer.
Example C43_StackupLayer_case : match StackupLayer_to StackupLayer_default 2 true with Ok (32 :: 32 :: 40 :: _)%N => true | _ => false end = true.
Proof. vm_compute. reflexivity. Qed.

Theorem C43_Stackup : lays_out Stackup_to.
Proof. exact L_LayoutA.Stackup_lay. Qed.
Print Assumptions C43_Stackup.
Example C43_Stackup_case : match Stackup_to Stackup_default 2 true with Ok (32 :: 32 :: 40 :: _)%N => true | _ => false end = true.
Proof. vm_compute. reflexivity. Qed.

Theorem C43_PlotSettings : lays_out PlotSettings_to.
Proof. exact L_LayoutA.PlotSettings_lay. Qed.
Print Assumptions C43_PlotSettings.
Example C43_PlotSettings_case : match PlotSettings_to PlotSettings_default 2 true with Ok (32 :: 32 :: 40 :: _)%N => true | _ => false end = true.
Proof. vm_compute. reflexivity. Qed.

Theorem C43_SetupData : lays_out SetupData_to.
Proof. exact L_LayoutA.SetupData_lay. Qed.
Print Assumptions C43_SetupData.
Example C43_SetupData_case : match SetupData_to SetupData_default 2 true with Ok (32 :: 32 :: 40 :: _)%N => true | _ => false end = true.
Proof. vm_compute. reflexivity. Qed.

Theorem C43_Segment : lays_out Segment_to.
Proof. exact L_LayoutA.Segment_lay. Qed.
Print Assumptions C43_Segment.
Example C43_Segment_case : match Segment_to Segment_default 2 true with Ok (32 :: 32 :: 40 :: _)%N => true | _ => false end = true.
Proof. vm_compute. reflexivity. Qed.

Theorem C43_Via : lays_out Via_to.
Proof. exact L_LayoutA.Via_lay. Qed.
Print Assumptions C43_Via.
Example C43_Via_case : match Via_to Via_default 2 true with Ok (32 :: 32 :: 40 :: _)%N => true | _ => false end = true.
Proof. vm_compute. reflexivity. Qed.

Theorem C43_Arc : lays_out Arc_to.
Proof. exact L_LayoutA.Arc_lay. Qed.
Print Assumptions C43_Arc.
Example C43_Arc_case : match Arc_to Arc_default 2 true with Ok (32 :: 32 :: 40 :: _)%N => true | _ => false end = true.
Proof. vm_compute. reflexivity. Qed.

Theorem C43_Target : lays_out Target_to.
Proof. exact L_LayoutA.Target_lay. Qed.
Print Assumptions C43_Target.
Example C43_Target_case : match Target_to Target_default 2 true with Ok (32 :: 32 :: 40 :: _)%N => true | _ => false end = true.
Proof. vm_compute. reflexivity. Qed.

Theorem C43_Board : lays_out Board_to.
Proof. exact L_LayoutA.Board_lay. Qed.
Print Assumptions C43_Board.
Example C43_Board_case : match Board_to Board_default 2 true with Ok (32 :: 32 :: 40 :: _)%N => true | _ => false end = true.
Proof. vm_compute. reflexivity. Qed.

Theorem C43_Junction : lays_out Junction_to.
Proof. exact L_LayoutA.Junction_lay. Qed.
Print Assumptions C43_Junction.
Example C43_Junction_case : match Junction_to Junction_default 2 true with Ok (32 :: 32 :: 40 :: _)%N => true | _ => false end = true.
Proof. vm_compute. reflexivity. Qed.

Theorem C43_NoConnect : lays_out NoConnect_to.
Proof. exact L_LayoutA.NoConnect_lay. Qed.
Print Assumptions C43_NoConnect.
Example C43_NoConnect_case : match NoConnect_to NoConnect_default 2 true with Ok (32 :: 32 :: 40 :: _)%N => true | _ => false end = true.
Proof. vm_compute. reflexivity. Qed.

Theorem C43_BusEntry : lays_out BusEntry_to.
Proof. exact L_LayoutA.BusEntry_lay. Qed.
Print Assumptions C43_BusEntry.
Example C43_BusEntry_case : match BusEntry_to BusEntry_default 2 true with Ok (32 :: 32 :: 40 :: _)%N => true | _ => false end = true.
Proof. vm_compute. reflexivity. Qed.

Theorem C43_BusAlias : lays_out BusAlias_to.
Proof. exact L_LayoutA.BusAlias_lay. Qed.
Print Assumptions C43_BusAlias.
Example C43_BusAlias_case : match BusAlias_to BusAlias_default 2 true with Ok (32 :: 32 :: 40 :: _)%N => true | _ => false end = true.
Proof. vm_compute. reflexivity. Qed.

Theorem C43_Connection : lays_out Connection_to.
Proof. exact L_LayoutA.Connection_lay. Qed.
Print Assumptions C43_Connection.
Example C43_Connection_case : match Connection_to Connection_default 2 true with Ok (32 :: 32 :: 40 :: _)%N => true | _ => false end = true.
Proof. vm_compute. reflexivity. Qed.

Theorem C43_PolyLine : lays_out PolyLine_to.
Proof. exact L_LayoutA.PolyLine_lay. Qed.
Print Assumptions C43_PolyLine.
Example C43_PolyLine_case : match PolyLine_to PolyLine_default 2 true with Ok (32 :: 32 :: 40 :: _)%N => true | _ => false end = true.
Proof. vm_compute. reflexivity. Qed.

Theorem C43_Text : lays_out Text_to.
Proof. exact L_LayoutA.Text_lay. Qed.
Print Assumptions C43_Text.
Example C43_Text_case : match Text_to Text_default 2 true with Ok (32 :: 32 :: 40 :: _)%N => true | _ => false end = true.
Proof. vm_compute. reflexivity. Qed.

Theorem C43_TextBox : lays_out TextBox_to.
Proof. exact L_LayoutA.TextBox_lay. Qed.
Print Assumptions C43_TextBox.
Example C43_TextBox_case : match TextBox_to TextBox_default 2 true with Ok (32 :: 32 :: 40 :: _)%N => true | _ => false end = true.
Proof. vm_compute. reflexivity. Qed.

Theorem C43_LocalLabel : lays_out LocalLabel_to.
Proof. exact L_LayoutA.LocalLabel_lay. Qed.
Print Assumptions C43_LocalLabel.
Example C43_LocalLabel_case : match LocalLabel_to LocalLabel_default 2 true with Ok (32 :: 32 :: 40 :: _)%N => true | _ => false end = true.
Proof. vm_compute. reflexivity. Qed.

Theorem C43_GlobalLabel : lays_out GlobalLabel_to.
Proof. exact L_LayoutA.GlobalLabel_lay. Qed.
Print Assumptions C43_GlobalLabel.
Example C43_GlobalLabel_case : match GlobalLabel_to GlobalLabel_default 2 true with Ok (32 :: 32 :: 40 :: _)%N => true | _ => false end = true.
Proof. vm_compute. reflexivity. Qed.

Theorem C43_HierarchicalLabel : lays_out HierarchicalLabel_to.
Proof. exact L_LayoutA.HierarchicalLabel_lay. Qed.
Print Assumptions C43_HierarchicalLabel.
Example C43_HierarchicalLabel_case : match HierarchicalLabel_to HierarchicalLabel_default 2 true with Ok (32 :: 32 :: 40 :: _)%N => true | _ => false end = true.
Proof. vm_compute. reflexivity. Qed.

Theorem C43_SymbolProjectPath : lays_out SymbolProjectPath_to.
Proof. exact L_LayoutA.SymbolProjectPath_lay. Qed.
Print Assumptions C43_SymbolProjectPath.
Example C43_SymbolProjectPath_case : match SymbolProjectPath_to SymbolProjectPath_default 2 true with Ok (32 :: 32 :: 40 :: _)%N => true | _ => false end = true.
Proof. vm_compute. reflexivity. Qed.

Theorem C43_SymbolProjectInstance : lays_out SymbolProjectInstance_to.
Proof. exact L_LayoutA.SymbolProjectInstance_lay. Qed.
Print Assumptions C43_SymbolProjectInstance.
Example C43_SymbolProjectInstance_case : match SymbolProjectInstance_to SymbolProjectInstance_default 2 true with Ok (32 :: 32 :: 40 :: _)%N => true | _ => false end = true.
Proof. vm_compute. reflexivity. Qed.

Theorem C43_SchematicSymbol : lays_out SchematicSymbol_to.
Proof. exact L_LayoutA.SchematicSymbol_lay. Qed.
Print Assumptions C43_SchematicSymbol.
Example C43_SchematicSymbol_case : match SchematicSymbol_to SchematicSymbol_default 2 true with Ok (32 :: 32 :: 40 :: _)%N => true | _ => false end = true.
Proof. vm_compute. reflexivity. Qed.

Theorem C43_HierarchicalPin : lays_out HierarchicalPin_to.
Proof. exact L_LayoutA.HierarchicalPin_lay. Qed.
Print Assumptions C43_HierarchicalPin.
Example C43_HierarchicalPin_case : match HierarchicalPin_to HierarchicalPin_default 2 true with Ok (32 :: 32 :: 40 :: _)%N => true | _ => false end = true.
Proof. vm_compute. reflexivity. Qed.

Theorem C43_HierarchicalSheetProjectPath : lays_out HierarchicalSheetProjectPath_to.
Proof. exact L_LayoutA.HierarchicalSheetProjectPath_lay. Qed.
Print Assumptions C43_HierarchicalSheetProjectPath.
Example C43_HierarchicalSheetProjectPath_case : match HierarchicalSheetProjectPath_to HierarchicalSheetProjectPath_default 2 true with Ok (32 :: 32 :: 40 :: _)%N => true | _ => false end = true.
Proof. vm_compute. reflexivity. Qed.

Theorem C43_HierarchicalSheetProjectInstance : lays_out HierarchicalSheetProjectInstance_to.
Proof. exact L_LayoutA.HierarchicalSheetProjectInstance_lay. Qed.
Print Assumptions C43_HierarchicalSheetProjectInstance.
Example C43_HierarchicalSheetProjectInstance_case : match HierarchicalSheetProjectInstance_to HierarchicalSheetProjectInstance_default 2 true with Ok (32 :: 32 :: 40 :: _)%N => true | _ => false end = true.
Proof. vm_compute. reflexivity. Qed.

Theorem C43_HierarchicalSheet : lays_out HierarchicalSheet_to.
Proof. exact L_LayoutA.HierarchicalSheet_lay. Qed.
Print Assumptions C43_HierarchicalSheet.
Example C43_HierarchicalSheet_case : match HierarchicalSheet_to HierarchicalSheet_default 2 true with Ok (32 :: 32 :: 40 :: _)%N => true | _ => false end = true.
Proof. vm_compute. reflexivity. Qed.

Theorem C43_HierarchicalSheetInstance : lays_out HierarchicalSheetInstance_to.
Proof. exact L_LayoutA.HierarchicalSheetInstance_lay. Qed.
Print Assumptions C43_HierarchicalSheetInstance.
Example C43_HierarchicalSheetInstance_case : match HierarchicalSheetInstance_to HierarchicalSheetInstance_default 2 true with Ok (32 :: 32 :: 40 :: _)%N => true | _ => false end = true.
Proof. vm_compute. reflexivity. Qed.

Theorem C43_SymbolInstance : lays_out SymbolInstance_to.
Proof. exact L_LayoutA.SymbolInstance_lay. Qed.
Print Assumptions C43_SymbolInstance.
Example C43_SymbolInstance_case : match SymbolInstance_to SymbolInstance_default 2 true with Ok (32 :: 32 :: 40 :: _)%N => true | _ => false end = true.
Proof. vm_compute. reflexivity. Qed.

Theorem C43_Rectangle : lays_out Rectangle_to.
Proof. exact L_LayoutA.Rectangle_lay. Qed.
Print Assumptions C43_Rectangle.
Example C43_Rectangle_case : match Rectangle_to Rectangle_default 2 true with Ok (32 :: 32 :: 40 :: _)%N => true | _ => false end = true.
Proof. vm_compute. reflexivity. Qed.

Theorem C43_SchArc : lays_out SchArc_to.
Proof. exact L_LayoutA.SchArc_lay. Qed.
Print Assumptions C43_SchArc.
Example C43_SchArc_case : match SchArc_to SchArc_default 2 true with Ok (32 :: 32 :: 40 :: _)%N => true | _ => false end = true.
Proof. vm_compute. reflexivity. Qed.

Theorem C43_Circle : lays_out Circle_to.
Proof. exact L_LayoutA.Circle_lay. Qed.
Print Assumptions C43_Circle.
Example C43_Circle_case : match Circle_to Circle_default 2 true with Ok (32 :: 32 :: 40 :: _)%N => true | _ => false end = true.
Proof. vm_compute. reflexivity. Qed.

Theorem C43_NetclassFlag : lays_out NetclassFlag_to.
Proof. exact L_LayoutA.NetclassFlag_lay. Qed.
Print Assumptions C43_NetclassFlag.
Example C43_NetclassFlag_case : match NetclassFlag_to (NetclassFlag_default <| nf_effects := Some Effects_default |>) 2 true with Ok (32 :: 32 :: 40 :: _)%N => true | _ => false end = true.
Proof. vm_compute. reflexivity. Qed.

Theorem C43_Schematic : lays_out Schematic_to.
Proof. exact L_LayoutA.Schematic_lay. Qed.
Print Assumptions C43_Schematic.
Example C43_Schematic_case : match Schematic_to Schematic_default 2 true with Ok (32 :: 32 :: 40 :: _)%N => true | _ => false end = true.
Proof. vm_compute. reflexivity. Qed.

Theorem C43_WksFontSize : lays_out WksFontSize_to.
Proof. exact L_LayoutA.WksFontSize_lay. Qed.
Print Assumptions C43_WksFontSize.
Example C43_WksFontSize_case : match WksFontSize_to WksFontSize_default 2 true with Ok (32 :: 32 :: 40 :: _)%N => true | _ => false end = true.
Proof. vm_compute. reflexivity. Qed.

Theorem C43_WksFont : lays_out_or_nothing (fun o => is_none (wf_linewidth o) && match wf_size o with Some _ => false | None => true end && negb (wf_bold o) && negb (wf_italic o)) WksFont_to.
Proof. exact L_LayoutA.WksFont_lay. Qed.
Print Assumptions C43_WksFont.
Example C43_WksFont_case : match WksFont_to (WksFont_default <| wf_bold := true |>) 2 true with Ok (32 :: 32 :: 40 :: _)%N => true | _ => false end = true.
Proof. vm_compute. reflexivity. Qed.

Theorem C43_Line : lays_out Line_to.
Proof. exact L_LayoutA.Line_lay. Qed.
Print Assumptions C43_Line.
Example C43_Line_case : match Line_to Line_default 2 true with Ok (32 :: 32 :: 40 :: _)%N => true | _ => false end = true.
Proof. vm_compute. reflexivity. Qed.

Theorem C43_Rect : lays_out Rect_to.
Proof. exact L_LayoutA.Rect_lay. Qed.
Print Assumptions C43_Rect.
Example C43_Rect_case : match Rect_to Rect_default 2 true with Ok (32 :: 32 :: 40 :: _)%N => true | _ => false end = true.
Proof. vm_compute. reflexivity. Qed.

Theorem C43_Bitmap : lays_out Bitmap_to.
Proof. exact L_LayoutA.Bitmap_lay. Qed.
Print Assumptions C43_Bitmap.
Example C43_Bitmap_case : match Bitmap_to Bitmap_default 2 true with Ok (32 :: 32 :: 40 :: _)%N => true | _ => false end = true.
Proof. vm_compute. reflexivity. Qed.

Theorem C43_TbText : lays_out TbText_to.
Proof. exact L_LayoutA.TbText_lay. Qed.
Print Assumptions C43_TbText.
Example C43_TbText_case : match TbText_to TbText_default 2 true with Ok (32 :: 32 :: 40 :: _)%N => true | _ => false end = true.
Proof. vm_compute. reflexivity. Qed.

Theorem C43_TextSize : lays_out TextSize_to.
Proof. exact L_LayoutA.TextSize_lay. Qed.
Print Assumptions C43_TextSize.
Example C43_TextSize_case : match TextSize_to TextSize_default 2 true with Ok (32 :: 32 :: 40 :: _)%N => true | _ => false end = true.
Proof. vm_compute. reflexivity. Qed.

Theorem C43_Setup : lays_out Setup_to.
Proof. exact L_LayoutA.Setup_lay. Qed.
Print Assumptions C43_Setup.
Example C43_Setup_case : match Setup_to Setup_default 2 true with Ok (32 :: 32 :: 40 :: _)%N => true | _ => false end = true.
Proof. vm_compute. reflexivity. Qed.

Theorem C43_WorkSheet : lays_out WorkSheet_to.
Proof. exact L_LayoutA.WorkSheet_lay. Qed.
Print Assumptions C43_WorkSheet.
Example C43_WorkSheet_case : match WorkSheet_to WorkSheet_default 2 true with Ok (32 :: 32 :: 40 :: _)%N => true | _ => false end = true.
Proof. vm_compute. reflexivity. Qed.

(** The classes that end the line although [newline] is not set. *)
Theorem C43_Rule_refuted : ~ lays_out Rule_to.
Proof. intros H. pose proof (L_Layout.lays_out_last _ H Rule_default 0 _ eq_refl) as E. vm_compute in E. discriminate E. Qed.
Print Assumptions C43_Rule_refuted.

Theorem C43_ZonePolygon_refuted : ~ lays_out ZonePolygon_to.
Proof. intros H. pose proof (L_Layout.lays_out_last _ H (ZonePolygon_default <| zp_coordinates := [Position_default] |>) 0 _ eq_refl) as E. vm_compute in E. discriminate E. Qed.
Print Assumptions C43_ZonePolygon_refuted.

Theorem C43_FilledPolygon_refuted : ~ lays_out FilledPolygon_to.
Proof. intros H. pose proof (L_Layout.lays_out_last _ H (FilledPolygon_default <| zf_coordinates := [Position_default] |>) 0 _ eq_refl) as E. vm_compute in E. discriminate E. Qed.
Print Assumptions C43_FilledPolygon_refuted.

Theorem C43_FillSegments_refuted : ~ lays_out FillSegments_to.
Proof. intros H. pose proof (L_Layout.lays_out_last _ H (FillSegments_default <| zs_coordinates := [Position_default] |>) 0 _ eq_refl) as E. vm_compute in E. discriminate E. Qed.
Print Assumptions C43_FillSegments_refuted.
