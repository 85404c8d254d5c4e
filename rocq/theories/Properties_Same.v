(** * C56: equality looks at every attribute

    [==] of a class compares all attributes and nothing else: two objects are equal exactly if each
    attribute of one is equal to the same attribute of the other.  A round trip that gives an equal object
    has therefore lost nothing. *)
From Coq Require Import String.
From Verif Require Import PyBase PyNum PyStr Sexpr RecordSet S_Leaf S_Tree S_Same L_Same.
From Verif Require Import M_Common M_Lib M_Sym M_Fp M_Gr M_Zone M_Footprint M_Dim M_Brd M_Board M_Sch M_Schematic M_Wks.
From Verif Require Import S_Common S_Lib S_Sym S_Fp S_Gr S_Zone S_Footprint S_Dim S_Brd S_Board S_Sch S_Schematic S_Wks.

Theorem C56_Position : compares_all Position_eqb Position_attrs.
Proof. exact Position_all. Qed.
Print Assumptions C56_Position.
(** The numbers 0 and 0.0 are equal, but a rotation of 0 is not the same as none. *)
Example C56_Position_case : Position_eqb Position_default (Position_default <| po_X := VInt 0 |>) = true
  /\ Position_eqb Position_default (Position_default <| po_angle := VInt 0 |>) = false.
Proof. split; reflexivity. Qed.

Theorem C56_Coordinate : compares_all Coordinate_eqb Coordinate_attrs.
Proof. exact Coordinate_all. Qed.
Print Assumptions C56_Coordinate.

Theorem C56_ColorRGBA : compares_all ColorRGBA_eqb ColorRGBA_attrs.
Proof. exact ColorRGBA_all. Qed.
Print Assumptions C56_ColorRGBA.

Theorem C56_Stroke : compares_all Stroke_eqb Stroke_attrs.
Proof. exact Stroke_all. Qed.
Print Assumptions C56_Stroke.

Theorem C56_Font : compares_all Font_eqb Font_attrs.
Proof. exact Font_all. Qed.
Print Assumptions C56_Font.

Theorem C56_Justify : compares_all Justify_eqb Justify_attrs.
Proof. exact Justify_all. Qed.
Print Assumptions C56_Justify.

Theorem C56_Effects : compares_all Effects_eqb Effects_attrs.
Proof. exact Effects_all. Qed.
Print Assumptions C56_Effects.

Theorem C56_Net : compares_all Net_eqb Net_attrs.
Proof. exact Net_all. Qed.
Print Assumptions C56_Net.

Theorem C56_Group : compares_all Group_eqb Group_attrs.
Proof. exact Group_all. Qed.
Print Assumptions C56_Group.

Theorem C56_PageSettings : compares_all PageSettings_eqb PageSettings_attrs.
Proof. exact PageSettings_all. Qed.
Print Assumptions C56_PageSettings.

Theorem C56_TitleBlock : compares_all TitleBlock_eqb TitleBlock_attrs.
Proof. exact TitleBlock_all. Qed.
Print Assumptions C56_TitleBlock.

Theorem C56_Property : compares_all Property_eqb Property_attrs.
Proof. exact Property_all. Qed.
Print Assumptions C56_Property.

Theorem C56_RenderCachePolygon : compares_all RenderCachePolygon_eqb RenderCachePolygon_attrs.
Proof. exact RenderCachePolygon_all. Qed.
Print Assumptions C56_RenderCachePolygon.

Theorem C56_RenderCache : compares_all RenderCache_eqb RenderCache_attrs.
Proof. exact RenderCache_all. Qed.
Print Assumptions C56_RenderCache.

Theorem C56_Fill : compares_all Fill_eqb Fill_attrs.
Proof. exact Fill_all. Qed.
Print Assumptions C56_Fill.

Theorem C56_Image : compares_all Image_eqb Image_attrs.
Proof. exact Image_all. Qed.
Print Assumptions C56_Image.

Theorem C56_Library : compares_all Library_eqb Library_attrs.
Proof. exact Library_all. Qed.
Print Assumptions C56_Library.

Theorem C56_LibTable : compares_all LibTable_eqb LibTable_attrs.
Proof. exact LibTable_all. Qed.
Print Assumptions C56_LibTable.

Theorem C56_Constraint : compares_all Constraint_eqb Constraint_attrs.
Proof. exact Constraint_all. Qed.
Print Assumptions C56_Constraint.

Theorem C56_Rule : compares_all Rule_eqb Rule_attrs.
Proof. exact Rule_all. Qed.
Print Assumptions C56_Rule.

Theorem C56_DesignRules : compares_all DesignRules_eqb DesignRules_attrs.
Proof. exact DesignRules_all. Qed.
Print Assumptions C56_DesignRules.

Theorem C56_SyArc : compares_all SyArc_eqb SyArc_attrs.
Proof. exact SyArc_all. Qed.
Print Assumptions C56_SyArc.

Theorem C56_SyCircle : compares_all SyCircle_eqb SyCircle_attrs.
Proof. exact SyCircle_all. Qed.
Print Assumptions C56_SyCircle.

Theorem C56_SyCurve : compares_all SyCurve_eqb SyCurve_attrs.
Proof. exact SyCurve_all. Qed.
Print Assumptions C56_SyCurve.

Theorem C56_SyPolyLine : compares_all SyPolyLine_eqb SyPolyLine_attrs.
Proof. exact SyPolyLine_all. Qed.
Print Assumptions C56_SyPolyLine.

Theorem C56_SyRect : compares_all SyRect_eqb SyRect_attrs.
Proof. exact SyRect_all. Qed.
Print Assumptions C56_SyRect.

Theorem C56_SyText : compares_all SyText_eqb SyText_attrs.
Proof. exact SyText_all. Qed.
Print Assumptions C56_SyText.

Theorem C56_SyTextBox : compares_all SyTextBox_eqb SyTextBox_attrs.
Proof. exact SyTextBox_all. Qed.
Print Assumptions C56_SyTextBox.

Theorem C56_SymbolAlternativePin : compares_all SymbolAlternativePin_eqb SymbolAlternativePin_attrs.
Proof. exact SymbolAlternativePin_all. Qed.
Print Assumptions C56_SymbolAlternativePin.

Theorem C56_SymbolPin : compares_all SymbolPin_eqb SymbolPin_attrs.
Proof. exact SymbolPin_all. Qed.
Print Assumptions C56_SymbolPin.

Theorem C56_Symbol : compares_all Symbol_eqb Symbol_attrs.
Proof. exact Symbol_all. Qed.
Print Assumptions C56_Symbol.

Theorem C56_SymbolLib : compares_all SymbolLib_eqb SymbolLib_attrs.
Proof. exact SymbolLib_all. Qed.
Print Assumptions C56_SymbolLib.

Theorem C56_FpText : compares_all FpText_eqb FpText_attrs.
Proof. exact FpText_all. Qed.
Print Assumptions C56_FpText.

Theorem C56_FpLine : compares_all FpLine_eqb FpLine_attrs.
Proof. exact FpLine_all. Qed.
Print Assumptions C56_FpLine.

Theorem C56_FpRect : compares_all FpRect_eqb FpRect_attrs.
Proof. exact FpRect_all. Qed.
Print Assumptions C56_FpRect.

Theorem C56_FpCircle : compares_all FpCircle_eqb FpCircle_attrs.
Proof. exact FpCircle_all. Qed.
Print Assumptions C56_FpCircle.

Theorem C56_FpArc : compares_all FpArc_eqb FpArc_attrs.
Proof. exact FpArc_all. Qed.
Print Assumptions C56_FpArc.

Theorem C56_FpPoly : compares_all FpPoly_eqb FpPoly_attrs.
Proof. exact FpPoly_all. Qed.
Print Assumptions C56_FpPoly.

Theorem C56_FpCurve : compares_all FpCurve_eqb FpCurve_attrs.
Proof. exact FpCurve_all. Qed.
Print Assumptions C56_FpCurve.

Theorem C56_FpTextBox : compares_all FpTextBox_eqb FpTextBox_attrs.
Proof. exact FpTextBox_all. Qed.
Print Assumptions C56_FpTextBox.

Theorem C56_GrText : compares_all GrText_eqb GrText_attrs.
Proof. exact GrText_all. Qed.
Print Assumptions C56_GrText.

Theorem C56_GrLine : compares_all GrLine_eqb GrLine_attrs.
Proof. exact GrLine_all. Qed.
Print Assumptions C56_GrLine.

Theorem C56_GrRect : compares_all GrRect_eqb GrRect_attrs.
Proof. exact GrRect_all. Qed.
Print Assumptions C56_GrRect.

Theorem C56_GrCircle : compares_all GrCircle_eqb GrCircle_attrs.
Proof. exact GrCircle_all. Qed.
Print Assumptions C56_GrCircle.

Theorem C56_GrArc : compares_all GrArc_eqb GrArc_attrs.
Proof. exact GrArc_all. Qed.
Print Assumptions C56_GrArc.

Theorem C56_GrPoly : compares_all GrPoly_eqb GrPoly_attrs.
Proof. exact GrPoly_all. Qed.
Print Assumptions C56_GrPoly.

Theorem C56_GrCurve : compares_all GrCurve_eqb GrCurve_attrs.
Proof. exact GrCurve_all. Qed.
Print Assumptions C56_GrCurve.

Theorem C56_GrTextBox : compares_all GrTextBox_eqb GrTextBox_attrs.
Proof. exact GrTextBox_all. Qed.
Print Assumptions C56_GrTextBox.

Theorem C56_KeepoutSettings : compares_all KeepoutSettings_eqb KeepoutSettings_attrs.
Proof. exact KeepoutSettings_all. Qed.
Print Assumptions C56_KeepoutSettings.

Theorem C56_FillSettings : compares_all FillSettings_eqb FillSettings_attrs.
Proof. exact FillSettings_all. Qed.
Print Assumptions C56_FillSettings.

Theorem C56_ZonePolygon : compares_all ZonePolygon_eqb ZonePolygon_attrs.
Proof. exact ZonePolygon_all. Qed.
Print Assumptions C56_ZonePolygon.

Theorem C56_FilledPolygon : compares_all FilledPolygon_eqb FilledPolygon_attrs.
Proof. exact FilledPolygon_all. Qed.
Print Assumptions C56_FilledPolygon.

Theorem C56_FillSegments : compares_all FillSegments_eqb FillSegments_attrs.
Proof. exact FillSegments_all. Qed.
Print Assumptions C56_FillSegments.

Theorem C56_Hatch : compares_all Hatch_eqb Hatch_attrs.
Proof. exact Hatch_all. Qed.
Print Assumptions C56_Hatch.

Theorem C56_Zone : compares_all Zone_eqb Zone_attrs.
Proof. exact Zone_all. Qed.
Print Assumptions C56_Zone.

Theorem C56_Attributes : compares_all Attributes_eqb Attributes_attrs.
Proof. exact Attributes_all. Qed.
Print Assumptions C56_Attributes.

Theorem C56_Model : compares_all Model_eqb Model_attrs.
Proof. exact Model_all. Qed.
Print Assumptions C56_Model.

Theorem C56_DrillDefinition : compares_all DrillDefinition_eqb DrillDefinition_attrs.
Proof. exact DrillDefinition_all. Qed.
Print Assumptions C56_DrillDefinition.

Theorem C56_PadOptions : compares_all PadOptions_eqb PadOptions_attrs.
Proof. exact PadOptions_all. Qed.
Print Assumptions C56_PadOptions.

Theorem C56_Pad : compares_all Pad_eqb Pad_attrs.
Proof. exact Pad_all. Qed.
Print Assumptions C56_Pad.

Theorem C56_Footprint : compares_all Footprint_eqb Footprint_attrs.
Proof. exact Footprint_all. Qed.
Print Assumptions C56_Footprint.

Theorem C56_DimensionFormat : compares_all DimensionFormat_eqb DimensionFormat_attrs.
Proof. exact DimensionFormat_all. Qed.
Print Assumptions C56_DimensionFormat.

Theorem C56_DimensionStyle : compares_all DimensionStyle_eqb DimensionStyle_attrs.
Proof. exact DimensionStyle_all. Qed.
Print Assumptions C56_DimensionStyle.

Theorem C56_Dimension : compares_all Dimension_eqb Dimension_attrs.
Proof. exact Dimension_all. Qed.
Print Assumptions C56_Dimension.

Theorem C56_GeneralSettings : compares_all GeneralSettings_eqb GeneralSettings_attrs.
Proof. exact GeneralSettings_all. Qed.
Print Assumptions C56_GeneralSettings.

Theorem C56_LayerToken : compares_all LayerToken_eqb LayerToken_attrs.
Proof. exact LayerToken_all. Qed.
Print Assumptions C56_LayerToken.

Theorem C56_StackupSubLayer : compares_all StackupSubLayer_eqb StackupSubLayer_attrs.
Proof. exact StackupSubLayer_all. Qed.
Print Assumptions C56_StackupSubLayer.

Theorem C56_StackupLayer : compares_all StackupLayer_eqb StackupLayer_attrs.
Proof. exact StackupLayer_all. Qed.
Print Assumptions C56_StackupLayer.

Theorem C56_Stackup : compares_all Stackup_eqb Stackup_attrs.
Proof. exact Stackup_all. Qed.
Print Assumptions C56_Stackup.

Theorem C56_PlotSettings : compares_all PlotSettings_eqb PlotSettings_attrs.
Proof. exact PlotSettings_all. Qed.
Print Assumptions C56_PlotSettings.

Theorem C56_SetupData : compares_all SetupData_eqb SetupData_attrs.
Proof. exact SetupData_all. Qed.
Print Assumptions C56_SetupData.

Theorem C56_Segment : compares_all Segment_eqb Segment_attrs.
Proof. exact Segment_all. Qed.
Print Assumptions C56_Segment.

Theorem C56_Via : compares_all Via_eqb Via_attrs.
Proof. exact Via_all. Qed.
Print Assumptions C56_Via.

Theorem C56_Arc : compares_all Arc_eqb Arc_attrs.
Proof. exact Arc_all. Qed.
Print Assumptions C56_Arc.

Theorem C56_Target : compares_all Target_eqb Target_attrs.
Proof. exact Target_all. Qed.
Print Assumptions C56_Target.

Theorem C56_Board : compares_all Board_eqb Board_attrs.
Proof. exact Board_all. Qed.
Print Assumptions C56_Board.
(** Boards that differ deep inside, in one attribute of one of their nets, or only in the path of the file, are different. *)
Example C56_Board_case : let o := Board_default <| bd_nets := [Net_default; Net_default <| ne_number := VInt 1 |>] |> in
  Board_eqb o o = true /\ Board_eqb o (o <| bd_nets := [Net_default; Net_default <| ne_number := VInt 1 |> <| ne_name := VStr $"a" |>] |>) = false
  /\ Board_eqb o (o <| bd_filePath := VStr $"a.kicad_pcb" |>) = false.
Proof. vm_compute. auto. Qed.

Theorem C56_Junction : compares_all Junction_eqb Junction_attrs.
Proof. exact Junction_all. Qed.
Print Assumptions C56_Junction.

Theorem C56_NoConnect : compares_all NoConnect_eqb NoConnect_attrs.
Proof. exact NoConnect_all. Qed.
Print Assumptions C56_NoConnect.

Theorem C56_BusEntry : compares_all BusEntry_eqb BusEntry_attrs.
Proof. exact BusEntry_all. Qed.
Print Assumptions C56_BusEntry.

Theorem C56_BusAlias : compares_all BusAlias_eqb BusAlias_attrs.
Proof. exact BusAlias_all. Qed.
Print Assumptions C56_BusAlias.

Theorem C56_Connection : compares_all Connection_eqb Connection_attrs.
Proof. exact Connection_all. Qed.
Print Assumptions C56_Connection.

Theorem C56_PolyLine : compares_all PolyLine_eqb PolyLine_attrs.
Proof. exact PolyLine_all. Qed.
Print Assumptions C56_PolyLine.

Theorem C56_Text : compares_all Text_eqb Text_attrs.
Proof. exact Text_all. Qed.
Print Assumptions C56_Text.

Theorem C56_TextBox : compares_all TextBox_eqb TextBox_attrs.
Proof. exact TextBox_all. Qed.
Print Assumptions C56_TextBox.

Theorem C56_LocalLabel : compares_all LocalLabel_eqb LocalLabel_attrs.
Proof. exact LocalLabel_all. Qed.
Print Assumptions C56_LocalLabel.

Theorem C56_GlobalLabel : compares_all GlobalLabel_eqb GlobalLabel_attrs.
Proof. exact GlobalLabel_all. Qed.
Print Assumptions C56_GlobalLabel.

Theorem C56_HierarchicalLabel : compares_all HierarchicalLabel_eqb HierarchicalLabel_attrs.
Proof. exact HierarchicalLabel_all. Qed.
Print Assumptions C56_HierarchicalLabel.

Theorem C56_SymbolProjectPath : compares_all SymbolProjectPath_eqb SymbolProjectPath_attrs.
Proof. exact SymbolProjectPath_all. Qed.
Print Assumptions C56_SymbolProjectPath.

Theorem C56_SymbolProjectInstance : compares_all SymbolProjectInstance_eqb SymbolProjectInstance_attrs.
Proof. exact SymbolProjectInstance_all. Qed.
Print Assumptions C56_SymbolProjectInstance.

Theorem C56_SchematicSymbol : compares_all SchematicSymbol_eqb SchematicSymbol_attrs.
Proof. exact SchematicSymbol_all. Qed.
Print Assumptions C56_SchematicSymbol.

Theorem C56_HierarchicalPin : compares_all HierarchicalPin_eqb HierarchicalPin_attrs.
Proof. exact HierarchicalPin_all. Qed.
Print Assumptions C56_HierarchicalPin.

Theorem C56_HierarchicalSheetProjectPath : compares_all HierarchicalSheetProjectPath_eqb HierarchicalSheetProjectPath_attrs.
Proof. exact HierarchicalSheetProjectPath_all. Qed.
Print Assumptions C56_HierarchicalSheetProjectPath.

Theorem C56_HierarchicalSheetProjectInstance : compares_all HierarchicalSheetProjectInstance_eqb HierarchicalSheetProjectInstance_attrs.
Proof. exact HierarchicalSheetProjectInstance_all. Qed.
Print Assumptions C56_HierarchicalSheetProjectInstance.

Theorem C56_HierarchicalSheet : compares_all HierarchicalSheet_eqb HierarchicalSheet_attrs.
Proof. exact HierarchicalSheet_all. Qed.
Print Assumptions C56_HierarchicalSheet.

Theorem C56_HierarchicalSheetInstance : compares_all HierarchicalSheetInstance_eqb HierarchicalSheetInstance_attrs.
Proof. exact HierarchicalSheetInstance_all. Qed.
Print Assumptions C56_HierarchicalSheetInstance.

Theorem C56_SymbolInstance : compares_all SymbolInstance_eqb SymbolInstance_attrs.
Proof. exact SymbolInstance_all. Qed.
Print Assumptions C56_SymbolInstance.

Theorem C56_Rectangle : compares_all Rectangle_eqb Rectangle_attrs.
Proof. exact Rectangle_all. Qed.
Print Assumptions C56_Rectangle.

Theorem C56_SchArc : compares_all SchArc_eqb SchArc_attrs.
Proof. exact SchArc_all. Qed.
Print Assumptions C56_SchArc.

Theorem C56_Circle : compares_all Circle_eqb Circle_attrs.
Proof. exact Circle_all. Qed.
Print Assumptions C56_Circle.

Theorem C56_NetclassFlag : compares_all NetclassFlag_eqb NetclassFlag_attrs.
Proof. exact NetclassFlag_all. Qed.
Print Assumptions C56_NetclassFlag.

Theorem C56_Schematic : compares_all Schematic_eqb Schematic_attrs.
Proof. exact Schematic_all. Qed.
Print Assumptions C56_Schematic.

Theorem C56_WksFontSize : compares_all WksFontSize_eqb WksFontSize_attrs.
Proof. exact WksFontSize_all. Qed.
Print Assumptions C56_WksFontSize.

Theorem C56_WksFont : compares_all WksFont_eqb WksFont_attrs.
Proof. exact WksFont_all. Qed.
Print Assumptions C56_WksFont.

Theorem C56_WksPosition : compares_all WksPosition_eqb WksPosition_attrs.
Proof. exact WksPosition_all. Qed.
Print Assumptions C56_WksPosition.

Theorem C56_Line : compares_all Line_eqb Line_attrs.
Proof. exact Line_all. Qed.
Print Assumptions C56_Line.

Theorem C56_Rect : compares_all Rect_eqb Rect_attrs.
Proof. exact Rect_all. Qed.
Print Assumptions C56_Rect.

Theorem C56_Polygon : compares_all Polygon_eqb Polygon_attrs.
Proof. exact Polygon_all. Qed.
Print Assumptions C56_Polygon.

Theorem C56_Bitmap : compares_all Bitmap_eqb Bitmap_attrs.
Proof. exact Bitmap_all. Qed.
Print Assumptions C56_Bitmap.

Theorem C56_TbText : compares_all TbText_eqb TbText_attrs.
Proof. exact TbText_all. Qed.
Print Assumptions C56_TbText.

Theorem C56_TextSize : compares_all TextSize_eqb TextSize_attrs.
Proof. exact TextSize_all. Qed.
Print Assumptions C56_TextSize.

Theorem C56_Setup : compares_all Setup_eqb Setup_attrs.
Proof. exact Setup_all. Qed.
Print Assumptions C56_Setup.

Theorem C56_WorkSheet : compares_all WorkSheet_eqb WorkSheet_attrs.
Proof. exact WorkSheet_all. Qed.
Print Assumptions C56_WorkSheet.

Theorem C56_SyItem : compares_class SyItem_eqb SyItem_cases.
Proof. exact SyItem_all. Qed.
Print Assumptions C56_SyItem.

Theorem C56_PadPrimitive : compares_class PadPrimitive_eqb PadPrimitive_cases.
Proof. exact PadPrimitive_all. Qed.
Print Assumptions C56_PadPrimitive.

Theorem C56_FpItem : compares_class FpItem_eqb FpItem_cases.
Proof. exact FpItem_all. Qed.
Print Assumptions C56_FpItem.

Theorem C56_BdItem : compares_class BdItem_eqb BdItem_cases.
Proof. exact BdItem_all. Qed.
Print Assumptions C56_BdItem.

Theorem C56_TrItem : compares_class TrItem_eqb TrItem_cases.
Proof. exact TrItem_all. Qed.
Print Assumptions C56_TrItem.

Theorem C56_JColor : compares_class JColor_eqb JColor_cases.
Proof. exact JColor_all. Qed.
Print Assumptions C56_JColor.

Theorem C56_ScLine : compares_class ScLine_eqb ScLine_cases.
Proof. exact ScLine_all. Qed.
Print Assumptions C56_ScLine.

Theorem C56_ScShape : compares_class ScShape_eqb ScShape_cases.
Proof. exact ScShape_all. Qed.
Print Assumptions C56_ScShape.

Theorem C56_WkItem : compares_class WkItem_eqb WkItem_cases.
Proof. exact WkItem_all. Qed.
Print Assumptions C56_WkItem.
