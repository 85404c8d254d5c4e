(** Property theorems C35: saving what was read settles after one step.  The objects of the examples beside the round
    trip theorems (C09 to C26) meet the hypothesis of the theorem for the same class. *)
From Verif Require Import PyBase PyNum PyStr Sexpr S_Leaf S_Tree S_Settle L_Settle
  M_Common S_Common M_Zone S_Zone M_Fp S_Fp M_Gr S_Gr M_Dim S_Dim M_Brd S_Brd M_Board S_Board M_Lib S_Lib M_Sym S_Sym M_Sch S_Sch M_Schematic S_Schematic M_Footprint S_Footprint M_Wks S_Wks
  Properties_Board Properties_Brd Properties_Common Properties_Dim Properties_Footprint Properties_Fp Properties_Gr Properties_Lib Properties_Sch Properties_Schematic Properties_Sym Properties_Wks Properties_Zone.

Theorem C35_Coordinate : settles Coordinate_to Coordinate_from Coordinate_ok.
Proof. exact (settles_of _ _ _ _ _ _ (C09_Coordinate) (C36_Coordinate)). Qed.
Print Assumptions C35_Coordinate.

Theorem C35_ColorRGBA : settles ColorRGBA_to ColorRGBA_from ColorRGBA_ok.
Proof. exact (settles_of _ _ _ _ _ _ (C09_ColorRGBA) (C36_ColorRGBA)). Qed.
Print Assumptions C35_ColorRGBA.

Theorem C35_Stroke : settles Stroke_to Stroke_from Stroke_ok.
Proof. exact (settles_of _ _ _ _ _ _ (C09_Stroke) (C36_Stroke)). Qed.
Print Assumptions C35_Stroke.

Theorem C35_Font : settles Font_to Font_from Font_ok.
Proof. exact (settles_of _ _ _ _ _ _ (C09_Font) (C36_Font)). Qed.
Print Assumptions C35_Font.

Theorem C35_Effects : settles Effects_to Effects_from Effects_ok.
Proof. exact (settles_of _ _ _ _ _ _ (C09_Effects) (C36_Effects)). Qed.
Print Assumptions C35_Effects.

Theorem C35_Net : settles Net_to Net_from Net_ok.
Proof. exact (settles_of _ _ _ _ _ _ (C09_Net) (C36_Net)). Qed.
Print Assumptions C35_Net.

Theorem C35_Group : settles Group_to Group_from Group_ok.
Proof. exact (settles_of _ _ _ _ _ _ (C09_Group) (C36_Group)). Qed.
Print Assumptions C35_Group.

Theorem C35_PageSettings : settles PageSettings_to PageSettings_from PageSettings_ok.
Proof. exact (settles_of _ _ _ _ _ _ (C09_PageSettings) (C36_PageSettings)). Qed.
Print Assumptions C35_PageSettings.

Theorem C35_TitleBlock : settles TitleBlock_to TitleBlock_from TitleBlock_ok.
Proof. exact (settles_of _ _ _ _ _ _ (C09_TitleBlock) (C36_TitleBlock)). Qed.
Print Assumptions C35_TitleBlock.

Theorem C35_Property : settles Property_to Property_from Property_ok.
Proof. exact (settles_of _ _ _ _ _ _ (C09_Property) (C36_Property)). Qed.
Print Assumptions C35_Property.

Theorem C35_RenderCachePolygon : settles RenderCachePolygon_to RenderCachePolygon_from RenderCachePolygon_ok.
Proof. exact (settles_of _ _ _ _ _ _ (C09_RenderCachePolygon) (C36_RenderCachePolygon)). Qed.
Print Assumptions C35_RenderCachePolygon.

Theorem C35_RenderCache : settles RenderCache_to RenderCache_from RenderCache_ok.
Proof. exact (settles_of _ _ _ _ _ _ (C09_RenderCache) (C36_RenderCache)). Qed.
Print Assumptions C35_RenderCache.

Theorem C35_Fill : settles Fill_to Fill_from Fill_ok.
Proof. exact (settles_of _ _ _ _ _ _ (C09_Fill) (C36_Fill)). Qed.
Print Assumptions C35_Fill.

Theorem C35_Image : settles Image_to Image_from Image_ok.
Proof. exact (settles_of _ _ _ _ _ _ (C09_Image) (C36_Image)). Qed.
Print Assumptions C35_Image.

Theorem C35_Library : settles Library_to Library_from Library_ok.
Proof. exact (settles_of _ _ _ _ _ _ (C10_Library) (C36_Library)). Qed.
Print Assumptions C35_Library.

Theorem C35_LibTable : settles LibTable_to LibTable_from LibTable_ok.
Proof. exact (settles_of _ _ _ _ _ _ (C10_LibTable) (C36_LibTable)). Qed.
Print Assumptions C35_LibTable.

Theorem C35_Constraint : settles Constraint_to Constraint_from Constraint_ok.
Proof. exact (settles_of _ _ _ _ _ _ (C11_Constraint) (C36_Constraint)). Qed.
Print Assumptions C35_Constraint.

Theorem C35_Rule : settles Rule_to Rule_from Rule_ok.
Proof. exact (settles_of _ _ _ _ _ _ (C11_Rule) (C36_Rule)). Qed.
Print Assumptions C35_Rule.

Theorem C35_DesignRules : settles DesignRules_file DesignRules_from DesignRules_ok.
Proof. exact (settles_of _ _ _ _ _ _ (C11_DesignRules) (C36_DesignRules)). Qed.
Print Assumptions C35_DesignRules.

Theorem C35_SyArc : settles SyArc_to SyArc_from SyArc_ok.
Proof. exact (settles_of _ _ _ _ _ _ (C12_SyArc) (C36_SyArc)). Qed.
Print Assumptions C35_SyArc.

Theorem C35_SyCircle : settles SyCircle_to SyCircle_from SyCircle_ok.
Proof. exact (settles_of _ _ _ _ _ _ (C12_SyCircle) (C36_SyCircle)). Qed.
Print Assumptions C35_SyCircle.

Theorem C35_SyPolyLine : settles SyPolyLine_to SyPolyLine_from SyPolyLine_ok.
Proof. exact (settles_of _ _ _ _ _ _ (C12_SyPolyLine) (C36_SyPolyLine)). Qed.
Print Assumptions C35_SyPolyLine.

Theorem C35_SyRect : settles SyRect_to SyRect_from SyRect_ok.
Proof. exact (settles_of _ _ _ _ _ _ (C12_SyRect) (C36_SyRect)). Qed.
Print Assumptions C35_SyRect.

Theorem C35_SyText : settles SyText_to SyText_from SyText_ok.
Proof. exact (settles_of _ _ _ _ _ _ (C12_SyText) (C36_SyText)). Qed.
Print Assumptions C35_SyText.

Theorem C35_SyTextBox : settles SyTextBox_to SyTextBox_from SyTextBox_ok.
Proof. exact (settles_of _ _ _ _ _ _ (C12_SyTextBox) (C36_SyTextBox)). Qed.
Print Assumptions C35_SyTextBox.

Theorem C35_SymbolAlternativePin : settles SymbolAlternativePin_to SymbolAlternativePin_from SymbolAlternativePin_ok.
Proof. exact (settles_of _ _ _ _ _ _ (C12_SymbolAlternativePin) (C36_SymbolAlternativePin)). Qed.
Print Assumptions C35_SymbolAlternativePin.

Theorem C35_SymbolPin : settles SymbolPin_to SymbolPin_from SymbolPin_ok.
Proof. exact (settles_of _ _ _ _ _ _ (C12_SymbolPin) (C36_SymbolPin)). Qed.
Print Assumptions C35_SymbolPin.

Theorem C35_Symbol : settles Symbol_to Symbol_from Symbol_ok.
Proof. exact (settles_of _ _ _ _ _ _ (C13_Symbol) (C36_Symbol)). Qed.
Print Assumptions C35_Symbol.

Theorem C35_SymbolLib : settles SymbolLib_to SymbolLib_from SymbolLib_ok.
Proof. exact (settles_of _ _ _ _ _ _ (C13_SymbolLib) (C36_SymbolLib)). Qed.
Print Assumptions C35_SymbolLib.

Theorem C35_FpText : settles FpText_to FpText_from FpText_ok.
Proof. exact (settles_of _ _ _ _ _ _ (C17_FpText) (C36_FpText)). Qed.
Print Assumptions C35_FpText.

Theorem C35_FpLine : settles FpLine_to FpLine_from FpLine_ok.
Proof. exact (settles_of _ _ _ _ _ _ (C17_FpLine) (C36_FpLine)). Qed.
Print Assumptions C35_FpLine.

Theorem C35_FpRect : settles FpRect_to FpRect_from FpRect_ok.
Proof. exact (settles_of _ _ _ _ _ _ (C17_FpRect) (C36_FpRect)). Qed.
Print Assumptions C35_FpRect.

Theorem C35_FpTextBox : settles FpTextBox_to FpTextBox_from FpTextBox_ok.
Proof. exact (settles_of _ _ _ _ _ _ (C17_FpTextBox) (C36_FpTextBox)). Qed.
Print Assumptions C35_FpTextBox.

Theorem C35_FpCircle : settles FpCircle_to FpCircle_from FpCircle_ok.
Proof. exact (settles_of _ _ _ _ _ _ (C17_FpCircle) (C36_FpCircle)). Qed.
Print Assumptions C35_FpCircle.

Theorem C35_FpArc : settles FpArc_to FpArc_from FpArc_ok.
Proof. exact (settles_of _ _ _ _ _ _ (C17_FpArc) (C36_FpArc)). Qed.
Print Assumptions C35_FpArc.

Theorem C35_FpPoly : settles FpPoly_to FpPoly_from FpPoly_ok.
Proof. exact (settles_of _ _ _ _ _ _ (C17_FpPoly) (C36_FpPoly)). Qed.
Print Assumptions C35_FpPoly.

Theorem C35_FpCurve : settles FpCurve_to FpCurve_from FpCurve_ok.
Proof. exact (settles_of _ _ _ _ _ _ (C17_FpCurve) (C36_FpCurve)). Qed.
Print Assumptions C35_FpCurve.

Theorem C35_GrText : settles GrText_to GrText_from GrText_ok.
Proof. exact (settles_of _ _ _ _ _ _ (C19_GrText) (C36_GrText)). Qed.
Print Assumptions C35_GrText.

Theorem C35_GrTextBox : settles GrTextBox_to GrTextBox_from GrTextBox_ok.
Proof. exact (settles_of _ _ _ _ _ _ (C19_GrTextBox) (C36_GrTextBox)). Qed.
Print Assumptions C35_GrTextBox.

Theorem C35_GrLine : settles GrLine_to GrLine_from GrLine_ok.
Proof. exact (settles_of _ _ _ _ _ _ (C19_GrLine) (C36_GrLine)). Qed.
Print Assumptions C35_GrLine.

Theorem C35_GrRect : settles GrRect_to GrRect_from GrRect_ok.
Proof. exact (settles_of _ _ _ _ _ _ (C19_GrRect) (C36_GrRect)). Qed.
Print Assumptions C35_GrRect.

Theorem C35_GrCircle : settles GrCircle_to GrCircle_from GrCircle_ok.
Proof. exact (settles_of _ _ _ _ _ _ (C19_GrCircle) (C36_GrCircle)). Qed.
Print Assumptions C35_GrCircle.

Theorem C35_GrArc : settles GrArc_to GrArc_from GrArc_ok.
Proof. exact (settles_of _ _ _ _ _ _ (C19_GrArc) (C36_GrArc)). Qed.
Print Assumptions C35_GrArc.

Theorem C35_GrPoly : settles GrPoly_to GrPoly_from GrPoly_ok.
Proof. exact (settles_of _ _ _ _ _ _ (C19_GrPoly) (C36_GrPoly)). Qed.
Print Assumptions C35_GrPoly.

Theorem C35_GrCurve : settles GrCurve_to GrCurve_from GrCurve_ok.
Proof. exact (settles_of _ _ _ _ _ _ (C19_GrCurve) (C36_GrCurve)). Qed.
Print Assumptions C35_GrCurve.

Theorem C35_KeepoutSettings : settles KeepoutSettings_to KeepoutSettings_from KeepoutSettings_ok.
Proof. exact (settles_of _ _ _ _ _ _ (C20_KeepoutSettings) (C36_KeepoutSettings)). Qed.
Print Assumptions C35_KeepoutSettings.

Theorem C35_FillSettings : settles FillSettings_to FillSettings_from FillSettings_ok.
Proof. exact (settles_of _ _ _ _ _ _ (C20_FillSettings) (C36_FillSettings)). Qed.
Print Assumptions C35_FillSettings.

Theorem C35_ZonePolygon : settles ZonePolygon_to ZonePolygon_from ZonePolygon_ok.
Proof. exact (settles_of _ _ _ _ _ _ (C20_ZonePolygon) (C36_ZonePolygon)). Qed.
Print Assumptions C35_ZonePolygon.

Theorem C35_FilledPolygon : settles FilledPolygon_to FilledPolygon_from FilledPolygon_ok.
Proof. exact (settles_of _ _ _ _ _ _ (C20_FilledPolygon) (C36_FilledPolygon)). Qed.
Print Assumptions C35_FilledPolygon.

Theorem C35_FillSegments : settles FillSegments_to FillSegments_from FillSegments_ok.
Proof. exact (settles_of _ _ _ _ _ _ (C20_FillSegments) (C36_FillSegments)). Qed.
Print Assumptions C35_FillSegments.

Theorem C35_Zone : settles Zone_to Zone_from Zone_ok.
Proof. exact (settles_of _ _ _ _ _ _ (C20_Zone) (C36_Zone)). Qed.
Print Assumptions C35_Zone.

Theorem C35_Attributes : settles Attributes_to Attributes_from Attributes_ok1.
Proof. exact (settles_of _ _ _ _ _ _ (C18_Attributes) (C36_Attributes)). Qed.
Print Assumptions C35_Attributes.

Theorem C35_Model : settles Model_to Model_from Model_ok.
Proof. exact (settles_of _ _ _ _ _ _ (C18_Model) (C36_Model)). Qed.
Print Assumptions C35_Model.

Theorem C35_DrillDefinition : settles DrillDefinition_to DrillDefinition_from DrillDefinition_ok.
Proof. exact (settles_of _ _ _ _ _ _ (C18_DrillDefinition) (C36_DrillDefinition)). Qed.
Print Assumptions C35_DrillDefinition.

Theorem C35_PadOptions : settles PadOptions_to PadOptions_from PadOptions_ok.
Proof. exact (settles_of _ _ _ _ _ _ (C18_PadOptions) (C36_PadOptions)). Qed.
Print Assumptions C35_PadOptions.

Theorem C35_Pad : settles Pad_to Pad_from Pad_ok.
Proof. exact (settles_of _ _ _ _ _ _ (C18_Pad) (C36_Pad)). Qed.
Print Assumptions C35_Pad.

Theorem C35_Footprint : forall now, settles Footprint_to (Footprint_from now) Footprint_ok.
Proof. exact (fun now => (settles_of _ _ _ _ _ _ (C18_Footprint now) (C36_Footprint now))). Qed.
Print Assumptions C35_Footprint.

Theorem C35_DimensionFormat : settles DimensionFormat_to DimensionFormat_from DimensionFormat_ok.
Proof. exact (settles_of _ _ _ _ _ _ (C21_DimensionFormat) (C36_DimensionFormat)). Qed.
Print Assumptions C35_DimensionFormat.

Theorem C35_DimensionStyle : settles DimensionStyle_to DimensionStyle_from DimensionStyle_ok.
Proof. exact (settles_of _ _ _ _ _ _ (C21_DimensionStyle) (C36_DimensionStyle)). Qed.
Print Assumptions C35_DimensionStyle.

Theorem C35_Dimension : settles Dimension_to Dimension_from Dimension_ok.
Proof. exact (settles_of _ _ _ _ _ _ (C21_Dimension) (C36_Dimension)). Qed.
Print Assumptions C35_Dimension.

Theorem C35_GeneralSettings : settles GeneralSettings_to GeneralSettings_from GeneralSettings_ok.
Proof. exact (settles_of _ _ _ _ _ _ (C22_GeneralSettings) (C36_GeneralSettings)). Qed.
Print Assumptions C35_GeneralSettings.

Theorem C35_LayerToken : settles LayerToken_to LayerToken_from LayerToken_ok.
Proof. exact (settles_of _ _ _ _ _ _ (C22_LayerToken) (C36_LayerToken)). Qed.
Print Assumptions C35_LayerToken.

Theorem C35_StackupLayer : settles StackupLayer_to StackupLayer_from StackupLayer_ok.
Proof. exact (settles_of _ _ _ _ _ _ (C22_StackupLayer) (C36_StackupLayer)). Qed.
Print Assumptions C35_StackupLayer.

Theorem C35_Stackup : settles Stackup_to Stackup_from Stackup_ok.
Proof. exact (settles_of _ _ _ _ _ _ (C22_Stackup) (C36_Stackup)). Qed.
Print Assumptions C35_Stackup.

Theorem C35_PlotSettings : settles PlotSettings_to PlotSettings_from PlotSettings_ok.
Proof. exact (settles_of _ _ _ _ _ _ (C22_PlotSettings) (C36_PlotSettings)). Qed.
Print Assumptions C35_PlotSettings.

Theorem C35_SetupData : settles SetupData_to SetupData_from SetupData_ok.
Proof. exact (settles_of _ _ _ _ _ _ (C22_SetupData) (C36_SetupData)). Qed.
Print Assumptions C35_SetupData.

Theorem C35_Segment : settles Segment_to Segment_from Segment_ok.
Proof. exact (settles_of _ _ _ _ _ _ (C22_Segment) (C36_Segment)). Qed.
Print Assumptions C35_Segment.

Theorem C35_Via : settles Via_to Via_from Via_ok.
Proof. exact (settles_of _ _ _ _ _ _ (C22_Via) (C36_Via)). Qed.
Print Assumptions C35_Via.

Theorem C35_Arc : settles Arc_to Arc_from Arc_ok.
Proof. exact (settles_of _ _ _ _ _ _ (C22_Arc) (C36_Arc)). Qed.
Print Assumptions C35_Arc.

Theorem C35_Target : settles Target_to Target_from Target_ok.
Proof. exact (settles_of _ _ _ _ _ _ (C22_Target) (C36_Target)). Qed.
Print Assumptions C35_Target.

Theorem C35_Board : forall now, settles Board_to (Board_from now) Board_ok.
Proof. exact (fun now => (settles_of _ _ _ _ _ _ (C23_Board now) (C36_Board now))). Qed.
Print Assumptions C35_Board.

Theorem C35_Junction : settles Junction_to Junction_from Junction_ok.
Proof. exact (settles_of _ _ _ _ _ _ (C24_Junction) (C36_Junction)). Qed.
Print Assumptions C35_Junction.

Theorem C35_NoConnect : settles NoConnect_to NoConnect_from NoConnect_ok.
Proof. exact (settles_of _ _ _ _ _ _ (C24_NoConnect) (C36_NoConnect)). Qed.
Print Assumptions C35_NoConnect.

Theorem C35_BusEntry : settles BusEntry_to BusEntry_from BusEntry_ok.
Proof. exact (settles_of _ _ _ _ _ _ (C24_BusEntry) (C36_BusEntry)). Qed.
Print Assumptions C35_BusEntry.

Theorem C35_BusAlias : settles BusAlias_to BusAlias_from BusAlias_ok.
Proof. exact (settles_of _ _ _ _ _ _ (C24_BusAlias) (C36_BusAlias)). Qed.
Print Assumptions C35_BusAlias.

Theorem C35_Connection : settles Connection_to Connection_from Connection_ok.
Proof. exact (settles_of _ _ _ _ _ _ (C24_Connection) (C36_Connection)). Qed.
Print Assumptions C35_Connection.

Theorem C35_PolyLine : settles PolyLine_to PolyLine_from PolyLine_ok.
Proof. exact (settles_of _ _ _ _ _ _ (C24_PolyLine) (C36_PolyLine)). Qed.
Print Assumptions C35_PolyLine.

Theorem C35_Text : settles Text_to Text_from Text_ok.
Proof. exact (settles_of _ _ _ _ _ _ (C24_Text) (C36_Text)). Qed.
Print Assumptions C35_Text.

Theorem C35_TextBox : settles TextBox_to TextBox_from TextBox_ok.
Proof. exact (settles_of _ _ _ _ _ _ (C24_TextBox) (C36_TextBox)). Qed.
Print Assumptions C35_TextBox.

Theorem C35_LocalLabel : settles LocalLabel_to LocalLabel_from LocalLabel_ok.
Proof. exact (settles_of _ _ _ _ _ _ (C24_LocalLabel) (C36_LocalLabel)). Qed.
Print Assumptions C35_LocalLabel.

Theorem C35_GlobalLabel : settles GlobalLabel_to GlobalLabel_from GlobalLabel_ok.
Proof. exact (settles_of _ _ _ _ _ _ (C24_GlobalLabel) (C36_GlobalLabel)). Qed.
Print Assumptions C35_GlobalLabel.

Theorem C35_HierarchicalLabel : settles HierarchicalLabel_to HierarchicalLabel_from HierarchicalLabel_ok.
Proof. exact (settles_of _ _ _ _ _ _ (C24_HierarchicalLabel) (C36_HierarchicalLabel)). Qed.
Print Assumptions C35_HierarchicalLabel.

Theorem C35_SymbolProjectPath : settles SymbolProjectPath_to SymbolProjectPath_from SymbolProjectPath_ok.
Proof. exact (settles_of _ _ _ _ _ _ (C24_SymbolProjectPath) (C36_SymbolProjectPath)). Qed.
Print Assumptions C35_SymbolProjectPath.

Theorem C35_SymbolProjectInstance : settles SymbolProjectInstance_to SymbolProjectInstance_from SymbolProjectInstance_ok.
Proof. exact (settles_of _ _ _ _ _ _ (C24_SymbolProjectInstance) (C36_SymbolProjectInstance)). Qed.
Print Assumptions C35_SymbolProjectInstance.

Theorem C35_SchematicSymbol : settles SchematicSymbol_to SchematicSymbol_from SchematicSymbol_ok.
Proof. exact (settles_of _ _ _ _ _ _ (C24_SchematicSymbol) (C36_SchematicSymbol)). Qed.
Print Assumptions C35_SchematicSymbol.

Theorem C35_HierarchicalPin : settles HierarchicalPin_to HierarchicalPin_from HierarchicalPin_ok.
Proof. exact (settles_of _ _ _ _ _ _ (C24_HierarchicalPin) (C36_HierarchicalPin)). Qed.
Print Assumptions C35_HierarchicalPin.

Theorem C35_HierarchicalSheetProjectPath : settles HierarchicalSheetProjectPath_to HierarchicalSheetProjectPath_from HierarchicalSheetProjectPath_ok.
Proof. exact (settles_of _ _ _ _ _ _ (C24_HierarchicalSheetProjectPath) (C36_HierarchicalSheetProjectPath)). Qed.
Print Assumptions C35_HierarchicalSheetProjectPath.

Theorem C35_HierarchicalSheetProjectInstance : settles HierarchicalSheetProjectInstance_to HierarchicalSheetProjectInstance_from HierarchicalSheetProjectInstance_ok.
Proof. exact (settles_of _ _ _ _ _ _ (C24_HierarchicalSheetProjectInstance) (C36_HierarchicalSheetProjectInstance)). Qed.
Print Assumptions C35_HierarchicalSheetProjectInstance.

Theorem C35_HierarchicalSheet : settles HierarchicalSheet_to HierarchicalSheet_from HierarchicalSheet_ok.
Proof. exact (settles_of _ _ _ _ _ _ (C24_HierarchicalSheet) (C36_HierarchicalSheet)). Qed.
Print Assumptions C35_HierarchicalSheet.

Theorem C35_HierarchicalSheetInstance : settles HierarchicalSheetInstance_to HierarchicalSheetInstance_from HierarchicalSheetInstance_ok.
Proof. exact (settles_of _ _ _ _ _ _ (C24_HierarchicalSheetInstance) (C36_HierarchicalSheetInstance)). Qed.
Print Assumptions C35_HierarchicalSheetInstance.

Theorem C35_SymbolInstance : settles SymbolInstance_to SymbolInstance_from SymbolInstance_ok.
Proof. exact (settles_of _ _ _ _ _ _ (C24_SymbolInstance) (C36_SymbolInstance)). Qed.
Print Assumptions C35_SymbolInstance.

Theorem C35_Rectangle : settles Rectangle_to Rectangle_from Rectangle_ok.
Proof. exact (settles_of _ _ _ _ _ _ (C24_Rectangle) (C36_Rectangle)). Qed.
Print Assumptions C35_Rectangle.

Theorem C35_SchArc : settles SchArc_to SchArc_from SchArc_ok.
Proof. exact (settles_of _ _ _ _ _ _ (C24_SchArc) (C36_SchArc)). Qed.
Print Assumptions C35_SchArc.

Theorem C35_Circle : settles Circle_to Circle_from Circle_ok.
Proof. exact (settles_of _ _ _ _ _ _ (C24_Circle) (C36_Circle)). Qed.
Print Assumptions C35_Circle.

Theorem C35_NetclassFlag : settles NetclassFlag_to NetclassFlag_from NetclassFlag_ok.
Proof. exact (settles_of _ _ _ _ _ _ (C24_NetclassFlag) (C36_NetclassFlag)). Qed.
Print Assumptions C35_NetclassFlag.

Theorem C35_Schematic : settles Schematic_to Schematic_from Schematic_ok.
Proof. exact (settles_of _ _ _ _ _ _ (C25_Schematic) (C36_Schematic)). Qed.
Print Assumptions C35_Schematic.

Theorem C35_WksFontSize : settles WksFontSize_to WksFontSize_from WksFontSize_ok.
Proof. exact (settles_of _ _ _ _ _ _ (C26_WksFontSize) (C36_WksFontSize)). Qed.
Print Assumptions C35_WksFontSize.

Theorem C35_WksFont : settles WksFont_to WksFont_from WksFont_ok1.
Proof. exact (settles_of _ _ _ _ _ _ (C26_WksFont) (C36_WksFont)). Qed.
Print Assumptions C35_WksFont.

Theorem C35_Line : settles Line_to Line_from Line_ok.
Proof. exact (settles_of _ _ _ _ _ _ (C26_Line) (C36_Line)). Qed.
Print Assumptions C35_Line.

Theorem C35_Rect : settles Rect_to Rect_from Rect_ok.
Proof. exact (settles_of _ _ _ _ _ _ (C26_Rect) (C36_Rect)). Qed.
Print Assumptions C35_Rect.

Theorem C35_Bitmap : settles Bitmap_to Bitmap_from Bitmap_ok.
Proof. exact (settles_of _ _ _ _ _ _ (C26_Bitmap) (C36_Bitmap)). Qed.
Print Assumptions C35_Bitmap.

Theorem C35_TbText : settles TbText_to TbText_from TbText_ok.
Proof. exact (settles_of _ _ _ _ _ _ (C26_TbText) (C36_TbText)). Qed.
Print Assumptions C35_TbText.

Theorem C35_TextSize : settles TextSize_to TextSize_from TextSize_ok.
Proof. exact (settles_of _ _ _ _ _ _ (C26_TextSize) (C36_TextSize)). Qed.
Print Assumptions C35_TextSize.

Theorem C35_Setup : settles Setup_to Setup_from Setup_ok.
Proof. exact (settles_of _ _ _ _ _ _ (C26_Setup) (C36_Setup)). Qed.
Print Assumptions C35_Setup.

Theorem C35_WorkSheet : settles WorkSheet_to WorkSheet_from WorkSheet_ok.
Proof. exact (settles_of _ _ _ _ _ _ (C26_WorkSheet) (C36_WorkSheet)). Qed.
Print Assumptions C35_WorkSheet.

(** The first save may change the spelling: a font that was read without a size is written with Python's [1.0], which
    comes back as the int [1]. *)
Theorem C35_Font_first_save_refuted : ~ (forall e o, Font_from e = Ok o -> Font_ok o = true -> forall indent newline s1,
  Font_to o indent newline = Ok s1 -> resave Font_to Font_from indent newline s1 = Ok s1).
Proof.
  intros H. specialize (H (VList [VStr $"font"]) Font_default). specialize (H ltac:(vm_compute; reflexivity) ltac:(vm_compute; reflexivity) 0%nat false).
  specialize (H _ ltac:(vm_compute; reflexivity)). vm_compute in H. discriminate H.
Qed.
Print Assumptions C35_Font_first_save_refuted.
