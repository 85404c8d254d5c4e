(** Readers fail item by item: proofs. *)
From Verif Require Import PyBase PyNum PyStr PyRe Sexpr S_Leaf S_Tree S_Reader S_Local L_Keep L_Swap L_Local M_Common M_Lib M_Sym M_Fp M_Gr M_Zone M_Footprint M_Dim M_Brd M_Board M_Sch M_Schematic M_Wks.

Lemma Stroke_local : itemwise Stroke_from 1.
Proof. local_in Stroke_from 1%nat. Qed.
Lemma Font_local : itemwise Font_from 0.
Proof. local_in Font_from 0%nat. Qed.
Lemma Justify_local : itemwise Justify_from 0.
Proof. local_in Justify_from 0%nat. Qed.
Lemma Effects_local : itemwise Effects_from 0.
Proof. local_in Effects_from 0%nat. Qed.
Lemma Group_local : itemwise Group_from 1.
Proof. local_in Group_from 1%nat. Qed.
Lemma PageSettings_local : itemwise PageSettings_from 3.
Proof. local_in PageSettings_from 3%nat. Qed.
Lemma TitleBlock_local : itemwise TitleBlock_from 0.
Proof. local_in TitleBlock_from 0%nat. Qed.
Lemma Property_local : itemwise Property_from 2.
Proof. local_in Property_from 2%nat. Qed.
Lemma RenderCachePolygon_local : itemwise RenderCachePolygon_from 0.
Proof. local_in RenderCachePolygon_from 0%nat. Qed.
Lemma RenderCache_local : itemwise RenderCache_from 2.
Proof. local_in RenderCache_from 2%nat. Qed.
Lemma Fill_local : itemwise Fill_from 0.
Proof. local_in Fill_from 0%nat. Qed.
Lemma Image_local : itemwise Image_from 0.
Proof. local_in Image_from 0%nat. Qed.
Lemma Library_local : itemwise Library_from 0.
Proof. local_in Library_from 0%nat. Qed.
Lemma LibTable_local : itemwise LibTable_from 0.
Proof. local_in LibTable_from 0%nat. Qed.
Lemma Rule_local : itemwise Rule_from 1.
Proof. local_in Rule_from 1%nat. Qed.
Lemma DesignRules_local : itemwise DesignRules_from 0.
Proof. local_in DesignRules_from 0%nat. Qed.
Lemma SyArc_local : itemwise SyArc_from 0.
Proof. local_in SyArc_from 0%nat. Qed.
Lemma SyCircle_local : itemwise SyCircle_from 0.
Proof. local_in SyCircle_from 0%nat. Qed.
Lemma SyCurve_local : itemwise SyCurve_from 0.
Proof. local_in SyCurve_from 0%nat. Qed.
Lemma SyPolyLine_local : itemwise SyPolyLine_from 0.
Proof. local_in SyPolyLine_from 0%nat. Qed.
Lemma SyRect_local : itemwise SyRect_from 0.
Proof. local_in SyRect_from 0%nat. Qed.
Lemma SyText_local : itemwise SyText_from 1.
Proof. local_in SyText_from 1%nat. Qed.
Lemma SyTextBox_local : itemwise SyTextBox_from 2.
Proof. local_in SyTextBox_from 2%nat using SyTextBox_private. Qed.
Lemma SymbolPin_local : itemwise SymbolPin_from 2.
Proof. local_in SymbolPin_from 2%nat. Qed.
Lemma Symbol_local : itemwise Symbol_from 1.
Proof. local_in Symbol_from 1%nat. Qed.
Lemma SymbolLib_local : itemwise SymbolLib_from 0.
Proof. local_in SymbolLib_from 0%nat. Qed.
Lemma Constraint_local : itemwise Constraint_from 1.
Proof. local_in Constraint_from 1%nat. Qed.
Lemma FpText_local : itemwise FpText_from 2.
Proof. local_in FpText_from 2%nat. Qed.
Lemma FpLine_local : itemwise FpLine_from 0.
Proof. local_in FpLine_from 0%nat. Qed.
Lemma FpRect_local : itemwise FpRect_from 0.
Proof. local_in FpRect_from 0%nat. Qed.
Lemma FpCircle_local : itemwise FpCircle_from 0.
Proof. local_in FpCircle_from 0%nat. Qed.
Lemma FpArc_local : itemwise FpArc_from 0.
Proof. local_in FpArc_from 0%nat. Qed.
Lemma FpPoly_local : itemwise FpPoly_from 0.
Proof. local_in FpPoly_from 0%nat. Qed.
Lemma FpCurve_local : itemwise FpCurve_from 0.
Proof. local_in FpCurve_from 0%nat. Qed.
Lemma FpTextBox_local : itemwise FpTextBox_from 2.
Proof. local_in FpTextBox_from 2%nat using text_box_locked. Qed.
Lemma GrText_local : itemwise GrText_from 1.
Proof. local_in GrText_from 1%nat. Qed.
Lemma GrLine_local : itemwise GrLine_from 0.
Proof. local_in GrLine_from 0%nat. Qed.
Lemma GrRect_local : itemwise GrRect_from 0.
Proof. local_in GrRect_from 0%nat. Qed.
Lemma GrCircle_local : itemwise GrCircle_from 0.
Proof. local_in GrCircle_from 0%nat. Qed.
Lemma GrArc_local : itemwise GrArc_from 0.
Proof. local_in GrArc_from 0%nat. Qed.
Lemma GrPoly_local : itemwise GrPoly_from 0.
Proof. local_in GrPoly_from 0%nat. Qed.
Lemma GrCurve_local : itemwise GrCurve_from 0.
Proof. local_in GrCurve_from 0%nat. Qed.
Lemma GrTextBox_local : itemwise GrTextBox_from 2.
Proof. local_in GrTextBox_from 2%nat using text_box_locked. Qed.
Lemma KeepoutSettings_local : itemwise KeepoutSettings_from 0.
Proof. local_in KeepoutSettings_from 0%nat. Qed.
Lemma FillSettings_local : itemwise FillSettings_from 0.
Proof. local_in FillSettings_from 0%nat. Qed.
Lemma ZonePolygon_local : itemwise ZonePolygon_from 0.
Proof. local_in ZonePolygon_from 0%nat. Qed.
Lemma FilledPolygon_local : itemwise FilledPolygon_from 0.
Proof. local_in FilledPolygon_from 0%nat. Qed.
Lemma FillSegments_local : itemwise FillSegments_from 0.
Proof. local_in FillSegments_from 0%nat. Qed.
Lemma Zone_local : itemwise Zone_from 0.
Proof. local_in Zone_from 0%nat. Qed.
Lemma DimensionFormat_local : itemwise DimensionFormat_from 0.
Proof. local_in DimensionFormat_from 0%nat. Qed.
Lemma DimensionStyle_local : itemwise DimensionStyle_from 0.
Proof. local_in DimensionStyle_from 0%nat. Qed.
Lemma Dimension_local : itemwise Dimension_from 0.
Proof. local_in Dimension_from 0%nat. Qed.
Lemma GeneralSettings_local : itemwise GeneralSettings_from 0.
Proof. local_in GeneralSettings_from 0%nat. Qed.
Lemma Stackup_local : itemwise Stackup_from 0.
Proof. local_in Stackup_from 0%nat. Qed.
Lemma PlotSettings_local : itemwise PlotSettings_from 0.
Proof. local_in PlotSettings_from 0%nat. Qed.
Lemma SetupData_local : itemwise SetupData_from 0.
Proof. local_in SetupData_from 0%nat. Qed.
Lemma Segment_local : itemwise Segment_from 0.
Proof. local_in Segment_from 0%nat. Qed.
Lemma Via_local : itemwise Via_from 0.
Proof. local_in Via_from 0%nat. Qed.
Lemma Arc_local : itemwise Arc_from 0.
Proof. local_in Arc_from 0%nat. Qed.
Lemma Target_local : itemwise Target_from 1.
Proof. local_in Target_from 1%nat. Qed.
Lemma Board_local : forall now, itemwise (Board_from now) 0.
Proof. intros now; local_in Board_from 0%nat. Qed.
Lemma Junction_local : itemwise Junction_from 0.
Proof. local_in Junction_from 0%nat. Qed.
Lemma NoConnect_local : itemwise NoConnect_from 0.
Proof. local_in NoConnect_from 0%nat. Qed.
Lemma BusEntry_local : itemwise BusEntry_from 0.
Proof. local_in BusEntry_from 0%nat. Qed.
Lemma Connection_local : itemwise Connection_from 0.
Proof. local_in Connection_from 0%nat. Qed.
Lemma PolyLine_local : itemwise PolyLine_from 0.
Proof. local_in PolyLine_from 0%nat. Qed.
Lemma Text_local : itemwise Text_from 1.
Proof. local_in Text_from 1%nat. Qed.
Lemma TextBox_local : itemwise TextBox_from 1.
Proof. local_in TextBox_from 1%nat. Qed.
Lemma LocalLabel_local : itemwise LocalLabel_from 1.
Proof. local_in LocalLabel_from 1%nat. Qed.
Lemma GlobalLabel_local : itemwise GlobalLabel_from 1.
Proof. local_in GlobalLabel_from 1%nat. Qed.
Lemma HierarchicalLabel_local : itemwise HierarchicalLabel_from 1.
Proof. local_in HierarchicalLabel_from 1%nat. Qed.
Lemma SymbolProjectPath_local : itemwise SymbolProjectPath_from 1.
Proof. local_in SymbolProjectPath_from 1%nat. Qed.
Lemma SymbolProjectInstance_local : itemwise SymbolProjectInstance_from 1.
Proof. local_in SymbolProjectInstance_from 1%nat. Qed.
Lemma SchematicSymbol_local : itemwise SchematicSymbol_from 0.
Proof. local_in SchematicSymbol_from 0%nat. Qed.
Lemma HierarchicalPin_local : itemwise HierarchicalPin_from 2.
Proof. local_in HierarchicalPin_from 2%nat. Qed.
Lemma HierarchicalSheetProjectPath_local : itemwise HierarchicalSheetProjectPath_from 1.
Proof. local_in HierarchicalSheetProjectPath_from 1%nat. Qed.
Lemma HierarchicalSheetProjectInstance_local : itemwise HierarchicalSheetProjectInstance_from 1.
Proof. local_in HierarchicalSheetProjectInstance_from 1%nat. Qed.
Lemma HierarchicalSheet_local : itemwise HierarchicalSheet_from 0.
Proof. local_in HierarchicalSheet_from 0%nat. Qed.
Lemma HierarchicalSheetInstance_local : itemwise HierarchicalSheetInstance_from 1.
Proof. local_in HierarchicalSheetInstance_from 1%nat. Qed.
Lemma SymbolInstance_local : itemwise SymbolInstance_from 1.
Proof. local_in SymbolInstance_from 1%nat. Qed.
Lemma Rectangle_local : itemwise Rectangle_from 0.
Proof. local_in Rectangle_from 0%nat. Qed.
Lemma SchArc_local : itemwise SchArc_from 0.
Proof. local_in SchArc_from 0%nat. Qed.
Lemma Circle_local : itemwise Circle_from 0.
Proof. local_in Circle_from 0%nat. Qed.
Lemma NetclassFlag_local : itemwise NetclassFlag_from 1.
Proof. local_in NetclassFlag_from 1%nat. Qed.
Lemma Schematic_local : itemwise Schematic_from 0.
Proof. local_in Schematic_from 0%nat. Qed.
Lemma WksFont_local : itemwise WksFont_from 0.
Proof. local_in WksFont_from 0%nat. Qed.
Lemma Line_local : itemwise Line_from 0.
Proof. local_in Line_from 0%nat. Qed.
Lemma Rect_local : itemwise Rect_from 0.
Proof. local_in Rect_from 0%nat. Qed.
Lemma Bitmap_local : itemwise Bitmap_from 0.
Proof. local_in Bitmap_from 0%nat. Qed.
Lemma TbText_local : itemwise TbText_from 1.
Proof. local_in TbText_from 1%nat. Qed.
Lemma Setup_local : itemwise Setup_from 0.
Proof. local_in Setup_from 0%nat. Qed.
Lemma WorkSheet_local : itemwise WorkSheet_from 0.
Proof. local_in WorkSheet_from 0%nat. Qed.
Lemma Attributes_local : itemwise Attributes_from 1.
Proof. local_in Attributes_from 1%nat. Qed.
Lemma Model_local : itemwise Model_from 4.
Proof. local_in Model_from 4%nat. Qed.
Lemma DrillDefinition_local : itemwise DrillDefinition_from 3.
Proof. local_in DrillDefinition_from 3%nat. Qed.
Lemma PadOptions_local : itemwise PadOptions_from 0.
Proof. local_in PadOptions_from 0%nat. Qed.
Lemma Pad_local : itemwise Pad_from 3.
Proof. local_in Pad_from 3%nat. Qed.
Lemma Footprint_local : forall now, itemwise (Footprint_from now) 1.
Proof. intros now; local_in Footprint_from 1%nat. Qed.
