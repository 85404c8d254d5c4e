(** The frame of the written text: proofs. *)
From Verif Require Import PyBase PyNum PyStr PyRe Sexpr S_Layout L_Layout M_Common M_Lib M_Sym M_Fp M_Gr M_Zone M_Footprint M_Dim M_Brd M_Board M_Sch M_Schematic M_Wks.

Lemma Coordinate_lay : lays_out Coordinate_to.
Proof. lay_in Coordinate_to. Qed.
Lemma ColorRGBA_lay : lays_out ColorRGBA_to.
Proof. lay_in ColorRGBA_to. Qed.
Lemma Stroke_lay : lays_out Stroke_to.
Proof. lay_in Stroke_to. Qed.
Lemma Font_lay : lays_out Font_to.
Proof. lay_in Font_to. Qed.
Lemma Justify_lay : lays_out_or_blank (fun o => is_none (ju_horizontally o) && is_none (ju_vertically o) && negb (ju_mirror o)) Justify_to.
Proof. intros o indent n s; cbv beta; unfold Justify_to; cbv zeta; lay_steps; lay_final. Qed.
Lemma Effects_lay : lays_out Effects_to.
Proof. lay_in Effects_to. Qed.
Lemma Net_lay : lays_out Net_to.
Proof. lay_in Net_to. Qed.
Lemma Group_lay : lays_out Group_to.
Proof. lay_in Group_to. Qed.
Lemma PageSettings_lay : lays_out PageSettings_to.
Proof. lay_in PageSettings_to. Qed.
Lemma TitleBlock_lay : lays_out TitleBlock_to.
Proof. lay_in TitleBlock_to. Qed.
Lemma Property_lay : lays_out Property_to.
Proof. lay_in Property_to. Qed.
Lemma RenderCachePolygon_lay : lays_out RenderCachePolygon_to.
Proof. lay_in RenderCachePolygon_to. Qed.
Lemma RenderCache_lay : lays_out RenderCache_to.
Proof. lay_in RenderCache_to. Qed.
Lemma Fill_lay : lays_out Fill_to.
Proof. lay_in Fill_to. Qed.
Lemma Image_lay : lays_out Image_to.
Proof. lay_in Image_to. Qed.
Lemma Library_lay : lays_out Library_to.
Proof. lay_in Library_to. Qed.
Lemma LibTable_lay : lays_out LibTable_to.
Proof. lay_in LibTable_to. Qed.
Lemma Constraint_lay : lays_out Constraint_to.
Proof. lay_in Constraint_to. Qed.
Lemma Rule_lay : lays_out_lines (fun _ => false) Rule_to.
Proof. intros o indent n s; cbv beta; unfold Rule_to; cbv zeta; lay_coords; lay_steps; lay_lines_final. Qed.
Lemma SyArc_lay : lays_out SyArc_to.
Proof. lay_in SyArc_to. Qed.
Lemma SyCircle_lay : lays_out SyCircle_to.
Proof. lay_in SyCircle_to. Qed.
Lemma SyPolyLine_lay : lays_out SyPolyLine_to.
Proof. lay_in SyPolyLine_to. Qed.
Lemma SyRect_lay : lays_out SyRect_to.
Proof. lay_in SyRect_to. Qed.
Lemma SyText_lay : lays_out SyText_to.
Proof. lay_in SyText_to. Qed.
Lemma SyTextBox_lay : lays_out SyTextBox_to.
Proof. lay_in SyTextBox_to. Qed.
Lemma SymbolAlternativePin_lay : lays_out SymbolAlternativePin_to.
Proof. lay_in SymbolAlternativePin_to. Qed.
Lemma SymbolPin_lay : lays_out SymbolPin_to.
Proof. lay_in SymbolPin_to. Qed.
Lemma Symbol_lay : lays_out Symbol_to.
Proof. intros o indent n s; destruct o; cbn [Symbol_to]; cbv zeta; lay_steps; lay_final. Qed.
Lemma SymbolLib_lay : lays_out SymbolLib_to.
Proof. lay_in SymbolLib_to. Qed.
Lemma FpText_lay : lays_out FpText_to.
Proof. lay_in FpText_to. Qed.
Lemma FpLine_lay : lays_out FpLine_to.
Proof. lay_in FpLine_to. Qed.
Lemma FpRect_lay : lays_out FpRect_to.
Proof. lay_in FpRect_to. Qed.
Lemma FpCircle_lay : lays_out FpCircle_to.
Proof. lay_in FpCircle_to. Qed.
Lemma FpArc_lay : lays_out FpArc_to.
Proof. lay_in FpArc_to. Qed.
Lemma FpPoly_lay : lays_out_or_blank (fun o => match fp_coordinates o with [] => true | _ => false end) FpPoly_to.
Proof. intros o indent n s; cbv beta; unfold FpPoly_to; cbv zeta; lay_coords; lay_steps; lay_final. Qed.
Lemma FpCurve_lay : lays_out_or_blank (fun o => match fv_coordinates o with [] => true | _ => false end) FpCurve_to.
Proof. intros o indent n s; cbv beta; unfold FpCurve_to; cbv zeta; lay_coords; lay_steps; lay_final. Qed.
Lemma FpTextBox_lay : lays_out FpTextBox_to.
Proof. lay_in FpTextBox_to. Qed.
Lemma GrText_lay : lays_out GrText_to.
Proof. lay_in GrText_to. Qed.
Lemma GrLine_lay : lays_out GrLine_to.
Proof. lay_in GrLine_to. Qed.
Lemma GrRect_lay : lays_out GrRect_to.
Proof. lay_in GrRect_to. Qed.
Lemma GrCircle_lay : lays_out GrCircle_to.
Proof. lay_in GrCircle_to. Qed.
Lemma GrArc_lay : lays_out GrArc_to.
Proof. lay_in GrArc_to. Qed.
Lemma GrPoly_lay : lays_out_or_blank (fun o => match gp_coordinates o with [] => true | _ => false end) GrPoly_to.
Proof. intros o indent n s; cbv beta; unfold GrPoly_to, GrPoly_to_pts; cbv zeta; lay_coords; lay_steps; lay_final. Qed.
Lemma GrCurve_lay : lays_out_or_blank (fun o => match gv_coordinates o with [] => true | _ => false end) GrCurve_to.
Proof. intros o indent n s; cbv beta; unfold GrCurve_to; cbv zeta; lay_coords; lay_steps; lay_final. Qed.
Lemma GrTextBox_lay : lays_out GrTextBox_to.
Proof. lay_in GrTextBox_to. Qed.
Lemma KeepoutSettings_lay : lays_out KeepoutSettings_to.
Proof. lay_in KeepoutSettings_to. Qed.
Lemma FillSettings_lay : lays_out FillSettings_to.
Proof. lay_in FillSettings_to. Qed.
Lemma ZonePolygon_lay : lays_out_lines (fun o => match zp_coordinates o with [] => true | _ => false end) ZonePolygon_to.
Proof. intros o indent n s; cbv beta; unfold ZonePolygon_to; cbv zeta; lay_coords; lay_steps; lay_lines_final. Qed.
Lemma FilledPolygon_lay : lays_out_lines (fun o => match zf_coordinates o with [] => true | _ => false end) FilledPolygon_to.
Proof. intros o indent n s; cbv beta; unfold FilledPolygon_to; cbv zeta; lay_coords; lay_steps; lay_lines_final. Qed.
Lemma FillSegments_lay : lays_out_lines (fun o => match zs_coordinates o with [] => true | _ => false end) FillSegments_to.
Proof. intros o indent n s; cbv beta; unfold FillSegments_to; cbv zeta; lay_coords; lay_steps; lay_lines_final. Qed.
Lemma Zone_lay : lays_out Zone_to.
Proof. lay_in Zone_to. Qed.
Lemma Attributes_lay : lays_out_or_nothing (fun o => is_none (fx_type o) && negb (fx_boardOnly o) && negb (fx_excludeFromBom o) && negb (fx_excludeFromPosFiles o) && negb (fx_allowMissingCourtyard o)) Attributes_to.
Proof. intros o indent n s; cbv beta; unfold Attributes_to; cbv zeta; lay_steps; lay_final. Qed.
Lemma Model_lay : lays_out Model_to.
Proof. lay_in Model_to. Qed.
Lemma DrillDefinition_lay : lays_out DrillDefinition_to.
Proof. lay_in DrillDefinition_to. Qed.
Lemma PadOptions_lay : lays_out PadOptions_to.
Proof. lay_in PadOptions_to. Qed.
Lemma Pad_lay : lays_out Pad_to.
Proof. lay_in Pad_to. Qed.
Lemma Footprint_lay : lays_out Footprint_to.
Proof. unfold Footprint_to. lay_in Footprint_to_layer. Qed.
Lemma DimensionFormat_lay : lays_out DimensionFormat_to.
Proof. lay_in DimensionFormat_to. Qed.
Lemma DimensionStyle_lay : lays_out DimensionStyle_to.
Proof. lay_in DimensionStyle_to. Qed.
Lemma Dimension_lay : lays_out Dimension_to.
Proof. lay_in Dimension_to. Qed.
Lemma GeneralSettings_lay : lays_out GeneralSettings_to.
Proof. lay_in GeneralSettings_to. Qed.
Lemma LayerToken_lay : lays_out LayerToken_to.
Proof. lay_in LayerToken_to. Qed.
Lemma StackupLayer_lay : lays_out StackupLayer_to.
Proof. lay_in StackupLayer_to. Qed.
Lemma Stackup_lay : lays_out Stackup_to.
Proof. lay_in Stackup_to. Qed.
Lemma PlotSettings_lay : lays_out PlotSettings_to.
Proof. lay_in PlotSettings_to. Qed.
Lemma SetupData_lay : lays_out SetupData_to.
Proof. lay_in SetupData_to. Qed.
Lemma Segment_lay : lays_out Segment_to.
Proof. lay_in Segment_to. Qed.
Lemma Via_lay : lays_out Via_to.
Proof. lay_in Via_to. Qed.
Lemma Arc_lay : lays_out Arc_to.
Proof. lay_in Arc_to. Qed.
Lemma Target_lay : lays_out Target_to.
Proof. lay_in Target_to. Qed.
Lemma Board_lay : lays_out Board_to.
Proof. lay_in Board_to. Qed.
Lemma Junction_lay : lays_out Junction_to.
Proof. lay_in Junction_to. Qed.
Lemma NoConnect_lay : lays_out NoConnect_to.
Proof. lay_in NoConnect_to. Qed.
Lemma BusEntry_lay : lays_out BusEntry_to.
Proof. lay_in BusEntry_to. Qed.
Lemma BusAlias_lay : lays_out BusAlias_to.
Proof. lay_in BusAlias_to. Qed.
Lemma Connection_lay : lays_out Connection_to.
Proof. lay_in Connection_to. Qed.
Lemma PolyLine_lay : lays_out PolyLine_to.
Proof. lay_in PolyLine_to. Qed.
Lemma Text_lay : lays_out Text_to.
Proof. lay_in Text_to. Qed.
Lemma TextBox_lay : lays_out TextBox_to.
Proof. lay_in TextBox_to. Qed.
Lemma LocalLabel_lay : lays_out LocalLabel_to.
Proof. lay_in LocalLabel_to. Qed.
Lemma GlobalLabel_lay : lays_out GlobalLabel_to.
Proof. lay_in GlobalLabel_to. Qed.
Lemma HierarchicalLabel_lay : lays_out HierarchicalLabel_to.
Proof. lay_in HierarchicalLabel_to. Qed.
Lemma SymbolProjectPath_lay : lays_out SymbolProjectPath_to.
Proof. lay_in SymbolProjectPath_to. Qed.
Lemma SymbolProjectInstance_lay : lays_out SymbolProjectInstance_to.
Proof. lay_in SymbolProjectInstance_to. Qed.
Lemma SchematicSymbol_lay : lays_out SchematicSymbol_to.
Proof. lay_in SchematicSymbol_to. Qed.
Lemma HierarchicalPin_lay : lays_out HierarchicalPin_to.
Proof. lay_in HierarchicalPin_to. Qed.
Lemma HierarchicalSheetProjectPath_lay : lays_out HierarchicalSheetProjectPath_to.
Proof. lay_in HierarchicalSheetProjectPath_to. Qed.
Lemma HierarchicalSheetProjectInstance_lay : lays_out HierarchicalSheetProjectInstance_to.
Proof. lay_in HierarchicalSheetProjectInstance_to. Qed.
Lemma HierarchicalSheet_lay : lays_out HierarchicalSheet_to.
Proof. lay_in HierarchicalSheet_to. Qed.
Lemma HierarchicalSheetInstance_lay : lays_out HierarchicalSheetInstance_to.
Proof. lay_in HierarchicalSheetInstance_to. Qed.
Lemma SymbolInstance_lay : lays_out SymbolInstance_to.
Proof. lay_in SymbolInstance_to. Qed.
Lemma Rectangle_lay : lays_out Rectangle_to.
Proof. lay_in Rectangle_to. Qed.
Lemma SchArc_lay : lays_out SchArc_to.
Proof. lay_in SchArc_to. Qed.
Lemma Circle_lay : lays_out Circle_to.
Proof. lay_in Circle_to. Qed.
Lemma NetclassFlag_lay : lays_out NetclassFlag_to.
Proof. lay_in NetclassFlag_to. Qed.
Lemma Schematic_lay : lays_out Schematic_to.
Proof. lay_in Schematic_to. Qed.
Lemma WksFontSize_lay : lays_out WksFontSize_to.
Proof. lay_in WksFontSize_to. Qed.
Lemma WksFont_lay : lays_out_or_nothing (fun o => is_none (wf_linewidth o) && match wf_size o with Some _ => false | None => true end && negb (wf_bold o) && negb (wf_italic o)) WksFont_to.
Proof. intros o indent n s; cbv beta; unfold WksFont_to; destruct (wf_linewidth o), (wf_size o), (wf_bold o), (wf_italic o); cbv zeta; cbv beta iota delta [is_none opt_str negb andb]; try (destruct (WksFontSize_to _ _ _)); cbn [bind]; try discriminate; repeat match goal with |- context [Nat.eqb (length (lit ?a)) 0] => change (Nat.eqb (length (lit a)) 0) with false | |- context [Nat.eqb (length (lit ?a ++ ?b)) 0] => change (Nat.eqb (length (lit a ++ b)) 0) with false | |- context [Nat.eqb (length []) 0] => change (Nat.eqb (length (@nil N)) 0) with true end; cbn [andb]; lay_steps; lay_final. Qed.
Lemma Line_lay : lays_out Line_to.
Proof. lay_in Line_to. Qed.
Lemma Rect_lay : lays_out Rect_to.
Proof. lay_in Rect_to. Qed.
Lemma Bitmap_lay : lays_out Bitmap_to.
Proof. lay_in Bitmap_to. Qed.
Lemma TbText_lay : lays_out TbText_to.
Proof. lay_in TbText_to. Qed.
Lemma TextSize_lay : lays_out TextSize_to.
Proof. lay_in TextSize_to. Qed.
Lemma Setup_lay : lays_out Setup_to.
Proof. lay_in Setup_to. Qed.
Lemma WorkSheet_lay : lays_out WorkSheet_to.
Proof. lay_in WorkSheet_to. Qed.
