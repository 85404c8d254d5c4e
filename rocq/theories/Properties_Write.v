(** C47: which objects can be written.  For every class the theorem says exactly when [to_sexpr]
    returns a text; the conditions are in S_Write.v. *)
From Verif Require Import PyBase PyNum PyStr M_Common M_Lib M_Sym M_Fp M_Gr M_Zone M_Footprint M_Dim M_Brd M_Board M_Sch M_Schematic M_Wks RecordSet S_Write L_Write L_WriteA.

Theorem C47_Coordinate : forall (o : Coordinate) (indent : nat) (newline : bool), exists s, Coordinate_to o indent newline = Ok s.
Proof. intros. apply always, Coordinate_w. Qed.
Print Assumptions C47_Coordinate.
Theorem C47_ColorRGBA : forall (o : ColorRGBA) (indent : nat) (newline : bool),
  (exists s, ColorRGBA_to o indent newline = Ok s) <-> ColorRGBA_writable o = true.
Proof. intros. apply when, ColorRGBA_w. Qed.
Print Assumptions C47_ColorRGBA.
Theorem C47_Stroke : forall (o : Stroke) (indent : nat) (newline : bool),
  (exists s, Stroke_to o indent newline = Ok s) <-> Stroke_writable o = true.
Proof. intros. apply when, Stroke_w. Qed.
Print Assumptions C47_Stroke.
Theorem C47_Font : forall (o : Font) (indent : nat) (newline : bool),
  (exists s, Font_to o indent newline = Ok s) <-> Font_writable o = true.
Proof. intros. apply when, Font_w. Qed.
Print Assumptions C47_Font.
Theorem C47_Justify : forall (o : Justify) (indent : nat) (newline : bool), exists s, Justify_to o indent newline = Ok s.
Proof. intros. apply always, Justify_w. Qed.
Print Assumptions C47_Justify.
Theorem C47_Effects : forall (o : Effects) (indent : nat) (newline : bool),
  (exists s, Effects_to o indent newline = Ok s) <-> Effects_writable o = true.
Proof. intros. apply when, Effects_w. Qed.
Print Assumptions C47_Effects.
Theorem C47_Net : forall (o : Net) (indent : nat) (newline : bool), exists s, Net_to o indent newline = Ok s.
Proof. intros. apply always, Net_w. Qed.
Print Assumptions C47_Net.
Theorem C47_Group : forall (o : Group) (indent : nat) (newline : bool), exists s, Group_to o indent newline = Ok s.
Proof. intros. apply always, Group_w. Qed.
Print Assumptions C47_Group.
Theorem C47_PageSettings : forall (o : PageSettings) (indent : nat) (newline : bool),
  (exists s, PageSettings_to o indent newline = Ok s) <-> PageSettings_writable o = true.
Proof. intros. apply when, PageSettings_w. Qed.
Print Assumptions C47_PageSettings.
Theorem C47_TitleBlock : forall (o : TitleBlock) (indent : nat) (newline : bool), exists s, TitleBlock_to o indent newline = Ok s.
Proof. intros. apply always, TitleBlock_w. Qed.
Print Assumptions C47_TitleBlock.
Theorem C47_Property : forall (o : Property) (indent : nat) (newline : bool),
  (exists s, Property_to o indent newline = Ok s) <-> Property_writable o = true.
Proof. intros. apply when, Property_w. Qed.
Print Assumptions C47_Property.
Theorem C47_RenderCachePolygon : forall (o : RenderCachePolygon) (indent : nat) (newline : bool), exists s, RenderCachePolygon_to o indent newline = Ok s.
Proof. intros. apply always, RenderCachePolygon_w. Qed.
Print Assumptions C47_RenderCachePolygon.
Theorem C47_RenderCache : forall (o : RenderCache) (indent : nat) (newline : bool), exists s, RenderCache_to o indent newline = Ok s.
Proof. intros. apply always, RenderCache_w. Qed.
Print Assumptions C47_RenderCache.
Theorem C47_Fill : forall (o : Fill) (indent : nat) (newline : bool),
  (exists s, Fill_to o indent newline = Ok s) <-> Fill_writable o = true.
Proof. intros. apply when, Fill_w. Qed.
Print Assumptions C47_Fill.
Theorem C47_Image : forall (o : Image) (indent : nat) (newline : bool), exists s, Image_to o indent newline = Ok s.
Proof. intros. apply always, Image_w. Qed.
Print Assumptions C47_Image.
Theorem C47_Library : forall (o : Library) (indent : nat) (newline : bool), exists s, Library_to o indent newline = Ok s.
Proof. intros. apply always, Library_w. Qed.
Print Assumptions C47_Library.
Theorem C47_LibTable : forall (o : LibTable) (indent : nat) (newline : bool), exists s, LibTable_to o indent newline = Ok s.
Proof. intros. apply always, LibTable_w. Qed.
Print Assumptions C47_LibTable.
Theorem C47_Constraint : forall (o : Constraint) (indent : nat) (newline : bool),
  (exists s, Constraint_to o indent newline = Ok s) <-> Constraint_writable o = true.
Proof. intros. apply when, Constraint_w. Qed.
Print Assumptions C47_Constraint.
Theorem C47_Rule : forall (o : Rule) (indent : nat) (newline : bool),
  (exists s, Rule_to o indent newline = Ok s) <-> Rule_writable o = true.
Proof. intros. apply when, Rule_w. Qed.
Print Assumptions C47_Rule.
Theorem C47_DesignRules : forall (o : DesignRules) (indent : nat) (newline : bool),
  (exists s, DesignRules_to o indent newline = Ok s) <-> DesignRules_writable o = true.
Proof. intros. apply when, DesignRules_w. Qed.
Print Assumptions C47_DesignRules.
Theorem C47_SyArc : forall (o : SyArc) (indent : nat) (newline : bool),
  (exists s, SyArc_to o indent newline = Ok s) <-> SyArc_writable o = true.
Proof. intros. apply when, SyArc_w. Qed.
Print Assumptions C47_SyArc.
Theorem C47_SyCircle : forall (o : SyCircle) (indent : nat) (newline : bool),
  (exists s, SyCircle_to o indent newline = Ok s) <-> SyCircle_writable o = true.
Proof. intros. apply when, SyCircle_w. Qed.
Print Assumptions C47_SyCircle.
Theorem C47_SyCurve : forall (o : SyCurve) (indent : nat) (newline : bool),
  (exists s, SyCurve_to o indent newline = Ok s) <-> SyCurve_writable o = true.
Proof. intros. apply when, SyCurve_w. Qed.
Print Assumptions C47_SyCurve.
Theorem C47_SyPolyLine : forall (o : SyPolyLine) (indent : nat) (newline : bool),
  (exists s, SyPolyLine_to o indent newline = Ok s) <-> SyPolyLine_writable o = true.
Proof. intros. apply when, SyPolyLine_w. Qed.
Print Assumptions C47_SyPolyLine.
Theorem C47_SyRect : forall (o : SyRect) (indent : nat) (newline : bool),
  (exists s, SyRect_to o indent newline = Ok s) <-> SyRect_writable o = true.
Proof. intros. apply when, SyRect_w. Qed.
Print Assumptions C47_SyRect.
Theorem C47_SyText : forall (o : SyText) (indent : nat) (newline : bool),
  (exists s, SyText_to o indent newline = Ok s) <-> SyText_writable o = true.
Proof. intros. apply when, SyText_w. Qed.
Print Assumptions C47_SyText.
Theorem C47_SyTextBox : forall (o : SyTextBox) (indent : nat) (newline : bool),
  (exists s, SyTextBox_to o indent newline = Ok s) <-> SyTextBox_writable o = true.
Proof. intros. apply when, SyTextBox_w. Qed.
Print Assumptions C47_SyTextBox.
Theorem C47_SymbolAlternativePin : forall (o : SymbolAlternativePin) (indent : nat) (newline : bool), exists s, SymbolAlternativePin_to o indent newline = Ok s.
Proof. intros. apply always, SymbolAlternativePin_w. Qed.
Print Assumptions C47_SymbolAlternativePin.
Theorem C47_SymbolPin : forall (o : SymbolPin) (indent : nat) (newline : bool),
  (exists s, SymbolPin_to o indent newline = Ok s) <-> SymbolPin_writable o = true.
Proof. intros. apply when, SymbolPin_w. Qed.
Print Assumptions C47_SymbolPin.
Theorem C47_SyItem : forall (o : SyItem) (indent : nat) (newline : bool),
  (exists s, SyItem_to o indent newline = Ok s) <-> SyItem_writable o = true.
Proof. intros. apply when, SyItem_w. Qed.
Print Assumptions C47_SyItem.
Theorem C47_Symbol : forall (o : Symbol) (indent : nat) (newline : bool),
  (exists s, Symbol_to o indent newline = Ok s) <-> Symbol_writable o = true.
Proof. intros. apply when, Symbol_w. Qed.
Print Assumptions C47_Symbol.
Theorem C47_SymbolLib : forall (o : SymbolLib) (indent : nat) (newline : bool),
  (exists s, SymbolLib_to o indent newline = Ok s) <-> SymbolLib_writable o = true.
Proof. intros. apply when, SymbolLib_w. Qed.
Print Assumptions C47_SymbolLib.
Theorem C47_FpText : forall (o : FpText) (indent : nat) (newline : bool),
  (exists s, FpText_to o indent newline = Ok s) <-> FpText_writable o = true.
Proof. intros. apply when, FpText_w. Qed.
Print Assumptions C47_FpText.
Theorem C47_FpLine : forall (o : FpLine) (indent : nat) (newline : bool),
  (exists s, FpLine_to o indent newline = Ok s) <-> FpLine_writable o = true.
Proof. intros. apply when, FpLine_w. Qed.
Print Assumptions C47_FpLine.
Theorem C47_FpRect : forall (o : FpRect) (indent : nat) (newline : bool),
  (exists s, FpRect_to o indent newline = Ok s) <-> FpRect_writable o = true.
Proof. intros. apply when, FpRect_w. Qed.
Print Assumptions C47_FpRect.
Theorem C47_FpCircle : forall (o : FpCircle) (indent : nat) (newline : bool),
  (exists s, FpCircle_to o indent newline = Ok s) <-> FpCircle_writable o = true.
Proof. intros. apply when, FpCircle_w. Qed.
Print Assumptions C47_FpCircle.
Theorem C47_FpArc : forall (o : FpArc) (indent : nat) (newline : bool),
  (exists s, FpArc_to o indent newline = Ok s) <-> FpArc_writable o = true.
Proof. intros. apply when, FpArc_w. Qed.
Print Assumptions C47_FpArc.
Theorem C47_FpPoly : forall (o : FpPoly) (indent : nat) (newline : bool),
  (exists s, FpPoly_to o indent newline = Ok s) <-> FpPoly_writable o = true.
Proof. intros. apply when, FpPoly_w. Qed.
Print Assumptions C47_FpPoly.
Theorem C47_FpCurve : forall (o : FpCurve) (indent : nat) (newline : bool),
  (exists s, FpCurve_to o indent newline = Ok s) <-> FpCurve_writable o = true.
Proof. intros. apply when, FpCurve_w. Qed.
Print Assumptions C47_FpCurve.
Theorem C47_FpTextBox : forall (o : FpTextBox) (indent : nat) (newline : bool),
  (exists s, FpTextBox_to o indent newline = Ok s) <-> FpTextBox_writable o = true.
Proof. intros. apply when, FpTextBox_w. Qed.
Print Assumptions C47_FpTextBox.
Theorem C47_GrText : forall (o : GrText) (indent : nat) (newline : bool),
  (exists s, GrText_to o indent newline = Ok s) <-> GrText_writable o = true.
Proof. intros. apply when, GrText_w. Qed.
Print Assumptions C47_GrText.
Theorem C47_GrLine : forall (o : GrLine) (indent : nat) (newline : bool), exists s, GrLine_to o indent newline = Ok s.
Proof. intros. apply always, GrLine_w. Qed.
Print Assumptions C47_GrLine.
Theorem C47_GrRect : forall (o : GrRect) (indent : nat) (newline : bool), exists s, GrRect_to o indent newline = Ok s.
Proof. intros. apply always, GrRect_w. Qed.
Print Assumptions C47_GrRect.
Theorem C47_GrCircle : forall (o : GrCircle) (indent : nat) (newline : bool), exists s, GrCircle_to o indent newline = Ok s.
Proof. intros. apply always, GrCircle_w. Qed.
Print Assumptions C47_GrCircle.
Theorem C47_GrArc : forall (o : GrArc) (indent : nat) (newline : bool), exists s, GrArc_to o indent newline = Ok s.
Proof. intros. apply always, GrArc_w. Qed.
Print Assumptions C47_GrArc.
Theorem C47_GrPoly : forall (o : GrPoly) (indent : nat) (newline : bool), exists s, GrPoly_to o indent newline = Ok s.
Proof. intros. apply always, GrPoly_w. Qed.
Print Assumptions C47_GrPoly.
Theorem C47_GrCurve : forall (o : GrCurve) (indent : nat) (newline : bool), exists s, GrCurve_to o indent newline = Ok s.
Proof. intros. apply always, GrCurve_w. Qed.
Print Assumptions C47_GrCurve.
Theorem C47_GrTextBox : forall (o : GrTextBox) (indent : nat) (newline : bool),
  (exists s, GrTextBox_to o indent newline = Ok s) <-> GrTextBox_writable o = true.
Proof. intros. apply when, GrTextBox_w. Qed.
Print Assumptions C47_GrTextBox.
Theorem C47_KeepoutSettings : forall (o : KeepoutSettings) (indent : nat) (newline : bool), exists s, KeepoutSettings_to o indent newline = Ok s.
Proof. intros. apply always, KeepoutSettings_w. Qed.
Print Assumptions C47_KeepoutSettings.
Theorem C47_FillSettings : forall (o : FillSettings) (indent : nat) (newline : bool), exists s, FillSettings_to o indent newline = Ok s.
Proof. intros. apply always, FillSettings_w. Qed.
Print Assumptions C47_FillSettings.
Theorem C47_ZonePolygon : forall (o : ZonePolygon) (indent : nat) (newline : bool), exists s, ZonePolygon_to o indent newline = Ok s.
Proof. intros. apply always, ZonePolygon_w. Qed.
Print Assumptions C47_ZonePolygon.
Theorem C47_FilledPolygon : forall (o : FilledPolygon) (indent : nat) (newline : bool), exists s, FilledPolygon_to o indent newline = Ok s.
Proof. intros. apply always, FilledPolygon_w. Qed.
Print Assumptions C47_FilledPolygon.
Theorem C47_FillSegments : forall (o : FillSegments) (indent : nat) (newline : bool), exists s, FillSegments_to o indent newline = Ok s.
Proof. intros. apply always, FillSegments_w. Qed.
Print Assumptions C47_FillSegments.
Theorem C47_Zone : forall (o : Zone) (indent : nat) (newline : bool),
  (exists s, Zone_to o indent newline = Ok s) <-> Zone_writable o = true.
Proof. intros. apply when, Zone_w. Qed.
Print Assumptions C47_Zone.
Theorem C47_Attributes : forall (o : Attributes) (indent : nat) (newline : bool), exists s, Attributes_to o indent newline = Ok s.
Proof. intros. apply always, Attributes_w. Qed.
Print Assumptions C47_Attributes.
Theorem C47_Model : forall (o : Model) (indent : nat) (newline : bool), exists s, Model_to o indent newline = Ok s.
Proof. intros. apply always, Model_w. Qed.
Print Assumptions C47_Model.
Theorem C47_DrillDefinition : forall (o : DrillDefinition) (indent : nat) (newline : bool), exists s, DrillDefinition_to o indent newline = Ok s.
Proof. intros. apply always, DrillDefinition_w. Qed.
Print Assumptions C47_DrillDefinition.
Theorem C47_PadOptions : forall (o : PadOptions) (indent : nat) (newline : bool), exists s, PadOptions_to o indent newline = Ok s.
Proof. intros. apply always, PadOptions_w. Qed.
Print Assumptions C47_PadOptions.
Theorem C47_PadPrimitive : forall (o : PadPrimitive) (indent : nat) (newline : bool),
  (exists s, PadPrimitive_to o indent newline = Ok s) <-> PadPrimitive_writable o = true.
Proof. intros. apply when, PadPrimitive_w. Qed.
Print Assumptions C47_PadPrimitive.
Theorem C47_Pad : forall (o : Pad) (indent : nat) (newline : bool),
  (exists s, Pad_to o indent newline = Ok s) <-> Pad_writable o = true.
Proof. intros. apply when, Pad_w. Qed.
Print Assumptions C47_Pad.
Theorem C47_FpItem : forall (o : FpItem) (indent : nat) (newline : bool),
  (exists s, FpItem_to o indent newline = Ok s) <-> FpItem_writable o = true.
Proof. intros. apply when, FpItem_w. Qed.
Print Assumptions C47_FpItem.
Theorem C47_Footprint : forall (o : Footprint) (indent : nat) (newline : bool),
  (exists s, Footprint_to o indent newline = Ok s) <-> Footprint_writable o = true.
Proof. intros. apply when, Footprint_w. Qed.
Print Assumptions C47_Footprint.
(** the layout of a footprint inside a board *)
Theorem C47_Footprint_in_board : forall (b : bool) (o : Footprint) (indent : nat) (newline : bool),
  (exists s, Footprint_to_layer b o indent newline = Ok s) <-> Footprint_writable o = true.
Proof. intros. apply when, Footprint_layer_w. Qed.
Print Assumptions C47_Footprint_in_board.
Theorem C47_DimensionFormat : forall (o : DimensionFormat) (indent : nat) (newline : bool), exists s, DimensionFormat_to o indent newline = Ok s.
Proof. intros. apply always, DimensionFormat_w. Qed.
Print Assumptions C47_DimensionFormat.
Theorem C47_DimensionStyle : forall (o : DimensionStyle) (indent : nat) (newline : bool), exists s, DimensionStyle_to o indent newline = Ok s.
Proof. intros. apply always, DimensionStyle_w. Qed.
Print Assumptions C47_DimensionStyle.
Theorem C47_Dimension : forall (o : Dimension) (indent : nat) (newline : bool),
  (exists s, Dimension_to o indent newline = Ok s) <-> Dimension_writable o = true.
Proof. intros. apply when, Dimension_w. Qed.
Print Assumptions C47_Dimension.
Theorem C47_GeneralSettings : forall (o : GeneralSettings) (indent : nat) (newline : bool), exists s, GeneralSettings_to o indent newline = Ok s.
Proof. intros. apply always, GeneralSettings_w. Qed.
Print Assumptions C47_GeneralSettings.
Theorem C47_LayerToken : forall (o : LayerToken) (indent : nat) (newline : bool), exists s, LayerToken_to o indent newline = Ok s.
Proof. intros. apply always, LayerToken_w. Qed.
Print Assumptions C47_LayerToken.
Theorem C47_StackupSubLayer : forall (o : StackupSubLayer) (indent : nat) (newline : bool), exists s, StackupSubLayer_to o indent newline = Ok s.
Proof. intros. apply always, StackupSubLayer_w. Qed.
Print Assumptions C47_StackupSubLayer.
Theorem C47_StackupLayer : forall (o : StackupLayer) (indent : nat) (newline : bool), exists s, StackupLayer_to o indent newline = Ok s.
Proof. intros. apply always, StackupLayer_w. Qed.
Print Assumptions C47_StackupLayer.
Theorem C47_Stackup : forall (o : Stackup) (indent : nat) (newline : bool), exists s, Stackup_to o indent newline = Ok s.
Proof. intros. apply always, Stackup_w. Qed.
Print Assumptions C47_Stackup.
Theorem C47_PlotSettings : forall (o : PlotSettings) (indent : nat) (newline : bool),
  (exists s, PlotSettings_to o indent newline = Ok s) <-> PlotSettings_writable o = true.
Proof. intros. apply when, PlotSettings_w. Qed.
Print Assumptions C47_PlotSettings.
Theorem C47_SetupData : forall (o : SetupData) (indent : nat) (newline : bool),
  (exists s, SetupData_to o indent newline = Ok s) <-> SetupData_writable o = true.
Proof. intros. apply when, SetupData_w. Qed.
Print Assumptions C47_SetupData.
Theorem C47_Segment : forall (o : Segment) (indent : nat) (newline : bool), exists s, Segment_to o indent newline = Ok s.
Proof. intros. apply always, Segment_w. Qed.
Print Assumptions C47_Segment.
Theorem C47_Via : forall (o : Via) (indent : nat) (newline : bool), exists s, Via_to o indent newline = Ok s.
Proof. intros. apply always, Via_w. Qed.
Print Assumptions C47_Via.
Theorem C47_Arc : forall (o : Arc) (indent : nat) (newline : bool), exists s, Arc_to o indent newline = Ok s.
Proof. intros. apply always, Arc_w. Qed.
Print Assumptions C47_Arc.
Theorem C47_Target : forall (o : Target) (indent : nat) (newline : bool), exists s, Target_to o indent newline = Ok s.
Proof. intros. apply always, Target_w. Qed.
Print Assumptions C47_Target.
Theorem C47_BdItem : forall (o : BdItem) (indent : nat) (newline : bool),
  (exists s, BdItem_to o indent newline = Ok s) <-> BdItem_writable o = true.
Proof. intros. apply when, BdItem_w. Qed.
Print Assumptions C47_BdItem.
Theorem C47_TrItem : forall (o : TrItem) (indent : nat) (newline : bool), exists s, TrItem_to o indent newline = Ok s.
Proof. intros. apply always, TrItem_w. Qed.
Print Assumptions C47_TrItem.
Theorem C47_Board : forall (o : Board) (indent : nat) (newline : bool),
  (exists s, Board_to o indent newline = Ok s) <-> Board_writable o = true.
Proof. intros. apply when, Board_w. Qed.
Print Assumptions C47_Board.
Theorem C47_Junction : forall (o : Junction) (indent : nat) (newline : bool),
  (exists s, Junction_to o indent newline = Ok s) <-> Junction_writable o = true.
Proof. intros. apply when, Junction_w. Qed.
Print Assumptions C47_Junction.
Theorem C47_NoConnect : forall (o : NoConnect) (indent : nat) (newline : bool), exists s, NoConnect_to o indent newline = Ok s.
Proof. intros. apply always, NoConnect_w. Qed.
Print Assumptions C47_NoConnect.
Theorem C47_BusEntry : forall (o : BusEntry) (indent : nat) (newline : bool),
  (exists s, BusEntry_to o indent newline = Ok s) <-> BusEntry_writable o = true.
Proof. intros. apply when, BusEntry_w. Qed.
Print Assumptions C47_BusEntry.
Theorem C47_BusAlias : forall (o : BusAlias) (indent : nat) (newline : bool), exists s, BusAlias_to o indent newline = Ok s.
Proof. intros. apply always, BusAlias_w. Qed.
Print Assumptions C47_BusAlias.
Theorem C47_Connection : forall (o : Connection) (indent : nat) (newline : bool),
  (exists s, Connection_to o indent newline = Ok s) <-> Connection_writable o = true.
Proof. intros. apply when, Connection_w. Qed.
Print Assumptions C47_Connection.
Theorem C47_PolyLine : forall (o : PolyLine) (indent : nat) (newline : bool),
  (exists s, PolyLine_to o indent newline = Ok s) <-> PolyLine_writable o = true.
Proof. intros. apply when, PolyLine_w. Qed.
Print Assumptions C47_PolyLine.
Theorem C47_Text : forall (o : Text) (indent : nat) (newline : bool),
  (exists s, Text_to o indent newline = Ok s) <-> Text_writable o = true.
Proof. intros. apply when, Text_w. Qed.
Print Assumptions C47_Text.
Theorem C47_TextBox : forall (o : TextBox) (indent : nat) (newline : bool),
  (exists s, TextBox_to o indent newline = Ok s) <-> TextBox_writable o = true.
Proof. intros. apply when, TextBox_w. Qed.
Print Assumptions C47_TextBox.
Theorem C47_LocalLabel : forall (o : LocalLabel) (indent : nat) (newline : bool),
  (exists s, LocalLabel_to o indent newline = Ok s) <-> LocalLabel_writable o = true.
Proof. intros. apply when, LocalLabel_w. Qed.
Print Assumptions C47_LocalLabel.
Theorem C47_GlobalLabel : forall (o : GlobalLabel) (indent : nat) (newline : bool),
  (exists s, GlobalLabel_to o indent newline = Ok s) <-> GlobalLabel_writable o = true.
Proof. intros. apply when, GlobalLabel_w. Qed.
Print Assumptions C47_GlobalLabel.
Theorem C47_HierarchicalLabel : forall (o : HierarchicalLabel) (indent : nat) (newline : bool),
  (exists s, HierarchicalLabel_to o indent newline = Ok s) <-> HierarchicalLabel_writable o = true.
Proof. intros. apply when, HierarchicalLabel_w. Qed.
Print Assumptions C47_HierarchicalLabel.
Theorem C47_SymbolProjectPath : forall (o : SymbolProjectPath) (indent : nat) (newline : bool), exists s, SymbolProjectPath_to o indent newline = Ok s.
Proof. intros. apply always, SymbolProjectPath_w. Qed.
Print Assumptions C47_SymbolProjectPath.
Theorem C47_SymbolProjectInstance : forall (o : SymbolProjectInstance) (indent : nat) (newline : bool), exists s, SymbolProjectInstance_to o indent newline = Ok s.
Proof. intros. apply always, SymbolProjectInstance_w. Qed.
Print Assumptions C47_SymbolProjectInstance.
Theorem C47_SchematicSymbol : forall (o : SchematicSymbol) (indent : nat) (newline : bool),
  (exists s, SchematicSymbol_to o indent newline = Ok s) <-> SchematicSymbol_writable o = true.
Proof. intros. apply when, SchematicSymbol_w. Qed.
Print Assumptions C47_SchematicSymbol.
Theorem C47_HierarchicalPin : forall (o : HierarchicalPin) (indent : nat) (newline : bool),
  (exists s, HierarchicalPin_to o indent newline = Ok s) <-> HierarchicalPin_writable o = true.
Proof. intros. apply when, HierarchicalPin_w. Qed.
Print Assumptions C47_HierarchicalPin.
Theorem C47_HierarchicalSheetProjectPath : forall (o : HierarchicalSheetProjectPath) (indent : nat) (newline : bool), exists s, HierarchicalSheetProjectPath_to o indent newline = Ok s.
Proof. intros. apply always, HierarchicalSheetProjectPath_w. Qed.
Print Assumptions C47_HierarchicalSheetProjectPath.
Theorem C47_HierarchicalSheetProjectInstance : forall (o : HierarchicalSheetProjectInstance) (indent : nat) (newline : bool), exists s, HierarchicalSheetProjectInstance_to o indent newline = Ok s.
Proof. intros. apply always, HierarchicalSheetProjectInstance_w. Qed.
Print Assumptions C47_HierarchicalSheetProjectInstance.
Theorem C47_HierarchicalSheet : forall (o : HierarchicalSheet) (indent : nat) (newline : bool),
  (exists s, HierarchicalSheet_to o indent newline = Ok s) <-> HierarchicalSheet_writable o = true.
Proof. intros. apply when, HierarchicalSheet_w. Qed.
Print Assumptions C47_HierarchicalSheet.
Theorem C47_HierarchicalSheetInstance : forall (o : HierarchicalSheetInstance) (indent : nat) (newline : bool), exists s, HierarchicalSheetInstance_to o indent newline = Ok s.
Proof. intros. apply always, HierarchicalSheetInstance_w. Qed.
Print Assumptions C47_HierarchicalSheetInstance.
Theorem C47_SymbolInstance : forall (o : SymbolInstance) (indent : nat) (newline : bool), exists s, SymbolInstance_to o indent newline = Ok s.
Proof. intros. apply always, SymbolInstance_w. Qed.
Print Assumptions C47_SymbolInstance.
Theorem C47_Rectangle : forall (o : Rectangle) (indent : nat) (newline : bool),
  (exists s, Rectangle_to o indent newline = Ok s) <-> Rectangle_writable o = true.
Proof. intros. apply when, Rectangle_w. Qed.
Print Assumptions C47_Rectangle.
Theorem C47_SchArc : forall (o : SchArc) (indent : nat) (newline : bool),
  (exists s, SchArc_to o indent newline = Ok s) <-> SchArc_writable o = true.
Proof. intros. apply when, SchArc_w. Qed.
Print Assumptions C47_SchArc.
Theorem C47_Circle : forall (o : Circle) (indent : nat) (newline : bool),
  (exists s, Circle_to o indent newline = Ok s) <-> Circle_writable o = true.
Proof. intros. apply when, Circle_w. Qed.
Print Assumptions C47_Circle.
Theorem C47_NetclassFlag : forall (o : NetclassFlag) (indent : nat) (newline : bool),
  (exists s, NetclassFlag_to o indent newline = Ok s) <-> NetclassFlag_writable o = true.
Proof. intros. apply when, NetclassFlag_w. Qed.
Print Assumptions C47_NetclassFlag.
Theorem C47_ScLine : forall (o : ScLine) (indent : nat) (newline : bool),
  (exists s, ScLine_to o indent newline = Ok s) <-> ScLine_writable o = true.
Proof. intros. apply when, ScLine_w. Qed.
Print Assumptions C47_ScLine.
Theorem C47_ScShape : forall (o : ScShape) (indent : nat) (newline : bool),
  (exists s, ScShape_to o indent newline = Ok s) <-> ScShape_writable o = true.
Proof. intros. apply when, ScShape_w. Qed.
Print Assumptions C47_ScShape.
Theorem C47_Schematic : forall (o : Schematic) (indent : nat) (newline : bool),
  (exists s, Schematic_to o indent newline = Ok s) <-> Schematic_writable o = true.
Proof. intros. apply when, Schematic_w. Qed.
Print Assumptions C47_Schematic.
Theorem C47_WksFontSize : forall (o : WksFontSize) (indent : nat) (newline : bool), exists s, WksFontSize_to o indent newline = Ok s.
Proof. intros. apply always, WksFontSize_w. Qed.
Print Assumptions C47_WksFontSize.
Theorem C47_WksFont : forall (o : WksFont) (indent : nat) (newline : bool), exists s, WksFont_to o indent newline = Ok s.
Proof. intros. apply always, WksFont_w. Qed.
Print Assumptions C47_WksFont.
Theorem C47_WksPosition : forall (o : WksPosition) (indent : nat) (newline : bool), ~ exists s, WksPosition_to o indent newline = Ok s.
Proof. intros o i n [s E]. discriminate. Qed.
Print Assumptions C47_WksPosition.
Theorem C47_Line : forall (o : Line) (indent : nat) (newline : bool), exists s, Line_to o indent newline = Ok s.
Proof. intros. apply always, Line_w. Qed.
Print Assumptions C47_Line.
Theorem C47_Rect : forall (o : Rect) (indent : nat) (newline : bool), exists s, Rect_to o indent newline = Ok s.
Proof. intros. apply always, Rect_w. Qed.
Print Assumptions C47_Rect.
Theorem C47_Polygon : forall (o : Polygon) (indent : nat) (newline : bool), ~ exists s, Polygon_to o indent newline = Ok s.
Proof. intros o i n [s E]. discriminate. Qed.
Print Assumptions C47_Polygon.
Theorem C47_Bitmap : forall (o : Bitmap) (indent : nat) (newline : bool), exists s, Bitmap_to o indent newline = Ok s.
Proof. intros. apply always, Bitmap_w. Qed.
Print Assumptions C47_Bitmap.
Theorem C47_TbText : forall (o : TbText) (indent : nat) (newline : bool), exists s, TbText_to o indent newline = Ok s.
Proof. intros. apply always, TbText_w. Qed.
Print Assumptions C47_TbText.
Theorem C47_TextSize : forall (o : TextSize) (indent : nat) (newline : bool), exists s, TextSize_to o indent newline = Ok s.
Proof. intros. apply always, TextSize_w. Qed.
Print Assumptions C47_TextSize.
Theorem C47_Setup : forall (o : Setup) (indent : nat) (newline : bool), exists s, Setup_to o indent newline = Ok s.
Proof. intros. apply always, Setup_w. Qed.
Print Assumptions C47_Setup.
Theorem C47_WkItem : forall (o : WkItem) (indent : nat) (newline : bool),
  (exists s, WkItem_to o indent newline = Ok s) <-> WkItem_writable o = true.
Proof. intros. apply when, WkItem_w. Qed.
Print Assumptions C47_WkItem.
Theorem C47_WorkSheet : forall (o : WorkSheet) (indent : nat) (newline : bool),
  (exists s, WorkSheet_to o indent newline = Ok s) <-> WorkSheet_writable o = true.
Proof. intros. apply when, WorkSheet_w. Qed.
Print Assumptions C47_WorkSheet.

(** ** Every condition can be met and can fail *)
Definition bad_color := ColorRGBA_default <| ca_precision := VInt 6 |> <| ca_A := VStr $"half" |>.
Definition bad_stroke := Stroke_default <| st_color := Some bad_color |>.
Definition bad_font := Font_default <| fo_color := Some bad_color |>.
Definition bad_fill := Fill_default <| fi_color := Some bad_color |>.
Definition bad_effects := Effects_default <| ef_font := bad_font |>.
Definition bad_property := Property_default <| pr_effects := Some bad_effects |>.
Definition bad_page := PageSettings_default <| pg_paperSize := VStr $"User" |> <| pg_width := VInt 100 |>.
Definition bad_constraint := Constraint_default <| cn_elements := [VStr $"zone"; VInt 1] |>.
Definition bad_symbol := Symbol_default <| sy_units := [Symbol_default <| sy_properties := [bad_property] |>] |>.
(** a number that is too large for a float, and the largest that is not *)
Example C47_number_case : number (VInt (2 ^ 1024 - 2 ^ 970)) = false /\ number (VInt (- (2 ^ 1024 - 2 ^ 970 - 1))) = true.
Proof. split; vm_compute; reflexivity. Qed.
Example C47_ColorRGBA_case : ColorRGBA_writable (ColorRGBA_default <| ca_precision := VInt 6 |> <| ca_A := fdec 5 (-1) |>) = true
  /\ ColorRGBA_writable (bad_color) = false.
Proof. split; vm_compute; reflexivity. Qed.
Example C47_Stroke_case : Stroke_writable (Stroke_default) = true
  /\ Stroke_writable (bad_stroke) = false.
Proof. split; vm_compute; reflexivity. Qed.
Example C47_Font_case : Font_writable (Font_default) = true
  /\ Font_writable (bad_font) = false.
Proof. split; vm_compute; reflexivity. Qed.
Example C47_Fill_case : Fill_writable (Fill_default) = true
  /\ Fill_writable (bad_fill) = false.
Proof. split; vm_compute; reflexivity. Qed.
Example C47_Effects_case : Effects_writable (Effects_default) = true
  /\ Effects_writable (bad_effects) = false.
Proof. split; vm_compute; reflexivity. Qed.
Example C47_Property_case : Property_writable (Property_default) = true
  /\ Property_writable (bad_property) = false.
Proof. split; vm_compute; reflexivity. Qed.
Example C47_PageSettings_case : PageSettings_writable (PageSettings_default <| pg_paperSize := VStr $"User" |> <| pg_width := VInt 100 |> <| pg_height := VInt 50 |>) = true
  /\ PageSettings_writable (bad_page) = false.
Proof. split; vm_compute; reflexivity. Qed.
Example C47_Constraint_case : Constraint_writable (Constraint_default <| cn_elements := [VStr $"zone"] |>) = true
  /\ Constraint_writable (bad_constraint) = false.
Proof. split; vm_compute; reflexivity. Qed.
Example C47_Rule_case : Rule_writable (Rule_default <| ru_constraints := [Constraint_default] |>) = true
  /\ Rule_writable (Rule_default <| ru_constraints := [bad_constraint] |>) = false.
Proof. split; vm_compute; reflexivity. Qed.
Example C47_DesignRules_case : DesignRules_writable (DesignRules_default <| dr_rules := [Rule_default] |>) = true
  /\ DesignRules_writable (DesignRules_default <| dr_rules := [Rule_default; Rule_default <| ru_constraints := [bad_constraint] |>] |>) = false.
Proof. split; vm_compute; reflexivity. Qed.
Example C47_SyArc_case : SyArc_writable (SyArc_default) = true
  /\ SyArc_writable (SyArc_default <| sa_fill := bad_fill |>) = false.
Proof. split; vm_compute; reflexivity. Qed.
Example C47_SyCircle_case : SyCircle_writable (SyCircle_default) = true
  /\ SyCircle_writable (SyCircle_default <| si_fill := bad_fill |>) = false.
Proof. split; vm_compute; reflexivity. Qed.
Example C47_SyCurve_case : SyCurve_writable (SyCurve_default) = true
  /\ SyCurve_writable (SyCurve_default <| M_Sym.sc_fill := bad_fill |>) = false.
Proof. split; vm_compute; reflexivity. Qed.
Example C47_SyPolyLine_case : SyPolyLine_writable (SyPolyLine_default) = true
  /\ SyPolyLine_writable (SyPolyLine_default <| sl_fill := bad_fill |>) = false.
Proof. split; vm_compute; reflexivity. Qed.
Example C47_SyRect_case : SyRect_writable (SyRect_default) = true
  /\ SyRect_writable (SyRect_default <| sr_stroke := bad_stroke |>) = false.
Proof. split; vm_compute; reflexivity. Qed.
Example C47_SyText_case : SyText_writable (SyText_default) = true
  /\ SyText_writable (SyText_default <| sx_effects := bad_effects |>) = false.
Proof. split; vm_compute; reflexivity. Qed.
Example C47_SyTextBox_case : SyTextBox_writable (SyTextBox_default) = true
  /\ SyTextBox_writable (SyTextBox_default <| sb_effects := bad_effects |>) = false.
Proof. split; vm_compute; reflexivity. Qed.
Example C47_SymbolPin_case : SymbolPin_writable (SymbolPin_default) = true
  /\ SymbolPin_writable (SymbolPin_default <| sp_numberEffects := Some bad_effects |>) = false.
Proof. split; vm_compute; reflexivity. Qed.
Example C47_SyItem_case : SyItem_writable (SyItem_SyText SyText_default) = true
  /\ SyItem_writable (SyItem_SyText (SyText_default <| sx_effects := bad_effects |>)) = false.
Proof. split; vm_compute; reflexivity. Qed.
Example C47_Symbol_case : Symbol_writable (Symbol_default <| sy_units := [Symbol_default <| sy_pins := [SymbolPin_default] |>] |>) = true
  /\ Symbol_writable (bad_symbol) = false.
Proof. split; vm_compute; reflexivity. Qed.
Example C47_SymbolLib_case : SymbolLib_writable (SymbolLib_default <| sj_symbols := [Symbol_default] |>) = true
  /\ SymbolLib_writable (SymbolLib_default <| sj_symbols := [Symbol_default; bad_symbol] |>) = false.
Proof. split; vm_compute; reflexivity. Qed.
Example C47_FpText_case : FpText_writable (FpText_default) = true
  /\ FpText_writable (FpText_default <| ft_effects := bad_effects |>) = false.
Proof. split; vm_compute; reflexivity. Qed.
Example C47_GrText_case : GrText_writable (GrText_default) = true
  /\ GrText_writable (GrText_default <| gt_effects := bad_effects |>) = false.
Proof. split; vm_compute; reflexivity. Qed.
Example C47_Zone_case : Zone_writable (Zone_default <| zo_layers := [VStr $"F.Cu"] |>) = true
  /\ Zone_writable (Zone_default) = false.
Proof. split; vm_compute; reflexivity. Qed.
Example C47_FpTextBox_case : FpTextBox_writable (FpTextBox_default <| fb_start := Some Position_default |> <| fb_end := Some Position_default |>) = true
  /\ FpTextBox_writable (FpTextBox_default) = false.
Proof. split; vm_compute; reflexivity. Qed.
Example C47_GrTextBox_case : GrTextBox_writable (GrTextBox_default <| gb_angle := VInt 45 |> <| gb_pts := [Position_default; Position_default; Position_default; Position_default] |>) = true
  /\ GrTextBox_writable (GrTextBox_default <| gb_angle := VInt 45 |> <| gb_pts := [Position_default; Position_default] |>) = false.
Proof. split; vm_compute; reflexivity. Qed.
Example C47_PadPrimitive_case : PadPrimitive_writable (PadPrimitive_GrLine GrLine_default) = true
  /\ PadPrimitive_writable (PadPrimitive_GrTextBox GrTextBox_default) = false.
Proof. split; vm_compute; reflexivity. Qed.
Example C47_Pad_case : Pad_writable (Pad_default <| pd_layers := [VStr $"*.Cu"] |>) = true
  /\ Pad_writable (Pad_default <| pd_layers := [VInt 1] |>) = false.
Proof. split; vm_compute; reflexivity. Qed.
Example C47_FpItem_case : FpItem_writable (FpItem_FpLine FpLine_default) = true
  /\ FpItem_writable (FpItem_FpTextBox FpTextBox_default) = false.
Proof. split; vm_compute; reflexivity. Qed.
Example C47_Footprint_case : Footprint_writable (Footprint_default (VStr $"now") <| fd_pads := [Pad_default] |>) = true
  /\ Footprint_writable (Footprint_default (VStr $"now") <| fd_zones := [Zone_default] |>) = false.
Proof. split; vm_compute; reflexivity. Qed.
Example C47_Dimension_case : Dimension_writable (Dimension_default <| di_pts := [Position_default] |>) = true
  /\ Dimension_writable (Dimension_default) = false.
Proof. split; vm_compute; reflexivity. Qed.
Example C47_PlotSettings_case : PlotSettings_writable (PlotSettings_default) = true
  /\ PlotSettings_writable (PlotSettings_default <| ps_hpglPenDiameter := VStr $"thin" |>) = false.
Proof. split; vm_compute; reflexivity. Qed.
Example C47_SetupData_case : SetupData_writable (SetupData_default <| sd_plotSettings := Some PlotSettings_default |>) = true
  /\ SetupData_writable (SetupData_default <| sd_plotSettings := Some (PlotSettings_default <| ps_dashedLineGapRatio := VStr $"3" |>) |>) = false.
Proof. split; vm_compute; reflexivity. Qed.
Example C47_BdItem_case : BdItem_writable (BdItem_GrLine GrLine_default) = true
  /\ BdItem_writable (BdItem_GrTextBox GrTextBox_default) = false.
Proof. split; vm_compute; reflexivity. Qed.
Example C47_Board_case : Board_writable (Board_default <| bd_zones := [Zone_default <| zo_layers := [VStr $"F.Cu"] |>] |>) = true
  /\ Board_writable (Board_default <| bd_zones := [Zone_default] |>) = false.
Proof. split; vm_compute; reflexivity. Qed.
Example C47_Junction_case : Junction_writable (Junction_default) = true
  /\ Junction_writable (Junction_default <| jn_color := JColor_val (VInt 1) |>) = false.
Proof. split; vm_compute; reflexivity. Qed.
Example C47_BusEntry_case : BusEntry_writable (BusEntry_default) = true
  /\ BusEntry_writable (BusEntry_default <| be_stroke := bad_stroke |>) = false.
Proof. split; vm_compute; reflexivity. Qed.
Example C47_Connection_case : Connection_writable (Connection_default) = true
  /\ Connection_writable (Connection_default <| cx_stroke := bad_stroke |>) = false.
Proof. split; vm_compute; reflexivity. Qed.
Example C47_PolyLine_case : PolyLine_writable (PolyLine_default) = true
  /\ PolyLine_writable (PolyLine_default <| pl_stroke := bad_stroke |>) = false.
Proof. split; vm_compute; reflexivity. Qed.
Example C47_Text_case : Text_writable (Text_default) = true
  /\ Text_writable (Text_default <| tx_text := VInt 5 |>) = false.
Proof. split; vm_compute; reflexivity. Qed.
Example C47_TextBox_case : TextBox_writable (TextBox_default) = true
  /\ TextBox_writable (TextBox_default <| bx_fill := bad_fill |>) = false.
Proof. split; vm_compute; reflexivity. Qed.
Example C47_LocalLabel_case : LocalLabel_writable (LocalLabel_default) = true
  /\ LocalLabel_writable (LocalLabel_default <| ll_effects := bad_effects |>) = false.
Proof. split; vm_compute; reflexivity. Qed.
Example C47_GlobalLabel_case : GlobalLabel_writable (GlobalLabel_default) = true
  /\ GlobalLabel_writable (GlobalLabel_default <| gla_properties := [bad_property] |>) = false.
Proof. split; vm_compute; reflexivity. Qed.
Example C47_HierarchicalLabel_case : HierarchicalLabel_writable (HierarchicalLabel_default) = true
  /\ HierarchicalLabel_writable (HierarchicalLabel_default <| hl_effects := bad_effects |>) = false.
Proof. split; vm_compute; reflexivity. Qed.
Example C47_SchematicSymbol_case : SchematicSymbol_writable (SchematicSymbol_default <| ss_properties := [Property_default] |>) = true
  /\ SchematicSymbol_writable (SchematicSymbol_default <| ss_properties := [Property_default; bad_property] |>) = false.
Proof. split; vm_compute; reflexivity. Qed.
Example C47_HierarchicalPin_case : HierarchicalPin_writable (HierarchicalPin_default) = true
  /\ HierarchicalPin_writable (HierarchicalPin_default <| hp_effects := bad_effects |>) = false.
Proof. split; vm_compute; reflexivity. Qed.
Example C47_HierarchicalSheet_case : HierarchicalSheet_writable (HierarchicalSheet_default) = true
  /\ HierarchicalSheet_writable (HierarchicalSheet_default <| hs_fill := bad_color |>) = false.
Proof. split; vm_compute; reflexivity. Qed.
Example C47_Rectangle_case : Rectangle_writable (Rectangle_default) = true
  /\ Rectangle_writable (Rectangle_default <| rct_fill := bad_fill |>) = false.
Proof. split; vm_compute; reflexivity. Qed.
Example C47_SchArc_case : SchArc_writable (SchArc_default) = true
  /\ SchArc_writable (SchArc_default <| sar_stroke := bad_stroke |>) = false.
Proof. split; vm_compute; reflexivity. Qed.
Example C47_Circle_case : Circle_writable (Circle_default) = true
  /\ Circle_writable (Circle_default <| cir_fill := bad_fill |>) = false.
Proof. split; vm_compute; reflexivity. Qed.
Example C47_NetclassFlag_case : NetclassFlag_writable (NetclassFlag_default <| nf_effects := Some Effects_default |>) = true
  /\ NetclassFlag_writable (NetclassFlag_default) = false.
Proof. split; vm_compute; reflexivity. Qed.
Example C47_ScLine_case : ScLine_writable (ScLine_PolyLine PolyLine_default) = true
  /\ ScLine_writable (ScLine_Connection (Connection_default <| cx_stroke := bad_stroke |>)) = false.
Proof. split; vm_compute; reflexivity. Qed.
Example C47_ScShape_case : ScShape_writable (ScShape_Circle Circle_default) = true
  /\ ScShape_writable (ScShape_Circle (Circle_default <| cir_fill := bad_fill |>)) = false.
Proof. split; vm_compute; reflexivity. Qed.
Example C47_Schematic_case : Schematic_writable (Schematic_default <| sc_junctions := [Junction_default] |>) = true
  /\ Schematic_writable (Schematic_default <| sc_netclassFlags := [NetclassFlag_default] |>) = false.
Proof. split; vm_compute; reflexivity. Qed.
Example C47_WkItem_case : WkItem_writable (WkItem_Line Line_default) = true
  /\ WkItem_writable (WkItem_Polygon Polygon_default) = false.
Proof. split; vm_compute; reflexivity. Qed.
Example C47_WorkSheet_case : WorkSheet_writable (WorkSheet_default <| wk_drawingObjects := [WkItem_Line Line_default] |>) = true
  /\ WorkSheet_writable (WorkSheet_default <| wk_drawingObjects := [WkItem_Polygon Polygon_default] |>) = false.
Proof. split; vm_compute; reflexivity. Qed.
Example C47_FpLine_case : FpLine_writable (FpLine_default <| fl_stroke := Some bad_stroke |> <| fl_width := VInt 1 |>) = true
  /\ FpLine_writable (FpLine_default <| fl_stroke := Some bad_stroke |> <| fl_width := VNone |>) = false.
Proof. split; vm_compute; reflexivity. Qed.
Example C47_FpRect_case : FpRect_writable (FpRect_default) = true
  /\ FpRect_writable (FpRect_default <| fr_stroke := Some bad_stroke |> <| fr_width := VNone |>) = false.
Proof. split; vm_compute; reflexivity. Qed.
Example C47_FpCircle_case : FpCircle_writable (FpCircle_default) = true
  /\ FpCircle_writable (FpCircle_default <| fc_stroke := Some bad_stroke |> <| fc_width := VNone |>) = false.
Proof. split; vm_compute; reflexivity. Qed.
Example C47_FpArc_case : FpArc_writable (FpArc_default) = true
  /\ FpArc_writable (FpArc_default <| fa_stroke := Some bad_stroke |> <| fa_width := VNone |>) = false.
Proof. split; vm_compute; reflexivity. Qed.
Example C47_FpPoly_case : FpPoly_writable (FpPoly_default <| fp_stroke := Some bad_stroke |> <| fp_width := VNone |>) = true
  /\ FpPoly_writable (FpPoly_default <| fp_stroke := Some bad_stroke |> <| fp_width := VNone |> <| fp_coordinates := [Position_default] |>) = false.
Proof. split; vm_compute; reflexivity. Qed.
Example C47_FpCurve_case : FpCurve_writable (FpCurve_default) = true
  /\ FpCurve_writable (FpCurve_default <| fv_stroke := Some bad_stroke |> <| fv_width := VNone |> <| fv_coordinates := [Position_default] |>) = false.
Proof. split; vm_compute; reflexivity. Qed.
