(** C52, C53: [==] of each class, attribute by attribute *)
From Verif Require Import PyBase PyNum PyStr Sexpr S_Leaf S_Tree S_Equal L_Equal.
From Verif Require Import M_Common M_Lib M_Sym M_Fp M_Gr M_Zone M_Footprint M_Dim M_Brd M_Board M_Sch M_Schematic M_Wks.
From Verif Require Import S_Common S_Lib S_Sym S_Fp S_Gr S_Zone S_Footprint S_Dim S_Brd S_Board S_Sch S_Schematic S_Wks.
Lemma Symbol_ind2 (P : Symbol -> Prop) : (forall o, (forall u, In u (sy_units o) -> P u) -> P o) -> forall o, P o.
Proof.
  intros H. fix F 1. intros [a b c d e f g h i j k l m n p us]. apply H. cbn [sy_units].
  induction us as [|u us IH]; intros x I; [destruct I|]. destruct I as [E|I].
  - rewrite <- E. apply F.
  - exact (IH x I).
Qed.

Lemma Position_q : equality Position_eqb.
Proof. eq_fields Position_eqb. Qed.
#[export] Hint Resolve Position_q : equ.
Lemma Coordinate_q : equality Coordinate_eqb.
Proof. eq_fields Coordinate_eqb. Qed.
#[export] Hint Resolve Coordinate_q : equ.
Lemma ColorRGBA_q : equality ColorRGBA_eqb.
Proof. eq_fields ColorRGBA_eqb. Qed.
#[export] Hint Resolve ColorRGBA_q : equ.
Lemma Stroke_q : equality Stroke_eqb.
Proof. eq_fields Stroke_eqb. Qed.
#[export] Hint Resolve Stroke_q : equ.
Lemma Font_q : equality Font_eqb.
Proof. eq_fields Font_eqb. Qed.
#[export] Hint Resolve Font_q : equ.
Lemma Justify_q : equality Justify_eqb.
Proof. eq_fields Justify_eqb. Qed.
#[export] Hint Resolve Justify_q : equ.
Lemma Effects_q : equality Effects_eqb.
Proof. eq_fields Effects_eqb. Qed.
#[export] Hint Resolve Effects_q : equ.
Lemma Net_q : equality Net_eqb.
Proof. eq_fields Net_eqb. Qed.
#[export] Hint Resolve Net_q : equ.
Lemma Group_q : equality Group_eqb.
Proof. eq_fields Group_eqb. Qed.
#[export] Hint Resolve Group_q : equ.
Lemma PageSettings_q : equality PageSettings_eqb.
Proof. eq_fields PageSettings_eqb. Qed.
#[export] Hint Resolve PageSettings_q : equ.
Lemma TitleBlock_q : equality TitleBlock_eqb.
Proof. eq_fields TitleBlock_eqb. Qed.
#[export] Hint Resolve TitleBlock_q : equ.
Lemma Property_q : equality Property_eqb.
Proof. eq_fields Property_eqb. Qed.
#[export] Hint Resolve Property_q : equ.
Lemma RenderCachePolygon_q : equality RenderCachePolygon_eqb.
Proof. eq_fields RenderCachePolygon_eqb. Qed.
#[export] Hint Resolve RenderCachePolygon_q : equ.
Lemma RenderCache_q : equality RenderCache_eqb.
Proof. eq_fields RenderCache_eqb. Qed.
#[export] Hint Resolve RenderCache_q : equ.
Lemma Fill_q : equality Fill_eqb.
Proof. eq_fields Fill_eqb. Qed.
#[export] Hint Resolve Fill_q : equ.
Lemma Image_q : equality Image_eqb.
Proof. eq_fields Image_eqb. Qed.
#[export] Hint Resolve Image_q : equ.
Lemma Library_q : equality Library_eqb.
Proof. eq_fields Library_eqb. Qed.
#[export] Hint Resolve Library_q : equ.
Lemma LibTable_q : equality LibTable_eqb.
Proof. eq_fields LibTable_eqb. Qed.
#[export] Hint Resolve LibTable_q : equ.
Lemma Constraint_q : equality Constraint_eqb.
Proof. eq_fields Constraint_eqb. Qed.
#[export] Hint Resolve Constraint_q : equ.
Lemma Rule_q : equality Rule_eqb.
Proof. eq_fields Rule_eqb. Qed.
#[export] Hint Resolve Rule_q : equ.
Lemma DesignRules_q : equality DesignRules_eqb.
Proof. eq_fields DesignRules_eqb. Qed.
#[export] Hint Resolve DesignRules_q : equ.
Lemma SyArc_q : equality SyArc_eqb.
Proof. eq_fields SyArc_eqb. Qed.
#[export] Hint Resolve SyArc_q : equ.
Lemma SyCircle_q : equality SyCircle_eqb.
Proof. eq_fields SyCircle_eqb. Qed.
#[export] Hint Resolve SyCircle_q : equ.
Lemma SyCurve_q : equality SyCurve_eqb.
Proof. eq_fields SyCurve_eqb. Qed.
#[export] Hint Resolve SyCurve_q : equ.
Lemma SyPolyLine_q : equality SyPolyLine_eqb.
Proof. eq_fields SyPolyLine_eqb. Qed.
#[export] Hint Resolve SyPolyLine_q : equ.
Lemma SyRect_q : equality SyRect_eqb.
Proof. eq_fields SyRect_eqb. Qed.
#[export] Hint Resolve SyRect_q : equ.
Lemma SyText_q : equality SyText_eqb.
Proof. eq_fields SyText_eqb. Qed.
#[export] Hint Resolve SyText_q : equ.
Lemma SyTextBox_q : equality SyTextBox_eqb.
Proof. eq_fields SyTextBox_eqb. Qed.
#[export] Hint Resolve SyTextBox_q : equ.
Lemma SymbolAlternativePin_q : equality SymbolAlternativePin_eqb.
Proof. eq_fields SymbolAlternativePin_eqb. Qed.
#[export] Hint Resolve SymbolAlternativePin_q : equ.
Lemma SymbolPin_q : equality SymbolPin_eqb.
Proof. eq_fields SymbolPin_eqb. Qed.
#[export] Hint Resolve SymbolPin_q : equ.
Lemma SyItem_q : equality SyItem_eqb.
Proof. pose proof SyArc_q. pose proof SyCircle_q. pose proof SyCurve_q. pose proof SyPolyLine_q. pose proof SyRect_q. pose proof SyText_q. pose proof SyTextBox_q. eq_cases SyItem_eqb. Qed.
#[export] Hint Resolve SyItem_q : equ.
Lemma Symbol_q : equality Symbol_eqb.
Proof.
  destruct (e_list _ Property_q) as (Rp & Sp & Tp). destruct (e_list _ SyItem_q) as (Ri & Si & Ti). destruct (e_list _ SymbolPin_q) as (Rn & Sn & Tn).
  destruct e_py as (Ry & Sy & Ty). destruct e_bool as (Rb & Sb & Tb). destruct (e_option _ e_bool) as (Ro & So & To). split; [|split].
  - induction o as [o IH] using Symbol_ind2. destruct o as [a b c d e f g h x j k l m y p us]. cbn [Symbol_eqb sy_libraryNickname sy_entryName sy_unitId sy_styleId sy_extends sy_hidePinNumbers sy_pinNames sy_pinNamesHide sy_pinNamesOffset sy_inBom sy_onBoard sy_isPower sy_properties sy_graphicItems sy_pins sy_units] in *.
    rewrite !Ry, !Rb, !Ro, Rp, Ri, Rn. cbn [andb]. clear -IH. induction us as [|u us H]; [reflexivity|]. cbn [leqb]. rewrite IH by now left. apply H. intros v V. apply IH. now right.
  - induction o as [o IH] using Symbol_ind2. intros o'. destruct o as [a b c d e f g h x j k l m y p us], o' as [a' b' c' d' e' f' g' h' x' j' k' l' m' y' p' us'].
    cbn [Symbol_eqb sy_libraryNickname sy_entryName sy_unitId sy_styleId sy_extends sy_hidePinNumbers sy_pinNames sy_pinNamesHide sy_pinNamesOffset sy_inBom sy_onBoard sy_isPower sy_properties sy_graphicItems sy_pins sy_units] in *.
    rewrite (leqb_sym_in Symbol_eqb us) by now apply Forall_forall.
    now rewrite (Sy a), (Sy b), (Sy c), (Sy d), (Sy e), (Sb f), (Sb g), (Sb h), (Sy x), (So j), (So k), (Sb l), (Sp m), (Si y), (Sn p).
  - induction o as [o IH] using Symbol_ind2. intros o' o''. destruct o as [a b c d e f g h x j k l m y p us], o' as [a' b' c' d' e' f' g' h' x' j' k' l' m' y' p' us'].
    destruct o'' as [a2 b2 c2 d2 e2 f2 g2 h2 x2 j2 k2 l2 m2 y2 p2 us2].
    cbn [Symbol_eqb sy_libraryNickname sy_entryName sy_unitId sy_styleId sy_extends sy_hidePinNumbers sy_pinNames sy_pinNamesHide sy_pinNamesOffset sy_inBom sy_onBoard sy_isPower sy_properties sy_graphicItems sy_pins sy_units] in *.
    rewrite !andb_true_iff. intros H H'. repeat match goal with H : _ /\ _ |- _ => destruct H end.
    pose proof (leqb_trans_in Symbol_eqb us (proj2 (Forall_forall _ us) (fun u U => IH u U)) us' us2). repeat split; eauto.
Qed.
#[export] Hint Resolve Symbol_q : equ.
Lemma SymbolLib_q : equality SymbolLib_eqb.
Proof. eq_fields SymbolLib_eqb. Qed.
#[export] Hint Resolve SymbolLib_q : equ.
Lemma FpText_q : equality FpText_eqb.
Proof. eq_fields FpText_eqb. Qed.
#[export] Hint Resolve FpText_q : equ.
Lemma FpLine_q : equality FpLine_eqb.
Proof. eq_fields FpLine_eqb. Qed.
#[export] Hint Resolve FpLine_q : equ.
Lemma FpRect_q : equality FpRect_eqb.
Proof. eq_fields FpRect_eqb. Qed.
#[export] Hint Resolve FpRect_q : equ.
Lemma FpCircle_q : equality FpCircle_eqb.
Proof. eq_fields FpCircle_eqb. Qed.
#[export] Hint Resolve FpCircle_q : equ.
Lemma FpArc_q : equality FpArc_eqb.
Proof. eq_fields FpArc_eqb. Qed.
#[export] Hint Resolve FpArc_q : equ.
Lemma FpPoly_q : equality FpPoly_eqb.
Proof. eq_fields FpPoly_eqb. Qed.
#[export] Hint Resolve FpPoly_q : equ.
Lemma FpCurve_q : equality FpCurve_eqb.
Proof. eq_fields FpCurve_eqb. Qed.
#[export] Hint Resolve FpCurve_q : equ.
Lemma FpTextBox_q : equality FpTextBox_eqb.
Proof. eq_fields FpTextBox_eqb. Qed.
#[export] Hint Resolve FpTextBox_q : equ.
Lemma GrText_q : equality GrText_eqb.
Proof. eq_fields GrText_eqb. Qed.
#[export] Hint Resolve GrText_q : equ.
Lemma GrLine_q : equality GrLine_eqb.
Proof. eq_fields GrLine_eqb. Qed.
#[export] Hint Resolve GrLine_q : equ.
Lemma GrRect_q : equality GrRect_eqb.
Proof. eq_fields GrRect_eqb. Qed.
#[export] Hint Resolve GrRect_q : equ.
Lemma GrCircle_q : equality GrCircle_eqb.
Proof. eq_fields GrCircle_eqb. Qed.
#[export] Hint Resolve GrCircle_q : equ.
Lemma GrArc_q : equality GrArc_eqb.
Proof. eq_fields GrArc_eqb. Qed.
#[export] Hint Resolve GrArc_q : equ.
Lemma GrPoly_q : equality GrPoly_eqb.
Proof. eq_fields GrPoly_eqb. Qed.
#[export] Hint Resolve GrPoly_q : equ.
Lemma GrCurve_q : equality GrCurve_eqb.
Proof. eq_fields GrCurve_eqb. Qed.
#[export] Hint Resolve GrCurve_q : equ.
Lemma GrTextBox_q : equality GrTextBox_eqb.
Proof. eq_fields GrTextBox_eqb. Qed.
#[export] Hint Resolve GrTextBox_q : equ.
Lemma KeepoutSettings_q : equality KeepoutSettings_eqb.
Proof. eq_fields KeepoutSettings_eqb. Qed.
#[export] Hint Resolve KeepoutSettings_q : equ.
Lemma FillSettings_q : equality FillSettings_eqb.
Proof. eq_fields FillSettings_eqb. Qed.
#[export] Hint Resolve FillSettings_q : equ.
Lemma ZonePolygon_q : equality ZonePolygon_eqb.
Proof. eq_fields ZonePolygon_eqb. Qed.
#[export] Hint Resolve ZonePolygon_q : equ.
Lemma FilledPolygon_q : equality FilledPolygon_eqb.
Proof. eq_fields FilledPolygon_eqb. Qed.
#[export] Hint Resolve FilledPolygon_q : equ.
Lemma FillSegments_q : equality FillSegments_eqb.
Proof. eq_fields FillSegments_eqb. Qed.
#[export] Hint Resolve FillSegments_q : equ.
Lemma Hatch_q : equality Hatch_eqb.
Proof. eq_fields Hatch_eqb. Qed.
#[export] Hint Resolve Hatch_q : equ.
Lemma Zone_q : equality Zone_eqb.
Proof. eq_fields Zone_eqb. Qed.
#[export] Hint Resolve Zone_q : equ.
Lemma Attributes_q : equality Attributes_eqb.
Proof. eq_fields Attributes_eqb. Qed.
#[export] Hint Resolve Attributes_q : equ.
Lemma Model_q : equality Model_eqb.
Proof. eq_fields Model_eqb. Qed.
#[export] Hint Resolve Model_q : equ.
Lemma DrillDefinition_q : equality DrillDefinition_eqb.
Proof. eq_fields DrillDefinition_eqb. Qed.
#[export] Hint Resolve DrillDefinition_q : equ.
Lemma PadOptions_q : equality PadOptions_eqb.
Proof. eq_fields PadOptions_eqb. Qed.
#[export] Hint Resolve PadOptions_q : equ.
Lemma PadPrimitive_q : equality PadPrimitive_eqb.
Proof. pose proof GrText_q. pose proof GrTextBox_q. pose proof GrLine_q. pose proof GrRect_q. pose proof GrCircle_q. pose proof GrArc_q. pose proof GrPoly_q. pose proof GrCurve_q. eq_cases PadPrimitive_eqb. Qed.
#[export] Hint Resolve PadPrimitive_q : equ.
Lemma Pad_q : equality Pad_eqb.
Proof. eq_fields Pad_eqb. Qed.
#[export] Hint Resolve Pad_q : equ.
Lemma FpItem_q : equality FpItem_eqb.
Proof. pose proof FpText_q. pose proof FpTextBox_q. pose proof FpLine_q. pose proof FpRect_q. pose proof FpCircle_q. pose proof FpArc_q. pose proof FpPoly_q. pose proof FpCurve_q. pose proof Image_q. eq_cases FpItem_eqb. Qed.
#[export] Hint Resolve FpItem_q : equ.
Lemma Footprint_q : equality Footprint_eqb.
Proof. eq_fields Footprint_eqb. Qed.
#[export] Hint Resolve Footprint_q : equ.
Lemma DimensionFormat_q : equality DimensionFormat_eqb.
Proof. eq_fields DimensionFormat_eqb. Qed.
#[export] Hint Resolve DimensionFormat_q : equ.
Lemma DimensionStyle_q : equality DimensionStyle_eqb.
Proof. eq_fields DimensionStyle_eqb. Qed.
#[export] Hint Resolve DimensionStyle_q : equ.
Lemma Dimension_q : equality Dimension_eqb.
Proof. eq_fields Dimension_eqb. Qed.
#[export] Hint Resolve Dimension_q : equ.
Lemma GeneralSettings_q : equality GeneralSettings_eqb.
Proof. eq_fields GeneralSettings_eqb. Qed.
#[export] Hint Resolve GeneralSettings_q : equ.
Lemma LayerToken_q : equality LayerToken_eqb.
Proof. eq_fields LayerToken_eqb. Qed.
#[export] Hint Resolve LayerToken_q : equ.
Lemma StackupSubLayer_q : equality StackupSubLayer_eqb.
Proof. eq_fields StackupSubLayer_eqb. Qed.
#[export] Hint Resolve StackupSubLayer_q : equ.
Lemma StackupLayer_q : equality StackupLayer_eqb.
Proof. eq_fields StackupLayer_eqb. Qed.
#[export] Hint Resolve StackupLayer_q : equ.
Lemma Stackup_q : equality Stackup_eqb.
Proof. eq_fields Stackup_eqb. Qed.
#[export] Hint Resolve Stackup_q : equ.
Lemma PlotSettings_q : equality PlotSettings_eqb.
Proof. eq_fields PlotSettings_eqb. Qed.
#[export] Hint Resolve PlotSettings_q : equ.
Lemma SetupData_q : equality SetupData_eqb.
Proof. eq_fields SetupData_eqb. Qed.
#[export] Hint Resolve SetupData_q : equ.
Lemma Segment_q : equality Segment_eqb.
Proof. eq_fields Segment_eqb. Qed.
#[export] Hint Resolve Segment_q : equ.
Lemma Via_q : equality Via_eqb.
Proof. eq_fields Via_eqb. Qed.
#[export] Hint Resolve Via_q : equ.
Lemma Arc_q : equality Arc_eqb.
Proof. eq_fields Arc_eqb. Qed.
#[export] Hint Resolve Arc_q : equ.
Lemma Target_q : equality Target_eqb.
Proof. eq_fields Target_eqb. Qed.
#[export] Hint Resolve Target_q : equ.
Lemma BdItem_q : equality BdItem_eqb.
Proof. pose proof GrText_q. pose proof GrTextBox_q. pose proof GrLine_q. pose proof GrRect_q. pose proof GrCircle_q. pose proof GrArc_q. pose proof GrPoly_q. pose proof GrCurve_q. pose proof Image_q. eq_cases BdItem_eqb. Qed.
#[export] Hint Resolve BdItem_q : equ.
Lemma TrItem_q : equality TrItem_eqb.
Proof. pose proof Segment_q. pose proof Arc_q. pose proof Via_q. eq_cases TrItem_eqb. Qed.
#[export] Hint Resolve TrItem_q : equ.
Lemma Board_q : equality Board_eqb.
Proof. eq_fields Board_eqb. Qed.
#[export] Hint Resolve Board_q : equ.
Lemma JColor_q : equality JColor_eqb.
Proof. pose proof ColorRGBA_q. pose proof e_py. eq_cases JColor_eqb. Qed.
#[export] Hint Resolve JColor_q : equ.
Lemma Junction_q : equality Junction_eqb.
Proof. eq_fields Junction_eqb. Qed.
#[export] Hint Resolve Junction_q : equ.
Lemma NoConnect_q : equality NoConnect_eqb.
Proof. eq_fields NoConnect_eqb. Qed.
#[export] Hint Resolve NoConnect_q : equ.
Lemma BusEntry_q : equality BusEntry_eqb.
Proof. eq_fields BusEntry_eqb. Qed.
#[export] Hint Resolve BusEntry_q : equ.
Lemma BusAlias_q : equality BusAlias_eqb.
Proof. eq_fields BusAlias_eqb. Qed.
#[export] Hint Resolve BusAlias_q : equ.
Lemma Connection_q : equality Connection_eqb.
Proof. eq_fields Connection_eqb. Qed.
#[export] Hint Resolve Connection_q : equ.
Lemma PolyLine_q : equality PolyLine_eqb.
Proof. eq_fields PolyLine_eqb. Qed.
#[export] Hint Resolve PolyLine_q : equ.
Lemma Text_q : equality Text_eqb.
Proof. eq_fields Text_eqb. Qed.
#[export] Hint Resolve Text_q : equ.
Lemma TextBox_q : equality TextBox_eqb.
Proof. eq_fields TextBox_eqb. Qed.
#[export] Hint Resolve TextBox_q : equ.
Lemma LocalLabel_q : equality LocalLabel_eqb.
Proof. eq_fields LocalLabel_eqb. Qed.
#[export] Hint Resolve LocalLabel_q : equ.
Lemma GlobalLabel_q : equality GlobalLabel_eqb.
Proof. eq_fields GlobalLabel_eqb. Qed.
#[export] Hint Resolve GlobalLabel_q : equ.
Lemma HierarchicalLabel_q : equality HierarchicalLabel_eqb.
Proof. eq_fields HierarchicalLabel_eqb. Qed.
#[export] Hint Resolve HierarchicalLabel_q : equ.
Lemma SymbolProjectPath_q : equality SymbolProjectPath_eqb.
Proof. eq_fields SymbolProjectPath_eqb. Qed.
#[export] Hint Resolve SymbolProjectPath_q : equ.
Lemma SymbolProjectInstance_q : equality SymbolProjectInstance_eqb.
Proof. eq_fields SymbolProjectInstance_eqb. Qed.
#[export] Hint Resolve SymbolProjectInstance_q : equ.
Lemma SchematicSymbol_q : equality SchematicSymbol_eqb.
Proof. eq_fields SchematicSymbol_eqb. Qed.
#[export] Hint Resolve SchematicSymbol_q : equ.
Lemma HierarchicalPin_q : equality HierarchicalPin_eqb.
Proof. eq_fields HierarchicalPin_eqb. Qed.
#[export] Hint Resolve HierarchicalPin_q : equ.
Lemma HierarchicalSheetProjectPath_q : equality HierarchicalSheetProjectPath_eqb.
Proof. eq_fields HierarchicalSheetProjectPath_eqb. Qed.
#[export] Hint Resolve HierarchicalSheetProjectPath_q : equ.
Lemma HierarchicalSheetProjectInstance_q : equality HierarchicalSheetProjectInstance_eqb.
Proof. eq_fields HierarchicalSheetProjectInstance_eqb. Qed.
#[export] Hint Resolve HierarchicalSheetProjectInstance_q : equ.
Lemma HierarchicalSheet_q : equality HierarchicalSheet_eqb.
Proof. eq_fields HierarchicalSheet_eqb. Qed.
#[export] Hint Resolve HierarchicalSheet_q : equ.
Lemma HierarchicalSheetInstance_q : equality HierarchicalSheetInstance_eqb.
Proof. eq_fields HierarchicalSheetInstance_eqb. Qed.
#[export] Hint Resolve HierarchicalSheetInstance_q : equ.
Lemma SymbolInstance_q : equality SymbolInstance_eqb.
Proof. eq_fields SymbolInstance_eqb. Qed.
#[export] Hint Resolve SymbolInstance_q : equ.
Lemma Rectangle_q : equality Rectangle_eqb.
Proof. eq_fields Rectangle_eqb. Qed.
#[export] Hint Resolve Rectangle_q : equ.
Lemma SchArc_q : equality SchArc_eqb.
Proof. eq_fields SchArc_eqb. Qed.
#[export] Hint Resolve SchArc_q : equ.
Lemma Circle_q : equality Circle_eqb.
Proof. eq_fields Circle_eqb. Qed.
#[export] Hint Resolve Circle_q : equ.
Lemma NetclassFlag_q : equality NetclassFlag_eqb.
Proof. eq_fields NetclassFlag_eqb. Qed.
#[export] Hint Resolve NetclassFlag_q : equ.
Lemma ScLine_q : equality ScLine_eqb.
Proof. pose proof Connection_q. pose proof PolyLine_q. eq_cases ScLine_eqb. Qed.
#[export] Hint Resolve ScLine_q : equ.
Lemma ScShape_q : equality ScShape_eqb.
Proof. pose proof SchArc_q. pose proof Circle_q. pose proof Rectangle_q. eq_cases ScShape_eqb. Qed.
#[export] Hint Resolve ScShape_q : equ.
Lemma Schematic_q : equality Schematic_eqb.
Proof. eq_fields Schematic_eqb. Qed.
#[export] Hint Resolve Schematic_q : equ.
Lemma WksFontSize_q : equality WksFontSize_eqb.
Proof. eq_fields WksFontSize_eqb. Qed.
#[export] Hint Resolve WksFontSize_q : equ.
Lemma WksFont_q : equality WksFont_eqb.
Proof. eq_fields WksFont_eqb. Qed.
#[export] Hint Resolve WksFont_q : equ.
Lemma WksPosition_q : equality WksPosition_eqb.
Proof. eq_fields WksPosition_eqb. Qed.
#[export] Hint Resolve WksPosition_q : equ.
Lemma Line_q : equality Line_eqb.
Proof. eq_fields Line_eqb. Qed.
#[export] Hint Resolve Line_q : equ.
Lemma Rect_q : equality Rect_eqb.
Proof. eq_fields Rect_eqb. Qed.
#[export] Hint Resolve Rect_q : equ.
Lemma Polygon_q : equality Polygon_eqb.
Proof. eq_fields Polygon_eqb. Qed.
#[export] Hint Resolve Polygon_q : equ.
Lemma Bitmap_q : equality Bitmap_eqb.
Proof. eq_fields Bitmap_eqb. Qed.
#[export] Hint Resolve Bitmap_q : equ.
Lemma TbText_q : equality TbText_eqb.
Proof. eq_fields TbText_eqb. Qed.
#[export] Hint Resolve TbText_q : equ.
Lemma TextSize_q : equality TextSize_eqb.
Proof. eq_fields TextSize_eqb. Qed.
#[export] Hint Resolve TextSize_q : equ.
Lemma Setup_q : equality Setup_eqb.
Proof. eq_fields Setup_eqb. Qed.
#[export] Hint Resolve Setup_q : equ.
Lemma WkItem_q : equality WkItem_eqb.
Proof. pose proof Line_q. pose proof Rect_q. pose proof Polygon_q. pose proof Bitmap_q. pose proof TbText_q. eq_cases WkItem_eqb. Qed.
#[export] Hint Resolve WkItem_q : equ.
Lemma WorkSheet_q : equality WorkSheet_eqb.
Proof. eq_fields WorkSheet_eqb. Qed.
#[export] Hint Resolve WorkSheet_q : equ.
