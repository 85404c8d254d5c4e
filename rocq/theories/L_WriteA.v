(** Proofs for C47, class by class (the lemmas follow the order of the model) *)
From Verif Require Import PyBase PyNum PyStr M_Common M_Lib M_Sym M_Fp M_Gr M_Zone M_Footprint M_Dim M_Brd M_Board M_Sch M_Schematic M_Wks S_Write L_Write.

Lemma Coordinate_w o i n : is_ok (Coordinate_to o i n) = true.
Proof.
  unfold Coordinate_to; cbv zeta; okt.
Qed.
#[export] Hint Resolve Coordinate_w : okd.
Lemma ColorRGBA_w o i n : is_ok (ColorRGBA_to o i n) = ColorRGBA_writable o.
Proof.
  transitivity (is_ok (ColorRGBA_alpha o)); [unfold ColorRGBA_to; now destruct (ColorRGBA_alpha o)|].
  unfold ColorRGBA_alpha, ColorRGBA_writable. destruct (ca_precision o) as [| |p| | |]; try reflexivity.
  destruct (Z.ltb_spec p 0), (Z.leb_spec 0 p); try lia; try reflexivity. apply ok_fixed.
Qed.
#[export] Hint Resolve ColorRGBA_w : okd.
Lemma Stroke_w o i n : is_ok (Stroke_to o i n) = Stroke_writable o.
Proof.
  unfold Stroke_to, Stroke_writable; okx.
Qed.
#[export] Hint Resolve Stroke_w : okd.
Lemma Font_w o i n : is_ok (Font_to o i n) = Font_writable o.
Proof.
  unfold Font_to, Font_writable; okx.
Qed.
#[export] Hint Resolve Font_w : okd.
Lemma Justify_w o i n : is_ok (Justify_to o i n) = true.
Proof.
  unfold Justify_to; cbv zeta; okt.
Qed.
#[export] Hint Resolve Justify_w : okd.
Lemma Effects_w o i n : is_ok (Effects_to o i n) = Effects_writable o.
Proof.
  unfold Effects_to, Effects_writable; okx.
Qed.
#[export] Hint Resolve Effects_w : okd.
Lemma Net_w o i n : is_ok (Net_to o i n) = true.
Proof.
  unfold Net_to; cbv zeta; okt.
Qed.
#[export] Hint Resolve Net_w : okd.
Lemma Group_w o i n : is_ok (Group_to o i n) = true.
Proof.
  unfold Group_to; cbv zeta; okt.
Qed.
#[export] Hint Resolve Group_w : okd.
Lemma PageSettings_w o i n : is_ok (PageSettings_to o i n) = PageSettings_writable o.
Proof.
  unfold PageSettings_to, PageSettings_writable. destruct (pg_paperSize o); try reflexivity.
  change (VStr s =s "User") with (str_eqb s $"User").
  destruct (str_eqb s $"User"), (pg_width o), (pg_height o); reflexivity.
Qed.
#[export] Hint Resolve PageSettings_w : okd.
Lemma TitleBlock_w o i n : is_ok (TitleBlock_to o i n) = true.
Proof.
  unfold TitleBlock_to; cbv zeta; okt.
Qed.
#[export] Hint Resolve TitleBlock_w : okd.
Lemma Property_w o i n : is_ok (Property_to o i n) = Property_writable o.
Proof.
  unfold Property_to, Property_writable; etransitivity; [cbv zeta beta; okc|]. now destruct (pr_effects o).
Qed.
#[export] Hint Resolve Property_w : okd.
Lemma RenderCachePolygon_w o i n : is_ok (RenderCachePolygon_to o i n) = true.
Proof.
  unfold RenderCachePolygon_to; cbv zeta; okt.
Qed.
#[export] Hint Resolve RenderCachePolygon_w : okd.
Lemma RenderCache_w o i n : is_ok (RenderCache_to o i n) = true.
Proof.
  unfold RenderCache_to; cbv zeta; okt.
Qed.
#[export] Hint Resolve RenderCache_w : okd.
Lemma Fill_w o i n : is_ok (Fill_to o i n) = Fill_writable o.
Proof.
  unfold Fill_to, Fill_writable; okx.
Qed.
#[export] Hint Resolve Fill_w : okd.
Lemma Image_w o i n : is_ok (Image_to o i n) = true.
Proof.
  unfold Image_to; cbv zeta; okt.
Qed.
#[export] Hint Resolve Image_w : okd.
Lemma Library_w o i n : is_ok (Library_to o i n) = true.
Proof.
  unfold Library_to; cbv zeta; okt.
Qed.
#[export] Hint Resolve Library_w : okd.
Lemma LibTable_w o i n : is_ok (LibTable_to o i n) = true.
Proof.
  unfold LibTable_to; cbv zeta; okt.
Qed.
#[export] Hint Resolve LibTable_w : okd.
Lemma Constraint_w o i n : is_ok (Constraint_to o i n) = Constraint_writable o.
Proof.
  unfold Constraint_to, Constraint_writable; etransitivity; [cbv zeta beta; okc|]. now destruct (cn_elements o).
Qed.
#[export] Hint Resolve Constraint_w : okd.
Lemma Rule_w o i n : is_ok (Rule_to o i n) = Rule_writable o.
Proof.
  unfold Rule_to, Rule_writable; okx.
Qed.
#[export] Hint Resolve Rule_w : okd.
Lemma DesignRules_w o i n : is_ok (DesignRules_to o i n) = DesignRules_writable o.
Proof.
  unfold DesignRules_to, DesignRules_writable; etransitivity; [cbv zeta beta; okc|]. now destruct (dr_rules o).
Qed.
#[export] Hint Resolve DesignRules_w : okd.
Lemma SyArc_w o i n : is_ok (SyArc_to o i n) = SyArc_writable o.
Proof.
  unfold SyArc_to, SyArc_writable; okx.
Qed.
#[export] Hint Resolve SyArc_w : okd.
Lemma SyCircle_w o i n : is_ok (SyCircle_to o i n) = SyCircle_writable o.
Proof.
  unfold SyCircle_to, SyCircle_writable; okx.
Qed.
#[export] Hint Resolve SyCircle_w : okd.
Lemma SyCurve_w o i n : is_ok (SyCurve_to o i n) = SyCurve_writable o.
Proof.
  unfold SyCurve_to, SyCurve_writable; okx.
Qed.
#[export] Hint Resolve SyCurve_w : okd.
Lemma SyPolyLine_w o i n : is_ok (SyPolyLine_to o i n) = SyPolyLine_writable o.
Proof.
  unfold SyPolyLine_to, SyPolyLine_writable; okx.
Qed.
#[export] Hint Resolve SyPolyLine_w : okd.
Lemma SyRect_w o i n : is_ok (SyRect_to o i n) = SyRect_writable o.
Proof.
  unfold SyRect_to, SyRect_writable; okx.
Qed.
#[export] Hint Resolve SyRect_w : okd.
Lemma SyText_w o i n : is_ok (SyText_to o i n) = SyText_writable o.
Proof.
  unfold SyText_to, SyText_writable; okx.
Qed.
#[export] Hint Resolve SyText_w : okd.
Lemma SyTextBox_w o i n : is_ok (SyTextBox_to o i n) = SyTextBox_writable o.
Proof.
  unfold SyTextBox_to, SyTextBox_writable; okx.
Qed.
#[export] Hint Resolve SyTextBox_w : okd.
Lemma SymbolAlternativePin_w o i n : is_ok (SymbolAlternativePin_to o i n) = true.
Proof.
  unfold SymbolAlternativePin_to; cbv zeta; okt.
Qed.
#[export] Hint Resolve SymbolAlternativePin_w : okd.
Lemma SymbolPin_w o i n : is_ok (SymbolPin_to o i n) = SymbolPin_writable o.
Proof.
  unfold SymbolPin_to, SymbolPin_writable; okx.
Qed.
#[export] Hint Resolve SymbolPin_w : okd.
Lemma SyItem_w o i n : is_ok (SyItem_to o i n) = SyItem_writable o.
Proof.
  destruct o; cbn [SyItem_to SyItem_writable]; auto 1 with okd nocore; reflexivity.
Qed.
#[export] Hint Resolve SyItem_w : okd.
Lemma Symbol_by_units (P : Symbol -> Prop) : (forall o, (forall u, In u (sy_units o) -> P u) -> P o) -> forall o, P o.
Proof.
  intros H. fix F 1. intros [a b c d e f g h i j k l m n p us]. apply H. cbn [sy_units].
  induction us as [|u us IH]; intros x I; [destruct I|]. destruct I as [E|I].
  - rewrite <- E. apply F.
  - exact (IH x I).
Qed.
Lemma ok_concat_in {A} (f : A -> res str) g l : (forall x, In x l -> is_ok (f x) = g x) -> is_ok (concatM f l) = forallb g l.
Proof.
  intros H. induction l as [|x l IH]; [reflexivity|]. cbn [concatM forallb].
  rewrite <- H by (now left). rewrite <- IH by (intros; apply H; now right). destruct (f x); cbn; auto. now destruct (concatM f l).
Qed.
Lemma Symbol_w o : forall i n, is_ok (Symbol_to o i n) = Symbol_writable o.
Proof.
  induction o as [o IH] using Symbol_by_units. intros i n.
  pose proof (ok_concat_in (fun x => Symbol_to x (i + 2) true) Symbol_writable (sy_units o) (fun x I => IH x I (i + 2) true)) as U.
  destruct o as [a b c d e f g h x j k l m y p us]. cbn [Symbol_to Symbol_writable sy_units sy_properties sy_graphicItems sy_pins] in *.
  etransitivity; [cbv zeta beta; repeat (eapply ok_bind; [first [exact U|okc]|intros ?]); okc|okf].
Qed.
#[export] Hint Resolve Symbol_w : okd.
Lemma SymbolLib_w o i n : is_ok (SymbolLib_to o i n) = SymbolLib_writable o.
Proof.
  unfold SymbolLib_to, SymbolLib_writable; okx.
Qed.
#[export] Hint Resolve SymbolLib_w : okd.
Lemma ok_width w s : is_ok (width_str w s) = outline w s.
Proof.
  unfold width_str, outline. destruct w; try reflexivity. cbn [is_none]. destruct s as [s|]; [|reflexivity].
  cbn [if_set]. rewrite <- (Stroke_w s 0 false). now destruct (Stroke_to s 0 false).
Qed.
#[export] Hint Resolve ok_width : okd.
Lemma FpText_w o i n : is_ok (FpText_to o i n) = FpText_writable o.
Proof.
  unfold FpText_to, FpText_writable; okx.
Qed.
#[export] Hint Resolve FpText_w : okd.
Lemma FpLine_w o i n : is_ok (FpLine_to o i n) = FpLine_writable o.
Proof.
  unfold FpLine_to, FpLine_writable; okx.
Qed.
#[export] Hint Resolve FpLine_w : okd.
Lemma FpRect_w o i n : is_ok (FpRect_to o i n) = FpRect_writable o.
Proof.
  unfold FpRect_to, FpRect_writable; okx.
Qed.
#[export] Hint Resolve FpRect_w : okd.
Lemma FpCircle_w o i n : is_ok (FpCircle_to o i n) = FpCircle_writable o.
Proof.
  unfold FpCircle_to, FpCircle_writable; okx.
Qed.
#[export] Hint Resolve FpCircle_w : okd.
Lemma FpArc_w o i n : is_ok (FpArc_to o i n) = FpArc_writable o.
Proof.
  unfold FpArc_to, FpArc_writable; okx.
Qed.
#[export] Hint Resolve FpArc_w : okd.
Lemma FpPoly_w o i n : is_ok (FpPoly_to o i n) = FpPoly_writable o.
Proof.
  unfold FpPoly_to, FpPoly_writable; etransitivity; [cbv zeta beta; okc|]. now destruct (fp_coordinates o).
Qed.
#[export] Hint Resolve FpPoly_w : okd.
Lemma FpCurve_w o i n : is_ok (FpCurve_to o i n) = FpCurve_writable o.
Proof.
  unfold FpCurve_to, FpCurve_writable; etransitivity; [cbv zeta beta; okc|]. now destruct (fv_coordinates o).
Qed.
#[export] Hint Resolve FpCurve_w : okd.
Lemma FpTextBox_w o i n : is_ok (FpTextBox_to o i n) = FpTextBox_writable o.
Proof.
  unfold FpTextBox_to, FpTextBox_writable; etransitivity; [cbv zeta beta; okc|].
  unfold upright, cardinal, no_object, is_none.
  destruct (fb_angle o), (fb_start o), (fb_end o), (fb_pts o) as [|? [|? [|? [|? [|? ?]]]]]; cbn [negb andb orb length Nat.eqb is_set four];
    try reflexivity; destruct (existsb _ _); reflexivity.
Qed.
#[export] Hint Resolve FpTextBox_w : okd.
Lemma GrText_w o i n : is_ok (GrText_to o i n) = GrText_writable o.
Proof.
  unfold GrText_to, GrText_writable; okx.
Qed.
#[export] Hint Resolve GrText_w : okd.
Lemma GrLine_w o i n : is_ok (GrLine_to o i n) = true.
Proof.
  unfold GrLine_to; cbv zeta; okt.
Qed.
#[export] Hint Resolve GrLine_w : okd.
Lemma GrRect_w o i n : is_ok (GrRect_to o i n) = true.
Proof.
  unfold GrRect_to; cbv zeta; okt.
Qed.
#[export] Hint Resolve GrRect_w : okd.
Lemma GrCircle_w o i n : is_ok (GrCircle_to o i n) = true.
Proof.
  unfold GrCircle_to; cbv zeta; okt.
Qed.
#[export] Hint Resolve GrCircle_w : okd.
Lemma GrArc_w o i n : is_ok (GrArc_to o i n) = true.
Proof.
  unfold GrArc_to; cbv zeta; okt.
Qed.
#[export] Hint Resolve GrArc_w : okd.
Lemma GrPoly_pts_w b o i n : is_ok (GrPoly_to_pts b o i n) = true.
Proof. unfold GrPoly_to_pts; cbv zeta; okt. Qed.
Lemma GrPoly_w o i n : is_ok (GrPoly_to o i n) = true.
Proof. apply GrPoly_pts_w. Qed.
#[export] Hint Resolve GrPoly_w GrPoly_pts_w : okd.
Lemma GrCurve_w o i n : is_ok (GrCurve_to o i n) = true.
Proof.
  unfold GrCurve_to; cbv zeta; okt.
Qed.
#[export] Hint Resolve GrCurve_w : okd.
Lemma GrTextBox_w o i n : is_ok (GrTextBox_to o i n) = GrTextBox_writable o.
Proof.
  unfold GrTextBox_to, GrTextBox_writable; etransitivity; [cbv zeta beta; okc|].
  unfold upright, cardinal, no_object, is_none.
  destruct (gb_angle o), (gb_start o), (gb_end o), (gb_pts o) as [|? [|? [|? [|? [|? ?]]]]]; cbn [negb andb orb length Nat.eqb is_set four];
    try reflexivity; destruct (existsb _ _); reflexivity.
Qed.
#[export] Hint Resolve GrTextBox_w : okd.
Lemma KeepoutSettings_w o i n : is_ok (KeepoutSettings_to o i n) = true.
Proof.
  unfold KeepoutSettings_to; cbv zeta; okt.
Qed.
#[export] Hint Resolve KeepoutSettings_w : okd.
Lemma FillSettings_w o i n : is_ok (FillSettings_to o i n) = true.
Proof.
  unfold FillSettings_to; cbv zeta; okt.
Qed.
#[export] Hint Resolve FillSettings_w : okd.
Lemma ZonePolygon_w o i n : is_ok (ZonePolygon_to o i n) = true.
Proof.
  unfold ZonePolygon_to; cbv zeta; okt.
Qed.
#[export] Hint Resolve ZonePolygon_w : okd.
Lemma FilledPolygon_w o i n : is_ok (FilledPolygon_to o i n) = true.
Proof.
  unfold FilledPolygon_to; cbv zeta; okt.
Qed.
#[export] Hint Resolve FilledPolygon_w : okd.
Lemma FillSegments_w o i n : is_ok (FillSegments_to o i n) = true.
Proof.
  unfold FillSegments_to; cbv zeta; okt.
Qed.
#[export] Hint Resolve FillSegments_w : okd.
Lemma Zone_w o i n : is_ok (Zone_to o i n) = Zone_writable o.
Proof.
  unfold Zone_to, Zone_writable; okx.
Qed.
#[export] Hint Resolve Zone_w : okd.
Lemma Attributes_w o i n : is_ok (Attributes_to o i n) = true.
Proof.
  unfold Attributes_to; cbv zeta; okt.
Qed.
#[export] Hint Resolve Attributes_w : okd.
Lemma Model_w o i n : is_ok (Model_to o i n) = true.
Proof.
  unfold Model_to; cbv zeta; okt.
Qed.
#[export] Hint Resolve Model_w : okd.
Lemma DrillDefinition_w o i n : is_ok (DrillDefinition_to o i n) = true.
Proof.
  unfold DrillDefinition_to; cbv zeta; okt.
Qed.
#[export] Hint Resolve DrillDefinition_w : okd.
Lemma PadOptions_w o i n : is_ok (PadOptions_to o i n) = true.
Proof.
  unfold PadOptions_to; cbv zeta; okt.
Qed.
#[export] Hint Resolve PadOptions_w : okd.
Lemma PadPrimitive_w o i n : is_ok (PadPrimitive_to o i n) = PadPrimitive_writable o.
Proof.
  destruct o; cbn [PadPrimitive_to PadPrimitive_writable]; auto 1 with okd nocore; reflexivity.
Qed.
#[export] Hint Resolve PadPrimitive_w : okd.
Lemma Pad_w o i n : is_ok (Pad_to o i n) = Pad_writable o.
Proof.
  unfold Pad_to, Pad_writable; okx.
Qed.
#[export] Hint Resolve Pad_w : okd.
Lemma FpItem_w o i n : is_ok (FpItem_to o i n) = FpItem_writable o.
Proof.
  destruct o; cbn [FpItem_to FpItem_writable]; auto 1 with okd nocore; reflexivity.
Qed.
#[export] Hint Resolve FpItem_w : okd.
Lemma Footprint_layer_w b o i n : is_ok (Footprint_to_layer b o i n) = Footprint_writable o.
Proof. unfold Footprint_to_layer, Footprint_writable; okx. Qed.
Lemma Footprint_w o i n : is_ok (Footprint_to o i n) = Footprint_writable o.
Proof. apply Footprint_layer_w. Qed.
#[export] Hint Resolve Footprint_w Footprint_layer_w : okd.
Lemma DimensionFormat_w o i n : is_ok (DimensionFormat_to o i n) = true.
Proof.
  unfold DimensionFormat_to; cbv zeta; okt.
Qed.
#[export] Hint Resolve DimensionFormat_w : okd.
Lemma DimensionStyle_w o i n : is_ok (DimensionStyle_to o i n) = true.
Proof.
  unfold DimensionStyle_to; cbv zeta; okt.
Qed.
#[export] Hint Resolve DimensionStyle_w : okd.
Lemma Dimension_w o i n : is_ok (Dimension_to o i n) = Dimension_writable o.
Proof.
  unfold Dimension_to, Dimension_writable; cbv zeta.
  destruct (di_pts o) as [|p l]; [reflexivity|].
  assert (E : exists s, concatM (fun p => Ok ($" (xy " ++ fmt (po_X p) ++ $" " ++ fmt (po_Y p) ++ $")")) (p :: l) = Ok s /\ Nat.eqb (length s) 0 = false).
  { cbn [concatM bind]. destruct (concatM _ l) as [s|e] eqn:E; [|pose proof (ok_concat1 (fun p => Ok ($" (xy " ++ fmt (po_X p) ++ $" " ++ fmt (po_Y p) ++ $")")) l (fun _ => eq_refl)) as K; rewrite E in K; discriminate].
    eexists. split; [reflexivity|]. reflexivity. }
  destruct E as (s & -> & E). cbn [bind]. rewrite E. okx.
Qed.
#[export] Hint Resolve Dimension_w : okd.
Lemma GeneralSettings_w o i n : is_ok (GeneralSettings_to o i n) = true.
Proof.
  unfold GeneralSettings_to; cbv zeta; okt.
Qed.
#[export] Hint Resolve GeneralSettings_w : okd.
Lemma LayerToken_w o i n : is_ok (LayerToken_to o i n) = true.
Proof.
  unfold LayerToken_to; cbv zeta; okt.
Qed.
#[export] Hint Resolve LayerToken_w : okd.
Lemma StackupSubLayer_w o i n : is_ok (StackupSubLayer_to o i n) = true.
Proof.
  unfold StackupSubLayer_to; cbv zeta; okt.
Qed.
#[export] Hint Resolve StackupSubLayer_w : okd.
Lemma StackupLayer_w o i n : is_ok (StackupLayer_to o i n) = true.
Proof.
  unfold StackupLayer_to; cbv zeta; okt.
Qed.
#[export] Hint Resolve StackupLayer_w : okd.
Lemma Stackup_w o i n : is_ok (Stackup_to o i n) = true.
Proof.
  unfold Stackup_to; cbv zeta; okt.
Qed.
#[export] Hint Resolve Stackup_w : okd.
Lemma PlotSettings_w o i n : is_ok (PlotSettings_to o i n) = PlotSettings_writable o.
Proof.
  unfold PlotSettings_to, PlotSettings_writable; etransitivity; [cbv zeta beta; okc|].
  rewrite <- !ok_none_fixed. okf.
Qed.
#[export] Hint Resolve PlotSettings_w : okd.
Lemma SetupData_w o i n : is_ok (SetupData_to o i n) = SetupData_writable o.
Proof.
  unfold SetupData_to, SetupData_writable; okx.
Qed.
#[export] Hint Resolve SetupData_w : okd.
Lemma Segment_w o i n : is_ok (Segment_to o i n) = true.
Proof.
  unfold Segment_to; cbv zeta; okt.
Qed.
#[export] Hint Resolve Segment_w : okd.
Lemma Via_w o i n : is_ok (Via_to o i n) = true.
Proof.
  unfold Via_to; cbv zeta; okt.
Qed.
#[export] Hint Resolve Via_w : okd.
Lemma Arc_w o i n : is_ok (Arc_to o i n) = true.
Proof.
  unfold Arc_to; cbv zeta; okt.
Qed.
#[export] Hint Resolve Arc_w : okd.
Lemma Target_w o i n : is_ok (Target_to o i n) = true.
Proof.
  unfold Target_to; cbv zeta; okt.
Qed.
#[export] Hint Resolve Target_w : okd.
Lemma BdItem_w o i n : is_ok (BdItem_to o i n) = BdItem_writable o.
Proof.
  destruct o; cbn [BdItem_to BdItem_writable]; auto 1 with okd nocore; reflexivity.
Qed.
#[export] Hint Resolve BdItem_w : okd.
Lemma TrItem_w o i n : is_ok (TrItem_to o i n) = true.
Proof.
  destruct o; cbn [TrItem_to]; auto 1 with okd nocore; reflexivity.
Qed.
#[export] Hint Resolve TrItem_w : okd.
Lemma BdItem_write_w o i n : is_ok (BdItem_write o i n) = BdItem_writable o.
Proof. destruct o; cbn [BdItem_write]; apply BdItem_w || apply GrPoly_pts_w. Qed.
#[export] Hint Resolve BdItem_write_w : okd.
Lemma Board_w o i n : is_ok (Board_to o i n) = Board_writable o.
Proof.
  unfold Board_to, Board_writable; okx.
Qed.
#[export] Hint Resolve Board_w : okd.
Lemma Junction_w o i n : is_ok (Junction_to o i n) = Junction_writable o.
Proof.
  unfold Junction_to, Junction_writable; cbv zeta. destruct (jn_color o) as [c|v]; [|reflexivity]. cbv iota. okx.
Qed.
#[export] Hint Resolve Junction_w : okd.
Lemma NoConnect_w o i n : is_ok (NoConnect_to o i n) = true.
Proof.
  unfold NoConnect_to; cbv zeta; okt.
Qed.
#[export] Hint Resolve NoConnect_w : okd.
Lemma BusEntry_w o i n : is_ok (BusEntry_to o i n) = BusEntry_writable o.
Proof.
  unfold BusEntry_to, BusEntry_writable; okx.
Qed.
#[export] Hint Resolve BusEntry_w : okd.
Lemma BusAlias_w o i n : is_ok (BusAlias_to o i n) = true.
Proof.
  unfold BusAlias_to; cbv zeta; okt.
Qed.
#[export] Hint Resolve BusAlias_w : okd.
Lemma Connection_w o i n : is_ok (Connection_to o i n) = Connection_writable o.
Proof.
  unfold Connection_to, Connection_writable; okx.
Qed.
#[export] Hint Resolve Connection_w : okd.
Lemma PolyLine_w o i n : is_ok (PolyLine_to o i n) = PolyLine_writable o.
Proof.
  unfold PolyLine_to, PolyLine_writable; okx.
Qed.
#[export] Hint Resolve PolyLine_w : okd.
Lemma Text_w o i n : is_ok (Text_to o i n) = Text_writable o.
Proof.
  unfold Text_to, Text_writable; okx.
Qed.
#[export] Hint Resolve Text_w : okd.
Lemma TextBox_w o i n : is_ok (TextBox_to o i n) = TextBox_writable o.
Proof.
  unfold TextBox_to, TextBox_writable; okx.
Qed.
#[export] Hint Resolve TextBox_w : okd.
Lemma LocalLabel_w o i n : is_ok (LocalLabel_to o i n) = LocalLabel_writable o.
Proof.
  unfold LocalLabel_to, LocalLabel_writable; okx.
Qed.
#[export] Hint Resolve LocalLabel_w : okd.
Lemma GlobalLabel_w o i n : is_ok (GlobalLabel_to o i n) = GlobalLabel_writable o.
Proof.
  unfold GlobalLabel_to, GlobalLabel_writable; okx.
Qed.
#[export] Hint Resolve GlobalLabel_w : okd.
Lemma HierarchicalLabel_w o i n : is_ok (HierarchicalLabel_to o i n) = HierarchicalLabel_writable o.
Proof.
  unfold HierarchicalLabel_to, HierarchicalLabel_writable; okx.
Qed.
#[export] Hint Resolve HierarchicalLabel_w : okd.
Lemma SymbolProjectPath_w o i n : is_ok (SymbolProjectPath_to o i n) = true.
Proof.
  unfold SymbolProjectPath_to; cbv zeta; okt.
Qed.
#[export] Hint Resolve SymbolProjectPath_w : okd.
Lemma SymbolProjectInstance_w o i n : is_ok (SymbolProjectInstance_to o i n) = true.
Proof.
  unfold SymbolProjectInstance_to; cbv zeta; okt.
Qed.
#[export] Hint Resolve SymbolProjectInstance_w : okd.
Lemma SchematicSymbol_w o i n : is_ok (SchematicSymbol_to o i n) = SchematicSymbol_writable o.
Proof.
  unfold SchematicSymbol_to, SchematicSymbol_writable; okx.
Qed.
#[export] Hint Resolve SchematicSymbol_w : okd.
Lemma HierarchicalPin_w o i n : is_ok (HierarchicalPin_to o i n) = HierarchicalPin_writable o.
Proof.
  unfold HierarchicalPin_to, HierarchicalPin_writable; okx.
Qed.
#[export] Hint Resolve HierarchicalPin_w : okd.
Lemma HierarchicalSheetProjectPath_w o i n : is_ok (HierarchicalSheetProjectPath_to o i n) = true.
Proof.
  unfold HierarchicalSheetProjectPath_to; cbv zeta; okt.
Qed.
#[export] Hint Resolve HierarchicalSheetProjectPath_w : okd.
Lemma HierarchicalSheetProjectInstance_w o i n : is_ok (HierarchicalSheetProjectInstance_to o i n) = true.
Proof.
  unfold HierarchicalSheetProjectInstance_to; cbv zeta; okt.
Qed.
#[export] Hint Resolve HierarchicalSheetProjectInstance_w : okd.
Lemma HierarchicalSheet_w o i n : is_ok (HierarchicalSheet_to o i n) = HierarchicalSheet_writable o.
Proof.
  unfold HierarchicalSheet_to, HierarchicalSheet_writable; okx.
Qed.
#[export] Hint Resolve HierarchicalSheet_w : okd.
Lemma HierarchicalSheetInstance_w o i n : is_ok (HierarchicalSheetInstance_to o i n) = true.
Proof.
  unfold HierarchicalSheetInstance_to; cbv zeta; okt.
Qed.
#[export] Hint Resolve HierarchicalSheetInstance_w : okd.
Lemma SymbolInstance_w o i n : is_ok (SymbolInstance_to o i n) = true.
Proof.
  unfold SymbolInstance_to; cbv zeta; okt.
Qed.
#[export] Hint Resolve SymbolInstance_w : okd.
Lemma Rectangle_w o i n : is_ok (Rectangle_to o i n) = Rectangle_writable o.
Proof.
  unfold Rectangle_to, Rectangle_writable; okx.
Qed.
#[export] Hint Resolve Rectangle_w : okd.
Lemma SchArc_w o i n : is_ok (SchArc_to o i n) = SchArc_writable o.
Proof.
  unfold SchArc_to, SchArc_writable; okx.
Qed.
#[export] Hint Resolve SchArc_w : okd.
Lemma Circle_w o i n : is_ok (Circle_to o i n) = Circle_writable o.
Proof.
  unfold Circle_to, Circle_writable; okx.
Qed.
#[export] Hint Resolve Circle_w : okd.
Lemma NetclassFlag_w o i n : is_ok (NetclassFlag_to o i n) = NetclassFlag_writable o.
Proof.
  unfold NetclassFlag_to, NetclassFlag_writable; etransitivity; [cbv zeta beta; okc|]. now destruct (nf_effects o).
Qed.
#[export] Hint Resolve NetclassFlag_w : okd.
Lemma ScLine_w o i n : is_ok (ScLine_to o i n) = ScLine_writable o.
Proof.
  destruct o; cbn [ScLine_to ScLine_writable]; auto 1 with okd nocore; reflexivity.
Qed.
#[export] Hint Resolve ScLine_w : okd.
Lemma ScShape_w o i n : is_ok (ScShape_to o i n) = ScShape_writable o.
Proof.
  destruct o; cbn [ScShape_to ScShape_writable]; auto 1 with okd nocore; reflexivity.
Qed.
#[export] Hint Resolve ScShape_w : okd.
Lemma Schematic_w o i n : is_ok (Schematic_to o i n) = Schematic_writable o.
Proof.
  unfold Schematic_to, Schematic_writable; okx.
Qed.
#[export] Hint Resolve Schematic_w : okd.
Lemma WksFontSize_w o i n : is_ok (WksFontSize_to o i n) = true.
Proof.
  unfold WksFontSize_to; cbv zeta; okt.
Qed.
#[export] Hint Resolve WksFontSize_w : okd.
Lemma WksFont_w o i n : is_ok (WksFont_to o i n) = true.
Proof.
  unfold WksFont_to; cbv zeta; okt.
Qed.
#[export] Hint Resolve WksFont_w : okd.
Lemma WksPosition_w o i n : is_ok (WksPosition_to o i n) = WksPosition_writable o.
Proof.
  unfold WksPosition_to, WksPosition_writable; okx.
Qed.
#[export] Hint Resolve WksPosition_w : okd.
Lemma Line_w o i n : is_ok (Line_to o i n) = true.
Proof.
  unfold Line_to; cbv zeta; okt.
Qed.
#[export] Hint Resolve Line_w : okd.
Lemma Rect_w o i n : is_ok (Rect_to o i n) = true.
Proof.
  unfold Rect_to; cbv zeta; okt.
Qed.
#[export] Hint Resolve Rect_w : okd.
Lemma Polygon_w o i n : is_ok (Polygon_to o i n) = Polygon_writable o.
Proof.
  unfold Polygon_to, Polygon_writable; okx.
Qed.
#[export] Hint Resolve Polygon_w : okd.
Lemma Bitmap_w o i n : is_ok (Bitmap_to o i n) = true.
Proof.
  unfold Bitmap_to; cbv zeta; okt.
Qed.
#[export] Hint Resolve Bitmap_w : okd.
Lemma TbText_w o i n : is_ok (TbText_to o i n) = true.
Proof.
  unfold TbText_to; cbv zeta; okt.
Qed.
#[export] Hint Resolve TbText_w : okd.
Lemma TextSize_w o i n : is_ok (TextSize_to o i n) = true.
Proof.
  unfold TextSize_to; cbv zeta; okt.
Qed.
#[export] Hint Resolve TextSize_w : okd.
Lemma Setup_w o i n : is_ok (Setup_to o i n) = true.
Proof.
  unfold Setup_to; cbv zeta; okt.
Qed.
#[export] Hint Resolve Setup_w : okd.
Lemma WkItem_w o i n : is_ok (WkItem_to o i n) = WkItem_writable o.
Proof.
  destruct o; cbn [WkItem_to WkItem_writable]; auto 1 with okd nocore; reflexivity.
Qed.
#[export] Hint Resolve WkItem_w : okd.
Lemma WorkSheet_w o i n : is_ok (WorkSheet_to o i n) = WorkSheet_writable o.
Proof.
  unfold WorkSheet_to, WorkSheet_writable; okx.
Qed.
#[export] Hint Resolve WorkSheet_w : okd.
