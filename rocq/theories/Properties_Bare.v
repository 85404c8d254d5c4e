(** * C55: objects made without arguments

    Every class can be instantiated without arguments.  The text of such an object is the one given here, and saved
    with any indentation and loaded again it is equal to the new one; for the classes where this is not so,
    the theorem says what happens instead. *)
From Coq Require Import String.
From Verif Require Import PyBase PyNum PyStr Sexpr RecordSet S_Leaf S_Tree S_Fix S_Equal S_Edit L_Tac Properties_EditA Properties_EditB.
From Verif Require Import M_Common M_Lib M_Sym M_Fp M_Gr M_Zone M_Footprint M_Dim M_Brd M_Board M_Sch M_Schematic M_Wks.
From Verif Require Import S_Common S_Lib S_Sym S_Fp S_Gr S_Zone S_Footprint S_Dim S_Brd S_Board S_Sch S_Schematic S_Wks.
From Verif Require Import L_Common L_Lib L_Sym L_Symbol L_Fp L_Gr L_Zone L_Pad L_Footprint L_Dim L_Brd L_Plot L_Board L_Sch L_Sheet L_Schematic L_Wks.

(** The text, and what comes back: an equal object, *)
Definition comes_back {A} (to : A -> nat -> bool -> res str) (from : val -> res A) (same : A -> A -> bool) (new : A) (text : string) : Prop :=
  to new 0 false = Ok (lit text)
  /\ forall indent newline, exists o, write_read to from new indent newline = Ok o /\ same new o = true.
(** or a different object without any complaint, *)
Definition comes_back_changed {A} (to : A -> nat -> bool -> res str) (from : val -> res A) (same : A -> A -> bool) (new : A) (text : string) : Prop :=
  to new 0 false = Ok (lit text) /\ exists o, write_read to from new 0 false = Ok o /\ same new o = false.
(** or nothing, because the text is not accepted, *)
Definition is_rejected {A} (to : A -> nat -> bool -> res str) (from : val -> res A) (new : A) (text : string) (e : exn) : Prop :=
  to new 0 false = Ok (lit text) /\ write_read to from new 0 false = Err e.
(** or nothing, because it is not written. *)
Definition is_not_written {A} (to : A -> nat -> bool -> res str) (new : A) (e : exn) : Prop := forall indent newline, to new indent newline = Err e.
Arguments comes_back {A} _ _ _ _ _%string.
Arguments comes_back_changed {A} _ _ _ _ _%string.
Arguments is_rejected {A} _ _ _ _%string _.

Lemma back {A} (to : A -> nat -> bool -> res str) from ok same es new text :
  editable to from ok same es -> ok new = true -> to new 0 false = Ok (lit text) -> comes_back to from same new text.
Proof. intros [_ H] O T. split; [exact T|]. exact (H new new O (unedited es new)). Qed.
Lemma changed {A} (to : A -> nat -> bool -> res str) from same new text :
  to new 0 false = Ok (lit text) -> match write_read to from new 0 false with Ok o => negb (same new o) | Err _ => false end = true ->
  comes_back_changed to from same new text.
Proof.
  intros T H. split; [exact T|]. destruct (write_read to from new 0 false) as [o|]; [|discriminate]. exists o. split; [reflexivity|]. now apply negb_true_iff.
Qed.

Theorem C55_Coordinate : comes_back Coordinate_to Coordinate_from Coordinate_eqb Coordinate_default "(xyz 0.0 0.0 0.0)".
Proof. apply (back _ _ _ _ _ _ _ C54_Coordinate); vm_compute; reflexivity. Qed.
Print Assumptions C55_Coordinate.

Theorem C55_ColorRGBA : comes_back ColorRGBA_to ColorRGBA_from ColorRGBA_eqb ColorRGBA_default "(color 0 0 0 0)".
Proof. apply (back _ _ _ _ _ _ _ C54_ColorRGBA); vm_compute; reflexivity. Qed.
Print Assumptions C55_ColorRGBA.

Theorem C55_Stroke : comes_back Stroke_to Stroke_from Stroke_eqb Stroke_default "(stroke (width 0.0))".
Proof. apply (back _ _ _ _ _ _ _ C54_Stroke); vm_compute; reflexivity. Qed.
Print Assumptions C55_Stroke.

Theorem C55_Font : comes_back Font_to Font_from Font_eqb Font_default "(font (size 1.0 1.0))".
Proof. apply (back _ _ _ _ _ _ _ C54_Font); vm_compute; reflexivity. Qed.
Print Assumptions C55_Font.

Theorem C55_Justify_refuted : is_rejected Justify_to Justify_from Justify_default "" EIndex.
Proof. split; vm_compute; reflexivity. Qed.
Print Assumptions C55_Justify_refuted.

Theorem C55_Effects : comes_back Effects_to Effects_from Effects_eqb Effects_default "(effects (font (size 1.0 1.0)))".
Proof. apply (back _ _ _ _ _ _ _ C54_Effects); vm_compute; reflexivity. Qed.
Print Assumptions C55_Effects.

Theorem C55_Net : comes_back Net_to Net_from Net_eqb Net_default "(net 0 """")".
Proof. apply (back _ _ _ _ _ _ _ C54_Net); vm_compute; reflexivity. Qed.
Print Assumptions C55_Net.

Theorem C55_Group_refuted : is_rejected Group_to Group_from Group_default "(group """" (id )
  (members
  )
)" EIndex.
Proof. split; vm_compute; reflexivity. Qed.
Print Assumptions C55_Group_refuted.

Theorem C55_PageSettings : comes_back PageSettings_to PageSettings_from PageSettings_eqb PageSettings_default "(paper ""A4"")".
Proof. apply (back _ _ _ _ _ _ _ C54_PageSettings); vm_compute; reflexivity. Qed.
Print Assumptions C55_PageSettings.

Theorem C55_TitleBlock : comes_back TitleBlock_to TitleBlock_from TitleBlock_eqb TitleBlock_default "(title_block
)".
Proof. apply (back _ _ _ _ _ _ _ C54_TitleBlock); vm_compute; reflexivity. Qed.
Print Assumptions C55_TitleBlock.

Theorem C55_Property : comes_back Property_to Property_from Property_eqb Property_default "(property """" """" (at 0.0 0.0 0))".
Proof. apply (back _ _ _ _ _ _ _ C54_Property); vm_compute; reflexivity. Qed.
Print Assumptions C55_Property.

Theorem C55_RenderCachePolygon : comes_back RenderCachePolygon_to RenderCachePolygon_from RenderCachePolygon_eqb RenderCachePolygon_default "(polygon
  (pts
  )
)".
Proof. apply (back _ _ _ _ _ _ _ C54_RenderCachePolygon); vm_compute; reflexivity. Qed.
Print Assumptions C55_RenderCachePolygon.

Theorem C55_RenderCache_refuted : is_rejected RenderCache_to RenderCache_from RenderCache_default "(render_cache """" 0
)" EIndex.
Proof. split; vm_compute; reflexivity. Qed.
Print Assumptions C55_RenderCache_refuted.

Theorem C55_Fill : comes_back Fill_to Fill_from Fill_eqb Fill_default "(fill (type none))".
Proof. apply (back _ _ _ _ _ _ _ C54_Fill); vm_compute; reflexivity. Qed.
Print Assumptions C55_Fill.

Theorem C55_Image : comes_back Image_to Image_from Image_eqb Image_default "(image (at 0.0 0.0)
  (data
  )
)".
Proof. apply (back _ _ _ _ _ _ _ C54_Image); vm_compute; reflexivity. Qed.
Print Assumptions C55_Image.

Theorem C55_Library : comes_back Library_to Library_from Library_eqb Library_default "(lib (name """")(type ""KiCad"")(uri """")(options """")(descr """"))".
Proof. apply (back _ _ _ _ _ _ _ C54_Library); vm_compute; reflexivity. Qed.
Print Assumptions C55_Library.

Theorem C55_LibTable : comes_back LibTable_to LibTable_from LibTable_eqb LibTable_default "(sym_lib_table
)".
Proof. apply (back _ _ _ _ _ _ _ C54_LibTable); vm_compute; reflexivity. Qed.
Print Assumptions C55_LibTable.

Theorem C55_Constraint : comes_back Constraint_to Constraint_from Constraint_eqb Constraint_default "(constraint clearance)".
Proof. apply (back _ _ _ _ _ _ _ C54_Constraint); vm_compute; reflexivity. Qed.
Print Assumptions C55_Constraint.

Theorem C55_Rule : comes_back Rule_to Rule_from Rule_eqb Rule_default "(rule """"
  (condition """"))
".
Proof. apply (back _ _ _ _ _ _ _ C54_Rule); vm_compute; reflexivity. Qed.
Print Assumptions C55_Rule.

Theorem C55_DesignRules : comes_back DesignRules_file DesignRules_from DesignRules_eqb DesignRules_default "((version 1)
)".
Proof. apply (back _ _ _ _ _ _ _ C54_DesignRules); vm_compute; reflexivity. Qed.
Print Assumptions C55_DesignRules.

Theorem C55_SyArc : comes_back SyArc_to SyArc_from SyArc_eqb SyArc_default "(arc (start 0.0 0.0) (mid 0.0 0.0) (end 0.0 0.0)
  (stroke (width 0.0))
  (fill (type none))
)".
Proof. apply (back _ _ _ _ _ _ _ C54_SyArc); vm_compute; reflexivity. Qed.
Print Assumptions C55_SyArc.

Theorem C55_SyCircle : comes_back SyCircle_to SyCircle_from SyCircle_eqb SyCircle_default "(circle (center 0.0 0.0) (radius 0.0)
  (stroke (width 0.0))
  (fill (type none))
)".
Proof. apply (back _ _ _ _ _ _ _ C54_SyCircle); vm_compute; reflexivity. Qed.
Print Assumptions C55_SyCircle.

Theorem C55_SyPolyLine : comes_back SyPolyLine_to SyPolyLine_from SyPolyLine_eqb SyPolyLine_default "(polyline
  (pts
  )
  (stroke (width 0.0))
  (fill (type none))
)".
Proof. apply (back _ _ _ _ _ _ _ C54_SyPolyLine); vm_compute; reflexivity. Qed.
Print Assumptions C55_SyPolyLine.

Theorem C55_SyRect : comes_back SyRect_to SyRect_from SyRect_eqb SyRect_default "(rectangle (start 0.0 0.0) (end 0.0 0.0)
  (stroke (width 0.0))
  (fill (type none))
)".
Proof. apply (back _ _ _ _ _ _ _ C54_SyRect); vm_compute; reflexivity. Qed.
Print Assumptions C55_SyRect.

Theorem C55_SyText : comes_back SyText_to SyText_from SyText_eqb SyText_default "(text """" (at 0.0 0.0)
  (effects (font (size 1.0 1.0)))
)".
Proof. apply (back _ _ _ _ _ _ _ C54_SyText); vm_compute; reflexivity. Qed.
Print Assumptions C55_SyText.

Theorem C55_SyTextBox : comes_back SyTextBox_to SyTextBox_from SyTextBox_eqb SyTextBox_default "(text_box """"
  (at 0.0 0.0) (size 0.0 0.0)
  (stroke (width 0.0))
  (fill (type none))
  (effects (font (size 1.0 1.0)))
)".
Proof. apply (back _ _ _ _ _ _ _ C54_SyTextBox); vm_compute; reflexivity. Qed.
Print Assumptions C55_SyTextBox.

Theorem C55_SymbolAlternativePin : comes_back SymbolAlternativePin_to SymbolAlternativePin_from SymbolAlternativePin_eqb SymbolAlternativePin_default "(alternate """" input line)".
Proof. apply (back _ _ _ _ _ _ _ C54_SymbolAlternativePin); vm_compute; reflexivity. Qed.
Print Assumptions C55_SymbolAlternativePin.

Theorem C55_SymbolPin : comes_back SymbolPin_to SymbolPin_from SymbolPin_eqb SymbolPin_default "(pin input line (at 0.0 0.0) (length 0.254) (name """") (number ""0""))".
Proof. apply (back _ _ _ _ _ _ _ C54_SymbolPin); vm_compute; reflexivity. Qed.
Print Assumptions C55_SymbolPin.

Theorem C55_Symbol_refuted : comes_back_changed Symbol_to Symbol_from Symbol_eqb Symbol_default "(symbol ""None""
)".
Proof. apply changed; vm_compute; reflexivity. Qed.
Print Assumptions C55_Symbol_refuted.

Theorem C55_SymbolLib_refuted : comes_back_changed SymbolLib_to SymbolLib_from SymbolLib_eqb SymbolLib_default "(kicad_symbol_lib (version 20211014) (generator None)
)".
Proof. apply changed; vm_compute; reflexivity. Qed.
Print Assumptions C55_SymbolLib_refuted.

Theorem C55_FpText : comes_back FpText_to FpText_from FpText_eqb FpText_default "(fp_text reference ""%REF"" (at 0.0 0.0) (layer ""F.Cu"")
  (effects (font (size 1.0 1.0)))
)".
Proof. apply (back _ _ _ _ _ _ _ C54_FpText); vm_compute; reflexivity. Qed.
Print Assumptions C55_FpText.

Theorem C55_FpLine : comes_back FpLine_to FpLine_from FpLine_eqb FpLine_default "(fp_line (start 0.0 0.0) (end 0.0 0.0) (layer ""F.Cu"") (width 0.12))".
Proof. apply (back _ _ _ _ _ _ _ C54_FpLine); vm_compute; reflexivity. Qed.
Print Assumptions C55_FpLine.

Theorem C55_FpRect : comes_back FpRect_to FpRect_from FpRect_eqb FpRect_default "(fp_rect (start 0.0 0.0) (end 0.0 0.0) (layer ""F.Cu"") (width 0.12))".
Proof. apply (back _ _ _ _ _ _ _ C54_FpRect); vm_compute; reflexivity. Qed.
Print Assumptions C55_FpRect.

Theorem C55_FpCircle : comes_back FpCircle_to FpCircle_from FpCircle_eqb FpCircle_default "(fp_circle (center 0.0 0.0) (end 0.0 0.0) (layer ""F.Cu"") (width 0.12))".
Proof. apply (back _ _ _ _ _ _ _ C54_FpCircle); vm_compute; reflexivity. Qed.
Print Assumptions C55_FpCircle.

Theorem C55_FpArc : comes_back FpArc_to FpArc_from FpArc_eqb FpArc_default "(fp_arc (start 0.0 0.0) (mid 0.0 0.0) (end 0.0 0.0) (layer ""F.Cu"") (width 0.12))".
Proof. apply (back _ _ _ _ _ _ _ C54_FpArc); vm_compute; reflexivity. Qed.
Print Assumptions C55_FpArc.

Theorem C55_FpPoly_refuted : is_rejected FpPoly_to FpPoly_from FpPoly_default "" EIndex.
Proof. split; vm_compute; reflexivity. Qed.
Print Assumptions C55_FpPoly_refuted.

Theorem C55_FpCurve_refuted : is_rejected FpCurve_to FpCurve_from FpCurve_default "" EIndex.
Proof. split; vm_compute; reflexivity. Qed.
Print Assumptions C55_FpCurve_refuted.

Theorem C55_FpTextBox_refuted : is_not_written FpTextBox_to FpTextBox_default EException.
Proof. intros indent newline. reflexivity. Qed.
Print Assumptions C55_FpTextBox_refuted.

Theorem C55_GrText : comes_back GrText_to GrText_from GrText_eqb GrText_default "(gr_text """" (at 0.0 0.0)
  (effects (font (size 1.0 1.0)))
)".
Proof. apply (back _ _ _ _ _ _ _ C54_GrText); vm_compute; reflexivity. Qed.
Print Assumptions C55_GrText.

Theorem C55_GrLine : comes_back GrLine_to GrLine_from GrLine_eqb GrLine_default "(gr_line (start 0.0 0.0) (end 0.0 0.0) (width 0.12))".
Proof. apply (back _ _ _ _ _ _ _ C54_GrLine); vm_compute; reflexivity. Qed.
Print Assumptions C55_GrLine.

Theorem C55_GrRect : comes_back GrRect_to GrRect_from GrRect_eqb GrRect_default "(gr_rect (start 0.0 0.0) (end 0.0 0.0) (width 0.12))".
Proof. apply (back _ _ _ _ _ _ _ C54_GrRect); vm_compute; reflexivity. Qed.
Print Assumptions C55_GrRect.

Theorem C55_GrCircle : comes_back GrCircle_to GrCircle_from GrCircle_eqb GrCircle_default "(gr_circle (center 0.0 0.0) (end 0.0 0.0) (width 0.12))".
Proof. apply (back _ _ _ _ _ _ _ C54_GrCircle); vm_compute; reflexivity. Qed.
Print Assumptions C55_GrCircle.

Theorem C55_GrArc : comes_back GrArc_to GrArc_from GrArc_eqb GrArc_default "(gr_arc (start 0.0 0.0) (mid 0.0 0.0) (end 0.0 0.0) (width 0.12))".
Proof. apply (back _ _ _ _ _ _ _ C54_GrArc); vm_compute; reflexivity. Qed.
Print Assumptions C55_GrArc.

Theorem C55_GrPoly_refuted : is_rejected GrPoly_to GrPoly_from GrPoly_default "" EIndex.
Proof. split; vm_compute; reflexivity. Qed.
Print Assumptions C55_GrPoly_refuted.

Theorem C55_GrCurve_refuted : is_rejected GrCurve_to GrCurve_from GrCurve_default "" EIndex.
Proof. split; vm_compute; reflexivity. Qed.
Print Assumptions C55_GrCurve_refuted.

Theorem C55_GrTextBox_refuted : is_not_written GrTextBox_to GrTextBox_default EException.
Proof. intros indent newline. reflexivity. Qed.
Print Assumptions C55_GrTextBox_refuted.

Theorem C55_KeepoutSettings : comes_back KeepoutSettings_to KeepoutSettings_from KeepoutSettings_eqb KeepoutSettings_default "(keepout (tracks allowed) (vias allowed) (pads allowed ) (copperpour not-allowed) (footprints not-allowed))".
Proof. apply (back _ _ _ _ _ _ _ C54_KeepoutSettings); vm_compute; reflexivity. Qed.
Print Assumptions C55_KeepoutSettings.

Theorem C55_FillSettings_refuted : comes_back_changed FillSettings_to FillSettings_from FillSettings_eqb FillSettings_default "(fill (thermal_gap None) (thermal_bridge_width None))".
Proof. apply changed; vm_compute; reflexivity. Qed.
Print Assumptions C55_FillSettings_refuted.

Theorem C55_ZonePolygon_refuted : is_rejected ZonePolygon_to ZonePolygon_from ZonePolygon_default "" EIndex.
Proof. split; vm_compute; reflexivity. Qed.
Print Assumptions C55_ZonePolygon_refuted.

Theorem C55_FilledPolygon_refuted : is_rejected FilledPolygon_to FilledPolygon_from FilledPolygon_default "" EIndex.
Proof. split; vm_compute; reflexivity. Qed.
Print Assumptions C55_FilledPolygon_refuted.

Theorem C55_FillSegments_refuted : is_rejected FillSegments_to FillSegments_from FillSegments_default "" EIndex.
Proof. split; vm_compute; reflexivity. Qed.
Print Assumptions C55_FillSegments_refuted.

Theorem C55_Zone_refuted : is_not_written Zone_to Zone_default EException.
Proof. intros indent newline. reflexivity. Qed.
Print Assumptions C55_Zone_refuted.

Theorem C55_Attributes_refuted : is_rejected Attributes_to Attributes_from Attributes_default "" EIndex.
Proof. split; vm_compute; reflexivity. Qed.
Print Assumptions C55_Attributes_refuted.

Theorem C55_Model : comes_back Model_to Model_from Model_eqb Model_default "(model """"
  (offset (xyz 0.0 0.0 0.0))
  (scale (xyz 1.0 1.0 1.0))
  (rotate (xyz 0.0 0.0 0.0))
)".
Proof. apply (back _ _ _ _ _ _ _ C54_Model); vm_compute; reflexivity. Qed.
Print Assumptions C55_Model.

Theorem C55_DrillDefinition : comes_back DrillDefinition_to DrillDefinition_from DrillDefinition_eqb DrillDefinition_default "(drill 0.0)".
Proof. apply (back _ _ _ _ _ _ _ C54_DrillDefinition); vm_compute; reflexivity. Qed.
Print Assumptions C55_DrillDefinition.

Theorem C55_PadOptions : comes_back PadOptions_to PadOptions_from PadOptions_eqb PadOptions_default "(options (clearance outline) (anchor rect))".
Proof. apply (back _ _ _ _ _ _ _ C54_PadOptions); vm_compute; reflexivity. Qed.
Print Assumptions C55_PadOptions.

Theorem C55_Pad : comes_back Pad_to Pad_from Pad_eqb Pad_default "(pad ""x"" smd rect (at 0.0 0.0) (size 0.0 0.0) (layers))".
Proof. apply (back _ _ _ _ _ _ _ C54_Pad); vm_compute; reflexivity. Qed.
Print Assumptions C55_Pad.

Theorem C55_Footprint_refuted : comes_back_changed Footprint_to (Footprint_from (VStr $"5F0A1B2C")) Footprint_eqb (Footprint_default (VStr $"5F0A1B2C")) "(footprint ""None""
  (layer ""F.Cu"")
  (tedit 5F0A1B2C)
)".
Proof. apply changed; vm_compute; reflexivity. Qed.
Print Assumptions C55_Footprint_refuted.

Theorem C55_DimensionFormat : comes_back DimensionFormat_to DimensionFormat_from DimensionFormat_eqb DimensionFormat_default "(format (units 3) (units_format 1) (precision 4))".
Proof. apply (back _ _ _ _ _ _ _ C54_DimensionFormat); vm_compute; reflexivity. Qed.
Print Assumptions C55_DimensionFormat.

Theorem C55_DimensionStyle : comes_back DimensionStyle_to DimensionStyle_from DimensionStyle_eqb DimensionStyle_default "(style (thickness 0.0) (arrow_length 0.0) (text_position_mode 0))".
Proof. apply (back _ _ _ _ _ _ _ C54_DimensionStyle); vm_compute; reflexivity. Qed.
Print Assumptions C55_DimensionStyle.

Theorem C55_Dimension_refuted : is_not_written Dimension_to Dimension_default EException.
Proof. intros indent newline. reflexivity. Qed.
Print Assumptions C55_Dimension_refuted.

Theorem C55_GeneralSettings : comes_back GeneralSettings_to GeneralSettings_from GeneralSettings_eqb GeneralSettings_default "(general
  (thickness 1.6)
)".
Proof. apply (back _ _ _ _ _ _ _ C54_GeneralSettings); vm_compute; reflexivity. Qed.
Print Assumptions C55_GeneralSettings.

Theorem C55_LayerToken : comes_back LayerToken_to LayerToken_from LayerToken_eqb LayerToken_default "(0 ""F.Cu"" signal)".
Proof. apply (back _ _ _ _ _ _ _ C54_LayerToken); vm_compute; reflexivity. Qed.
Print Assumptions C55_LayerToken.

Theorem C55_StackupLayer : comes_back StackupLayer_to StackupLayer_from StackupLayer_eqb StackupLayer_default "(layer """" (type """"))".
Proof. apply (back _ _ _ _ _ _ _ C54_StackupLayer); vm_compute; reflexivity. Qed.
Print Assumptions C55_StackupLayer.

Theorem C55_Stackup : comes_back Stackup_to Stackup_from Stackup_eqb Stackup_default "(stackup
)".
Proof. apply (back _ _ _ _ _ _ _ C54_Stackup); vm_compute; reflexivity. Qed.
Print Assumptions C55_Stackup.

Theorem C55_PlotSettings_refuted : is_rejected PlotSettings_to PlotSettings_from PlotSettings_default "(pcbplotparams
  (layerselection )
  (disableapertmacros false)
  (usegerberextensions false)
  (usegerberattributes false)
  (usegerberadvancedattributes false)
  (creategerberjobfile false)
  (svgprecision 0.0)
  (plotframeref false)
  (viasonmask false)
  (mode 1)
  (useauxorigin false)
  (hpglpennumber 0)
  (hpglpenspeed 0)
  (hpglpendiameter 0.000000)
  (dxfpolygonmode false)
  (dxfimperialunits false)
  (dxfusepcbnewfont false)
  (psnegative false)
  (psa4output false)
  (plotreference false)
  (plotvalue false)
  (plotinvisibletext false)
  (sketchpadsonfab false)
  (subtractmaskfromsilk false)
  (outputformat 0)
  (mirror false)
  (drillshape 0)
  (scaleselection 1)
  (outputdirectory """")
)" EIndex.
Proof. split; vm_compute; reflexivity. Qed.
Print Assumptions C55_PlotSettings_refuted.

Theorem C55_SetupData : comes_back SetupData_to SetupData_from SetupData_eqb SetupData_default "(setup
  (pad_to_mask_clearance 0.0)
)".
Proof. apply (back _ _ _ _ _ _ _ C54_SetupData); vm_compute; reflexivity. Qed.
Print Assumptions C55_SetupData.

Theorem C55_Segment_refuted : is_rejected Segment_to Segment_from Segment_default "(segment (start 0.0 0.0) (end 0.0 0.0) (width 0.1) (layer ""F.Cu"") (net 0) (tstamp ))" EIndex.
Proof. split; vm_compute; reflexivity. Qed.
Print Assumptions C55_Segment_refuted.

Theorem C55_Via : comes_back Via_to Via_from Via_eqb Via_default "(via (at 0.0 0.0) (size 0.0) (drill 0.0) (layers) (net 0))".
Proof. apply (back _ _ _ _ _ _ _ C54_Via); vm_compute; reflexivity. Qed.
Print Assumptions C55_Via.

Theorem C55_Arc : comes_back Arc_to Arc_from Arc_eqb Arc_default "(arc (start 0.0 0.0) (mid 0.0 0.0) (end 0.0 0.0) (width 0.2) (layer ""F.Cu"") (net 0))".
Proof. apply (back _ _ _ _ _ _ _ C54_Arc); vm_compute; reflexivity. Qed.
Print Assumptions C55_Arc.

Theorem C55_Target_refuted : comes_back_changed Target_to Target_from Target_eqb Target_default "(target plus (at 0.0 0.0) (size 0) (width 0.1) (layer ""F.Cu"") (tstamp None))".
Proof. apply changed; vm_compute; reflexivity. Qed.
Print Assumptions C55_Target_refuted.

Theorem C55_Board_refuted : is_rejected Board_to (Board_from (VStr $"5F0A1B2C")) Board_default "(kicad_pcb (version ) (generator )

  (general
    (thickness 1.6)
  )

  (paper ""A4"")
  (layers
  )

  (setup
    (pad_to_mask_clearance 0.0)
  )

)" EIndex.
Proof. split; vm_compute; reflexivity. Qed.
Print Assumptions C55_Board_refuted.

Theorem C55_Junction : comes_back Junction_to Junction_from Junction_eqb Junction_default "(junction (at 0.0 0.0) (diameter 0) (color 0 0 0 0))".
Proof. apply (back _ _ _ _ _ _ _ C54_Junction); vm_compute; reflexivity. Qed.
Print Assumptions C55_Junction.

Theorem C55_NoConnect : comes_back NoConnect_to NoConnect_from NoConnect_eqb NoConnect_default "(no_connect (at 0.0 0.0))".
Proof. apply (back _ _ _ _ _ _ _ C54_NoConnect); vm_compute; reflexivity. Qed.
Print Assumptions C55_NoConnect.

Theorem C55_BusEntry : comes_back BusEntry_to BusEntry_from BusEntry_eqb BusEntry_default "(bus_entry (at 0.0 0.0) (size 0.0 0.0)
  (stroke (width 0.0))
)".
Proof. apply (back _ _ _ _ _ _ _ C54_BusEntry); vm_compute; reflexivity. Qed.
Print Assumptions C55_BusEntry.

Theorem C55_BusAlias : comes_back BusAlias_to BusAlias_from BusAlias_eqb BusAlias_default "(bus_alias """" (members ))".
Proof. apply (back _ _ _ _ _ _ _ C54_BusAlias); vm_compute; reflexivity. Qed.
Print Assumptions C55_BusAlias.

Theorem C55_Connection : comes_back Connection_to Connection_from Connection_eqb Connection_default "(wire (pts)
  (stroke (width 0.0))
)".
Proof. apply (back _ _ _ _ _ _ _ C54_Connection); vm_compute; reflexivity. Qed.
Print Assumptions C55_Connection.

Theorem C55_PolyLine : comes_back PolyLine_to PolyLine_from PolyLine_eqb PolyLine_default "(polyline (pts)
  (stroke (width 0.0))
)".
Proof. apply (back _ _ _ _ _ _ _ C54_PolyLine); vm_compute; reflexivity. Qed.
Print Assumptions C55_PolyLine.

Theorem C55_Text : comes_back Text_to Text_from Text_eqb Text_default "(text """" (at 0.0 0.0)
  (effects (font (size 1.0 1.0)))
)".
Proof. apply (back _ _ _ _ _ _ _ C54_Text); vm_compute; reflexivity. Qed.
Print Assumptions C55_Text.

Theorem C55_TextBox : comes_back TextBox_to TextBox_from TextBox_eqb TextBox_default "(text_box """"
  (at 0.0 0.0) (size 0.0 0.0)
  (stroke (width 0.0))
  (fill (type none))
  (effects (font (size 1.0 1.0)))
)".
Proof. apply (back _ _ _ _ _ _ _ C54_TextBox); vm_compute; reflexivity. Qed.
Print Assumptions C55_TextBox.

Theorem C55_LocalLabel : comes_back LocalLabel_to LocalLabel_from LocalLabel_eqb LocalLabel_default "(label """" (at 0.0 0.0)
  (effects (font (size 1.0 1.0)))
)".
Proof. apply (back _ _ _ _ _ _ _ C54_LocalLabel); vm_compute; reflexivity. Qed.
Print Assumptions C55_LocalLabel.

Theorem C55_GlobalLabel : comes_back GlobalLabel_to GlobalLabel_from GlobalLabel_eqb GlobalLabel_default "(global_label """" (shape input) (at 0.0 0.0)
  (effects (font (size 1.0 1.0)))
)".
Proof. apply (back _ _ _ _ _ _ _ C54_GlobalLabel); vm_compute; reflexivity. Qed.
Print Assumptions C55_GlobalLabel.

Theorem C55_HierarchicalLabel : comes_back HierarchicalLabel_to HierarchicalLabel_from HierarchicalLabel_eqb HierarchicalLabel_default "(hierarchical_label """" (shape input) (at 0.0 0.0)
  (effects (font (size 1.0 1.0)))
)".
Proof. apply (back _ _ _ _ _ _ _ C54_HierarchicalLabel); vm_compute; reflexivity. Qed.
Print Assumptions C55_HierarchicalLabel.

Theorem C55_SymbolProjectPath : comes_back SymbolProjectPath_to SymbolProjectPath_from SymbolProjectPath_eqb SymbolProjectPath_default "(path """"
  (reference """") (unit 1)
)".
Proof. apply (back _ _ _ _ _ _ _ C54_SymbolProjectPath); vm_compute; reflexivity. Qed.
Print Assumptions C55_SymbolProjectPath.

Theorem C55_SymbolProjectInstance : comes_back SymbolProjectInstance_to SymbolProjectInstance_from SymbolProjectInstance_eqb SymbolProjectInstance_default "(project """"
)".
Proof. apply (back _ _ _ _ _ _ _ C54_SymbolProjectInstance); vm_compute; reflexivity. Qed.
Print Assumptions C55_SymbolProjectInstance.

Theorem C55_SchematicSymbol_refuted : comes_back_changed SchematicSymbol_to SchematicSymbol_from SchematicSymbol_eqb SchematicSymbol_default "(symbol (lib_id ""None"") (at 0.0 0.0)
  (in_bom no) (on_board no)
)".
Proof. apply changed; vm_compute; reflexivity. Qed.
Print Assumptions C55_SchematicSymbol_refuted.

Theorem C55_HierarchicalPin : comes_back HierarchicalPin_to HierarchicalPin_from HierarchicalPin_eqb HierarchicalPin_default "(pin """" input (at 0.0 0.0)
  (effects (font (size 1.0 1.0)))
)".
Proof. apply (back _ _ _ _ _ _ _ C54_HierarchicalPin); vm_compute; reflexivity. Qed.
Print Assumptions C55_HierarchicalPin.

Theorem C55_HierarchicalSheetProjectPath : comes_back HierarchicalSheetProjectPath_to HierarchicalSheetProjectPath_from HierarchicalSheetProjectPath_eqb HierarchicalSheetProjectPath_default "(path """" (page """"))".
Proof. apply (back _ _ _ _ _ _ _ C54_HierarchicalSheetProjectPath); vm_compute; reflexivity. Qed.
Print Assumptions C55_HierarchicalSheetProjectPath.

Theorem C55_HierarchicalSheetProjectInstance : comes_back HierarchicalSheetProjectInstance_to HierarchicalSheetProjectInstance_from HierarchicalSheetProjectInstance_eqb HierarchicalSheetProjectInstance_default "(project """"
)".
Proof. apply (back _ _ _ _ _ _ _ C54_HierarchicalSheetProjectInstance); vm_compute; reflexivity. Qed.
Print Assumptions C55_HierarchicalSheetProjectInstance.

Theorem C55_HierarchicalSheet_refuted : comes_back_changed HierarchicalSheet_to HierarchicalSheet_from HierarchicalSheet_eqb HierarchicalSheet_default "(sheet (at 0.0 0.0) (size 0 0)
  (stroke (width 0.0))
  (fill (color 0 0 0 0))
  (property ""Sheet name"" """" (at 0.0 0.0 0))
  (property ""Sheet file"" """" (at 0.0 0.0 0))
)".
Proof. apply changed; vm_compute; reflexivity. Qed.
Print Assumptions C55_HierarchicalSheet_refuted.

Theorem C55_HierarchicalSheetInstance : comes_back HierarchicalSheetInstance_to HierarchicalSheetInstance_from HierarchicalSheetInstance_eqb HierarchicalSheetInstance_default "(path ""/"" (page ""1""))".
Proof. apply (back _ _ _ _ _ _ _ C54_HierarchicalSheetInstance); vm_compute; reflexivity. Qed.
Print Assumptions C55_HierarchicalSheetInstance.

Theorem C55_SymbolInstance : comes_back SymbolInstance_to SymbolInstance_from SymbolInstance_eqb SymbolInstance_default "(path ""/""
  (reference """") (unit 0) (value """") (footprint """")
)".
Proof. apply (back _ _ _ _ _ _ _ C54_SymbolInstance); vm_compute; reflexivity. Qed.
Print Assumptions C55_SymbolInstance.

Theorem C55_Rectangle : comes_back Rectangle_to Rectangle_from Rectangle_eqb Rectangle_default "(rectangle (start 0.0 0.0) (end 0.0 0.0)
  (stroke (width 0.0))
  (fill (type none))
)".
Proof. apply (back _ _ _ _ _ _ _ C54_Rectangle); vm_compute; reflexivity. Qed.
Print Assumptions C55_Rectangle.

Theorem C55_SchArc : comes_back SchArc_to SchArc_from SchArc_eqb SchArc_default "(arc (start 0.0 0.0) (mid 0.0 0.0) (end 0.0 0.0)
  (stroke (width 0.0))
  (fill (type none))
)".
Proof. apply (back _ _ _ _ _ _ _ C54_SchArc); vm_compute; reflexivity. Qed.
Print Assumptions C55_SchArc.

Theorem C55_Circle : comes_back Circle_to Circle_from Circle_eqb Circle_default "(circle (center 0.0 0.0) (radius 0.0)
  (stroke (width 0.0))
  (fill (type none))
)".
Proof. apply (back _ _ _ _ _ _ _ C54_Circle); vm_compute; reflexivity. Qed.
Print Assumptions C55_Circle.

Theorem C55_NetclassFlag_refuted : is_not_written NetclassFlag_to NetclassFlag_default EAttribute.
Proof. intros indent newline. reflexivity. Qed.
Print Assumptions C55_NetclassFlag_refuted.

Theorem C55_Schematic_refuted : comes_back_changed Schematic_to Schematic_from Schematic_eqb Schematic_default "(kicad_sch (version 20211014) (generator kiutils)
  (paper ""A4"")
  (lib_symbols)
)".
Proof. apply changed; vm_compute; reflexivity. Qed.
Print Assumptions C55_Schematic_refuted.

Theorem C55_WksFontSize : comes_back WksFontSize_to WksFontSize_from WksFontSize_eqb WksFontSize_default "(size 1.0 1.0)".
Proof. apply (back _ _ _ _ _ _ _ C54_WksFontSize); vm_compute; reflexivity. Qed.
Print Assumptions C55_WksFontSize.

Theorem C55_WksFont_refuted : is_rejected WksFont_to WksFont_from WksFont_default "" EIndex.
Proof. split; vm_compute; reflexivity. Qed.
Print Assumptions C55_WksFont_refuted.

Theorem C55_Line : comes_back Line_to Line_from Line_eqb Line_default "(line (name """") (start 0.0 0.0) (end 0.0 0.0))".
Proof. apply (back _ _ _ _ _ _ _ C54_Line); vm_compute; reflexivity. Qed.
Print Assumptions C55_Line.

Theorem C55_Rect : comes_back Rect_to Rect_from Rect_eqb Rect_default "(rect (name """") (start 0.0 0.0) (end 0.0 0.0))".
Proof. apply (back _ _ _ _ _ _ _ C54_Rect); vm_compute; reflexivity. Qed.
Print Assumptions C55_Rect.

Theorem C55_Bitmap : comes_back Bitmap_to Bitmap_from Bitmap_eqb Bitmap_default "(bitmap (name """") (pos 0.0 0.0) (scale 1.0)
(pngdata
  )
)".
Proof. apply (back _ _ _ _ _ _ _ C54_Bitmap); vm_compute; reflexivity. Qed.
Print Assumptions C55_Bitmap.

Theorem C55_TbText : comes_back TbText_to TbText_from TbText_eqb TbText_default "(tbtext """" (name """") (pos 0.0 0.0))".
Proof. apply (back _ _ _ _ _ _ _ C54_TbText); vm_compute; reflexivity. Qed.
Print Assumptions C55_TbText.

Theorem C55_TextSize : comes_back TextSize_to TextSize_from TextSize_eqb TextSize_default "(textsize 1.5 1.5)".
Proof. apply (back _ _ _ _ _ _ _ C54_TextSize); vm_compute; reflexivity. Qed.
Print Assumptions C55_TextSize.

Theorem C55_Setup : comes_back Setup_to Setup_from Setup_eqb Setup_default "(setup (textsize 1.5 1.5)(linewidth 0.15)(textlinewidth 0.15)
(left_margin 10.0)(right_margin 10.0)(top_margin 10.0)(bottom_margin 10.0))".
Proof. apply (back _ _ _ _ _ _ _ C54_Setup); vm_compute; reflexivity. Qed.
Print Assumptions C55_Setup.

Theorem C55_WorkSheet_refuted : comes_back_changed WorkSheet_to WorkSheet_from WorkSheet_eqb WorkSheet_default "(kicad_wks (version 20211014) (generator kiutils)
  (setup (textsize 1.5 1.5)(linewidth 0.15)(textlinewidth 0.15)
  (left_margin 10.0)(right_margin 10.0)(top_margin 10.0)(bottom_margin 10.0))
)".
Proof. apply changed; vm_compute; reflexivity. Qed.
Print Assumptions C55_WorkSheet_refuted.
