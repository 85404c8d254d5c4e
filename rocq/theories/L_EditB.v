(** C54: each class *)
From Coq Require Import List Bool.
From Verif Require Import PyBase PyNum PyStr Sexpr RecordSet S_Leaf S_Tree S_Fix S_Equal S_Edit L_Tac L_Equal L_EqualA L_Edit.
From Verif Require Import M_Common M_Lib M_Sym M_Fp M_Gr M_Zone M_Footprint M_Dim M_Brd M_Board M_Sch M_Schematic M_Wks.
From Verif Require Import S_Common S_Lib S_Sym S_Fp S_Gr S_Zone S_Footprint S_Dim S_Brd S_Board S_Sch S_Schematic S_Wks.
From Verif Require Import L_Common L_Lib L_Sym L_Symbol L_Fp L_Gr L_Zone L_Pad L_Footprint L_Dim L_Brd L_Plot L_Board L_Sch L_Sheet L_Schematic L_Wks.

#[local] Transparent DimensionFormat_ok DimensionFormat_eqb.
Lemma DimensionFormat_l : Forall (lawful DimensionFormat_ok DimensionFormat_eqb) DimensionFormat_edits.
Proof.
  repeat apply Forall_cons; [..|apply Forall_nil]; (apply law; [intros o x O F; destruct o as [a0 a1 a2 a3 a4 a5 a6]; unfold DimensionFormat_ok in *; cbv beta iota delta [set df_prefix df_suffix df_units df_unitsFormat df_precision df_overrideValue df_suppressZeroes] in *; conjs; goals; assumption|intros o x o1 S; destruct o as [a0 a1 a2 a3 a4 a5 a6], o1 as [b0 b1 b2 b3 b4 b5 b6]; unfold DimensionFormat_eqb in *; cbv beta iota delta [set df_prefix df_suffix df_units df_unitsFormat df_precision df_overrideValue df_suppressZeroes] in *; conjs; split; [assumption|goals; try assumption; apply refl; auto with equ]|intros o x y H; destruct o as [a0 a1 a2 a3 a4 a5 a6]; unfold DimensionFormat_eqb; cbv beta iota delta [set df_prefix df_suffix df_units df_unitsFormat df_precision df_overrideValue df_suppressZeroes]; goals; try assumption; apply refl; auto with equ|intros o O; destruct o as [a0 a1 a2 a3 a4 a5 a6]; unfold DimensionFormat_ok in *; cbv beta iota delta [set df_prefix df_suffix df_units df_unitsFormat df_precision df_overrideValue df_suppressZeroes] in *; conjs; goals; first [assumption|reflexivity]|intros o o1 S; destruct o as [a0 a1 a2 a3 a4 a5 a6], o1 as [b0 b1 b2 b3 b4 b5 b6]; unfold DimensionFormat_eqb in *; cbv beta iota delta [set df_prefix df_suffix df_units df_unitsFormat df_precision df_overrideValue df_suppressZeroes] in *; conjs; split; [assumption|split; intros;  goals; try assumption; apply refl; auto with equ]]).
Qed.
Lemma DimensionFormat_e : edits_survive DimensionFormat_to DimensionFormat_from DimensionFormat_ok DimensionFormat_eqb DimensionFormat_edits.
Proof. exact (lawful_survive _ _ _ _ _ _ DimensionFormat_rt DimensionFormat_l). Qed.
#[local] Opaque DimensionFormat_ok DimensionFormat_eqb.
#[local] Transparent DimensionStyle_ok DimensionStyle_eqb.
Lemma DimensionStyle_l : Forall (lawful DimensionStyle_ok DimensionStyle_eqb) DimensionStyle_edits.
Proof.
  repeat apply Forall_cons; [..|apply Forall_nil]; (apply law; [intros o x O F; destruct o as [a0 a1 a2 a3 a4 a5 a6]; unfold DimensionStyle_ok in *; cbv beta iota delta [set ds_thickness ds_arrowLength ds_textPositionMode ds_extensionHeight ds_textFrame ds_extensionOffset ds_keepTextAligned] in *; conjs; goals; assumption|intros o x o1 S; destruct o as [a0 a1 a2 a3 a4 a5 a6], o1 as [b0 b1 b2 b3 b4 b5 b6]; unfold DimensionStyle_eqb in *; cbv beta iota delta [set ds_thickness ds_arrowLength ds_textPositionMode ds_extensionHeight ds_textFrame ds_extensionOffset ds_keepTextAligned] in *; conjs; split; [assumption|goals; try assumption; apply refl; auto with equ]|intros o x y H; destruct o as [a0 a1 a2 a3 a4 a5 a6]; unfold DimensionStyle_eqb; cbv beta iota delta [set ds_thickness ds_arrowLength ds_textPositionMode ds_extensionHeight ds_textFrame ds_extensionOffset ds_keepTextAligned]; goals; try assumption; apply refl; auto with equ|intros o O; destruct o as [a0 a1 a2 a3 a4 a5 a6]; unfold DimensionStyle_ok in *; cbv beta iota delta [set ds_thickness ds_arrowLength ds_textPositionMode ds_extensionHeight ds_textFrame ds_extensionOffset ds_keepTextAligned] in *; conjs; goals; first [assumption|reflexivity]|intros o o1 S; destruct o as [a0 a1 a2 a3 a4 a5 a6], o1 as [b0 b1 b2 b3 b4 b5 b6]; unfold DimensionStyle_eqb in *; cbv beta iota delta [set ds_thickness ds_arrowLength ds_textPositionMode ds_extensionHeight ds_textFrame ds_extensionOffset ds_keepTextAligned] in *; conjs; split; [assumption|split; intros;  goals; try assumption; apply refl; auto with equ]]).
Qed.
Lemma DimensionStyle_e : edits_survive DimensionStyle_to DimensionStyle_from DimensionStyle_ok DimensionStyle_eqb DimensionStyle_edits.
Proof. exact (lawful_survive _ _ _ _ _ _ DimensionStyle_rt DimensionStyle_l). Qed.
#[local] Opaque DimensionStyle_ok DimensionStyle_eqb.
#[local] Transparent Dimension_ok Dimension_eqb.
Lemma Dimension_l : Forall (lawful Dimension_ok Dimension_eqb) Dimension_edits.
Proof.
  repeat apply Forall_cons; [..|apply Forall_nil]; (apply law; [intros o x O F; destruct o as [a0 a1 a2 a3 a4 a5 a6 a7 a8 a9 a10]; unfold Dimension_ok in *; cbv beta iota delta [set di_locked di_type di_layer di_tstamp di_pts di_height di_orientation di_leaderLength di_grText di_format di_style] in *; conjs; goals; assumption|intros o x o1 S; destruct o as [a0 a1 a2 a3 a4 a5 a6 a7 a8 a9 a10], o1 as [b0 b1 b2 b3 b4 b5 b6 b7 b8 b9 b10]; unfold Dimension_eqb in *; cbv beta iota delta [set di_locked di_type di_layer di_tstamp di_pts di_height di_orientation di_leaderLength di_grText di_format di_style] in *; conjs; split; [assumption|goals; try assumption; apply refl; auto with equ]|intros o x y H; destruct o as [a0 a1 a2 a3 a4 a5 a6 a7 a8 a9 a10]; unfold Dimension_eqb; cbv beta iota delta [set di_locked di_type di_layer di_tstamp di_pts di_height di_orientation di_leaderLength di_grText di_format di_style]; goals; try assumption; apply refl; auto with equ|intros o O; destruct o as [a0 a1 a2 a3 a4 a5 a6 a7 a8 a9 a10]; unfold Dimension_ok in *; cbv beta iota delta [set di_locked di_type di_layer di_tstamp di_pts di_height di_orientation di_leaderLength di_grText di_format di_style] in *; conjs; goals; first [assumption|reflexivity]|intros o o1 S; destruct o as [a0 a1 a2 a3 a4 a5 a6 a7 a8 a9 a10], o1 as [b0 b1 b2 b3 b4 b5 b6 b7 b8 b9 b10]; unfold Dimension_eqb in *; cbv beta iota delta [set di_locked di_type di_layer di_tstamp di_pts di_height di_orientation di_leaderLength di_grText di_format di_style] in *; conjs; split; [assumption|split; intros;  goals; try assumption; apply refl; auto with equ]]).
Qed.
Lemma Dimension_e : edits_survive Dimension_to Dimension_from Dimension_ok Dimension_eqb Dimension_edits.
Proof. exact (lawful_survive _ _ _ _ _ _ Dimension_rt Dimension_l). Qed.
#[local] Opaque Dimension_ok Dimension_eqb.
#[local] Transparent GeneralSettings_ok GeneralSettings_eqb.
Lemma GeneralSettings_l : Forall (lawful GeneralSettings_ok GeneralSettings_eqb) GeneralSettings_edits.
Proof.
  repeat apply Forall_cons; [..|apply Forall_nil]; (apply law; [intros o x O F; destruct o as [a0]; unfold GeneralSettings_ok in *; cbv beta iota delta [set gs_thickness] in *; conjs; goals; assumption|intros o x o1 S; destruct o as [a0], o1 as [b0]; unfold GeneralSettings_eqb in *; cbv beta iota delta [set gs_thickness] in *; conjs; split; [assumption|goals; try assumption; apply refl; auto with equ]|intros o x y H; destruct o as [a0]; unfold GeneralSettings_eqb; cbv beta iota delta [set gs_thickness]; goals; try assumption; apply refl; auto with equ|intros o O; destruct o as [a0]; unfold GeneralSettings_ok in *; cbv beta iota delta [set gs_thickness] in *; conjs; goals; first [assumption|reflexivity]|intros o o1 S; destruct o as [a0], o1 as [b0]; unfold GeneralSettings_eqb in *; cbv beta iota delta [set gs_thickness] in *; conjs; split; [assumption|split; intros;  goals; try assumption; apply refl; auto with equ]]).
Qed.
Lemma GeneralSettings_e : edits_survive GeneralSettings_to GeneralSettings_from GeneralSettings_ok GeneralSettings_eqb GeneralSettings_edits.
Proof. exact (lawful_survive _ _ _ _ _ _ GeneralSettings_rt GeneralSettings_l). Qed.
#[local] Opaque GeneralSettings_ok GeneralSettings_eqb.
#[local] Transparent LayerToken_ok LayerToken_eqb.
Lemma LayerToken_l : Forall (lawful LayerToken_ok LayerToken_eqb) LayerToken_edits.
Proof.
  repeat apply Forall_cons; [..|apply Forall_nil]; (apply law; [intros o x O F; destruct o as [a0 a1 a2 a3]; unfold LayerToken_ok in *; cbv beta iota delta [set lt_ordinal lt_name M_Brd.lt_type lt_userName] in *; conjs; goals; assumption|intros o x o1 S; destruct o as [a0 a1 a2 a3], o1 as [b0 b1 b2 b3]; unfold LayerToken_eqb in *; cbv beta iota delta [set lt_ordinal lt_name M_Brd.lt_type lt_userName] in *; conjs; split; [assumption|goals; try assumption; apply refl; auto with equ]|intros o x y H; destruct o as [a0 a1 a2 a3]; unfold LayerToken_eqb; cbv beta iota delta [set lt_ordinal lt_name M_Brd.lt_type lt_userName]; goals; try assumption; apply refl; auto with equ|intros o O; destruct o as [a0 a1 a2 a3]; unfold LayerToken_ok in *; cbv beta iota delta [set lt_ordinal lt_name M_Brd.lt_type lt_userName] in *; conjs; goals; first [assumption|reflexivity]|intros o o1 S; destruct o as [a0 a1 a2 a3], o1 as [b0 b1 b2 b3]; unfold LayerToken_eqb in *; cbv beta iota delta [set lt_ordinal lt_name M_Brd.lt_type lt_userName] in *; conjs; split; [assumption|split; intros;  goals; try assumption; apply refl; auto with equ]]).
Qed.
Lemma LayerToken_e : edits_survive LayerToken_to LayerToken_from LayerToken_ok LayerToken_eqb LayerToken_edits.
Proof. exact (lawful_survive _ _ _ _ _ _ LayerToken_rt LayerToken_l). Qed.
#[local] Opaque LayerToken_ok LayerToken_eqb.
#[local] Transparent StackupLayer_ok StackupLayer_eqb.
Lemma StackupLayer_l : Forall (lawful StackupLayer_ok StackupLayer_eqb) StackupLayer_edits.
Proof.
  repeat apply Forall_cons; [..|apply Forall_nil]; (apply law; [intros o x O F; destruct o as [a0 a1 a2 a3 a4 a5 a6 a7]; unfold StackupLayer_ok in *; cbv beta iota delta [set sl_name sl_type sl_color sl_thickness sl_material sl_epsilonR sl_lossTangent sl_subLayers] in *; conjs; goals; assumption|intros o x o1 S; destruct o as [a0 a1 a2 a3 a4 a5 a6 a7], o1 as [b0 b1 b2 b3 b4 b5 b6 b7]; unfold StackupLayer_eqb in *; cbv beta iota delta [set sl_name sl_type sl_color sl_thickness sl_material sl_epsilonR sl_lossTangent sl_subLayers] in *; conjs; split; [assumption|goals; try assumption; apply refl; auto with equ]|intros o x y H; destruct o as [a0 a1 a2 a3 a4 a5 a6 a7]; unfold StackupLayer_eqb; cbv beta iota delta [set sl_name sl_type sl_color sl_thickness sl_material sl_epsilonR sl_lossTangent sl_subLayers]; goals; try assumption; apply refl; auto with equ|intros o O; destruct o as [a0 a1 a2 a3 a4 a5 a6 a7]; unfold StackupLayer_ok in *; cbv beta iota delta [set sl_name sl_type sl_color sl_thickness sl_material sl_epsilonR sl_lossTangent sl_subLayers] in *; conjs; goals; first [assumption|reflexivity]|intros o o1 S; destruct o as [a0 a1 a2 a3 a4 a5 a6 a7], o1 as [b0 b1 b2 b3 b4 b5 b6 b7]; unfold StackupLayer_eqb in *; cbv beta iota delta [set sl_name sl_type sl_color sl_thickness sl_material sl_epsilonR sl_lossTangent sl_subLayers] in *; conjs; split; [assumption|split; intros;  goals; try assumption; apply refl; auto with equ]]).
Qed.
Lemma StackupLayer_e : edits_survive StackupLayer_to StackupLayer_from StackupLayer_ok StackupLayer_eqb StackupLayer_edits.
Proof. exact (lawful_survive _ _ _ _ _ _ StackupLayer_rt StackupLayer_l). Qed.
#[local] Opaque StackupLayer_ok StackupLayer_eqb.
#[local] Transparent Stackup_ok Stackup_eqb.
Lemma Stackup_l : Forall (lawful Stackup_ok Stackup_eqb) Stackup_edits.
Proof.
  repeat apply Forall_cons; [..|apply Forall_nil]; (apply law; [intros o x O F; destruct o as [a0 a1 a2 a3 a4 a5]; unfold Stackup_ok in *; cbv beta iota delta [set sk_layers sk_copperFinish sk_dielectricContraints sk_edgeConnector sk_castellatedPads sk_edgePlating] in *; conjs; goals; assumption|intros o x o1 S; destruct o as [a0 a1 a2 a3 a4 a5], o1 as [b0 b1 b2 b3 b4 b5]; unfold Stackup_eqb in *; cbv beta iota delta [set sk_layers sk_copperFinish sk_dielectricContraints sk_edgeConnector sk_castellatedPads sk_edgePlating] in *; conjs; split; [assumption|goals; try assumption; apply refl; auto with equ]|intros o x y H; destruct o as [a0 a1 a2 a3 a4 a5]; unfold Stackup_eqb; cbv beta iota delta [set sk_layers sk_copperFinish sk_dielectricContraints sk_edgeConnector sk_castellatedPads sk_edgePlating]; goals; try assumption; apply refl; auto with equ|intros o O; destruct o as [a0 a1 a2 a3 a4 a5]; unfold Stackup_ok in *; cbv beta iota delta [set sk_layers sk_copperFinish sk_dielectricContraints sk_edgeConnector sk_castellatedPads sk_edgePlating] in *; conjs; goals; first [assumption|reflexivity]|intros o o1 S; destruct o as [a0 a1 a2 a3 a4 a5], o1 as [b0 b1 b2 b3 b4 b5]; unfold Stackup_eqb in *; cbv beta iota delta [set sk_layers sk_copperFinish sk_dielectricContraints sk_edgeConnector sk_castellatedPads sk_edgePlating] in *; conjs; split; [assumption|split; intros;  goals; try assumption; apply refl; auto with equ]]).
Qed.
Lemma Stackup_e : edits_survive Stackup_to Stackup_from Stackup_ok Stackup_eqb Stackup_edits.
Proof. exact (lawful_survive _ _ _ _ _ _ Stackup_rt Stackup_l). Qed.
#[local] Opaque Stackup_ok Stackup_eqb.
#[local] Transparent PlotSettings_ok PlotSettings_eqb.
Lemma PlotSettings_l : Forall (lawful PlotSettings_ok PlotSettings_eqb) PlotSettings_edits.
Proof.
  repeat apply Forall_cons; [..|apply Forall_nil]; (apply law; [intros o x O F; destruct o as [a0 a1 a2 a3 a4 a5 a6 a7 a8 a9 a10 a11 a12 a13 a14 a15 a16 a17 a18 a19 a20 a21 a22 a23 a24 a25 a26 a27 a28 a29 a30 a31 a32 a33]; unfold PlotSettings_ok in *; cbv beta iota delta [set ps_layerSelection ps_plotOnAllLayersSelection ps_disableApertMacros ps_useGerberExtensions ps_useGerberAttributes ps_useGerberAdvancedAttributes ps_createGerberJobFile ps_dashedLineDashRatio ps_dashedLineGapRatio ps_svgUseInch ps_svgPrecision ps_excludeEdgeLayer ps_plotFameRef ps_viasOnMask ps_mode ps_useAuxOrigin ps_hpglPenNumber ps_hpglPenSpeed ps_hpglPenDiameter ps_dxfPolygonMode ps_dxfImperialUnits ps_dxfUsePcbnewFont ps_psNegative ps_psA4Output ps_plotReference ps_plotValue ps_plotInvisibleText ps_sketchPadsOnFab ps_subtractMaskFromSilk ps_outputFormat ps_mirror ps_drillShape ps_scaleSelection ps_outputDirectory] in *; conjs; goals; assumption|intros o x o1 S; destruct o as [a0 a1 a2 a3 a4 a5 a6 a7 a8 a9 a10 a11 a12 a13 a14 a15 a16 a17 a18 a19 a20 a21 a22 a23 a24 a25 a26 a27 a28 a29 a30 a31 a32 a33], o1 as [b0 b1 b2 b3 b4 b5 b6 b7 b8 b9 b10 b11 b12 b13 b14 b15 b16 b17 b18 b19 b20 b21 b22 b23 b24 b25 b26 b27 b28 b29 b30 b31 b32 b33]; unfold PlotSettings_eqb in *; cbv beta iota delta [set ps_layerSelection ps_plotOnAllLayersSelection ps_disableApertMacros ps_useGerberExtensions ps_useGerberAttributes ps_useGerberAdvancedAttributes ps_createGerberJobFile ps_dashedLineDashRatio ps_dashedLineGapRatio ps_svgUseInch ps_svgPrecision ps_excludeEdgeLayer ps_plotFameRef ps_viasOnMask ps_mode ps_useAuxOrigin ps_hpglPenNumber ps_hpglPenSpeed ps_hpglPenDiameter ps_dxfPolygonMode ps_dxfImperialUnits ps_dxfUsePcbnewFont ps_psNegative ps_psA4Output ps_plotReference ps_plotValue ps_plotInvisibleText ps_sketchPadsOnFab ps_subtractMaskFromSilk ps_outputFormat ps_mirror ps_drillShape ps_scaleSelection ps_outputDirectory] in *; conjs; split; [assumption|goals; try assumption; apply refl; auto with equ]|intros o x y H; destruct o as [a0 a1 a2 a3 a4 a5 a6 a7 a8 a9 a10 a11 a12 a13 a14 a15 a16 a17 a18 a19 a20 a21 a22 a23 a24 a25 a26 a27 a28 a29 a30 a31 a32 a33]; unfold PlotSettings_eqb; cbv beta iota delta [set ps_layerSelection ps_plotOnAllLayersSelection ps_disableApertMacros ps_useGerberExtensions ps_useGerberAttributes ps_useGerberAdvancedAttributes ps_createGerberJobFile ps_dashedLineDashRatio ps_dashedLineGapRatio ps_svgUseInch ps_svgPrecision ps_excludeEdgeLayer ps_plotFameRef ps_viasOnMask ps_mode ps_useAuxOrigin ps_hpglPenNumber ps_hpglPenSpeed ps_hpglPenDiameter ps_dxfPolygonMode ps_dxfImperialUnits ps_dxfUsePcbnewFont ps_psNegative ps_psA4Output ps_plotReference ps_plotValue ps_plotInvisibleText ps_sketchPadsOnFab ps_subtractMaskFromSilk ps_outputFormat ps_mirror ps_drillShape ps_scaleSelection ps_outputDirectory]; goals; try assumption; apply refl; auto with equ|intros o O; destruct o as [a0 a1 a2 a3 a4 a5 a6 a7 a8 a9 a10 a11 a12 a13 a14 a15 a16 a17 a18 a19 a20 a21 a22 a23 a24 a25 a26 a27 a28 a29 a30 a31 a32 a33]; unfold PlotSettings_ok in *; cbv beta iota delta [set ps_layerSelection ps_plotOnAllLayersSelection ps_disableApertMacros ps_useGerberExtensions ps_useGerberAttributes ps_useGerberAdvancedAttributes ps_createGerberJobFile ps_dashedLineDashRatio ps_dashedLineGapRatio ps_svgUseInch ps_svgPrecision ps_excludeEdgeLayer ps_plotFameRef ps_viasOnMask ps_mode ps_useAuxOrigin ps_hpglPenNumber ps_hpglPenSpeed ps_hpglPenDiameter ps_dxfPolygonMode ps_dxfImperialUnits ps_dxfUsePcbnewFont ps_psNegative ps_psA4Output ps_plotReference ps_plotValue ps_plotInvisibleText ps_sketchPadsOnFab ps_subtractMaskFromSilk ps_outputFormat ps_mirror ps_drillShape ps_scaleSelection ps_outputDirectory] in *; conjs; goals; first [assumption|reflexivity]|intros o o1 S; destruct o as [a0 a1 a2 a3 a4 a5 a6 a7 a8 a9 a10 a11 a12 a13 a14 a15 a16 a17 a18 a19 a20 a21 a22 a23 a24 a25 a26 a27 a28 a29 a30 a31 a32 a33], o1 as [b0 b1 b2 b3 b4 b5 b6 b7 b8 b9 b10 b11 b12 b13 b14 b15 b16 b17 b18 b19 b20 b21 b22 b23 b24 b25 b26 b27 b28 b29 b30 b31 b32 b33]; unfold PlotSettings_eqb in *; cbv beta iota delta [set ps_layerSelection ps_plotOnAllLayersSelection ps_disableApertMacros ps_useGerberExtensions ps_useGerberAttributes ps_useGerberAdvancedAttributes ps_createGerberJobFile ps_dashedLineDashRatio ps_dashedLineGapRatio ps_svgUseInch ps_svgPrecision ps_excludeEdgeLayer ps_plotFameRef ps_viasOnMask ps_mode ps_useAuxOrigin ps_hpglPenNumber ps_hpglPenSpeed ps_hpglPenDiameter ps_dxfPolygonMode ps_dxfImperialUnits ps_dxfUsePcbnewFont ps_psNegative ps_psA4Output ps_plotReference ps_plotValue ps_plotInvisibleText ps_sketchPadsOnFab ps_subtractMaskFromSilk ps_outputFormat ps_mirror ps_drillShape ps_scaleSelection ps_outputDirectory] in *; conjs; split; [assumption|split; intros;  goals; try assumption; apply refl; auto with equ]]).
Qed.
Lemma PlotSettings_e : edits_survive PlotSettings_to PlotSettings_from PlotSettings_ok PlotSettings_eqb PlotSettings_edits.
Proof. exact (lawful_survive _ _ _ _ _ _ PlotSettings_rt PlotSettings_l). Qed.
#[local] Opaque PlotSettings_ok PlotSettings_eqb.
#[local] Transparent SetupData_ok SetupData_eqb.
Lemma SetupData_l : Forall (lawful SetupData_ok SetupData_eqb) SetupData_edits.
Proof.
  repeat apply Forall_cons; [..|apply Forall_nil]; (apply law; [intros o x O F; destruct o as [a0 a1 a2 a3 a4 a5 a6 a7]; unfold SetupData_ok in *; cbv beta iota delta [set sd_stackup sd_packToMaskClearance sd_solderMaskMinWidth sd_padToPasteClearance sd_padToPasteClearanceRatio sd_auxAxisOrigin sd_gridOrigin sd_plotSettings] in *; conjs; goals; assumption|intros o x o1 S; destruct o as [a0 a1 a2 a3 a4 a5 a6 a7], o1 as [b0 b1 b2 b3 b4 b5 b6 b7]; unfold SetupData_eqb in *; cbv beta iota delta [set sd_stackup sd_packToMaskClearance sd_solderMaskMinWidth sd_padToPasteClearance sd_padToPasteClearanceRatio sd_auxAxisOrigin sd_gridOrigin sd_plotSettings] in *; conjs; split; [assumption|goals; try assumption; apply refl; auto with equ]|intros o x y H; destruct o as [a0 a1 a2 a3 a4 a5 a6 a7]; unfold SetupData_eqb; cbv beta iota delta [set sd_stackup sd_packToMaskClearance sd_solderMaskMinWidth sd_padToPasteClearance sd_padToPasteClearanceRatio sd_auxAxisOrigin sd_gridOrigin sd_plotSettings]; goals; try assumption; apply refl; auto with equ|intros o O; destruct o as [a0 a1 a2 a3 a4 a5 a6 a7]; unfold SetupData_ok in *; cbv beta iota delta [set sd_stackup sd_packToMaskClearance sd_solderMaskMinWidth sd_padToPasteClearance sd_padToPasteClearanceRatio sd_auxAxisOrigin sd_gridOrigin sd_plotSettings] in *; conjs; goals; first [assumption|reflexivity]|intros o o1 S; destruct o as [a0 a1 a2 a3 a4 a5 a6 a7], o1 as [b0 b1 b2 b3 b4 b5 b6 b7]; unfold SetupData_eqb in *; cbv beta iota delta [set sd_stackup sd_packToMaskClearance sd_solderMaskMinWidth sd_padToPasteClearance sd_padToPasteClearanceRatio sd_auxAxisOrigin sd_gridOrigin sd_plotSettings] in *; conjs; split; [assumption|split; intros;  goals; try assumption; apply refl; auto with equ]]).
Qed.
Lemma SetupData_e : edits_survive SetupData_to SetupData_from SetupData_ok SetupData_eqb SetupData_edits.
Proof. exact (lawful_survive _ _ _ _ _ _ SetupData_rt SetupData_l). Qed.
#[local] Opaque SetupData_ok SetupData_eqb.
#[local] Transparent Segment_ok Segment_eqb.
Lemma Segment_l : Forall (lawful Segment_ok Segment_eqb) Segment_edits.
Proof.
  repeat apply Forall_cons; [..|apply Forall_nil]; (apply law; [intros o x O F; destruct o as [a0 a1 a2 a3 a4 a5 a6]; unfold Segment_ok in *; cbv beta iota delta [set sg_start sg_end sg_width sg_layer sg_locked sg_net sg_tstamp] in *; conjs; goals; assumption|intros o x o1 S; destruct o as [a0 a1 a2 a3 a4 a5 a6], o1 as [b0 b1 b2 b3 b4 b5 b6]; unfold Segment_eqb in *; cbv beta iota delta [set sg_start sg_end sg_width sg_layer sg_locked sg_net sg_tstamp] in *; conjs; split; [assumption|goals; try assumption; apply refl; auto with equ]|intros o x y H; destruct o as [a0 a1 a2 a3 a4 a5 a6]; unfold Segment_eqb; cbv beta iota delta [set sg_start sg_end sg_width sg_layer sg_locked sg_net sg_tstamp]; goals; try assumption; apply refl; auto with equ|intros o O; destruct o as [a0 a1 a2 a3 a4 a5 a6]; unfold Segment_ok in *; cbv beta iota delta [set sg_start sg_end sg_width sg_layer sg_locked sg_net sg_tstamp] in *; conjs; goals; first [assumption|reflexivity]|intros o o1 S; destruct o as [a0 a1 a2 a3 a4 a5 a6], o1 as [b0 b1 b2 b3 b4 b5 b6]; unfold Segment_eqb in *; cbv beta iota delta [set sg_start sg_end sg_width sg_layer sg_locked sg_net sg_tstamp] in *; conjs; split; [assumption|split; intros;  goals; try assumption; apply refl; auto with equ]]).
Qed.
Lemma Segment_e : edits_survive Segment_to Segment_from Segment_ok Segment_eqb Segment_edits.
Proof. exact (lawful_survive _ _ _ _ _ _ Segment_rt Segment_l). Qed.
#[local] Opaque Segment_ok Segment_eqb.
#[local] Transparent Via_ok Via_eqb.
Lemma Via_l : Forall (lawful Via_ok Via_eqb) Via_edits.
Proof.
  repeat apply Forall_cons; [..|apply Forall_nil]; (apply law; [intros o x O F; destruct o as [a0 a1 a2 a3 a4 a5 a6 a7 a8 a9 a10]; unfold Via_ok in *; cbv beta iota delta [set vi_type vi_locked vi_position vi_size vi_drill vi_layers vi_removeUnusedLayers vi_keepEndLayers vi_free vi_net vi_tstamp] in *; conjs; goals; assumption|intros o x o1 S; destruct o as [a0 a1 a2 a3 a4 a5 a6 a7 a8 a9 a10], o1 as [b0 b1 b2 b3 b4 b5 b6 b7 b8 b9 b10]; unfold Via_eqb in *; cbv beta iota delta [set vi_type vi_locked vi_position vi_size vi_drill vi_layers vi_removeUnusedLayers vi_keepEndLayers vi_free vi_net vi_tstamp] in *; conjs; split; [assumption|goals; try assumption; apply refl; auto with equ]|intros o x y H; destruct o as [a0 a1 a2 a3 a4 a5 a6 a7 a8 a9 a10]; unfold Via_eqb; cbv beta iota delta [set vi_type vi_locked vi_position vi_size vi_drill vi_layers vi_removeUnusedLayers vi_keepEndLayers vi_free vi_net vi_tstamp]; goals; try assumption; apply refl; auto with equ|intros o O; destruct o as [a0 a1 a2 a3 a4 a5 a6 a7 a8 a9 a10]; unfold Via_ok in *; cbv beta iota delta [set vi_type vi_locked vi_position vi_size vi_drill vi_layers vi_removeUnusedLayers vi_keepEndLayers vi_free vi_net vi_tstamp] in *; conjs; goals; first [assumption|reflexivity]|intros o o1 S; destruct o as [a0 a1 a2 a3 a4 a5 a6 a7 a8 a9 a10], o1 as [b0 b1 b2 b3 b4 b5 b6 b7 b8 b9 b10]; unfold Via_eqb in *; cbv beta iota delta [set vi_type vi_locked vi_position vi_size vi_drill vi_layers vi_removeUnusedLayers vi_keepEndLayers vi_free vi_net vi_tstamp] in *; conjs; split; [assumption|split; intros;  goals; try assumption; apply refl; auto with equ]]).
Qed.
Lemma Via_e : edits_survive Via_to Via_from Via_ok Via_eqb Via_edits.
Proof. exact (lawful_survive _ _ _ _ _ _ Via_rt Via_l). Qed.
#[local] Opaque Via_ok Via_eqb.
#[local] Transparent Arc_ok Arc_eqb.
Lemma Arc_l : Forall (lawful Arc_ok Arc_eqb) Arc_edits.
Proof.
  repeat apply Forall_cons; [..|apply Forall_nil]; (apply law; [intros o x O F; destruct o as [a0 a1 a2 a3 a4 a5 a6 a7]; unfold Arc_ok in *; cbv beta iota delta [set ac_start ac_mid ac_end ac_width ac_layer ac_locked ac_net ac_tstamp] in *; conjs; goals; assumption|intros o x o1 S; destruct o as [a0 a1 a2 a3 a4 a5 a6 a7], o1 as [b0 b1 b2 b3 b4 b5 b6 b7]; unfold Arc_eqb in *; cbv beta iota delta [set ac_start ac_mid ac_end ac_width ac_layer ac_locked ac_net ac_tstamp] in *; conjs; split; [assumption|goals; try assumption; apply refl; auto with equ]|intros o x y H; destruct o as [a0 a1 a2 a3 a4 a5 a6 a7]; unfold Arc_eqb; cbv beta iota delta [set ac_start ac_mid ac_end ac_width ac_layer ac_locked ac_net ac_tstamp]; goals; try assumption; apply refl; auto with equ|intros o O; destruct o as [a0 a1 a2 a3 a4 a5 a6 a7]; unfold Arc_ok in *; cbv beta iota delta [set ac_start ac_mid ac_end ac_width ac_layer ac_locked ac_net ac_tstamp] in *; conjs; goals; first [assumption|reflexivity]|intros o o1 S; destruct o as [a0 a1 a2 a3 a4 a5 a6 a7], o1 as [b0 b1 b2 b3 b4 b5 b6 b7]; unfold Arc_eqb in *; cbv beta iota delta [set ac_start ac_mid ac_end ac_width ac_layer ac_locked ac_net ac_tstamp] in *; conjs; split; [assumption|split; intros;  goals; try assumption; apply refl; auto with equ]]).
Qed.
Lemma Arc_e : edits_survive Arc_to Arc_from Arc_ok Arc_eqb Arc_edits.
Proof. exact (lawful_survive _ _ _ _ _ _ Arc_rt Arc_l). Qed.
#[local] Opaque Arc_ok Arc_eqb.
#[local] Transparent Target_ok Target_eqb.
Lemma Target_l : Forall (lawful Target_ok Target_eqb) Target_edits.
Proof.
  repeat apply Forall_cons; [..|apply Forall_nil]; (apply law; [intros o x O F; destruct o as [a0 a1 a2 a3 a4 a5]; unfold Target_ok in *; cbv beta iota delta [set tg_type tg_position tg_size tg_width tg_layer tg_tstamp] in *; conjs; goals; assumption|intros o x o1 S; destruct o as [a0 a1 a2 a3 a4 a5], o1 as [b0 b1 b2 b3 b4 b5]; unfold Target_eqb in *; cbv beta iota delta [set tg_type tg_position tg_size tg_width tg_layer tg_tstamp] in *; conjs; split; [assumption|goals; try assumption; apply refl; auto with equ]|intros o x y H; destruct o as [a0 a1 a2 a3 a4 a5]; unfold Target_eqb; cbv beta iota delta [set tg_type tg_position tg_size tg_width tg_layer tg_tstamp]; goals; try assumption; apply refl; auto with equ|intros o O; destruct o as [a0 a1 a2 a3 a4 a5]; unfold Target_ok in *; cbv beta iota delta [set tg_type tg_position tg_size tg_width tg_layer tg_tstamp] in *; conjs; goals; first [assumption|reflexivity]|intros o o1 S; destruct o as [a0 a1 a2 a3 a4 a5], o1 as [b0 b1 b2 b3 b4 b5]; unfold Target_eqb in *; cbv beta iota delta [set tg_type tg_position tg_size tg_width tg_layer tg_tstamp] in *; conjs; split; [assumption|split; intros;  goals; try assumption; apply refl; auto with equ]]).
Qed.
Lemma Target_e : edits_survive Target_to Target_from Target_ok Target_eqb Target_edits.
Proof. exact (lawful_survive _ _ _ _ _ _ Target_rt Target_l). Qed.
#[local] Opaque Target_ok Target_eqb.
#[local] Transparent Board_ok Board_eqb.
Lemma Board_l : Forall (lawful Board_ok Board_eqb) Board_edits.
Proof.
  repeat apply Forall_cons; [..|apply Forall_nil]; (apply law; [intros o x O F; destruct o as [a0 a1 a2 a3 a4 a5 a6 a7 a8 a9 a10 a11 a12 a13 a14 a15 a16]; unfold Board_ok in *; cbv beta iota delta [set bd_version bd_generator bd_general bd_paper bd_titleBlock bd_layers bd_setup bd_properties bd_nets bd_footprints bd_graphicItems bd_traceItems bd_zones bd_dimensions bd_targets bd_groups bd_filePath] in *; conjs; goals; assumption|intros o x o1 S; destruct o as [a0 a1 a2 a3 a4 a5 a6 a7 a8 a9 a10 a11 a12 a13 a14 a15 a16], o1 as [b0 b1 b2 b3 b4 b5 b6 b7 b8 b9 b10 b11 b12 b13 b14 b15 b16]; unfold Board_eqb in *; cbv beta iota delta [set bd_version bd_generator bd_general bd_paper bd_titleBlock bd_layers bd_setup bd_properties bd_nets bd_footprints bd_graphicItems bd_traceItems bd_zones bd_dimensions bd_targets bd_groups bd_filePath] in *; conjs; split; [assumption|goals; try assumption; apply refl; auto with equ]|intros o x y H; destruct o as [a0 a1 a2 a3 a4 a5 a6 a7 a8 a9 a10 a11 a12 a13 a14 a15 a16]; unfold Board_eqb; cbv beta iota delta [set bd_version bd_generator bd_general bd_paper bd_titleBlock bd_layers bd_setup bd_properties bd_nets bd_footprints bd_graphicItems bd_traceItems bd_zones bd_dimensions bd_targets bd_groups bd_filePath]; goals; try assumption; apply refl; auto with equ|intros o O; destruct o as [a0 a1 a2 a3 a4 a5 a6 a7 a8 a9 a10 a11 a12 a13 a14 a15 a16]; unfold Board_ok in *; cbv beta iota delta [set bd_version bd_generator bd_general bd_paper bd_titleBlock bd_layers bd_setup bd_properties bd_nets bd_footprints bd_graphicItems bd_traceItems bd_zones bd_dimensions bd_targets bd_groups bd_filePath] in *; conjs; goals; first [assumption|reflexivity]|intros o o1 S; destruct o as [a0 a1 a2 a3 a4 a5 a6 a7 a8 a9 a10 a11 a12 a13 a14 a15 a16], o1 as [b0 b1 b2 b3 b4 b5 b6 b7 b8 b9 b10 b11 b12 b13 b14 b15 b16]; unfold Board_eqb in *; cbv beta iota delta [set bd_version bd_generator bd_general bd_paper bd_titleBlock bd_layers bd_setup bd_properties bd_nets bd_footprints bd_graphicItems bd_traceItems bd_zones bd_dimensions bd_targets bd_groups bd_filePath] in *; conjs; split; [assumption|split; intros;  goals; try assumption; apply refl; auto with equ]]).
Qed.
Lemma Board_e now : edits_survive Board_to (Board_from now) Board_ok Board_eqb Board_edits.
Proof. exact (lawful_survive _ _ _ _ _ _ (Board_rt now) Board_l). Qed.
#[local] Opaque Board_ok Board_eqb.
#[local] Transparent Junction_ok Junction_eqb.
Lemma Junction_l : Forall (lawful Junction_ok Junction_eqb) Junction_edits.
Proof.
  repeat apply Forall_cons; [..|apply Forall_nil]; (apply law; [intros o x O F; destruct o as [a0 a1 a2 a3]; unfold Junction_ok in *; cbv beta iota delta [set jn_position jn_diameter jn_color jn_uuid] in *; conjs; goals; assumption|intros o x o1 S; destruct o as [a0 a1 a2 a3], o1 as [b0 b1 b2 b3]; unfold Junction_eqb in *; cbv beta iota delta [set jn_position jn_diameter jn_color jn_uuid] in *; conjs; split; [assumption|goals; try assumption; apply refl; auto with equ]|intros o x y H; destruct o as [a0 a1 a2 a3]; unfold Junction_eqb; cbv beta iota delta [set jn_position jn_diameter jn_color jn_uuid]; goals; try assumption; apply refl; auto with equ|intros o O; destruct o as [a0 a1 a2 a3]; unfold Junction_ok in *; cbv beta iota delta [set jn_position jn_diameter jn_color jn_uuid] in *; conjs; goals; first [assumption|reflexivity]|intros o o1 S; destruct o as [a0 a1 a2 a3], o1 as [b0 b1 b2 b3]; unfold Junction_eqb in *; cbv beta iota delta [set jn_position jn_diameter jn_color jn_uuid] in *; conjs; split; [assumption|split; intros;  goals; try assumption; apply refl; auto with equ]]).
Qed.
Lemma Junction_e : edits_survive Junction_to Junction_from Junction_ok Junction_eqb Junction_edits.
Proof. exact (lawful_survive _ _ _ _ _ _ Junction_rt Junction_l). Qed.
#[local] Opaque Junction_ok Junction_eqb.
#[local] Transparent NoConnect_ok NoConnect_eqb.
Lemma NoConnect_l : Forall (lawful NoConnect_ok NoConnect_eqb) NoConnect_edits.
Proof.
  repeat apply Forall_cons; [..|apply Forall_nil]; (apply law; [intros o x O F; destruct o as [a0 a1]; unfold NoConnect_ok in *; cbv beta iota delta [set nc_position nc_uuid] in *; conjs; goals; assumption|intros o x o1 S; destruct o as [a0 a1], o1 as [b0 b1]; unfold NoConnect_eqb in *; cbv beta iota delta [set nc_position nc_uuid] in *; conjs; split; [assumption|goals; try assumption; apply refl; auto with equ]|intros o x y H; destruct o as [a0 a1]; unfold NoConnect_eqb; cbv beta iota delta [set nc_position nc_uuid]; goals; try assumption; apply refl; auto with equ|intros o O; destruct o as [a0 a1]; unfold NoConnect_ok in *; cbv beta iota delta [set nc_position nc_uuid] in *; conjs; goals; first [assumption|reflexivity]|intros o o1 S; destruct o as [a0 a1], o1 as [b0 b1]; unfold NoConnect_eqb in *; cbv beta iota delta [set nc_position nc_uuid] in *; conjs; split; [assumption|split; intros;  goals; try assumption; apply refl; auto with equ]]).
Qed.
Lemma NoConnect_e : edits_survive NoConnect_to NoConnect_from NoConnect_ok NoConnect_eqb NoConnect_edits.
Proof. exact (lawful_survive _ _ _ _ _ _ NoConnect_rt NoConnect_l). Qed.
#[local] Opaque NoConnect_ok NoConnect_eqb.
#[local] Transparent BusEntry_ok BusEntry_eqb.
Lemma BusEntry_l : Forall (lawful BusEntry_ok BusEntry_eqb) BusEntry_edits.
Proof.
  repeat apply Forall_cons; [..|apply Forall_nil]; (apply law; [intros o x O F; destruct o as [a0 a1 a2 a3]; unfold BusEntry_ok in *; cbv beta iota delta [set be_position be_uuid be_size be_stroke] in *; conjs; goals; assumption|intros o x o1 S; destruct o as [a0 a1 a2 a3], o1 as [b0 b1 b2 b3]; unfold BusEntry_eqb in *; cbv beta iota delta [set be_position be_uuid be_size be_stroke] in *; conjs; split; [assumption|goals; try assumption; apply refl; auto with equ]|intros o x y H; destruct o as [a0 a1 a2 a3]; unfold BusEntry_eqb; cbv beta iota delta [set be_position be_uuid be_size be_stroke]; goals; try assumption; apply refl; auto with equ|intros o O; destruct o as [a0 a1 a2 a3]; unfold BusEntry_ok in *; cbv beta iota delta [set be_position be_uuid be_size be_stroke] in *; conjs; goals; first [assumption|reflexivity]|intros o o1 S; destruct o as [a0 a1 a2 a3], o1 as [b0 b1 b2 b3]; unfold BusEntry_eqb in *; cbv beta iota delta [set be_position be_uuid be_size be_stroke] in *; conjs; split; [assumption|split; intros;  goals; try assumption; apply refl; auto with equ]]).
Qed.
Lemma BusEntry_e : edits_survive BusEntry_to BusEntry_from BusEntry_ok BusEntry_eqb BusEntry_edits.
Proof. exact (lawful_survive _ _ _ _ _ _ BusEntry_rt BusEntry_l). Qed.
#[local] Opaque BusEntry_ok BusEntry_eqb.
#[local] Transparent BusAlias_ok BusAlias_eqb.
Lemma BusAlias_l : Forall (lawful BusAlias_ok BusAlias_eqb) BusAlias_edits.
Proof.
  repeat apply Forall_cons; [..|apply Forall_nil]; (apply law; [intros o x O F; destruct o as [a0 a1]; unfold BusAlias_ok in *; cbv beta iota delta [set ba_name ba_members] in *; conjs; goals; assumption|intros o x o1 S; destruct o as [a0 a1], o1 as [b0 b1]; unfold BusAlias_eqb in *; cbv beta iota delta [set ba_name ba_members] in *; conjs; split; [assumption|goals; try assumption; apply refl; auto with equ]|intros o x y H; destruct o as [a0 a1]; unfold BusAlias_eqb; cbv beta iota delta [set ba_name ba_members]; goals; try assumption; apply refl; auto with equ|intros o O; destruct o as [a0 a1]; unfold BusAlias_ok in *; cbv beta iota delta [set ba_name ba_members] in *; conjs; goals; first [assumption|reflexivity]|intros o o1 S; destruct o as [a0 a1], o1 as [b0 b1]; unfold BusAlias_eqb in *; cbv beta iota delta [set ba_name ba_members] in *; conjs; split; [assumption|split; intros;  goals; try assumption; apply refl; auto with equ]]).
Qed.
Lemma BusAlias_e : edits_survive BusAlias_to BusAlias_from BusAlias_ok BusAlias_eqb BusAlias_edits.
Proof. exact (lawful_survive _ _ _ _ _ _ BusAlias_rt BusAlias_l). Qed.
#[local] Opaque BusAlias_ok BusAlias_eqb.
#[local] Transparent Connection_ok Connection_eqb.
Lemma Connection_l : Forall (lawful Connection_ok Connection_eqb) Connection_edits.
Proof.
  repeat apply Forall_cons; [..|apply Forall_nil]; (apply law; [intros o x O F; destruct o as [a0 a1 a2 a3]; unfold Connection_ok in *; cbv beta iota delta [set cx_type cx_points cx_stroke cx_uuid] in *; conjs; goals; assumption|intros o x o1 S; destruct o as [a0 a1 a2 a3], o1 as [b0 b1 b2 b3]; unfold Connection_eqb in *; cbv beta iota delta [set cx_type cx_points cx_stroke cx_uuid] in *; conjs; split; [assumption|goals; try assumption; apply refl; auto with equ]|intros o x y H; destruct o as [a0 a1 a2 a3]; unfold Connection_eqb; cbv beta iota delta [set cx_type cx_points cx_stroke cx_uuid]; goals; try assumption; apply refl; auto with equ|intros o O; destruct o as [a0 a1 a2 a3]; unfold Connection_ok in *; cbv beta iota delta [set cx_type cx_points cx_stroke cx_uuid] in *; conjs; goals; first [assumption|reflexivity]|intros o o1 S; destruct o as [a0 a1 a2 a3], o1 as [b0 b1 b2 b3]; unfold Connection_eqb in *; cbv beta iota delta [set cx_type cx_points cx_stroke cx_uuid] in *; conjs; split; [assumption|split; intros;  goals; try assumption; apply refl; auto with equ]]).
Qed.
Lemma Connection_e : edits_survive Connection_to Connection_from Connection_ok Connection_eqb Connection_edits.
Proof. exact (lawful_survive _ _ _ _ _ _ Connection_rt Connection_l). Qed.
#[local] Opaque Connection_ok Connection_eqb.
#[local] Transparent PolyLine_ok PolyLine_eqb.
Lemma PolyLine_l : Forall (lawful PolyLine_ok PolyLine_eqb) PolyLine_edits.
Proof.
  repeat apply Forall_cons; [..|apply Forall_nil]; (apply law; [intros o x O F; destruct o as [a0 a1 a2]; unfold PolyLine_ok in *; cbv beta iota delta [set pl_points pl_stroke pl_uuid] in *; conjs; goals; assumption|intros o x o1 S; destruct o as [a0 a1 a2], o1 as [b0 b1 b2]; unfold PolyLine_eqb in *; cbv beta iota delta [set pl_points pl_stroke pl_uuid] in *; conjs; split; [assumption|goals; try assumption; apply refl; auto with equ]|intros o x y H; destruct o as [a0 a1 a2]; unfold PolyLine_eqb; cbv beta iota delta [set pl_points pl_stroke pl_uuid]; goals; try assumption; apply refl; auto with equ|intros o O; destruct o as [a0 a1 a2]; unfold PolyLine_ok in *; cbv beta iota delta [set pl_points pl_stroke pl_uuid] in *; conjs; goals; first [assumption|reflexivity]|intros o o1 S; destruct o as [a0 a1 a2], o1 as [b0 b1 b2]; unfold PolyLine_eqb in *; cbv beta iota delta [set pl_points pl_stroke pl_uuid] in *; conjs; split; [assumption|split; intros;  goals; try assumption; apply refl; auto with equ]]).
Qed.
Lemma PolyLine_e : edits_survive PolyLine_to PolyLine_from PolyLine_ok PolyLine_eqb PolyLine_edits.
Proof. exact (lawful_survive _ _ _ _ _ _ PolyLine_rt PolyLine_l). Qed.
#[local] Opaque PolyLine_ok PolyLine_eqb.
#[local] Transparent Text_ok Text_eqb.
Lemma Text_l : Forall (lawful Text_ok Text_eqb) Text_edits.
Proof.
  repeat apply Forall_cons; [..|apply Forall_nil]; (apply law; [intros o x O F; destruct o as [a0 a1 a2 a3]; unfold Text_ok in *; cbv beta iota delta [set tx_text tx_position tx_effects tx_uuid] in *; conjs; goals; assumption|intros o x o1 S; destruct o as [a0 a1 a2 a3], o1 as [b0 b1 b2 b3]; unfold Text_eqb in *; cbv beta iota delta [set tx_text tx_position tx_effects tx_uuid] in *; conjs; split; [assumption|goals; try assumption; apply refl; auto with equ]|intros o x y H; destruct o as [a0 a1 a2 a3]; unfold Text_eqb; cbv beta iota delta [set tx_text tx_position tx_effects tx_uuid]; goals; try assumption; apply refl; auto with equ|intros o O; destruct o as [a0 a1 a2 a3]; unfold Text_ok in *; cbv beta iota delta [set tx_text tx_position tx_effects tx_uuid] in *; conjs; goals; first [assumption|reflexivity]|intros o o1 S; destruct o as [a0 a1 a2 a3], o1 as [b0 b1 b2 b3]; unfold Text_eqb in *; cbv beta iota delta [set tx_text tx_position tx_effects tx_uuid] in *; conjs; split; [assumption|split; intros;  goals; try assumption; apply refl; auto with equ]]).
Qed.
Lemma Text_e : edits_survive Text_to Text_from Text_ok Text_eqb Text_edits.
Proof. exact (lawful_survive _ _ _ _ _ _ Text_rt Text_l). Qed.
#[local] Opaque Text_ok Text_eqb.
#[local] Transparent TextBox_ok TextBox_eqb.
Lemma TextBox_l : Forall (lawful TextBox_ok TextBox_eqb) TextBox_edits.
Proof.
  repeat apply Forall_cons; [..|apply Forall_nil]; (apply law; [intros o x O F; destruct o as [a0 a1 a2 a3 a4 a5 a6]; unfold TextBox_ok in *; cbv beta iota delta [set bx_text bx_position bx_size bx_stroke bx_fill bx_effects bx_uuid] in *; conjs; goals; assumption|intros o x o1 S; destruct o as [a0 a1 a2 a3 a4 a5 a6], o1 as [b0 b1 b2 b3 b4 b5 b6]; unfold TextBox_eqb in *; cbv beta iota delta [set bx_text bx_position bx_size bx_stroke bx_fill bx_effects bx_uuid] in *; conjs; split; [assumption|goals; try assumption; apply refl; auto with equ]|intros o x y H; destruct o as [a0 a1 a2 a3 a4 a5 a6]; unfold TextBox_eqb; cbv beta iota delta [set bx_text bx_position bx_size bx_stroke bx_fill bx_effects bx_uuid]; goals; try assumption; apply refl; auto with equ|intros o O; destruct o as [a0 a1 a2 a3 a4 a5 a6]; unfold TextBox_ok in *; cbv beta iota delta [set bx_text bx_position bx_size bx_stroke bx_fill bx_effects bx_uuid] in *; conjs; goals; first [assumption|reflexivity]|intros o o1 S; destruct o as [a0 a1 a2 a3 a4 a5 a6], o1 as [b0 b1 b2 b3 b4 b5 b6]; unfold TextBox_eqb in *; cbv beta iota delta [set bx_text bx_position bx_size bx_stroke bx_fill bx_effects bx_uuid] in *; conjs; split; [assumption|split; intros;  goals; try assumption; apply refl; auto with equ]]).
Qed.
Lemma TextBox_e : edits_survive TextBox_to TextBox_from TextBox_ok TextBox_eqb TextBox_edits.
Proof. exact (lawful_survive _ _ _ _ _ _ TextBox_rt TextBox_l). Qed.
#[local] Opaque TextBox_ok TextBox_eqb.
#[local] Transparent LocalLabel_ok LocalLabel_eqb.
Lemma LocalLabel_l : Forall (lawful LocalLabel_ok LocalLabel_eqb) LocalLabel_edits.
Proof.
  repeat apply Forall_cons; [..|apply Forall_nil]; (apply law; [intros o x O F; destruct o as [a0 a1 a2 a3 a4]; unfold LocalLabel_ok in *; cbv beta iota delta [set ll_text ll_position ll_effects ll_uuid ll_fieldsAutoplaced] in *; conjs; goals; assumption|intros o x o1 S; destruct o as [a0 a1 a2 a3 a4], o1 as [b0 b1 b2 b3 b4]; unfold LocalLabel_eqb in *; cbv beta iota delta [set ll_text ll_position ll_effects ll_uuid ll_fieldsAutoplaced] in *; conjs; split; [assumption|goals; try assumption; apply refl; auto with equ]|intros o x y H; destruct o as [a0 a1 a2 a3 a4]; unfold LocalLabel_eqb; cbv beta iota delta [set ll_text ll_position ll_effects ll_uuid ll_fieldsAutoplaced]; goals; try assumption; apply refl; auto with equ|intros o O; destruct o as [a0 a1 a2 a3 a4]; unfold LocalLabel_ok in *; cbv beta iota delta [set ll_text ll_position ll_effects ll_uuid ll_fieldsAutoplaced] in *; conjs; goals; first [assumption|reflexivity]|intros o o1 S; destruct o as [a0 a1 a2 a3 a4], o1 as [b0 b1 b2 b3 b4]; unfold LocalLabel_eqb in *; cbv beta iota delta [set ll_text ll_position ll_effects ll_uuid ll_fieldsAutoplaced] in *; conjs; split; [assumption|split; intros;  goals; try assumption; apply refl; auto with equ]]).
Qed.
Lemma LocalLabel_e : edits_survive LocalLabel_to LocalLabel_from LocalLabel_ok LocalLabel_eqb LocalLabel_edits.
Proof. exact (lawful_survive _ _ _ _ _ _ LocalLabel_rt LocalLabel_l). Qed.
#[local] Opaque LocalLabel_ok LocalLabel_eqb.
#[local] Transparent GlobalLabel_ok GlobalLabel_eqb.
Lemma GlobalLabel_l : Forall (lawful GlobalLabel_ok GlobalLabel_eqb) GlobalLabel_edits.
Proof.
  repeat apply Forall_cons; [..|apply Forall_nil]; (apply law; [intros o x O F; destruct o as [a0 a1 a2 a3 a4 a5 a6]; unfold GlobalLabel_ok in *; cbv beta iota delta [set gla_text gla_shape gla_fieldsAutoplaced gla_position gla_effects gla_uuid gla_properties] in *; conjs; goals; assumption|intros o x o1 S; destruct o as [a0 a1 a2 a3 a4 a5 a6], o1 as [b0 b1 b2 b3 b4 b5 b6]; unfold GlobalLabel_eqb in *; cbv beta iota delta [set gla_text gla_shape gla_fieldsAutoplaced gla_position gla_effects gla_uuid gla_properties] in *; conjs; split; [assumption|goals; try assumption; apply refl; auto with equ]|intros o x y H; destruct o as [a0 a1 a2 a3 a4 a5 a6]; unfold GlobalLabel_eqb; cbv beta iota delta [set gla_text gla_shape gla_fieldsAutoplaced gla_position gla_effects gla_uuid gla_properties]; goals; try assumption; apply refl; auto with equ|intros o O; destruct o as [a0 a1 a2 a3 a4 a5 a6]; unfold GlobalLabel_ok in *; cbv beta iota delta [set gla_text gla_shape gla_fieldsAutoplaced gla_position gla_effects gla_uuid gla_properties] in *; conjs; goals; first [assumption|reflexivity]|intros o o1 S; destruct o as [a0 a1 a2 a3 a4 a5 a6], o1 as [b0 b1 b2 b3 b4 b5 b6]; unfold GlobalLabel_eqb in *; cbv beta iota delta [set gla_text gla_shape gla_fieldsAutoplaced gla_position gla_effects gla_uuid gla_properties] in *; conjs; split; [assumption|split; intros;  goals; try assumption; apply refl; auto with equ]]).
Qed.
Lemma GlobalLabel_e : edits_survive GlobalLabel_to GlobalLabel_from GlobalLabel_ok GlobalLabel_eqb GlobalLabel_edits.
Proof. exact (lawful_survive _ _ _ _ _ _ GlobalLabel_rt GlobalLabel_l). Qed.
#[local] Opaque GlobalLabel_ok GlobalLabel_eqb.
#[local] Transparent HierarchicalLabel_ok HierarchicalLabel_eqb.
Lemma HierarchicalLabel_l : Forall (lawful HierarchicalLabel_ok HierarchicalLabel_eqb) HierarchicalLabel_edits.
Proof.
  repeat apply Forall_cons; [..|apply Forall_nil]; (apply law; [intros o x O F; destruct o as [a0 a1 a2 a3 a4 a5]; unfold HierarchicalLabel_ok in *; cbv beta iota delta [set hl_text hl_shape hl_position hl_effects hl_uuid hl_fieldsAutoplaced] in *; conjs; goals; assumption|intros o x o1 S; destruct o as [a0 a1 a2 a3 a4 a5], o1 as [b0 b1 b2 b3 b4 b5]; unfold HierarchicalLabel_eqb in *; cbv beta iota delta [set hl_text hl_shape hl_position hl_effects hl_uuid hl_fieldsAutoplaced] in *; conjs; split; [assumption|goals; try assumption; apply refl; auto with equ]|intros o x y H; destruct o as [a0 a1 a2 a3 a4 a5]; unfold HierarchicalLabel_eqb; cbv beta iota delta [set hl_text hl_shape hl_position hl_effects hl_uuid hl_fieldsAutoplaced]; goals; try assumption; apply refl; auto with equ|intros o O; destruct o as [a0 a1 a2 a3 a4 a5]; unfold HierarchicalLabel_ok in *; cbv beta iota delta [set hl_text hl_shape hl_position hl_effects hl_uuid hl_fieldsAutoplaced] in *; conjs; goals; first [assumption|reflexivity]|intros o o1 S; destruct o as [a0 a1 a2 a3 a4 a5], o1 as [b0 b1 b2 b3 b4 b5]; unfold HierarchicalLabel_eqb in *; cbv beta iota delta [set hl_text hl_shape hl_position hl_effects hl_uuid hl_fieldsAutoplaced] in *; conjs; split; [assumption|split; intros;  goals; try assumption; apply refl; auto with equ]]).
Qed.
Lemma HierarchicalLabel_e : edits_survive HierarchicalLabel_to HierarchicalLabel_from HierarchicalLabel_ok HierarchicalLabel_eqb HierarchicalLabel_edits.
Proof. exact (lawful_survive _ _ _ _ _ _ HierarchicalLabel_rt HierarchicalLabel_l). Qed.
#[local] Opaque HierarchicalLabel_ok HierarchicalLabel_eqb.
#[local] Transparent SymbolProjectPath_ok SymbolProjectPath_eqb.
Lemma SymbolProjectPath_l : Forall (lawful SymbolProjectPath_ok SymbolProjectPath_eqb) SymbolProjectPath_edits.
Proof.
  repeat apply Forall_cons; [..|apply Forall_nil]; (apply law; [intros o x O F; destruct o as [a0 a1 a2]; unfold SymbolProjectPath_ok in *; cbv beta iota delta [set spp_sheetInstancePath spp_reference spp_unit] in *; conjs; goals; assumption|intros o x o1 S; destruct o as [a0 a1 a2], o1 as [b0 b1 b2]; unfold SymbolProjectPath_eqb in *; cbv beta iota delta [set spp_sheetInstancePath spp_reference spp_unit] in *; conjs; split; [assumption|goals; try assumption; apply refl; auto with equ]|intros o x y H; destruct o as [a0 a1 a2]; unfold SymbolProjectPath_eqb; cbv beta iota delta [set spp_sheetInstancePath spp_reference spp_unit]; goals; try assumption; apply refl; auto with equ|intros o O; destruct o as [a0 a1 a2]; unfold SymbolProjectPath_ok in *; cbv beta iota delta [set spp_sheetInstancePath spp_reference spp_unit] in *; conjs; goals; first [assumption|reflexivity]|intros o o1 S; destruct o as [a0 a1 a2], o1 as [b0 b1 b2]; unfold SymbolProjectPath_eqb in *; cbv beta iota delta [set spp_sheetInstancePath spp_reference spp_unit] in *; conjs; split; [assumption|split; intros;  goals; try assumption; apply refl; auto with equ]]).
Qed.
Lemma SymbolProjectPath_e : edits_survive SymbolProjectPath_to SymbolProjectPath_from SymbolProjectPath_ok SymbolProjectPath_eqb SymbolProjectPath_edits.
Proof. exact (lawful_survive _ _ _ _ _ _ SymbolProjectPath_rt SymbolProjectPath_l). Qed.
#[local] Opaque SymbolProjectPath_ok SymbolProjectPath_eqb.
#[local] Transparent SymbolProjectInstance_ok SymbolProjectInstance_eqb.
Lemma SymbolProjectInstance_l : Forall (lawful SymbolProjectInstance_ok SymbolProjectInstance_eqb) SymbolProjectInstance_edits.
Proof.
  repeat apply Forall_cons; [..|apply Forall_nil]; (apply law; [intros o x O F; destruct o as [a0 a1]; unfold SymbolProjectInstance_ok in *; cbv beta iota delta [set spi_name spi_paths] in *; conjs; goals; assumption|intros o x o1 S; destruct o as [a0 a1], o1 as [b0 b1]; unfold SymbolProjectInstance_eqb in *; cbv beta iota delta [set spi_name spi_paths] in *; conjs; split; [assumption|goals; try assumption; apply refl; auto with equ]|intros o x y H; destruct o as [a0 a1]; unfold SymbolProjectInstance_eqb; cbv beta iota delta [set spi_name spi_paths]; goals; try assumption; apply refl; auto with equ|intros o O; destruct o as [a0 a1]; unfold SymbolProjectInstance_ok in *; cbv beta iota delta [set spi_name spi_paths] in *; conjs; goals; first [assumption|reflexivity]|intros o o1 S; destruct o as [a0 a1], o1 as [b0 b1]; unfold SymbolProjectInstance_eqb in *; cbv beta iota delta [set spi_name spi_paths] in *; conjs; split; [assumption|split; intros;  goals; try assumption; apply refl; auto with equ]]).
Qed.
Lemma SymbolProjectInstance_e : edits_survive SymbolProjectInstance_to SymbolProjectInstance_from SymbolProjectInstance_ok SymbolProjectInstance_eqb SymbolProjectInstance_edits.
Proof. exact (lawful_survive _ _ _ _ _ _ SymbolProjectInstance_rt SymbolProjectInstance_l). Qed.
#[local] Opaque SymbolProjectInstance_ok SymbolProjectInstance_eqb.
#[local] Transparent SchematicSymbol_ok SchematicSymbol_eqb.
Lemma SchematicSymbol_l : Forall (lawful SchematicSymbol_ok SchematicSymbol_eqb) SchematicSymbol_edits.
Proof.
  repeat apply Forall_cons; [..|apply Forall_nil]; (apply law; [intros o x O F; destruct o as [a0 a1 a2 a3 a4 a5 a6 a7 a8 a9 a10 a11 a12 a13]; unfold SchematicSymbol_ok in *; cbv beta iota delta [set ss_libraryNickname ss_entryName ss_libName ss_position ss_unit ss_inBom ss_onBoard ss_dnp ss_fieldsAutoplaced ss_uuid ss_properties ss_pins ss_mirror ss_instances] in *; conjs; goals; assumption|intros o x o1 S; destruct o as [a0 a1 a2 a3 a4 a5 a6 a7 a8 a9 a10 a11 a12 a13], o1 as [b0 b1 b2 b3 b4 b5 b6 b7 b8 b9 b10 b11 b12 b13]; unfold SchematicSymbol_eqb in *; cbv beta iota delta [set ss_libraryNickname ss_entryName ss_libName ss_position ss_unit ss_inBom ss_onBoard ss_dnp ss_fieldsAutoplaced ss_uuid ss_properties ss_pins ss_mirror ss_instances] in *; conjs; split; [assumption|goals; try assumption; apply refl; auto with equ]|intros o x y H; destruct o as [a0 a1 a2 a3 a4 a5 a6 a7 a8 a9 a10 a11 a12 a13]; unfold SchematicSymbol_eqb; cbv beta iota delta [set ss_libraryNickname ss_entryName ss_libName ss_position ss_unit ss_inBom ss_onBoard ss_dnp ss_fieldsAutoplaced ss_uuid ss_properties ss_pins ss_mirror ss_instances]; goals; try assumption; apply refl; auto with equ|intros o O; destruct o as [a0 a1 a2 a3 a4 a5 a6 a7 a8 a9 a10 a11 a12 a13]; unfold SchematicSymbol_ok in *; cbv beta iota delta [set ss_libraryNickname ss_entryName ss_libName ss_position ss_unit ss_inBom ss_onBoard ss_dnp ss_fieldsAutoplaced ss_uuid ss_properties ss_pins ss_mirror ss_instances] in *; conjs; goals; first [assumption|reflexivity]|intros o o1 S; destruct o as [a0 a1 a2 a3 a4 a5 a6 a7 a8 a9 a10 a11 a12 a13], o1 as [b0 b1 b2 b3 b4 b5 b6 b7 b8 b9 b10 b11 b12 b13]; unfold SchematicSymbol_eqb in *; cbv beta iota delta [set ss_libraryNickname ss_entryName ss_libName ss_position ss_unit ss_inBom ss_onBoard ss_dnp ss_fieldsAutoplaced ss_uuid ss_properties ss_pins ss_mirror ss_instances] in *; conjs; split; [assumption|split; intros;  goals; try assumption; apply refl; auto with equ]]).
Qed.
Lemma SchematicSymbol_e : edits_survive SchematicSymbol_to SchematicSymbol_from SchematicSymbol_ok SchematicSymbol_eqb SchematicSymbol_edits.
Proof. exact (lawful_survive _ _ _ _ _ _ SchematicSymbol_rt SchematicSymbol_l). Qed.
#[local] Opaque SchematicSymbol_ok SchematicSymbol_eqb.
#[local] Transparent HierarchicalPin_ok HierarchicalPin_eqb.
Lemma HierarchicalPin_l : Forall (lawful HierarchicalPin_ok HierarchicalPin_eqb) HierarchicalPin_edits.
Proof.
  repeat apply Forall_cons; [..|apply Forall_nil]; (apply law; [intros o x O F; destruct o as [a0 a1 a2 a3 a4]; unfold HierarchicalPin_ok in *; cbv beta iota delta [set hp_name hp_connectionType hp_position hp_effects hp_uuid] in *; conjs; goals; assumption|intros o x o1 S; destruct o as [a0 a1 a2 a3 a4], o1 as [b0 b1 b2 b3 b4]; unfold HierarchicalPin_eqb in *; cbv beta iota delta [set hp_name hp_connectionType hp_position hp_effects hp_uuid] in *; conjs; split; [assumption|goals; try assumption; apply refl; auto with equ]|intros o x y H; destruct o as [a0 a1 a2 a3 a4]; unfold HierarchicalPin_eqb; cbv beta iota delta [set hp_name hp_connectionType hp_position hp_effects hp_uuid]; goals; try assumption; apply refl; auto with equ|intros o O; destruct o as [a0 a1 a2 a3 a4]; unfold HierarchicalPin_ok in *; cbv beta iota delta [set hp_name hp_connectionType hp_position hp_effects hp_uuid] in *; conjs; goals; first [assumption|reflexivity]|intros o o1 S; destruct o as [a0 a1 a2 a3 a4], o1 as [b0 b1 b2 b3 b4]; unfold HierarchicalPin_eqb in *; cbv beta iota delta [set hp_name hp_connectionType hp_position hp_effects hp_uuid] in *; conjs; split; [assumption|split; intros;  goals; try assumption; apply refl; auto with equ]]).
Qed.
Lemma HierarchicalPin_e : edits_survive HierarchicalPin_to HierarchicalPin_from HierarchicalPin_ok HierarchicalPin_eqb HierarchicalPin_edits.
Proof. exact (lawful_survive _ _ _ _ _ _ HierarchicalPin_rt HierarchicalPin_l). Qed.
#[local] Opaque HierarchicalPin_ok HierarchicalPin_eqb.
#[local] Transparent HierarchicalSheetProjectPath_ok HierarchicalSheetProjectPath_eqb.
Lemma HierarchicalSheetProjectPath_l : Forall (lawful HierarchicalSheetProjectPath_ok HierarchicalSheetProjectPath_eqb) HierarchicalSheetProjectPath_edits.
Proof.
  repeat apply Forall_cons; [..|apply Forall_nil]; (apply law; [intros o x O F; destruct o as [a0 a1]; unfold HierarchicalSheetProjectPath_ok in *; cbv beta iota delta [set hpp_sheetInstancePath hpp_page] in *; conjs; goals; assumption|intros o x o1 S; destruct o as [a0 a1], o1 as [b0 b1]; unfold HierarchicalSheetProjectPath_eqb in *; cbv beta iota delta [set hpp_sheetInstancePath hpp_page] in *; conjs; split; [assumption|goals; try assumption; apply refl; auto with equ]|intros o x y H; destruct o as [a0 a1]; unfold HierarchicalSheetProjectPath_eqb; cbv beta iota delta [set hpp_sheetInstancePath hpp_page]; goals; try assumption; apply refl; auto with equ|intros o O; destruct o as [a0 a1]; unfold HierarchicalSheetProjectPath_ok in *; cbv beta iota delta [set hpp_sheetInstancePath hpp_page] in *; conjs; goals; first [assumption|reflexivity]|intros o o1 S; destruct o as [a0 a1], o1 as [b0 b1]; unfold HierarchicalSheetProjectPath_eqb in *; cbv beta iota delta [set hpp_sheetInstancePath hpp_page] in *; conjs; split; [assumption|split; intros;  goals; try assumption; apply refl; auto with equ]]).
Qed.
Lemma HierarchicalSheetProjectPath_e : edits_survive HierarchicalSheetProjectPath_to HierarchicalSheetProjectPath_from HierarchicalSheetProjectPath_ok HierarchicalSheetProjectPath_eqb HierarchicalSheetProjectPath_edits.
Proof. exact (lawful_survive _ _ _ _ _ _ HierarchicalSheetProjectPath_rt HierarchicalSheetProjectPath_l). Qed.
#[local] Opaque HierarchicalSheetProjectPath_ok HierarchicalSheetProjectPath_eqb.
#[local] Transparent HierarchicalSheetProjectInstance_ok HierarchicalSheetProjectInstance_eqb.
Lemma HierarchicalSheetProjectInstance_l : Forall (lawful HierarchicalSheetProjectInstance_ok HierarchicalSheetProjectInstance_eqb) HierarchicalSheetProjectInstance_edits.
Proof.
  repeat apply Forall_cons; [..|apply Forall_nil]; (apply law; [intros o x O F; destruct o as [a0 a1]; unfold HierarchicalSheetProjectInstance_ok in *; cbv beta iota delta [set hpi_name hpi_paths] in *; conjs; goals; assumption|intros o x o1 S; destruct o as [a0 a1], o1 as [b0 b1]; unfold HierarchicalSheetProjectInstance_eqb in *; cbv beta iota delta [set hpi_name hpi_paths] in *; conjs; split; [assumption|goals; try assumption; apply refl; auto with equ]|intros o x y H; destruct o as [a0 a1]; unfold HierarchicalSheetProjectInstance_eqb; cbv beta iota delta [set hpi_name hpi_paths]; goals; try assumption; apply refl; auto with equ|intros o O; destruct o as [a0 a1]; unfold HierarchicalSheetProjectInstance_ok in *; cbv beta iota delta [set hpi_name hpi_paths] in *; conjs; goals; first [assumption|reflexivity]|intros o o1 S; destruct o as [a0 a1], o1 as [b0 b1]; unfold HierarchicalSheetProjectInstance_eqb in *; cbv beta iota delta [set hpi_name hpi_paths] in *; conjs; split; [assumption|split; intros;  goals; try assumption; apply refl; auto with equ]]).
Qed.
Lemma HierarchicalSheetProjectInstance_e : edits_survive HierarchicalSheetProjectInstance_to HierarchicalSheetProjectInstance_from HierarchicalSheetProjectInstance_ok HierarchicalSheetProjectInstance_eqb HierarchicalSheetProjectInstance_edits.
Proof. exact (lawful_survive _ _ _ _ _ _ HierarchicalSheetProjectInstance_rt HierarchicalSheetProjectInstance_l). Qed.
#[local] Opaque HierarchicalSheetProjectInstance_ok HierarchicalSheetProjectInstance_eqb.
#[local] Transparent HierarchicalSheet_ok HierarchicalSheet_eqb.
Lemma HierarchicalSheet_l : Forall (lawful HierarchicalSheet_ok HierarchicalSheet_eqb) HierarchicalSheet_edits.
Proof.
  repeat apply Forall_cons; [..|apply Forall_nil]; (apply law; [intros o x O F; destruct o as [a0 a1 a2 a3 a4 a5 a6 a7 a8 a9 a10 a11]; unfold HierarchicalSheet_ok in *; cbv beta iota delta [set hs_position hs_width hs_height hs_fieldsAutoplaced hs_stroke hs_fill hs_uuid hs_sheetName hs_fileName hs_properties hs_pins hs_instances] in *; conjs; goals; assumption|intros o x o1 S; destruct o as [a0 a1 a2 a3 a4 a5 a6 a7 a8 a9 a10 a11], o1 as [b0 b1 b2 b3 b4 b5 b6 b7 b8 b9 b10 b11]; unfold HierarchicalSheet_eqb in *; cbv beta iota delta [set hs_position hs_width hs_height hs_fieldsAutoplaced hs_stroke hs_fill hs_uuid hs_sheetName hs_fileName hs_properties hs_pins hs_instances] in *; conjs; split; [assumption|goals; try assumption; apply refl; auto with equ]|intros o x y H; destruct o as [a0 a1 a2 a3 a4 a5 a6 a7 a8 a9 a10 a11]; unfold HierarchicalSheet_eqb; cbv beta iota delta [set hs_position hs_width hs_height hs_fieldsAutoplaced hs_stroke hs_fill hs_uuid hs_sheetName hs_fileName hs_properties hs_pins hs_instances]; goals; try assumption; apply refl; auto with equ|intros o O; destruct o as [a0 a1 a2 a3 a4 a5 a6 a7 a8 a9 a10 a11]; unfold HierarchicalSheet_ok in *; cbv beta iota delta [set hs_position hs_width hs_height hs_fieldsAutoplaced hs_stroke hs_fill hs_uuid hs_sheetName hs_fileName hs_properties hs_pins hs_instances] in *; conjs; goals; first [assumption|reflexivity]|intros o o1 S; destruct o as [a0 a1 a2 a3 a4 a5 a6 a7 a8 a9 a10 a11], o1 as [b0 b1 b2 b3 b4 b5 b6 b7 b8 b9 b10 b11]; unfold HierarchicalSheet_eqb in *; cbv beta iota delta [set hs_position hs_width hs_height hs_fieldsAutoplaced hs_stroke hs_fill hs_uuid hs_sheetName hs_fileName hs_properties hs_pins hs_instances] in *; conjs; split; [assumption|split; intros;  goals; try assumption; apply refl; auto with equ]]).
Qed.
Lemma HierarchicalSheet_e : edits_survive HierarchicalSheet_to HierarchicalSheet_from HierarchicalSheet_ok HierarchicalSheet_eqb HierarchicalSheet_edits.
Proof. exact (lawful_survive _ _ _ _ _ _ HierarchicalSheet_rt HierarchicalSheet_l). Qed.
#[local] Opaque HierarchicalSheet_ok HierarchicalSheet_eqb.
#[local] Transparent HierarchicalSheetInstance_ok HierarchicalSheetInstance_eqb.
Lemma HierarchicalSheetInstance_l : Forall (lawful HierarchicalSheetInstance_ok HierarchicalSheetInstance_eqb) HierarchicalSheetInstance_edits.
Proof.
  repeat apply Forall_cons; [..|apply Forall_nil]; (apply law; [intros o x O F; destruct o as [a0 a1]; unfold HierarchicalSheetInstance_ok in *; cbv beta iota delta [set hi_instancePath hi_page] in *; conjs; goals; assumption|intros o x o1 S; destruct o as [a0 a1], o1 as [b0 b1]; unfold HierarchicalSheetInstance_eqb in *; cbv beta iota delta [set hi_instancePath hi_page] in *; conjs; split; [assumption|goals; try assumption; apply refl; auto with equ]|intros o x y H; destruct o as [a0 a1]; unfold HierarchicalSheetInstance_eqb; cbv beta iota delta [set hi_instancePath hi_page]; goals; try assumption; apply refl; auto with equ|intros o O; destruct o as [a0 a1]; unfold HierarchicalSheetInstance_ok in *; cbv beta iota delta [set hi_instancePath hi_page] in *; conjs; goals; first [assumption|reflexivity]|intros o o1 S; destruct o as [a0 a1], o1 as [b0 b1]; unfold HierarchicalSheetInstance_eqb in *; cbv beta iota delta [set hi_instancePath hi_page] in *; conjs; split; [assumption|split; intros;  goals; try assumption; apply refl; auto with equ]]).
Qed.
Lemma HierarchicalSheetInstance_e : edits_survive HierarchicalSheetInstance_to HierarchicalSheetInstance_from HierarchicalSheetInstance_ok HierarchicalSheetInstance_eqb HierarchicalSheetInstance_edits.
Proof. exact (lawful_survive _ _ _ _ _ _ HierarchicalSheetInstance_rt HierarchicalSheetInstance_l). Qed.
#[local] Opaque HierarchicalSheetInstance_ok HierarchicalSheetInstance_eqb.
#[local] Transparent SymbolInstance_ok SymbolInstance_eqb.
Lemma SymbolInstance_l : Forall (lawful SymbolInstance_ok SymbolInstance_eqb) SymbolInstance_edits.
Proof.
  repeat apply Forall_cons; [..|apply Forall_nil]; (apply law; [intros o x O F; destruct o as [a0 a1 a2 a3 a4]; unfold SymbolInstance_ok in *; cbv beta iota delta [set syi_path syi_reference syi_unit syi_value syi_footprint] in *; conjs; goals; assumption|intros o x o1 S; destruct o as [a0 a1 a2 a3 a4], o1 as [b0 b1 b2 b3 b4]; unfold SymbolInstance_eqb in *; cbv beta iota delta [set syi_path syi_reference syi_unit syi_value syi_footprint] in *; conjs; split; [assumption|goals; try assumption; apply refl; auto with equ]|intros o x y H; destruct o as [a0 a1 a2 a3 a4]; unfold SymbolInstance_eqb; cbv beta iota delta [set syi_path syi_reference syi_unit syi_value syi_footprint]; goals; try assumption; apply refl; auto with equ|intros o O; destruct o as [a0 a1 a2 a3 a4]; unfold SymbolInstance_ok in *; cbv beta iota delta [set syi_path syi_reference syi_unit syi_value syi_footprint] in *; conjs; goals; first [assumption|reflexivity]|intros o o1 S; destruct o as [a0 a1 a2 a3 a4], o1 as [b0 b1 b2 b3 b4]; unfold SymbolInstance_eqb in *; cbv beta iota delta [set syi_path syi_reference syi_unit syi_value syi_footprint] in *; conjs; split; [assumption|split; intros;  goals; try assumption; apply refl; auto with equ]]).
Qed.
Lemma SymbolInstance_e : edits_survive SymbolInstance_to SymbolInstance_from SymbolInstance_ok SymbolInstance_eqb SymbolInstance_edits.
Proof. exact (lawful_survive _ _ _ _ _ _ SymbolInstance_rt SymbolInstance_l). Qed.
#[local] Opaque SymbolInstance_ok SymbolInstance_eqb.
#[local] Transparent Rectangle_ok Rectangle_eqb.
Lemma Rectangle_l : Forall (lawful Rectangle_ok Rectangle_eqb) Rectangle_edits.
Proof.
  repeat apply Forall_cons; [..|apply Forall_nil]; (apply law; [intros o x O F; destruct o as [a0 a1 a2 a3 a4]; unfold Rectangle_ok in *; cbv beta iota delta [set rct_start rct_end rct_stroke rct_fill rct_uuid] in *; conjs; goals; assumption|intros o x o1 S; destruct o as [a0 a1 a2 a3 a4], o1 as [b0 b1 b2 b3 b4]; unfold Rectangle_eqb in *; cbv beta iota delta [set rct_start rct_end rct_stroke rct_fill rct_uuid] in *; conjs; split; [assumption|goals; try assumption; apply refl; auto with equ]|intros o x y H; destruct o as [a0 a1 a2 a3 a4]; unfold Rectangle_eqb; cbv beta iota delta [set rct_start rct_end rct_stroke rct_fill rct_uuid]; goals; try assumption; apply refl; auto with equ|intros o O; destruct o as [a0 a1 a2 a3 a4]; unfold Rectangle_ok in *; cbv beta iota delta [set rct_start rct_end rct_stroke rct_fill rct_uuid] in *; conjs; goals; first [assumption|reflexivity]|intros o o1 S; destruct o as [a0 a1 a2 a3 a4], o1 as [b0 b1 b2 b3 b4]; unfold Rectangle_eqb in *; cbv beta iota delta [set rct_start rct_end rct_stroke rct_fill rct_uuid] in *; conjs; split; [assumption|split; intros;  goals; try assumption; apply refl; auto with equ]]).
Qed.
Lemma Rectangle_e : edits_survive Rectangle_to Rectangle_from Rectangle_ok Rectangle_eqb Rectangle_edits.
Proof. exact (lawful_survive _ _ _ _ _ _ Rectangle_rt Rectangle_l). Qed.
#[local] Opaque Rectangle_ok Rectangle_eqb.
#[local] Transparent SchArc_ok SchArc_eqb.
Lemma SchArc_l : Forall (lawful SchArc_ok SchArc_eqb) SchArc_edits.
Proof.
  repeat apply Forall_cons; [..|apply Forall_nil]; (apply law; [intros o x O F; destruct o as [a0 a1 a2 a3 a4 a5]; unfold SchArc_ok in *; cbv beta iota delta [set sar_start sar_mid sar_end sar_stroke sar_fill sar_uuid] in *; conjs; goals; assumption|intros o x o1 S; destruct o as [a0 a1 a2 a3 a4 a5], o1 as [b0 b1 b2 b3 b4 b5]; unfold SchArc_eqb in *; cbv beta iota delta [set sar_start sar_mid sar_end sar_stroke sar_fill sar_uuid] in *; conjs; split; [assumption|goals; try assumption; apply refl; auto with equ]|intros o x y H; destruct o as [a0 a1 a2 a3 a4 a5]; unfold SchArc_eqb; cbv beta iota delta [set sar_start sar_mid sar_end sar_stroke sar_fill sar_uuid]; goals; try assumption; apply refl; auto with equ|intros o O; destruct o as [a0 a1 a2 a3 a4 a5]; unfold SchArc_ok in *; cbv beta iota delta [set sar_start sar_mid sar_end sar_stroke sar_fill sar_uuid] in *; conjs; goals; first [assumption|reflexivity]|intros o o1 S; destruct o as [a0 a1 a2 a3 a4 a5], o1 as [b0 b1 b2 b3 b4 b5]; unfold SchArc_eqb in *; cbv beta iota delta [set sar_start sar_mid sar_end sar_stroke sar_fill sar_uuid] in *; conjs; split; [assumption|split; intros;  goals; try assumption; apply refl; auto with equ]]).
Qed.
Lemma SchArc_e : edits_survive SchArc_to SchArc_from SchArc_ok SchArc_eqb SchArc_edits.
Proof. exact (lawful_survive _ _ _ _ _ _ SchArc_rt SchArc_l). Qed.
#[local] Opaque SchArc_ok SchArc_eqb.
#[local] Transparent Circle_ok Circle_eqb.
Lemma Circle_l : Forall (lawful Circle_ok Circle_eqb) Circle_edits.
Proof.
  repeat apply Forall_cons; [..|apply Forall_nil]; (apply law; [intros o x O F; destruct o as [a0 a1 a2 a3 a4]; unfold Circle_ok in *; cbv beta iota delta [set cir_center cir_radius cir_stroke cir_fill cir_uuid] in *; conjs; goals; assumption|intros o x o1 S; destruct o as [a0 a1 a2 a3 a4], o1 as [b0 b1 b2 b3 b4]; unfold Circle_eqb in *; cbv beta iota delta [set cir_center cir_radius cir_stroke cir_fill cir_uuid] in *; conjs; split; [assumption|goals; try assumption; apply refl; auto with equ]|intros o x y H; destruct o as [a0 a1 a2 a3 a4]; unfold Circle_eqb; cbv beta iota delta [set cir_center cir_radius cir_stroke cir_fill cir_uuid]; goals; try assumption; apply refl; auto with equ|intros o O; destruct o as [a0 a1 a2 a3 a4]; unfold Circle_ok in *; cbv beta iota delta [set cir_center cir_radius cir_stroke cir_fill cir_uuid] in *; conjs; goals; first [assumption|reflexivity]|intros o o1 S; destruct o as [a0 a1 a2 a3 a4], o1 as [b0 b1 b2 b3 b4]; unfold Circle_eqb in *; cbv beta iota delta [set cir_center cir_radius cir_stroke cir_fill cir_uuid] in *; conjs; split; [assumption|split; intros;  goals; try assumption; apply refl; auto with equ]]).
Qed.
Lemma Circle_e : edits_survive Circle_to Circle_from Circle_ok Circle_eqb Circle_edits.
Proof. exact (lawful_survive _ _ _ _ _ _ Circle_rt Circle_l). Qed.
#[local] Opaque Circle_ok Circle_eqb.
#[local] Transparent NetclassFlag_ok NetclassFlag_eqb.
Lemma NetclassFlag_l : Forall (lawful NetclassFlag_ok NetclassFlag_eqb) NetclassFlag_edits.
Proof.
  repeat apply Forall_cons; [..|apply Forall_nil]; (apply law; [intros o x O F; destruct o as [a0 a1 a2 a3 a4 a5 a6 a7]; unfold NetclassFlag_ok in *; cbv beta iota delta [set nf_text nf_length nf_shape nf_position nf_effects nf_properties nf_uuid nf_fieldsAutoplaced] in *; conjs; goals; assumption|intros o x o1 S; destruct o as [a0 a1 a2 a3 a4 a5 a6 a7], o1 as [b0 b1 b2 b3 b4 b5 b6 b7]; unfold NetclassFlag_eqb in *; cbv beta iota delta [set nf_text nf_length nf_shape nf_position nf_effects nf_properties nf_uuid nf_fieldsAutoplaced] in *; conjs; split; [assumption|goals; try assumption; apply refl; auto with equ]|intros o x y H; destruct o as [a0 a1 a2 a3 a4 a5 a6 a7]; unfold NetclassFlag_eqb; cbv beta iota delta [set nf_text nf_length nf_shape nf_position nf_effects nf_properties nf_uuid nf_fieldsAutoplaced]; goals; try assumption; apply refl; auto with equ|intros o O; destruct o as [a0 a1 a2 a3 a4 a5 a6 a7]; unfold NetclassFlag_ok in *; cbv beta iota delta [set nf_text nf_length nf_shape nf_position nf_effects nf_properties nf_uuid nf_fieldsAutoplaced] in *; conjs; goals; first [assumption|reflexivity]|intros o o1 S; destruct o as [a0 a1 a2 a3 a4 a5 a6 a7], o1 as [b0 b1 b2 b3 b4 b5 b6 b7]; unfold NetclassFlag_eqb in *; cbv beta iota delta [set nf_text nf_length nf_shape nf_position nf_effects nf_properties nf_uuid nf_fieldsAutoplaced] in *; conjs; split; [assumption|split; intros;  goals; try assumption; apply refl; auto with equ]]).
Qed.
Lemma NetclassFlag_e : edits_survive NetclassFlag_to NetclassFlag_from NetclassFlag_ok NetclassFlag_eqb NetclassFlag_edits.
Proof. exact (lawful_survive _ _ _ _ _ _ NetclassFlag_rt NetclassFlag_l). Qed.
#[local] Opaque NetclassFlag_ok NetclassFlag_eqb.
#[local] Transparent Schematic_ok Schematic_eqb.
Lemma Schematic_l : Forall (lawful Schematic_ok Schematic_eqb) Schematic_edits.
Proof.
  repeat apply Forall_cons; [..|apply Forall_nil]; (apply law; [intros o x O F; destruct o as [a0 a1 a2 a3 a4 a5 a6 a7 a8 a9 a10 a11 a12 a13 a14 a15 a16 a17 a18 a19 a20 a21 a22 a23]; unfold Schematic_ok in *; cbv beta iota delta [set sc_version sc_generator sc_uuid sc_paper sc_titleBlock sc_libSymbols sc_schematicSymbols sc_junctions sc_noConnects sc_busEntries sc_busAliases sc_graphicalItems sc_shapes sc_images sc_texts sc_textBoxes sc_labels sc_globalLabels sc_hierarchicalLabels sc_netclassFlags sc_sheets sc_sheetInstances sc_symbolInstances sc_filePath] in *; conjs; goals; assumption|intros o x o1 S; destruct o as [a0 a1 a2 a3 a4 a5 a6 a7 a8 a9 a10 a11 a12 a13 a14 a15 a16 a17 a18 a19 a20 a21 a22 a23], o1 as [b0 b1 b2 b3 b4 b5 b6 b7 b8 b9 b10 b11 b12 b13 b14 b15 b16 b17 b18 b19 b20 b21 b22 b23]; unfold Schematic_eqb in *; cbv beta iota delta [set sc_version sc_generator sc_uuid sc_paper sc_titleBlock sc_libSymbols sc_schematicSymbols sc_junctions sc_noConnects sc_busEntries sc_busAliases sc_graphicalItems sc_shapes sc_images sc_texts sc_textBoxes sc_labels sc_globalLabels sc_hierarchicalLabels sc_netclassFlags sc_sheets sc_sheetInstances sc_symbolInstances sc_filePath] in *; conjs; split; [assumption|goals; try assumption; apply refl; auto with equ]|intros o x y H; destruct o as [a0 a1 a2 a3 a4 a5 a6 a7 a8 a9 a10 a11 a12 a13 a14 a15 a16 a17 a18 a19 a20 a21 a22 a23]; unfold Schematic_eqb; cbv beta iota delta [set sc_version sc_generator sc_uuid sc_paper sc_titleBlock sc_libSymbols sc_schematicSymbols sc_junctions sc_noConnects sc_busEntries sc_busAliases sc_graphicalItems sc_shapes sc_images sc_texts sc_textBoxes sc_labels sc_globalLabels sc_hierarchicalLabels sc_netclassFlags sc_sheets sc_sheetInstances sc_symbolInstances sc_filePath]; goals; try assumption; apply refl; auto with equ|intros o O; destruct o as [a0 a1 a2 a3 a4 a5 a6 a7 a8 a9 a10 a11 a12 a13 a14 a15 a16 a17 a18 a19 a20 a21 a22 a23]; unfold Schematic_ok in *; cbv beta iota delta [set sc_version sc_generator sc_uuid sc_paper sc_titleBlock sc_libSymbols sc_schematicSymbols sc_junctions sc_noConnects sc_busEntries sc_busAliases sc_graphicalItems sc_shapes sc_images sc_texts sc_textBoxes sc_labels sc_globalLabels sc_hierarchicalLabels sc_netclassFlags sc_sheets sc_sheetInstances sc_symbolInstances sc_filePath] in *; conjs; goals; first [assumption|reflexivity]|intros o o1 S; destruct o as [a0 a1 a2 a3 a4 a5 a6 a7 a8 a9 a10 a11 a12 a13 a14 a15 a16 a17 a18 a19 a20 a21 a22 a23], o1 as [b0 b1 b2 b3 b4 b5 b6 b7 b8 b9 b10 b11 b12 b13 b14 b15 b16 b17 b18 b19 b20 b21 b22 b23]; unfold Schematic_eqb in *; cbv beta iota delta [set sc_version sc_generator sc_uuid sc_paper sc_titleBlock sc_libSymbols sc_schematicSymbols sc_junctions sc_noConnects sc_busEntries sc_busAliases sc_graphicalItems sc_shapes sc_images sc_texts sc_textBoxes sc_labels sc_globalLabels sc_hierarchicalLabels sc_netclassFlags sc_sheets sc_sheetInstances sc_symbolInstances sc_filePath] in *; conjs; split; [assumption|split; intros;  goals; try assumption; apply refl; auto with equ]]).
Qed.
Lemma Schematic_e : edits_survive Schematic_to Schematic_from Schematic_ok Schematic_eqb Schematic_edits.
Proof. exact (lawful_survive _ _ _ _ _ _ Schematic_rt Schematic_l). Qed.
#[local] Opaque Schematic_ok Schematic_eqb.
#[local] Transparent WksFontSize_ok WksFontSize_eqb.
Lemma WksFontSize_l : Forall (lawful WksFontSize_ok WksFontSize_eqb) WksFontSize_edits.
Proof.
  repeat apply Forall_cons; [..|apply Forall_nil]; (apply law; [intros o x O F; destruct o as [a0 a1]; unfold WksFontSize_ok in *; cbv beta iota delta [set wz_width wz_height] in *; conjs; goals; assumption|intros o x o1 S; destruct o as [a0 a1], o1 as [b0 b1]; unfold WksFontSize_eqb in *; cbv beta iota delta [set wz_width wz_height] in *; conjs; split; [assumption|goals; try assumption; apply refl; auto with equ]|intros o x y H; destruct o as [a0 a1]; unfold WksFontSize_eqb; cbv beta iota delta [set wz_width wz_height]; goals; try assumption; apply refl; auto with equ|intros o O; destruct o as [a0 a1]; unfold WksFontSize_ok in *; cbv beta iota delta [set wz_width wz_height] in *; conjs; goals; first [assumption|reflexivity]|intros o o1 S; destruct o as [a0 a1], o1 as [b0 b1]; unfold WksFontSize_eqb in *; cbv beta iota delta [set wz_width wz_height] in *; conjs; split; [assumption|split; intros;  goals; try assumption; apply refl; auto with equ]]).
Qed.
Lemma WksFontSize_e : edits_survive WksFontSize_to WksFontSize_from WksFontSize_ok WksFontSize_eqb WksFontSize_edits.
Proof. exact (lawful_survive _ _ _ _ _ _ WksFontSize_rt WksFontSize_l). Qed.
#[local] Opaque WksFontSize_ok WksFontSize_eqb.
#[local] Transparent WksFont_ok1 WksFont_eqb.
Lemma WksFont_l : Forall (lawful WksFont_ok1 WksFont_eqb) WksFont_edits.
Proof.
  repeat apply Forall_cons; [..|apply Forall_nil]; (apply law; [intros o x _ F; exact F|intros o x o1 S; destruct o as [a0 a1 a2 a3], o1 as [b0 b1 b2 b3]; unfold WksFont_eqb in *; cbv beta iota delta [set wf_linewidth wf_size wf_bold wf_italic] in *; conjs; split; [assumption|goals; try assumption; apply refl; auto with equ]|intros o x y H; destruct o as [a0 a1 a2 a3]; unfold WksFont_eqb; cbv beta iota delta [set wf_linewidth wf_size wf_bold wf_italic]; goals; try assumption; apply refl; auto with equ|intros o O; destruct o as [a0 a1 a2 a3]; exact O|intros o o1 S; destruct o as [a0 a1 a2 a3], o1 as [b0 b1 b2 b3]; unfold WksFont_eqb in *; cbv beta iota delta [set wf_linewidth wf_size wf_bold wf_italic] in *; conjs; split; [assumption|split; intros;  goals; try assumption; apply refl; auto with equ]]).
Qed.
Lemma WksFont_e : edits_survive WksFont_to WksFont_from WksFont_ok1 WksFont_eqb WksFont_edits.
Proof. exact (lawful_survive _ _ _ _ _ _ WksFont_rt1 WksFont_l). Qed.
#[local] Opaque WksFont_ok1 WksFont_eqb.
#[local] Transparent Line_ok Line_eqb.
Lemma Line_l : Forall (lawful Line_ok Line_eqb) Line_edits.
Proof.
  repeat apply Forall_cons; [..|apply Forall_nil]; (apply law; [intros o x O F; destruct o as [a0 a1 a2 a3 a4 a5 a6 a7 a8]; unfold Line_ok in *; cbv beta iota delta [set wl_name wl_start wl_end wl_option wl_lineWidth wl_repeat wl_incrx wl_incry wl_comment] in *; conjs; goals; assumption|intros o x o1 S; destruct o as [a0 a1 a2 a3 a4 a5 a6 a7 a8], o1 as [b0 b1 b2 b3 b4 b5 b6 b7 b8]; unfold Line_eqb in *; cbv beta iota delta [set wl_name wl_start wl_end wl_option wl_lineWidth wl_repeat wl_incrx wl_incry wl_comment] in *; conjs; split; [assumption|goals; try assumption; apply refl; auto with equ]|intros o x y H; destruct o as [a0 a1 a2 a3 a4 a5 a6 a7 a8]; unfold Line_eqb; cbv beta iota delta [set wl_name wl_start wl_end wl_option wl_lineWidth wl_repeat wl_incrx wl_incry wl_comment]; goals; try assumption; apply refl; auto with equ|intros o O; destruct o as [a0 a1 a2 a3 a4 a5 a6 a7 a8]; unfold Line_ok in *; cbv beta iota delta [set wl_name wl_start wl_end wl_option wl_lineWidth wl_repeat wl_incrx wl_incry wl_comment] in *; conjs; goals; first [assumption|reflexivity]|intros o o1 S; destruct o as [a0 a1 a2 a3 a4 a5 a6 a7 a8], o1 as [b0 b1 b2 b3 b4 b5 b6 b7 b8]; unfold Line_eqb in *; cbv beta iota delta [set wl_name wl_start wl_end wl_option wl_lineWidth wl_repeat wl_incrx wl_incry wl_comment] in *; conjs; split; [assumption|split; intros;  goals; try assumption; apply refl; auto with equ]]).
Qed.
Lemma Line_e : edits_survive Line_to Line_from Line_ok Line_eqb Line_edits.
Proof. exact (lawful_survive _ _ _ _ _ _ Line_rt Line_l). Qed.
#[local] Opaque Line_ok Line_eqb.
#[local] Transparent Rect_ok Rect_eqb.
Lemma Rect_l : Forall (lawful Rect_ok Rect_eqb) Rect_edits.
Proof.
  repeat apply Forall_cons; [..|apply Forall_nil]; (apply law; [intros o x O F; destruct o as [a0 a1 a2 a3 a4 a5 a6 a7 a8]; unfold Rect_ok in *; cbv beta iota delta [set wr_name wr_start wr_end wr_option wr_lineWidth wr_repeat wr_incrx wr_incry wr_comment] in *; conjs; goals; assumption|intros o x o1 S; destruct o as [a0 a1 a2 a3 a4 a5 a6 a7 a8], o1 as [b0 b1 b2 b3 b4 b5 b6 b7 b8]; unfold Rect_eqb in *; cbv beta iota delta [set wr_name wr_start wr_end wr_option wr_lineWidth wr_repeat wr_incrx wr_incry wr_comment] in *; conjs; split; [assumption|goals; try assumption; apply refl; auto with equ]|intros o x y H; destruct o as [a0 a1 a2 a3 a4 a5 a6 a7 a8]; unfold Rect_eqb; cbv beta iota delta [set wr_name wr_start wr_end wr_option wr_lineWidth wr_repeat wr_incrx wr_incry wr_comment]; goals; try assumption; apply refl; auto with equ|intros o O; destruct o as [a0 a1 a2 a3 a4 a5 a6 a7 a8]; unfold Rect_ok in *; cbv beta iota delta [set wr_name wr_start wr_end wr_option wr_lineWidth wr_repeat wr_incrx wr_incry wr_comment] in *; conjs; goals; first [assumption|reflexivity]|intros o o1 S; destruct o as [a0 a1 a2 a3 a4 a5 a6 a7 a8], o1 as [b0 b1 b2 b3 b4 b5 b6 b7 b8]; unfold Rect_eqb in *; cbv beta iota delta [set wr_name wr_start wr_end wr_option wr_lineWidth wr_repeat wr_incrx wr_incry wr_comment] in *; conjs; split; [assumption|split; intros;  goals; try assumption; apply refl; auto with equ]]).
Qed.
Lemma Rect_e : edits_survive Rect_to Rect_from Rect_ok Rect_eqb Rect_edits.
Proof. exact (lawful_survive _ _ _ _ _ _ Rect_rt Rect_l). Qed.
#[local] Opaque Rect_ok Rect_eqb.
#[local] Transparent Bitmap_ok Bitmap_eqb.
Lemma Bitmap_l : Forall (lawful Bitmap_ok Bitmap_eqb) Bitmap_edits.
Proof.
  repeat apply Forall_cons; [..|apply Forall_nil]; (apply law; [intros o x O F; destruct o as [a0 a1 a2 a3 a4 a5 a6 a7 a8]; unfold Bitmap_ok in *; cbv beta iota delta [set wb_name wb_position wb_option wb_scale wb_repeat wb_incrx wb_incry wb_comment wb_pngdata] in *; conjs; goals; assumption|intros o x o1 S; destruct o as [a0 a1 a2 a3 a4 a5 a6 a7 a8], o1 as [b0 b1 b2 b3 b4 b5 b6 b7 b8]; unfold Bitmap_eqb in *; cbv beta iota delta [set wb_name wb_position wb_option wb_scale wb_repeat wb_incrx wb_incry wb_comment wb_pngdata] in *; conjs; split; [assumption|goals; try assumption; apply refl; auto with equ]|intros o x y H; destruct o as [a0 a1 a2 a3 a4 a5 a6 a7 a8]; unfold Bitmap_eqb; cbv beta iota delta [set wb_name wb_position wb_option wb_scale wb_repeat wb_incrx wb_incry wb_comment wb_pngdata]; goals; try assumption; apply refl; auto with equ|intros o O; destruct o as [a0 a1 a2 a3 a4 a5 a6 a7 a8]; unfold Bitmap_ok in *; cbv beta iota delta [set wb_name wb_position wb_option wb_scale wb_repeat wb_incrx wb_incry wb_comment wb_pngdata] in *; conjs; goals; first [assumption|reflexivity]|intros o o1 S; destruct o as [a0 a1 a2 a3 a4 a5 a6 a7 a8], o1 as [b0 b1 b2 b3 b4 b5 b6 b7 b8]; unfold Bitmap_eqb in *; cbv beta iota delta [set wb_name wb_position wb_option wb_scale wb_repeat wb_incrx wb_incry wb_comment wb_pngdata] in *; conjs; split; [assumption|split; intros;  goals; try assumption; apply refl; auto with equ]]).
Qed.
Lemma Bitmap_e : edits_survive Bitmap_to Bitmap_from Bitmap_ok Bitmap_eqb Bitmap_edits.
Proof. exact (lawful_survive _ _ _ _ _ _ Bitmap_rt Bitmap_l). Qed.
#[local] Opaque Bitmap_ok Bitmap_eqb.
#[local] Transparent TbText_ok TbText_eqb.
Lemma TbText_l : Forall (lawful TbText_ok TbText_eqb) TbText_edits.
Proof.
  repeat apply Forall_cons; [..|apply Forall_nil]; (apply law; [intros o x O F; destruct o as [a0 a1 a2 a3 a4 a5 a6 a7 a8 a9 a10 a11 a12 a13]; unfold TbText_ok in *; cbv beta iota delta [set tt_text tt_name tt_position tt_option tt_rotate tt_font tt_justify tt_maxlen tt_maxheight tt_repeat tt_incrx tt_incry tt_incrlabel tt_comment] in *; conjs; goals; assumption|intros o x o1 S; destruct o as [a0 a1 a2 a3 a4 a5 a6 a7 a8 a9 a10 a11 a12 a13], o1 as [b0 b1 b2 b3 b4 b5 b6 b7 b8 b9 b10 b11 b12 b13]; unfold TbText_eqb in *; cbv beta iota delta [set tt_text tt_name tt_position tt_option tt_rotate tt_font tt_justify tt_maxlen tt_maxheight tt_repeat tt_incrx tt_incry tt_incrlabel tt_comment] in *; conjs; split; [assumption|goals; try assumption; apply refl; auto with equ]|intros o x y H; destruct o as [a0 a1 a2 a3 a4 a5 a6 a7 a8 a9 a10 a11 a12 a13]; unfold TbText_eqb; cbv beta iota delta [set tt_text tt_name tt_position tt_option tt_rotate tt_font tt_justify tt_maxlen tt_maxheight tt_repeat tt_incrx tt_incry tt_incrlabel tt_comment]; goals; try assumption; apply refl; auto with equ|intros o O; destruct o as [a0 a1 a2 a3 a4 a5 a6 a7 a8 a9 a10 a11 a12 a13]; unfold TbText_ok in *; cbv beta iota delta [set tt_text tt_name tt_position tt_option tt_rotate tt_font tt_justify tt_maxlen tt_maxheight tt_repeat tt_incrx tt_incry tt_incrlabel tt_comment] in *; conjs; goals; first [assumption|reflexivity]|intros o o1 S; destruct o as [a0 a1 a2 a3 a4 a5 a6 a7 a8 a9 a10 a11 a12 a13], o1 as [b0 b1 b2 b3 b4 b5 b6 b7 b8 b9 b10 b11 b12 b13]; unfold TbText_eqb in *; cbv beta iota delta [set tt_text tt_name tt_position tt_option tt_rotate tt_font tt_justify tt_maxlen tt_maxheight tt_repeat tt_incrx tt_incry tt_incrlabel tt_comment] in *; conjs; split; [assumption|split; intros;  goals; try assumption; apply refl; auto with equ]]).
Qed.
Lemma TbText_e : edits_survive TbText_to TbText_from TbText_ok TbText_eqb TbText_edits.
Proof. exact (lawful_survive _ _ _ _ _ _ TbText_rt TbText_l). Qed.
#[local] Opaque TbText_ok TbText_eqb.
#[local] Transparent TextSize_ok TextSize_eqb.
Lemma TextSize_l : Forall (lawful TextSize_ok TextSize_eqb) TextSize_edits.
Proof.
  repeat apply Forall_cons; [..|apply Forall_nil]; (apply law; [intros o x O F; destruct o as [a0 a1]; unfold TextSize_ok in *; cbv beta iota delta [set tz_width tz_height] in *; conjs; goals; assumption|intros o x o1 S; destruct o as [a0 a1], o1 as [b0 b1]; unfold TextSize_eqb in *; cbv beta iota delta [set tz_width tz_height] in *; conjs; split; [assumption|goals; try assumption; apply refl; auto with equ]|intros o x y H; destruct o as [a0 a1]; unfold TextSize_eqb; cbv beta iota delta [set tz_width tz_height]; goals; try assumption; apply refl; auto with equ|intros o O; destruct o as [a0 a1]; unfold TextSize_ok in *; cbv beta iota delta [set tz_width tz_height] in *; conjs; goals; first [assumption|reflexivity]|intros o o1 S; destruct o as [a0 a1], o1 as [b0 b1]; unfold TextSize_eqb in *; cbv beta iota delta [set tz_width tz_height] in *; conjs; split; [assumption|split; intros;  goals; try assumption; apply refl; auto with equ]]).
Qed.
Lemma TextSize_e : edits_survive TextSize_to TextSize_from TextSize_ok TextSize_eqb TextSize_edits.
Proof. exact (lawful_survive _ _ _ _ _ _ TextSize_rt TextSize_l). Qed.
#[local] Opaque TextSize_ok TextSize_eqb.
#[local] Transparent Setup_ok Setup_eqb.
Lemma Setup_l : Forall (lawful Setup_ok Setup_eqb) Setup_edits.
Proof.
  repeat apply Forall_cons; [..|apply Forall_nil]; (apply law; [intros o x O F; destruct o as [a0 a1 a2 a3 a4 a5 a6]; unfold Setup_ok in *; cbv beta iota delta [set wu_textSize wu_lineWidth wu_textLineWidth wu_leftMargin wu_rightMargin wu_topMargin wu_bottomMargin] in *; conjs; goals; assumption|intros o x o1 S; destruct o as [a0 a1 a2 a3 a4 a5 a6], o1 as [b0 b1 b2 b3 b4 b5 b6]; unfold Setup_eqb in *; cbv beta iota delta [set wu_textSize wu_lineWidth wu_textLineWidth wu_leftMargin wu_rightMargin wu_topMargin wu_bottomMargin] in *; conjs; split; [assumption|goals; try assumption; apply refl; auto with equ]|intros o x y H; destruct o as [a0 a1 a2 a3 a4 a5 a6]; unfold Setup_eqb; cbv beta iota delta [set wu_textSize wu_lineWidth wu_textLineWidth wu_leftMargin wu_rightMargin wu_topMargin wu_bottomMargin]; goals; try assumption; apply refl; auto with equ|intros o O; destruct o as [a0 a1 a2 a3 a4 a5 a6]; unfold Setup_ok in *; cbv beta iota delta [set wu_textSize wu_lineWidth wu_textLineWidth wu_leftMargin wu_rightMargin wu_topMargin wu_bottomMargin] in *; conjs; goals; first [assumption|reflexivity]|intros o o1 S; destruct o as [a0 a1 a2 a3 a4 a5 a6], o1 as [b0 b1 b2 b3 b4 b5 b6]; unfold Setup_eqb in *; cbv beta iota delta [set wu_textSize wu_lineWidth wu_textLineWidth wu_leftMargin wu_rightMargin wu_topMargin wu_bottomMargin] in *; conjs; split; [assumption|split; intros;  goals; try assumption; apply refl; auto with equ]]).
Qed.
Lemma Setup_e : edits_survive Setup_to Setup_from Setup_ok Setup_eqb Setup_edits.
Proof. exact (lawful_survive _ _ _ _ _ _ Setup_rt Setup_l). Qed.
#[local] Opaque Setup_ok Setup_eqb.
#[local] Transparent WorkSheet_ok WorkSheet_eqb.
Lemma WorkSheet_l : Forall (lawful WorkSheet_ok WorkSheet_eqb) WorkSheet_edits.
Proof.
  repeat apply Forall_cons; [..|apply Forall_nil]; (apply law; [intros o x O F; destruct o as [a0 a1 a2 a3 a4]; unfold WorkSheet_ok in *; cbv beta iota delta [set wk_version wk_generator wk_setup wk_drawingObjects wk_filePath] in *; conjs; goals; assumption|intros o x o1 S; destruct o as [a0 a1 a2 a3 a4], o1 as [b0 b1 b2 b3 b4]; unfold WorkSheet_eqb in *; cbv beta iota delta [set wk_version wk_generator wk_setup wk_drawingObjects wk_filePath] in *; conjs; split; [assumption|goals; try assumption; apply refl; auto with equ]|intros o x y H; destruct o as [a0 a1 a2 a3 a4]; unfold WorkSheet_eqb; cbv beta iota delta [set wk_version wk_generator wk_setup wk_drawingObjects wk_filePath]; goals; try assumption; apply refl; auto with equ|intros o O; destruct o as [a0 a1 a2 a3 a4]; unfold WorkSheet_ok in *; cbv beta iota delta [set wk_version wk_generator wk_setup wk_drawingObjects wk_filePath] in *; conjs; goals; first [assumption|reflexivity]|intros o o1 S; destruct o as [a0 a1 a2 a3 a4], o1 as [b0 b1 b2 b3 b4]; unfold WorkSheet_eqb in *; cbv beta iota delta [set wk_version wk_generator wk_setup wk_drawingObjects wk_filePath] in *; conjs; split; [assumption|split; intros;  goals; try assumption; apply refl; auto with equ]]).
Qed.
Lemma WorkSheet_e : edits_survive WorkSheet_to WorkSheet_from WorkSheet_ok WorkSheet_eqb WorkSheet_edits.
Proof. exact (lawful_survive _ _ _ _ _ _ WorkSheet_rt WorkSheet_l). Qed.
#[local] Opaque WorkSheet_ok WorkSheet_eqb.
