(** Readers fail item by item (C42): behind an accepted expression, further items are accepted exactly if each is
    accepted alone, and otherwise the exception is that of the first one that is not. *)
From Verif Require Import PyBase PyNum PyStr PyRe Sexpr S_Leaf S_Tree S_Reader S_Local M_Common M_Lib M_Sym M_Fp M_Gr M_Zone M_Footprint M_Dim M_Brd M_Board M_Sch M_Schematic M_Wks.
From Verif Require L_LocalA.

Theorem C42_Stroke : itemwise Stroke_from 1.
Proof. exact L_LocalA.Stroke_local. Qed.
Print Assumptions C42_Stroke.
Example C42_Stroke_case : let b := [VStr $"stroke"; node "zzz" [VInt 1]] in
  accepts Stroke_from (VList b) = true /\ error (Stroke_from (VList (b ++ [node "zzz" [VInt 1]; VList []; VInt 3]))) = Some EIndex.
Proof. vm_compute. split; reflexivity. Qed.

Theorem C42_Font : itemwise Font_from 0.
Proof. exact L_LocalA.Font_local. Qed.
Print Assumptions C42_Font.
Example C42_Font_case : let b := [VStr $"font"; node "zzz" [VInt 1]] in
  accepts Font_from (VList b) = true /\ error (Font_from (VList (b ++ [node "zzz" [VInt 1]; VList []; VInt 3]))) = Some EIndex.
Proof. vm_compute. split; reflexivity. Qed.

Theorem C42_Justify : itemwise Justify_from 0.
Proof. exact L_LocalA.Justify_local. Qed.
Print Assumptions C42_Justify.
Example C42_Justify_case : let b := [VStr $"justify"; node "zzz" [VInt 1]] in
  accepts Justify_from (VList b) = true /\ error (Justify_from (VList (b ++ [node "zzz" [VInt 1]; VList []; VInt 3]))) = None.
Proof. vm_compute. split; reflexivity. Qed.

Theorem C42_Effects : itemwise Effects_from 0.
Proof. exact L_LocalA.Effects_local. Qed.
Print Assumptions C42_Effects.
Example C42_Effects_case : let b := [VStr $"effects"; node "zzz" [VInt 1]] in
  accepts Effects_from (VList b) = true /\ error (Effects_from (VList (b ++ [node "zzz" [VInt 1]; VList []; VInt 3]))) = Some EIndex.
Proof. vm_compute. split; reflexivity. Qed.

Theorem C42_Group : itemwise Group_from 1.
Proof. exact L_LocalA.Group_local. Qed.
Print Assumptions C42_Group.
Example C42_Group_case : let b := [VStr $"group"; VStr $"F"; node "zzz" [VInt 1]] in
  accepts Group_from (VList b) = true /\ error (Group_from (VList (b ++ [node "zzz" [VInt 1]; VList []; VInt 3]))) = Some EIndex.
Proof. vm_compute. split; reflexivity. Qed.

Theorem C42_PageSettings : itemwise PageSettings_from 3.
Proof. exact L_LocalA.PageSettings_local. Qed.
Print Assumptions C42_PageSettings.
Example C42_PageSettings_case : let b := [VStr $"paper"; VStr $"F"; VStr $"F"; VStr $"F"; node "zzz" [VInt 1]] in
  accepts PageSettings_from (VList b) = true /\ error (PageSettings_from (VList (b ++ [node "zzz" [VInt 1]; VList []; VInt 3]))) = None.
Proof. vm_compute. split; reflexivity. Qed.

Theorem C42_TitleBlock : itemwise TitleBlock_from 0.
Proof. exact L_LocalA.TitleBlock_local. Qed.
Print Assumptions C42_TitleBlock.
Example C42_TitleBlock_case : let b := [VStr $"title_block"; node "zzz" [VInt 1]] in
  accepts TitleBlock_from (VList b) = true /\ error (TitleBlock_from (VList (b ++ [node "zzz" [VInt 1]; VList []; VInt 3]))) = Some EIndex.
Proof. vm_compute. split; reflexivity. Qed.

Theorem C42_Property : itemwise Property_from 2.
Proof. exact L_LocalA.Property_local. Qed.
Print Assumptions C42_Property.
Example C42_Property_case : let b := [VStr $"property"; VStr $"F"; VStr $"F"; node "zzz" [VInt 1]] in
  accepts Property_from (VList b) = true /\ error (Property_from (VList (b ++ [node "zzz" [VInt 1]; VList []; VInt 3]))) = Some EIndex.
Proof. vm_compute. split; reflexivity. Qed.

Theorem C42_RenderCachePolygon : itemwise RenderCachePolygon_from 0.
Proof. exact L_LocalA.RenderCachePolygon_local. Qed.
Print Assumptions C42_RenderCachePolygon.
Example C42_RenderCachePolygon_case : let b := [VStr $"polygon"; node "zzz" [VInt 1]] in
  accepts RenderCachePolygon_from (VList b) = true /\ error (RenderCachePolygon_from (VList (b ++ [node "zzz" [VInt 1]; VList []; VInt 3]))) = Some EIndex.
Proof. vm_compute. split; reflexivity. Qed.

Theorem C42_RenderCache : itemwise RenderCache_from 2.
Proof. exact L_LocalA.RenderCache_local. Qed.
Print Assumptions C42_RenderCache.
Example C42_RenderCache_case : let b := [VStr $"render_cache"; VStr $"F"; VStr $"F"; node "zzz" [VInt 1]] in
  accepts RenderCache_from (VList b) = true /\ error (RenderCache_from (VList (b ++ [node "zzz" [VInt 1]; VList []; VInt 3]))) = Some EIndex.
Proof. vm_compute. split; reflexivity. Qed.

Theorem C42_Fill : itemwise Fill_from 0.
Proof. exact L_LocalA.Fill_local. Qed.
Print Assumptions C42_Fill.
Example C42_Fill_case : let b := [VStr $"fill"; node "zzz" [VInt 1]] in
  accepts Fill_from (VList b) = true /\ error (Fill_from (VList (b ++ [node "zzz" [VInt 1]; VList []; VInt 3]))) = Some EIndex.
Proof. vm_compute. split; reflexivity. Qed.

Theorem C42_Image : itemwise Image_from 0.
Proof. exact L_LocalA.Image_local. Qed.
Print Assumptions C42_Image.
Example C42_Image_case : let b := [VStr $"image"; node "zzz" [VInt 1]] in
  accepts Image_from (VList b) = true /\ error (Image_from (VList (b ++ [node "zzz" [VInt 1]; VList []; VInt 3]))) = Some EIndex.
Proof. vm_compute. split; reflexivity. Qed.

Theorem C42_Library : itemwise Library_from 0.
Proof. exact L_LocalA.Library_local. Qed.
Print Assumptions C42_Library.
Example C42_Library_case : let b := [VStr $"lib"; node "zzz" [VInt 1]] in
  accepts Library_from (VList b) = true /\ error (Library_from (VList (b ++ [node "zzz" [VInt 1]; VList []; VInt 3]))) = Some EIndex.
Proof. vm_compute. split; reflexivity. Qed.

Theorem C42_LibTable : itemwise LibTable_from 0.
Proof. exact L_LocalA.LibTable_local. Qed.
Print Assumptions C42_LibTable.
Example C42_LibTable_case : let b := [VStr $"fp_lib_table"; VStr $"F"; node "zzz" [VInt 1]] in
  accepts LibTable_from (VList b) = true /\ error (LibTable_from (VList (b ++ [node "zzz" [VInt 1]; VList []; VInt 3]))) = Some EIndex.
Proof. vm_compute. split; reflexivity. Qed.

Theorem C42_Rule : itemwise Rule_from 1.
Proof. exact L_LocalA.Rule_local. Qed.
Print Assumptions C42_Rule.
Example C42_Rule_case : let b := [VStr $"rule"; VStr $"F"; node "zzz" [VInt 1]] in
  accepts Rule_from (VList b) = true /\ error (Rule_from (VList (b ++ [node "zzz" [VInt 1]; VList []; VInt 3]))) = Some EIndex.
Proof. vm_compute. split; reflexivity. Qed.

Theorem C42_DesignRules : itemwise DesignRules_from 0.
Proof. exact L_LocalA.DesignRules_local. Qed.
Print Assumptions C42_DesignRules.
Example C42_DesignRules_case : let b := [node "version" [VInt 1]; node "zzz" [VInt 1]] in
  accepts DesignRules_from (VList b) = true /\ error (DesignRules_from (VList (b ++ [node "zzz" [VInt 1]; VList []; VInt 3]))) = Some EIndex.
Proof. vm_compute. split; reflexivity. Qed.

Theorem C42_SyArc : itemwise SyArc_from 0.
Proof. exact L_LocalA.SyArc_local. Qed.
Print Assumptions C42_SyArc.
Example C42_SyArc_case : let b := [VStr $"arc"; node "zzz" [VInt 1]] in
  accepts SyArc_from (VList b) = true /\ error (SyArc_from (VList (b ++ [node "zzz" [VInt 1]; VList []; VInt 3]))) = Some EIndex.
Proof. vm_compute. split; reflexivity. Qed.

Theorem C42_SyCircle : itemwise SyCircle_from 0.
Proof. exact L_LocalA.SyCircle_local. Qed.
Print Assumptions C42_SyCircle.
Example C42_SyCircle_case : let b := [VStr $"circle"; node "zzz" [VInt 1]] in
  accepts SyCircle_from (VList b) = true /\ error (SyCircle_from (VList (b ++ [node "zzz" [VInt 1]; VList []; VInt 3]))) = Some EIndex.
Proof. vm_compute. split; reflexivity. Qed.

Theorem C42_SyCurve : itemwise SyCurve_from 0.
Proof. exact L_LocalA.SyCurve_local. Qed.
Print Assumptions C42_SyCurve.
Example C42_SyCurve_case : let b := [VStr $"curve"; node "zzz" [VInt 1]] in
  accepts SyCurve_from (VList b) = true /\ error (SyCurve_from (VList (b ++ [node "zzz" [VInt 1]; VList []; VInt 3]))) = Some EIndex.
Proof. vm_compute. split; reflexivity. Qed.

Theorem C42_SyPolyLine : itemwise SyPolyLine_from 0.
Proof. exact L_LocalA.SyPolyLine_local. Qed.
Print Assumptions C42_SyPolyLine.
Example C42_SyPolyLine_case : let b := [VStr $"polyline"; node "zzz" [VInt 1]] in
  accepts SyPolyLine_from (VList b) = true /\ error (SyPolyLine_from (VList (b ++ [node "zzz" [VInt 1]; VList []; VInt 3]))) = Some EIndex.
Proof. vm_compute. split; reflexivity. Qed.

Theorem C42_SyRect : itemwise SyRect_from 0.
Proof. exact L_LocalA.SyRect_local. Qed.
Print Assumptions C42_SyRect.
Example C42_SyRect_case : let b := [VStr $"rectangle"; node "zzz" [VInt 1]] in
  accepts SyRect_from (VList b) = true /\ error (SyRect_from (VList (b ++ [node "zzz" [VInt 1]; VList []; VInt 3]))) = Some EIndex.
Proof. vm_compute. split; reflexivity. Qed.

Theorem C42_SyText : itemwise SyText_from 1.
Proof. exact L_LocalA.SyText_local. Qed.
Print Assumptions C42_SyText.
Example C42_SyText_case : let b := [VStr $"text"; VStr $"F"; node "zzz" [VInt 1]] in
  accepts SyText_from (VList b) = true /\ error (SyText_from (VList (b ++ [node "zzz" [VInt 1]; VList []; VInt 3]))) = Some EIndex.
Proof. vm_compute. split; reflexivity. Qed.

Theorem C42_SyTextBox : itemwise SyTextBox_from 2.
Proof. exact L_LocalA.SyTextBox_local. Qed.
Print Assumptions C42_SyTextBox.
Example C42_SyTextBox_case : let b := [VStr $"text_box"; VStr $"F"; VStr $"F"; node "zzz" [VInt 1]] in
  accepts SyTextBox_from (VList b) = true /\ error (SyTextBox_from (VList (b ++ [node "zzz" [VInt 1]; VList []; VInt 3]))) = Some EIndex.
Proof. vm_compute. split; reflexivity. Qed.

Theorem C42_SymbolPin : itemwise SymbolPin_from 2.
Proof. exact L_LocalA.SymbolPin_local. Qed.
Print Assumptions C42_SymbolPin.
Example C42_SymbolPin_case : let b := [VStr $"pin"; VStr $"F"; VStr $"F"; node "zzz" [VInt 1]] in
  accepts SymbolPin_from (VList b) = true /\ error (SymbolPin_from (VList (b ++ [node "zzz" [VInt 1]; VList []; VInt 3]))) = Some EIndex.
Proof. vm_compute. split; reflexivity. Qed.

Theorem C42_Symbol : itemwise Symbol_from 1.
Proof. exact L_LocalA.Symbol_local. Qed.
Print Assumptions C42_Symbol.
Example C42_Symbol_case : let b := [VStr $"symbol"; VStr $"R"; node "zzz" [VInt 1]] in
  accepts Symbol_from (VList b) = true /\ error (Symbol_from (VList (b ++ [node "zzz" [VInt 1]; VList []; VInt 3]))) = Some EIndex.
Proof. vm_compute. split; reflexivity. Qed.

Theorem C42_SymbolLib : itemwise SymbolLib_from 0.
Proof. exact L_LocalA.SymbolLib_local. Qed.
Print Assumptions C42_SymbolLib.
Example C42_SymbolLib_case : let b := [VStr $"kicad_symbol_lib"; node "zzz" [VInt 1]] in
  accepts SymbolLib_from (VList b) = true /\ error (SymbolLib_from (VList (b ++ [node "zzz" [VInt 1]; VList []; VInt 3]))) = Some EIndex.
Proof. vm_compute. split; reflexivity. Qed.

Theorem C42_Constraint : itemwise Constraint_from 1.
Proof. exact L_LocalA.Constraint_local. Qed.
Print Assumptions C42_Constraint.
Example C42_Constraint_case : let b := [VStr $"constraint"; VStr $"F"; node "zzz" [VInt 1]] in
  accepts Constraint_from (VList b) = true /\ error (Constraint_from (VList (b ++ [node "zzz" [VInt 1]; VList []; VInt 3]))) = Some EIndex.
Proof. vm_compute. split; reflexivity. Qed.

Theorem C42_FpText : itemwise FpText_from 2.
Proof. exact L_LocalA.FpText_local. Qed.
Print Assumptions C42_FpText.
Example C42_FpText_case : let b := [VStr $"fp_text"; VStr $"F"; VStr $"F"; node "zzz" [VInt 1]] in
  accepts FpText_from (VList b) = true /\ error (FpText_from (VList (b ++ [node "zzz" [VInt 1]; VList []; VInt 3]))) = Some EIndex.
Proof. vm_compute. split; reflexivity. Qed.

Theorem C42_FpLine : itemwise FpLine_from 0.
Proof. exact L_LocalA.FpLine_local. Qed.
Print Assumptions C42_FpLine.
Example C42_FpLine_case : let b := [VStr $"fp_line"; node "zzz" [VInt 1]] in
  accepts FpLine_from (VList b) = true /\ error (FpLine_from (VList (b ++ [node "zzz" [VInt 1]; VList []; VInt 3]))) = Some EIndex.
Proof. vm_compute. split; reflexivity. Qed.

Theorem C42_FpRect : itemwise FpRect_from 0.
Proof. exact L_LocalA.FpRect_local. Qed.
Print Assumptions C42_FpRect.
Example C42_FpRect_case : let b := [VStr $"fp_rect"; node "zzz" [VInt 1]] in
  accepts FpRect_from (VList b) = true /\ error (FpRect_from (VList (b ++ [node "zzz" [VInt 1]; VList []; VInt 3]))) = Some EIndex.
Proof. vm_compute. split; reflexivity. Qed.

Theorem C42_FpCircle : itemwise FpCircle_from 0.
Proof. exact L_LocalA.FpCircle_local. Qed.
Print Assumptions C42_FpCircle.
Example C42_FpCircle_case : let b := [VStr $"fp_circle"; node "zzz" [VInt 1]] in
  accepts FpCircle_from (VList b) = true /\ error (FpCircle_from (VList (b ++ [node "zzz" [VInt 1]; VList []; VInt 3]))) = Some EIndex.
Proof. vm_compute. split; reflexivity. Qed.

Theorem C42_FpArc : itemwise FpArc_from 0.
Proof. exact L_LocalA.FpArc_local. Qed.
Print Assumptions C42_FpArc.
Example C42_FpArc_case : let b := [VStr $"fp_arc"; node "zzz" [VInt 1]] in
  accepts FpArc_from (VList b) = true /\ error (FpArc_from (VList (b ++ [node "zzz" [VInt 1]; VList []; VInt 3]))) = Some EIndex.
Proof. vm_compute. split; reflexivity. Qed.

Theorem C42_FpPoly : itemwise FpPoly_from 0.
Proof. exact L_LocalA.FpPoly_local. Qed.
Print Assumptions C42_FpPoly.
Example C42_FpPoly_case : let b := [VStr $"fp_poly"; node "zzz" [VInt 1]] in
  accepts FpPoly_from (VList b) = true /\ error (FpPoly_from (VList (b ++ [node "zzz" [VInt 1]; VList []; VInt 3]))) = Some EIndex.
Proof. vm_compute. split; reflexivity. Qed.

Theorem C42_FpCurve : itemwise FpCurve_from 0.
Proof. exact L_LocalA.FpCurve_local. Qed.
Print Assumptions C42_FpCurve.
Example C42_FpCurve_case : let b := [VStr $"fp_curve"; node "zzz" [VInt 1]] in
  accepts FpCurve_from (VList b) = true /\ error (FpCurve_from (VList (b ++ [node "zzz" [VInt 1]; VList []; VInt 3]))) = Some EIndex.
Proof. vm_compute. split; reflexivity. Qed.

Theorem C42_FpTextBox : itemwise FpTextBox_from 2.
Proof. exact L_LocalA.FpTextBox_local. Qed.
Print Assumptions C42_FpTextBox.
Example C42_FpTextBox_case : let b := [VStr $"fp_text_box"; VStr $"F"; VStr $"F"; node "zzz" [VInt 1]] in
  accepts FpTextBox_from (VList b) = true /\ error (FpTextBox_from (VList (b ++ [node "zzz" [VInt 1]; VList []; VInt 3]))) = Some EIndex.
Proof. vm_compute. split; reflexivity. Qed.

Theorem C42_GrText : itemwise GrText_from 1.
Proof. exact L_LocalA.GrText_local. Qed.
Print Assumptions C42_GrText.
Example C42_GrText_case : let b := [VStr $"gr_text"; VStr $"F"; node "zzz" [VInt 1]] in
  accepts GrText_from (VList b) = true /\ error (GrText_from (VList (b ++ [node "zzz" [VInt 1]; VList []; VInt 3]))) = Some EIndex.
Proof. vm_compute. split; reflexivity. Qed.

Theorem C42_GrLine : itemwise GrLine_from 0.
Proof. exact L_LocalA.GrLine_local. Qed.
Print Assumptions C42_GrLine.
Example C42_GrLine_case : let b := [VStr $"gr_line"; node "zzz" [VInt 1]] in
  accepts GrLine_from (VList b) = true /\ error (GrLine_from (VList (b ++ [node "zzz" [VInt 1]; VList []; VInt 3]))) = Some EIndex.
Proof. vm_compute. split; reflexivity. Qed.

Theorem C42_GrRect : itemwise GrRect_from 0.
Proof. exact L_LocalA.GrRect_local. Qed.
Print Assumptions C42_GrRect.
Example C42_GrRect_case : let b := [VStr $"gr_rect"; node "zzz" [VInt 1]] in
  accepts GrRect_from (VList b) = true /\ error (GrRect_from (VList (b ++ [node "zzz" [VInt 1]; VList []; VInt 3]))) = Some EIndex.
Proof. vm_compute. split; reflexivity. Qed.

Theorem C42_GrCircle : itemwise GrCircle_from 0.
Proof. exact L_LocalA.GrCircle_local. Qed.
Print Assumptions C42_GrCircle.
Example C42_GrCircle_case : let b := [VStr $"gr_circle"; node "zzz" [VInt 1]] in
  accepts GrCircle_from (VList b) = true /\ error (GrCircle_from (VList (b ++ [node "zzz" [VInt 1]; VList []; VInt 3]))) = Some EIndex.
Proof. vm_compute. split; reflexivity. Qed.

Theorem C42_GrArc : itemwise GrArc_from 0.
Proof. exact L_LocalA.GrArc_local. Qed.
Print Assumptions C42_GrArc.
Example C42_GrArc_case : let b := [VStr $"gr_arc"; node "zzz" [VInt 1]] in
  accepts GrArc_from (VList b) = true /\ error (GrArc_from (VList (b ++ [node "zzz" [VInt 1]; VList []; VInt 3]))) = Some EIndex.
Proof. vm_compute. split; reflexivity. Qed.

Theorem C42_GrPoly : itemwise GrPoly_from 0.
Proof. exact L_LocalA.GrPoly_local. Qed.
Print Assumptions C42_GrPoly.
Example C42_GrPoly_case : let b := [VStr $"gr_poly"; node "zzz" [VInt 1]] in
  accepts GrPoly_from (VList b) = true /\ error (GrPoly_from (VList (b ++ [node "zzz" [VInt 1]; VList []; VInt 3]))) = Some EIndex.
Proof. vm_compute. split; reflexivity. Qed.

Theorem C42_GrCurve : itemwise GrCurve_from 0.
Proof. exact L_LocalA.GrCurve_local. Qed.
Print Assumptions C42_GrCurve.
Example C42_GrCurve_case : let b := [VStr $"gr_curve"; node "zzz" [VInt 1]] in
  accepts GrCurve_from (VList b) = true /\ error (GrCurve_from (VList (b ++ [node "zzz" [VInt 1]; VList []; VInt 3]))) = Some EIndex.
Proof. vm_compute. split; reflexivity. Qed.

Theorem C42_GrTextBox : itemwise GrTextBox_from 2.
Proof. exact L_LocalA.GrTextBox_local. Qed.
Print Assumptions C42_GrTextBox.
Example C42_GrTextBox_case : let b := [VStr $"gr_text_box"; VStr $"F"; VStr $"F"; node "zzz" [VInt 1]] in
  accepts GrTextBox_from (VList b) = true /\ error (GrTextBox_from (VList (b ++ [node "zzz" [VInt 1]; VList []; VInt 3]))) = Some EIndex.
Proof. vm_compute. split; reflexivity. Qed.

Theorem C42_KeepoutSettings : itemwise KeepoutSettings_from 0.
Proof. exact L_LocalA.KeepoutSettings_local. Qed.
Print Assumptions C42_KeepoutSettings.
Example C42_KeepoutSettings_case : let b := [VStr $"keepout"; node "zzz" [VInt 1]] in
  accepts KeepoutSettings_from (VList b) = true /\ error (KeepoutSettings_from (VList (b ++ [node "zzz" [VInt 1]; VList []; VInt 3]))) = Some EIndex.
Proof. vm_compute. split; reflexivity. Qed.

Theorem C42_FillSettings : itemwise FillSettings_from 0.
Proof. exact L_LocalA.FillSettings_local. Qed.
Print Assumptions C42_FillSettings.
Example C42_FillSettings_case : let b := [VStr $"fill"; node "zzz" [VInt 1]] in
  accepts FillSettings_from (VList b) = true /\ error (FillSettings_from (VList (b ++ [node "zzz" [VInt 1]; VList []; VInt 3]))) = Some EIndex.
Proof. vm_compute. split; reflexivity. Qed.

Theorem C42_ZonePolygon : itemwise ZonePolygon_from 0.
Proof. exact L_LocalA.ZonePolygon_local. Qed.
Print Assumptions C42_ZonePolygon.
Example C42_ZonePolygon_case : let b := [VStr $"polygon"; node "zzz" [VInt 1]] in
  accepts ZonePolygon_from (VList b) = true /\ error (ZonePolygon_from (VList (b ++ [node "zzz" [VInt 1]; VList []; VInt 3]))) = Some EIndex.
Proof. vm_compute. split; reflexivity. Qed.

Theorem C42_FilledPolygon : itemwise FilledPolygon_from 0.
Proof. exact L_LocalA.FilledPolygon_local. Qed.
Print Assumptions C42_FilledPolygon.
Example C42_FilledPolygon_case : let b := [VStr $"filled_polygon"; node "zzz" [VInt 1]] in
  accepts FilledPolygon_from (VList b) = true /\ error (FilledPolygon_from (VList (b ++ [node "zzz" [VInt 1]; VList []; VInt 3]))) = Some EIndex.
Proof. vm_compute. split; reflexivity. Qed.

Theorem C42_FillSegments : itemwise FillSegments_from 0.
Proof. exact L_LocalA.FillSegments_local. Qed.
Print Assumptions C42_FillSegments.
Example C42_FillSegments_case : let b := [VStr $"fill_segments"; node "zzz" [VInt 1]] in
  accepts FillSegments_from (VList b) = true /\ error (FillSegments_from (VList (b ++ [node "zzz" [VInt 1]; VList []; VInt 3]))) = Some EIndex.
Proof. vm_compute. split; reflexivity. Qed.

Theorem C42_Zone : itemwise Zone_from 0.
Proof. exact L_LocalA.Zone_local. Qed.
Print Assumptions C42_Zone.
Example C42_Zone_case : let b := [VStr $"zone"; node "zzz" [VInt 1]] in
  accepts Zone_from (VList b) = true /\ error (Zone_from (VList (b ++ [node "zzz" [VInt 1]; VList []; VInt 3]))) = Some EIndex.
Proof. vm_compute. split; reflexivity. Qed.

Theorem C42_DimensionFormat : itemwise DimensionFormat_from 0.
Proof. exact L_LocalA.DimensionFormat_local. Qed.
Print Assumptions C42_DimensionFormat.
Example C42_DimensionFormat_case : let b := [VStr $"format"; node "zzz" [VInt 1]] in
  accepts DimensionFormat_from (VList b) = true /\ error (DimensionFormat_from (VList (b ++ [node "zzz" [VInt 1]; VList []; VInt 3]))) = Some EIndex.
Proof. vm_compute. split; reflexivity. Qed.

Theorem C42_DimensionStyle : itemwise DimensionStyle_from 0.
Proof. exact L_LocalA.DimensionStyle_local. Qed.
Print Assumptions C42_DimensionStyle.
Example C42_DimensionStyle_case : let b := [VStr $"style"; node "zzz" [VInt 1]] in
  accepts DimensionStyle_from (VList b) = true /\ error (DimensionStyle_from (VList (b ++ [node "zzz" [VInt 1]; VList []; VInt 3]))) = Some EIndex.
Proof. vm_compute. split; reflexivity. Qed.

Theorem C42_Dimension : itemwise Dimension_from 0.
Proof. exact L_LocalA.Dimension_local. Qed.
Print Assumptions C42_Dimension.
Example C42_Dimension_case : let b := [VStr $"dimension"; node "zzz" [VInt 1]] in
  accepts Dimension_from (VList b) = true /\ error (Dimension_from (VList (b ++ [node "zzz" [VInt 1]; VList []; VInt 3]))) = Some EIndex.
Proof. vm_compute. split; reflexivity. Qed.

Theorem C42_GeneralSettings : itemwise GeneralSettings_from 0.
Proof. exact L_LocalA.GeneralSettings_local. Qed.
Print Assumptions C42_GeneralSettings.
Example C42_GeneralSettings_case : let b := [VStr $"general"; node "zzz" [VInt 1]] in
  accepts GeneralSettings_from (VList b) = true /\ error (GeneralSettings_from (VList (b ++ [node "zzz" [VInt 1]; VList []; VInt 3]))) = Some EIndex.
Proof. vm_compute. split; reflexivity. Qed.

Theorem C42_Stackup : itemwise Stackup_from 0.
Proof. exact L_LocalA.Stackup_local. Qed.
Print Assumptions C42_Stackup.
Example C42_Stackup_case : let b := [VStr $"stackup"; node "zzz" [VInt 1]] in
  accepts Stackup_from (VList b) = true /\ error (Stackup_from (VList (b ++ [node "zzz" [VInt 1]; VList []; VInt 3]))) = Some EIndex.
Proof. vm_compute. split; reflexivity. Qed.

Theorem C42_PlotSettings : itemwise PlotSettings_from 0.
Proof. exact L_LocalA.PlotSettings_local. Qed.
Print Assumptions C42_PlotSettings.
Example C42_PlotSettings_case : let b := [VStr $"pcbplotparams"; node "zzz" [VInt 1]] in
  accepts PlotSettings_from (VList b) = true /\ error (PlotSettings_from (VList (b ++ [node "zzz" [VInt 1]; VList []; VInt 3]))) = Some EIndex.
Proof. vm_compute. split; reflexivity. Qed.

Theorem C42_SetupData : itemwise SetupData_from 0.
Proof. exact L_LocalA.SetupData_local. Qed.
Print Assumptions C42_SetupData.
Example C42_SetupData_case : let b := [VStr $"setup"; node "zzz" [VInt 1]] in
  accepts SetupData_from (VList b) = true /\ error (SetupData_from (VList (b ++ [node "zzz" [VInt 1]; VList []; VInt 3]))) = Some EIndex.
Proof. vm_compute. split; reflexivity. Qed.

Theorem C42_Segment : itemwise Segment_from 0.
Proof. exact L_LocalA.Segment_local. Qed.
Print Assumptions C42_Segment.
Example C42_Segment_case : let b := [VStr $"segment"; node "zzz" [VInt 1]] in
  accepts Segment_from (VList b) = true /\ error (Segment_from (VList (b ++ [node "zzz" [VInt 1]; VList []; VInt 3]))) = Some EIndex.
Proof. vm_compute. split; reflexivity. Qed.

Theorem C42_Via : itemwise Via_from 0.
Proof. exact L_LocalA.Via_local. Qed.
Print Assumptions C42_Via.
Example C42_Via_case : let b := [VStr $"via"; node "zzz" [VInt 1]] in
  accepts Via_from (VList b) = true /\ error (Via_from (VList (b ++ [node "zzz" [VInt 1]; VList []; VInt 3]))) = Some EIndex.
Proof. vm_compute. split; reflexivity. Qed.

Theorem C42_Arc : itemwise Arc_from 0.
Proof. exact L_LocalA.Arc_local. Qed.
Print Assumptions C42_Arc.
Example C42_Arc_case : let b := [VStr $"arc"; node "zzz" [VInt 1]] in
  accepts Arc_from (VList b) = true /\ error (Arc_from (VList (b ++ [node "zzz" [VInt 1]; VList []; VInt 3]))) = Some EIndex.
Proof. vm_compute. split; reflexivity. Qed.

Theorem C42_Target : itemwise Target_from 1.
Proof. exact L_LocalA.Target_local. Qed.
Print Assumptions C42_Target.
Example C42_Target_case : let b := [VStr $"target"; VStr $"F"; node "zzz" [VInt 1]] in
  accepts Target_from (VList b) = true /\ error (Target_from (VList (b ++ [node "zzz" [VInt 1]; VList []; VInt 3]))) = Some EIndex.
Proof. vm_compute. split; reflexivity. Qed.

Theorem C42_Board : forall now, itemwise (Board_from now) 0.
Proof. exact L_LocalA.Board_local. Qed.
Print Assumptions C42_Board.
Example C42_Board_case : let b := [VStr $"kicad_pcb"; node "zzz" [VInt 1]] in
  accepts (Board_from (VStr [])) (VList b) = true /\ error ((Board_from (VStr [])) (VList (b ++ [node "zzz" [VInt 1]; VList []; VInt 3]))) = Some EIndex.
Proof. vm_compute. split; reflexivity. Qed.

Theorem C42_Junction : itemwise Junction_from 0.
Proof. exact L_LocalA.Junction_local. Qed.
Print Assumptions C42_Junction.
Example C42_Junction_case : let b := [VStr $"junction"; node "zzz" [VInt 1]] in
  accepts Junction_from (VList b) = true /\ error (Junction_from (VList (b ++ [node "zzz" [VInt 1]; VList []; VInt 3]))) = Some EIndex.
Proof. vm_compute. split; reflexivity. Qed.

Theorem C42_NoConnect : itemwise NoConnect_from 0.
Proof. exact L_LocalA.NoConnect_local. Qed.
Print Assumptions C42_NoConnect.
Example C42_NoConnect_case : let b := [VStr $"no_connect"; node "zzz" [VInt 1]] in
  accepts NoConnect_from (VList b) = true /\ error (NoConnect_from (VList (b ++ [node "zzz" [VInt 1]; VList []; VInt 3]))) = Some EIndex.
Proof. vm_compute. split; reflexivity. Qed.

Theorem C42_BusEntry : itemwise BusEntry_from 0.
Proof. exact L_LocalA.BusEntry_local. Qed.
Print Assumptions C42_BusEntry.
Example C42_BusEntry_case : let b := [VStr $"bus_entry"; node "zzz" [VInt 1]] in
  accepts BusEntry_from (VList b) = true /\ error (BusEntry_from (VList (b ++ [node "zzz" [VInt 1]; VList []; VInt 3]))) = Some EIndex.
Proof. vm_compute. split; reflexivity. Qed.

Theorem C42_Connection : itemwise Connection_from 0.
Proof. exact L_LocalA.Connection_local. Qed.
Print Assumptions C42_Connection.
Example C42_Connection_case : let b := [VStr $"wire"; VStr $"F"; node "zzz" [VInt 1]] in
  accepts Connection_from (VList b) = true /\ error (Connection_from (VList (b ++ [node "zzz" [VInt 1]; VList []; VInt 3]))) = Some EIndex.
Proof. vm_compute. split; reflexivity. Qed.

Theorem C42_PolyLine : itemwise PolyLine_from 0.
Proof. exact L_LocalA.PolyLine_local. Qed.
Print Assumptions C42_PolyLine.
Example C42_PolyLine_case : let b := [VStr $"polyline"; node "zzz" [VInt 1]] in
  accepts PolyLine_from (VList b) = true /\ error (PolyLine_from (VList (b ++ [node "zzz" [VInt 1]; VList []; VInt 3]))) = Some EIndex.
Proof. vm_compute. split; reflexivity. Qed.

Theorem C42_Text : itemwise Text_from 1.
Proof. exact L_LocalA.Text_local. Qed.
Print Assumptions C42_Text.
Example C42_Text_case : let b := [VStr $"text"; VStr $"F"; node "zzz" [VInt 1]] in
  accepts Text_from (VList b) = true /\ error (Text_from (VList (b ++ [node "zzz" [VInt 1]; VList []; VInt 3]))) = Some EIndex.
Proof. vm_compute. split; reflexivity. Qed.

Theorem C42_TextBox : itemwise TextBox_from 1.
Proof. exact L_LocalA.TextBox_local. Qed.
Print Assumptions C42_TextBox.
Example C42_TextBox_case : let b := [VStr $"text_box"; VStr $"F"; node "zzz" [VInt 1]] in
  accepts TextBox_from (VList b) = true /\ error (TextBox_from (VList (b ++ [node "zzz" [VInt 1]; VList []; VInt 3]))) = Some EIndex.
Proof. vm_compute. split; reflexivity. Qed.

Theorem C42_LocalLabel : itemwise LocalLabel_from 1.
Proof. exact L_LocalA.LocalLabel_local. Qed.
Print Assumptions C42_LocalLabel.
Example C42_LocalLabel_case : let b := [VStr $"label"; VStr $"F"; node "zzz" [VInt 1]] in
  accepts LocalLabel_from (VList b) = true /\ error (LocalLabel_from (VList (b ++ [node "zzz" [VInt 1]; VList []; VInt 3]))) = Some EIndex.
Proof. vm_compute. split; reflexivity. Qed.

Theorem C42_GlobalLabel : itemwise GlobalLabel_from 1.
Proof. exact L_LocalA.GlobalLabel_local. Qed.
Print Assumptions C42_GlobalLabel.
Example C42_GlobalLabel_case : let b := [VStr $"global_label"; VStr $"F"; node "zzz" [VInt 1]] in
  accepts GlobalLabel_from (VList b) = true /\ error (GlobalLabel_from (VList (b ++ [node "zzz" [VInt 1]; VList []; VInt 3]))) = Some EIndex.
Proof. vm_compute. split; reflexivity. Qed.

Theorem C42_HierarchicalLabel : itemwise HierarchicalLabel_from 1.
Proof. exact L_LocalA.HierarchicalLabel_local. Qed.
Print Assumptions C42_HierarchicalLabel.
Example C42_HierarchicalLabel_case : let b := [VStr $"hierarchical_label"; VStr $"F"; node "zzz" [VInt 1]] in
  accepts HierarchicalLabel_from (VList b) = true /\ error (HierarchicalLabel_from (VList (b ++ [node "zzz" [VInt 1]; VList []; VInt 3]))) = Some EIndex.
Proof. vm_compute. split; reflexivity. Qed.

Theorem C42_SymbolProjectPath : itemwise SymbolProjectPath_from 1.
Proof. exact L_LocalA.SymbolProjectPath_local. Qed.
Print Assumptions C42_SymbolProjectPath.
Example C42_SymbolProjectPath_case : let b := [VStr $"path"; VStr $"F"; node "zzz" [VInt 1]] in
  accepts SymbolProjectPath_from (VList b) = true /\ error (SymbolProjectPath_from (VList (b ++ [node "zzz" [VInt 1]; VList []; VInt 3]))) = Some EIndex.
Proof. vm_compute. split; reflexivity. Qed.

Theorem C42_SymbolProjectInstance : itemwise SymbolProjectInstance_from 1.
Proof. exact L_LocalA.SymbolProjectInstance_local. Qed.
Print Assumptions C42_SymbolProjectInstance.
Example C42_SymbolProjectInstance_case : let b := [VStr $"project"; VStr $"F"; node "zzz" [VInt 1]] in
  accepts SymbolProjectInstance_from (VList b) = true /\ error (SymbolProjectInstance_from (VList (b ++ [node "zzz" [VInt 1]; VList []; VInt 3]))) = Some EIndex.
Proof. vm_compute. split; reflexivity. Qed.

Theorem C42_SchematicSymbol : itemwise SchematicSymbol_from 0.
Proof. exact L_LocalA.SchematicSymbol_local. Qed.
Print Assumptions C42_SchematicSymbol.
Example C42_SchematicSymbol_case : let b := [VStr $"symbol"; node "zzz" [VInt 1]] in
  accepts SchematicSymbol_from (VList b) = true /\ error (SchematicSymbol_from (VList (b ++ [node "zzz" [VInt 1]; VList []; VInt 3]))) = Some EIndex.
Proof. vm_compute. split; reflexivity. Qed.

Theorem C42_HierarchicalPin : itemwise HierarchicalPin_from 2.
Proof. exact L_LocalA.HierarchicalPin_local. Qed.
Print Assumptions C42_HierarchicalPin.
Example C42_HierarchicalPin_case : let b := [VStr $"pin"; VStr $"F"; VStr $"F"; node "zzz" [VInt 1]] in
  accepts HierarchicalPin_from (VList b) = true /\ error (HierarchicalPin_from (VList (b ++ [node "zzz" [VInt 1]; VList []; VInt 3]))) = Some EIndex.
Proof. vm_compute. split; reflexivity. Qed.

Theorem C42_HierarchicalSheetProjectPath : itemwise HierarchicalSheetProjectPath_from 1.
Proof. exact L_LocalA.HierarchicalSheetProjectPath_local. Qed.
Print Assumptions C42_HierarchicalSheetProjectPath.
Example C42_HierarchicalSheetProjectPath_case : let b := [VStr $"path"; VStr $"F"; node "zzz" [VInt 1]] in
  accepts HierarchicalSheetProjectPath_from (VList b) = true /\ error (HierarchicalSheetProjectPath_from (VList (b ++ [node "zzz" [VInt 1]; VList []; VInt 3]))) = Some EIndex.
Proof. vm_compute. split; reflexivity. Qed.

Theorem C42_HierarchicalSheetProjectInstance : itemwise HierarchicalSheetProjectInstance_from 1.
Proof. exact L_LocalA.HierarchicalSheetProjectInstance_local. Qed.
Print Assumptions C42_HierarchicalSheetProjectInstance.
Example C42_HierarchicalSheetProjectInstance_case : let b := [VStr $"project"; VStr $"F"; node "zzz" [VInt 1]] in
  accepts HierarchicalSheetProjectInstance_from (VList b) = true /\ error (HierarchicalSheetProjectInstance_from (VList (b ++ [node "zzz" [VInt 1]; VList []; VInt 3]))) = Some EIndex.
Proof. vm_compute. split; reflexivity. Qed.

Theorem C42_HierarchicalSheet : itemwise HierarchicalSheet_from 0.
Proof. exact L_LocalA.HierarchicalSheet_local. Qed.
Print Assumptions C42_HierarchicalSheet.
Example C42_HierarchicalSheet_case : let b := [VStr $"sheet"; node "zzz" [VInt 1]] in
  accepts HierarchicalSheet_from (VList b) = true /\ error (HierarchicalSheet_from (VList (b ++ [node "zzz" [VInt 1]; VList []; VInt 3]))) = Some EIndex.
Proof. vm_compute. split; reflexivity. Qed.

Theorem C42_HierarchicalSheetInstance : itemwise HierarchicalSheetInstance_from 1.
Proof. exact L_LocalA.HierarchicalSheetInstance_local. Qed.
Print Assumptions C42_HierarchicalSheetInstance.
Example C42_HierarchicalSheetInstance_case : let b := [VStr $"path"; VStr $"F"; node "zzz" [VInt 1]] in
  accepts HierarchicalSheetInstance_from (VList b) = true /\ error (HierarchicalSheetInstance_from (VList (b ++ [node "zzz" [VInt 1]; VList []; VInt 3]))) = Some EIndex.
Proof. vm_compute. split; reflexivity. Qed.

Theorem C42_SymbolInstance : itemwise SymbolInstance_from 1.
Proof. exact L_LocalA.SymbolInstance_local. Qed.
Print Assumptions C42_SymbolInstance.
Example C42_SymbolInstance_case : let b := [VStr $"path"; VStr $"F"; node "zzz" [VInt 1]] in
  accepts SymbolInstance_from (VList b) = true /\ error (SymbolInstance_from (VList (b ++ [node "zzz" [VInt 1]; VList []; VInt 3]))) = Some EIndex.
Proof. vm_compute. split; reflexivity. Qed.

Theorem C42_Rectangle : itemwise Rectangle_from 0.
Proof. exact L_LocalA.Rectangle_local. Qed.
Print Assumptions C42_Rectangle.
Example C42_Rectangle_case : let b := [VStr $"rectangle"; node "zzz" [VInt 1]] in
  accepts Rectangle_from (VList b) = true /\ error (Rectangle_from (VList (b ++ [node "zzz" [VInt 1]; VList []; VInt 3]))) = Some EIndex.
Proof. vm_compute. split; reflexivity. Qed.

Theorem C42_SchArc : itemwise SchArc_from 0.
Proof. exact L_LocalA.SchArc_local. Qed.
Print Assumptions C42_SchArc.
Example C42_SchArc_case : let b := [VStr $"arc"; node "zzz" [VInt 1]] in
  accepts SchArc_from (VList b) = true /\ error (SchArc_from (VList (b ++ [node "zzz" [VInt 1]; VList []; VInt 3]))) = Some EIndex.
Proof. vm_compute. split; reflexivity. Qed.

Theorem C42_Circle : itemwise Circle_from 0.
Proof. exact L_LocalA.Circle_local. Qed.
Print Assumptions C42_Circle.
Example C42_Circle_case : let b := [VStr $"circle"; node "zzz" [VInt 1]] in
  accepts Circle_from (VList b) = true /\ error (Circle_from (VList (b ++ [node "zzz" [VInt 1]; VList []; VInt 3]))) = Some EIndex.
Proof. vm_compute. split; reflexivity. Qed.

Theorem C42_NetclassFlag : itemwise NetclassFlag_from 1.
Proof. exact L_LocalA.NetclassFlag_local. Qed.
Print Assumptions C42_NetclassFlag.
Example C42_NetclassFlag_case : let b := [VStr $"netclass_flag"; VStr $"F"; node "zzz" [VInt 1]] in
  accepts NetclassFlag_from (VList b) = true /\ error (NetclassFlag_from (VList (b ++ [node "zzz" [VInt 1]; VList []; VInt 3]))) = Some EIndex.
Proof. vm_compute. split; reflexivity. Qed.

Theorem C42_Schematic : itemwise Schematic_from 0.
Proof. exact L_LocalA.Schematic_local. Qed.
Print Assumptions C42_Schematic.
Example C42_Schematic_case : let b := [VStr $"kicad_sch"; node "zzz" [VInt 1]] in
  accepts Schematic_from (VList b) = true /\ error (Schematic_from (VList (b ++ [node "zzz" [VInt 1]; VList []; VInt 3]))) = Some EIndex.
Proof. vm_compute. split; reflexivity. Qed.

Theorem C42_WksFont : itemwise WksFont_from 0.
Proof. exact L_LocalA.WksFont_local. Qed.
Print Assumptions C42_WksFont.
Example C42_WksFont_case : let b := [VStr $"font"; node "zzz" [VInt 1]] in
  accepts WksFont_from (VList b) = true /\ error (WksFont_from (VList (b ++ [node "zzz" [VInt 1]; VList []; VInt 3]))) = Some EIndex.
Proof. vm_compute. split; reflexivity. Qed.

Theorem C42_Line : itemwise Line_from 0.
Proof. exact L_LocalA.Line_local. Qed.
Print Assumptions C42_Line.
Example C42_Line_case : let b := [VStr $"line"; node "zzz" [VInt 1]] in
  accepts Line_from (VList b) = true /\ error (Line_from (VList (b ++ [node "zzz" [VInt 1]; VList []; VInt 3]))) = Some EIndex.
Proof. vm_compute. split; reflexivity. Qed.

Theorem C42_Rect : itemwise Rect_from 0.
Proof. exact L_LocalA.Rect_local. Qed.
Print Assumptions C42_Rect.
Example C42_Rect_case : let b := [VStr $"rect"; node "zzz" [VInt 1]] in
  accepts Rect_from (VList b) = true /\ error (Rect_from (VList (b ++ [node "zzz" [VInt 1]; VList []; VInt 3]))) = Some EIndex.
Proof. vm_compute. split; reflexivity. Qed.

Theorem C42_Bitmap : itemwise Bitmap_from 0.
Proof. exact L_LocalA.Bitmap_local. Qed.
Print Assumptions C42_Bitmap.
Example C42_Bitmap_case : let b := [VStr $"bitmap"; node "zzz" [VInt 1]] in
  accepts Bitmap_from (VList b) = true /\ error (Bitmap_from (VList (b ++ [node "zzz" [VInt 1]; VList []; VInt 3]))) = Some EIndex.
Proof. vm_compute. split; reflexivity. Qed.

Theorem C42_TbText : itemwise TbText_from 1.
Proof. exact L_LocalA.TbText_local. Qed.
Print Assumptions C42_TbText.
Example C42_TbText_case : let b := [VStr $"tbtext"; VStr $"F"; node "zzz" [VInt 1]] in
  accepts TbText_from (VList b) = true /\ error (TbText_from (VList (b ++ [node "zzz" [VInt 1]; VList []; VInt 3]))) = Some EIndex.
Proof. vm_compute. split; reflexivity. Qed.

Theorem C42_Setup : itemwise Setup_from 0.
Proof. exact L_LocalA.Setup_local. Qed.
Print Assumptions C42_Setup.
Example C42_Setup_case : let b := [VStr $"setup"; node "zzz" [VInt 1]] in
  accepts Setup_from (VList b) = true /\ error (Setup_from (VList (b ++ [node "zzz" [VInt 1]; VList []; VInt 3]))) = Some EIndex.
Proof. vm_compute. split; reflexivity. Qed.

Theorem C42_WorkSheet : itemwise WorkSheet_from 0.
Proof. exact L_LocalA.WorkSheet_local. Qed.
Print Assumptions C42_WorkSheet.
Example C42_WorkSheet_case : let b := [VStr $"kicad_wks"; node "zzz" [VInt 1]] in
  accepts WorkSheet_from (VList b) = true /\ error (WorkSheet_from (VList (b ++ [node "zzz" [VInt 1]; VList []; VInt 3]))) = Some EIndex.
Proof. vm_compute. split; reflexivity. Qed.

Theorem C42_Attributes : itemwise Attributes_from 1.
Proof. exact L_LocalA.Attributes_local. Qed.
Print Assumptions C42_Attributes.
Example C42_Attributes_case : let b := [VStr $"attr"; VStr $"F"; node "zzz" [VInt 1]] in
  accepts Attributes_from (VList b) = true /\ error (Attributes_from (VList (b ++ [node "zzz" [VInt 1]; VList []; VInt 3]))) = None.
Proof. vm_compute. split; reflexivity. Qed.

Theorem C42_Model : itemwise Model_from 4.
Proof. exact L_LocalA.Model_local. Qed.
Print Assumptions C42_Model.
Example C42_Model_case : let b := [VStr $"model"; VStr $"F"; VStr $"F"; node "zzz" [VInt 1]; node "zzz" [VInt 1]; node "zzz" [VInt 1]] in
  accepts Model_from (VList b) = true /\ error (Model_from (VList (b ++ [node "zzz" [VInt 1]; VList []; VInt 3]))) = Some EIndex.
Proof. vm_compute. split; reflexivity. Qed.

Theorem C42_DrillDefinition : itemwise DrillDefinition_from 3.
Proof. exact L_LocalA.DrillDefinition_local. Qed.
Print Assumptions C42_DrillDefinition.
Example C42_DrillDefinition_case : let b := [VStr $"drill"; VStr $"F"; VStr $"F"; VStr $"F"; node "zzz" [VInt 1]] in
  accepts DrillDefinition_from (VList b) = true /\ error (DrillDefinition_from (VList (b ++ [node "zzz" [VInt 1]; VList []; VInt 3]))) = Some EIndex.
Proof. vm_compute. split; reflexivity. Qed.

Theorem C42_PadOptions : itemwise PadOptions_from 0.
Proof. exact L_LocalA.PadOptions_local. Qed.
Print Assumptions C42_PadOptions.
Example C42_PadOptions_case : let b := [VStr $"options"; node "zzz" [VInt 1]] in
  accepts PadOptions_from (VList b) = true /\ error (PadOptions_from (VList (b ++ [node "zzz" [VInt 1]; VList []; VInt 3]))) = Some EIndex.
Proof. vm_compute. split; reflexivity. Qed.

Theorem C42_Pad : itemwise Pad_from 3.
Proof. exact L_LocalA.Pad_local. Qed.
Print Assumptions C42_Pad.
Example C42_Pad_case : let b := [VStr $"pad"; VStr $"F"; VStr $"F"; VStr $"F"; node "zzz" [VInt 1]] in
  accepts Pad_from (VList b) = true /\ error (Pad_from (VList (b ++ [node "zzz" [VInt 1]; VList []; VInt 3]))) = Some EIndex.
Proof. vm_compute. split; reflexivity. Qed.

Theorem C42_Footprint : forall now, itemwise (Footprint_from now) 1.
Proof. exact L_LocalA.Footprint_local. Qed.
Print Assumptions C42_Footprint.
Example C42_Footprint_case : let b := [VStr $"module"; VStr $"F"; VStr $"F"; node "zzz" [VInt 1]] in
  accepts (Footprint_from (VStr [])) (VList b) = true /\ error ((Footprint_from (VStr [])) (VList (b ++ [node "zzz" [VInt 1]; VList []; VInt 3]))) = Some EIndex.
Proof. vm_compute. split; reflexivity. Qed.

(** In a stackup layer an item behind [addsublayer] belongs to a sub-layer, whose reader looks at fewer tokens. *)
Theorem C42_StackupLayer_refuted : ~ itemwise StackupLayer_from 1.
Proof. intros H. specialize (H (VStr $"layer") [VStr $"F.Cu"] [VStr $"addsublayer"; node "type" []] (le_n 1) eq_refl). vm_compute in H. discriminate H. Qed.
Print Assumptions C42_StackupLayer_refuted.
