(** When the flags are set (C45): exactly when their word or token is among the items.  Generated from the from_sexpr methods,
    except for the last four. *)
From Verif Require Import PyBase PyNum PyStr PyRe Sexpr S_Leaf S_Tree S_Id S_Reader S_Gather S_Pick S_Place M_Common M_Lib M_Sym M_Fp M_Gr M_Zone M_Footprint M_Dim M_Brd M_Board M_Sch M_Schematic M_Wks.
From Verif Require L_FlagA.

Theorem C45_Position : flags Position_from 0 (word "unlocked"%string) po_unlocked.
Proof. exact L_FlagA.Position_flags. Qed.
Print Assumptions C45_Position.
Example C45_Position_case : let e := [VStr $"at"; VInt 1; VInt 2] in
  (match Position_from (VList e), Position_from (VList (e ++ [VStr $"unlocked"])) with Ok a, Ok b => po_unlocked a = false /\ po_unlocked b = true | _, _ => False end).
Proof. vm_compute. repeat split. Qed.

Theorem C45_Font : flags Font_from 0 (word "bold"%string) fo_bold /\
  flags Font_from 0 (word "italic"%string) fo_italic.
Proof. exact L_FlagA.Font_flags. Qed.
Print Assumptions C45_Font.
Example C45_Font_case : let e := [VStr $"font"; node "zzz" [VInt 1]] in
  (match Font_from (VList e), Font_from (VList (e ++ [VStr $"bold"])) with Ok a, Ok b => fo_bold a = false /\ fo_bold b = true | _, _ => False end) /\
  (match Font_from (VList e), Font_from (VList (e ++ [VStr $"italic"])) with Ok a, Ok b => fo_italic a = false /\ fo_italic b = true | _, _ => False end).
Proof. vm_compute. repeat split. Qed.

Theorem C45_Justify : flags Justify_from 0 (word "mirror"%string) ju_mirror.
Proof. exact L_FlagA.Justify_flags. Qed.
Print Assumptions C45_Justify.
Example C45_Justify_case : let e := [VStr $"justify"; node "zzz" [VInt 1]] in
  (match Justify_from (VList e), Justify_from (VList (e ++ [VStr $"mirror"])) with Ok a, Ok b => ju_mirror a = false /\ ju_mirror b = true | _, _ => False end).
Proof. vm_compute. repeat split. Qed.

Theorem C45_Effects : flags Effects_from 0 (word "hide"%string) ef_hide.
Proof. exact L_FlagA.Effects_flags. Qed.
Print Assumptions C45_Effects.
Example C45_Effects_case : let e := [VStr $"effects"; node "zzz" [VInt 1]] in
  (match Effects_from (VList e), Effects_from (VList (e ++ [VStr $"hide"])) with Ok a, Ok b => ef_hide a = false /\ ef_hide b = true | _, _ => False end).
Proof. vm_compute. repeat split. Qed.

Theorem C45_Group : flags Group_from 0 (word "locked"%string) M_Common.gr_locked.
Proof. exact L_FlagA.Group_flags. Qed.
Print Assumptions C45_Group.
Example C45_Group_case : let e := [VStr $"group"; VStr $"F"; node "zzz" [VInt 1]] in
  (match Group_from (VList e), Group_from (VList (e ++ [VStr $"locked"])) with Ok a, Ok b => M_Common.gr_locked a = false /\ M_Common.gr_locked b = true | _, _ => False end).
Proof. vm_compute. repeat split. Qed.

Theorem C45_PageSettings : flags PageSettings_from 0 (word "portrait"%string) pg_portrait.
Proof. exact L_FlagA.PageSettings_flags. Qed.
Print Assumptions C45_PageSettings.
Example C45_PageSettings_case : let e := [VStr $"paper"; VStr $"F"; VStr $"F"; VStr $"F"; node "zzz" [VInt 1]] in
  (match PageSettings_from (VList e), PageSettings_from (VList (e ++ [VStr $"portrait"])) with Ok a, Ok b => pg_portrait a = false /\ pg_portrait b = true | _, _ => False end).
Proof. vm_compute. repeat split. Qed.

Theorem C45_Property : flags Property_from 3 (head "show_name"%string) pr_showName.
Proof. exact L_FlagA.Property_flags. Qed.
Print Assumptions C45_Property.
Example C45_Property_case : let e := [VStr $"property"; VStr $"F"; VStr $"F"; node "zzz" [VInt 1]] in
  (match Property_from (VList e), Property_from (VList (e ++ [node "show_name" [VInt 1]])) with Ok a, Ok b => pr_showName a = false /\ pr_showName b = true | _, _ => False end).
Proof. vm_compute. repeat split. Qed.

Theorem C45_SyArc : flags SyArc_from 0 (word "private"%string) sa_private.
Proof. exact L_FlagA.SyArc_flags. Qed.
Print Assumptions C45_SyArc.
Example C45_SyArc_case : let e := [VStr $"arc"; node "zzz" [VInt 1]] in
  (match SyArc_from (VList e), SyArc_from (VList (e ++ [VStr $"private"])) with Ok a, Ok b => sa_private a = false /\ sa_private b = true | _, _ => False end).
Proof. vm_compute. repeat split. Qed.

Theorem C45_SyCircle : flags SyCircle_from 0 (word "private"%string) si_private.
Proof. exact L_FlagA.SyCircle_flags. Qed.
Print Assumptions C45_SyCircle.
Example C45_SyCircle_case : let e := [VStr $"circle"; node "zzz" [VInt 1]] in
  (match SyCircle_from (VList e), SyCircle_from (VList (e ++ [VStr $"private"])) with Ok a, Ok b => si_private a = false /\ si_private b = true | _, _ => False end).
Proof. vm_compute. repeat split. Qed.

Theorem C45_SyRect : flags SyRect_from 0 (word "private"%string) sr_private.
Proof. exact L_FlagA.SyRect_flags. Qed.
Print Assumptions C45_SyRect.
Example C45_SyRect_case : let e := [VStr $"rectangle"; node "zzz" [VInt 1]] in
  (match SyRect_from (VList e), SyRect_from (VList (e ++ [VStr $"private"])) with Ok a, Ok b => sr_private a = false /\ sr_private b = true | _, _ => False end).
Proof. vm_compute. repeat split. Qed.

Theorem C45_SymbolPin : flags SymbolPin_from 3 (word "hide"%string) sp_hide.
Proof. exact L_FlagA.SymbolPin_flags. Qed.
Print Assumptions C45_SymbolPin.
Example C45_SymbolPin_case : let e := [VStr $"pin"; VStr $"F"; VStr $"F"; node "zzz" [VInt 1]] in
  (match SymbolPin_from (VList e), SymbolPin_from (VList (e ++ [VStr $"hide"])) with Ok a, Ok b => sp_hide a = false /\ sp_hide b = true | _, _ => False end).
Proof. vm_compute. repeat split. Qed.

Theorem C45_FpLine : flags FpLine_from 0 (word "locked"%string) fl_locked.
Proof. exact L_FlagA.FpLine_flags. Qed.
Print Assumptions C45_FpLine.
Example C45_FpLine_case : let e := [VStr $"fp_line"; node "zzz" [VInt 1]] in
  (match FpLine_from (VList e), FpLine_from (VList (e ++ [VStr $"locked"])) with Ok a, Ok b => fl_locked a = false /\ fl_locked b = true | _, _ => False end).
Proof. vm_compute. repeat split. Qed.

Theorem C45_FpRect : flags FpRect_from 0 (word "locked"%string) fr_locked.
Proof. exact L_FlagA.FpRect_flags. Qed.
Print Assumptions C45_FpRect.
Example C45_FpRect_case : let e := [VStr $"fp_rect"; node "zzz" [VInt 1]] in
  (match FpRect_from (VList e), FpRect_from (VList (e ++ [VStr $"locked"])) with Ok a, Ok b => fr_locked a = false /\ fr_locked b = true | _, _ => False end).
Proof. vm_compute. repeat split. Qed.

Theorem C45_FpCircle : flags FpCircle_from 0 (word "locked"%string) fc_locked.
Proof. exact L_FlagA.FpCircle_flags. Qed.
Print Assumptions C45_FpCircle.
Example C45_FpCircle_case : let e := [VStr $"fp_circle"; node "zzz" [VInt 1]] in
  (match FpCircle_from (VList e), FpCircle_from (VList (e ++ [VStr $"locked"])) with Ok a, Ok b => fc_locked a = false /\ fc_locked b = true | _, _ => False end).
Proof. vm_compute. repeat split. Qed.

Theorem C45_FpArc : flags FpArc_from 0 (word "locked"%string) fa_locked.
Proof. exact L_FlagA.FpArc_flags. Qed.
Print Assumptions C45_FpArc.
Example C45_FpArc_case : let e := [VStr $"fp_arc"; node "zzz" [VInt 1]] in
  (match FpArc_from (VList e), FpArc_from (VList (e ++ [VStr $"locked"])) with Ok a, Ok b => fa_locked a = false /\ fa_locked b = true | _, _ => False end).
Proof. vm_compute. repeat split. Qed.

Theorem C45_FpPoly : flags FpPoly_from 0 (word "locked"%string) fp_locked.
Proof. exact L_FlagA.FpPoly_flags. Qed.
Print Assumptions C45_FpPoly.
Example C45_FpPoly_case : let e := [VStr $"fp_poly"; node "zzz" [VInt 1]] in
  (match FpPoly_from (VList e), FpPoly_from (VList (e ++ [VStr $"locked"])) with Ok a, Ok b => fp_locked a = false /\ fp_locked b = true | _, _ => False end).
Proof. vm_compute. repeat split. Qed.

Theorem C45_FpCurve : flags FpCurve_from 0 (word "locked"%string) fv_locked.
Proof. exact L_FlagA.FpCurve_flags. Qed.
Print Assumptions C45_FpCurve.
Example C45_FpCurve_case : let e := [VStr $"fp_curve"; node "zzz" [VInt 1]] in
  (match FpCurve_from (VList e), FpCurve_from (VList (e ++ [VStr $"locked"])) with Ok a, Ok b => fv_locked a = false /\ fv_locked b = true | _, _ => False end).
Proof. vm_compute. repeat split. Qed.

Theorem C45_GrLine : flags GrLine_from 0 (word "locked"%string) gl_locked.
Proof. exact L_FlagA.GrLine_flags. Qed.
Print Assumptions C45_GrLine.
Example C45_GrLine_case : let e := [VStr $"gr_line"; node "zzz" [VInt 1]] in
  (match GrLine_from (VList e), GrLine_from (VList (e ++ [VStr $"locked"])) with Ok a, Ok b => gl_locked a = false /\ gl_locked b = true | _, _ => False end).
Proof. vm_compute. repeat split. Qed.

Theorem C45_GrRect : flags GrRect_from 0 (word "locked"%string) M_Gr.gr_locked.
Proof. exact L_FlagA.GrRect_flags. Qed.
Print Assumptions C45_GrRect.
Example C45_GrRect_case : let e := [VStr $"gr_rect"; node "zzz" [VInt 1]] in
  (match GrRect_from (VList e), GrRect_from (VList (e ++ [VStr $"locked"])) with Ok a, Ok b => M_Gr.gr_locked a = false /\ M_Gr.gr_locked b = true | _, _ => False end).
Proof. vm_compute. repeat split. Qed.

Theorem C45_GrCircle : flags GrCircle_from 0 (word "locked"%string) gc_locked.
Proof. exact L_FlagA.GrCircle_flags. Qed.
Print Assumptions C45_GrCircle.
Example C45_GrCircle_case : let e := [VStr $"gr_circle"; node "zzz" [VInt 1]] in
  (match GrCircle_from (VList e), GrCircle_from (VList (e ++ [VStr $"locked"])) with Ok a, Ok b => gc_locked a = false /\ gc_locked b = true | _, _ => False end).
Proof. vm_compute. repeat split. Qed.

Theorem C45_GrArc : flags GrArc_from 0 (word "locked"%string) ga_locked.
Proof. exact L_FlagA.GrArc_flags. Qed.
Print Assumptions C45_GrArc.
Example C45_GrArc_case : let e := [VStr $"gr_arc"; node "zzz" [VInt 1]] in
  (match GrArc_from (VList e), GrArc_from (VList (e ++ [VStr $"locked"])) with Ok a, Ok b => ga_locked a = false /\ ga_locked b = true | _, _ => False end).
Proof. vm_compute. repeat split. Qed.

Theorem C45_GrPoly : flags GrPoly_from 0 (word "locked"%string) gp_locked.
Proof. exact L_FlagA.GrPoly_flags. Qed.
Print Assumptions C45_GrPoly.
Example C45_GrPoly_case : let e := [VStr $"gr_poly"; node "zzz" [VInt 1]] in
  (match GrPoly_from (VList e), GrPoly_from (VList (e ++ [VStr $"locked"])) with Ok a, Ok b => gp_locked a = false /\ gp_locked b = true | _, _ => False end).
Proof. vm_compute. repeat split. Qed.

Theorem C45_GrCurve : flags GrCurve_from 0 (word "locked"%string) gv_locked.
Proof. exact L_FlagA.GrCurve_flags. Qed.
Print Assumptions C45_GrCurve.
Example C45_GrCurve_case : let e := [VStr $"gr_curve"; node "zzz" [VInt 1]] in
  (match GrCurve_from (VList e), GrCurve_from (VList (e ++ [VStr $"locked"])) with Ok a, Ok b => gv_locked a = false /\ gv_locked b = true | _, _ => False end).
Proof. vm_compute. repeat split. Qed.

Theorem C45_FillSettings : flags FillSettings_from 0 (word "yes"%string) fs_yes.
Proof. exact L_FlagA.FillSettings_flags. Qed.
Print Assumptions C45_FillSettings.
Example C45_FillSettings_case : let e := [VStr $"fill"; node "zzz" [VInt 1]] in
  (match FillSettings_from (VList e), FillSettings_from (VList (e ++ [VStr $"yes"])) with Ok a, Ok b => fs_yes a = false /\ fs_yes b = true | _, _ => False end).
Proof. vm_compute. repeat split. Qed.

Theorem C45_FilledPolygon : flags FilledPolygon_from 0 (head "island"%string) zf_island.
Proof. exact L_FlagA.FilledPolygon_flags. Qed.
Print Assumptions C45_FilledPolygon.
Example C45_FilledPolygon_case : let e := [VStr $"filled_polygon"; node "zzz" [VInt 1]] in
  (match FilledPolygon_from (VList e), FilledPolygon_from (VList (e ++ [node "island" [VInt 1]])) with Ok a, Ok b => zf_island a = false /\ zf_island b = true | _, _ => False end).
Proof. vm_compute. repeat split. Qed.

Theorem C45_Zone : flags Zone_from 0 (word "locked"%string) zo_locked.
Proof. exact L_FlagA.Zone_flags. Qed.
Print Assumptions C45_Zone.
Example C45_Zone_case : let e := [VStr $"zone"; node "zzz" [VInt 1]] in
  (match Zone_from (VList e), Zone_from (VList (e ++ [VStr $"locked"])) with Ok a, Ok b => zo_locked a = false /\ zo_locked b = true | _, _ => False end).
Proof. vm_compute. repeat split. Qed.

Theorem C45_Attributes : flags Attributes_from 0 (word "board_only"%string) fx_boardOnly /\
  flags Attributes_from 0 (word "exclude_from_pos_files"%string) fx_excludeFromPosFiles /\
  flags Attributes_from 0 (word "exclude_from_bom"%string) fx_excludeFromBom /\
  flags Attributes_from 0 (word "allow_missing_courtyard"%string) fx_allowMissingCourtyard.
Proof. exact L_FlagA.Attributes_flags. Qed.
Print Assumptions C45_Attributes.
Example C45_Attributes_case : let e := [VStr $"attr"; VStr $"F"; node "zzz" [VInt 1]] in
  (match Attributes_from (VList e), Attributes_from (VList (e ++ [VStr $"board_only"])) with Ok a, Ok b => fx_boardOnly a = false /\ fx_boardOnly b = true | _, _ => False end) /\
  (match Attributes_from (VList e), Attributes_from (VList (e ++ [VStr $"exclude_from_pos_files"])) with Ok a, Ok b => fx_excludeFromPosFiles a = false /\ fx_excludeFromPosFiles b = true | _, _ => False end) /\
  (match Attributes_from (VList e), Attributes_from (VList (e ++ [VStr $"exclude_from_bom"])) with Ok a, Ok b => fx_excludeFromBom a = false /\ fx_excludeFromBom b = true | _, _ => False end) /\
  (match Attributes_from (VList e), Attributes_from (VList (e ++ [VStr $"allow_missing_courtyard"])) with Ok a, Ok b => fx_allowMissingCourtyard a = false /\ fx_allowMissingCourtyard b = true | _, _ => False end).
Proof. vm_compute. repeat split. Qed.

Theorem C45_Pad : flags Pad_from 3 (word "locked"%string) pd_locked /\
  flags Pad_from 3 (head "remove_unused_layers"%string) pd_removeUnusedLayers /\
  flags Pad_from 3 (head "keep_end_layers"%string) pd_keepEndLayers.
Proof. exact L_FlagA.Pad_flags. Qed.
Print Assumptions C45_Pad.
Example C45_Pad_case : let e := [VStr $"pad"; VStr $"F"; VStr $"F"; VStr $"F"; node "zzz" [VInt 1]] in
  (match Pad_from (VList e), Pad_from (VList (e ++ [VStr $"locked"])) with Ok a, Ok b => pd_locked a = false /\ pd_locked b = true | _, _ => False end) /\
  (match Pad_from (VList e), Pad_from (VList (e ++ [node "remove_unused_layers" [VInt 1]])) with Ok a, Ok b => pd_removeUnusedLayers a = false /\ pd_removeUnusedLayers b = true | _, _ => False end) /\
  (match Pad_from (VList e), Pad_from (VList (e ++ [node "keep_end_layers" [VInt 1]])) with Ok a, Ok b => pd_keepEndLayers a = false /\ pd_keepEndLayers b = true | _, _ => False end).
Proof. vm_compute. repeat split. Qed.

Theorem C45_DimensionFormat : flags DimensionFormat_from 1 (word "suppress_zeroes"%string) df_suppressZeroes.
Proof. exact L_FlagA.DimensionFormat_flags. Qed.
Print Assumptions C45_DimensionFormat.
Example C45_DimensionFormat_case : let e := [VStr $"format"; node "zzz" [VInt 1]] in
  (match DimensionFormat_from (VList e), DimensionFormat_from (VList (e ++ [VStr $"suppress_zeroes"])) with Ok a, Ok b => df_suppressZeroes a = false /\ df_suppressZeroes b = true | _, _ => False end).
Proof. vm_compute. repeat split. Qed.

Theorem C45_DimensionStyle : flags DimensionStyle_from 1 (word "keep_text_aligned"%string) ds_keepTextAligned.
Proof. exact L_FlagA.DimensionStyle_flags. Qed.
Print Assumptions C45_DimensionStyle.
Example C45_DimensionStyle_case : let e := [VStr $"style"; node "zzz" [VInt 1]] in
  (match DimensionStyle_from (VList e), DimensionStyle_from (VList (e ++ [VStr $"keep_text_aligned"])) with Ok a, Ok b => ds_keepTextAligned a = false /\ ds_keepTextAligned b = true | _, _ => False end).
Proof. vm_compute. repeat split. Qed.

Theorem C45_Dimension : flags Dimension_from 1 (word "locked"%string) di_locked.
Proof. exact L_FlagA.Dimension_flags. Qed.
Print Assumptions C45_Dimension.
Example C45_Dimension_case : let e := [VStr $"dimension"; node "zzz" [VInt 1]] in
  (match Dimension_from (VList e), Dimension_from (VList (e ++ [VStr $"locked"])) with Ok a, Ok b => di_locked a = false /\ di_locked b = true | _, _ => False end).
Proof. vm_compute. repeat split. Qed.

Theorem C45_Stackup : flags Stackup_from 0 (head "castellated_pads"%string) sk_castellatedPads /\
  flags Stackup_from 0 (head "edge_plating"%string) sk_edgePlating.
Proof. exact L_FlagA.Stackup_flags. Qed.
Print Assumptions C45_Stackup.
Example C45_Stackup_case : let e := [VStr $"stackup"; node "zzz" [VInt 1]] in
  (match Stackup_from (VList e), Stackup_from (VList (e ++ [node "castellated_pads" [VInt 1]])) with Ok a, Ok b => sk_castellatedPads a = false /\ sk_castellatedPads b = true | _, _ => False end) /\
  (match Stackup_from (VList e), Stackup_from (VList (e ++ [node "edge_plating" [VInt 1]])) with Ok a, Ok b => sk_edgePlating a = false /\ sk_edgePlating b = true | _, _ => False end).
Proof. vm_compute. repeat split. Qed.

Theorem C45_Segment : flags Segment_from 0 (word "locked"%string) sg_locked.
Proof. exact L_FlagA.Segment_flags. Qed.
Print Assumptions C45_Segment.
Example C45_Segment_case : let e := [VStr $"segment"; node "zzz" [VInt 1]] in
  (match Segment_from (VList e), Segment_from (VList (e ++ [VStr $"locked"])) with Ok a, Ok b => sg_locked a = false /\ sg_locked b = true | _, _ => False end).
Proof. vm_compute. repeat split. Qed.

Theorem C45_Via : flags Via_from 0 (word "locked"%string) vi_locked /\
  flags Via_from 0 (head "remove_unused_layers"%string) vi_removeUnusedLayers /\
  flags Via_from 0 (head "keep_end_layers"%string) vi_keepEndLayers /\
  flags Via_from 0 (head "free"%string) vi_free.
Proof. exact L_FlagA.Via_flags. Qed.
Print Assumptions C45_Via.
Example C45_Via_case : let e := [VStr $"via"; node "zzz" [VInt 1]] in
  (match Via_from (VList e), Via_from (VList (e ++ [VStr $"locked"])) with Ok a, Ok b => vi_locked a = false /\ vi_locked b = true | _, _ => False end) /\
  (match Via_from (VList e), Via_from (VList (e ++ [node "remove_unused_layers" [VInt 1]])) with Ok a, Ok b => vi_removeUnusedLayers a = false /\ vi_removeUnusedLayers b = true | _, _ => False end) /\
  (match Via_from (VList e), Via_from (VList (e ++ [node "keep_end_layers" [VInt 1]])) with Ok a, Ok b => vi_keepEndLayers a = false /\ vi_keepEndLayers b = true | _, _ => False end) /\
  (match Via_from (VList e), Via_from (VList (e ++ [node "free" [VInt 1]])) with Ok a, Ok b => vi_free a = false /\ vi_free b = true | _, _ => False end).
Proof. vm_compute. repeat split. Qed.

Theorem C45_Arc : flags Arc_from 0 (word "locked"%string) ac_locked.
Proof. exact L_FlagA.Arc_flags. Qed.
Print Assumptions C45_Arc.
Example C45_Arc_case : let e := [VStr $"arc"; node "zzz" [VInt 1]] in
  (match Arc_from (VList e), Arc_from (VList (e ++ [VStr $"locked"])) with Ok a, Ok b => ac_locked a = false /\ ac_locked b = true | _, _ => False end).
Proof. vm_compute. repeat split. Qed.

Theorem C45_LocalLabel : flags LocalLabel_from 2 (head "fields_autoplaced"%string) ll_fieldsAutoplaced.
Proof. exact L_FlagA.LocalLabel_flags. Qed.
Print Assumptions C45_LocalLabel.
Example C45_LocalLabel_case : let e := [VStr $"label"; VStr $"F"; node "zzz" [VInt 1]] in
  (match LocalLabel_from (VList e), LocalLabel_from (VList (e ++ [node "fields_autoplaced" [VInt 1]])) with Ok a, Ok b => ll_fieldsAutoplaced a = false /\ ll_fieldsAutoplaced b = true | _, _ => False end).
Proof. vm_compute. repeat split. Qed.

Theorem C45_GlobalLabel : flags GlobalLabel_from 2 (head "fields_autoplaced"%string) gla_fieldsAutoplaced.
Proof. exact L_FlagA.GlobalLabel_flags. Qed.
Print Assumptions C45_GlobalLabel.
Example C45_GlobalLabel_case : let e := [VStr $"global_label"; VStr $"F"; node "zzz" [VInt 1]] in
  (match GlobalLabel_from (VList e), GlobalLabel_from (VList (e ++ [node "fields_autoplaced" [VInt 1]])) with Ok a, Ok b => gla_fieldsAutoplaced a = false /\ gla_fieldsAutoplaced b = true | _, _ => False end).
Proof. vm_compute. repeat split. Qed.

Theorem C45_HierarchicalLabel : flags HierarchicalLabel_from 2 (head "fields_autoplaced"%string) hl_fieldsAutoplaced.
Proof. exact L_FlagA.HierarchicalLabel_flags. Qed.
Print Assumptions C45_HierarchicalLabel.
Example C45_HierarchicalLabel_case : let e := [VStr $"hierarchical_label"; VStr $"F"; node "zzz" [VInt 1]] in
  (match HierarchicalLabel_from (VList e), HierarchicalLabel_from (VList (e ++ [node "fields_autoplaced" [VInt 1]])) with Ok a, Ok b => hl_fieldsAutoplaced a = false /\ hl_fieldsAutoplaced b = true | _, _ => False end).
Proof. vm_compute. repeat split. Qed.

Theorem C45_SchematicSymbol : flags SchematicSymbol_from 1 (head "fields_autoplaced"%string) ss_fieldsAutoplaced.
Proof. exact L_FlagA.SchematicSymbol_flags. Qed.
Print Assumptions C45_SchematicSymbol.
Example C45_SchematicSymbol_case : let e := [VStr $"symbol"; node "zzz" [VInt 1]] in
  (match SchematicSymbol_from (VList e), SchematicSymbol_from (VList (e ++ [node "fields_autoplaced" [VInt 1]])) with Ok a, Ok b => ss_fieldsAutoplaced a = false /\ ss_fieldsAutoplaced b = true | _, _ => False end).
Proof. vm_compute. repeat split. Qed.

Theorem C45_HierarchicalSheet : flags HierarchicalSheet_from 1 (head "fields_autoplaced"%string) hs_fieldsAutoplaced.
Proof. exact L_FlagA.HierarchicalSheet_flags. Qed.
Print Assumptions C45_HierarchicalSheet.
Example C45_HierarchicalSheet_case : let e := [VStr $"sheet"; node "zzz" [VInt 1]] in
  (match HierarchicalSheet_from (VList e), HierarchicalSheet_from (VList (e ++ [node "fields_autoplaced" [VInt 1]])) with Ok a, Ok b => hs_fieldsAutoplaced a = false /\ hs_fieldsAutoplaced b = true | _, _ => False end).
Proof. vm_compute. repeat split. Qed.

Theorem C45_NetclassFlag : flags NetclassFlag_from 2 (head "fields_autoplaced"%string) nf_fieldsAutoplaced.
Proof. exact L_FlagA.NetclassFlag_flags. Qed.
Print Assumptions C45_NetclassFlag.
Example C45_NetclassFlag_case : let e := [VStr $"netclass_flag"; VStr $"F"; node "zzz" [VInt 1]] in
  (match NetclassFlag_from (VList e), NetclassFlag_from (VList (e ++ [node "fields_autoplaced" [VInt 1]])) with Ok a, Ok b => nf_fieldsAutoplaced a = false /\ nf_fieldsAutoplaced b = true | _, _ => False end).
Proof. vm_compute. repeat split. Qed.

Theorem C45_WksFont : flags WksFont_from 0 (word "bold"%string) wf_bold /\
  flags WksFont_from 0 (word "italic"%string) wf_italic.
Proof. exact L_FlagA.WksFont_flags. Qed.
Print Assumptions C45_WksFont.
Example C45_WksFont_case : let e := [VStr $"font"; node "zzz" [VInt 1]] in
  (match WksFont_from (VList e), WksFont_from (VList (e ++ [VStr $"bold"])) with Ok a, Ok b => wf_bold a = false /\ wf_bold b = true | _, _ => False end) /\
  (match WksFont_from (VList e), WksFont_from (VList (e ++ [VStr $"italic"])) with Ok a, Ok b => wf_italic a = false /\ wf_italic b = true | _, _ => False end).
Proof. vm_compute. repeat split. Qed.

Theorem C45_Footprint : forall now, flags (Footprint_from now) 2 (word "locked"%string) fd_locked /\ flags (Footprint_from now) 2 (word "placed"%string) fd_placed.
Proof. exact L_FlagA.Footprint_flags. Qed.
Print Assumptions C45_Footprint.
Example C45_Footprint_case : match Footprint_from VNone (node "footprint" [VStr $"a:b"; VStr $"locked"]), Footprint_from VNone (node "footprint" [VStr $"a:b"; VStr $"placed"]) with
  | Ok a, Ok b => fd_locked a = true /\ fd_placed a = false /\ fd_locked b = false /\ fd_placed b = true | _, _ => False end.
Proof. vm_compute. repeat split. Qed.

Theorem C45_Symbol : 
  flags Symbol_from 2 (head "pin_names"%string) sy_pinNames /\ flags Symbol_from 2 (head "power"%string) sy_isPower
  /\ flags Symbol_from 2 (headed "pin_numbers"%string (fun l => match l with x :: _ => is_str x "hide" | [] => false end)) sy_hidePinNumbers
  /\ flags Symbol_from 2 (headed "pin_names"%string hides) sy_pinNamesHide.
Proof. exact L_FlagA.Symbol_flags. Qed.
Print Assumptions C45_Symbol.
Example C45_Symbol_case : match Symbol_from (node "symbol" [VStr $"R"; node "pin_names" [VStr $"hide"]; node "power" []; node "pin_numbers" [VStr $"hide"]]), Symbol_from (node "symbol" [VStr $"R"; node "pin_names" []; node "pin_numbers" [VInt 1]]) with
  | Ok a, Ok b => sy_pinNames a = true /\ sy_isPower a = true /\ sy_hidePinNumbers a = true /\ sy_pinNamesHide a = true /\ sy_pinNames b = true /\ sy_isPower b = false /\ sy_hidePinNumbers b = false /\ sy_pinNamesHide b = false | _, _ => False end.
Proof. vm_compute. repeat split. Qed.

Theorem C45_FpText : 
  flags FpText_from 3 (word "hide"%string) ft_hide /\ flags FpText_from 3 (headed "layer"%string knocked) ft_knockout.
Proof. exact L_FlagA.FpText_flags. Qed.
Print Assumptions C45_FpText.
Example C45_FpText_case : match FpText_from (node "fp_text" [VStr $"user"; VStr $"hide"; VStr $"hide"; node "layer" [VStr $"F.Cu"; VStr $"knockout"]; node "layer" [VStr $"x"]]), FpText_from (node "fp_text" [VStr $"user"; VStr $"hide"]) with
  | Ok a, Ok b => ft_hide a = true /\ ft_knockout a = true /\ ft_hide b = false /\ ft_knockout b = false | _, _ => False end.
Proof. vm_compute. repeat split. Qed.

Theorem C45_GrText : 
  flags GrText_from 2 (word "locked"%string) gt_locked /\ flags GrText_from 2 (headed "layer"%string knocked) gt_knockout.
Proof. exact L_FlagA.GrText_flags. Qed.
Print Assumptions C45_GrText.
Example C45_GrText_case : match GrText_from (node "gr_text" [VStr $"locked"; VStr $"locked"; node "layer" [VStr $"F.Cu"; VStr $"knockout"]; node "layer" [VStr $"x"]]), GrText_from (node "gr_text" [VStr $"locked"]) with
  | Ok a, Ok b => gt_locked a = true /\ gt_knockout a = true /\ gt_locked b = false /\ gt_knockout b = false | _, _ => False end.
Proof. vm_compute. repeat split. Qed.

