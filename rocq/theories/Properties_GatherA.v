(** Property theorems C37: list attributes hold the children in order, dictionaries the last value of each key. *)
From Verif Require Import PyBase PyNum PyStr PyRe Sexpr S_Leaf S_Tree S_Reader S_Gather S_Fix M_Common M_Lib M_Sym M_Zone M_Fp M_Gr M_Dim M_Brd M_Footprint M_Board M_Sch M_Schematic M_Wks
  S_Common S_Lib S_Sym S_Zone S_Fp S_Gr S_Dim S_Brd S_Footprint S_Board S_Sch S_Schematic S_Wks
  Properties_Common Properties_Fp Properties_Gr Properties_Lib Properties_Sym Properties_Zone L_GatherA.

Theorem C37_Group : copies_args Group_from 0 ["members"]%string gr_members.
Proof. exact Group_gather. Qed.
Print Assumptions C37_Group.
Example C37_Group_ex : accepts Group_from (Group_tree (mkGroup (VStr $"g ""1""") true (VStr $"6fe2b9d8-0001") [VStr $"0012"; VStr $"abc-1"])) = true.
Proof. vm_compute. reflexivity. Qed.

Theorem C37_RenderCachePolygon : collects_args RenderCachePolygon_from 0 ["pts"]%string Position_from rp_pts.
Proof. exact RenderCachePolygon_gather. Qed.
Print Assumptions C37_RenderCachePolygon.
Example C37_RenderCachePolygon_ex : accepts RenderCachePolygon_from (RenderCachePolygon_tree (ex_poly)) = true.
Proof. vm_compute. reflexivity. Qed.

Theorem C37_RenderCache : collects RenderCache_from 0 ["polygon"]%string RenderCachePolygon_from rc_polygons.
Proof. exact RenderCache_gather. Qed.
Print Assumptions C37_RenderCache.
Example C37_RenderCache_ex : accepts RenderCache_from (RenderCache_tree (mkRenderCache (VStr $"some text") (VStr $"0") [ex_poly; mkRenderCachePolygon []])) = true.
Proof. vm_compute. reflexivity. Qed.

Theorem C37_Image : copies_args Image_from 0 ["data"]%string im_data.
Proof. exact Image_gather. Qed.
Print Assumptions C37_Image.
Example C37_Image_ex : accepts Image_from (Image_tree (mkImage (ex_xy (fdec 1234 (-2)) (VInt 5)) (fdec 5 (-1)) [VStr $"iVBORw0KGgo="; VStr $"12"] (VStr $"a-b-c") (VStr $"F.SilkS"))) = true.
Proof. vm_compute. reflexivity. Qed.

Theorem C37_LibTable : collects LibTable_from 0 ["lib"]%string Library_from lt_libs.
Proof. exact LibTable_gather. Qed.
Print Assumptions C37_LibTable.
Example C37_LibTable_ex : accepts LibTable_from (LibTable_tree (mkLibTable (VStr $"fp_lib_table") [ex_lib true; ex_lib false; Library_default] VNone)) = true.
Proof. vm_compute. reflexivity. Qed.

Theorem C37_Rule : collects Rule_from 2 ["constraint"]%string Constraint_from ru_constraints.
Proof. exact Rule_gather. Qed.
Print Assumptions C37_Rule.
Example C37_Rule_ex : accepts Rule_from (Rule_tree (ex_rule)) = true.
Proof. vm_compute. reflexivity. Qed.

Theorem C37_DesignRules : collects DesignRules_from 0 ["rule"]%string Rule_from dr_rules.
Proof. exact DesignRules_gather. Qed.
Print Assumptions C37_DesignRules.
Example C37_DesignRules_ex : accepts DesignRules_from (DesignRules_tree (mkDesignRules (VInt 1) [ex_rule; ex_rule; Rule_default] VNone)) = true.
Proof. vm_compute. reflexivity. Qed.

Theorem C37_SyCurve : collects_args SyCurve_from 0 ["pts"]%string Position_from sc_points.
Proof. exact SyCurve_gather. Qed.
Print Assumptions C37_SyCurve.
Example C37_SyCurve_ex : accepts SyCurve_from (SyCurve_tree (SyCurve_default <| sc_points := [Position_default; Position_default <| po_X := VInt 3 |>] |>)) = true.
Proof. vm_compute. reflexivity. Qed.

Theorem C37_SyPolyLine : collects_args SyPolyLine_from 0 ["pts"]%string Position_from sl_points.
Proof. exact SyPolyLine_gather. Qed.
Print Assumptions C37_SyPolyLine.
Example C37_SyPolyLine_ex : accepts SyPolyLine_from (SyPolyLine_tree (mkSyPolyLine [ex_xy (VInt 2) (VInt 3); ex_xy (fdec 1 (-1)) (VInt 0); ex_xy (VInt 2) (VInt 3)] ex_stroke ex_fill)) = true.
Proof. vm_compute. reflexivity. Qed.

Theorem C37_SymbolPin : collects SymbolPin_from 3 ["alternate"]%string SymbolAlternativePin_from sp_alternatePins.
Proof. exact SymbolPin_gather. Qed.
Print Assumptions C37_SymbolPin.
Example C37_SymbolPin_ex : accepts SymbolPin_from (SymbolPin_tree (ex_pin)) = true.
Proof. vm_compute. reflexivity. Qed.

Theorem C37_Symbol : collects Symbol_from 2 ["symbol"]%string Symbol_from sy_units
  /\ collects Symbol_from 2 ["property"]%string Property_from sy_properties
  /\ collects Symbol_from 2 ["pin"]%string SymbolPin_from sy_pins
  /\ collects Symbol_from 2 ["arc"; "circle"; "curve"; "polyline"; "rectangle"; "text"; "text_box"]%string (by_head [("arc"%string, as_ SyItem_SyArc SyArc_from); ("circle"%string, as_ SyItem_SyCircle SyCircle_from); ("curve"%string, as_ SyItem_SyCurve SyCurve_from); ("polyline"%string, as_ SyItem_SyPolyLine SyPolyLine_from); ("rectangle"%string, as_ SyItem_SyRect SyRect_from); ("text"%string, as_ SyItem_SyText SyText_from); ("text_box"%string, as_ SyItem_SyTextBox SyTextBox_from)]) sy_graphicItems.
Proof. exact Symbol_gather. Qed.
Print Assumptions C37_Symbol.
Example C37_Symbol_ex : accepts Symbol_from (Symbol_tree (ex_symbol)) = true.
Proof. vm_compute. reflexivity. Qed.

Theorem C37_SymbolLib : collects SymbolLib_from 1 ["symbol"]%string Symbol_from sj_symbols.
Proof. exact SymbolLib_gather. Qed.
Print Assumptions C37_SymbolLib.
Example C37_SymbolLib_ex : accepts SymbolLib_from (SymbolLib_tree (mkSymbolLib (VInt 20211014) (VStr $"kicad_symbol_editor") [ex_symbol; ex_unit 3 []] VNone)) = true.
Proof. vm_compute. reflexivity. Qed.

Theorem C37_ZonePolygon : collects_args ZonePolygon_from 0 ["pts"]%string Position_from zp_coordinates.
Proof. exact ZonePolygon_gather. Qed.
Print Assumptions C37_ZonePolygon.
Example C37_ZonePolygon_ex : accepts ZonePolygon_from (ZonePolygon_tree (mkZonePolygon ex_pts)) = true.
Proof. vm_compute. reflexivity. Qed.

Theorem C37_FilledPolygon : collects_args FilledPolygon_from 0 ["pts"]%string Position_from zf_coordinates.
Proof. exact FilledPolygon_gather. Qed.
Print Assumptions C37_FilledPolygon.
Example C37_FilledPolygon_ex : accepts FilledPolygon_from (FilledPolygon_tree (mkFilledPolygon (VStr $"In1.Cu") true ex_pts)) = true.
Proof. vm_compute. reflexivity. Qed.

Theorem C37_FillSegments : collects_args FillSegments_from 0 ["pts"]%string Position_from zs_coordinates.
Proof. exact FillSegments_gather. Qed.
Print Assumptions C37_FillSegments.
Example C37_FillSegments_ex : accepts FillSegments_from (FillSegments_tree (mkFillSegments (VStr $"In1.Cu") ex_pts)) = true.
Proof. vm_compute. reflexivity. Qed.

Theorem C37_Zone : copies_args Zone_from 0 ["layers"; "layer"]%string zo_layers
  /\ collects Zone_from 0 ["polygon"]%string ZonePolygon_from zo_polygons
  /\ collects Zone_from 0 ["filled_polygon"]%string FilledPolygon_from zo_filledPolygons.
Proof. exact Zone_gather. Qed.
Print Assumptions C37_Zone.
Example C37_Zone_ex : accepts Zone_from (Zone_tree (ex_zone)) = true.
Proof. vm_compute. reflexivity. Qed.

