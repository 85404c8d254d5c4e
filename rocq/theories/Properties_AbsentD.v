(** Missing tokens: what the readers put in place of a token that does not occur (C38). Each [case] is an
    expression without any of the keys of the theorem that the reader accepts. *)
From Verif Require Import PyBase PyNum PyStr Sexpr S_Leaf S_Tree S_Reader M_Common M_Lib M_Sym M_Fp M_Gr M_Zone M_Footprint M_Dim M_Brd M_Board M_Sch M_Schematic M_Wks.
From Verif Require L_AbsentD.

Theorem C38_Junction : absent Junction_from ["at"]%string jn_position (mkPosition (fdec 0 0) (fdec 0 0) VNone false) /\
  absent Junction_from [] jn_diameter (VInt 0) /\
  absent Junction_from ["color"; "diameter"]%string jn_color (JColor_obj (mkColorRGBA (VInt 0) (VInt 0) (VInt 0) (VInt 0) VNone)) /\
  absent Junction_from ["uuid"]%string jn_uuid VNone.
Proof. exact L_AbsentD.Junction_absent. Qed.
Print Assumptions C38_Junction.
Example C38_Junction_case : let items := [VStr $"junction"; node "zzz" [VInt 1]] in
  (lacks ["at"; "color"; "diameter"; "uuid"]%string items && accepts (Junction_from) (VList items))%bool = true.
Proof. vm_compute. reflexivity. Qed.

Theorem C38_NoConnect : absent NoConnect_from ["at"]%string nc_position (mkPosition (fdec 0 0) (fdec 0 0) VNone false) /\
  absent NoConnect_from ["uuid"]%string nc_uuid VNone.
Proof. exact L_AbsentD.NoConnect_absent. Qed.
Print Assumptions C38_NoConnect.
Example C38_NoConnect_case : let items := [VStr $"no_connect"; node "zzz" [VInt 1]] in
  (lacks ["at"; "uuid"]%string items && accepts (NoConnect_from) (VList items))%bool = true.
Proof. vm_compute. reflexivity. Qed.

Theorem C38_BusEntry : absent BusEntry_from ["at"]%string be_position (mkPosition (fdec 0 0) (fdec 0 0) VNone false) /\
  absent BusEntry_from ["uuid"]%string be_uuid VNone /\
  absent BusEntry_from ["size"]%string be_size (mkPosition (fdec 0 0) (fdec 0 0) VNone false) /\
  absent BusEntry_from ["stroke"]%string be_stroke (mkStroke (fdec 0 0) VNone None).
Proof. exact L_AbsentD.BusEntry_absent. Qed.
Print Assumptions C38_BusEntry.
Example C38_BusEntry_case : let items := [VStr $"bus_entry"; node "zzz" [VInt 1]] in
  (lacks ["at"; "uuid"; "size"; "stroke"]%string items && accepts (BusEntry_from) (VList items))%bool = true.
Proof. vm_compute. reflexivity. Qed.

Theorem C38_Connection : absent Connection_from ["pts"]%string cx_points [] /\
  absent Connection_from ["stroke"]%string cx_stroke (mkStroke (fdec 0 0) VNone None) /\
  absent Connection_from ["uuid"]%string cx_uuid VNone.
Proof. exact L_AbsentD.Connection_absent. Qed.
Print Assumptions C38_Connection.
Example C38_Connection_case : let items := [VStr $"wire"; VStr $"F"; node "zzz" [VInt 1]] in
  (lacks ["pts"; "stroke"; "uuid"]%string items && accepts (Connection_from) (VList items))%bool = true.
Proof. vm_compute. reflexivity. Qed.

Theorem C38_PolyLine : absent PolyLine_from ["pts"]%string pl_points [] /\
  absent PolyLine_from ["stroke"]%string pl_stroke (mkStroke (fdec 0 0) VNone None) /\
  absent PolyLine_from ["uuid"]%string pl_uuid VNone.
Proof. exact L_AbsentD.PolyLine_absent. Qed.
Print Assumptions C38_PolyLine.
Example C38_PolyLine_case : let items := [VStr $"polyline"; node "zzz" [VInt 1]] in
  (lacks ["pts"; "stroke"; "uuid"]%string items && accepts (PolyLine_from) (VList items))%bool = true.
Proof. vm_compute. reflexivity. Qed.

Theorem C38_Text : absent Text_from ["at"]%string tx_position (mkPosition (fdec 0 0) (fdec 0 0) VNone false) /\
  absent Text_from ["effects"]%string tx_effects (mkEffects (mkFont VNone (fdec 1 0) (fdec 1 0) VNone false false VNone None) (mkJustify VNone VNone false) false VNone) /\
  absent Text_from ["uuid"]%string tx_uuid VNone.
Proof. exact L_AbsentD.Text_absent. Qed.
Print Assumptions C38_Text.
Example C38_Text_case : let items := [VStr $"text"; VStr $"F"; node "zzz" [VInt 1]] in
  (lacks ["at"; "effects"; "uuid"]%string items && accepts (Text_from) (VList items))%bool = true.
Proof. vm_compute. reflexivity. Qed.

Theorem C38_TextBox : absent TextBox_from ["at"]%string bx_position (mkPosition (fdec 0 0) (fdec 0 0) VNone false) /\
  absent TextBox_from ["size"]%string bx_size (mkPosition (fdec 0 0) (fdec 0 0) VNone false) /\
  absent TextBox_from ["stroke"]%string bx_stroke (mkStroke (fdec 0 0) VNone None) /\
  absent TextBox_from ["fill"]%string bx_fill (mkFill (VStr $"none") None) /\
  absent TextBox_from ["effects"]%string bx_effects (mkEffects (mkFont VNone (fdec 1 0) (fdec 1 0) VNone false false VNone None) (mkJustify VNone VNone false) false VNone) /\
  absent TextBox_from ["uuid"]%string bx_uuid VNone.
Proof. exact L_AbsentD.TextBox_absent. Qed.
Print Assumptions C38_TextBox.
Example C38_TextBox_case : let items := [VStr $"text_box"; VStr $"F"; node "zzz" [VInt 1]] in
  (lacks ["at"; "size"; "stroke"; "fill"; "effects"; "uuid"]%string items && accepts (TextBox_from) (VList items))%bool = true.
Proof. vm_compute. reflexivity. Qed.

Theorem C38_LocalLabel : absent LocalLabel_from ["at"]%string ll_position (mkPosition (fdec 0 0) (fdec 0 0) VNone false) /\
  absent LocalLabel_from ["effects"]%string ll_effects (mkEffects (mkFont VNone (fdec 1 0) (fdec 1 0) VNone false false VNone None) (mkJustify VNone VNone false) false VNone) /\
  absent LocalLabel_from ["uuid"]%string ll_uuid VNone /\
  absent LocalLabel_from ["fields_autoplaced"]%string ll_fieldsAutoplaced false.
Proof. exact L_AbsentD.LocalLabel_absent. Qed.
Print Assumptions C38_LocalLabel.
Example C38_LocalLabel_case : let items := [VStr $"label"; VStr $"F"; node "zzz" [VInt 1]] in
  (lacks ["at"; "effects"; "uuid"; "fields_autoplaced"]%string items && accepts (LocalLabel_from) (VList items))%bool = true.
Proof. vm_compute. reflexivity. Qed.

Theorem C38_GlobalLabel : absent GlobalLabel_from ["shape"]%string gla_shape (VStr $"input") /\
  absent GlobalLabel_from ["fields_autoplaced"]%string gla_fieldsAutoplaced false /\
  absent GlobalLabel_from ["at"]%string gla_position (mkPosition (fdec 0 0) (fdec 0 0) VNone false) /\
  absent GlobalLabel_from ["effects"]%string gla_effects (mkEffects (mkFont VNone (fdec 1 0) (fdec 1 0) VNone false false VNone None) (mkJustify VNone VNone false) false VNone) /\
  absent GlobalLabel_from ["uuid"]%string gla_uuid VNone /\
  absent GlobalLabel_from ["property"]%string gla_properties [].
Proof. exact L_AbsentD.GlobalLabel_absent. Qed.
Print Assumptions C38_GlobalLabel.
Example C38_GlobalLabel_case : let items := [VStr $"global_label"; VStr $"F"; node "zzz" [VInt 1]] in
  (lacks ["shape"; "fields_autoplaced"; "at"; "effects"; "uuid"; "property"]%string items && accepts (GlobalLabel_from) (VList items))%bool = true.
Proof. vm_compute. reflexivity. Qed.

Theorem C38_HierarchicalLabel : absent HierarchicalLabel_from ["shape"]%string hl_shape (VStr $"input") /\
  absent HierarchicalLabel_from ["at"]%string hl_position (mkPosition (fdec 0 0) (fdec 0 0) VNone false) /\
  absent HierarchicalLabel_from ["effects"]%string hl_effects (mkEffects (mkFont VNone (fdec 1 0) (fdec 1 0) VNone false false VNone None) (mkJustify VNone VNone false) false VNone) /\
  absent HierarchicalLabel_from ["uuid"]%string hl_uuid VNone /\
  absent HierarchicalLabel_from ["fields_autoplaced"]%string hl_fieldsAutoplaced false.
Proof. exact L_AbsentD.HierarchicalLabel_absent. Qed.
Print Assumptions C38_HierarchicalLabel.
Example C38_HierarchicalLabel_case : let items := [VStr $"hierarchical_label"; VStr $"F"; node "zzz" [VInt 1]] in
  (lacks ["shape"; "at"; "effects"; "uuid"; "fields_autoplaced"]%string items && accepts (HierarchicalLabel_from) (VList items))%bool = true.
Proof. vm_compute. reflexivity. Qed.

Theorem C38_SymbolProjectPath : absent SymbolProjectPath_from ["reference"]%string spp_reference (VStr []) /\
  absent SymbolProjectPath_from ["unit"]%string spp_unit (VInt 1).
Proof. exact L_AbsentD.SymbolProjectPath_absent. Qed.
Print Assumptions C38_SymbolProjectPath.
Example C38_SymbolProjectPath_case : let items := [VStr $"path"; VStr $"F"; node "zzz" [VInt 1]] in
  (lacks ["reference"; "unit"]%string items && accepts (SymbolProjectPath_from) (VList items))%bool = true.
Proof. vm_compute. reflexivity. Qed.

Theorem C38_SymbolProjectInstance : absent SymbolProjectInstance_from ["path"]%string spi_paths [].
Proof. exact L_AbsentD.SymbolProjectInstance_absent. Qed.
Print Assumptions C38_SymbolProjectInstance.
Example C38_SymbolProjectInstance_case : let items := [VStr $"project"; VStr $"F"; node "zzz" [VInt 1]] in
  (lacks ["path"]%string items && accepts (SymbolProjectInstance_from) (VList items))%bool = true.
Proof. vm_compute. reflexivity. Qed.

Theorem C38_SchematicSymbol : absent SchematicSymbol_from ["lib_id"]%string ss_libraryNickname VNone /\
  absent SchematicSymbol_from ["lib_id"]%string ss_entryName VNone /\
  absent SchematicSymbol_from ["lib_name"]%string ss_libName VNone /\
  absent SchematicSymbol_from ["at"]%string ss_position (mkPosition (fdec 0 0) (fdec 0 0) VNone false) /\
  absent SchematicSymbol_from ["unit"]%string ss_unit VNone /\
  absent SchematicSymbol_from ["in_bom"]%string ss_inBom false /\
  absent SchematicSymbol_from ["on_board"]%string ss_onBoard false /\
  absent SchematicSymbol_from ["dnp"]%string ss_dnp None /\
  absent SchematicSymbol_from ["fields_autoplaced"]%string ss_fieldsAutoplaced false /\
  absent SchematicSymbol_from ["uuid"]%string ss_uuid (VStr []) /\
  absent SchematicSymbol_from ["property"]%string ss_properties [] /\
  absent SchematicSymbol_from ["pin"]%string ss_pins [] /\
  absent SchematicSymbol_from ["mirror"]%string ss_mirror VNone /\
  absent SchematicSymbol_from ["instances"]%string ss_instances [].
Proof. exact L_AbsentD.SchematicSymbol_absent. Qed.
Print Assumptions C38_SchematicSymbol.
Example C38_SchematicSymbol_case : let items := [VStr $"symbol"; node "zzz" [VInt 1]] in
  (lacks ["lib_id"; "lib_name"; "at"; "unit"; "in_bom"; "on_board"; "dnp"; "fields_autoplaced"; "uuid"; "property"; "pin"; "mirror"; "instances"]%string items && accepts (SchematicSymbol_from) (VList items))%bool = true.
Proof. vm_compute. reflexivity. Qed.

Theorem C38_HierarchicalPin : absent HierarchicalPin_from ["at"]%string hp_position (mkPosition (fdec 0 0) (fdec 0 0) VNone false) /\
  absent HierarchicalPin_from ["effects"]%string hp_effects (mkEffects (mkFont VNone (fdec 1 0) (fdec 1 0) VNone false false VNone None) (mkJustify VNone VNone false) false VNone) /\
  absent HierarchicalPin_from ["uuid"]%string hp_uuid VNone.
Proof. exact L_AbsentD.HierarchicalPin_absent. Qed.
Print Assumptions C38_HierarchicalPin.
Example C38_HierarchicalPin_case : let items := [VStr $"pin"; VStr $"F"; VStr $"F"; node "zzz" [VInt 1]] in
  (lacks ["at"; "effects"; "uuid"]%string items && accepts (HierarchicalPin_from) (VList items))%bool = true.
Proof. vm_compute. reflexivity. Qed.

Theorem C38_HierarchicalSheetProjectPath : absent HierarchicalSheetProjectPath_from ["page"]%string hpp_page (VStr []).
Proof. exact L_AbsentD.HierarchicalSheetProjectPath_absent. Qed.
Print Assumptions C38_HierarchicalSheetProjectPath.
Example C38_HierarchicalSheetProjectPath_case : let items := [VStr $"path"; VStr $"F"; node "zzz" [VInt 1]] in
  (lacks ["page"]%string items && accepts (HierarchicalSheetProjectPath_from) (VList items))%bool = true.
Proof. vm_compute. reflexivity. Qed.

Theorem C38_HierarchicalSheetProjectInstance : absent HierarchicalSheetProjectInstance_from ["path"]%string hpi_paths [].
Proof. exact L_AbsentD.HierarchicalSheetProjectInstance_absent. Qed.
Print Assumptions C38_HierarchicalSheetProjectInstance.
Example C38_HierarchicalSheetProjectInstance_case : let items := [VStr $"project"; VStr $"F"; node "zzz" [VInt 1]] in
  (lacks ["path"]%string items && accepts (HierarchicalSheetProjectInstance_from) (VList items))%bool = true.
Proof. vm_compute. reflexivity. Qed.

Theorem C38_HierarchicalSheet : absent HierarchicalSheet_from ["at"]%string hs_position (mkPosition (fdec 0 0) (fdec 0 0) VNone false) /\
  absent HierarchicalSheet_from ["size"]%string hs_width (VInt 0) /\
  absent HierarchicalSheet_from ["size"]%string hs_height (VInt 0) /\
  absent HierarchicalSheet_from ["fields_autoplaced"]%string hs_fieldsAutoplaced false /\
  absent HierarchicalSheet_from ["stroke"]%string hs_stroke (mkStroke (fdec 0 0) VNone None) /\
  absent HierarchicalSheet_from ["fill"]%string hs_fill (mkColorRGBA (VInt 0) (VInt 0) (VInt 0) (VInt 0) VNone) /\
  absent HierarchicalSheet_from ["uuid"]%string hs_uuid VNone /\
  absent HierarchicalSheet_from ["property"]%string hs_sheetName ((mkProperty (VStr []) (VStr []) VNone ((mkPosition (fdec 0 0) (fdec 0 0) VNone false) <| po_angle := VInt 0 |>) None false) <| pr_key := VStr $"Sheet name" |>) /\
  absent HierarchicalSheet_from ["property"]%string hs_fileName ((mkProperty (VStr []) (VStr []) VNone ((mkPosition (fdec 0 0) (fdec 0 0) VNone false) <| po_angle := VInt 0 |>) None false) <| pr_key := VStr $"Sheet file" |>) /\
  absent HierarchicalSheet_from ["property"]%string hs_properties [] /\
  absent HierarchicalSheet_from ["pin"]%string hs_pins [] /\
  absent HierarchicalSheet_from ["instances"]%string hs_instances [].
Proof. exact L_AbsentD.HierarchicalSheet_absent. Qed.
Print Assumptions C38_HierarchicalSheet.
Example C38_HierarchicalSheet_case : let items := [VStr $"sheet"; node "zzz" [VInt 1]] in
  (lacks ["at"; "size"; "fields_autoplaced"; "stroke"; "fill"; "uuid"; "property"; "pin"; "instances"]%string items && accepts (HierarchicalSheet_from) (VList items))%bool = true.
Proof. vm_compute. reflexivity. Qed.

Theorem C38_HierarchicalSheetInstance : absent HierarchicalSheetInstance_from ["page"]%string hi_page (VStr $"1").
Proof. exact L_AbsentD.HierarchicalSheetInstance_absent. Qed.
Print Assumptions C38_HierarchicalSheetInstance.
Example C38_HierarchicalSheetInstance_case : let items := [VStr $"path"; VStr $"F"; node "zzz" [VInt 1]] in
  (lacks ["page"]%string items && accepts (HierarchicalSheetInstance_from) (VList items))%bool = true.
Proof. vm_compute. reflexivity. Qed.

Theorem C38_SymbolInstance : absent SymbolInstance_from ["reference"]%string syi_reference (VStr []) /\
  absent SymbolInstance_from ["unit"]%string syi_unit (VInt 0) /\
  absent SymbolInstance_from ["value"]%string syi_value (VStr []) /\
  absent SymbolInstance_from ["footprint"]%string syi_footprint (VStr []).
Proof. exact L_AbsentD.SymbolInstance_absent. Qed.
Print Assumptions C38_SymbolInstance.
Example C38_SymbolInstance_case : let items := [VStr $"path"; VStr $"F"; node "zzz" [VInt 1]] in
  (lacks ["reference"; "unit"; "value"; "footprint"]%string items && accepts (SymbolInstance_from) (VList items))%bool = true.
Proof. vm_compute. reflexivity. Qed.

Theorem C38_Rectangle : absent Rectangle_from ["start"]%string rct_start (mkPosition (fdec 0 0) (fdec 0 0) VNone false) /\
  absent Rectangle_from ["end"]%string rct_end (mkPosition (fdec 0 0) (fdec 0 0) VNone false) /\
  absent Rectangle_from ["stroke"]%string rct_stroke (mkStroke (fdec 0 0) VNone None) /\
  absent Rectangle_from ["fill"]%string rct_fill (mkFill (VStr $"none") None) /\
  absent Rectangle_from ["uuid"]%string rct_uuid VNone.
Proof. exact L_AbsentD.Rectangle_absent. Qed.
Print Assumptions C38_Rectangle.
Example C38_Rectangle_case : let items := [VStr $"rectangle"; node "zzz" [VInt 1]] in
  (lacks ["start"; "end"; "stroke"; "fill"; "uuid"]%string items && accepts (Rectangle_from) (VList items))%bool = true.
Proof. vm_compute. reflexivity. Qed.

Theorem C38_SchArc : absent SchArc_from ["start"]%string sar_start (mkPosition (fdec 0 0) (fdec 0 0) VNone false) /\
  absent SchArc_from ["mid"]%string sar_mid (mkPosition (fdec 0 0) (fdec 0 0) VNone false) /\
  absent SchArc_from ["end"]%string sar_end (mkPosition (fdec 0 0) (fdec 0 0) VNone false) /\
  absent SchArc_from ["stroke"]%string sar_stroke (mkStroke (fdec 0 0) VNone None) /\
  absent SchArc_from ["fill"]%string sar_fill (mkFill (VStr $"none") None) /\
  absent SchArc_from ["uuid"]%string sar_uuid VNone.
Proof. exact L_AbsentD.SchArc_absent. Qed.
Print Assumptions C38_SchArc.
Example C38_SchArc_case : let items := [VStr $"arc"; node "zzz" [VInt 1]] in
  (lacks ["start"; "mid"; "end"; "stroke"; "fill"; "uuid"]%string items && accepts (SchArc_from) (VList items))%bool = true.
Proof. vm_compute. reflexivity. Qed.

Theorem C38_Circle : absent Circle_from ["center"]%string cir_center (mkPosition (fdec 0 0) (fdec 0 0) VNone false) /\
  absent Circle_from ["radius"]%string cir_radius (fdec 0 0) /\
  absent Circle_from ["stroke"]%string cir_stroke (mkStroke (fdec 0 0) VNone None) /\
  absent Circle_from ["fill"]%string cir_fill (mkFill (VStr $"none") None) /\
  absent Circle_from ["uuid"]%string cir_uuid VNone.
Proof. exact L_AbsentD.Circle_absent. Qed.
Print Assumptions C38_Circle.
Example C38_Circle_case : let items := [VStr $"circle"; node "zzz" [VInt 1]] in
  (lacks ["center"; "radius"; "stroke"; "fill"; "uuid"]%string items && accepts (Circle_from) (VList items))%bool = true.
Proof. vm_compute. reflexivity. Qed.

Theorem C38_NetclassFlag : absent NetclassFlag_from ["length"]%string nf_length (fdec 254 (-2)) /\
  absent NetclassFlag_from ["shape"]%string nf_shape (VStr $"round") /\
  absent NetclassFlag_from ["at"]%string nf_position None /\
  absent NetclassFlag_from ["effects"]%string nf_effects None /\
  absent NetclassFlag_from ["property"]%string nf_properties [] /\
  absent NetclassFlag_from ["uuid"]%string nf_uuid VNone /\
  absent NetclassFlag_from ["fields_autoplaced"]%string nf_fieldsAutoplaced false.
Proof. exact L_AbsentD.NetclassFlag_absent. Qed.
Print Assumptions C38_NetclassFlag.
Example C38_NetclassFlag_case : let items := [VStr $"netclass_flag"; VStr $"F"; node "zzz" [VInt 1]] in
  (lacks ["length"; "shape"; "at"; "effects"; "property"; "uuid"; "fields_autoplaced"]%string items && accepts (NetclassFlag_from) (VList items))%bool = true.
Proof. vm_compute. reflexivity. Qed.

Theorem C38_Schematic : absent Schematic_from ["version"]%string sc_version (VStr $"20211014") /\
  absent Schematic_from ["generator"]%string sc_generator (VStr $"kiutils") /\
  absent Schematic_from ["uuid"]%string sc_uuid VNone /\
  absent Schematic_from ["paper"]%string sc_paper (mkPageSettings (VStr $"A4") VNone VNone false) /\
  absent Schematic_from ["title_block"]%string sc_titleBlock None /\
  absent Schematic_from ["lib_symbols"]%string sc_libSymbols [] /\
  absent Schematic_from ["symbol"]%string sc_schematicSymbols [] /\
  absent Schematic_from ["junction"]%string sc_junctions [] /\
  absent Schematic_from ["no_connect"]%string sc_noConnects [] /\
  absent Schematic_from ["bus_entry"]%string sc_busEntries [] /\
  absent Schematic_from ["bus_alias"]%string sc_busAliases [] /\
  absent Schematic_from ["wire"; "bus"; "polyline"]%string sc_graphicalItems [] /\
  absent Schematic_from ["arc"; "circle"; "rectangle"]%string sc_shapes [] /\
  absent Schematic_from ["image"]%string sc_images [] /\
  absent Schematic_from ["text"]%string sc_texts [] /\
  absent Schematic_from ["text_box"]%string sc_textBoxes [] /\
  absent Schematic_from ["label"]%string sc_labels [] /\
  absent Schematic_from ["global_label"]%string sc_globalLabels [] /\
  absent Schematic_from ["hierarchical_label"]%string sc_hierarchicalLabels [] /\
  absent Schematic_from ["netclass_flag"]%string sc_netclassFlags [] /\
  absent Schematic_from ["sheet"]%string sc_sheets [] /\
  absent Schematic_from ["sheet_instances"]%string sc_sheetInstances [] /\
  absent Schematic_from ["symbol_instances"]%string sc_symbolInstances [] /\
  absent Schematic_from [] sc_filePath VNone.
Proof. exact L_AbsentD.Schematic_absent. Qed.
Print Assumptions C38_Schematic.
Example C38_Schematic_case : let items := [VStr $"kicad_sch"; node "zzz" [VInt 1]] in
  (lacks ["version"; "generator"; "uuid"; "paper"; "title_block"; "lib_symbols"; "symbol"; "junction"; "no_connect"; "bus_entry"; "bus_alias"; "wire"; "bus"; "polyline"; "arc"; "circle"; "rectangle"; "image"; "text"; "text_box"; "label"; "global_label"; "hierarchical_label"; "netclass_flag"; "sheet"; "sheet_instances"; "symbol_instances"]%string items && accepts (Schematic_from) (VList items))%bool = true.
Proof. vm_compute. reflexivity. Qed.

Theorem C38_WksFont : absent WksFont_from ["linewidth"]%string wf_linewidth VNone /\
  absent WksFont_from ["size"]%string wf_size None /\
  absent WksFont_from ["bold"]%string wf_bold false /\
  absent WksFont_from ["italic"]%string wf_italic false.
Proof. exact L_AbsentD.WksFont_absent. Qed.
Print Assumptions C38_WksFont.
Example C38_WksFont_case : let items := [VStr $"font"; node "zzz" [VInt 1]] in
  (lacks ["linewidth"; "size"; "bold"; "italic"]%string items && accepts (WksFont_from) (VList items))%bool = true.
Proof. vm_compute. reflexivity. Qed.

Theorem C38_Line : absent Line_from ["name"]%string wl_name (VStr []) /\
  absent Line_from ["start"]%string wl_start (mkWksPosition (fdec 0 0) (fdec 0 0) VNone) /\
  absent Line_from ["end"]%string wl_end (mkWksPosition (fdec 0 0) (fdec 0 0) VNone) /\
  absent Line_from ["option"]%string wl_option VNone /\
  absent Line_from ["linewidth"]%string wl_lineWidth VNone /\
  absent Line_from ["repeat"]%string wl_repeat VNone /\
  absent Line_from ["incrx"]%string wl_incrx VNone /\
  absent Line_from ["incry"]%string wl_incry VNone /\
  absent Line_from ["comment"]%string wl_comment VNone.
Proof. exact L_AbsentD.Line_absent. Qed.
Print Assumptions C38_Line.
Example C38_Line_case : let items := [VStr $"line"; node "zzz" [VInt 1]] in
  (lacks ["name"; "start"; "end"; "option"; "linewidth"; "repeat"; "incrx"; "incry"; "comment"]%string items && accepts (Line_from) (VList items))%bool = true.
Proof. vm_compute. reflexivity. Qed.

Theorem C38_Rect : absent Rect_from ["name"]%string wr_name (VStr []) /\
  absent Rect_from ["start"]%string wr_start (mkWksPosition (fdec 0 0) (fdec 0 0) VNone) /\
  absent Rect_from ["end"]%string wr_end (mkWksPosition (fdec 0 0) (fdec 0 0) VNone) /\
  absent Rect_from ["option"]%string wr_option VNone /\
  absent Rect_from ["linewidth"]%string wr_lineWidth VNone /\
  absent Rect_from ["repeat"]%string wr_repeat VNone /\
  absent Rect_from ["incrx"]%string wr_incrx VNone /\
  absent Rect_from ["incry"]%string wr_incry VNone /\
  absent Rect_from ["comment"]%string wr_comment VNone.
Proof. exact L_AbsentD.Rect_absent. Qed.
Print Assumptions C38_Rect.
Example C38_Rect_case : let items := [VStr $"rect"; node "zzz" [VInt 1]] in
  (lacks ["name"; "start"; "end"; "option"; "linewidth"; "repeat"; "incrx"; "incry"; "comment"]%string items && accepts (Rect_from) (VList items))%bool = true.
Proof. vm_compute. reflexivity. Qed.

Theorem C38_Bitmap : absent Bitmap_from ["name"]%string wb_name (VStr []) /\
  absent Bitmap_from ["pos"]%string wb_position (mkWksPosition (fdec 0 0) (fdec 0 0) VNone) /\
  absent Bitmap_from ["option"]%string wb_option VNone /\
  absent Bitmap_from ["scale"]%string wb_scale (fdec 1 0) /\
  absent Bitmap_from ["repeat"]%string wb_repeat VNone /\
  absent Bitmap_from ["incrx"]%string wb_incrx VNone /\
  absent Bitmap_from ["incry"]%string wb_incry VNone /\
  absent Bitmap_from ["comment"]%string wb_comment VNone /\
  absent Bitmap_from ["pngdata"]%string wb_pngdata [].
Proof. exact L_AbsentD.Bitmap_absent. Qed.
Print Assumptions C38_Bitmap.
Example C38_Bitmap_case : let items := [VStr $"bitmap"; node "zzz" [VInt 1]] in
  (lacks ["name"; "pos"; "option"; "scale"; "repeat"; "incrx"; "incry"; "comment"; "pngdata"]%string items && accepts (Bitmap_from) (VList items))%bool = true.
Proof. vm_compute. reflexivity. Qed.

Theorem C38_TbText : absent TbText_from ["name"]%string tt_name (VStr []) /\
  absent TbText_from ["pos"]%string tt_position (mkWksPosition (fdec 0 0) (fdec 0 0) VNone) /\
  absent TbText_from ["option"]%string tt_option VNone /\
  absent TbText_from ["rotate"]%string tt_rotate VNone /\
  absent TbText_from ["font"]%string tt_font (mkWksFont VNone None false false) /\
  absent TbText_from ["justify"]%string tt_justify None /\
  absent TbText_from ["maxlen"]%string tt_maxlen VNone /\
  absent TbText_from ["maxheight"]%string tt_maxheight VNone /\
  absent TbText_from ["repeat"]%string tt_repeat VNone /\
  absent TbText_from ["incrx"]%string tt_incrx VNone /\
  absent TbText_from ["incry"]%string tt_incry VNone /\
  absent TbText_from ["incrlabel"]%string tt_incrlabel VNone /\
  absent TbText_from ["comment"]%string tt_comment VNone.
Proof. exact L_AbsentD.TbText_absent. Qed.
Print Assumptions C38_TbText.
Example C38_TbText_case : let items := [VStr $"tbtext"; VStr $"F"; node "zzz" [VInt 1]] in
  (lacks ["name"; "pos"; "option"; "rotate"; "font"; "justify"; "maxlen"; "maxheight"; "repeat"; "incrx"; "incry"; "incrlabel"; "comment"]%string items && accepts (TbText_from) (VList items))%bool = true.
Proof. vm_compute. reflexivity. Qed.

Theorem C38_Setup : absent Setup_from ["textsize"]%string wu_textSize (mkTextSize (fdec 15 (-1)) (fdec 15 (-1))) /\
  absent Setup_from ["linewidth"]%string wu_lineWidth (fdec 15 (-2)) /\
  absent Setup_from ["textlinewidth"]%string wu_textLineWidth (fdec 15 (-2)) /\
  absent Setup_from ["left_margin"]%string wu_leftMargin (fdec 10 0) /\
  absent Setup_from ["right_margin"]%string wu_rightMargin (fdec 10 0) /\
  absent Setup_from ["top_margin"]%string wu_topMargin (fdec 10 0) /\
  absent Setup_from ["bottom_margin"]%string wu_bottomMargin (fdec 10 0).
Proof. exact L_AbsentD.Setup_absent. Qed.
Print Assumptions C38_Setup.
Example C38_Setup_case : let items := [VStr $"setup"; node "zzz" [VInt 1]] in
  (lacks ["textsize"; "linewidth"; "textlinewidth"; "left_margin"; "right_margin"; "top_margin"; "bottom_margin"]%string items && accepts (Setup_from) (VList items))%bool = true.
Proof. vm_compute. reflexivity. Qed.

Theorem C38_WorkSheet : absent WorkSheet_from ["version"]%string wk_version (VStr $"20211014") /\
  absent WorkSheet_from ["generator"]%string wk_generator (VStr $"kiutils") /\
  absent WorkSheet_from ["setup"]%string wk_setup (mkSetup (mkTextSize (fdec 15 (-1)) (fdec 15 (-1))) (fdec 15 (-2)) (fdec 15 (-2)) (fdec 10 0) (fdec 10 0) (fdec 10 0) (fdec 10 0)) /\
  absent WorkSheet_from ["rect"; "line"; "polygon"; "tbtext"; "bitmap"]%string wk_drawingObjects [] /\
  absent WorkSheet_from [] wk_filePath VNone.
Proof. exact L_AbsentD.WorkSheet_absent. Qed.
Print Assumptions C38_WorkSheet.
Example C38_WorkSheet_case : let items := [VStr $"kicad_wks"; node "zzz" [VInt 1]] in
  (lacks ["version"; "generator"; "setup"; "rect"; "line"; "polygon"; "tbtext"; "bitmap"]%string items && accepts (WorkSheet_from) (VList items))%bool = true.
Proof. vm_compute. reflexivity. Qed.
