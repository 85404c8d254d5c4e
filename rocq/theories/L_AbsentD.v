(** What readers give for missing tokens: proofs. *)
From Verif Require Import PyBase PyNum PyStr PyRe Sexpr S_Leaf S_Tree S_Reader L_Keep M_Common M_Lib M_Sym M_Fp M_Gr M_Zone M_Footprint M_Dim M_Brd M_Board M_Sch M_Schematic M_Wks.

Lemma Junction_absent : absent Junction_from ["at"]%string jn_position (mkPosition (fdec 0 0) (fdec 0 0) VNone false) /\
  absent Junction_from [] jn_diameter (VInt 0) /\
  absent Junction_from ["color"; "diameter"]%string jn_color (JColor_obj (mkColorRGBA (VInt 0) (VInt 0) (VInt 0) (VInt 0) VNone)) /\
  absent Junction_from ["uuid"]%string jn_uuid VNone.
Proof. repeat split; absent_in Junction_from Junction_default. Qed.
Lemma NoConnect_absent : absent NoConnect_from ["at"]%string nc_position (mkPosition (fdec 0 0) (fdec 0 0) VNone false) /\
  absent NoConnect_from ["uuid"]%string nc_uuid VNone.
Proof. repeat split; absent_in NoConnect_from NoConnect_default. Qed.
Lemma BusEntry_absent : absent BusEntry_from ["at"]%string be_position (mkPosition (fdec 0 0) (fdec 0 0) VNone false) /\
  absent BusEntry_from ["uuid"]%string be_uuid VNone /\
  absent BusEntry_from ["size"]%string be_size (mkPosition (fdec 0 0) (fdec 0 0) VNone false) /\
  absent BusEntry_from ["stroke"]%string be_stroke (mkStroke (fdec 0 0) VNone None).
Proof. repeat split; absent_in BusEntry_from BusEntry_default. Qed.
Lemma Connection_absent : absent Connection_from ["pts"]%string cx_points [] /\
  absent Connection_from ["stroke"]%string cx_stroke (mkStroke (fdec 0 0) VNone None) /\
  absent Connection_from ["uuid"]%string cx_uuid VNone.
Proof. repeat split; absent_in Connection_from Connection_default. Qed.
Lemma PolyLine_absent : absent PolyLine_from ["pts"]%string pl_points [] /\
  absent PolyLine_from ["stroke"]%string pl_stroke (mkStroke (fdec 0 0) VNone None) /\
  absent PolyLine_from ["uuid"]%string pl_uuid VNone.
Proof. repeat split; absent_in PolyLine_from PolyLine_default. Qed.
Lemma Text_absent : absent Text_from ["at"]%string tx_position (mkPosition (fdec 0 0) (fdec 0 0) VNone false) /\
  absent Text_from ["effects"]%string tx_effects (mkEffects (mkFont VNone (fdec 1 0) (fdec 1 0) VNone false false VNone None) (mkJustify VNone VNone false) false VNone) /\
  absent Text_from ["uuid"]%string tx_uuid VNone.
Proof. repeat split; absent_in Text_from Text_default. Qed.
Lemma TextBox_absent : absent TextBox_from ["at"]%string bx_position (mkPosition (fdec 0 0) (fdec 0 0) VNone false) /\
  absent TextBox_from ["size"]%string bx_size (mkPosition (fdec 0 0) (fdec 0 0) VNone false) /\
  absent TextBox_from ["stroke"]%string bx_stroke (mkStroke (fdec 0 0) VNone None) /\
  absent TextBox_from ["fill"]%string bx_fill (mkFill (VStr $"none") None) /\
  absent TextBox_from ["effects"]%string bx_effects (mkEffects (mkFont VNone (fdec 1 0) (fdec 1 0) VNone false false VNone None) (mkJustify VNone VNone false) false VNone) /\
  absent TextBox_from ["uuid"]%string bx_uuid VNone.
Proof. repeat split; absent_in TextBox_from TextBox_default. Qed.
Lemma LocalLabel_absent : absent LocalLabel_from ["at"]%string ll_position (mkPosition (fdec 0 0) (fdec 0 0) VNone false) /\
  absent LocalLabel_from ["effects"]%string ll_effects (mkEffects (mkFont VNone (fdec 1 0) (fdec 1 0) VNone false false VNone None) (mkJustify VNone VNone false) false VNone) /\
  absent LocalLabel_from ["uuid"]%string ll_uuid VNone /\
  absent LocalLabel_from ["fields_autoplaced"]%string ll_fieldsAutoplaced false.
Proof. repeat split; absent_in LocalLabel_from LocalLabel_default. Qed.
Lemma GlobalLabel_absent : absent GlobalLabel_from ["shape"]%string gla_shape (VStr $"input") /\
  absent GlobalLabel_from ["fields_autoplaced"]%string gla_fieldsAutoplaced false /\
  absent GlobalLabel_from ["at"]%string gla_position (mkPosition (fdec 0 0) (fdec 0 0) VNone false) /\
  absent GlobalLabel_from ["effects"]%string gla_effects (mkEffects (mkFont VNone (fdec 1 0) (fdec 1 0) VNone false false VNone None) (mkJustify VNone VNone false) false VNone) /\
  absent GlobalLabel_from ["uuid"]%string gla_uuid VNone /\
  absent GlobalLabel_from ["property"]%string gla_properties [].
Proof. repeat split; absent_in GlobalLabel_from GlobalLabel_default. Qed.
Lemma HierarchicalLabel_absent : absent HierarchicalLabel_from ["shape"]%string hl_shape (VStr $"input") /\
  absent HierarchicalLabel_from ["at"]%string hl_position (mkPosition (fdec 0 0) (fdec 0 0) VNone false) /\
  absent HierarchicalLabel_from ["effects"]%string hl_effects (mkEffects (mkFont VNone (fdec 1 0) (fdec 1 0) VNone false false VNone None) (mkJustify VNone VNone false) false VNone) /\
  absent HierarchicalLabel_from ["uuid"]%string hl_uuid VNone /\
  absent HierarchicalLabel_from ["fields_autoplaced"]%string hl_fieldsAutoplaced false.
Proof. repeat split; absent_in HierarchicalLabel_from HierarchicalLabel_default. Qed.
Lemma SymbolProjectPath_absent : absent SymbolProjectPath_from ["reference"]%string spp_reference (VStr []) /\
  absent SymbolProjectPath_from ["unit"]%string spp_unit (VInt 1).
Proof. repeat split; absent_in SymbolProjectPath_from SymbolProjectPath_default. Qed.
Lemma SymbolProjectInstance_absent : absent SymbolProjectInstance_from ["path"]%string spi_paths [].
Proof. repeat split; absent_in SymbolProjectInstance_from SymbolProjectInstance_default. Qed.
Lemma SchematicSymbol_absent : absent SchematicSymbol_from ["lib_id"]%string ss_libraryNickname VNone /\
  absent SchematicSymbol_from ["lib_id"]%string ss_entryName VNone /\
  absent SchematicSymbol_from ["lib_name"]%string ss_libName VNone /\
  absent SchematicSymbol_from ["at"]%string ss_position (mkPosition (fdec 0 0) (fdec 0 0) VNone false) /\
  absent SchematicSymbol_from ["unit"]%string ss_unit VNone /\
  absent SchematicSymbol_from ["in_bom"]%string ss_inBom false /\
  absent SchematicSymbol_from ["on_board"]%string ss_onBoard false /\
  absent SchematicSymbol_from ["dnp"]%string ss_dnp None /\
  absent SchematicSymbol_from ["fields_autoplaced"]%string ss_fieldsAutoplaced false /\
  absent SchematicSymbol_from ["uuid"]%string ss_uuid (VStr []) /\
  absent SchematicSymbol_from ["property"]%string ss_properties [] /\
  absent SchematicSymbol_from ["pin"]%string ss_pins [] /\
  absent SchematicSymbol_from ["mirror"]%string ss_mirror VNone /\
  absent SchematicSymbol_from ["instances"]%string ss_instances [].
Proof. repeat split; absent_in SchematicSymbol_from SchematicSymbol_default. Qed.
Lemma HierarchicalPin_absent : absent HierarchicalPin_from ["at"]%string hp_position (mkPosition (fdec 0 0) (fdec 0 0) VNone false) /\
  absent HierarchicalPin_from ["effects"]%string hp_effects (mkEffects (mkFont VNone (fdec 1 0) (fdec 1 0) VNone false false VNone None) (mkJustify VNone VNone false) false VNone) /\
  absent HierarchicalPin_from ["uuid"]%string hp_uuid VNone.
Proof. repeat split; absent_in HierarchicalPin_from HierarchicalPin_default. Qed.
Lemma HierarchicalSheetProjectPath_absent : absent HierarchicalSheetProjectPath_from ["page"]%string hpp_page (VStr []).
Proof. repeat split; absent_in HierarchicalSheetProjectPath_from HierarchicalSheetProjectPath_default. Qed.
Lemma HierarchicalSheetProjectInstance_absent : absent HierarchicalSheetProjectInstance_from ["path"]%string hpi_paths [].
Proof. repeat split; absent_in HierarchicalSheetProjectInstance_from HierarchicalSheetProjectInstance_default. Qed.
Lemma HierarchicalSheet_absent : absent HierarchicalSheet_from ["at"]%string hs_position (mkPosition (fdec 0 0) (fdec 0 0) VNone false) /\
  absent HierarchicalSheet_from ["size"]%string hs_width (VInt 0) /\
  absent HierarchicalSheet_from ["size"]%string hs_height (VInt 0) /\
  absent HierarchicalSheet_from ["fields_autoplaced"]%string hs_fieldsAutoplaced false /\
  absent HierarchicalSheet_from ["stroke"]%string hs_stroke (mkStroke (fdec 0 0) VNone None) /\
  absent HierarchicalSheet_from ["fill"]%string hs_fill (mkColorRGBA (VInt 0) (VInt 0) (VInt 0) (VInt 0) VNone) /\
  absent HierarchicalSheet_from ["uuid"]%string hs_uuid VNone /\
  absent HierarchicalSheet_from ["property"]%string hs_sheetName ((mkProperty (VStr []) (VStr []) VNone ((mkPosition (fdec 0 0) (fdec 0 0) VNone false) <| po_angle := VInt 0 |>) None false) <| pr_key := VStr $"Sheet name" |>) /\
  absent HierarchicalSheet_from ["property"]%string hs_fileName ((mkProperty (VStr []) (VStr []) VNone ((mkPosition (fdec 0 0) (fdec 0 0) VNone false) <| po_angle := VInt 0 |>) None false) <| pr_key := VStr $"Sheet file" |>) /\
  absent HierarchicalSheet_from ["property"]%string hs_properties [] /\
  absent HierarchicalSheet_from ["pin"]%string hs_pins [] /\
  absent HierarchicalSheet_from ["instances"]%string hs_instances [].
Proof. repeat split; absent_in HierarchicalSheet_from HierarchicalSheet_default. Qed.
Lemma HierarchicalSheetInstance_absent : absent HierarchicalSheetInstance_from ["page"]%string hi_page (VStr $"1").
Proof. repeat split; absent_in HierarchicalSheetInstance_from HierarchicalSheetInstance_default. Qed.
Lemma SymbolInstance_absent : absent SymbolInstance_from ["reference"]%string syi_reference (VStr []) /\
  absent SymbolInstance_from ["unit"]%string syi_unit (VInt 0) /\
  absent SymbolInstance_from ["value"]%string syi_value (VStr []) /\
  absent SymbolInstance_from ["footprint"]%string syi_footprint (VStr []).
Proof. repeat split; absent_in SymbolInstance_from SymbolInstance_default. Qed.
Lemma Rectangle_absent : absent Rectangle_from ["start"]%string rct_start (mkPosition (fdec 0 0) (fdec 0 0) VNone false) /\
  absent Rectangle_from ["end"]%string rct_end (mkPosition (fdec 0 0) (fdec 0 0) VNone false) /\
  absent Rectangle_from ["stroke"]%string rct_stroke (mkStroke (fdec 0 0) VNone None) /\
  absent Rectangle_from ["fill"]%string rct_fill (mkFill (VStr $"none") None) /\
  absent Rectangle_from ["uuid"]%string rct_uuid VNone.
Proof. repeat split; absent_in Rectangle_from Rectangle_default. Qed.
Lemma SchArc_absent : absent SchArc_from ["start"]%string sar_start (mkPosition (fdec 0 0) (fdec 0 0) VNone false) /\
  absent SchArc_from ["mid"]%string sar_mid (mkPosition (fdec 0 0) (fdec 0 0) VNone false) /\
  absent SchArc_from ["end"]%string sar_end (mkPosition (fdec 0 0) (fdec 0 0) VNone false) /\
  absent SchArc_from ["stroke"]%string sar_stroke (mkStroke (fdec 0 0) VNone None) /\
  absent SchArc_from ["fill"]%string sar_fill (mkFill (VStr $"none") None) /\
  absent SchArc_from ["uuid"]%string sar_uuid VNone.
Proof. repeat split; absent_in SchArc_from SchArc_default. Qed.
Lemma Circle_absent : absent Circle_from ["center"]%string cir_center (mkPosition (fdec 0 0) (fdec 0 0) VNone false) /\
  absent Circle_from ["radius"]%string cir_radius (fdec 0 0) /\
  absent Circle_from ["stroke"]%string cir_stroke (mkStroke (fdec 0 0) VNone None) /\
  absent Circle_from ["fill"]%string cir_fill (mkFill (VStr $"none") None) /\
  absent Circle_from ["uuid"]%string cir_uuid VNone.
Proof. repeat split; absent_in Circle_from Circle_default. Qed.
Lemma NetclassFlag_absent : absent NetclassFlag_from ["length"]%string nf_length (fdec 254 (-2)) /\
  absent NetclassFlag_from ["shape"]%string nf_shape (VStr $"round") /\
  absent NetclassFlag_from ["at"]%string nf_position None /\
  absent NetclassFlag_from ["effects"]%string nf_effects None /\
  absent NetclassFlag_from ["property"]%string nf_properties [] /\
  absent NetclassFlag_from ["uuid"]%string nf_uuid VNone /\
  absent NetclassFlag_from ["fields_autoplaced"]%string nf_fieldsAutoplaced false.
Proof. repeat split; absent_in NetclassFlag_from NetclassFlag_default. Qed.
Lemma Schematic_absent : absent Schematic_from ["version"]%string sc_version (VStr $"20211014") /\
  absent Schematic_from ["generator"]%string sc_generator (VStr $"kiutils") /\
  absent Schematic_from ["uuid"]%string sc_uuid VNone /\
  absent Schematic_from ["paper"]%string sc_paper (mkPageSettings (VStr $"A4") VNone VNone false) /\
  absent Schematic_from ["title_block"]%string sc_titleBlock None /\
  absent Schematic_from ["lib_symbols"]%string sc_libSymbols [] /\
  absent Schematic_from ["symbol"]%string sc_schematicSymbols [] /\
  absent Schematic_from ["junction"]%string sc_junctions [] /\
  absent Schematic_from ["no_connect"]%string sc_noConnects [] /\
  absent Schematic_from ["bus_entry"]%string sc_busEntries [] /\
  absent Schematic_from ["bus_alias"]%string sc_busAliases [] /\
  absent Schematic_from ["wire"; "bus"; "polyline"]%string sc_graphicalItems [] /\
  absent Schematic_from ["arc"; "circle"; "rectangle"]%string sc_shapes [] /\
  absent Schematic_from ["image"]%string sc_images [] /\
  absent Schematic_from ["text"]%string sc_texts [] /\
  absent Schematic_from ["text_box"]%string sc_textBoxes [] /\
  absent Schematic_from ["label"]%string sc_labels [] /\
  absent Schematic_from ["global_label"]%string sc_globalLabels [] /\
  absent Schematic_from ["hierarchical_label"]%string sc_hierarchicalLabels [] /\
  absent Schematic_from ["netclass_flag"]%string sc_netclassFlags [] /\
  absent Schematic_from ["sheet"]%string sc_sheets [] /\
  absent Schematic_from ["sheet_instances"]%string sc_sheetInstances [] /\
  absent Schematic_from ["symbol_instances"]%string sc_symbolInstances [] /\
  absent Schematic_from [] sc_filePath VNone.
Proof. repeat split; absent_in Schematic_from Schematic_default. Qed.
Lemma WksFont_absent : absent WksFont_from ["linewidth"]%string wf_linewidth VNone /\
  absent WksFont_from ["size"]%string wf_size None /\
  absent WksFont_from ["bold"]%string wf_bold false /\
  absent WksFont_from ["italic"]%string wf_italic false.
Proof. repeat split; absent_in WksFont_from WksFont_default. Qed.
Lemma Line_absent : absent Line_from ["name"]%string wl_name (VStr []) /\
  absent Line_from ["start"]%string wl_start (mkWksPosition (fdec 0 0) (fdec 0 0) VNone) /\
  absent Line_from ["end"]%string wl_end (mkWksPosition (fdec 0 0) (fdec 0 0) VNone) /\
  absent Line_from ["option"]%string wl_option VNone /\
  absent Line_from ["linewidth"]%string wl_lineWidth VNone /\
  absent Line_from ["repeat"]%string wl_repeat VNone /\
  absent Line_from ["incrx"]%string wl_incrx VNone /\
  absent Line_from ["incry"]%string wl_incry VNone /\
  absent Line_from ["comment"]%string wl_comment VNone.
Proof. repeat split; absent_in Line_from Line_default. Qed.
Lemma Rect_absent : absent Rect_from ["name"]%string wr_name (VStr []) /\
  absent Rect_from ["start"]%string wr_start (mkWksPosition (fdec 0 0) (fdec 0 0) VNone) /\
  absent Rect_from ["end"]%string wr_end (mkWksPosition (fdec 0 0) (fdec 0 0) VNone) /\
  absent Rect_from ["option"]%string wr_option VNone /\
  absent Rect_from ["linewidth"]%string wr_lineWidth VNone /\
  absent Rect_from ["repeat"]%string wr_repeat VNone /\
  absent Rect_from ["incrx"]%string wr_incrx VNone /\
  absent Rect_from ["incry"]%string wr_incry VNone /\
  absent Rect_from ["comment"]%string wr_comment VNone.
Proof. repeat split; absent_in Rect_from Rect_default. Qed.
Lemma Bitmap_absent : absent Bitmap_from ["name"]%string wb_name (VStr []) /\
  absent Bitmap_from ["pos"]%string wb_position (mkWksPosition (fdec 0 0) (fdec 0 0) VNone) /\
  absent Bitmap_from ["option"]%string wb_option VNone /\
  absent Bitmap_from ["scale"]%string wb_scale (fdec 1 0) /\
  absent Bitmap_from ["repeat"]%string wb_repeat VNone /\
  absent Bitmap_from ["incrx"]%string wb_incrx VNone /\
  absent Bitmap_from ["incry"]%string wb_incry VNone /\
  absent Bitmap_from ["comment"]%string wb_comment VNone /\
  absent Bitmap_from ["pngdata"]%string wb_pngdata [].
Proof. repeat split; absent_in Bitmap_from Bitmap_default. Qed.
Lemma TbText_absent : absent TbText_from ["name"]%string tt_name (VStr []) /\
  absent TbText_from ["pos"]%string tt_position (mkWksPosition (fdec 0 0) (fdec 0 0) VNone) /\
  absent TbText_from ["option"]%string tt_option VNone /\
  absent TbText_from ["rotate"]%string tt_rotate VNone /\
  absent TbText_from ["font"]%string tt_font (mkWksFont VNone None false false) /\
  absent TbText_from ["justify"]%string tt_justify None /\
  absent TbText_from ["maxlen"]%string tt_maxlen VNone /\
  absent TbText_from ["maxheight"]%string tt_maxheight VNone /\
  absent TbText_from ["repeat"]%string tt_repeat VNone /\
  absent TbText_from ["incrx"]%string tt_incrx VNone /\
  absent TbText_from ["incry"]%string tt_incry VNone /\
  absent TbText_from ["incrlabel"]%string tt_incrlabel VNone /\
  absent TbText_from ["comment"]%string tt_comment VNone.
Proof. repeat split; absent_in TbText_from TbText_default. Qed.
Lemma Setup_absent : absent Setup_from ["textsize"]%string wu_textSize (mkTextSize (fdec 15 (-1)) (fdec 15 (-1))) /\
  absent Setup_from ["linewidth"]%string wu_lineWidth (fdec 15 (-2)) /\
  absent Setup_from ["textlinewidth"]%string wu_textLineWidth (fdec 15 (-2)) /\
  absent Setup_from ["left_margin"]%string wu_leftMargin (fdec 10 0) /\
  absent Setup_from ["right_margin"]%string wu_rightMargin (fdec 10 0) /\
  absent Setup_from ["top_margin"]%string wu_topMargin (fdec 10 0) /\
  absent Setup_from ["bottom_margin"]%string wu_bottomMargin (fdec 10 0).
Proof. repeat split; absent_in Setup_from Setup_default. Qed.
Lemma WorkSheet_absent : absent WorkSheet_from ["version"]%string wk_version (VStr $"20211014") /\
  absent WorkSheet_from ["generator"]%string wk_generator (VStr $"kiutils") /\
  absent WorkSheet_from ["setup"]%string wk_setup (mkSetup (mkTextSize (fdec 15 (-1)) (fdec 15 (-1))) (fdec 15 (-2)) (fdec 15 (-2)) (fdec 10 0) (fdec 10 0) (fdec 10 0) (fdec 10 0)) /\
  absent WorkSheet_from ["rect"; "line"; "polygon"; "tbtext"; "bitmap"]%string wk_drawingObjects [] /\
  absent WorkSheet_from [] wk_filePath VNone.
Proof. repeat split; absent_in WorkSheet_from WorkSheet_default. Qed.
