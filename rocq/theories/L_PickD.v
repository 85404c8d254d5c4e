(** From which tokens the attributes are taken: proofs.  The statements were generated from the
    from_sexpr methods in /repo/src/kiutils, by reading their syntax trees. *)
From Verif Require Import PyBase PyNum PyStr PyRe Sexpr S_Leaf S_Tree S_Reader S_Gather S_Pick L_Lex L_Seq L_Keep L_Swap L_Pick M_Common M_Sym M_Sch M_Schematic M_Wks.

Lemma Junction_pick : picks Junction_from 0 ["at"]%string "at"%string Position_from jn_position /\
  picks Junction_from 0 ["color"; "diameter"]%string "color"%string (as_ JColor_obj ColorRGBA_from) jn_color /\
  picks Junction_from 0 ["uuid"]%string "uuid"%string (arg 1) jn_uuid /\
  picks Junction_from 0 ["color"; "diameter"]%string "diameter"%string (as_ JColor_val (arg 1)) jn_color.
Proof. repeat apply conj; pick_in Junction_from Junction_step. Qed.
Lemma NoConnect_pick : picks NoConnect_from 0 ["at"]%string "at"%string Position_from nc_position /\
  picks NoConnect_from 0 ["uuid"]%string "uuid"%string (arg 1) nc_uuid.
Proof. repeat apply conj; pick_in NoConnect_from NoConnect_step. Qed.
Lemma BusEntry_pick : picks BusEntry_from 0 ["at"]%string "at"%string Position_from be_position /\
  picks BusEntry_from 0 ["stroke"]%string "stroke"%string Stroke_from be_stroke /\
  picks BusEntry_from 0 ["size"]%string "size"%string Position_from be_size /\
  picks BusEntry_from 0 ["uuid"]%string "uuid"%string (arg 1) be_uuid.
Proof. repeat apply conj; pick_in BusEntry_from BusEntry_step. Qed.
Lemma Connection_pick : picks Connection_from 0 ["stroke"]%string "stroke"%string Stroke_from cx_stroke /\
  picks Connection_from 0 ["uuid"]%string "uuid"%string (arg 1) cx_uuid.
Proof. repeat apply conj; pick_in Connection_from Connection_step. Qed.
Lemma PolyLine_pick : picks PolyLine_from 0 ["stroke"]%string "stroke"%string Stroke_from pl_stroke /\
  picks PolyLine_from 0 ["uuid"]%string "uuid"%string (arg 1) pl_uuid.
Proof. repeat apply conj; pick_in PolyLine_from PolyLine_step. Qed.
Lemma Text_pick : picks Text_from 2 ["at"]%string "at"%string Position_from tx_position /\
  picks Text_from 2 ["effects"]%string "effects"%string Effects_from tx_effects /\
  picks Text_from 2 ["uuid"]%string "uuid"%string (arg 1) tx_uuid.
Proof. repeat apply conj; pick_in Text_from Text_step. Qed.
Lemma TextBox_pick : picks TextBox_from 2 ["at"]%string "at"%string Position_from bx_position /\
  picks TextBox_from 2 ["size"]%string "size"%string Position_from bx_size /\
  picks TextBox_from 2 ["effects"]%string "effects"%string Effects_from bx_effects /\
  picks TextBox_from 2 ["stroke"]%string "stroke"%string Stroke_from bx_stroke /\
  picks TextBox_from 2 ["fill"]%string "fill"%string Fill_from bx_fill /\
  picks TextBox_from 2 ["uuid"]%string "uuid"%string (arg 1) bx_uuid.
Proof. repeat apply conj; pick_in TextBox_from TextBox_step. Qed.
Lemma LocalLabel_pick : picks LocalLabel_from 2 ["at"]%string "at"%string Position_from ll_position /\
  picks LocalLabel_from 2 ["effects"]%string "effects"%string Effects_from ll_effects /\
  picks LocalLabel_from 2 ["uuid"]%string "uuid"%string (arg 1) ll_uuid /\
  picks LocalLabel_from 2 ["fields_autoplaced"]%string "fields_autoplaced"%string (const true) ll_fieldsAutoplaced.
Proof. repeat apply conj; pick_in LocalLabel_from LocalLabel_step. Qed.
Lemma GlobalLabel_pick : picks GlobalLabel_from 2 ["fields_autoplaced"]%string "fields_autoplaced"%string (const true) gla_fieldsAutoplaced /\
  picks GlobalLabel_from 2 ["at"]%string "at"%string Position_from gla_position /\
  picks GlobalLabel_from 2 ["effects"]%string "effects"%string Effects_from gla_effects /\
  picks GlobalLabel_from 2 ["shape"]%string "shape"%string (arg 1) gla_shape /\
  picks GlobalLabel_from 2 ["uuid"]%string "uuid"%string (arg 1) gla_uuid.
Proof. repeat apply conj; pick_in GlobalLabel_from GlobalLabel_step. Qed.
Lemma HierarchicalLabel_pick : picks HierarchicalLabel_from 2 ["at"]%string "at"%string Position_from hl_position /\
  picks HierarchicalLabel_from 2 ["effects"]%string "effects"%string Effects_from hl_effects /\
  picks HierarchicalLabel_from 2 ["shape"]%string "shape"%string (arg 1) hl_shape /\
  picks HierarchicalLabel_from 2 ["uuid"]%string "uuid"%string (arg 1) hl_uuid /\
  picks HierarchicalLabel_from 2 ["fields_autoplaced"]%string "fields_autoplaced"%string (const true) hl_fieldsAutoplaced.
Proof. repeat apply conj; pick_in HierarchicalLabel_from HierarchicalLabel_step. Qed.
Lemma SymbolProjectPath_pick : picks SymbolProjectPath_from 2 ["reference"]%string "reference"%string (arg 1) spp_reference /\
  picks SymbolProjectPath_from 2 ["unit"]%string "unit"%string (arg 1) spp_unit.
Proof. repeat apply conj; pick_in SymbolProjectPath_from SymbolProjectPath_step. Qed.
Lemma SchematicSymbol_pick : picks SchematicSymbol_from 1 ["fields_autoplaced"]%string "fields_autoplaced"%string (const true) ss_fieldsAutoplaced /\
  picks SchematicSymbol_from 1 ["lib_name"]%string "lib_name"%string (arg 1) ss_libName /\
  picks SchematicSymbol_from 1 ["uuid"]%string "uuid"%string (arg 1) ss_uuid /\
  picks SchematicSymbol_from 1 ["unit"]%string "unit"%string (arg 1) ss_unit /\
  picks SchematicSymbol_from 1 ["in_bom"]%string "in_bom"%string (arg_is 1 "yes"%string) ss_inBom /\
  picks SchematicSymbol_from 1 ["on_board"]%string "on_board"%string (arg_is 1 "yes"%string) ss_onBoard /\
  picks SchematicSymbol_from 1 ["dnp"]%string "dnp"%string (as_ Some (arg_is 1 "yes"%string)) ss_dnp /\
  picks SchematicSymbol_from 1 ["at"]%string "at"%string Position_from ss_position /\
  picks SchematicSymbol_from 1 ["mirror"]%string "mirror"%string (arg 1) ss_mirror.
Proof. repeat apply conj; pick_in SchematicSymbol_from SchematicSymbol_step. Qed.
Lemma HierarchicalPin_pick : picks HierarchicalPin_from 3 ["at"]%string "at"%string Position_from hp_position /\
  picks HierarchicalPin_from 3 ["effects"]%string "effects"%string Effects_from hp_effects /\
  picks HierarchicalPin_from 3 ["uuid"]%string "uuid"%string (arg 1) hp_uuid.
Proof. repeat apply conj; pick_in HierarchicalPin_from HierarchicalPin_step. Qed.
Lemma HierarchicalSheetProjectPath_pick : picks HierarchicalSheetProjectPath_from 2 ["page"]%string "page"%string (arg 1) hpp_page.
Proof. repeat apply conj; pick_in HierarchicalSheetProjectPath_from HierarchicalSheetProjectPath_step. Qed.
Lemma HierarchicalSheet_pick : picks HierarchicalSheet_from 1 ["fields_autoplaced"]%string "fields_autoplaced"%string (const true) hs_fieldsAutoplaced /\
  picks HierarchicalSheet_from 1 ["at"]%string "at"%string Position_from hs_position /\
  picks HierarchicalSheet_from 1 ["stroke"]%string "stroke"%string Stroke_from hs_stroke /\
  picks HierarchicalSheet_from 1 ["size"]%string "size"%string (arg 1) hs_width /\
  picks HierarchicalSheet_from 1 ["size"]%string "size"%string (arg 2) hs_height /\
  picks HierarchicalSheet_from 1 ["uuid"]%string "uuid"%string (arg 1) hs_uuid /\
  picks HierarchicalSheet_from 1 ["fill"]%string "fill"%string (in_arg 1 (fun f => let! c := ColorRGBA_from f in Ok (c <| ca_precision := VInt 4 |>))) hs_fill.
Proof. repeat apply conj; pick_in HierarchicalSheet_from HierarchicalSheet_step. Qed.
Lemma HierarchicalSheetInstance_pick : picks HierarchicalSheetInstance_from 2 ["page"]%string "page"%string (arg 1) hi_page.
Proof. repeat apply conj; pick_in HierarchicalSheetInstance_from HierarchicalSheetInstance_step. Qed.
Lemma SymbolInstance_pick : picks SymbolInstance_from 2 ["reference"]%string "reference"%string (arg 1) syi_reference /\
  picks SymbolInstance_from 2 ["unit"]%string "unit"%string (arg 1) syi_unit /\
  picks SymbolInstance_from 2 ["value"]%string "value"%string (arg 1) syi_value /\
  picks SymbolInstance_from 2 ["footprint"]%string "footprint"%string (arg 1) syi_footprint.
Proof. repeat apply conj; pick_in SymbolInstance_from SymbolInstance_step. Qed.
Lemma Rectangle_pick : picks Rectangle_from 0 ["start"]%string "start"%string Position_from rct_start /\
  picks Rectangle_from 0 ["end"]%string "end"%string Position_from rct_end /\
  picks Rectangle_from 0 ["stroke"]%string "stroke"%string Stroke_from rct_stroke /\
  picks Rectangle_from 0 ["fill"]%string "fill"%string Fill_from rct_fill /\
  picks Rectangle_from 0 ["uuid"]%string "uuid"%string (arg 1) rct_uuid.
Proof. repeat apply conj; pick_in Rectangle_from Rectangle_step. Qed.
Lemma SchArc_pick : picks SchArc_from 0 ["start"]%string "start"%string Position_from sar_start /\
  picks SchArc_from 0 ["mid"]%string "mid"%string Position_from sar_mid /\
  picks SchArc_from 0 ["end"]%string "end"%string Position_from sar_end /\
  picks SchArc_from 0 ["stroke"]%string "stroke"%string Stroke_from sar_stroke /\
  picks SchArc_from 0 ["fill"]%string "fill"%string Fill_from sar_fill /\
  picks SchArc_from 0 ["uuid"]%string "uuid"%string (arg 1) sar_uuid.
Proof. repeat apply conj; pick_in SchArc_from SchArc_step. Qed.
Lemma Circle_pick : picks Circle_from 0 ["center"]%string "center"%string Position_from cir_center /\
  picks Circle_from 0 ["radius"]%string "radius"%string (arg 1) cir_radius /\
  picks Circle_from 0 ["stroke"]%string "stroke"%string Stroke_from cir_stroke /\
  picks Circle_from 0 ["fill"]%string "fill"%string Fill_from cir_fill /\
  picks Circle_from 0 ["uuid"]%string "uuid"%string (arg 1) cir_uuid.
Proof. repeat apply conj; pick_in Circle_from Circle_step. Qed.
Lemma NetclassFlag_pick : picks NetclassFlag_from 2 ["length"]%string "length"%string (arg 1) nf_length /\
  picks NetclassFlag_from 2 ["shape"]%string "shape"%string (arg 1) nf_shape /\
  picks NetclassFlag_from 2 ["at"]%string "at"%string (as_ Some Position_from) nf_position /\
  picks NetclassFlag_from 2 ["fields_autoplaced"]%string "fields_autoplaced"%string (const true) nf_fieldsAutoplaced /\
  picks NetclassFlag_from 2 ["effects"]%string "effects"%string (as_ Some Effects_from) nf_effects /\
  picks NetclassFlag_from 2 ["uuid"]%string "uuid"%string (arg 1) nf_uuid.
Proof. repeat apply conj; pick_in NetclassFlag_from NetclassFlag_step. Qed.
Lemma Schematic_pick : picks Schematic_from 0 ["version"]%string "version"%string (arg 1) sc_version /\
  picks Schematic_from 0 ["generator"]%string "generator"%string (arg 1) sc_generator /\
  picks Schematic_from 0 ["uuid"]%string "uuid"%string (arg 1) sc_uuid /\
  picks Schematic_from 0 ["paper"]%string "paper"%string PageSettings_from sc_paper /\
  picks Schematic_from 0 ["title_block"]%string "title_block"%string (as_ Some TitleBlock_from) sc_titleBlock.
Proof. repeat apply conj; pick_in Schematic_from Schematic_step. Qed.
Lemma WksFont_pick : marks WksFont_from 0 ["bold"]%string "bold"%string true wf_bold /\
  marks WksFont_from 0 ["italic"]%string "italic"%string true wf_italic /\
  picks WksFont_from 0 ["linewidth"]%string "linewidth"%string (arg 1) wf_linewidth /\
  picks WksFont_from 0 ["size"]%string "size"%string (as_ Some WksFontSize_from) wf_size.
Proof. repeat apply conj; pick_in WksFont_from WksFont_step. Qed.
Lemma Line_pick : picks Line_from 1 ["name"]%string "name"%string (arg 1) wl_name /\
  picks Line_from 1 ["start"]%string "start"%string WksPosition_from wl_start /\
  picks Line_from 1 ["end"]%string "end"%string WksPosition_from wl_end /\
  picks Line_from 1 ["option"]%string "option"%string (arg 1) wl_option /\
  picks Line_from 1 ["linewidth"]%string "linewidth"%string (arg 1) wl_lineWidth /\
  picks Line_from 1 ["repeat"]%string "repeat"%string (arg 1) wl_repeat /\
  picks Line_from 1 ["incrx"]%string "incrx"%string (arg 1) wl_incrx /\
  picks Line_from 1 ["incry"]%string "incry"%string (arg 1) wl_incry /\
  picks Line_from 1 ["comment"]%string "comment"%string (arg 1) wl_comment.
Proof. repeat apply conj; pick_in Line_from Line_step. Qed.
Lemma Rect_pick : picks Rect_from 1 ["name"]%string "name"%string (arg 1) wr_name /\
  picks Rect_from 1 ["start"]%string "start"%string WksPosition_from wr_start /\
  picks Rect_from 1 ["end"]%string "end"%string WksPosition_from wr_end /\
  picks Rect_from 1 ["option"]%string "option"%string (arg 1) wr_option /\
  picks Rect_from 1 ["linewidth"]%string "linewidth"%string (arg 1) wr_lineWidth /\
  picks Rect_from 1 ["repeat"]%string "repeat"%string (arg 1) wr_repeat /\
  picks Rect_from 1 ["incrx"]%string "incrx"%string (arg 1) wr_incrx /\
  picks Rect_from 1 ["incry"]%string "incry"%string (arg 1) wr_incry /\
  picks Rect_from 1 ["comment"]%string "comment"%string (arg 1) wr_comment.
Proof. repeat apply conj; pick_in Rect_from Rect_step. Qed.
Lemma Bitmap_pick : picks Bitmap_from 1 ["name"]%string "name"%string (arg 1) wb_name /\
  picks Bitmap_from 1 ["pos"]%string "pos"%string WksPosition_from wb_position /\
  picks Bitmap_from 1 ["option"]%string "option"%string (arg 1) wb_option /\
  picks Bitmap_from 1 ["scale"]%string "scale"%string (arg 1) wb_scale /\
  picks Bitmap_from 1 ["repeat"]%string "repeat"%string (arg 1) wb_repeat /\
  picks Bitmap_from 1 ["incrx"]%string "incrx"%string (arg 1) wb_incrx /\
  picks Bitmap_from 1 ["incry"]%string "incry"%string (arg 1) wb_incry /\
  picks Bitmap_from 1 ["comment"]%string "comment"%string (arg 1) wb_comment.
Proof. repeat apply conj; pick_in Bitmap_from Bitmap_step. Qed.
Lemma TbText_pick : picks TbText_from 2 ["name"]%string "name"%string (arg 1) tt_name /\
  picks TbText_from 2 ["pos"]%string "pos"%string WksPosition_from tt_position /\
  picks TbText_from 2 ["option"]%string "option"%string (arg 1) tt_option /\
  picks TbText_from 2 ["rotate"]%string "rotate"%string (arg 1) tt_rotate /\
  picks TbText_from 2 ["font"]%string "font"%string WksFont_from tt_font /\
  picks TbText_from 2 ["justify"]%string "justify"%string (as_ Some Justify_from) tt_justify /\
  picks TbText_from 2 ["maxlen"]%string "maxlen"%string (arg 1) tt_maxlen /\
  picks TbText_from 2 ["maxheight"]%string "maxheight"%string (arg 1) tt_maxheight /\
  picks TbText_from 2 ["repeat"]%string "repeat"%string (arg 1) tt_repeat /\
  picks TbText_from 2 ["incrx"]%string "incrx"%string (arg 1) tt_incrx /\
  picks TbText_from 2 ["incry"]%string "incry"%string (arg 1) tt_incry /\
  picks TbText_from 2 ["incrlabel"]%string "incrlabel"%string (arg 1) tt_incrlabel /\
  picks TbText_from 2 ["comment"]%string "comment"%string (arg 1) tt_comment.
Proof. repeat apply conj; pick_in TbText_from TbText_step. Qed.
Lemma Setup_pick : picks Setup_from 1 ["textsize"]%string "textsize"%string TextSize_from wu_textSize /\
  picks Setup_from 1 ["linewidth"]%string "linewidth"%string (arg 1) wu_lineWidth /\
  picks Setup_from 1 ["textlinewidth"]%string "textlinewidth"%string (arg 1) wu_textLineWidth /\
  picks Setup_from 1 ["left_margin"]%string "left_margin"%string (arg 1) wu_leftMargin /\
  picks Setup_from 1 ["right_margin"]%string "right_margin"%string (arg 1) wu_rightMargin /\
  picks Setup_from 1 ["top_margin"]%string "top_margin"%string (arg 1) wu_topMargin /\
  picks Setup_from 1 ["bottom_margin"]%string "bottom_margin"%string (arg 1) wu_bottomMargin.
Proof. repeat apply conj; pick_in Setup_from Setup_step. Qed.
Lemma WorkSheet_pick : picks WorkSheet_from 1 ["version"]%string "version"%string (arg 1) wk_version /\
  picks WorkSheet_from 1 ["generator"]%string "generator"%string (arg 1) wk_generator /\
  picks WorkSheet_from 1 ["setup"]%string "setup"%string Setup_from wk_setup.
Proof. repeat apply conj; pick_in WorkSheet_from WorkSheet_step. Qed.
