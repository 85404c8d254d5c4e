(** Order of the children: proofs. *)
From Verif Require Import PyBase PyNum PyStr PyRe Sexpr S_Leaf S_Tree S_Reader L_Keep L_Swap M_Common M_Lib M_Sym M_Fp M_Gr M_Zone M_Footprint M_Dim M_Brd M_Board M_Sch M_Schematic M_Wks.

Lemma Junction_swap : swaps Junction_from 0 [["at"]; ["color"; "diameter"]; ["uuid"]]%string.
Proof. swap_in Junction_from Junction_step 0. Qed.
Lemma NoConnect_swap : swaps NoConnect_from 0 [["at"]; ["uuid"]]%string.
Proof. swap_in NoConnect_from NoConnect_step 0. Qed.
Lemma BusEntry_swap : swaps BusEntry_from 0 [["at"]; ["stroke"]; ["size"]; ["uuid"]]%string.
Proof. swap_in BusEntry_from BusEntry_step 0. Qed.
Lemma Connection_swap : swaps Connection_from 0 [["pts"]; ["stroke"]; ["uuid"]]%string.
Proof. swap_in Connection_from Connection_step 0. Qed.
Lemma PolyLine_swap : swaps PolyLine_from 0 [["pts"]; ["stroke"]; ["uuid"]]%string.
Proof. swap_in PolyLine_from PolyLine_step 0. Qed.
Lemma Text_swap : swaps Text_from 1 [["at"]; ["effects"]; ["uuid"]]%string.
Proof. swap_in Text_from Text_step 1. Qed.
Lemma TextBox_swap : swaps TextBox_from 1 [["at"]; ["size"]; ["effects"]; ["stroke"]; ["fill"]; ["uuid"]]%string.
Proof. swap_in TextBox_from TextBox_step 1. Qed.
Lemma LocalLabel_swap : swaps LocalLabel_from 1 [["at"]; ["effects"]; ["uuid"]; ["fields_autoplaced"]]%string.
Proof. swap_in LocalLabel_from LocalLabel_step 1. Qed.
Lemma GlobalLabel_swap : swaps GlobalLabel_from 1 [["fields_autoplaced"]; ["at"]; ["effects"]; ["property"]; ["shape"]; ["uuid"]]%string.
Proof. swap_in GlobalLabel_from GlobalLabel_step 1. Qed.
Lemma HierarchicalLabel_swap : swaps HierarchicalLabel_from 1 [["at"]; ["effects"]; ["shape"]; ["uuid"]; ["fields_autoplaced"]]%string.
Proof. swap_in HierarchicalLabel_from HierarchicalLabel_step 1. Qed.
Lemma SymbolProjectPath_swap : swaps SymbolProjectPath_from 1 [["reference"]; ["unit"]]%string.
Proof. swap_in SymbolProjectPath_from SymbolProjectPath_step 1. Qed.
Lemma SymbolProjectInstance_swap : swaps SymbolProjectInstance_from 1 [["path"]]%string.
Proof. swap_in SymbolProjectInstance_from SymbolProjectInstance_step 1. Qed.
Lemma SchematicSymbol_swap : swaps SchematicSymbol_from 0 [["fields_autoplaced"]; ["lib_id"]; ["lib_name"]; ["uuid"]; ["unit"]; ["in_bom"]; ["on_board"]; ["dnp"]; ["at"]; ["property"]; ["pin"]; ["mirror"]; ["instances"]]%string.
Proof. swap_in SchematicSymbol_from SchematicSymbol_step 0. Qed.
Lemma HierarchicalPin_swap : swaps HierarchicalPin_from 2 [["at"]; ["effects"]; ["uuid"]]%string.
Proof. swap_in HierarchicalPin_from HierarchicalPin_step 2. Qed.
Lemma HierarchicalSheetProjectPath_swap : swaps HierarchicalSheetProjectPath_from 1 [["page"]]%string.
Proof. swap_in HierarchicalSheetProjectPath_from HierarchicalSheetProjectPath_step 1. Qed.
Lemma HierarchicalSheetProjectInstance_swap : swaps HierarchicalSheetProjectInstance_from 1 [["path"]]%string.
Proof. swap_in HierarchicalSheetProjectInstance_from HierarchicalSheetProjectInstance_step 1. Qed.
Lemma HierarchicalSheet_swap : swaps HierarchicalSheet_from 0 [["fields_autoplaced"]; ["at"]; ["stroke"]; ["size"]; ["fill"]; ["uuid"]; ["property"]; ["pin"]; ["instances"]]%string.
Proof. swap_in HierarchicalSheet_from HierarchicalSheet_step 0. Qed.
Lemma HierarchicalSheetInstance_swap : swaps HierarchicalSheetInstance_from 1 [["page"]]%string.
Proof. swap_in HierarchicalSheetInstance_from HierarchicalSheetInstance_step 1. Qed.
Lemma SymbolInstance_swap : swaps SymbolInstance_from 1 [["reference"]; ["unit"]; ["value"]; ["footprint"]]%string.
Proof. swap_in SymbolInstance_from SymbolInstance_step 1. Qed.
Lemma Rectangle_swap : swaps Rectangle_from 0 [["start"]; ["end"]; ["stroke"]; ["fill"]; ["uuid"]]%string.
Proof. swap_in Rectangle_from Rectangle_step 0. Qed.
Lemma SchArc_swap : swaps SchArc_from 0 [["start"]; ["mid"]; ["end"]; ["stroke"]; ["fill"]; ["uuid"]]%string.
Proof. swap_in SchArc_from SchArc_step 0. Qed.
Lemma Circle_swap : swaps Circle_from 0 [["center"]; ["radius"]; ["stroke"]; ["fill"]; ["uuid"]]%string.
Proof. swap_in Circle_from Circle_step 0. Qed.
Lemma NetclassFlag_swap : swaps NetclassFlag_from 1 [["length"]; ["shape"]; ["at"]; ["fields_autoplaced"]; ["effects"]; ["uuid"]; ["property"]]%string.
Proof. swap_in NetclassFlag_from NetclassFlag_step 1. Qed.
Lemma Schematic_swap : swaps Schematic_from 0 [["version"]; ["generator"]; ["uuid"]; ["paper"]; ["title_block"]; ["lib_symbols"]; ["junction"]; ["no_connect"]; ["bus_entry"]; ["bus_alias"]; ["wire"; "bus"; "polyline"]; ["arc"; "circle"; "rectangle"]; ["image"]; ["text"]; ["text_box"]; ["label"]; ["global_label"]; ["hierarchical_label"]; ["netclass_flag"]; ["symbol"]; ["sheet"]; ["sheet_instances"]; ["symbol_instances"]]%string.
Proof. swap_in Schematic_from Schematic_step 0. Qed.
Lemma WksFont_swap : swaps WksFont_from 0 [["bold"]; ["italic"]; ["linewidth"]; ["size"]]%string.
Proof. swap_in WksFont_from WksFont_step 0. Qed.
Lemma Line_swap : swaps Line_from 0 [["name"]; ["start"]; ["end"]; ["option"]; ["linewidth"]; ["repeat"]; ["incrx"]; ["incry"]; ["comment"]]%string.
Proof. swap_in Line_from Line_step 0. Qed.
Lemma Rect_swap : swaps Rect_from 0 [["name"]; ["start"]; ["end"]; ["option"]; ["linewidth"]; ["repeat"]; ["incrx"]; ["incry"]; ["comment"]]%string.
Proof. swap_in Rect_from Rect_step 0. Qed.
Lemma Bitmap_swap : swaps Bitmap_from 0 [["name"]; ["pos"]; ["option"]; ["scale"]; ["repeat"]; ["incrx"]; ["incry"]; ["comment"]; ["pngdata"]]%string.
Proof. swap_in Bitmap_from Bitmap_step 0. Qed.
Lemma TbText_swap : swaps TbText_from 1 [["name"]; ["pos"]; ["option"]; ["rotate"]; ["font"]; ["justify"]; ["maxlen"]; ["maxheight"]; ["repeat"]; ["incrx"]; ["incry"]; ["incrlabel"]; ["comment"]]%string.
Proof. swap_in TbText_from TbText_step 1. Qed.
Lemma Setup_swap : swaps Setup_from 0 [["textsize"]; ["linewidth"]; ["textlinewidth"]; ["left_margin"]; ["right_margin"]; ["top_margin"]; ["bottom_margin"]]%string.
Proof. swap_in Setup_from Setup_step 0. Qed.
Lemma WorkSheet_swap : swaps WorkSheet_from 0 [["version"]; ["generator"]; ["setup"]; ["rect"; "line"; "polygon"; "tbtext"; "bitmap"]]%string.
Proof. swap_in WorkSheet_from WorkSheet_step 0. Qed.
