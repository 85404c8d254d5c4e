(** Order of the children of an expression (C29). The lists name the tokens that must keep their order among
    themselves; any two other neighbouring items may change places behind the positional arguments. Each [case]
    is an accepted expression with two such items. *)
From Verif Require Import PyBase PyNum PyStr Sexpr S_Leaf S_Tree S_Reader M_Common M_Lib M_Sym M_Fp M_Gr M_Zone M_Footprint M_Dim M_Brd M_Board M_Sch M_Schematic M_Wks.
From Verif Require L_SwapD.

Theorem C29_Junction : swaps Junction_from 0 [["at"]; ["color"; "diameter"]; ["uuid"]]%string.
Proof. exact L_SwapD.Junction_swap. Qed.
Print Assumptions C29_Junction.
Example C29_Junction_case : let x := node "at" [VInt 1; VInt 2] in let y := node "uuid" [VStr $"a"] in
  (apart [["at"]; ["color"; "diameter"]; ["uuid"]]%string x y && accepts (Junction_from) (VList [VStr $"junction"; node "zzz" [VInt 1]; x; y]))%bool = true.
Proof. vm_compute. reflexivity. Qed.

(** The diameter of a junction overwrites its colour, so the order of the two matters. *)
Theorem C29_Junction_refuted : ~ swaps Junction_from 0 [["at"]; ["diameter"]; ["color"]; ["uuid"]]%string.
Proof.
  intros H. specialize (H (VStr $"junction") [] (node "color" [VInt 1; VInt 2; VInt 3; VInt 4]) (node "diameter" [VInt 5]) []
    (mkJunction Position_default (VInt 0) (JColor_val (VInt 5)) VNone) (le_n 0) eq_refl eq_refl).
  discriminate H.
Qed.
Print Assumptions C29_Junction_refuted.

Theorem C29_NoConnect : swaps NoConnect_from 0 [["at"]; ["uuid"]]%string.
Proof. exact L_SwapD.NoConnect_swap. Qed.
Print Assumptions C29_NoConnect.
Example C29_NoConnect_case : let x := node "at" [VInt 1; VInt 2] in let y := node "uuid" [VStr $"a"] in
  (apart [["at"]; ["uuid"]]%string x y && accepts (NoConnect_from) (VList [VStr $"no_connect"; node "zzz" [VInt 1]; x; y]))%bool = true.
Proof. vm_compute. reflexivity. Qed.

Theorem C29_BusEntry : swaps BusEntry_from 0 [["at"]; ["stroke"]; ["size"]; ["uuid"]]%string.
Proof. exact L_SwapD.BusEntry_swap. Qed.
Print Assumptions C29_BusEntry.
Example C29_BusEntry_case : let x := node "at" [VInt 1; VInt 2] in let y := node "uuid" [VStr $"a"] in
  (apart [["at"]; ["stroke"]; ["size"]; ["uuid"]]%string x y && accepts (BusEntry_from) (VList [VStr $"bus_entry"; node "zzz" [VInt 1]; x; y]))%bool = true.
Proof. vm_compute. reflexivity. Qed.

Theorem C29_Connection : swaps Connection_from 0 [["pts"]; ["stroke"]; ["uuid"]]%string.
Proof. exact L_SwapD.Connection_swap. Qed.
Print Assumptions C29_Connection.
Example C29_Connection_case : let x := node "pts" [] in let y := node "uuid" [VStr $"a"] in
  (apart [["pts"]; ["stroke"]; ["uuid"]]%string x y && accepts (Connection_from) (VList [VStr $"wire"; VStr $"F"; node "zzz" [VInt 1]; x; y]))%bool = true.
Proof. vm_compute. reflexivity. Qed.

Theorem C29_PolyLine : swaps PolyLine_from 0 [["pts"]; ["stroke"]; ["uuid"]]%string.
Proof. exact L_SwapD.PolyLine_swap. Qed.
Print Assumptions C29_PolyLine.
Example C29_PolyLine_case : let x := node "pts" [] in let y := node "uuid" [VStr $"a"] in
  (apart [["pts"]; ["stroke"]; ["uuid"]]%string x y && accepts (PolyLine_from) (VList [VStr $"polyline"; node "zzz" [VInt 1]; x; y]))%bool = true.
Proof. vm_compute. reflexivity. Qed.

Theorem C29_Text : swaps Text_from 1 [["at"]; ["effects"]; ["uuid"]]%string.
Proof. exact L_SwapD.Text_swap. Qed.
Print Assumptions C29_Text.
Example C29_Text_case : let x := node "at" [VInt 1; VInt 2] in let y := node "uuid" [VStr $"a"] in
  (apart [["at"]; ["effects"]; ["uuid"]]%string x y && accepts (Text_from) (VList [VStr $"text"; VStr $"F"; node "zzz" [VInt 1]; x; y]))%bool = true.
Proof. vm_compute. reflexivity. Qed.

Theorem C29_TextBox : swaps TextBox_from 1 [["at"]; ["size"]; ["effects"]; ["stroke"]; ["fill"]; ["uuid"]]%string.
Proof. exact L_SwapD.TextBox_swap. Qed.
Print Assumptions C29_TextBox.
Example C29_TextBox_case : let x := node "at" [VInt 1; VInt 2] in let y := node "uuid" [VStr $"a"] in
  (apart [["at"]; ["size"]; ["effects"]; ["stroke"]; ["fill"]; ["uuid"]]%string x y && accepts (TextBox_from) (VList [VStr $"text_box"; VStr $"F"; node "zzz" [VInt 1]; x; y]))%bool = true.
Proof. vm_compute. reflexivity. Qed.

Theorem C29_LocalLabel : swaps LocalLabel_from 1 [["at"]; ["effects"]; ["uuid"]; ["fields_autoplaced"]]%string.
Proof. exact L_SwapD.LocalLabel_swap. Qed.
Print Assumptions C29_LocalLabel.
Example C29_LocalLabel_case : let x := node "at" [VInt 1; VInt 2] in let y := node "fields_autoplaced" [VStr $"a"] in
  (apart [["at"]; ["effects"]; ["uuid"]; ["fields_autoplaced"]]%string x y && accepts (LocalLabel_from) (VList [VStr $"label"; VStr $"F"; node "zzz" [VInt 1]; x; y]))%bool = true.
Proof. vm_compute. reflexivity. Qed.

Theorem C29_GlobalLabel : swaps GlobalLabel_from 1 [["fields_autoplaced"]; ["at"]; ["effects"]; ["property"]; ["shape"]; ["uuid"]]%string.
Proof. exact L_SwapD.GlobalLabel_swap. Qed.
Print Assumptions C29_GlobalLabel.
Example C29_GlobalLabel_case : let x := node "fields_autoplaced" [VStr $"a"] in let y := node "uuid" [VStr $"a"] in
  (apart [["fields_autoplaced"]; ["at"]; ["effects"]; ["property"]; ["shape"]; ["uuid"]]%string x y && accepts (GlobalLabel_from) (VList [VStr $"global_label"; VStr $"F"; node "zzz" [VInt 1]; x; y]))%bool = true.
Proof. vm_compute. reflexivity. Qed.

Theorem C29_HierarchicalLabel : swaps HierarchicalLabel_from 1 [["at"]; ["effects"]; ["shape"]; ["uuid"]; ["fields_autoplaced"]]%string.
Proof. exact L_SwapD.HierarchicalLabel_swap. Qed.
Print Assumptions C29_HierarchicalLabel.
Example C29_HierarchicalLabel_case : let x := node "at" [VInt 1; VInt 2] in let y := node "fields_autoplaced" [VStr $"a"] in
  (apart [["at"]; ["effects"]; ["shape"]; ["uuid"]; ["fields_autoplaced"]]%string x y && accepts (HierarchicalLabel_from) (VList [VStr $"hierarchical_label"; VStr $"F"; node "zzz" [VInt 1]; x; y]))%bool = true.
Proof. vm_compute. reflexivity. Qed.

Theorem C29_SymbolProjectPath : swaps SymbolProjectPath_from 1 [["reference"]; ["unit"]]%string.
Proof. exact L_SwapD.SymbolProjectPath_swap. Qed.
Print Assumptions C29_SymbolProjectPath.
Example C29_SymbolProjectPath_case : let x := node "reference" [VStr $"a"] in let y := node "unit" [VStr $"a"] in
  (apart [["reference"]; ["unit"]]%string x y && accepts (SymbolProjectPath_from) (VList [VStr $"path"; VStr $"F"; node "zzz" [VInt 1]; x; y]))%bool = true.
Proof. vm_compute. reflexivity. Qed.

Theorem C29_SymbolProjectInstance : swaps SymbolProjectInstance_from 1 [["path"]]%string.
Proof. exact L_SwapD.SymbolProjectInstance_swap. Qed.
Print Assumptions C29_SymbolProjectInstance.
Example C29_SymbolProjectInstance_case : let x := node "path" [VStr $"a"] in let y := node "zzz" [VInt 1] in
  (apart [["path"]]%string x y && accepts (SymbolProjectInstance_from) (VList [VStr $"project"; VStr $"F"; node "zzz" [VInt 1]; x; y]))%bool = true.
Proof. vm_compute. reflexivity. Qed.

Theorem C29_SchematicSymbol : swaps SchematicSymbol_from 0 [["fields_autoplaced"]; ["lib_id"]; ["lib_name"]; ["uuid"]; ["unit"]; ["in_bom"]; ["on_board"]; ["dnp"]; ["at"]; ["property"]; ["pin"]; ["mirror"]; ["instances"]]%string.
Proof. exact L_SwapD.SchematicSymbol_swap. Qed.
Print Assumptions C29_SchematicSymbol.
Example C29_SchematicSymbol_case : let x := node "fields_autoplaced" [VStr $"a"] in let y := node "instances" [] in
  (apart [["fields_autoplaced"]; ["lib_id"]; ["lib_name"]; ["uuid"]; ["unit"]; ["in_bom"]; ["on_board"]; ["dnp"]; ["at"]; ["property"]; ["pin"]; ["mirror"]; ["instances"]]%string x y && accepts (SchematicSymbol_from) (VList [VStr $"symbol"; node "zzz" [VInt 1]; x; y]))%bool = true.
Proof. vm_compute. reflexivity. Qed.

Theorem C29_HierarchicalPin : swaps HierarchicalPin_from 2 [["at"]; ["effects"]; ["uuid"]]%string.
Proof. exact L_SwapD.HierarchicalPin_swap. Qed.
Print Assumptions C29_HierarchicalPin.
Example C29_HierarchicalPin_case : let x := node "at" [VInt 1; VInt 2] in let y := node "uuid" [VStr $"a"] in
  (apart [["at"]; ["effects"]; ["uuid"]]%string x y && accepts (HierarchicalPin_from) (VList [VStr $"pin"; VStr $"F"; VStr $"F"; node "zzz" [VInt 1]; x; y]))%bool = true.
Proof. vm_compute. reflexivity. Qed.

Theorem C29_HierarchicalSheetProjectPath : swaps HierarchicalSheetProjectPath_from 1 [["page"]]%string.
Proof. exact L_SwapD.HierarchicalSheetProjectPath_swap. Qed.
Print Assumptions C29_HierarchicalSheetProjectPath.
Example C29_HierarchicalSheetProjectPath_case : let x := node "page" [VStr $"a"] in let y := node "zzz" [VInt 1] in
  (apart [["page"]]%string x y && accepts (HierarchicalSheetProjectPath_from) (VList [VStr $"path"; VStr $"F"; node "zzz" [VInt 1]; x; y]))%bool = true.
Proof. vm_compute. reflexivity. Qed.

Theorem C29_HierarchicalSheetProjectInstance : swaps HierarchicalSheetProjectInstance_from 1 [["path"]]%string.
Proof. exact L_SwapD.HierarchicalSheetProjectInstance_swap. Qed.
Print Assumptions C29_HierarchicalSheetProjectInstance.
Example C29_HierarchicalSheetProjectInstance_case : let x := node "path" [VStr $"a"] in let y := node "zzz" [VInt 1] in
  (apart [["path"]]%string x y && accepts (HierarchicalSheetProjectInstance_from) (VList [VStr $"project"; VStr $"F"; node "zzz" [VInt 1]; x; y]))%bool = true.
Proof. vm_compute. reflexivity. Qed.

Theorem C29_HierarchicalSheet : swaps HierarchicalSheet_from 0 [["fields_autoplaced"]; ["at"]; ["stroke"]; ["size"]; ["fill"]; ["uuid"]; ["property"]; ["pin"]; ["instances"]]%string.
Proof. exact L_SwapD.HierarchicalSheet_swap. Qed.
Print Assumptions C29_HierarchicalSheet.
Example C29_HierarchicalSheet_case : let x := node "fields_autoplaced" [VStr $"a"] in let y := node "instances" [] in
  (apart [["fields_autoplaced"]; ["at"]; ["stroke"]; ["size"]; ["fill"]; ["uuid"]; ["property"]; ["pin"]; ["instances"]]%string x y && accepts (HierarchicalSheet_from) (VList [VStr $"sheet"; node "zzz" [VInt 1]; x; y]))%bool = true.
Proof. vm_compute. reflexivity. Qed.

Theorem C29_HierarchicalSheetInstance : swaps HierarchicalSheetInstance_from 1 [["page"]]%string.
Proof. exact L_SwapD.HierarchicalSheetInstance_swap. Qed.
Print Assumptions C29_HierarchicalSheetInstance.
Example C29_HierarchicalSheetInstance_case : let x := node "page" [VStr $"a"] in let y := node "zzz" [VInt 1] in
  (apart [["page"]]%string x y && accepts (HierarchicalSheetInstance_from) (VList [VStr $"path"; VStr $"F"; node "zzz" [VInt 1]; x; y]))%bool = true.
Proof. vm_compute. reflexivity. Qed.

Theorem C29_SymbolInstance : swaps SymbolInstance_from 1 [["reference"]; ["unit"]; ["value"]; ["footprint"]]%string.
Proof. exact L_SwapD.SymbolInstance_swap. Qed.
Print Assumptions C29_SymbolInstance.
Example C29_SymbolInstance_case : let x := node "reference" [VStr $"a"] in let y := node "footprint" [VStr $"a"] in
  (apart [["reference"]; ["unit"]; ["value"]; ["footprint"]]%string x y && accepts (SymbolInstance_from) (VList [VStr $"path"; VStr $"F"; node "zzz" [VInt 1]; x; y]))%bool = true.
Proof. vm_compute. reflexivity. Qed.

Theorem C29_Rectangle : swaps Rectangle_from 0 [["start"]; ["end"]; ["stroke"]; ["fill"]; ["uuid"]]%string.
Proof. exact L_SwapD.Rectangle_swap. Qed.
Print Assumptions C29_Rectangle.
Example C29_Rectangle_case : let x := node "start" [VInt 1; VInt 2] in let y := node "uuid" [VStr $"a"] in
  (apart [["start"]; ["end"]; ["stroke"]; ["fill"]; ["uuid"]]%string x y && accepts (Rectangle_from) (VList [VStr $"rectangle"; node "zzz" [VInt 1]; x; y]))%bool = true.
Proof. vm_compute. reflexivity. Qed.

Theorem C29_SchArc : swaps SchArc_from 0 [["start"]; ["mid"]; ["end"]; ["stroke"]; ["fill"]; ["uuid"]]%string.
Proof. exact L_SwapD.SchArc_swap. Qed.
Print Assumptions C29_SchArc.
Example C29_SchArc_case : let x := node "start" [VInt 1; VInt 2] in let y := node "uuid" [VStr $"a"] in
  (apart [["start"]; ["mid"]; ["end"]; ["stroke"]; ["fill"]; ["uuid"]]%string x y && accepts (SchArc_from) (VList [VStr $"arc"; node "zzz" [VInt 1]; x; y]))%bool = true.
Proof. vm_compute. reflexivity. Qed.

Theorem C29_Circle : swaps Circle_from 0 [["center"]; ["radius"]; ["stroke"]; ["fill"]; ["uuid"]]%string.
Proof. exact L_SwapD.Circle_swap. Qed.
Print Assumptions C29_Circle.
Example C29_Circle_case : let x := node "center" [VInt 1; VInt 2] in let y := node "uuid" [VStr $"a"] in
  (apart [["center"]; ["radius"]; ["stroke"]; ["fill"]; ["uuid"]]%string x y && accepts (Circle_from) (VList [VStr $"circle"; node "zzz" [VInt 1]; x; y]))%bool = true.
Proof. vm_compute. reflexivity. Qed.

Theorem C29_NetclassFlag : swaps NetclassFlag_from 1 [["length"]; ["shape"]; ["at"]; ["fields_autoplaced"]; ["effects"]; ["uuid"]; ["property"]]%string.
Proof. exact L_SwapD.NetclassFlag_swap. Qed.
Print Assumptions C29_NetclassFlag.
Example C29_NetclassFlag_case : let x := node "length" [VStr $"a"] in let y := node "property" [VInt 1; VInt 2] in
  (apart [["length"]; ["shape"]; ["at"]; ["fields_autoplaced"]; ["effects"]; ["uuid"]; ["property"]]%string x y && accepts (NetclassFlag_from) (VList [VStr $"netclass_flag"; VStr $"F"; node "zzz" [VInt 1]; x; y]))%bool = true.
Proof. vm_compute. reflexivity. Qed.

Theorem C29_Schematic : swaps Schematic_from 0 [["version"]; ["generator"]; ["uuid"]; ["paper"]; ["title_block"]; ["lib_symbols"]; ["junction"]; ["no_connect"]; ["bus_entry"]; ["bus_alias"]; ["wire"; "bus"; "polyline"]; ["arc"; "circle"; "rectangle"]; ["image"]; ["text"]; ["text_box"]; ["label"]; ["global_label"]; ["hierarchical_label"]; ["netclass_flag"]; ["symbol"]; ["sheet"]; ["sheet_instances"]; ["symbol_instances"]]%string.
Proof. exact L_SwapD.Schematic_swap. Qed.
Print Assumptions C29_Schematic.
Example C29_Schematic_case : let x := node "version" [VStr $"a"] in let y := node "symbol_instances" [] in
  (apart [["version"]; ["generator"]; ["uuid"]; ["paper"]; ["title_block"]; ["lib_symbols"]; ["junction"]; ["no_connect"]; ["bus_entry"]; ["bus_alias"]; ["wire"; "bus"; "polyline"]; ["arc"; "circle"; "rectangle"]; ["image"]; ["text"]; ["text_box"]; ["label"]; ["global_label"]; ["hierarchical_label"]; ["netclass_flag"]; ["symbol"]; ["sheet"]; ["sheet_instances"]; ["symbol_instances"]]%string x y && accepts (Schematic_from) (VList [VStr $"kicad_sch"; node "zzz" [VInt 1]; x; y]))%bool = true.
Proof. vm_compute. reflexivity. Qed.

Theorem C29_WksFont : swaps WksFont_from 0 [["bold"]; ["italic"]; ["linewidth"]; ["size"]]%string.
Proof. exact L_SwapD.WksFont_swap. Qed.
Print Assumptions C29_WksFont.
Example C29_WksFont_case : let x := VStr $"bold" in let y := node "size" [VInt 1; VInt 2] in
  (apart [["bold"]; ["italic"]; ["linewidth"]; ["size"]]%string x y && accepts (WksFont_from) (VList [VStr $"font"; node "zzz" [VInt 1]; x; y]))%bool = true.
Proof. vm_compute. reflexivity. Qed.

Theorem C29_Line : swaps Line_from 0 [["name"]; ["start"]; ["end"]; ["option"]; ["linewidth"]; ["repeat"]; ["incrx"]; ["incry"]; ["comment"]]%string.
Proof. exact L_SwapD.Line_swap. Qed.
Print Assumptions C29_Line.
Example C29_Line_case : let x := node "name" [VStr $"a"] in let y := node "comment" [VStr $"a"] in
  (apart [["name"]; ["start"]; ["end"]; ["option"]; ["linewidth"]; ["repeat"]; ["incrx"]; ["incry"]; ["comment"]]%string x y && accepts (Line_from) (VList [VStr $"line"; node "zzz" [VInt 1]; x; y]))%bool = true.
Proof. vm_compute. reflexivity. Qed.

Theorem C29_Rect : swaps Rect_from 0 [["name"]; ["start"]; ["end"]; ["option"]; ["linewidth"]; ["repeat"]; ["incrx"]; ["incry"]; ["comment"]]%string.
Proof. exact L_SwapD.Rect_swap. Qed.
Print Assumptions C29_Rect.
Example C29_Rect_case : let x := node "name" [VStr $"a"] in let y := node "comment" [VStr $"a"] in
  (apart [["name"]; ["start"]; ["end"]; ["option"]; ["linewidth"]; ["repeat"]; ["incrx"]; ["incry"]; ["comment"]]%string x y && accepts (Rect_from) (VList [VStr $"rect"; node "zzz" [VInt 1]; x; y]))%bool = true.
Proof. vm_compute. reflexivity. Qed.

Theorem C29_Bitmap : swaps Bitmap_from 0 [["name"]; ["pos"]; ["option"]; ["scale"]; ["repeat"]; ["incrx"]; ["incry"]; ["comment"]; ["pngdata"]]%string.
Proof. exact L_SwapD.Bitmap_swap. Qed.
Print Assumptions C29_Bitmap.
Example C29_Bitmap_case : let x := node "name" [VStr $"a"] in let y := node "pngdata" [VStr $"a"] in
  (apart [["name"]; ["pos"]; ["option"]; ["scale"]; ["repeat"]; ["incrx"]; ["incry"]; ["comment"]; ["pngdata"]]%string x y && accepts (Bitmap_from) (VList [VStr $"bitmap"; node "zzz" [VInt 1]; x; y]))%bool = true.
Proof. vm_compute. reflexivity. Qed.

Theorem C29_TbText : swaps TbText_from 1 [["name"]; ["pos"]; ["option"]; ["rotate"]; ["font"]; ["justify"]; ["maxlen"]; ["maxheight"]; ["repeat"]; ["incrx"]; ["incry"]; ["incrlabel"]; ["comment"]]%string.
Proof. exact L_SwapD.TbText_swap. Qed.
Print Assumptions C29_TbText.
Example C29_TbText_case : let x := node "name" [VStr $"a"] in let y := node "comment" [VStr $"a"] in
  (apart [["name"]; ["pos"]; ["option"]; ["rotate"]; ["font"]; ["justify"]; ["maxlen"]; ["maxheight"]; ["repeat"]; ["incrx"]; ["incry"]; ["incrlabel"]; ["comment"]]%string x y && accepts (TbText_from) (VList [VStr $"tbtext"; VStr $"F"; node "zzz" [VInt 1]; x; y]))%bool = true.
Proof. vm_compute. reflexivity. Qed.

Theorem C29_Setup : swaps Setup_from 0 [["textsize"]; ["linewidth"]; ["textlinewidth"]; ["left_margin"]; ["right_margin"]; ["top_margin"]; ["bottom_margin"]]%string.
Proof. exact L_SwapD.Setup_swap. Qed.
Print Assumptions C29_Setup.
Example C29_Setup_case : let x := node "textsize" [VInt 1; VInt 2] in let y := node "bottom_margin" [VStr $"a"] in
  (apart [["textsize"]; ["linewidth"]; ["textlinewidth"]; ["left_margin"]; ["right_margin"]; ["top_margin"]; ["bottom_margin"]]%string x y && accepts (Setup_from) (VList [VStr $"setup"; node "zzz" [VInt 1]; x; y]))%bool = true.
Proof. vm_compute. reflexivity. Qed.

Theorem C29_WorkSheet : swaps WorkSheet_from 0 [["version"]; ["generator"]; ["setup"]; ["rect"; "line"; "polygon"; "tbtext"; "bitmap"]]%string.
Proof. exact L_SwapD.WorkSheet_swap. Qed.
Print Assumptions C29_WorkSheet.
Example C29_WorkSheet_case : let x := node "version" [VStr $"a"] in let y := node "rect" [VStr $"a"] in
  (apart [["version"]; ["generator"]; ["setup"]; ["rect"; "line"; "polygon"; "tbtext"; "bitmap"]]%string x y && accepts (WorkSheet_from) (VList [VStr $"kicad_wks"; node "zzz" [VInt 1]; x; y]))%bool = true.
Proof. vm_compute. reflexivity. Qed.
