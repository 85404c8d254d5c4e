(** Order of the children of an expression (C29). The lists name the tokens that must keep their order among
    themselves; any two other neighbouring items may change places behind the positional arguments. Each [case]
    is an accepted expression with two such items. *)
From Verif Require Import PyBase PyNum PyStr Sexpr S_Leaf S_Tree S_Reader M_Common M_Lib M_Sym.
From Verif Require L_SwapA.

Theorem C29_Stroke : swaps Stroke_from 1 [["width"]; ["type"]; ["color"]]%string.
Proof. exact L_SwapA.Stroke_swap. Qed.
Print Assumptions C29_Stroke.
Example C29_Stroke_case : let x := node "width" [VStr $"a"] in let y := node "color" [VInt 1; VInt 2; VInt 3; VInt 4] in
  (apart [["width"]; ["type"]; ["color"]]%string x y && accepts (Stroke_from) (VList [VStr $"stroke"; node "zzz" [VInt 1]; x; y]))%bool = true.
Proof. vm_compute. reflexivity. Qed.

Theorem C29_Font : swaps Font_from 0 [["bold"]; ["italic"]; ["face"]; ["size"]; ["thickness"]; ["line_spacing"]; ["color"]]%string.
Proof. exact L_SwapA.Font_swap. Qed.
Print Assumptions C29_Font.
Example C29_Font_case : let x := VStr $"bold" in let y := node "color" [VInt 1; VInt 2; VInt 3; VInt 4] in
  (apart [["bold"]; ["italic"]; ["face"]; ["size"]; ["thickness"]; ["line_spacing"]; ["color"]]%string x y && accepts (Font_from) (VList [VStr $"font"; node "zzz" [VInt 1]; x; y]))%bool = true.
Proof. vm_compute. reflexivity. Qed.

Theorem C29_Justify : swaps Justify_from 0 [["left"; "right"; "center"]; ["top"; "bottom"]; ["mirror"]]%string.
Proof. exact L_SwapA.Justify_swap. Qed.
Print Assumptions C29_Justify.
Example C29_Justify_case : let x := VStr $"left" in let y := VStr $"mirror" in
  (apart [["left"; "right"; "center"]; ["top"; "bottom"]; ["mirror"]]%string x y && accepts (Justify_from) (VList [VStr $"justify"; node "zzz" [VInt 1]; x; y]))%bool = true.
Proof. vm_compute. reflexivity. Qed.

Theorem C29_Effects : swaps Effects_from 0 [["hide"]; ["font"]; ["justify"]; ["href"]]%string.
Proof. exact L_SwapA.Effects_swap. Qed.
Print Assumptions C29_Effects.
Example C29_Effects_case : let x := VStr $"hide" in let y := node "href" [VStr $"a"] in
  (apart [["hide"]; ["font"]; ["justify"]; ["href"]]%string x y && accepts (Effects_from) (VList [VStr $"effects"; node "zzz" [VInt 1]; x; y]))%bool = true.
Proof. vm_compute. reflexivity. Qed.

Theorem C29_Group : swaps Group_from 1 [["locked"]; ["id"]; ["members"]]%string.
Proof. exact L_SwapA.Group_swap. Qed.
Print Assumptions C29_Group.
Example C29_Group_case : let x := VStr $"locked" in let y := node "members" [VStr $"a"] in
  (apart [["locked"]; ["id"]; ["members"]]%string x y && accepts (Group_from) (VList [VStr $"group"; VStr $"F"; node "zzz" [VInt 1]; x; y]))%bool = true.
Proof. vm_compute. reflexivity. Qed.

Theorem C29_PageSettings : swaps PageSettings_from 3 [["portrait"]]%string.
Proof. exact L_SwapA.PageSettings_swap. Qed.
Print Assumptions C29_PageSettings.
Example C29_PageSettings_case : let x := VStr $"portrait" in let y := node "zzz" [VInt 1] in
  (apart [["portrait"]]%string x y && accepts (PageSettings_from) (VList [VStr $"paper"; VStr $"F"; VStr $"F"; VStr $"F"; node "zzz" [VInt 1]; x; y]))%bool = true.
Proof. vm_compute. reflexivity. Qed.

Theorem C29_TitleBlock : swaps TitleBlock_from 0 [["title"]; ["date"]; ["rev"]; ["company"]; ["comment"]]%string.
Proof. exact L_SwapA.TitleBlock_swap. Qed.
Print Assumptions C29_TitleBlock.
Example C29_TitleBlock_case : let x := node "title" [VStr $"a"] in let y := node "comment" [VInt 1; VInt 2] in
  (apart [["title"]; ["date"]; ["rev"]; ["company"]; ["comment"]]%string x y && accepts (TitleBlock_from) (VList [VStr $"title_block"; node "zzz" [VInt 1]; x; y]))%bool = true.
Proof. vm_compute. reflexivity. Qed.

Theorem C29_Property : swaps Property_from 2 [["id"]; ["at"]; ["effects"]; ["show_name"]]%string.
Proof. exact L_SwapA.Property_swap. Qed.
Print Assumptions C29_Property.
Example C29_Property_case : let x := node "id" [VStr $"a"] in let y := node "show_name" [VStr $"a"] in
  (apart [["id"]; ["at"]; ["effects"]; ["show_name"]]%string x y && accepts (Property_from) (VList [VStr $"property"; VStr $"F"; VStr $"F"; node "zzz" [VInt 1]; x; y]))%bool = true.
Proof. vm_compute. reflexivity. Qed.

Theorem C29_RenderCachePolygon : swaps RenderCachePolygon_from 0 [["pts"]]%string.
Proof. exact L_SwapA.RenderCachePolygon_swap. Qed.
Print Assumptions C29_RenderCachePolygon.
Example C29_RenderCachePolygon_case : let x := node "pts" [] in let y := node "zzz" [VInt 1] in
  (apart [["pts"]]%string x y && accepts (RenderCachePolygon_from) (VList [VStr $"polygon"; node "zzz" [VInt 1]; x; y]))%bool = true.
Proof. vm_compute. reflexivity. Qed.

Theorem C29_RenderCache : swaps RenderCache_from 2 [["polygon"]]%string.
Proof. exact L_SwapA.RenderCache_swap. Qed.
Print Assumptions C29_RenderCache.
Example C29_RenderCache_case : let x := node "polygon" [VStr $"a"] in let y := node "zzz" [VInt 1] in
  (apart [["polygon"]]%string x y && accepts (RenderCache_from) (VList [VStr $"render_cache"; VStr $"F"; VStr $"F"; node "zzz" [VInt 1]; x; y]))%bool = true.
Proof. vm_compute. reflexivity. Qed.

Theorem C29_Fill : swaps Fill_from 0 [["type"]; ["color"]]%string.
Proof. exact L_SwapA.Fill_swap. Qed.
Print Assumptions C29_Fill.
Example C29_Fill_case : let x := node "type" [VStr $"a"] in let y := node "color" [VInt 1; VInt 2; VInt 3; VInt 4] in
  (apart [["type"]; ["color"]]%string x y && accepts (Fill_from) (VList [VStr $"fill"; node "zzz" [VInt 1]; x; y]))%bool = true.
Proof. vm_compute. reflexivity. Qed.

Theorem C29_Image : swaps Image_from 0 [["at"]; ["scale"]; ["uuid"]; ["layer"]; ["data"]]%string.
Proof. exact L_SwapA.Image_swap. Qed.
Print Assumptions C29_Image.
Example C29_Image_case : let x := node "at" [VInt 1; VInt 2] in let y := node "data" [VStr $"a"] in
  (apart [["at"]; ["scale"]; ["uuid"]; ["layer"]; ["data"]]%string x y && accepts (Image_from) (VList [VStr $"image"; node "zzz" [VInt 1]; x; y]))%bool = true.
Proof. vm_compute. reflexivity. Qed.

Theorem C29_Library : swaps Library_from 0 [["name"]; ["type"]; ["uri"]; ["options"]; ["descr"]; ["disabled"]]%string.
Proof. exact L_SwapA.Library_swap. Qed.
Print Assumptions C29_Library.
Example C29_Library_case : let x := node "name" [VStr $"a"] in let y := node "disabled" [VStr $"a"] in
  (apart [["name"]; ["type"]; ["uri"]; ["options"]; ["descr"]; ["disabled"]]%string x y && accepts (Library_from) (VList [VStr $"lib"; node "zzz" [VInt 1]; x; y]))%bool = true.
Proof. vm_compute. reflexivity. Qed.

Theorem C29_LibTable : swaps LibTable_from 0 [["lib"]]%string.
Proof. exact L_SwapA.LibTable_swap. Qed.
Print Assumptions C29_LibTable.
Example C29_LibTable_case : let x := node "lib" [VStr $"a"] in let y := node "zzz" [VInt 1] in
  (apart [["lib"]]%string x y && accepts (LibTable_from) (VList [VStr $"fp_lib_table"; VStr $"F"; node "zzz" [VInt 1]; x; y]))%bool = true.
Proof. vm_compute. reflexivity. Qed.

Theorem C29_Constraint : forall h before x y after o, 1 <= length before -> (is_list x || is_list y)%bool = true ->
  apart [["min"]; ["opt"]; ["max"]]%string x y = true ->
  Constraint_from (VList (h :: before ++ x :: y :: after)) = Ok o -> Constraint_from (VList (h :: before ++ y :: x :: after)) = Ok o.
Proof. exact L_SwapA.Constraint_swap. Qed.
Print Assumptions C29_Constraint.
Example C29_Constraint_case : let x := node "min" [VStr $"a"] in let y := node "max" [VStr $"a"] in
  (apart [["min"]; ["opt"]; ["max"]]%string x y && accepts (Constraint_from) (VList [VStr $"constraint"; VStr $"F"; node "zzz" [VInt 1]; x; y]))%bool = true.
Proof. vm_compute. reflexivity. Qed.

Theorem C29_Rule : swaps Rule_from 1 [["constraint"]; ["condition"]; ["layer"]; ["severity"]]%string.
Proof. exact L_SwapA.Rule_swap. Qed.
Print Assumptions C29_Rule.
Example C29_Rule_case : let x := node "constraint" [VStr $"a"] in let y := node "severity" [VStr $"a"] in
  (apart [["constraint"]; ["condition"]; ["layer"]; ["severity"]]%string x y && accepts (Rule_from) (VList [VStr $"rule"; VStr $"F"; node "zzz" [VInt 1]; x; y]))%bool = true.
Proof. vm_compute. reflexivity. Qed.

Theorem C29_DesignRules : swaps DesignRules_from 0 [["version"]; ["rule"]]%string.
Proof. exact L_SwapA.DesignRules_swap. Qed.
Print Assumptions C29_DesignRules.
Example C29_DesignRules_case : let x := node "version" [VStr $"a"] in let y := node "rule" [VStr $"a"] in
  (apart [["version"]; ["rule"]]%string x y && accepts (DesignRules_from) (VList [node "version" [VInt 1]; x; y]))%bool = true.
Proof. vm_compute. reflexivity. Qed.

Theorem C29_SyArc : swaps SyArc_from 0 [["private"]; ["start"]; ["mid"]; ["end"]; ["stroke"]; ["fill"]]%string.
Proof. exact L_SwapA.SyArc_swap. Qed.
Print Assumptions C29_SyArc.
Example C29_SyArc_case : let x := VStr $"private" in let y := node "fill" [VStr $"a"] in
  (apart [["private"]; ["start"]; ["mid"]; ["end"]; ["stroke"]; ["fill"]]%string x y && accepts (SyArc_from) (VList [VStr $"arc"; node "zzz" [VInt 1]; x; y]))%bool = true.
Proof. vm_compute. reflexivity. Qed.

Theorem C29_SyCircle : swaps SyCircle_from 0 [["private"]; ["center"]; ["radius"]; ["stroke"]; ["fill"]]%string.
Proof. exact L_SwapA.SyCircle_swap. Qed.
Print Assumptions C29_SyCircle.
Example C29_SyCircle_case : let x := VStr $"private" in let y := node "fill" [VStr $"a"] in
  (apart [["private"]; ["center"]; ["radius"]; ["stroke"]; ["fill"]]%string x y && accepts (SyCircle_from) (VList [VStr $"circle"; node "zzz" [VInt 1]; x; y]))%bool = true.
Proof. vm_compute. reflexivity. Qed.

Theorem C29_SyCurve : swaps SyCurve_from 0 [["stroke"]; ["fill"]; ["pts"]]%string.
Proof. exact L_SwapA.SyCurve_swap. Qed.
Print Assumptions C29_SyCurve.
Example C29_SyCurve_case : let x := node "stroke" [VStr $"a"] in let y := node "pts" [] in
  (apart [["stroke"]; ["fill"]; ["pts"]]%string x y && accepts (SyCurve_from) (VList [VStr $"curve"; node "zzz" [VInt 1]; x; y]))%bool = true.
Proof. vm_compute. reflexivity. Qed.

Theorem C29_SyPolyLine : swaps SyPolyLine_from 0 [["stroke"]; ["fill"]; ["pts"]]%string.
Proof. exact L_SwapA.SyPolyLine_swap. Qed.
Print Assumptions C29_SyPolyLine.
Example C29_SyPolyLine_case : let x := node "stroke" [VStr $"a"] in let y := node "pts" [] in
  (apart [["stroke"]; ["fill"]; ["pts"]]%string x y && accepts (SyPolyLine_from) (VList [VStr $"polyline"; node "zzz" [VInt 1]; x; y]))%bool = true.
Proof. vm_compute. reflexivity. Qed.

Theorem C29_SyRect : swaps SyRect_from 0 [["private"]; ["start"]; ["end"]; ["stroke"]; ["fill"]]%string.
Proof. exact L_SwapA.SyRect_swap. Qed.
Print Assumptions C29_SyRect.
Example C29_SyRect_case : let x := VStr $"private" in let y := node "fill" [VStr $"a"] in
  (apart [["private"]; ["start"]; ["end"]; ["stroke"]; ["fill"]]%string x y && accepts (SyRect_from) (VList [VStr $"rectangle"; node "zzz" [VInt 1]; x; y]))%bool = true.
Proof. vm_compute. reflexivity. Qed.

Theorem C29_SyText : swaps SyText_from 1 [["at"]; ["effects"]]%string.
Proof. exact L_SwapA.SyText_swap. Qed.
Print Assumptions C29_SyText.
Example C29_SyText_case : let x := node "at" [VInt 1; VInt 2] in let y := node "effects" [VStr $"a"] in
  (apart [["at"]; ["effects"]]%string x y && accepts (SyText_from) (VList [VStr $"text"; VStr $"F"; node "zzz" [VInt 1]; x; y]))%bool = true.
Proof. vm_compute. reflexivity. Qed.

Theorem C29_SyTextBox : swaps SyTextBox_from 2 [["at"]; ["size"]; ["effects"]; ["stroke"]; ["fill"]; ["uuid"]]%string.
Proof. exact L_SwapA.SyTextBox_swap. Qed.
Print Assumptions C29_SyTextBox.
Example C29_SyTextBox_case : let x := node "at" [VInt 1; VInt 2] in let y := node "uuid" [VStr $"a"] in
  (apart [["at"]; ["size"]; ["effects"]; ["stroke"]; ["fill"]; ["uuid"]]%string x y && accepts (SyTextBox_from) (VList [VStr $"text_box"; VStr $"F"; VStr $"F"; node "zzz" [VInt 1]; x; y]))%bool = true.
Proof. vm_compute. reflexivity. Qed.

Theorem C29_SymbolPin : swaps SymbolPin_from 2 [["hide"]; ["at"]; ["length"]; ["name"]; ["number"]; ["alternate"]]%string.
Proof. exact L_SwapA.SymbolPin_swap. Qed.
Print Assumptions C29_SymbolPin.
Example C29_SymbolPin_case : let x := VStr $"hide" in let y := node "alternate" [VInt 1; VInt 2; VInt 3; VInt 4] in
  (apart [["hide"]; ["at"]; ["length"]; ["name"]; ["number"]; ["alternate"]]%string x y && accepts (SymbolPin_from) (VList [VStr $"pin"; VStr $"F"; VStr $"F"; node "zzz" [VInt 1]; x; y]))%bool = true.
Proof. vm_compute. reflexivity. Qed.

Theorem C29_Symbol : swaps Symbol_from 1 [["extends"]; ["pin_numbers"]; ["pin_names"]; ["in_bom"]; ["on_board"]; ["power"]; ["symbol"]; ["property"]; ["pin"];
  ["arc"; "circle"; "curve"; "polyline"; "rectangle"; "text"; "text_box"]]%string.
Proof. exact L_SwapA.Symbol_swap. Qed.
Print Assumptions C29_Symbol.
Example C29_Symbol_case : let x := node "extends" [VStr $"Q"] in let y := node "in_bom" [VStr $"yes"] in
  (apart [["extends"]; ["pin_numbers"]; ["pin_names"]; ["in_bom"]; ["on_board"]; ["power"]; ["symbol"]; ["property"]; ["pin"];
  ["arc"; "circle"; "curve"; "polyline"; "rectangle"; "text"; "text_box"]]%string x y && accepts (Symbol_from) (VList [VStr $"symbol"; VStr $"R"; x; y]))%bool = true.
Proof. vm_compute. reflexivity. Qed.

Theorem C29_SymbolLib : swaps SymbolLib_from 0 [["version"]; ["generator"]; ["symbol"]]%string.
Proof. exact L_SwapA.SymbolLib_swap. Qed.
Print Assumptions C29_SymbolLib.
Example C29_SymbolLib_case : let x := node "version" [VStr $"a"] in let y := node "symbol" [VStr $"a"] in
  (apart [["version"]; ["generator"]; ["symbol"]]%string x y && accepts (SymbolLib_from) (VList [VStr $"kicad_symbol_lib"; node "zzz" [VInt 1]; x; y]))%bool = true.
Proof. vm_compute. reflexivity. Qed.
