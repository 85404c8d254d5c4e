(** Order of the children: proofs. *)
From Verif Require Import PyBase PyNum PyStr PyRe Sexpr S_Leaf S_Tree S_Reader L_Keep L_Swap M_Common M_Lib M_Sym.

Lemma Stroke_swap : swaps Stroke_from 1 [["width"]; ["type"]; ["color"]]%string.
Proof. swap_in Stroke_from Stroke_step 1. Qed.
Lemma Font_swap : swaps Font_from 0 [["bold"]; ["italic"]; ["face"]; ["size"]; ["thickness"]; ["line_spacing"]; ["color"]]%string.
Proof. swap_in Font_from Font_step 0. Qed.
Lemma Justify_swap : swaps Justify_from 0 [["left"; "right"; "center"]; ["top"; "bottom"]; ["mirror"]]%string.
Proof. swap_in Justify_from Justify_step 0. Qed.
Lemma Effects_swap : swaps Effects_from 0 [["hide"]; ["font"]; ["justify"]; ["href"]]%string.
Proof. swap_in Effects_from Effects_step 0. Qed.
Lemma Group_swap : swaps Group_from 1 [["locked"]; ["id"]; ["members"]]%string.
Proof. swap_in Group_from Group_step 1. Qed.
Lemma PageSettings_swap : swaps PageSettings_from 3 [["portrait"]]%string.
Proof. swap_in PageSettings_from PageSettings_step 3. Qed.
Lemma TitleBlock_swap : swaps TitleBlock_from 0 [["title"]; ["date"]; ["rev"]; ["company"]; ["comment"]]%string.
Proof. swap_in TitleBlock_from TitleBlock_step 0. Qed.
Lemma Property_swap : swaps Property_from 2 [["id"]; ["at"]; ["effects"]; ["show_name"]]%string.
Proof. swap_in Property_from Property_step 2. Qed.
Lemma RenderCachePolygon_swap : swaps RenderCachePolygon_from 0 [["pts"]]%string.
Proof. swap_in RenderCachePolygon_from RenderCachePolygon_step 0. Qed.
Lemma RenderCache_swap : swaps RenderCache_from 2 [["polygon"]]%string.
Proof. swap_in RenderCache_from RenderCache_step 2. Qed.
Lemma Fill_swap : swaps Fill_from 0 [["type"]; ["color"]]%string.
Proof. swap_in Fill_from Fill_step 0. Qed.
Lemma Image_swap : swaps Image_from 0 [["at"]; ["scale"]; ["uuid"]; ["layer"]; ["data"]]%string.
Proof. swap_in Image_from Image_step 0. Qed.
Lemma Library_swap : swaps Library_from 0 [["name"]; ["type"]; ["uri"]; ["options"]; ["descr"]; ["disabled"]]%string.
Proof. swap_in Library_from Library_step 0. Qed.
Lemma LibTable_swap : swaps LibTable_from 0 [["lib"]]%string.
Proof. swap_in LibTable_from LibTable_step 0. Qed.
Lemma Constraint_swap : forall h before x y after o, 1 <= length before -> (is_list x || is_list y)%bool = true ->
  apart [["min"]; ["opt"]; ["max"]]%string x y = true ->
  Constraint_from (VList (h :: before ++ x :: y :: after)) = Ok o -> Constraint_from (VList (h :: before ++ y :: x :: after)) = Ok o.
Proof.
  intros h before x y after o H W K. swap_args 1 H before.
  apply apart_group in K; repeat (let G := fresh "G" in apply Forall_cons_iff in K as [G K]); clear K.
  unfold Constraint_from, need_head, need_list; cbn [app at_ nth_error bind Datatypes.length skipn Nat.ltb Nat.leb].
  swap_finish. unfold Constraint_step.
  destruct (is_list x), (is_list y); try discriminate W; comm o.
Qed.
Lemma Rule_swap : swaps Rule_from 1 [["constraint"]; ["condition"]; ["layer"]; ["severity"]]%string.
Proof. swap_in Rule_from Rule_step 1. Qed.
Lemma DesignRules_swap : swaps DesignRules_from 0 [["version"]; ["rule"]]%string.
Proof. swap_in DesignRules_from DesignRules_step 0. Qed.
Lemma SyArc_swap : swaps SyArc_from 0 [["private"]; ["start"]; ["mid"]; ["end"]; ["stroke"]; ["fill"]]%string.
Proof. swap_in SyArc_from SyArc_step 0. Qed.
Lemma SyCircle_swap : swaps SyCircle_from 0 [["private"]; ["center"]; ["radius"]; ["stroke"]; ["fill"]]%string.
Proof. swap_in SyCircle_from SyCircle_step 0. Qed.
Lemma SyCurve_swap : swaps SyCurve_from 0 [["stroke"]; ["fill"]; ["pts"]]%string.
Proof. swap_in SyCurve_from SyCurve_step 0. Qed.
Lemma SyPolyLine_swap : swaps SyPolyLine_from 0 [["stroke"]; ["fill"]; ["pts"]]%string.
Proof. swap_in SyPolyLine_from SyPolyLine_step 0. Qed.
Lemma SyRect_swap : swaps SyRect_from 0 [["private"]; ["start"]; ["end"]; ["stroke"]; ["fill"]]%string.
Proof. swap_in SyRect_from SyRect_step 0. Qed.
Lemma SyText_swap : swaps SyText_from 1 [["at"]; ["effects"]]%string.
Proof. swap_in SyText_from SyText_step 1. Qed.
Lemma SyTextBox_swap : swaps SyTextBox_from 2 [["at"]; ["size"]; ["effects"]; ["stroke"]; ["fill"]; ["uuid"]]%string.
Proof. swap_in SyTextBox_from SyTextBox_step 2 using SyTextBox_private. Qed.
Lemma SymbolPin_swap : swaps SymbolPin_from 2 [["hide"]; ["at"]; ["length"]; ["name"]; ["number"]; ["alternate"]]%string.
Proof. swap_in SymbolPin_from SymbolPin_step 2. Qed.
Lemma Symbol_from_cons h id items : Symbol_from (VList (h :: id :: items)) =
  if is_str h "symbol" then let! o := Symbol_set_libId id Symbol_default in foldM (Symbol_step Symbol_from) o items else Err EException.
Proof. reflexivity. Qed.
Lemma Symbol_swap : swaps Symbol_from 1 [["extends"]; ["pin_numbers"]; ["pin_names"]; ["in_bom"]; ["on_board"]; ["power"]; ["symbol"]; ["property"]; ["pin"];
  ["arc"; "circle"; "curve"; "polyline"; "rectangle"; "text"; "text_box"]]%string.
Proof.
  unfold swaps; intros h before x y after o H K. swap_args 1 H before.
  apply apart_group in K; repeat (let G := fresh "G" in apply Forall_cons_iff in K as [G K]); clear K.
  cbn [app]. rewrite !Symbol_from_cons. swap_finish. unfold Symbol_step. comm o.
Qed.
Lemma SymbolLib_swap : swaps SymbolLib_from 0 [["version"]; ["generator"]; ["symbol"]]%string.
Proof. swap_in SymbolLib_from SymbolLib_step 0. Qed.
