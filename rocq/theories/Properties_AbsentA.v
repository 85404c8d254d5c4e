(** Missing tokens: what the readers put in place of a token that does not occur (C38). Each [case] is an
    expression without any of the keys of the theorem that the reader accepts. *)
From Verif Require Import PyBase PyNum PyStr Sexpr S_Leaf S_Tree S_Reader M_Common M_Lib M_Sym.
From Verif Require L_AbsentA.

Theorem C38_Position : absent Position_from ["unlocked"]%string po_unlocked false.
Proof. exact L_AbsentA.Position_absent. Qed.
Print Assumptions C38_Position.
Example C38_Position_case : let items := [VStr $"at"; VInt 1; VInt 2] in
  (lacks ["unlocked"]%string items && accepts (Position_from) (VList items))%bool = true.
Proof. vm_compute. reflexivity. Qed.

Theorem C38_ColorRGBA : absent ColorRGBA_from [] ca_precision VNone.
Proof. exact L_AbsentA.ColorRGBA_absent. Qed.
Print Assumptions C38_ColorRGBA.
Example C38_ColorRGBA_case : let items := [VStr $"color"; VStr $"F"; VStr $"F"; VStr $"F"; VStr $"F"] in
  (lacks [] items && accepts (ColorRGBA_from) (VList items))%bool = true.
Proof. vm_compute. reflexivity. Qed.

Theorem C38_Stroke : absent Stroke_from ["width"]%string st_width (fdec 0 0) /\
  absent Stroke_from ["type"]%string st_type VNone /\
  absent Stroke_from ["color"]%string st_color None.
Proof. exact L_AbsentA.Stroke_absent. Qed.
Print Assumptions C38_Stroke.
Example C38_Stroke_case : let items := [VStr $"stroke"; node "zzz" [VInt 1]] in
  (lacks ["width"; "type"; "color"]%string items && accepts (Stroke_from) (VList items))%bool = true.
Proof. vm_compute. reflexivity. Qed.

Theorem C38_Font : absent Font_from ["face"]%string fo_face VNone /\
  absent Font_from ["size"]%string fo_height (fdec 1 0) /\
  absent Font_from ["size"]%string fo_width (fdec 1 0) /\
  absent Font_from ["thickness"]%string fo_thickness VNone /\
  absent Font_from ["bold"]%string fo_bold false /\
  absent Font_from ["italic"]%string fo_italic false /\
  absent Font_from ["line_spacing"]%string fo_lineSpacing VNone /\
  absent Font_from ["color"]%string fo_color None.
Proof. exact L_AbsentA.Font_absent. Qed.
Print Assumptions C38_Font.
Example C38_Font_case : let items := [VStr $"font"; node "zzz" [VInt 1]] in
  (lacks ["face"; "size"; "thickness"; "bold"; "italic"; "line_spacing"; "color"]%string items && accepts (Font_from) (VList items))%bool = true.
Proof. vm_compute. reflexivity. Qed.

Theorem C38_Justify : absent Justify_from ["left"; "right"; "center"]%string ju_horizontally VNone /\
  absent Justify_from ["top"; "bottom"]%string ju_vertically VNone /\
  absent Justify_from ["mirror"]%string ju_mirror false.
Proof. exact L_AbsentA.Justify_absent. Qed.
Print Assumptions C38_Justify.
Example C38_Justify_case : let items := [VStr $"justify"; node "zzz" [VInt 1]] in
  (lacks ["left"; "right"; "center"; "top"; "bottom"; "mirror"]%string items && accepts (Justify_from) (VList items))%bool = true.
Proof. vm_compute. reflexivity. Qed.

Theorem C38_Effects : absent Effects_from ["font"]%string ef_font (mkFont VNone (fdec 1 0) (fdec 1 0) VNone false false VNone None) /\
  absent Effects_from ["justify"]%string ef_justify (mkJustify VNone VNone false) /\
  absent Effects_from ["hide"]%string ef_hide false /\
  absent Effects_from ["href"]%string ef_href VNone.
Proof. exact L_AbsentA.Effects_absent. Qed.
Print Assumptions C38_Effects.
Example C38_Effects_case : let items := [VStr $"effects"; node "zzz" [VInt 1]] in
  (lacks ["font"; "justify"; "hide"; "href"]%string items && accepts (Effects_from) (VList items))%bool = true.
Proof. vm_compute. reflexivity. Qed.

Theorem C38_Group : absent Group_from ["locked"]%string gr_locked false /\
  absent Group_from ["id"]%string gr_id (VStr []) /\
  absent Group_from ["members"]%string gr_members [].
Proof. exact L_AbsentA.Group_absent. Qed.
Print Assumptions C38_Group.
Example C38_Group_case : let items := [VStr $"group"; VStr $"F"; node "zzz" [VInt 1]] in
  (lacks ["locked"; "id"; "members"]%string items && accepts (Group_from) (VList items))%bool = true.
Proof. vm_compute. reflexivity. Qed.

Theorem C38_PageSettings : absent PageSettings_from ["portrait"]%string pg_portrait false /\
  absent PageSettings_from ["User"]%string pg_width VNone /\
  absent PageSettings_from ["User"]%string pg_height VNone.
Proof. exact L_AbsentA.PageSettings_absent. Qed.
Print Assumptions C38_PageSettings.
Example C38_PageSettings_case : let items := [VStr $"paper"; VStr $"F"; VStr $"F"; VStr $"F"; node "zzz" [VInt 1]] in
  (lacks ["portrait"; "User"]%string items && accepts (PageSettings_from) (VList items))%bool = true.
Proof. vm_compute. reflexivity. Qed.

Theorem C38_TitleBlock : absent TitleBlock_from ["title"]%string tb_title VNone /\
  absent TitleBlock_from ["date"]%string tb_date VNone /\
  absent TitleBlock_from ["rev"]%string tb_revision VNone /\
  absent TitleBlock_from ["company"]%string tb_company VNone /\
  absent TitleBlock_from ["comment"]%string tb_comments [].
Proof. exact L_AbsentA.TitleBlock_absent. Qed.
Print Assumptions C38_TitleBlock.
Example C38_TitleBlock_case : let items := [VStr $"title_block"; node "zzz" [VInt 1]] in
  (lacks ["title"; "date"; "rev"; "company"; "comment"]%string items && accepts (TitleBlock_from) (VList items))%bool = true.
Proof. vm_compute. reflexivity. Qed.

Theorem C38_Property : absent Property_from ["id"]%string pr_id VNone /\
  absent Property_from ["at"]%string pr_position ((mkPosition (fdec 0 0) (fdec 0 0) VNone false) <| po_angle := VInt 0 |>) /\
  absent Property_from ["effects"]%string pr_effects None /\
  absent Property_from ["show_name"]%string pr_showName false.
Proof. exact L_AbsentA.Property_absent. Qed.
Print Assumptions C38_Property.
Example C38_Property_case : let items := [VStr $"property"; VStr $"F"; VStr $"F"; node "zzz" [VInt 1]] in
  (lacks ["id"; "at"; "effects"; "show_name"]%string items && accepts (Property_from) (VList items))%bool = true.
Proof. vm_compute. reflexivity. Qed.

Theorem C38_RenderCachePolygon : absent RenderCachePolygon_from ["pts"]%string rp_pts [].
Proof. exact L_AbsentA.RenderCachePolygon_absent. Qed.
Print Assumptions C38_RenderCachePolygon.
Example C38_RenderCachePolygon_case : let items := [VStr $"polygon"; node "zzz" [VInt 1]] in
  (lacks ["pts"]%string items && accepts (RenderCachePolygon_from) (VList items))%bool = true.
Proof. vm_compute. reflexivity. Qed.

Theorem C38_RenderCache : absent RenderCache_from ["polygon"]%string rc_polygons [].
Proof. exact L_AbsentA.RenderCache_absent. Qed.
Print Assumptions C38_RenderCache.
Example C38_RenderCache_case : let items := [VStr $"render_cache"; VStr $"F"; VStr $"F"; node "zzz" [VInt 1]] in
  (lacks ["polygon"]%string items && accepts (RenderCache_from) (VList items))%bool = true.
Proof. vm_compute. reflexivity. Qed.

Theorem C38_Fill : absent Fill_from ["type"]%string fi_type (VStr $"none") /\
  absent Fill_from ["color"]%string fi_color None.
Proof. exact L_AbsentA.Fill_absent. Qed.
Print Assumptions C38_Fill.
Example C38_Fill_case : let items := [VStr $"fill"; node "zzz" [VInt 1]] in
  (lacks ["type"; "color"]%string items && accepts (Fill_from) (VList items))%bool = true.
Proof. vm_compute. reflexivity. Qed.

Theorem C38_Image : absent Image_from ["at"]%string im_position (mkPosition (fdec 0 0) (fdec 0 0) VNone false) /\
  absent Image_from ["scale"]%string im_scale VNone /\
  absent Image_from ["data"]%string im_data [] /\
  absent Image_from ["uuid"]%string im_uuid VNone /\
  absent Image_from ["layer"]%string im_layer VNone.
Proof. exact L_AbsentA.Image_absent. Qed.
Print Assumptions C38_Image.
Example C38_Image_case : let items := [VStr $"image"; node "zzz" [VInt 1]] in
  (lacks ["at"; "scale"; "data"; "uuid"; "layer"]%string items && accepts (Image_from) (VList items))%bool = true.
Proof. vm_compute. reflexivity. Qed.

Theorem C38_Library : absent Library_from ["name"]%string lb_name (VStr []) /\
  absent Library_from ["type"]%string lb_type (VStr $"KiCad") /\
  absent Library_from ["uri"]%string lb_uri (VStr []) /\
  absent Library_from ["options"]%string lb_options (VStr []) /\
  absent Library_from ["descr"]%string lb_description (VStr []) /\
  absent Library_from ["disabled"]%string lb_active true.
Proof. exact L_AbsentA.Library_absent. Qed.
Print Assumptions C38_Library.
Example C38_Library_case : let items := [VStr $"lib"; node "zzz" [VInt 1]] in
  (lacks ["name"; "type"; "uri"; "options"; "descr"; "disabled"]%string items && accepts (Library_from) (VList items))%bool = true.
Proof. vm_compute. reflexivity. Qed.

Theorem C38_LibTable : absent LibTable_from ["lib"]%string lt_libs [] /\
  absent LibTable_from [] lt_filePath VNone.
Proof. exact L_AbsentA.LibTable_absent. Qed.
Print Assumptions C38_LibTable.
Example C38_LibTable_case : let items := [VStr $"fp_lib_table"; VStr $"F"; node "zzz" [VInt 1]] in
  (lacks ["lib"]%string items && accepts (LibTable_from) (VList items))%bool = true.
Proof. vm_compute. reflexivity. Qed.

Theorem C38_Constraint : absent Constraint_from ["min"]%string cn_min VNone /\
  absent Constraint_from ["opt"]%string cn_opt VNone /\
  absent Constraint_from ["max"]%string cn_max VNone.
Proof. exact L_AbsentA.Constraint_absent. Qed.
Print Assumptions C38_Constraint.
Example C38_Constraint_case : let items := [VStr $"constraint"; VStr $"F"; node "zzz" [VInt 1]] in
  (lacks ["min"; "opt"; "max"]%string items && accepts (Constraint_from) (VList items))%bool = true.
Proof. vm_compute. reflexivity. Qed.

(** The elements of a constraint are its bare words. *)
Theorem C38_Constraint_elements : forall items o, forallb is_list (skipn 2 items) = true -> Constraint_from (VList items) = Ok o -> cn_elements o = [].
Proof. exact L_AbsentA.Constraint_no_elements. Qed.
Print Assumptions C38_Constraint_elements.
Example C38_Constraint_elements_case : let items := [VStr $"constraint"; VStr $"clearance"; node "min" [VStr $"1mm"]] in
  (forallb is_list (skipn 2 items) && accepts Constraint_from (VList items))%bool = true.
Proof. vm_compute. reflexivity. Qed.

Theorem C38_Rule : absent Rule_from ["constraint"]%string ru_constraints [] /\
  absent Rule_from ["condition"]%string ru_condition (VStr []) /\
  absent Rule_from ["layer"]%string ru_layer VNone /\
  absent Rule_from ["severity"]%string ru_severity VNone.
Proof. exact L_AbsentA.Rule_absent. Qed.
Print Assumptions C38_Rule.
Example C38_Rule_case : let items := [VStr $"rule"; VStr $"F"; node "zzz" [VInt 1]] in
  (lacks ["constraint"; "condition"; "layer"; "severity"]%string items && accepts (Rule_from) (VList items))%bool = true.
Proof. vm_compute. reflexivity. Qed.

Theorem C38_DesignRules : absent DesignRules_from ["rule"]%string dr_rules [] /\
  absent DesignRules_from [] dr_filePath VNone.
Proof. exact L_AbsentA.DesignRules_absent. Qed.
Print Assumptions C38_DesignRules.
Example C38_DesignRules_case : let items := [node "version" [VInt 1]; node "zzz" [VInt 1]] in
  (lacks ["rule"]%string items && accepts (DesignRules_from) (VList items))%bool = true.
Proof. vm_compute. reflexivity. Qed.

Theorem C38_SyArc : absent SyArc_from ["private"]%string sa_private false /\
  absent SyArc_from ["start"]%string sa_start (mkPosition (fdec 0 0) (fdec 0 0) VNone false) /\
  absent SyArc_from ["mid"]%string sa_mid (mkPosition (fdec 0 0) (fdec 0 0) VNone false) /\
  absent SyArc_from ["end"]%string sa_end (mkPosition (fdec 0 0) (fdec 0 0) VNone false) /\
  absent SyArc_from ["stroke"]%string sa_stroke (mkStroke (fdec 0 0) VNone None) /\
  absent SyArc_from ["fill"]%string sa_fill (mkFill (VStr $"none") None).
Proof. exact L_AbsentA.SyArc_absent. Qed.
Print Assumptions C38_SyArc.
Example C38_SyArc_case : let items := [VStr $"arc"; node "zzz" [VInt 1]] in
  (lacks ["private"; "start"; "mid"; "end"; "stroke"; "fill"]%string items && accepts (SyArc_from) (VList items))%bool = true.
Proof. vm_compute. reflexivity. Qed.

Theorem C38_SyCircle : absent SyCircle_from ["private"]%string si_private false /\
  absent SyCircle_from ["center"]%string si_center (mkPosition (fdec 0 0) (fdec 0 0) VNone false) /\
  absent SyCircle_from ["radius"]%string si_radius (fdec 0 0) /\
  absent SyCircle_from ["stroke"]%string si_stroke (mkStroke (fdec 0 0) VNone None) /\
  absent SyCircle_from ["fill"]%string si_fill (mkFill (VStr $"none") None).
Proof. exact L_AbsentA.SyCircle_absent. Qed.
Print Assumptions C38_SyCircle.
Example C38_SyCircle_case : let items := [VStr $"circle"; node "zzz" [VInt 1]] in
  (lacks ["private"; "center"; "radius"; "stroke"; "fill"]%string items && accepts (SyCircle_from) (VList items))%bool = true.
Proof. vm_compute. reflexivity. Qed.

Theorem C38_SyCurve : absent SyCurve_from ["pts"]%string sc_points [] /\
  absent SyCurve_from ["stroke"]%string sc_stroke (mkStroke (fdec 0 0) VNone None) /\
  absent SyCurve_from ["fill"]%string sc_fill (mkFill (VStr $"none") None).
Proof. exact L_AbsentA.SyCurve_absent. Qed.
Print Assumptions C38_SyCurve.
Example C38_SyCurve_case : let items := [VStr $"curve"; node "zzz" [VInt 1]] in
  (lacks ["pts"; "stroke"; "fill"]%string items && accepts (SyCurve_from) (VList items))%bool = true.
Proof. vm_compute. reflexivity. Qed.

Theorem C38_SyPolyLine : absent SyPolyLine_from ["pts"]%string sl_points [] /\
  absent SyPolyLine_from ["stroke"]%string sl_stroke (mkStroke (fdec 0 0) VNone None) /\
  absent SyPolyLine_from ["fill"]%string sl_fill (mkFill (VStr $"none") None).
Proof. exact L_AbsentA.SyPolyLine_absent. Qed.
Print Assumptions C38_SyPolyLine.
Example C38_SyPolyLine_case : let items := [VStr $"polyline"; node "zzz" [VInt 1]] in
  (lacks ["pts"; "stroke"; "fill"]%string items && accepts (SyPolyLine_from) (VList items))%bool = true.
Proof. vm_compute. reflexivity. Qed.

Theorem C38_SyRect : absent SyRect_from ["private"]%string sr_private false /\
  absent SyRect_from ["start"]%string sr_start (mkPosition (fdec 0 0) (fdec 0 0) VNone false) /\
  absent SyRect_from ["end"]%string sr_end (mkPosition (fdec 0 0) (fdec 0 0) VNone false) /\
  absent SyRect_from ["stroke"]%string sr_stroke (mkStroke (fdec 0 0) VNone None) /\
  absent SyRect_from ["fill"]%string sr_fill (mkFill (VStr $"none") None).
Proof. exact L_AbsentA.SyRect_absent. Qed.
Print Assumptions C38_SyRect.
Example C38_SyRect_case : let items := [VStr $"rectangle"; node "zzz" [VInt 1]] in
  (lacks ["private"; "start"; "end"; "stroke"; "fill"]%string items && accepts (SyRect_from) (VList items))%bool = true.
Proof. vm_compute. reflexivity. Qed.

Theorem C38_SyText : absent SyText_from ["at"]%string sx_position (mkPosition (fdec 0 0) (fdec 0 0) VNone false) /\
  absent SyText_from ["effects"]%string sx_effects (mkEffects (mkFont VNone (fdec 1 0) (fdec 1 0) VNone false false VNone None) (mkJustify VNone VNone false) false VNone).
Proof. exact L_AbsentA.SyText_absent. Qed.
Print Assumptions C38_SyText.
Example C38_SyText_case : let items := [VStr $"text"; VStr $"F"; node "zzz" [VInt 1]] in
  (lacks ["at"; "effects"]%string items && accepts (SyText_from) (VList items))%bool = true.
Proof. vm_compute. reflexivity. Qed.

Theorem C38_SyTextBox : absent SyTextBox_from ["at"]%string sb_position (mkPosition (fdec 0 0) (fdec 0 0) VNone false) /\
  absent SyTextBox_from ["size"]%string sb_size (mkPosition (fdec 0 0) (fdec 0 0) VNone false) /\
  absent SyTextBox_from ["stroke"]%string sb_stroke (mkStroke (fdec 0 0) VNone None) /\
  absent SyTextBox_from ["fill"]%string sb_fill (mkFill (VStr $"none") None) /\
  absent SyTextBox_from ["effects"]%string sb_effects (mkEffects (mkFont VNone (fdec 1 0) (fdec 1 0) VNone false false VNone None) (mkJustify VNone VNone false) false VNone) /\
  absent SyTextBox_from ["uuid"]%string sb_uuid VNone /\
  absent SyTextBox_from ["private"]%string sb_private false.
Proof. exact L_AbsentA.SyTextBox_absent. Qed.
Print Assumptions C38_SyTextBox.
Example C38_SyTextBox_case : let items := [VStr $"text_box"; VStr $"F"; VStr $"F"; node "zzz" [VInt 1]] in
  (lacks ["at"; "size"; "stroke"; "fill"; "effects"; "uuid"; "private"]%string items && accepts (SyTextBox_from) (VList items))%bool = true.
Proof. vm_compute. reflexivity. Qed.

Theorem C38_SymbolPin : absent SymbolPin_from ["at"]%string sp_position (mkPosition (fdec 0 0) (fdec 0 0) VNone false) /\
  absent SymbolPin_from ["length"]%string sp_length (fdec 254 (-3)) /\
  absent SymbolPin_from ["name"]%string sp_name (VStr []) /\
  absent SymbolPin_from ["name"]%string sp_nameEffects None /\
  absent SymbolPin_from ["number"]%string sp_number (VStr $"0") /\
  absent SymbolPin_from ["number"]%string sp_numberEffects None /\
  absent SymbolPin_from ["hide"]%string sp_hide false /\
  absent SymbolPin_from ["alternate"]%string sp_alternatePins [].
Proof. exact L_AbsentA.SymbolPin_absent. Qed.
Print Assumptions C38_SymbolPin.
Example C38_SymbolPin_case : let items := [VStr $"pin"; VStr $"F"; VStr $"F"; node "zzz" [VInt 1]] in
  (lacks ["at"; "length"; "name"; "number"; "hide"; "alternate"]%string items && accepts (SymbolPin_from) (VList items))%bool = true.
Proof. vm_compute. reflexivity. Qed.

Theorem C38_Symbol : absent Symbol_from ["extends"]%string sy_extends VNone /\
  absent Symbol_from ["pin_numbers"]%string sy_hidePinNumbers false /\
  absent Symbol_from ["pin_names"]%string sy_pinNames false /\
  absent Symbol_from ["pin_names"]%string sy_pinNamesHide false /\
  absent Symbol_from ["pin_names"]%string sy_pinNamesOffset VNone /\
  absent Symbol_from ["in_bom"]%string sy_inBom None /\
  absent Symbol_from ["on_board"]%string sy_onBoard None /\
  absent Symbol_from ["power"]%string sy_isPower false /\
  absent Symbol_from ["property"]%string sy_properties [] /\
  absent Symbol_from ["arc"; "circle"; "curve"; "polyline"; "rectangle"; "text"; "text_box"]%string sy_graphicItems [] /\
  absent Symbol_from ["pin"]%string sy_pins [] /\
  (forall h items o, lacks ["symbol"]%string items = true -> Symbol_from (VList (h :: items)) = Ok o -> sy_units o = []).
Proof. exact L_AbsentA.Symbol_absent. Qed.
Print Assumptions C38_Symbol.
Example C38_Symbol_case : let items := [VStr $"symbol"; VStr $"R"; node "zzz" [VInt 1]] in
  (lacks ["extends"; "pin_numbers"; "pin_names"; "in_bom"; "on_board"; "power"; "property"; "arc"; "circle"; "curve"; "polyline"; "rectangle"; "text"; "text_box"; "pin"]%string items && accepts (Symbol_from) (VList items))%bool = true.
Proof. vm_compute. reflexivity. Qed.

Theorem C38_SymbolLib : absent SymbolLib_from ["version"]%string sj_version (VStr $"20211014") /\
  absent SymbolLib_from ["generator"]%string sj_generator VNone /\
  absent SymbolLib_from ["symbol"]%string sj_symbols [] /\
  absent SymbolLib_from [] sj_filePath VNone.
Proof. exact L_AbsentA.SymbolLib_absent. Qed.
Print Assumptions C38_SymbolLib.
Example C38_SymbolLib_case : let items := [VStr $"kicad_symbol_lib"; node "zzz" [VInt 1]] in
  (lacks ["version"; "generator"; "symbol"]%string items && accepts (SymbolLib_from) (VList items))%bool = true.
Proof. vm_compute. reflexivity. Qed.
