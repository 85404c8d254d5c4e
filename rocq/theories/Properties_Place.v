(** Which attributes are read from a fixed place of the expression (C44), and those attributes of C41 that are fed by some
    of the items with a given head only.  The unconditional statements were generated from the from_sexpr methods. *)
From Verif Require Import PyBase PyNum PyStr PyRe Sexpr S_Leaf S_Tree S_Id S_Reader S_Gather S_Pick S_Place L_PlaceA M_Common M_Lib M_Sym M_Fp M_Gr M_Zone M_Footprint M_Dim M_Brd M_Board M_Sch M_Schematic M_Wks.

Theorem C44_Coordinate : stands Coordinate_from 1 co_X /\ stands Coordinate_from 2 co_Y /\ stands Coordinate_from 3 co_Z.
Proof. exact L_PlaceA.Coordinate_place. Qed.
Print Assumptions C44_Coordinate.
Example C44_Coordinate_case : let e := VList [VStr $"xyz"; VInt 1; VInt 2; VInt 3] in
  match Coordinate_from e with Ok o => arg 1 e = Ok (co_X o) /\ arg 2 e = Ok (co_Y o) /\ arg 3 e = Ok (co_Z o) | Err _ => False end.
Proof. vm_compute. repeat split. Qed.

Theorem C44_ColorRGBA : stands ColorRGBA_from 1 ca_R /\ stands ColorRGBA_from 2 ca_G /\ stands ColorRGBA_from 3 ca_B /\ stands ColorRGBA_from 4 ca_A.
Proof. exact L_PlaceA.ColorRGBA_place. Qed.
Print Assumptions C44_ColorRGBA.
Example C44_ColorRGBA_case : let e := VList [VStr $"color"; VStr $"F"; VStr $"F"; VStr $"F"; VStr $"F"] in
  match ColorRGBA_from e with Ok o => arg 1 e = Ok (ca_R o) /\ arg 2 e = Ok (ca_G o) /\ arg 3 e = Ok (ca_B o) /\ arg 4 e = Ok (ca_A o) | Err _ => False end.
Proof. vm_compute. repeat split. Qed.

Theorem C44_Net : stands Net_from 1 ne_number /\ stands Net_from 2 ne_name.
Proof. exact L_PlaceA.Net_place. Qed.
Print Assumptions C44_Net.
Example C44_Net_case : let e := VList [VStr $"net"; VInt 1; VStr $"GND"] in
  match Net_from e with Ok o => arg 1 e = Ok (ne_number o) /\ arg 2 e = Ok (ne_name o) | Err _ => False end.
Proof. vm_compute. repeat split. Qed.

Theorem C44_Group : stands Group_from 1 gr_name.
Proof. exact L_PlaceA.Group_place. Qed.
Print Assumptions C44_Group.
Example C44_Group_case : let e := VList [VStr $"group"; VStr $"F"; node "zzz" [VInt 1]] in
  match Group_from e with Ok o => arg 1 e = Ok (gr_name o) | Err _ => False end.
Proof. vm_compute. repeat split. Qed.

Theorem C44_Property : stands Property_from 1 pr_key /\ stands Property_from 2 pr_value.
Proof. exact L_PlaceA.Property_place. Qed.
Print Assumptions C44_Property.
Example C44_Property_case : let e := VList [VStr $"property"; VStr $"F"; VStr $"F"; node "zzz" [VInt 1]] in
  match Property_from e with Ok o => arg 1 e = Ok (pr_key o) /\ arg 2 e = Ok (pr_value o) | Err _ => False end.
Proof. vm_compute. repeat split. Qed.

Theorem C44_RenderCache : stands RenderCache_from 1 rc_text /\ stands RenderCache_from 2 rc_id.
Proof. exact L_PlaceA.RenderCache_place. Qed.
Print Assumptions C44_RenderCache.
Example C44_RenderCache_case : let e := VList [VStr $"render_cache"; VStr $"F"; VStr $"F"; node "zzz" [VInt 1]] in
  match RenderCache_from e with Ok o => arg 1 e = Ok (rc_text o) /\ arg 2 e = Ok (rc_id o) | Err _ => False end.
Proof. vm_compute. repeat split. Qed.

Theorem C44_LibTable : stands LibTable_from 0 M_Lib.lt_type.
Proof. exact L_PlaceA.LibTable_place. Qed.
Print Assumptions C44_LibTable.
Example C44_LibTable_case : let e := VList [VStr $"fp_lib_table"; VStr $"F"; node "zzz" [VInt 1]] in
  match LibTable_from e with Ok o => arg 0 e = Ok (M_Lib.lt_type o) | Err _ => False end.
Proof. vm_compute. repeat split. Qed.

Theorem C44_Constraint : stands Constraint_from 1 cn_type.
Proof. exact L_PlaceA.Constraint_place. Qed.
Print Assumptions C44_Constraint.
Example C44_Constraint_case : let e := VList [VStr $"constraint"; VStr $"F"; node "zzz" [VInt 1]] in
  match Constraint_from e with Ok o => arg 1 e = Ok (cn_type o) | Err _ => False end.
Proof. vm_compute. repeat split. Qed.

Theorem C44_Rule : stands Rule_from 1 ru_name.
Proof. exact L_PlaceA.Rule_place. Qed.
Print Assumptions C44_Rule.
Example C44_Rule_case : let e := VList [VStr $"rule"; VStr $"F"; node "zzz" [VInt 1]] in
  match Rule_from e with Ok o => arg 1 e = Ok (ru_name o) | Err _ => False end.
Proof. vm_compute. repeat split. Qed.

Theorem C44_SyText : stands SyText_from 1 sx_text.
Proof. exact L_PlaceA.SyText_place. Qed.
Print Assumptions C44_SyText.
Example C44_SyText_case : let e := VList [VStr $"text"; VStr $"F"; node "zzz" [VInt 1]] in
  match SyText_from e with Ok o => arg 1 e = Ok (sx_text o) | Err _ => False end.
Proof. vm_compute. repeat split. Qed.

Theorem C44_SymbolAlternativePin : stands SymbolAlternativePin_from 1 ap_pinName /\ stands SymbolAlternativePin_from 2 ap_electricalType /\ stands SymbolAlternativePin_from 3 ap_graphicalStyle.
Proof. exact L_PlaceA.SymbolAlternativePin_place. Qed.
Print Assumptions C44_SymbolAlternativePin.
Example C44_SymbolAlternativePin_case : let e := VList [VStr $"alternate"; VStr $"a"; VStr $"output"; VStr $"line"] in
  match SymbolAlternativePin_from e with Ok o => arg 1 e = Ok (ap_pinName o) /\ arg 2 e = Ok (ap_electricalType o) /\ arg 3 e = Ok (ap_graphicalStyle o) | Err _ => False end.
Proof. vm_compute. repeat split. Qed.

Theorem C44_SymbolPin : stands SymbolPin_from 1 sp_electricalType /\ stands SymbolPin_from 2 sp_graphicalStyle.
Proof. exact L_PlaceA.SymbolPin_place. Qed.
Print Assumptions C44_SymbolPin.
Example C44_SymbolPin_case : let e := VList [VStr $"pin"; VStr $"F"; VStr $"F"; node "zzz" [VInt 1]] in
  match SymbolPin_from e with Ok o => arg 1 e = Ok (sp_electricalType o) /\ arg 2 e = Ok (sp_graphicalStyle o) | Err _ => False end.
Proof. vm_compute. repeat split. Qed.

Theorem C44_FpText : stands FpText_from 1 ft_type /\ stands FpText_from 2 ft_text.
Proof. exact L_PlaceA.FpText_place. Qed.
Print Assumptions C44_FpText.
Example C44_FpText_case : let e := VList [VStr $"fp_text"; VStr $"F"; VStr $"F"; node "zzz" [VInt 1]] in
  match FpText_from e with Ok o => arg 1 e = Ok (ft_type o) /\ arg 2 e = Ok (ft_text o) | Err _ => False end.
Proof. vm_compute. repeat split. Qed.

Theorem C44_GrText : stands GrText_from 1 gt_text.
Proof. exact L_PlaceA.GrText_place. Qed.
Print Assumptions C44_GrText.
Example C44_GrText_case : let e := VList [VStr $"gr_text"; VStr $"F"; node "zzz" [VInt 1]] in
  match GrText_from e with Ok o => arg 1 e = Ok (gt_text o) | Err _ => False end.
Proof. vm_compute. repeat split. Qed.

Theorem C44_Model : stands Model_from 1 mo_path.
Proof. exact L_PlaceA.Model_place. Qed.
Print Assumptions C44_Model.
Example C44_Model_case : let e := VList [VStr $"model"; VStr $"F"; VStr $"F"; node "zzz" [VInt 1]; node "zzz" [VInt 1]; node "zzz" [VInt 1]] in
  match Model_from e with Ok o => arg 1 e = Ok (mo_path o) | Err _ => False end.
Proof. vm_compute. repeat split. Qed.

Theorem C44_Pad : stands Pad_from 1 pd_number /\ stands Pad_from 2 pd_type /\ stands Pad_from 3 pd_shape.
Proof. exact L_PlaceA.Pad_place. Qed.
Print Assumptions C44_Pad.
Example C44_Pad_case : let e := VList [VStr $"pad"; VStr $"F"; VStr $"F"; VStr $"F"; node "zzz" [VInt 1]] in
  match Pad_from e with Ok o => arg 1 e = Ok (pd_number o) /\ arg 2 e = Ok (pd_type o) /\ arg 3 e = Ok (pd_shape o) | Err _ => False end.
Proof. vm_compute. repeat split. Qed.

Theorem C44_LayerToken : stands LayerToken_from 0 M_Brd.lt_ordinal /\ stands LayerToken_from 1 M_Brd.lt_name /\ stands LayerToken_from 2 M_Brd.lt_type.
Proof. exact L_PlaceA.LayerToken_place. Qed.
Print Assumptions C44_LayerToken.
Example C44_LayerToken_case : let e := VList [VInt 0; VStr $"F.Cu"; VStr $"signal"] in
  match LayerToken_from e with Ok o => arg 0 e = Ok (M_Brd.lt_ordinal o) /\ arg 1 e = Ok (M_Brd.lt_name o) /\ arg 2 e = Ok (M_Brd.lt_type o) | Err _ => False end.
Proof. vm_compute. repeat split. Qed.

Theorem C44_Target : stands Target_from 1 tg_type.
Proof. exact L_PlaceA.Target_place. Qed.
Print Assumptions C44_Target.
Example C44_Target_case : let e := VList [VStr $"target"; VStr $"F"; node "zzz" [VInt 1]] in
  match Target_from e with Ok o => arg 1 e = Ok (tg_type o) | Err _ => False end.
Proof. vm_compute. repeat split. Qed.

Theorem C44_BusAlias : stands BusAlias_from 1 ba_name.
Proof. exact L_PlaceA.BusAlias_place. Qed.
Print Assumptions C44_BusAlias.
Example C44_BusAlias_case : let e := VList [VStr $"bus_alias"; VStr $"b"; node "members" [VStr $"x"]] in
  match BusAlias_from e with Ok o => arg 1 e = Ok (ba_name o) | Err _ => False end.
Proof. vm_compute. repeat split. Qed.

Theorem C44_Connection : stands Connection_from 0 cx_type.
Proof. exact L_PlaceA.Connection_place. Qed.
Print Assumptions C44_Connection.
Example C44_Connection_case : let e := VList [VStr $"wire"; VStr $"F"; node "zzz" [VInt 1]] in
  match Connection_from e with Ok o => arg 0 e = Ok (cx_type o) | Err _ => False end.
Proof. vm_compute. repeat split. Qed.

Theorem C44_Text : stands Text_from 1 tx_text.
Proof. exact L_PlaceA.Text_place. Qed.
Print Assumptions C44_Text.
Example C44_Text_case : let e := VList [VStr $"text"; VStr $"F"; node "zzz" [VInt 1]] in
  match Text_from e with Ok o => arg 1 e = Ok (tx_text o) | Err _ => False end.
Proof. vm_compute. repeat split. Qed.

Theorem C44_TextBox : stands TextBox_from 1 bx_text.
Proof. exact L_PlaceA.TextBox_place. Qed.
Print Assumptions C44_TextBox.
Example C44_TextBox_case : let e := VList [VStr $"text_box"; VStr $"F"; node "zzz" [VInt 1]] in
  match TextBox_from e with Ok o => arg 1 e = Ok (bx_text o) | Err _ => False end.
Proof. vm_compute. repeat split. Qed.

Theorem C44_LocalLabel : stands LocalLabel_from 1 ll_text.
Proof. exact L_PlaceA.LocalLabel_place. Qed.
Print Assumptions C44_LocalLabel.
Example C44_LocalLabel_case : let e := VList [VStr $"label"; VStr $"F"; node "zzz" [VInt 1]] in
  match LocalLabel_from e with Ok o => arg 1 e = Ok (ll_text o) | Err _ => False end.
Proof. vm_compute. repeat split. Qed.

Theorem C44_GlobalLabel : stands GlobalLabel_from 1 gla_text.
Proof. exact L_PlaceA.GlobalLabel_place. Qed.
Print Assumptions C44_GlobalLabel.
Example C44_GlobalLabel_case : let e := VList [VStr $"global_label"; VStr $"F"; node "zzz" [VInt 1]] in
  match GlobalLabel_from e with Ok o => arg 1 e = Ok (gla_text o) | Err _ => False end.
Proof. vm_compute. repeat split. Qed.

Theorem C44_HierarchicalLabel : stands HierarchicalLabel_from 1 hl_text.
Proof. exact L_PlaceA.HierarchicalLabel_place. Qed.
Print Assumptions C44_HierarchicalLabel.
Example C44_HierarchicalLabel_case : let e := VList [VStr $"hierarchical_label"; VStr $"F"; node "zzz" [VInt 1]] in
  match HierarchicalLabel_from e with Ok o => arg 1 e = Ok (hl_text o) | Err _ => False end.
Proof. vm_compute. repeat split. Qed.

Theorem C44_SymbolProjectPath : stands SymbolProjectPath_from 1 spp_sheetInstancePath.
Proof. exact L_PlaceA.SymbolProjectPath_place. Qed.
Print Assumptions C44_SymbolProjectPath.
Example C44_SymbolProjectPath_case : let e := VList [VStr $"path"; VStr $"F"; node "zzz" [VInt 1]] in
  match SymbolProjectPath_from e with Ok o => arg 1 e = Ok (spp_sheetInstancePath o) | Err _ => False end.
Proof. vm_compute. repeat split. Qed.

Theorem C44_SymbolProjectInstance : stands SymbolProjectInstance_from 1 spi_name.
Proof. exact L_PlaceA.SymbolProjectInstance_place. Qed.
Print Assumptions C44_SymbolProjectInstance.
Example C44_SymbolProjectInstance_case : let e := VList [VStr $"project"; VStr $"F"; node "zzz" [VInt 1]] in
  match SymbolProjectInstance_from e with Ok o => arg 1 e = Ok (spi_name o) | Err _ => False end.
Proof. vm_compute. repeat split. Qed.

Theorem C44_HierarchicalPin : stands HierarchicalPin_from 1 hp_name /\ stands HierarchicalPin_from 2 hp_connectionType.
Proof. exact L_PlaceA.HierarchicalPin_place. Qed.
Print Assumptions C44_HierarchicalPin.
Example C44_HierarchicalPin_case : let e := VList [VStr $"pin"; VStr $"F"; VStr $"F"; node "zzz" [VInt 1]] in
  match HierarchicalPin_from e with Ok o => arg 1 e = Ok (hp_name o) /\ arg 2 e = Ok (hp_connectionType o) | Err _ => False end.
Proof. vm_compute. repeat split. Qed.

Theorem C44_HierarchicalSheetProjectPath : stands HierarchicalSheetProjectPath_from 1 hpp_sheetInstancePath.
Proof. exact L_PlaceA.HierarchicalSheetProjectPath_place. Qed.
Print Assumptions C44_HierarchicalSheetProjectPath.
Example C44_HierarchicalSheetProjectPath_case : let e := VList [VStr $"path"; VStr $"F"; node "zzz" [VInt 1]] in
  match HierarchicalSheetProjectPath_from e with Ok o => arg 1 e = Ok (hpp_sheetInstancePath o) | Err _ => False end.
Proof. vm_compute. repeat split. Qed.

Theorem C44_HierarchicalSheetProjectInstance : stands HierarchicalSheetProjectInstance_from 1 hpi_name.
Proof. exact L_PlaceA.HierarchicalSheetProjectInstance_place. Qed.
Print Assumptions C44_HierarchicalSheetProjectInstance.
Example C44_HierarchicalSheetProjectInstance_case : let e := VList [VStr $"project"; VStr $"F"; node "zzz" [VInt 1]] in
  match HierarchicalSheetProjectInstance_from e with Ok o => arg 1 e = Ok (hpi_name o) | Err _ => False end.
Proof. vm_compute. repeat split. Qed.

Theorem C44_HierarchicalSheetInstance : stands HierarchicalSheetInstance_from 1 hi_instancePath.
Proof. exact L_PlaceA.HierarchicalSheetInstance_place. Qed.
Print Assumptions C44_HierarchicalSheetInstance.
Example C44_HierarchicalSheetInstance_case : let e := VList [VStr $"path"; VStr $"F"; node "zzz" [VInt 1]] in
  match HierarchicalSheetInstance_from e with Ok o => arg 1 e = Ok (hi_instancePath o) | Err _ => False end.
Proof. vm_compute. repeat split. Qed.

Theorem C44_SymbolInstance : stands SymbolInstance_from 1 syi_path.
Proof. exact L_PlaceA.SymbolInstance_place. Qed.
Print Assumptions C44_SymbolInstance.
Example C44_SymbolInstance_case : let e := VList [VStr $"path"; VStr $"F"; node "zzz" [VInt 1]] in
  match SymbolInstance_from e with Ok o => arg 1 e = Ok (syi_path o) | Err _ => False end.
Proof. vm_compute. repeat split. Qed.

Theorem C44_NetclassFlag : stands NetclassFlag_from 1 nf_text.
Proof. exact L_PlaceA.NetclassFlag_place. Qed.
Print Assumptions C44_NetclassFlag.
Example C44_NetclassFlag_case : let e := VList [VStr $"netclass_flag"; VStr $"F"; node "zzz" [VInt 1]] in
  match NetclassFlag_from e with Ok o => arg 1 e = Ok (nf_text o) | Err _ => False end.
Proof. vm_compute. repeat split. Qed.

Theorem C44_WksFontSize : stands WksFontSize_from 1 wz_width /\ stands WksFontSize_from 2 wz_height.
Proof. exact L_PlaceA.WksFontSize_place. Qed.
Print Assumptions C44_WksFontSize.
Example C44_WksFontSize_case : let e := VList [VStr $"size"; VInt 1; VInt 2] in
  match WksFontSize_from e with Ok o => arg 1 e = Ok (wz_width o) /\ arg 2 e = Ok (wz_height o) | Err _ => False end.
Proof. vm_compute. repeat split. Qed.

Theorem C44_WksPosition : stands WksPosition_from 1 wp_X /\ stands WksPosition_from 2 wp_Y.
Proof. exact L_PlaceA.WksPosition_place. Qed.
Print Assumptions C44_WksPosition.
Example C44_WksPosition_case : let e := VList [VStr $"pos"; VInt 1; VInt 2] in
  match WksPosition_from e with Ok o => arg 1 e = Ok (wp_X o) /\ arg 2 e = Ok (wp_Y o) | Err _ => False end.
Proof. vm_compute. repeat split. Qed.

Theorem C44_TbText : stands TbText_from 1 tt_text.
Proof. exact L_PlaceA.TbText_place. Qed.
Print Assumptions C44_TbText.
Example C44_TbText_case : let e := VList [VStr $"tbtext"; VStr $"F"; node "zzz" [VInt 1]] in
  match TbText_from e with Ok o => arg 1 e = Ok (tt_text o) | Err _ => False end.
Proof. vm_compute. repeat split. Qed.

Theorem C44_TextSize : stands TextSize_from 1 tz_width /\ stands TextSize_from 2 tz_height.
Proof. exact L_PlaceA.TextSize_place. Qed.
Print Assumptions C44_TextSize.
Example C44_TextSize_case : let e := VList [VStr $"textsize"; VInt 1; VInt 2] in
  match TextSize_from e with Ok o => arg 1 e = Ok (tz_width o) /\ arg 2 e = Ok (tz_height o) | Err _ => False end.
Proof. vm_compute. repeat split. Qed.

(** the angle of a position is missing when the word unlocked stands in its place *)
Theorem C44_Position : stands Position_from 1 po_X /\ stands Position_from 2 po_Y
  /\ finds Position_from (fun e => let! a := maybe 3 e in Ok (if is_str a "unlocked" then VNone else a)) po_angle.
Proof. exact L_PlaceA.Position_place. Qed.
Print Assumptions C44_Position.
Example C44_Position_case : Position_from (node "at" [VInt 1; VInt 2; VInt 90]) = Ok (mkPosition (VInt 1) (VInt 2) (VInt 90) false) /\ Position_from (node "at" [VInt 1; VInt 2; VStr $"unlocked"]) = Ok (mkPosition (VInt 1) (VInt 2) VNone true).
Proof. vm_compute. repeat split. Qed.

(** the size of the paper is only read for the size User *)
Theorem C44_PageSettings : stands PageSettings_from 1 pg_paperSize
  /\ finds PageSettings_from (fun e => let! s := arg 1 e in if is_str s "User" then arg 2 e else Ok VNone) pg_width
  /\ finds PageSettings_from (fun e => let! s := arg 1 e in if is_str s "User" then arg 3 e else Ok VNone) pg_height.
Proof. exact L_PlaceA.PageSettings_place. Qed.
Print Assumptions C44_PageSettings.
Example C44_PageSettings_case : PageSettings_from (node "paper" [VStr $"User"; VInt 10; VInt 20]) = Ok (mkPageSettings (VStr $"User") (VInt 10) (VInt 20) false) /\ PageSettings_from (node "paper" [VStr $"A4"; VInt 10; VInt 20]) = Ok (mkPageSettings (VStr $"A4") VNone VNone false).
Proof. vm_compute. repeat split. Qed.

Theorem C44_LayerToken_user : finds LayerToken_from (maybe 3) M_Brd.lt_userName.
Proof. exact L_PlaceA.LayerToken_user. Qed.
Print Assumptions C44_LayerToken_user.
Example C44_LayerToken_user_case : LayerToken_from (VList [VInt 0; VStr $"F.Cu"; VStr $"signal"; VStr $"top"]) = Ok (mkLayerToken (VInt 0) (VStr $"F.Cu") (VStr $"signal") (VStr $"top")).
Proof. vm_compute. repeat split. Qed.

Theorem C44_WksPosition_corner : finds WksPosition_from (maybe 3) wp_corner.
Proof. exact L_PlaceA.WksPosition_corner. Qed.
Print Assumptions C44_WksPosition_corner.
Example C44_WksPosition_corner_case : WksPosition_from (node "pos" [VInt 1; VInt 2; VStr $"ltcorner"]) = Ok (mkWksPosition (VInt 1) (VInt 2) (VStr $"ltcorner")).
Proof. vm_compute. repeat split. Qed.

Theorem C44_FpTextBox : finds FpTextBox_from (behind "locked"%string) fb_text /\ finds FpTextBox_from (flagged "locked"%string) fb_locked.
Proof. exact L_PlaceA.FpTextBox_place. Qed.
Print Assumptions C44_FpTextBox.
Example C44_FpTextBox_case : match FpTextBox_from (node "fp_text_box" [VStr $"locked"; VStr $"x"]), FpTextBox_from (node "fp_text_box" [VStr $"locked"; node "at" [VInt 1; VInt 2]]) with
  | Ok a, Ok b => fb_text a = VStr $"x" /\ fb_locked a = true /\ fb_text b = VStr $"locked" /\ fb_locked b = false | _, _ => False end.
Proof. vm_compute. repeat split. Qed.

Theorem C44_GrTextBox : finds GrTextBox_from (behind "locked"%string) gb_text /\ finds GrTextBox_from (flagged "locked"%string) gb_locked.
Proof. exact L_PlaceA.GrTextBox_place. Qed.
Print Assumptions C44_GrTextBox.
Example C44_GrTextBox_case : match GrTextBox_from (node "gr_text_box" [VStr $"locked"; VStr $"x"]), GrTextBox_from (node "gr_text_box" [VStr $"locked"; node "at" [VInt 1; VInt 2]]) with
  | Ok a, Ok b => gb_text a = VStr $"x" /\ gb_locked a = true /\ gb_text b = VStr $"locked" /\ gb_locked b = false | _, _ => False end.
Proof. vm_compute. repeat split. Qed.

Theorem C44_SyTextBox : finds SyTextBox_from (behind "private"%string) M_Sym.sb_text /\ finds SyTextBox_from (flagged "private"%string) M_Sym.sb_private.
Proof. exact L_PlaceA.SyTextBox_place. Qed.
Print Assumptions C44_SyTextBox.
Example C44_SyTextBox_case : match SyTextBox_from (node "text_box" [VStr $"private"; VStr $"x"]), SyTextBox_from (node "text_box" [VStr $"private"; node "at" [VInt 1; VInt 2]]) with
  | Ok a, Ok b => M_Sym.sb_text a = VStr $"x" /\ M_Sym.sb_private a = true /\ M_Sym.sb_text b = VStr $"private" /\ M_Sym.sb_private b = false | _, _ => False end.
Proof. vm_compute. repeat split. Qed.

(** the width of a round drill is whatever stands behind the diameter *)
Theorem C44_DrillDefinition : finds DrillDefinition_from (arg_is 1 "oval"%string) dd_oval
  /\ finds DrillDefinition_from (fun e => let! b := arg_is 1 "oval"%string e in arg (if b : bool then 2 else 1) e) dd_diameter
  /\ finds DrillDefinition_from (fun e => let! b := arg_is 1 "oval"%string e in if b : bool then arg 3 e else maybe 2 e) dd_width.
Proof. exact L_PlaceA.DrillDefinition_place. Qed.
Print Assumptions C44_DrillDefinition.
Example C44_DrillDefinition_case : DrillDefinition_from (node "drill" [VStr $"oval"; VInt 1; VInt 2]) = Ok (DrillDefinition_default <| dd_oval := true |> <| dd_diameter := VInt 1 |> <| dd_width := VInt 2 |>)
  /\ DrillDefinition_from (node "drill" [VInt 1]) = Ok (DrillDefinition_default <| dd_diameter := VInt 1 |>).
Proof. vm_compute. repeat split. Qed.

Theorem C44_Attributes : finds Attributes_from (fun e => let! x := maybe 1 e in Ok (if is_str x "through_hole" || is_str x "smd" then x else VNone)) fx_type.
Proof. exact L_PlaceA.Attributes_place. Qed.
Print Assumptions C44_Attributes.
Example C44_Attributes_case : Attributes_from (node "attr" [VStr $"smd"; VStr $"board_only"]) = Ok (Attributes_default <| fx_type := VStr $"smd" |> <| fx_boardOnly := true |>).
Proof. vm_compute. repeat split. Qed.

Theorem C44_StackupLayer : stands StackupLayer_from 1 sl_name.
Proof. exact L_PlaceA.StackupLayer_place. Qed.
Print Assumptions C44_StackupLayer.
Example C44_StackupLayer_case : match StackupLayer_from (node "layer" [VStr $"F.Cu"; node "type" [VStr $"copper"]]) with Ok o => sl_name o = VStr $"F.Cu" | Err _ => False end.
Proof. vm_compute. repeat split. Qed.

Theorem C44_Model_hide : finds Model_from (arg_is 2 "hide"%string) mo_hide.
Proof. exact L_PlaceA.Model_hide. Qed.
Print Assumptions C44_Model_hide.
Example C44_Model_hide_case : match Model_from (node "model" [VStr $"a.wrl"; VStr $"hide"; node "zzz" []; node "zzz" []; node "zzz" []]) with Ok o => mo_hide o = true | Err _ => False end.
Proof. vm_compute. repeat split. Qed.

(** ** Identifiers that are taken apart *)
Theorem C44_Symbol : forall e o, Symbol_from e = Ok o -> exists s, arg 1 e = Ok (VStr s)
  /\ symbol_named s (sy_libraryNickname o) (sy_entryName o) (sy_unitId o) (sy_styleId o).
Proof. exact L_PlaceA.Symbol_place. Qed.
Print Assumptions C44_Symbol.
Example C44_Symbol_case : match Symbol_from (node "symbol" [VStr $"Device:R"]), Symbol_from (node "symbol" [VStr $"R_0_1"]), Symbol_from (node "symbol" [VStr $"R"]) with
  | Ok a, Ok b, Ok c => sy_libraryNickname a = VStr $"Device" /\ sy_entryName a = VStr $"R" /\ sy_entryName b = VStr $"R" /\ sy_unitId b = VInt 0 /\ sy_styleId b = VInt 1 /\ sy_entryName c = VStr $"R" | _, _, _ => False end.
Proof. vm_compute. repeat split. Qed.

Theorem C44_Footprint : forall now e o, Footprint_from now e = Ok o -> exists id, arg 1 e = Ok id
  /\ nick_named (fmt id) id (fd_libraryNickname o) (fd_entryName o).
Proof. exact L_PlaceA.Footprint_place. Qed.
Print Assumptions C44_Footprint.
Example C44_Footprint_case : match Footprint_from VNone (node "footprint" [VStr $"lib:name"]), Footprint_from VNone (node "footprint" [VInt 3]) with
  | Ok a, Ok b => fd_libraryNickname a = VStr $"lib" /\ fd_entryName a = VStr $"name" /\ fd_entryName b = VInt 3 | _, _ => False end.
Proof. vm_compute. repeat split. Qed.

Theorem C41_SchematicSymbol_lib : forall before args after o, 1 <= length before -> lacks ["lib_id"%string] after = true ->
  SchematicSymbol_from (VList (before ++ VList (VStr $"lib_id" :: args) :: after)) = Ok o ->
  exists s rest, args = VStr s :: rest /\ nick_named s (VStr s) (ss_libraryNickname o) (ss_entryName o).
Proof. exact L_PlaceA.SchematicSymbol_lib. Qed.
Print Assumptions C41_SchematicSymbol_lib.
Example C41_SchematicSymbol_lib_case : match SchematicSymbol_from (node "symbol" [node "lib_id" [VStr $"x"]; node "lib_id" [VStr $"lib:name"]; node "uuid" [VStr $"u"]]) with
  | Ok a => ss_libraryNickname a = VStr $"lib" /\ ss_entryName a = VStr $"name" | _ => False end.
Proof. vm_compute. repeat split. Qed.

(** ** Attributes fed by some of the items with a given head *)
Theorem C41_SymbolPin_effects : picks_item SymbolPin_from 3 (headed "name"%string (fun l => Nat.leb 2 (length l))) (in_arg 2 (as_ Some Effects_from)) sp_nameEffects
  /\ picks_item SymbolPin_from 3 (headed "number"%string (fun l => Nat.leb 2 (length l))) (in_arg 2 (as_ Some Effects_from)) sp_numberEffects.
Proof. exact L_PlaceA.SymbolPin_pick2. Qed.
Print Assumptions C41_SymbolPin_effects.
Example C41_SymbolPin_effects_case : match SymbolPin_from (node "pin" [VStr $"input"; VStr $"line"; node "name" [VStr $"A"; node "effects" [VStr $"hide"]]; node "number" [VStr $"1"; node "effects" []]]) with
  | Ok o => sp_nameEffects o = Some (Effects_default <| ef_hide := true |>) /\ sp_numberEffects o = Some Effects_default | Err _ => False end.
Proof. vm_compute. repeat split. Qed.

Theorem C41_Zone_connect : picks_item Zone_from 0 (headed "connect_pads"%string (fun l => negb (Nat.eqb (length l) 1))) (arg 1) zo_connectPads
  /\ picks_item Zone_from 0 (headed "connect_pads"%string (fun _ => true))
       clearance_of zo_clearance.
Proof. exact L_PlaceA.Zone_pick2. Qed.
Print Assumptions C41_Zone_connect.
Example C41_Zone_connect_case : match Zone_from (node "zone" [node "connect_pads" [VStr $"yes"; node "clearance" [VInt 5]]; node "connect_pads" [node "clearance" [VInt 6]]]) with
  | Ok o => zo_connectPads o = VStr $"yes" /\ zo_clearance o = VInt 6 | Err _ => False end.
Proof. vm_compute. repeat split. Qed.

Theorem C41_HierarchicalSheet_names : picks_item HierarchicalSheet_from 1 (headed "property"%string (keyed ["Sheet name"; "Sheetname"]%string)) Property_from hs_sheetName
  /\ picks_item HierarchicalSheet_from 1 (headed "property"%string (keyed ["Sheet file"; "Sheetfile"]%string)) Property_from hs_fileName.
Proof. exact L_PlaceA.HierarchicalSheet_pick2. Qed.
Print Assumptions C41_HierarchicalSheet_names.
Example C41_HierarchicalSheet_names_case : match HierarchicalSheet_from (node "sheet" [node "property" [VStr $"Sheetname"; VStr $"a"]; node "property" [VStr $"Sheet file"; VStr $"b"]; node "property" [VStr $"c"; VStr $"d"]]) with
  | Ok o => pr_value (hs_sheetName o) = VStr $"a" /\ pr_value (hs_fileName o) = VStr $"b" /\ length (hs_properties o) = 1%nat | Err _ => False end.
Proof. vm_compute. repeat split. Qed.

Theorem C41_Symbol_offset : picks_item Symbol_from 2 (headed "pin_names"%string (existsb (headed "offset"%string (fun _ => true)))) offset_of sy_pinNamesOffset.
Proof. exact L_PlaceA.Symbol_pick2. Qed.
Print Assumptions C41_Symbol_offset.
Example C41_Symbol_offset_case : match Symbol_from (node "symbol" [VStr $"R"; node "pin_names" [node "offset" [VInt 1]; VStr $"hide"; node "offset" [VInt 2]]; node "pin_names" [VStr $"hide"]]) with
  | Ok o => sy_pinNamesOffset o = VInt 2 | Err _ => False end.
Proof. vm_compute. repeat split. Qed.

