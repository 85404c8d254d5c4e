(** Property theorems C24: schematic items (items/schitems.py). *)
From Verif Require Import PyBase PyNum PyStr Sexpr S_Leaf S_Tree S_Id S_Fix M_Common S_Common M_Sym S_Sym M_Fp M_Gr M_Footprint S_Footprint M_Sch S_Sch
  L_Lex L_Num L_Seq L_Tac L_Fp L_Footprint L_Sch L_Sheet Properties_Common Properties_Sym Properties_Fp.

Definition ex_pos3 : Position := mkPosition (fdec 12345 (-2)) (VInt 7) (VInt 270) false.
Definition ex_pos2 : Position := ex_xy (fdec 12345 (-2)) (VInt (-7)).
Theorem C24_Junction : roundtrips Junction_to Junction_from Junction_ok Junction_norm Junction_eqb.
Proof. exact Junction_rt. Qed.
Print Assumptions C24_Junction.
Theorem C36_Junction : conforms Junction_to Junction_from Junction_ok Junction_norm Junction_tree.
Proof. exact Junction_fmt. Qed.
Print Assumptions C36_Junction.
Theorem C27_Junction : refuses Junction_from ["junction"%string].
Proof. exact Junction_ref. Qed.
Print Assumptions C27_Junction.
Theorem C28_Junction : ignores Junction_from 0 ["at"%string; "color"%string; "diameter"%string; "uuid"%string].
Proof. exact Junction_ign. Qed.
Print Assumptions C28_Junction.
Theorem C30_Junction : last_wins Junction_from 0 ["at"%string; "color"%string; "diameter"%string; "uuid"%string].
Proof. exact Junction_win. Qed.
Print Assumptions C30_Junction.
Example C24_Junction_ex : Junction_ok (mkJunction ex_pos2 (VInt 0) (JColor_obj ex_color) ex_stamp) = true.
Proof. vm_compute. reflexivity. Qed.

Theorem C24_NoConnect : roundtrips NoConnect_to NoConnect_from NoConnect_ok NoConnect_norm NoConnect_eqb.
Proof. exact NoConnect_rt. Qed.
Print Assumptions C24_NoConnect.
Theorem C36_NoConnect : conforms NoConnect_to NoConnect_from NoConnect_ok NoConnect_norm NoConnect_tree.
Proof. exact NoConnect_fmt. Qed.
Print Assumptions C36_NoConnect.
Theorem C27_NoConnect : refuses NoConnect_from ["no_connect"%string].
Proof. exact NoConnect_ref. Qed.
Print Assumptions C27_NoConnect.
Theorem C28_NoConnect : ignores NoConnect_from 0 ["at"%string; "uuid"%string].
Proof. exact NoConnect_ign. Qed.
Print Assumptions C28_NoConnect.
Theorem C30_NoConnect : last_wins NoConnect_from 0 ["at"%string; "uuid"%string].
Proof. exact NoConnect_win. Qed.
Print Assumptions C30_NoConnect.
Example C24_NoConnect_ex : NoConnect_ok (mkNoConnect ex_pos2 ex_stamp) = true.
Proof. vm_compute. reflexivity. Qed.

Theorem C24_BusEntry : roundtrips BusEntry_to BusEntry_from BusEntry_ok BusEntry_norm BusEntry_eqb.
Proof. exact BusEntry_rt. Qed.
Print Assumptions C24_BusEntry.
Theorem C36_BusEntry : conforms BusEntry_to BusEntry_from BusEntry_ok BusEntry_norm BusEntry_tree.
Proof. exact BusEntry_fmt. Qed.
Print Assumptions C36_BusEntry.
Theorem C27_BusEntry : refuses BusEntry_from ["bus_entry"%string].
Proof. exact BusEntry_ref. Qed.
Print Assumptions C27_BusEntry.
Theorem C28_BusEntry : ignores BusEntry_from 0 ["at"%string; "stroke"%string; "size"%string; "uuid"%string].
Proof. exact BusEntry_ign. Qed.
Print Assumptions C28_BusEntry.
Theorem C30_BusEntry : last_wins BusEntry_from 0 ["at"%string; "stroke"%string; "size"%string; "uuid"%string].
Proof. exact BusEntry_win. Qed.
Print Assumptions C30_BusEntry.
Example C24_BusEntry_ex : BusEntry_ok (mkBusEntry ex_pos2 ex_stamp (ex_xy (fdec 254 (-2)) (VInt 3)) ex_stroke) = true.
Proof. vm_compute. reflexivity. Qed.

Theorem C24_BusAlias : roundtrips BusAlias_to BusAlias_from BusAlias_ok BusAlias_norm BusAlias_eqb.
Proof. exact BusAlias_rt. Qed.
Print Assumptions C24_BusAlias.
Theorem C36_BusAlias : conforms BusAlias_to BusAlias_from BusAlias_ok BusAlias_norm BusAlias_tree.
Proof. exact BusAlias_fmt. Qed.
Print Assumptions C36_BusAlias.
Theorem C27_BusAlias : refuses BusAlias_from ["bus_alias"%string].
Proof. exact BusAlias_ref. Qed.
Print Assumptions C27_BusAlias.
Example C24_BusAlias_ex : BusAlias_ok (mkBusAlias (VStr $"a ""b""") [VStr $"A[0..7]"; VStr []; VStr $"x (y)"]) = true.
Proof. vm_compute. reflexivity. Qed.

Theorem C24_Connection : roundtrips Connection_to Connection_from Connection_ok Connection_norm Connection_eqb.
Proof. exact Connection_rt. Qed.
Print Assumptions C24_Connection.
Theorem C36_Connection : conforms Connection_to Connection_from Connection_ok Connection_norm Connection_tree.
Proof. exact Connection_fmt. Qed.
Print Assumptions C36_Connection.
Theorem C27_Connection : refuses Connection_from ["wire"%string; "bus"%string].
Proof. exact Connection_ref. Qed.
Print Assumptions C27_Connection.
Theorem C28_Connection : ignores Connection_from 0 ["pts"%string; "stroke"%string; "uuid"%string].
Proof. exact Connection_ign. Qed.
Print Assumptions C28_Connection.
Theorem C30_Connection : last_wins Connection_from 0 ["stroke"%string; "uuid"%string].
Proof. exact Connection_win. Qed.
Print Assumptions C30_Connection.
Example C24_Connection_ex : Connection_ok (mkConnection (VStr $"bus") [ex_pos2; ex_xy (VInt 1) (fdec 5 (-1))] ex_stroke ex_stamp) = true.
Proof. vm_compute. reflexivity. Qed.

Theorem C24_PolyLine : roundtrips PolyLine_to PolyLine_from PolyLine_ok PolyLine_norm PolyLine_eqb.
Proof. exact PolyLine_rt. Qed.
Print Assumptions C24_PolyLine.
Theorem C36_PolyLine : conforms PolyLine_to PolyLine_from PolyLine_ok PolyLine_norm PolyLine_tree.
Proof. exact PolyLine_fmt. Qed.
Print Assumptions C36_PolyLine.
Theorem C27_PolyLine : refuses PolyLine_from ["polyline"%string].
Proof. exact PolyLine_ref. Qed.
Print Assumptions C27_PolyLine.
Theorem C28_PolyLine : ignores PolyLine_from 0 ["pts"%string; "stroke"%string; "uuid"%string].
Proof. exact PolyLine_ign. Qed.
Print Assumptions C28_PolyLine.
Theorem C30_PolyLine : last_wins PolyLine_from 0 ["stroke"%string; "uuid"%string].
Proof. exact PolyLine_win. Qed.
Print Assumptions C30_PolyLine.
Example C24_PolyLine_ex : PolyLine_ok (mkPolyLine [ex_pos2; ex_xy (VInt 1) (fdec 5 (-1))] ex_stroke ex_stamp) = true.
Proof. vm_compute. reflexivity. Qed.

(** a text of 55 characters *)
Theorem C24_Text : roundtrips Text_to Text_from Text_ok Text_norm Text_eqb.
Proof. exact Text_rt. Qed.
Print Assumptions C24_Text.
Theorem C36_Text : conforms Text_to Text_from Text_ok Text_norm Text_tree.
Proof. exact Text_fmt. Qed.
Print Assumptions C36_Text.
Theorem C27_Text : refuses Text_from ["text"%string].
Proof. exact Text_ref. Qed.
Print Assumptions C27_Text.
Theorem C28_Text : ignores Text_from 1 ["at"%string; "effects"%string; "uuid"%string].
Proof. exact Text_ign. Qed.
Print Assumptions C28_Text.
Theorem C30_Text : last_wins Text_from 1 ["at"%string; "effects"%string; "uuid"%string].
Proof. exact Text_win. Qed.
Print Assumptions C30_Text.
Example C24_Text_ex : Text_ok (mkText (VStr $"0123456789 0123456789 0123456789 (""0123456789"") 0123456") ex_pos3 ex_effects ex_stamp) = true.
Proof. vm_compute. reflexivity. Qed.

Theorem C24_TextBox : roundtrips TextBox_to TextBox_from TextBox_ok TextBox_norm TextBox_eqb.
Proof. exact TextBox_rt. Qed.
Print Assumptions C24_TextBox.
Theorem C36_TextBox : conforms TextBox_to TextBox_from TextBox_ok TextBox_norm TextBox_tree.
Proof. exact TextBox_fmt. Qed.
Print Assumptions C36_TextBox.
Theorem C27_TextBox : refuses TextBox_from ["text_box"%string].
Proof. exact TextBox_ref. Qed.
Print Assumptions C27_TextBox.
Theorem C28_TextBox : ignores TextBox_from 1 ["at"%string; "size"%string; "effects"%string; "stroke"%string; "fill"%string; "uuid"%string].
Proof. exact TextBox_ign. Qed.
Print Assumptions C28_TextBox.
Theorem C30_TextBox : last_wins TextBox_from 1 ["at"%string; "size"%string; "effects"%string; "stroke"%string; "fill"%string; "uuid"%string].
Proof. exact TextBox_win. Qed.
Print Assumptions C30_TextBox.
Example C24_TextBox_ex : TextBox_ok (mkTextBox (VStr $"a ""b""") ex_pos3 (ex_xy (VInt 3) (fdec 1 (-3))) ex_stroke ex_fill ex_effects ex_stamp) = true.
Proof. vm_compute. reflexivity. Qed.

Theorem C24_LocalLabel : roundtrips LocalLabel_to LocalLabel_from LocalLabel_ok LocalLabel_norm LocalLabel_eqb.
Proof. exact LocalLabel_rt. Qed.
Print Assumptions C24_LocalLabel.
Theorem C36_LocalLabel : conforms LocalLabel_to LocalLabel_from LocalLabel_ok LocalLabel_norm LocalLabel_tree.
Proof. exact LocalLabel_fmt. Qed.
Print Assumptions C36_LocalLabel.
Theorem C27_LocalLabel : refuses LocalLabel_from ["label"%string].
Proof. exact LocalLabel_ref. Qed.
Print Assumptions C27_LocalLabel.
Theorem C28_LocalLabel : ignores LocalLabel_from 1 ["at"%string; "effects"%string; "uuid"%string; "fields_autoplaced"%string].
Proof. exact LocalLabel_ign. Qed.
Print Assumptions C28_LocalLabel.
Theorem C30_LocalLabel : last_wins LocalLabel_from 1 ["at"%string; "effects"%string; "uuid"%string; "fields_autoplaced"%string].
Proof. exact LocalLabel_win. Qed.
Print Assumptions C30_LocalLabel.
Example C24_LocalLabel_ex : LocalLabel_ok (mkLocalLabel (VStr $"a ""b""") ex_pos3 ex_effects ex_stamp true) = true.
Proof. vm_compute. reflexivity. Qed.

Theorem C24_GlobalLabel : roundtrips GlobalLabel_to GlobalLabel_from GlobalLabel_ok GlobalLabel_norm GlobalLabel_eqb.
Proof. exact GlobalLabel_rt. Qed.
Print Assumptions C24_GlobalLabel.
Theorem C36_GlobalLabel : conforms GlobalLabel_to GlobalLabel_from GlobalLabel_ok GlobalLabel_norm GlobalLabel_tree.
Proof. exact GlobalLabel_fmt. Qed.
Print Assumptions C36_GlobalLabel.
Theorem C27_GlobalLabel : refuses GlobalLabel_from ["global_label"%string].
Proof. exact GlobalLabel_ref. Qed.
Print Assumptions C27_GlobalLabel.
Theorem C28_GlobalLabel : ignores GlobalLabel_from 1 ["fields_autoplaced"%string; "at"%string; "effects"%string; "property"%string; "shape"%string; "uuid"%string].
Proof. exact GlobalLabel_ign. Qed.
Print Assumptions C28_GlobalLabel.
Theorem C30_GlobalLabel : last_wins GlobalLabel_from 1 ["fields_autoplaced"%string; "at"%string; "effects"%string; "shape"%string; "uuid"%string].
Proof. exact GlobalLabel_win. Qed.
Print Assumptions C30_GlobalLabel.
Example C24_GlobalLabel_ex : GlobalLabel_ok (mkGlobalLabel (VStr $"a ""b""") (VStr $"bidirectional") true ex_pos3 ex_effects ex_stamp [ex_property; ex_property]) = true.
Proof. vm_compute. reflexivity. Qed.

Theorem C24_HierarchicalLabel : roundtrips HierarchicalLabel_to HierarchicalLabel_from HierarchicalLabel_ok HierarchicalLabel_norm HierarchicalLabel_eqb.
Proof. exact HierarchicalLabel_rt. Qed.
Print Assumptions C24_HierarchicalLabel.
Theorem C36_HierarchicalLabel : conforms HierarchicalLabel_to HierarchicalLabel_from HierarchicalLabel_ok HierarchicalLabel_norm HierarchicalLabel_tree.
Proof. exact HierarchicalLabel_fmt. Qed.
Print Assumptions C36_HierarchicalLabel.
Theorem C27_HierarchicalLabel : refuses HierarchicalLabel_from ["hierarchical_label"%string].
Proof. exact HierarchicalLabel_ref. Qed.
Print Assumptions C27_HierarchicalLabel.
Theorem C28_HierarchicalLabel : ignores HierarchicalLabel_from 1 ["at"%string; "effects"%string; "shape"%string; "uuid"%string; "fields_autoplaced"%string].
Proof. exact HierarchicalLabel_ign. Qed.
Print Assumptions C28_HierarchicalLabel.
Theorem C30_HierarchicalLabel : last_wins HierarchicalLabel_from 1 ["at"%string; "effects"%string; "shape"%string; "uuid"%string; "fields_autoplaced"%string].
Proof. exact HierarchicalLabel_win. Qed.
Print Assumptions C30_HierarchicalLabel.
Example C24_HierarchicalLabel_ex : HierarchicalLabel_ok (mkHierarchicalLabel (VStr $"a ""b""") (VStr $"output") ex_pos3 ex_effects ex_stamp true) = true.
Proof. vm_compute. reflexivity. Qed.

Definition ex_spath (u : Z) : SymbolProjectPath := mkSymbolProjectPath (VStr $"/00000000-0000-0000-0000-00005f325e1e") (VStr $"U 1") (VInt u).
Definition ex_sproject : SymbolProjectInstance := mkSymbolProjectInstance (VStr $"my ""project""") [ex_spath 1; ex_spath 2].
Theorem C24_SymbolProjectPath : roundtrips SymbolProjectPath_to SymbolProjectPath_from SymbolProjectPath_ok SymbolProjectPath_norm SymbolProjectPath_eqb.
Proof. exact SymbolProjectPath_rt. Qed.
Print Assumptions C24_SymbolProjectPath.
Theorem C36_SymbolProjectPath : conforms SymbolProjectPath_to SymbolProjectPath_from SymbolProjectPath_ok SymbolProjectPath_norm SymbolProjectPath_tree.
Proof. exact SymbolProjectPath_fmt. Qed.
Print Assumptions C36_SymbolProjectPath.
Theorem C27_SymbolProjectPath : refuses SymbolProjectPath_from ["path"%string].
Proof. exact SymbolProjectPath_ref. Qed.
Print Assumptions C27_SymbolProjectPath.
Theorem C28_SymbolProjectPath : ignores SymbolProjectPath_from 1 ["reference"%string; "unit"%string].
Proof. exact SymbolProjectPath_ign. Qed.
Print Assumptions C28_SymbolProjectPath.
Theorem C30_SymbolProjectPath : last_wins SymbolProjectPath_from 1 ["reference"%string; "unit"%string].
Proof. exact SymbolProjectPath_win. Qed.
Print Assumptions C30_SymbolProjectPath.
Example C24_SymbolProjectPath_ex : SymbolProjectPath_ok (ex_spath 3) = true.
Proof. vm_compute. reflexivity. Qed.

Theorem C24_SymbolProjectInstance : roundtrips SymbolProjectInstance_to SymbolProjectInstance_from SymbolProjectInstance_ok SymbolProjectInstance_norm SymbolProjectInstance_eqb.
Proof. exact SymbolProjectInstance_rt. Qed.
Print Assumptions C24_SymbolProjectInstance.
Theorem C36_SymbolProjectInstance : conforms SymbolProjectInstance_to SymbolProjectInstance_from SymbolProjectInstance_ok SymbolProjectInstance_norm SymbolProjectInstance_tree.
Proof. exact SymbolProjectInstance_fmt. Qed.
Print Assumptions C36_SymbolProjectInstance.
Theorem C27_SymbolProjectInstance : refuses SymbolProjectInstance_from ["project"%string].
Proof. exact SymbolProjectInstance_ref. Qed.
Print Assumptions C27_SymbolProjectInstance.
Theorem C28_SymbolProjectInstance : ignores SymbolProjectInstance_from 1 ["path"%string].
Proof. exact SymbolProjectInstance_ign. Qed.
Print Assumptions C28_SymbolProjectInstance.
Example C24_SymbolProjectInstance_ex : SymbolProjectInstance_ok (ex_sproject) = true.
Proof. vm_compute. reflexivity. Qed.

Definition ex_ssymbol : SchematicSymbol :=
  mkSchematicSymbol (VStr $"Device") (VStr $"R:x_1_2") (VStr $"R_1") ex_pos3 (VInt 2) true false (Some false) true ex_stamp [ex_property; ex_property]
    [(VStr $"1", ex_stamp); (VStr $"A ""2""", VStr $"abc-12")] (VStr $"x") [ex_sproject; SymbolProjectInstance_default].
Theorem C24_SchematicSymbol : roundtrips SchematicSymbol_to SchematicSymbol_from SchematicSymbol_ok SchematicSymbol_norm SchematicSymbol_eqb.
Proof. exact SchematicSymbol_rt. Qed.
Print Assumptions C24_SchematicSymbol.
Theorem C36_SchematicSymbol : conforms SchematicSymbol_to SchematicSymbol_from SchematicSymbol_ok SchematicSymbol_norm SchematicSymbol_tree.
Proof. exact SchematicSymbol_fmt. Qed.
Print Assumptions C36_SchematicSymbol.
Theorem C27_SchematicSymbol : refuses SchematicSymbol_from ["symbol"%string].
Proof. exact SchematicSymbol_ref. Qed.
Print Assumptions C27_SchematicSymbol.
Theorem C28_SchematicSymbol : ignores SchematicSymbol_from 0 ["fields_autoplaced"%string; "lib_id"%string; "lib_name"%string; "uuid"%string; "unit"%string; "in_bom"%string; "on_board"%string; "dnp"%string; "at"%string; "property"%string; "pin"%string; "mirror"%string; "instances"%string].
Proof. exact SchematicSymbol_ign. Qed.
Print Assumptions C28_SchematicSymbol.
Theorem C30_SchematicSymbol : last_wins SchematicSymbol_from 0 ["fields_autoplaced"%string; "lib_name"%string; "uuid"%string; "unit"%string; "in_bom"%string; "on_board"%string; "dnp"%string; "at"%string; "mirror"%string].
Proof. exact SchematicSymbol_win. Qed.
Print Assumptions C30_SchematicSymbol.
Example C24_SchematicSymbol_ex : SchematicSymbol_ok (ex_ssymbol) = true.
Proof. vm_compute. reflexivity. Qed.

Theorem C24_HierarchicalPin : roundtrips HierarchicalPin_to HierarchicalPin_from HierarchicalPin_ok HierarchicalPin_norm HierarchicalPin_eqb.
Proof. exact HierarchicalPin_rt. Qed.
Print Assumptions C24_HierarchicalPin.
Theorem C36_HierarchicalPin : conforms HierarchicalPin_to HierarchicalPin_from HierarchicalPin_ok HierarchicalPin_norm HierarchicalPin_tree.
Proof. exact HierarchicalPin_fmt. Qed.
Print Assumptions C36_HierarchicalPin.
Theorem C27_HierarchicalPin : refuses HierarchicalPin_from ["pin"%string].
Proof. exact HierarchicalPin_ref. Qed.
Print Assumptions C27_HierarchicalPin.
Theorem C28_HierarchicalPin : ignores HierarchicalPin_from 2 ["at"%string; "effects"%string; "uuid"%string].
Proof. exact HierarchicalPin_ign. Qed.
Print Assumptions C28_HierarchicalPin.
Theorem C30_HierarchicalPin : last_wins HierarchicalPin_from 2 ["at"%string; "effects"%string; "uuid"%string].
Proof. exact HierarchicalPin_win. Qed.
Print Assumptions C30_HierarchicalPin.
Example C24_HierarchicalPin_ex : HierarchicalPin_ok (mkHierarchicalPin (VStr $"a ""b""") (VStr $"tri_state") ex_pos3 ex_effects ex_stamp) = true.
Proof. vm_compute. reflexivity. Qed.

Definition ex_hpath : HierarchicalSheetProjectPath := mkHierarchicalSheetProjectPath (VStr $"/a b/c") (VStr $"2 ""a""").
Definition ex_hproject : HierarchicalSheetProjectInstance := mkHierarchicalSheetProjectInstance (VStr $"my ""project""") [ex_hpath; ex_hpath].
Theorem C24_HierarchicalSheetProjectPath : roundtrips HierarchicalSheetProjectPath_to HierarchicalSheetProjectPath_from HierarchicalSheetProjectPath_ok HierarchicalSheetProjectPath_norm HierarchicalSheetProjectPath_eqb.
Proof. exact HierarchicalSheetProjectPath_rt. Qed.
Print Assumptions C24_HierarchicalSheetProjectPath.
Theorem C36_HierarchicalSheetProjectPath : conforms HierarchicalSheetProjectPath_to HierarchicalSheetProjectPath_from HierarchicalSheetProjectPath_ok HierarchicalSheetProjectPath_norm HierarchicalSheetProjectPath_tree.
Proof. exact HierarchicalSheetProjectPath_fmt. Qed.
Print Assumptions C36_HierarchicalSheetProjectPath.
Theorem C27_HierarchicalSheetProjectPath : refuses HierarchicalSheetProjectPath_from ["path"%string].
Proof. exact HierarchicalSheetProjectPath_ref. Qed.
Print Assumptions C27_HierarchicalSheetProjectPath.
Theorem C28_HierarchicalSheetProjectPath : ignores HierarchicalSheetProjectPath_from 1 ["page"%string].
Proof. exact HierarchicalSheetProjectPath_ign. Qed.
Print Assumptions C28_HierarchicalSheetProjectPath.
Theorem C30_HierarchicalSheetProjectPath : last_wins HierarchicalSheetProjectPath_from 1 ["page"%string].
Proof. exact HierarchicalSheetProjectPath_win. Qed.
Print Assumptions C30_HierarchicalSheetProjectPath.
Example C24_HierarchicalSheetProjectPath_ex : HierarchicalSheetProjectPath_ok (ex_hpath) = true.
Proof. vm_compute. reflexivity. Qed.

Theorem C24_HierarchicalSheetProjectInstance : roundtrips HierarchicalSheetProjectInstance_to HierarchicalSheetProjectInstance_from HierarchicalSheetProjectInstance_ok HierarchicalSheetProjectInstance_norm HierarchicalSheetProjectInstance_eqb.
Proof. exact HierarchicalSheetProjectInstance_rt. Qed.
Print Assumptions C24_HierarchicalSheetProjectInstance.
Theorem C36_HierarchicalSheetProjectInstance : conforms HierarchicalSheetProjectInstance_to HierarchicalSheetProjectInstance_from HierarchicalSheetProjectInstance_ok HierarchicalSheetProjectInstance_norm HierarchicalSheetProjectInstance_tree.
Proof. exact HierarchicalSheetProjectInstance_fmt. Qed.
Print Assumptions C36_HierarchicalSheetProjectInstance.
Theorem C27_HierarchicalSheetProjectInstance : refuses HierarchicalSheetProjectInstance_from ["project"%string].
Proof. exact HierarchicalSheetProjectInstance_ref. Qed.
Print Assumptions C27_HierarchicalSheetProjectInstance.
Theorem C28_HierarchicalSheetProjectInstance : ignores HierarchicalSheetProjectInstance_from 1 ["path"%string].
Proof. exact HierarchicalSheetProjectInstance_ign. Qed.
Print Assumptions C28_HierarchicalSheetProjectInstance.
Example C24_HierarchicalSheetProjectInstance_ex : HierarchicalSheetProjectInstance_ok (ex_hproject) = true.
Proof. vm_compute. reflexivity. Qed.

Definition ex_key (k : str) : Property := ex_property <| pr_key := VStr k |>.
Definition ex_sheet : HierarchicalSheet :=
  mkHierarchicalSheet ex_pos2 (VInt 30) (fdec 4572 (-2)) true ex_stroke (mkColorRGBA (VInt 1) (VInt 2) (VInt 255) (fdec 1234 (-4)) (VInt 4)) ex_stamp
    (ex_key $"Sheetname") (ex_key $"Sheet file") [ex_key $"a ""b"""; ex_key $"Field2"]
    [mkHierarchicalPin (VStr $"a ""b""") (VStr $"tri_state") ex_pos3 ex_effects ex_stamp; HierarchicalPin_default] [ex_hproject].
Theorem C24_HierarchicalSheet : roundtrips HierarchicalSheet_to HierarchicalSheet_from HierarchicalSheet_ok HierarchicalSheet_norm HierarchicalSheet_eqb.
Proof. exact HierarchicalSheet_rt. Qed.
Print Assumptions C24_HierarchicalSheet.
Theorem C36_HierarchicalSheet : conforms HierarchicalSheet_to HierarchicalSheet_from HierarchicalSheet_ok HierarchicalSheet_norm HierarchicalSheet_tree.
Proof. exact HierarchicalSheet_fmt. Qed.
Print Assumptions C36_HierarchicalSheet.
Theorem C27_HierarchicalSheet : refuses HierarchicalSheet_from ["sheet"%string].
Proof. exact HierarchicalSheet_ref. Qed.
Print Assumptions C27_HierarchicalSheet.
Theorem C28_HierarchicalSheet : ignores HierarchicalSheet_from 0 ["fields_autoplaced"%string; "at"%string; "stroke"%string; "size"%string; "fill"%string; "uuid"%string; "property"%string; "pin"%string; "instances"%string].
Proof. exact HierarchicalSheet_ign. Qed.
Print Assumptions C28_HierarchicalSheet.
Theorem C30_HierarchicalSheet : last_wins HierarchicalSheet_from 0 ["fields_autoplaced"%string; "at"%string; "stroke"%string; "fill"%string; "uuid"%string].
Proof. exact HierarchicalSheet_win. Qed.
Print Assumptions C30_HierarchicalSheet.
Example C24_HierarchicalSheet_ex : HierarchicalSheet_ok (ex_sheet) = true.
Proof. vm_compute. reflexivity. Qed.

Theorem C24_HierarchicalSheetInstance : roundtrips HierarchicalSheetInstance_to HierarchicalSheetInstance_from HierarchicalSheetInstance_ok HierarchicalSheetInstance_norm HierarchicalSheetInstance_eqb.
Proof. exact HierarchicalSheetInstance_rt. Qed.
Print Assumptions C24_HierarchicalSheetInstance.
Theorem C36_HierarchicalSheetInstance : conforms HierarchicalSheetInstance_to HierarchicalSheetInstance_from HierarchicalSheetInstance_ok HierarchicalSheetInstance_norm HierarchicalSheetInstance_tree.
Proof. exact HierarchicalSheetInstance_fmt. Qed.
Print Assumptions C36_HierarchicalSheetInstance.
Theorem C27_HierarchicalSheetInstance : refuses HierarchicalSheetInstance_from ["path"%string].
Proof. exact HierarchicalSheetInstance_ref. Qed.
Print Assumptions C27_HierarchicalSheetInstance.
Theorem C28_HierarchicalSheetInstance : ignores HierarchicalSheetInstance_from 1 ["page"%string].
Proof. exact HierarchicalSheetInstance_ign. Qed.
Print Assumptions C28_HierarchicalSheetInstance.
Theorem C30_HierarchicalSheetInstance : last_wins HierarchicalSheetInstance_from 1 ["page"%string].
Proof. exact HierarchicalSheetInstance_win. Qed.
Print Assumptions C30_HierarchicalSheetInstance.
Example C24_HierarchicalSheetInstance_ex : HierarchicalSheetInstance_ok (mkHierarchicalSheetInstance (VStr $"/a b/c") (VStr $"2 ""a""")) = true.
Proof. vm_compute. reflexivity. Qed.

Theorem C24_SymbolInstance : roundtrips SymbolInstance_to SymbolInstance_from SymbolInstance_ok SymbolInstance_norm SymbolInstance_eqb.
Proof. exact SymbolInstance_rt. Qed.
Print Assumptions C24_SymbolInstance.
Theorem C36_SymbolInstance : conforms SymbolInstance_to SymbolInstance_from SymbolInstance_ok SymbolInstance_norm SymbolInstance_tree.
Proof. exact SymbolInstance_fmt. Qed.
Print Assumptions C36_SymbolInstance.
Theorem C27_SymbolInstance : refuses SymbolInstance_from ["path"%string].
Proof. exact SymbolInstance_ref. Qed.
Print Assumptions C27_SymbolInstance.
Theorem C28_SymbolInstance : ignores SymbolInstance_from 1 ["reference"%string; "unit"%string; "value"%string; "footprint"%string].
Proof. exact SymbolInstance_ign. Qed.
Print Assumptions C28_SymbolInstance.
Theorem C30_SymbolInstance : last_wins SymbolInstance_from 1 ["reference"%string; "unit"%string; "value"%string; "footprint"%string].
Proof. exact SymbolInstance_win. Qed.
Print Assumptions C30_SymbolInstance.
Example C24_SymbolInstance_ex : SymbolInstance_ok (mkSymbolInstance (VStr $"/a b/c") (VStr $"U1") (VInt 2) (VStr $"1 ""k""") (VStr $"Lib:F (x)")) = true.
Proof. vm_compute. reflexivity. Qed.

Theorem C24_Rectangle : roundtrips Rectangle_to Rectangle_from Rectangle_ok Rectangle_norm Rectangle_eqb.
Proof. exact Rectangle_rt. Qed.
Print Assumptions C24_Rectangle.
Theorem C36_Rectangle : conforms Rectangle_to Rectangle_from Rectangle_ok Rectangle_norm Rectangle_tree.
Proof. exact Rectangle_fmt. Qed.
Print Assumptions C36_Rectangle.
Theorem C27_Rectangle : refuses Rectangle_from ["rectangle"%string].
Proof. exact Rectangle_ref. Qed.
Print Assumptions C27_Rectangle.
Theorem C28_Rectangle : ignores Rectangle_from 0 ["start"%string; "end"%string; "stroke"%string; "fill"%string; "uuid"%string].
Proof. exact Rectangle_ign. Qed.
Print Assumptions C28_Rectangle.
Theorem C30_Rectangle : last_wins Rectangle_from 0 ["start"%string; "end"%string; "stroke"%string; "fill"%string; "uuid"%string].
Proof. exact Rectangle_win. Qed.
Print Assumptions C30_Rectangle.
Example C24_Rectangle_ex : Rectangle_ok (mkRectangle ex_pos2 (ex_xy (VInt 3) (fdec 1 (-3))) ex_stroke ex_fill ex_stamp) = true.
Proof. vm_compute. reflexivity. Qed.

Theorem C24_SchArc : roundtrips SchArc_to SchArc_from SchArc_ok SchArc_norm SchArc_eqb.
Proof. exact SchArc_rt. Qed.
Print Assumptions C24_SchArc.
Theorem C36_SchArc : conforms SchArc_to SchArc_from SchArc_ok SchArc_norm SchArc_tree.
Proof. exact SchArc_fmt. Qed.
Print Assumptions C36_SchArc.
Theorem C27_SchArc : refuses SchArc_from ["arc"%string].
Proof. exact SchArc_ref. Qed.
Print Assumptions C27_SchArc.
Theorem C28_SchArc : ignores SchArc_from 0 ["start"%string; "mid"%string; "end"%string; "stroke"%string; "fill"%string; "uuid"%string].
Proof. exact SchArc_ign. Qed.
Print Assumptions C28_SchArc.
Theorem C30_SchArc : last_wins SchArc_from 0 ["start"%string; "mid"%string; "end"%string; "stroke"%string; "fill"%string; "uuid"%string].
Proof. exact SchArc_win. Qed.
Print Assumptions C30_SchArc.
Example C24_SchArc_ex : SchArc_ok (mkSchArc ex_pos2 (ex_xy (VInt 3) (fdec 1 (-3))) (ex_xy (VInt 4) (fdec 12 (-1))) ex_stroke ex_fill ex_stamp) = true.
Proof. vm_compute. reflexivity. Qed.

Theorem C24_Circle : roundtrips Circle_to Circle_from Circle_ok Circle_norm Circle_eqb.
Proof. exact Circle_rt. Qed.
Print Assumptions C24_Circle.
Theorem C36_Circle : conforms Circle_to Circle_from Circle_ok Circle_norm Circle_tree.
Proof. exact Circle_fmt. Qed.
Print Assumptions C36_Circle.
Theorem C27_Circle : refuses Circle_from ["circle"%string].
Proof. exact Circle_ref. Qed.
Print Assumptions C27_Circle.
Theorem C28_Circle : ignores Circle_from 0 ["center"%string; "radius"%string; "stroke"%string; "fill"%string; "uuid"%string].
Proof. exact Circle_ign. Qed.
Print Assumptions C28_Circle.
Theorem C30_Circle : last_wins Circle_from 0 ["center"%string; "radius"%string; "stroke"%string; "fill"%string; "uuid"%string].
Proof. exact Circle_win. Qed.
Print Assumptions C30_Circle.
Example C24_Circle_ex : Circle_ok (mkCircle ex_pos2 (fdec 15 (-1)) ex_stroke ex_fill ex_stamp) = true.
Proof. vm_compute. reflexivity. Qed.

Theorem C24_NetclassFlag : roundtrips NetclassFlag_to NetclassFlag_from NetclassFlag_ok NetclassFlag_norm NetclassFlag_eqb.
Proof. exact NetclassFlag_rt. Qed.
Print Assumptions C24_NetclassFlag.
Theorem C36_NetclassFlag : conforms NetclassFlag_to NetclassFlag_from NetclassFlag_ok NetclassFlag_norm NetclassFlag_tree.
Proof. exact NetclassFlag_fmt. Qed.
Print Assumptions C36_NetclassFlag.
Theorem C27_NetclassFlag : refuses NetclassFlag_from ["netclass_flag"%string].
Proof. exact NetclassFlag_ref. Qed.
Print Assumptions C27_NetclassFlag.
Theorem C28_NetclassFlag : ignores NetclassFlag_from 1 ["length"%string; "shape"%string; "at"%string; "fields_autoplaced"%string; "effects"%string; "uuid"%string; "property"%string].
Proof. exact NetclassFlag_ign. Qed.
Print Assumptions C28_NetclassFlag.
Theorem C30_NetclassFlag : last_wins NetclassFlag_from 1 ["length"%string; "shape"%string; "at"%string; "fields_autoplaced"%string; "effects"%string; "uuid"%string].
Proof. exact NetclassFlag_win. Qed.
Print Assumptions C30_NetclassFlag.
Example C24_NetclassFlag_ex : NetclassFlag_ok (mkNetclassFlag (VStr $"a ""b""") (fdec 254 (-2)) (VStr $"dot") (Some ex_pos3) (Some ex_effects) [ex_property; ex_property] ex_stamp true) = true.
Proof. vm_compute. reflexivity. Qed.

(** the default objects that are printable *)
Example C24_default_ex : Junction_ok Junction_default && NoConnect_ok NoConnect_default && BusEntry_ok BusEntry_default && BusAlias_ok BusAlias_default
  && Connection_ok Connection_default && PolyLine_ok PolyLine_default && Text_ok Text_default && TextBox_ok TextBox_default && LocalLabel_ok LocalLabel_default
  && GlobalLabel_ok GlobalLabel_default && HierarchicalLabel_ok HierarchicalLabel_default && SymbolInstance_ok SymbolInstance_default
  && HierarchicalSheetInstance_ok HierarchicalSheetInstance_default && Rectangle_ok Rectangle_default && SchArc_ok SchArc_default && Circle_ok Circle_default = true.
Proof. vm_compute. reflexivity. Qed.

(** ** What a bus alias may look like *)
(** Only [(bus_alias name (members ..))] is accepted: anything else raises. *)
Theorem C27_BusAlias_shape : forall exp o, BusAlias_from exp = Ok o -> exists members, exp = node "bus_alias" [ba_name o; node "members" members] /\ ba_members o = members.
Proof. exact BusAlias_shape. Qed.
Print Assumptions C27_BusAlias_shape.
Example C27_BusAlias_shape_ex : BusAlias_from (node "bus_alias" [VInt 3; node "members" []]) = Ok (mkBusAlias (VInt 3) [])
  /\ BusAlias_from (node "bus_alias" [VInt 3; node "members" []; VInt 3]) = Err EException /\ BusAlias_from (node "bus_alias" [VInt 3; VList []]) = Err EIndex.
Proof. repeat split; vm_compute; reflexivity. Qed.

(** ** What is lost or corrupted *)
(** Whatever the diameter of a junction is, it is written, and zero afterwards. *)
Theorem C24_Junction_diameter_refuted : forall o indent newline, Junction_ok (o <| jn_diameter := VInt 0 |>) = true -> numb (jn_diameter o) = true ->
  write_read Junction_to Junction_from o indent newline = Ok (Junction_norm (o <| jn_diameter := VInt 0 |>)).
Proof. exact Junction_diameter. Qed.
Print Assumptions C24_Junction_diameter_refuted.
Example C24_Junction_diameter_ex : Junction_ok (Junction_default <| jn_diameter := fdec 15 (-1) |> <| jn_diameter := VInt 0 |>) = true /\ numb (fdec 15 (-1)) = true.
Proof. split; vm_compute; reflexivity. Qed.
(** A junction read from an expression that ends with the diameter (the order is not fixed by the format) cannot be written: the diameter has replaced the colour. *)
Theorem C24_Junction_order_refuted : forall l d o indent newline,
  Junction_from (node "junction" (l ++ [node "diameter" [d]])) = Ok o -> Junction_to o indent newline = Err EAttribute.
Proof.
  intros l d o i n. rewrite Junction_last. destruct (Junction_from (node "junction" l)); [|discriminate]. cbn [bind]. intros E. inversion E. apply Junction_unwritable.
Qed.
Print Assumptions C24_Junction_order_refuted.
Example C24_Junction_order_ex : exists o, Junction_from (node "junction" [node "at" [VInt 1; VInt 2]; node "color" [VInt 0; VInt 0; VInt 0; VInt 0]; node "diameter" [VInt 0]]) = Ok o.
Proof. eexists. vm_compute. reflexivity. Qed.
(** A default netclass flag cannot be written: its effects are the class Effects itself. *)
Theorem C24_NetclassFlag_default_refuted : forall o indent newline, nf_effects o = None -> NetclassFlag_to o indent newline = Err EAttribute.
Proof. exact NetclassFlag_unwritable. Qed.
Print Assumptions C24_NetclassFlag_default_refuted.
Example C24_NetclassFlag_default_ex : nf_effects NetclassFlag_default = None.
Proof. reflexivity. Qed.
(** A symbol without name gets the name "None", one whose unique identifier is None an empty one. *)
Theorem C24_SchematicSymbol_none_refuted :
  write_read SchematicSymbol_to SchematicSymbol_from SchematicSymbol_default 2 true = Ok (SchematicSymbol_norm (SchematicSymbol_default <| ss_entryName := VStr $"None" |>))
  /\ forall o indent newline, ss_uuid o = VNone -> SchematicSymbol_ok (o <| ss_uuid := VStr [] |>) = true ->
     write_read SchematicSymbol_to SchematicSymbol_from o indent newline = Ok (SchematicSymbol_norm (o <| ss_uuid := VStr [] |>)).
Proof. split; [vm_compute; reflexivity|exact SchematicSymbol_uuid]. Qed.
Print Assumptions C24_SchematicSymbol_none_refuted.
Example C24_SchematicSymbol_none_ex : SchematicSymbol_ok (ex_ssymbol <| ss_uuid := VStr [] |>) = true.
Proof. vm_compute. reflexivity. Qed.
(** A sheet whose colour has no precision, as the default one, comes back with precision 4 and is not equal to the original. *)
Theorem C24_HierarchicalSheet_precision_refuted : forall o indent newline, let o' := o <| hs_fill := hs_fill o <| ca_precision := VInt 4 |> |> in
  ca_precision (hs_fill o) = VNone -> HierarchicalSheet_ok o' = true ->
  write_read HierarchicalSheet_to HierarchicalSheet_from o indent newline = Ok (HierarchicalSheet_norm o') /\ HierarchicalSheet_eqb o (HierarchicalSheet_norm o') = false.
Proof. intros o i n o' P H. split; [now apply Sheet_no_precision|now apply Sheet_precision_ne]. Qed.
Print Assumptions C24_HierarchicalSheet_precision_refuted.
Example C24_HierarchicalSheet_precision_ex : ca_precision (hs_fill HierarchicalSheet_default) = VNone
  /\ HierarchicalSheet_ok (HierarchicalSheet_default <| hs_fill := hs_fill HierarchicalSheet_default <| ca_precision := VInt 4 |> |>) = true.
Proof. split; vm_compute; reflexivity. Qed.
(** The alpha value is cut to four decimals. *)
Theorem C24_HierarchicalSheet_alpha_refuted : forall o indent newline, let o' := o <| hs_fill := hs_fill o <| ca_A := fixed_val 4 (ca_A (hs_fill o)) |> |> in
  finite (ca_A (hs_fill o)) = true -> HierarchicalSheet_ok o' = true ->
  write_read HierarchicalSheet_to HierarchicalSheet_from o indent newline = Ok (HierarchicalSheet_norm o').
Proof. exact Sheet_alpha. Qed.
Print Assumptions C24_HierarchicalSheet_alpha_refuted.
Example C24_HierarchicalSheet_alpha_ex : let o := ex_sheet <| hs_fill := hs_fill ex_sheet <| ca_A := fdec 123456 (-6) |> |> in
  finite (ca_A (hs_fill o)) = true /\ HierarchicalSheet_ok (o <| hs_fill := hs_fill o <| ca_A := fixed_val 4 (ca_A (hs_fill o)) |> |>) = true
  /\ py_eqb (fixed_val 4 (ca_A (hs_fill o))) (fdec 1235 (-4)) = true.
Proof. repeat split; vm_compute; reflexivity. Qed.
(** A property called "Sheet name" among the others replaces the sheet's name. *)
Theorem C24_HierarchicalSheet_key_refuted :
  let o := ex_sheet <| hs_properties := [ex_key $"Sheet name" <| pr_value := VStr $"other" |>] |> in
  write_read HierarchicalSheet_to HierarchicalSheet_from o 2 true
  = Ok (HierarchicalSheet_norm (ex_sheet <| hs_properties := [] |> <| hs_sheetName := ex_key $"Sheet name" <| pr_value := VStr $"other" |> |>)).
Proof. vm_compute. reflexivity. Qed.
Print Assumptions C24_HierarchicalSheet_key_refuted.
