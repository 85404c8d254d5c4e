(** Property theorems C37: list attributes hold the children in order, dictionaries the last value of each key. *)
From Verif Require Import PyBase PyNum PyStr PyRe Sexpr S_Leaf S_Tree S_Reader S_Gather S_Fix M_Common M_Lib M_Sym M_Zone M_Fp M_Gr M_Dim M_Brd M_Footprint M_Board M_Sch M_Schematic M_Wks
  S_Common S_Lib S_Sym S_Zone S_Fp S_Gr S_Dim S_Brd S_Footprint S_Board S_Sch S_Schematic S_Wks
  Properties_Common Properties_Fp Properties_Gr Properties_Sym Properties_Sch Properties_Schematic Properties_Wks L_GatherC.

Theorem C37_Connection : collects_args Connection_from 0 ["pts"]%string Position_from cx_points.
Proof. exact Connection_gather. Qed.
Print Assumptions C37_Connection.
Example C37_Connection_ex : accepts Connection_from (Connection_tree (mkConnection (VStr $"bus") [ex_pos2; ex_xy (VInt 1) (fdec 5 (-1))] ex_stroke ex_stamp)) = true.
Proof. vm_compute. reflexivity. Qed.

Theorem C37_PolyLine : collects_args PolyLine_from 0 ["pts"]%string Position_from pl_points.
Proof. exact PolyLine_gather. Qed.
Print Assumptions C37_PolyLine.
Example C37_PolyLine_ex : accepts PolyLine_from (PolyLine_tree (mkPolyLine [ex_pos2; ex_xy (VInt 1) (fdec 5 (-1))] ex_stroke ex_stamp)) = true.
Proof. vm_compute. reflexivity. Qed.

Theorem C37_GlobalLabel : collects GlobalLabel_from 2 ["property"]%string Property_from gla_properties.
Proof. exact GlobalLabel_gather. Qed.
Print Assumptions C37_GlobalLabel.
Example C37_GlobalLabel_ex : accepts GlobalLabel_from (GlobalLabel_tree (mkGlobalLabel (VStr $"a ""b""") (VStr $"bidirectional") true ex_pos3 ex_effects ex_stamp [ex_property; ex_property])) = true.
Proof. vm_compute. reflexivity. Qed.

Theorem C37_SymbolProjectInstance : collects SymbolProjectInstance_from 2 ["path"]%string SymbolProjectPath_from spi_paths.
Proof. exact SymbolProjectInstance_gather. Qed.
Print Assumptions C37_SymbolProjectInstance.
Example C37_SymbolProjectInstance_ex : accepts SymbolProjectInstance_from (SymbolProjectInstance_tree (ex_sproject)) = true.
Proof. vm_compute. reflexivity. Qed.

Theorem C37_SchematicSymbol : collects SchematicSymbol_from 1 ["property"]%string Property_from ss_properties
  /\ collects_args SchematicSymbol_from 1 ["instances"]%string SymbolProjectInstance_from ss_instances.
Proof. exact SchematicSymbol_gather. Qed.
Print Assumptions C37_SchematicSymbol.
Example C37_SchematicSymbol_ex : accepts SchematicSymbol_from (SchematicSymbol_tree (ex_ssymbol <| ss_uuid := VStr [] |>)) = true.
Proof. vm_compute. reflexivity. Qed.

Theorem C37_HierarchicalSheetProjectInstance : collects HierarchicalSheetProjectInstance_from 2 ["path"]%string HierarchicalSheetProjectPath_from hpi_paths.
Proof. exact HierarchicalSheetProjectInstance_gather. Qed.
Print Assumptions C37_HierarchicalSheetProjectInstance.
Example C37_HierarchicalSheetProjectInstance_ex : accepts HierarchicalSheetProjectInstance_from (HierarchicalSheetProjectInstance_tree (ex_hproject)) = true.
Proof. vm_compute. reflexivity. Qed.

Theorem C37_HierarchicalSheet : collects HierarchicalSheet_from 1 ["pin"]%string HierarchicalPin_from hs_pins
  /\ collects_args HierarchicalSheet_from 1 ["instances"]%string HierarchicalSheetProjectInstance_from hs_instances.
Proof. exact HierarchicalSheet_gather. Qed.
Print Assumptions C37_HierarchicalSheet.
Example C37_HierarchicalSheet_ex : accepts HierarchicalSheet_from (HierarchicalSheet_tree (ex_sheet)) = true.
Proof. vm_compute. reflexivity. Qed.

Theorem C37_NetclassFlag : collects NetclassFlag_from 2 ["property"]%string Property_from nf_properties.
Proof. exact NetclassFlag_gather. Qed.
Print Assumptions C37_NetclassFlag.
Example C37_NetclassFlag_ex : accepts NetclassFlag_from (NetclassFlag_tree (mkNetclassFlag (VStr $"a ""b""") (fdec 254 (-2)) (VStr $"dot") (Some ex_pos3) (Some ex_effects) [ex_property; ex_property] ex_stamp true)) = true.
Proof. vm_compute. reflexivity. Qed.

Theorem C37_Schematic : collects_args Schematic_from 0 ["lib_symbols"]%string Symbol_from sc_libSymbols
  /\ collects Schematic_from 0 ["junction"]%string Junction_from sc_junctions
  /\ collects Schematic_from 0 ["no_connect"]%string NoConnect_from sc_noConnects
  /\ collects Schematic_from 0 ["bus_entry"]%string BusEntry_from sc_busEntries
  /\ collects Schematic_from 0 ["bus_alias"]%string BusAlias_from sc_busAliases
  /\ collects Schematic_from 0 ["image"]%string Image_from sc_images
  /\ collects Schematic_from 0 ["text"]%string Text_from sc_texts
  /\ collects Schematic_from 0 ["text_box"]%string TextBox_from sc_textBoxes
  /\ collects Schematic_from 0 ["label"]%string LocalLabel_from sc_labels
  /\ collects Schematic_from 0 ["global_label"]%string GlobalLabel_from sc_globalLabels
  /\ collects Schematic_from 0 ["hierarchical_label"]%string HierarchicalLabel_from sc_hierarchicalLabels
  /\ collects Schematic_from 0 ["netclass_flag"]%string NetclassFlag_from sc_netclassFlags
  /\ collects Schematic_from 0 ["symbol"]%string SchematicSymbol_from sc_schematicSymbols
  /\ collects Schematic_from 0 ["sheet"]%string HierarchicalSheet_from sc_sheets
  /\ collects_args Schematic_from 0 ["sheet_instances"]%string HierarchicalSheetInstance_from sc_sheetInstances
  /\ collects_args Schematic_from 0 ["symbol_instances"]%string SymbolInstance_from sc_symbolInstances
  /\ collects Schematic_from 0 ["wire"; "bus"; "polyline"]%string (by_head [("wire"%string, as_ ScLine_Connection Connection_from); ("bus"%string, as_ ScLine_Connection Connection_from); ("polyline"%string, as_ ScLine_PolyLine PolyLine_from)]) sc_graphicalItems
  /\ collects Schematic_from 0 ["arc"; "circle"; "rectangle"]%string (by_head [("arc"%string, as_ ScShape_SchArc SchArc_from); ("circle"%string, as_ ScShape_Circle Circle_from); ("rectangle"%string, as_ ScShape_Rectangle Rectangle_from)]) sc_shapes.
Proof. exact Schematic_gather. Qed.
Print Assumptions C37_Schematic.
Example C37_Schematic_ex : accepts Schematic_from (Schematic_tree (ex_schematic <| sc_version := VInt 20211014 |>)) = true.
Proof. vm_compute. reflexivity. Qed.

Theorem C37_WorkSheet : collects WorkSheet_from 1 ["rect"; "line"; "polygon"; "tbtext"; "bitmap"]%string (by_head [("rect"%string, as_ WkItem_Rect Rect_from); ("line"%string, as_ WkItem_Line Line_from); ("polygon"%string, as_ WkItem_Polygon Polygon_from); ("tbtext"%string, as_ WkItem_TbText TbText_from); ("bitmap"%string, as_ WkItem_Bitmap Bitmap_from)]) wk_drawingObjects.
Proof. exact WorkSheet_gather. Qed.
Print Assumptions C37_WorkSheet.
Example C37_WorkSheet_ex : accepts WorkSheet_from (WorkSheet_tree (ex_worksheet <| wk_version := VInt 20211014 |>)) = true.
Proof. vm_compute. reflexivity. Qed.

