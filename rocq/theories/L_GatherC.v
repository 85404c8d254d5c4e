(** Collected children: proofs. *)
From Verif Require Import PyBase PyNum PyStr PyRe Sexpr S_Leaf S_Tree S_Reader S_Gather L_Tac L_Keep L_Gather M_Common M_Lib M_Sym M_Zone M_Fp M_Gr M_Dim M_Brd M_Footprint M_Board M_Sch M_Schematic M_Wks.

Lemma Connection_gather : collects_args Connection_from 0 ["pts"]%string Position_from cx_points.
Proof. collect_in Connection_from Connection_step Connection_default. Qed.
Lemma PolyLine_gather : collects_args PolyLine_from 0 ["pts"]%string Position_from pl_points.
Proof. collect_in PolyLine_from PolyLine_step PolyLine_default. Qed.
Lemma GlobalLabel_gather : collects GlobalLabel_from 2 ["property"]%string Property_from gla_properties.
Proof. collect_in GlobalLabel_from GlobalLabel_step GlobalLabel_default. Qed.
Lemma SymbolProjectInstance_gather : collects SymbolProjectInstance_from 2 ["path"]%string SymbolProjectPath_from spi_paths.
Proof. collect_in SymbolProjectInstance_from SymbolProjectInstance_step SymbolProjectInstance_default. Qed.
Lemma SchematicSymbol_gather : collects SchematicSymbol_from 1 ["property"]%string Property_from ss_properties
  /\ collects_args SchematicSymbol_from 1 ["instances"]%string SymbolProjectInstance_from ss_instances.
Proof. repeat apply conj; collect_in SchematicSymbol_from SchematicSymbol_step SchematicSymbol_default. Qed.
Lemma HierarchicalSheetProjectInstance_gather : collects HierarchicalSheetProjectInstance_from 2 ["path"]%string HierarchicalSheetProjectPath_from hpi_paths.
Proof. collect_in HierarchicalSheetProjectInstance_from HierarchicalSheetProjectInstance_step HierarchicalSheetProjectInstance_default. Qed.
Lemma HierarchicalSheet_gather : collects HierarchicalSheet_from 1 ["pin"]%string HierarchicalPin_from hs_pins
  /\ collects_args HierarchicalSheet_from 1 ["instances"]%string HierarchicalSheetProjectInstance_from hs_instances.
Proof. repeat apply conj; collect_in HierarchicalSheet_from HierarchicalSheet_step HierarchicalSheet_default. Qed.
Lemma NetclassFlag_gather : collects NetclassFlag_from 2 ["property"]%string Property_from nf_properties.
Proof. collect_in NetclassFlag_from NetclassFlag_step NetclassFlag_default. Qed.
Lemma Schematic_gather : collects_args Schematic_from 0 ["lib_symbols"]%string Symbol_from sc_libSymbols
  /\ collects Schematic_from 0 ["junction"]%string Junction_from sc_junctions
  /\ collects Schematic_from 0 ["no_connect"]%string NoConnect_from sc_noConnects
  /\ collects Schematic_from 0 ["bus_entry"]%string BusEntry_from sc_busEntries
  /\ collects Schematic_from 0 ["bus_alias"]%string BusAlias_from sc_busAliases
  /\ collects Schematic_from 0 ["image"]%string Image_from sc_images
  /\ collects Schematic_from 0 ["text"]%string Text_from sc_texts
  /\ collects Schematic_from 0 ["text_box"]%string TextBox_from sc_textBoxes
  /\ collects Schematic_from 0 ["label"]%string LocalLabel_from sc_labels
  /\ collects Schematic_from 0 ["global_label"]%string GlobalLabel_from sc_globalLabels
  /\ collects Schematic_from 0 ["hierarchical_label"]%string HierarchicalLabel_from sc_hierarchicalLabels
  /\ collects Schematic_from 0 ["netclass_flag"]%string NetclassFlag_from sc_netclassFlags
  /\ collects Schematic_from 0 ["symbol"]%string SchematicSymbol_from sc_schematicSymbols
  /\ collects Schematic_from 0 ["sheet"]%string HierarchicalSheet_from sc_sheets
  /\ collects_args Schematic_from 0 ["sheet_instances"]%string HierarchicalSheetInstance_from sc_sheetInstances
  /\ collects_args Schematic_from 0 ["symbol_instances"]%string SymbolInstance_from sc_symbolInstances
  /\ collects Schematic_from 0 ["wire"; "bus"; "polyline"]%string (by_head [("wire"%string, as_ ScLine_Connection Connection_from); ("bus"%string, as_ ScLine_Connection Connection_from); ("polyline"%string, as_ ScLine_PolyLine PolyLine_from)]) sc_graphicalItems
  /\ collects Schematic_from 0 ["arc"; "circle"; "rectangle"]%string (by_head [("arc"%string, as_ ScShape_SchArc SchArc_from); ("circle"%string, as_ ScShape_Circle Circle_from); ("rectangle"%string, as_ ScShape_Rectangle Rectangle_from)]) sc_shapes.
Proof. repeat apply conj; collect_in Schematic_from Schematic_step Schematic_default. Qed.
Lemma WorkSheet_gather : collects WorkSheet_from 1 ["rect"; "line"; "polygon"; "tbtext"; "bitmap"]%string (by_head [("rect"%string, as_ WkItem_Rect Rect_from); ("line"%string, as_ WkItem_Line Line_from); ("polygon"%string, as_ WkItem_Polygon Polygon_from); ("tbtext"%string, as_ WkItem_TbText TbText_from); ("bitmap"%string, as_ WkItem_Bitmap Bitmap_from)]) wk_drawingObjects.
Proof. collect_in WorkSheet_from WorkSheet_step WorkSheet_default. Qed.
