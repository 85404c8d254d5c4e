(** Specification of schematic.py. *)
From Verif Require Import PyBase PyNum PyStr Sexpr S_Leaf S_Tree S_Fix M_Common S_Common M_Sym S_Sym M_Sch S_Sch M_Schematic.

@uspec ScLine
@uspec ScShape
Definition Schematic_tree (o : Schematic) : val :=
  node "kicad_sch" ([node "version" [sc_version o]; node "generator" [sc_generator o]] ++ optn "uuid" (sc_uuid o) ++ [PageSettings_tree (sc_paper o)]
    ++ opto TitleBlock_tree (sc_titleBlock o) ++ [node "lib_symbols" (map Symbol_tree (sc_libSymbols o))]
    ++ map Junction_tree (sc_junctions o) ++ map NoConnect_tree (sc_noConnects o) ++ map BusEntry_tree (sc_busEntries o) ++ map BusAlias_tree (sc_busAliases o)
    ++ map ScLine_tree (sc_graphicalItems o) ++ map ScShape_tree (sc_shapes o) ++ map Image_tree (sc_images o) ++ map TextBox_tree (sc_textBoxes o)
    ++ map Text_tree (sc_texts o) ++ map LocalLabel_tree (sc_labels o) ++ map GlobalLabel_tree (sc_globalLabels o)
    ++ map HierarchicalLabel_tree (sc_hierarchicalLabels o) ++ map NetclassFlag_tree (sc_netclassFlags o)
    ++ map SchematicSymbol_tree (sc_schematicSymbols o) ++ map HierarchicalSheet_tree (sc_sheets o)
    ++ (if Nat.eqb (length (sc_sheetInstances o)) 0 then [] else [node "sheet_instances" (map HierarchicalSheetInstance_tree (sc_sheetInstances o))])
    ++ (if Nat.eqb (length (sc_symbolInstances o)) 0 then [] else [node "symbol_instances" (map SymbolInstance_tree (sc_symbolInstances o))])).
@ok Schematic
