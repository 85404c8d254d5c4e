(** Specification of schematic.py. *)
From Verif Require Import PyBase PyNum PyStr Sexpr S_Leaf S_Tree S_Fix M_Common S_Common M_Sym S_Sym M_Sch S_Sch M_Schematic.

Definition ScLine_tree (o : ScLine) : val :=
  match o with
  | ScLine_Connection x => Connection_tree x
  | ScLine_PolyLine x => PolyLine_tree x
  end.
Definition ScLine_norm (o : ScLine) : ScLine :=
  match o with
  | ScLine_Connection x => ScLine_Connection (Connection_norm x)
  | ScLine_PolyLine x => ScLine_PolyLine (PolyLine_norm x)
  end.
Definition ScLine_ok (o : ScLine) : bool :=
  match o with
  | ScLine_Connection x => Connection_ok x
  | ScLine_PolyLine x => PolyLine_ok x
  end.
Definition ScLine_eqb (a b : ScLine) : bool :=
  match a, b with
  | ScLine_Connection x, ScLine_Connection y => Connection_eqb x y
  | ScLine_PolyLine x, ScLine_PolyLine y => PolyLine_eqb x y
  | _, _ => false
  end.

Definition ScShape_tree (o : ScShape) : val :=
  match o with
  | ScShape_SchArc x => SchArc_tree x
  | ScShape_Circle x => Circle_tree x
  | ScShape_Rectangle x => Rectangle_tree x
  end.
Definition ScShape_norm (o : ScShape) : ScShape :=
  match o with
  | ScShape_SchArc x => ScShape_SchArc (SchArc_norm x)
  | ScShape_Circle x => ScShape_Circle (Circle_norm x)
  | ScShape_Rectangle x => ScShape_Rectangle (Rectangle_norm x)
  end.
Definition ScShape_ok (o : ScShape) : bool :=
  match o with
  | ScShape_SchArc x => SchArc_ok x
  | ScShape_Circle x => Circle_ok x
  | ScShape_Rectangle x => Rectangle_ok x
  end.
Definition ScShape_eqb (a b : ScShape) : bool :=
  match a, b with
  | ScShape_SchArc x, ScShape_SchArc y => SchArc_eqb x y
  | ScShape_Circle x, ScShape_Circle y => Circle_eqb x y
  | ScShape_Rectangle x, ScShape_Rectangle y => Rectangle_eqb x y
  | _, _ => false
  end.

Definition Schematic_tree (o : Schematic) : val :=
  node "kicad_sch" ([node "version" [sc_version o]; node "generator" [sc_generator o]] ++ optn "uuid" (sc_uuid o) ++ [PageSettings_tree (sc_paper o)]
    ++ opto TitleBlock_tree (sc_titleBlock o) ++ [node "lib_symbols" (map Symbol_tree (sc_libSymbols o))]
    ++ map Junction_tree (sc_junctions o) ++ map NoConnect_tree (sc_noConnects o) ++ map BusEntry_tree (sc_busEntries o) ++ map BusAlias_tree (sc_busAliases o)
    ++ map ScLine_tree (sc_graphicalItems o) ++ map ScShape_tree (sc_shapes o) ++ map Image_tree (sc_images o) ++ map TextBox_tree (sc_textBoxes o)
    ++ map Text_tree (sc_texts o) ++ map LocalLabel_tree (sc_labels o) ++ map GlobalLabel_tree (sc_globalLabels o)
    ++ map HierarchicalLabel_tree (sc_hierarchicalLabels o) ++ map NetclassFlag_tree (sc_netclassFlags o)
    ++ map SchematicSymbol_tree (sc_schematicSymbols o) ++ map HierarchicalSheet_tree (sc_sheets o)
    ++ (if Nat.eqb (length (sc_sheetInstances o)) 0 then [] else [node "sheet_instances" (map HierarchicalSheetInstance_tree (sc_sheetInstances o))])
    ++ (if Nat.eqb (length (sc_symbolInstances o)) 0 then [] else [node "symbol_instances" (map SymbolInstance_tree (sc_symbolInstances o))])).
Definition Schematic_norm (o : Schematic) : Schematic :=
  mkSchematic (nrm (sc_version o)) (nrm (sc_generator o)) (nrm (sc_uuid o)) (PageSettings_norm (sc_paper o)) (option_map TitleBlock_norm (sc_titleBlock o)) (map Symbol_norm (sc_libSymbols o)) (map SchematicSymbol_norm (sc_schematicSymbols o)) (map Junction_norm (sc_junctions o)) (map NoConnect_norm (sc_noConnects o)) (map BusEntry_norm (sc_busEntries o)) (map BusAlias_norm (sc_busAliases o)) (map ScLine_norm (sc_graphicalItems o)) (map ScShape_norm (sc_shapes o)) (map Image_norm (sc_images o)) (map Text_norm (sc_texts o)) (map TextBox_norm (sc_textBoxes o)) (map LocalLabel_norm (sc_labels o)) (map GlobalLabel_norm (sc_globalLabels o)) (map HierarchicalLabel_norm (sc_hierarchicalLabels o)) (map NetclassFlag_norm (sc_netclassFlags o)) (map HierarchicalSheet_norm (sc_sheets o)) (map HierarchicalSheetInstance_norm (sc_sheetInstances o)) (map SymbolInstance_norm (sc_symbolInstances o)) (sc_filePath o).
(** dataclass == on Schematic *)
Definition Schematic_eqb (a b : Schematic) : bool :=
  py_eqb (sc_version a) (sc_version b)
  && py_eqb (sc_generator a) (sc_generator b)
  && py_eqb (sc_uuid a) (sc_uuid b)
  && PageSettings_eqb (sc_paper a) (sc_paper b)
  && oeqb TitleBlock_eqb (sc_titleBlock a) (sc_titleBlock b)
  && leqb Symbol_eqb (sc_libSymbols a) (sc_libSymbols b)
  && leqb SchematicSymbol_eqb (sc_schematicSymbols a) (sc_schematicSymbols b)
  && leqb Junction_eqb (sc_junctions a) (sc_junctions b)
  && leqb NoConnect_eqb (sc_noConnects a) (sc_noConnects b)
  && leqb BusEntry_eqb (sc_busEntries a) (sc_busEntries b)
  && leqb BusAlias_eqb (sc_busAliases a) (sc_busAliases b)
  && leqb ScLine_eqb (sc_graphicalItems a) (sc_graphicalItems b)
  && leqb ScShape_eqb (sc_shapes a) (sc_shapes b)
  && leqb Image_eqb (sc_images a) (sc_images b)
  && leqb Text_eqb (sc_texts a) (sc_texts b)
  && leqb TextBox_eqb (sc_textBoxes a) (sc_textBoxes b)
  && leqb LocalLabel_eqb (sc_labels a) (sc_labels b)
  && leqb GlobalLabel_eqb (sc_globalLabels a) (sc_globalLabels b)
  && leqb HierarchicalLabel_eqb (sc_hierarchicalLabels a) (sc_hierarchicalLabels b)
  && leqb NetclassFlag_eqb (sc_netclassFlags a) (sc_netclassFlags b)
  && leqb HierarchicalSheet_eqb (sc_sheets a) (sc_sheets b)
  && leqb HierarchicalSheetInstance_eqb (sc_sheetInstances a) (sc_sheetInstances b)
  && leqb SymbolInstance_eqb (sc_symbolInstances a) (sc_symbolInstances b)
  && py_eqb (sc_filePath a) (sc_filePath b).
Definition Schematic_ok (o : Schematic) : bool :=
  atomb (sc_version o)
  && atomb (sc_generator o)
  && optb atomb (sc_uuid o)
  && PageSettings_ok (sc_paper o)
  && optok TitleBlock_ok (sc_titleBlock o)
  && forallb Symbol_ok (sc_libSymbols o)
  && forallb SchematicSymbol_ok (sc_schematicSymbols o)
  && forallb Junction_ok (sc_junctions o)
  && forallb NoConnect_ok (sc_noConnects o)
  && forallb BusEntry_ok (sc_busEntries o)
  && forallb BusAlias_ok (sc_busAliases o)
  && forallb ScLine_ok (sc_graphicalItems o)
  && forallb ScShape_ok (sc_shapes o)
  && forallb Image_ok (sc_images o)
  && forallb Text_ok (sc_texts o)
  && forallb TextBox_ok (sc_textBoxes o)
  && forallb LocalLabel_ok (sc_labels o)
  && forallb GlobalLabel_ok (sc_globalLabels o)
  && forallb HierarchicalLabel_ok (sc_hierarchicalLabels o)
  && forallb NetclassFlag_ok (sc_netclassFlags o)
  && forallb HierarchicalSheet_ok (sc_sheets o)
  && forallb HierarchicalSheetInstance_ok (sc_sheetInstances o)
  && forallb SymbolInstance_ok (sc_symbolInstances o)
  && is_none (sc_filePath o).

