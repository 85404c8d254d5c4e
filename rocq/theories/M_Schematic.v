(** Model of schematic.py. *)
From Verif Require Import PyBase PyNum PyStr Sexpr M_Common M_Sym M_Sch.

(** schematic.py:69-71: a list element of one of several classes *)
Inductive ScLine :=
| ScLine_Connection (x : Connection)
| ScLine_PolyLine (x : PolyLine).
Definition ScLine_to (o : ScLine) (indent : nat) (newline : bool) : res str :=
  match o with
  | ScLine_Connection x => Connection_to x indent newline
  | ScLine_PolyLine x => PolyLine_to x indent newline
  end.

(** schematic.py:73-77: a list element of one of several classes *)
Inductive ScShape :=
| ScShape_SchArc (x : SchArc)
| ScShape_Circle (x : Circle)
| ScShape_Rectangle (x : Rectangle).
Definition ScShape_to (o : ScShape) (indent : nat) (newline : bool) : res str :=
  match o with
  | ScShape_SchArc x => SchArc_to x indent newline
  | ScShape_Circle x => Circle_to x indent newline
  | ScShape_Rectangle x => Rectangle_to x indent newline
  end.

(** schematic.py:28-115: attributes of Schematic and their defaults *)
Record Schematic := mkSchematic {
  sc_version : val;
  sc_generator : val;
  sc_uuid : val;
  sc_paper : PageSettings;
  sc_titleBlock : option TitleBlock;
  sc_libSymbols : list Symbol;
  sc_schematicSymbols : list SchematicSymbol;
  sc_junctions : list Junction;
  sc_noConnects : list NoConnect;
  sc_busEntries : list BusEntry;
  sc_busAliases : list BusAlias;
  sc_graphicalItems : list ScLine;
  sc_shapes : list ScShape;
  sc_images : list Image;
  sc_texts : list Text;
  sc_textBoxes : list TextBox;
  sc_labels : list LocalLabel;
  sc_globalLabels : list GlobalLabel;
  sc_hierarchicalLabels : list HierarchicalLabel;
  sc_netclassFlags : list NetclassFlag;
  sc_sheets : list HierarchicalSheet;
  sc_sheetInstances : list HierarchicalSheetInstance;
  sc_symbolInstances : list SymbolInstance;
  sc_filePath : val }.
#[export] Instance eta_Schematic : Settable Schematic :=
  settable! mkSchematic <sc_version; sc_generator; sc_uuid; sc_paper; sc_titleBlock; sc_libSymbols; sc_schematicSymbols; sc_junctions; sc_noConnects; sc_busEntries; sc_busAliases; sc_graphicalItems; sc_shapes; sc_images; sc_texts; sc_textBoxes; sc_labels; sc_globalLabels; sc_hierarchicalLabels; sc_netclassFlags; sc_sheets; sc_sheetInstances; sc_symbolInstances; sc_filePath>.
Definition Schematic_default : Schematic :=
  mkSchematic (VStr $"20211014") (VStr $"kiutils") VNone PageSettings_default None [] [] [] [] [] [] [] [] [] [] [] [] [] [] [] [] [] [] VNone.

Definition Schematic_line {A} (c : A -> ScLine) (m : res A) (o : Schematic) : res Schematic :=
  addf sc_graphicalItems (let! x := m in Ok (c x)) o.
Definition Schematic_shape {A} (c : A -> ScShape) (m : res A) (o : Schematic) : res Schematic :=
  addf sc_shapes (let! x := m in Ok (c x)) o.
(** schematic.py:138-171: no test of the item's type *)
Definition Schematic_step (o : Schematic) (item : val) : res Schematic :=
  let! h := item@0 in
  let! o := on (h =s "version") (setf sc_version (item@1)) o in
  let! o := on (h =s "generator") (setf sc_generator (item@1)) o in
  let! o := on (h =s "uuid") (setf sc_uuid (item@1)) o in
  let! o := on (h =s "paper") (setf sc_paper (PageSettings_from item)) o in
  let! o := on (h =s "title_block") (setf sc_titleBlock (let! t := TitleBlock_from item in Ok (Some t))) o in
  let! o := on (h =s "lib_symbols") (extf sc_libSymbols (let! l := from_ item 1 in mapM Symbol_from l)) o in
  let! o := on (h =s "junction") (addf sc_junctions (Junction_from item)) o in
  let! o := on (h =s "no_connect") (addf sc_noConnects (NoConnect_from item)) o in
  let! o := on (h =s "bus_entry") (addf sc_busEntries (BusEntry_from item)) o in
  let! o := on (h =s "bus_alias") (addf sc_busAliases (BusAlias_from item)) o in
  let! o := on (h =s "wire") (Schematic_line ScLine_Connection (Connection_from item)) o in
  let! o := on (h =s "bus") (Schematic_line ScLine_Connection (Connection_from item)) o in
  let! o := on (h =s "polyline") (Schematic_line ScLine_PolyLine (PolyLine_from item)) o in
  let! o := on (h =s "arc") (Schematic_shape ScShape_SchArc (SchArc_from item)) o in
  let! o := on (h =s "circle") (Schematic_shape ScShape_Circle (Circle_from item)) o in
  let! o := on (h =s "rectangle") (Schematic_shape ScShape_Rectangle (Rectangle_from item)) o in
  let! o := on (h =s "image") (addf sc_images (Image_from item)) o in
  let! o := on (h =s "text") (addf sc_texts (Text_from item)) o in
  let! o := on (h =s "text_box") (addf sc_textBoxes (TextBox_from item)) o in
  let! o := on (h =s "label") (addf sc_labels (LocalLabel_from item)) o in
  let! o := on (h =s "global_label") (addf sc_globalLabels (GlobalLabel_from item)) o in
  let! o := on (h =s "hierarchical_label") (addf sc_hierarchicalLabels (HierarchicalLabel_from item)) o in
  let! o := on (h =s "netclass_flag") (addf sc_netclassFlags (NetclassFlag_from item)) o in
  let! o := on (h =s "symbol") (addf sc_schematicSymbols (SchematicSymbol_from item)) o in
  let! o := on (h =s "sheet") (addf sc_sheets (HierarchicalSheet_from item)) o in
  let! o := on (h =s "sheet_instances") (extf sc_sheetInstances (let! l := from_ item 1 in mapM HierarchicalSheetInstance_from l)) o in
  let! o := on (h =s "symbol_instances") (extf sc_symbolInstances (let! l := from_ item 1 in mapM SymbolInstance_from l)) o in
  Ok o.
(** schematic.py:117-172 *)
Definition Schematic_from (exp : val) : res Schematic :=
  let! l := need_head "kicad_sch" exp in foldM Schematic_step Schematic_default l.
(** schematic.py:261-324: a section of lines, opened by an empty line when there are any *)
Definition section {A} (f : A -> res str) (l : list A) : res str :=
  let! s := concatM f l in Ok ((if Nat.eqb (length l) 0 then [] else nl) ++ s).
(** schematic.py:232-351 *)
Definition Schematic_to (o : Schematic) (indent : nat) (newline : bool) : res str :=
  let indents := spaces indent in
  let! paper := PageSettings_to (sc_paper o) (indent + 2) true in
  let! title := opt_str (sc_titleBlock o) (fun t => let! s := TitleBlock_to t (indent + 2) true in Ok (nl ++ s)) in
  let! symbols := concatM (fun x => let! s := Symbol_to x (indent + 4) true in Ok (nl ++ s)) (sc_libSymbols o) in
  let! junctions := section (fun x => Junction_to x (indent + 2) true) (sc_junctions o) in
  let! noConnects := section (fun x => NoConnect_to x (indent + 2) true) (sc_noConnects o) in
  let! entries := section (fun x => BusEntry_to x (indent + 2) true) (sc_busEntries o) in
  let! aliases := section (fun x => BusAlias_to x (indent + 2) true) (sc_busAliases o) in
  let! lines := section (fun x => ScLine_to x (indent + 2) true) (sc_graphicalItems o) in
  let! shapes := section (fun x => ScShape_to x (indent + 2) true) (sc_shapes o) in
  let! images := section (fun x => Image_to x (indent + 2) true) (sc_images o) in
  let! boxes := section (fun x => TextBox_to x (indent + 2) true) (sc_textBoxes o) in
  let! texts := section (fun x => Text_to x (indent + 2) true) (sc_texts o) in
  let! labels := section (fun x => LocalLabel_to x (indent + 2) true) (sc_labels o) in
  let! globals := section (fun x => GlobalLabel_to x (indent + 2) true) (sc_globalLabels o) in
  let! hiers := section (fun x => HierarchicalLabel_to x (indent + 2) true) (sc_hierarchicalLabels o) in
  let! flags := section (fun x => NetclassFlag_to x (indent + 2) true) (sc_netclassFlags o) in
  let! placed := concatM (fun x => let! s := SchematicSymbol_to x (indent + 2) true in Ok (nl ++ s)) (sc_schematicSymbols o) in
  let! sheets := concatM (fun x => let! s := HierarchicalSheet_to x (indent + 2) true in Ok (nl ++ s)) (sc_sheets o) in
  let! sheetInstances := concatM (fun x => HierarchicalSheetInstance_to x (indent + 4) true) (sc_sheetInstances o) in
  let! symbolInstances := concatM (fun x => SymbolInstance_to x (indent + 4) true) (sc_symbolInstances o) in
  Ok (indents ++ $"(kicad_sch (version " ++ fmt (sc_version o) ++ $") (generator " ++ fmt (sc_generator o) ++ $")" ++ nl
      ++ (if is_none (sc_uuid o) then [] else nl ++ indents ++ $"  (uuid " ++ fmt (sc_uuid o) ++ $")" ++ nl ++ nl)
      ++ paper ++ title
      ++ (if Nat.eqb (length (sc_libSymbols o)) 0 then indents ++ $"  (lib_symbols)" ++ nl
          else nl ++ indents ++ $"  (lib_symbols" ++ symbols ++ indents ++ $"  )" ++ nl)
      ++ junctions ++ noConnects ++ entries ++ aliases ++ lines ++ shapes ++ images ++ boxes ++ texts ++ labels ++ globals ++ hiers ++ flags
      ++ placed ++ sheets
      ++ (if Nat.eqb (length (sc_sheetInstances o)) 0 then [] else nl ++ $"  (sheet_instances" ++ nl ++ sheetInstances ++ $"  )" ++ nl)
      ++ (if Nat.eqb (length (sc_symbolInstances o)) 0 then [] else nl ++ $"  (symbol_instances" ++ nl ++ symbolInstances ++ $"  )" ++ nl)
      ++ indents ++ $")" ++ eol newline).
(** schematic.py:198-210; misc/config.py for the two constants *)
Definition Schematic_create_new : Schematic :=
  Schematic_default <| sc_version := VStr $"20211014" |> <| sc_generator := VStr $"kiutils" |>
    <| sc_sheetInstances := [HierarchicalSheetInstance_default <| hi_instancePath := VStr $"/" |> <| hi_page := VStr $"1" |>] |>.
