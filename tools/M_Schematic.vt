(** Model of schematic.py. *)
From Verif Require Import PyBase PyNum PyStr Sexpr M_Common M_Sym M_Sch.

@union ScLine schematic.py:69-71 Connection PolyLine
@union ScShape schematic.py:73-77 SchArc Circle Rectangle
@record Schematic sc schematic.py:28-115
version atom VStr $"20211014"
generator atom VStr $"kiutils"
uuid oatom VNone
paper obj/PageSettings PageSettings_default
titleBlock oobj/TitleBlock None
libSymbols list/Symbol []
schematicSymbols list/SchematicSymbol []
junctions list/Junction []
noConnects list/NoConnect []
busEntries list/BusEntry []
busAliases list/BusAlias []
graphicalItems list/ScLine []
shapes list/ScShape []
images list/Image []
texts list/Text []
textBoxes list/TextBox []
labels list/LocalLabel []
globalLabels list/GlobalLabel []
hierarchicalLabels list/HierarchicalLabel []
netclassFlags list/NetclassFlag []
sheets list/HierarchicalSheet []
sheetInstances list/HierarchicalSheetInstance []
symbolInstances list/SymbolInstance []
filePath none VNone
@end
Definition Schematic_line {A} (c : A -> ScLine) (m : res A) (o : Schematic) : res Schematic :=
  addf sc_graphicalItems (let! x := m in Ok (c x)) o.
Definition Schematic_shape {A} (c : A -> ScShape) (m : res A) (o : Schematic) : res Schematic :=
  addf sc_shapes (let! x := m in Ok (c x)) o.
(** schematic.py:138-171: no test of the item's type *)
Definition Schematic_step (o : Schematic) (item : val) : res Schematic :=
  let! h := item@0 in
  let! o := on (h =s "version") (setf sc_version (item@1)) o in
  let! o := on (h =s "generator") (setf sc_generator (item@1)) o in
  let! o := on (h =s "uuid") (setf sc_uuid (item@1)) o in
  let! o := on (h =s "paper") (setf sc_paper (PageSettings_from item)) o in
  let! o := on (h =s "title_block") (setf sc_titleBlock (let! t := TitleBlock_from item in Ok (Some t))) o in
  let! o := on (h =s "lib_symbols") (extf sc_libSymbols (let! l := from_ item 1 in mapM Symbol_from l)) o in
  let! o := on (h =s "junction") (addf sc_junctions (Junction_from item)) o in
  let! o := on (h =s "no_connect") (addf sc_noConnects (NoConnect_from item)) o in
  let! o := on (h =s "bus_entry") (addf sc_busEntries (BusEntry_from item)) o in
  let! o := on (h =s "bus_alias") (addf sc_busAliases (BusAlias_from item)) o in
  let! o := on (h =s "wire") (Schematic_line ScLine_Connection (Connection_from item)) o in
  let! o := on (h =s "bus") (Schematic_line ScLine_Connection (Connection_from item)) o in
  let! o := on (h =s "polyline") (Schematic_line ScLine_PolyLine (PolyLine_from item)) o in
  let! o := on (h =s "arc") (Schematic_shape ScShape_SchArc (SchArc_from item)) o in
  let! o := on (h =s "circle") (Schematic_shape ScShape_Circle (Circle_from item)) o in
  let! o := on (h =s "rectangle") (Schematic_shape ScShape_Rectangle (Rectangle_from item)) o in
  let! o := on (h =s "image") (addf sc_images (Image_from item)) o in
  let! o := on (h =s "text") (addf sc_texts (Text_from item)) o in
  let! o := on (h =s "text_box") (addf sc_textBoxes (TextBox_from item)) o in
  let! o := on (h =s "label") (addf sc_labels (LocalLabel_from item)) o in
  let! o := on (h =s "global_label") (addf sc_globalLabels (GlobalLabel_from item)) o in
  let! o := on (h =s "hierarchical_label") (addf sc_hierarchicalLabels (HierarchicalLabel_from item)) o in
  let! o := on (h =s "netclass_flag") (addf sc_netclassFlags (NetclassFlag_from item)) o in
  let! o := on (h =s "symbol") (addf sc_schematicSymbols (SchematicSymbol_from item)) o in
  let! o := on (h =s "sheet") (addf sc_sheets (HierarchicalSheet_from item)) o in
  let! o := on (h =s "sheet_instances") (extf sc_sheetInstances (let! l := from_ item 1 in mapM HierarchicalSheetInstance_from l)) o in
  let! o := on (h =s "symbol_instances") (extf sc_symbolInstances (let! l := from_ item 1 in mapM SymbolInstance_from l)) o in
  Ok o.
(** schematic.py:117-172 *)
Definition Schematic_from (exp : val) : res Schematic :=
  let! l := need_head "kicad_sch" exp in foldM Schematic_step Schematic_default l.
(** schematic.py:261-324: a section of lines, opened by an empty line when there are any *)
Definition section {A} (f : A -> res str) (l : list A) : res str :=
  let! s := concatM f l in Ok ((if Nat.eqb (length l) 0 then [] else nl) ++ s).
(** schematic.py:232-351 *)
Definition Schematic_to (o : Schematic) (indent : nat) (newline : bool) : res str :=
  let indents := spaces indent in
  let! paper := PageSettings_to (sc_paper o) (indent + 2) true in
  let! title := opt_str (sc_titleBlock o) (fun t => let! s := TitleBlock_to t (indent + 2) true in Ok (nl ++ s)) in
  let! symbols := concatM (fun x => let! s := Symbol_to x (indent + 4) true in Ok (nl ++ s)) (sc_libSymbols o) in
  let! junctions := section (fun x => Junction_to x (indent + 2) true) (sc_junctions o) in
  let! noConnects := section (fun x => NoConnect_to x (indent + 2) true) (sc_noConnects o) in
  let! entries := section (fun x => BusEntry_to x (indent + 2) true) (sc_busEntries o) in
  let! aliases := section (fun x => BusAlias_to x (indent + 2) true) (sc_busAliases o) in
  let! lines := section (fun x => ScLine_to x (indent + 2) true) (sc_graphicalItems o) in
  let! shapes := section (fun x => ScShape_to x (indent + 2) true) (sc_shapes o) in
  let! images := section (fun x => Image_to x (indent + 2) true) (sc_images o) in
  let! boxes := section (fun x => TextBox_to x (indent + 2) true) (sc_textBoxes o) in
  let! texts := section (fun x => Text_to x (indent + 2) true) (sc_texts o) in
  let! labels := section (fun x => LocalLabel_to x (indent + 2) true) (sc_labels o) in
  let! globals := section (fun x => GlobalLabel_to x (indent + 2) true) (sc_globalLabels o) in
  let! hiers := section (fun x => HierarchicalLabel_to x (indent + 2) true) (sc_hierarchicalLabels o) in
  let! flags := section (fun x => NetclassFlag_to x (indent + 2) true) (sc_netclassFlags o) in
  let! placed := concatM (fun x => let! s := SchematicSymbol_to x (indent + 2) true in Ok (nl ++ s)) (sc_schematicSymbols o) in
  let! sheets := concatM (fun x => let! s := HierarchicalSheet_to x (indent + 2) true in Ok (nl ++ s)) (sc_sheets o) in
  let! sheetInstances := concatM (fun x => HierarchicalSheetInstance_to x (indent + 4) true) (sc_sheetInstances o) in
  let! symbolInstances := concatM (fun x => SymbolInstance_to x (indent + 4) true) (sc_symbolInstances o) in
  Ok (indents ++ $"(kicad_sch (version " ++ fmt (sc_version o) ++ $") (generator " ++ fmt (sc_generator o) ++ $")" ++ nl
      ++ (if is_none (sc_uuid o) then [] else nl ++ indents ++ $"  (uuid " ++ fmt (sc_uuid o) ++ $")" ++ nl ++ nl)
      ++ paper ++ title
      ++ (if Nat.eqb (length (sc_libSymbols o)) 0 then indents ++ $"  (lib_symbols)" ++ nl
          else nl ++ indents ++ $"  (lib_symbols" ++ symbols ++ indents ++ $"  )" ++ nl)
      ++ junctions ++ noConnects ++ entries ++ aliases ++ lines ++ shapes ++ images ++ boxes ++ texts ++ labels ++ globals ++ hiers ++ flags
      ++ placed ++ sheets
      ++ (if Nat.eqb (length (sc_sheetInstances o)) 0 then [] else nl ++ $"  (sheet_instances" ++ nl ++ sheetInstances ++ $"  )" ++ nl)
      ++ (if Nat.eqb (length (sc_symbolInstances o)) 0 then [] else nl ++ $"  (symbol_instances" ++ nl ++ symbolInstances ++ $"  )" ++ nl)
      ++ indents ++ $")" ++ eol newline).
(** schematic.py:198-210; misc/config.py for the two constants *)
Definition Schematic_create_new : Schematic :=
  Schematic_default <| sc_version := VStr $"20211014" |> <| sc_generator := VStr $"kiutils" |>
    <| sc_sheetInstances := [HierarchicalSheetInstance_default <| hi_instancePath := VStr $"/" |> <| hi_page := VStr $"1" |>] |>.
