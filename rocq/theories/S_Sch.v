(** Specification of the classes in items/schitems.py. *)
From Verif Require Import PyBase PyNum PyStr Sexpr S_Leaf S_Tree S_Id S_Fix M_Common S_Common M_Sym S_Sym M_Footprint S_Footprint M_Sch.

(** the int 0 *)
Definition zerov (v : val) : bool := match v with VInt 0 => true | _ => false end.
Definition JColor_ok (c : JColor) : bool := match c with JColor_obj c => ColorRGBA_ok c | JColor_val _ => false end.
Definition JColor_norm (c : JColor) : JColor := match c with JColor_obj c => JColor_obj (ColorRGBA_norm c) | JColor_val v => JColor_val v end.
Definition JColor_eqb (a b : JColor) : bool :=
  match a, b with JColor_obj a, JColor_obj b => ColorRGBA_eqb a b | JColor_val a, JColor_val b => py_eqb a b | _, _ => false end.
Definition JColor_tree (c : JColor) : val := match c with JColor_obj c => ColorRGBA_tree c | JColor_val v => v end.
(** Only the default diameter survives. *)
Definition Junction_tree (o : Junction) : val :=
  node "junction" ([xy_tree "at" (jn_position o); node "diameter" [jn_diameter o]; JColor_tree (jn_color o)] ++ optn "uuid" (jn_uuid o)).
Definition Junction_norm (o : Junction) : Junction :=
  mkJunction (Position_norm (jn_position o)) (jn_diameter o) (JColor_norm (jn_color o)) (jn_uuid o).
(** dataclass == on Junction *)
Definition Junction_eqb (a b : Junction) : bool :=
  Position_eqb (jn_position a) (jn_position b)
  && py_eqb (jn_diameter a) (jn_diameter b)
  && JColor_eqb (jn_color a) (jn_color b)
  && py_eqb (jn_uuid a) (jn_uuid b).
Definition Junction_ok (o : Junction) : bool :=
  pos2_ok (jn_position o)
  && zerov (jn_diameter o)
  && JColor_ok (jn_color o)
  && optb wordv (jn_uuid o).


Definition NoConnect_tree (o : NoConnect) : val := node "no_connect" ([xy_tree "at" (nc_position o)] ++ optn "uuid" (nc_uuid o)).
Definition NoConnect_norm (o : NoConnect) : NoConnect :=
  mkNoConnect (Position_norm (nc_position o)) (nc_uuid o).
(** dataclass == on NoConnect *)
Definition NoConnect_eqb (a b : NoConnect) : bool :=
  Position_eqb (nc_position a) (nc_position b)
  && py_eqb (nc_uuid a) (nc_uuid b).
Definition NoConnect_ok (o : NoConnect) : bool :=
  pos2_ok (nc_position o)
  && optb wordv (nc_uuid o).


Definition BusEntry_tree (o : BusEntry) : val :=
  node "bus_entry" ([xy_tree "at" (be_position o); xy_tree "size" (be_size o); Stroke_tree (be_stroke o)] ++ optn "uuid" (be_uuid o)).
Definition BusEntry_norm (o : BusEntry) : BusEntry :=
  mkBusEntry (Position_norm (be_position o)) (be_uuid o) (Position_norm (be_size o)) (Stroke_norm (be_stroke o)).
(** dataclass == on BusEntry *)
Definition BusEntry_eqb (a b : BusEntry) : bool :=
  Position_eqb (be_position a) (be_position b)
  && py_eqb (be_uuid a) (be_uuid b)
  && Position_eqb (be_size a) (be_size b)
  && Stroke_eqb (be_stroke a) (be_stroke b).
Definition BusEntry_ok (o : BusEntry) : bool :=
  pos2_ok (be_position o)
  && optb wordv (be_uuid o)
  && pos2_ok (be_size o)
  && Stroke_ok (be_stroke o).


Definition BusAlias_tree (o : BusAlias) : val := node "bus_alias" [ba_name o; node "members" (ba_members o)].
Definition BusAlias_norm (o : BusAlias) : BusAlias :=
  mkBusAlias (ba_name o) (ba_members o).
(** dataclass == on BusAlias *)
Definition BusAlias_eqb (a b : BusAlias) : bool :=
  py_eqb (ba_name a) (ba_name b)
  && leqb py_eqb (ba_members a) (ba_members b).
Definition BusAlias_ok (o : BusAlias) : bool :=
  txtb (ba_name o)
  && forallb txtb (ba_members o).


Definition Connection_tree (o : Connection) : val :=
  VList (cx_type o :: [node "pts" (map (xy_tree "xy") (cx_points o)); Stroke_tree (cx_stroke o)] ++ optn "uuid" (cx_uuid o)).
Definition Connection_norm (o : Connection) : Connection :=
  mkConnection (cx_type o) (map Position_norm (cx_points o)) (Stroke_norm (cx_stroke o)) (cx_uuid o).
(** dataclass == on Connection *)
Definition Connection_eqb (a b : Connection) : bool :=
  py_eqb (cx_type a) (cx_type b)
  && leqb Position_eqb (cx_points a) (cx_points b)
  && Stroke_eqb (cx_stroke a) (cx_stroke b)
  && py_eqb (cx_uuid a) (cx_uuid b).
Definition Connection_ok (o : Connection) : bool :=
  enumb ["wire"%string; "bus"%string] (cx_type o)
  && forallb pos2_ok (cx_points o)
  && Stroke_ok (cx_stroke o)
  && optb wordv (cx_uuid o).


Definition PolyLine_tree (o : PolyLine) : val :=
  node "polyline" ([node "pts" (map (xy_tree "xy") (pl_points o)); Stroke_tree (pl_stroke o)] ++ optn "uuid" (pl_uuid o)).
Definition PolyLine_norm (o : PolyLine) : PolyLine :=
  mkPolyLine (map Position_norm (pl_points o)) (Stroke_norm (pl_stroke o)) (pl_uuid o).
(** dataclass == on PolyLine *)
Definition PolyLine_eqb (a b : PolyLine) : bool :=
  leqb Position_eqb (pl_points a) (pl_points b)
  && Stroke_eqb (pl_stroke a) (pl_stroke b)
  && py_eqb (pl_uuid a) (pl_uuid b).
Definition PolyLine_ok (o : PolyLine) : bool :=
  forallb pos2_ok (pl_points o)
  && Stroke_ok (pl_stroke o)
  && optb wordv (pl_uuid o).


Definition Text_tree (o : Text) : val :=
  node "text" ([tx_text o; at3_tree "at" (tx_position o); Effects_tree (tx_effects o)] ++ optn "uuid" (tx_uuid o)).
Definition Text_norm (o : Text) : Text :=
  mkText (tx_text o) (Position_norm (tx_position o)) (Effects_norm (tx_effects o)) (tx_uuid o).
(** dataclass == on Text *)
Definition Text_eqb (a b : Text) : bool :=
  py_eqb (tx_text a) (tx_text b)
  && Position_eqb (tx_position a) (tx_position b)
  && Effects_eqb (tx_effects a) (tx_effects b)
  && py_eqb (tx_uuid a) (tx_uuid b).
Definition Text_ok (o : Text) : bool :=
  txtb (tx_text o)
  && pos3_ok (tx_position o)
  && Effects_ok (tx_effects o)
  && optb wordv (tx_uuid o).


Definition TextBox_tree (o : TextBox) : val :=
  node "text_box" ([bx_text o; at3_tree "at" (bx_position o); xy_tree "size" (bx_size o); Stroke_tree (bx_stroke o); Fill_tree (bx_fill o); Effects_tree (bx_effects o)]
    ++ optn "uuid" (bx_uuid o)).
Definition TextBox_norm (o : TextBox) : TextBox :=
  mkTextBox (bx_text o) (Position_norm (bx_position o)) (Position_norm (bx_size o)) (Stroke_norm (bx_stroke o)) (Fill_norm (bx_fill o)) (Effects_norm (bx_effects o)) (bx_uuid o).
(** dataclass == on TextBox *)
Definition TextBox_eqb (a b : TextBox) : bool :=
  py_eqb (bx_text a) (bx_text b)
  && Position_eqb (bx_position a) (bx_position b)
  && Position_eqb (bx_size a) (bx_size b)
  && Stroke_eqb (bx_stroke a) (bx_stroke b)
  && Fill_eqb (bx_fill a) (bx_fill b)
  && Effects_eqb (bx_effects a) (bx_effects b)
  && py_eqb (bx_uuid a) (bx_uuid b).
Definition TextBox_ok (o : TextBox) : bool :=
  txtb (bx_text o)
  && pos3_ok (bx_position o)
  && pos2_ok (bx_size o)
  && Stroke_ok (bx_stroke o)
  && Fill_ok (bx_fill o)
  && Effects_ok (bx_effects o)
  && optb wordv (bx_uuid o).


(** the flag [(fields_autoplaced)] *)
Notation auto_tree b := (if b then [node "fields_autoplaced" []] else []) (only parsing).

Definition LocalLabel_tree (o : LocalLabel) : val :=
  node "label" ([ll_text o; at3_tree "at" (ll_position o)] ++ auto_tree (ll_fieldsAutoplaced o) ++ [Effects_tree (ll_effects o)] ++ optn "uuid" (ll_uuid o)).
Definition LocalLabel_norm (o : LocalLabel) : LocalLabel :=
  mkLocalLabel (ll_text o) (Position_norm (ll_position o)) (Effects_norm (ll_effects o)) (ll_uuid o) (ll_fieldsAutoplaced o).
(** dataclass == on LocalLabel *)
Definition LocalLabel_eqb (a b : LocalLabel) : bool :=
  py_eqb (ll_text a) (ll_text b)
  && Position_eqb (ll_position a) (ll_position b)
  && Effects_eqb (ll_effects a) (ll_effects b)
  && py_eqb (ll_uuid a) (ll_uuid b)
  && Bool.eqb (ll_fieldsAutoplaced a) (ll_fieldsAutoplaced b).
Definition LocalLabel_ok (o : LocalLabel) : bool :=
  txtb (ll_text o)
  && pos3_ok (ll_position o)
  && Effects_ok (ll_effects o)
  && optb wordv (ll_uuid o).


Definition GlobalLabel_tree (o : GlobalLabel) : val :=
  node "global_label" ([gla_text o; node "shape" [gla_shape o]; at3_tree "at" (gla_position o)] ++ auto_tree (gla_fieldsAutoplaced o)
    ++ [Effects_tree (gla_effects o)] ++ optn "uuid" (gla_uuid o) ++ map Property_tree (gla_properties o)).
Definition GlobalLabel_norm (o : GlobalLabel) : GlobalLabel :=
  mkGlobalLabel (gla_text o) (nrm (gla_shape o)) (gla_fieldsAutoplaced o) (Position_norm (gla_position o)) (Effects_norm (gla_effects o)) (gla_uuid o) (map Property_norm (gla_properties o)).
(** dataclass == on GlobalLabel *)
Definition GlobalLabel_eqb (a b : GlobalLabel) : bool :=
  py_eqb (gla_text a) (gla_text b)
  && py_eqb (gla_shape a) (gla_shape b)
  && Bool.eqb (gla_fieldsAutoplaced a) (gla_fieldsAutoplaced b)
  && Position_eqb (gla_position a) (gla_position b)
  && Effects_eqb (gla_effects a) (gla_effects b)
  && py_eqb (gla_uuid a) (gla_uuid b)
  && leqb Property_eqb (gla_properties a) (gla_properties b).
Definition GlobalLabel_ok (o : GlobalLabel) : bool :=
  txtb (gla_text o)
  && atomb (gla_shape o)
  && pos3_ok (gla_position o)
  && Effects_ok (gla_effects o)
  && optb wordv (gla_uuid o)
  && forallb Property_ok (gla_properties o).


Definition HierarchicalLabel_tree (o : HierarchicalLabel) : val :=
  node "hierarchical_label" ([hl_text o; node "shape" [hl_shape o]; at3_tree "at" (hl_position o)] ++ auto_tree (hl_fieldsAutoplaced o)
    ++ [Effects_tree (hl_effects o)] ++ optn "uuid" (hl_uuid o)).
Definition HierarchicalLabel_norm (o : HierarchicalLabel) : HierarchicalLabel :=
  mkHierarchicalLabel (hl_text o) (nrm (hl_shape o)) (Position_norm (hl_position o)) (Effects_norm (hl_effects o)) (hl_uuid o) (hl_fieldsAutoplaced o).
(** dataclass == on HierarchicalLabel *)
Definition HierarchicalLabel_eqb (a b : HierarchicalLabel) : bool :=
  py_eqb (hl_text a) (hl_text b)
  && py_eqb (hl_shape a) (hl_shape b)
  && Position_eqb (hl_position a) (hl_position b)
  && Effects_eqb (hl_effects a) (hl_effects b)
  && py_eqb (hl_uuid a) (hl_uuid b)
  && Bool.eqb (hl_fieldsAutoplaced a) (hl_fieldsAutoplaced b).
Definition HierarchicalLabel_ok (o : HierarchicalLabel) : bool :=
  txtb (hl_text o)
  && atomb (hl_shape o)
  && pos3_ok (hl_position o)
  && Effects_ok (hl_effects o)
  && optb wordv (hl_uuid o).


Definition SymbolProjectPath_tree (o : SymbolProjectPath) : val :=
  node "path" [spp_sheetInstancePath o; node "reference" [spp_reference o]; node "unit" [spp_unit o]].
Definition SymbolProjectPath_norm (o : SymbolProjectPath) : SymbolProjectPath :=
  mkSymbolProjectPath (spp_sheetInstancePath o) (spp_reference o) (nrm (spp_unit o)).
(** dataclass == on SymbolProjectPath *)
Definition SymbolProjectPath_eqb (a b : SymbolProjectPath) : bool :=
  py_eqb (spp_sheetInstancePath a) (spp_sheetInstancePath b)
  && py_eqb (spp_reference a) (spp_reference b)
  && py_eqb (spp_unit a) (spp_unit b).
Definition SymbolProjectPath_ok (o : SymbolProjectPath) : bool :=
  txtb (spp_sheetInstancePath o)
  && txtb (spp_reference o)
  && atomb (spp_unit o).

Definition SymbolProjectInstance_tree (o : SymbolProjectInstance) : val :=
  node "project" ([spi_name o] ++ map SymbolProjectPath_tree (spi_paths o)).
Definition SymbolProjectInstance_norm (o : SymbolProjectInstance) : SymbolProjectInstance :=
  mkSymbolProjectInstance (spi_name o) (map SymbolProjectPath_norm (spi_paths o)).
(** dataclass == on SymbolProjectInstance *)
Definition SymbolProjectInstance_eqb (a b : SymbolProjectInstance) : bool :=
  py_eqb (spi_name a) (spi_name b)
  && leqb SymbolProjectPath_eqb (spi_paths a) (spi_paths b).
Definition SymbolProjectInstance_ok (o : SymbolProjectInstance) : bool :=
  txtb (spi_name o)
  && forallb SymbolProjectPath_ok (spi_paths o).


(** an identifier that may be empty *)
Definition uuid0_ok (v : val) : bool := match v with VStr [] => true | _ => wordv v end.
(** a dictionary from pin numbers (texts) to unique identifiers *)
Definition pin_dict_ok (d : list (val * val)) : bool := forallb (fun kv => txtb (fst kv) && wordv (snd kv)) d && dict_keys_ok d.
Notation yn_tree key b := (node key [VStr (if b then $"yes" else $"no")]) (only parsing).
Definition SchematicSymbol_tree (o : SchematicSymbol) : val :=
  node "symbol" (optn "lib_name" (ss_libName o) ++ [node "lib_id" [VStr (fp_id (ss_libraryNickname o) (ss_entryName o))]; at3_tree "at" (ss_position o)]
    ++ optn "mirror" (ss_mirror o) ++ optn "unit" (ss_unit o) ++ [yn_tree "in_bom" (ss_inBom o); yn_tree "on_board" (ss_onBoard o)]
    ++ optyn "dnp" (ss_dnp o) ++ auto_tree (ss_fieldsAutoplaced o) ++ (if truthy (ss_uuid o) then [node "uuid" [ss_uuid o]] else [])
    ++ map Property_tree (ss_properties o) ++ map (fun kv => node "pin" [fst kv; node "uuid" [snd kv]]) (ss_pins o)
    ++ (if Nat.eqb (length (ss_instances o)) 0 then [] else [node "instances" (map SymbolProjectInstance_tree (ss_instances o))])).
Definition SchematicSymbol_norm (o : SchematicSymbol) : SchematicSymbol :=
  mkSchematicSymbol (ss_libraryNickname o) (ss_entryName o) (ss_libName o) (Position_norm (ss_position o)) (nrm (ss_unit o)) (ss_inBom o) (ss_onBoard o) (ss_dnp o) (ss_fieldsAutoplaced o) (ss_uuid o) (map Property_norm (ss_properties o)) (ss_pins o) (ss_mirror o) (map SymbolProjectInstance_norm (ss_instances o)).
(** dataclass == on SchematicSymbol *)
Definition SchematicSymbol_eqb (a b : SchematicSymbol) : bool :=
  py_eqb (ss_libraryNickname a) (ss_libraryNickname b)
  && py_eqb (ss_entryName a) (ss_entryName b)
  && py_eqb (ss_libName a) (ss_libName b)
  && Position_eqb (ss_position a) (ss_position b)
  && py_eqb (ss_unit a) (ss_unit b)
  && Bool.eqb (ss_inBom a) (ss_inBom b)
  && Bool.eqb (ss_onBoard a) (ss_onBoard b)
  && oeqb Bool.eqb (ss_dnp a) (ss_dnp b)
  && Bool.eqb (ss_fieldsAutoplaced a) (ss_fieldsAutoplaced b)
  && py_eqb (ss_uuid a) (ss_uuid b)
  && leqb Property_eqb (ss_properties a) (ss_properties b)
  && leqb kveqb (ss_pins a) (ss_pins b)
  && py_eqb (ss_mirror a) (ss_mirror b)
  && leqb SymbolProjectInstance_eqb (ss_instances a) (ss_instances b).
Definition SchematicSymbol_ok (o : SchematicSymbol) : bool :=
  optb txtb (ss_libName o)
  && pos3_ok (ss_position o)
  && optb numb (ss_unit o)
  && uuid0_ok (ss_uuid o)
  && forallb Property_ok (ss_properties o)
  && pin_dict_ok (ss_pins o)
  && optb wordv (ss_mirror o)
  && forallb SymbolProjectInstance_ok (ss_instances o)
  && (fp_id_ok (ss_libraryNickname o) (ss_entryName o)).


Definition HierarchicalPin_tree (o : HierarchicalPin) : val :=
  node "pin" ([hp_name o; hp_connectionType o; at3_tree "at" (hp_position o); Effects_tree (hp_effects o)] ++ optn "uuid" (hp_uuid o)).
Definition HierarchicalPin_norm (o : HierarchicalPin) : HierarchicalPin :=
  mkHierarchicalPin (hp_name o) (nrm (hp_connectionType o)) (Position_norm (hp_position o)) (Effects_norm (hp_effects o)) (hp_uuid o).
(** dataclass == on HierarchicalPin *)
Definition HierarchicalPin_eqb (a b : HierarchicalPin) : bool :=
  py_eqb (hp_name a) (hp_name b)
  && py_eqb (hp_connectionType a) (hp_connectionType b)
  && Position_eqb (hp_position a) (hp_position b)
  && Effects_eqb (hp_effects a) (hp_effects b)
  && py_eqb (hp_uuid a) (hp_uuid b).
Definition HierarchicalPin_ok (o : HierarchicalPin) : bool :=
  txtb (hp_name o)
  && atomb (hp_connectionType o)
  && pos3_ok (hp_position o)
  && Effects_ok (hp_effects o)
  && optb wordv (hp_uuid o).

Definition HierarchicalSheetProjectPath_tree (o : HierarchicalSheetProjectPath) : val :=
  node "path" [hpp_sheetInstancePath o; node "page" [hpp_page o]].
Definition HierarchicalSheetProjectPath_norm (o : HierarchicalSheetProjectPath) : HierarchicalSheetProjectPath :=
  mkHierarchicalSheetProjectPath (hpp_sheetInstancePath o) (hpp_page o).
(** dataclass == on HierarchicalSheetProjectPath *)
Definition HierarchicalSheetProjectPath_eqb (a b : HierarchicalSheetProjectPath) : bool :=
  py_eqb (hpp_sheetInstancePath a) (hpp_sheetInstancePath b)
  && py_eqb (hpp_page a) (hpp_page b).
Definition HierarchicalSheetProjectPath_ok (o : HierarchicalSheetProjectPath) : bool :=
  txtb (hpp_sheetInstancePath o)
  && txtb (hpp_page o).

Definition HierarchicalSheetProjectInstance_tree (o : HierarchicalSheetProjectInstance) : val :=
  node "project" ([hpi_name o] ++ map HierarchicalSheetProjectPath_tree (hpi_paths o)).
Definition HierarchicalSheetProjectInstance_norm (o : HierarchicalSheetProjectInstance) : HierarchicalSheetProjectInstance :=
  mkHierarchicalSheetProjectInstance (hpi_name o) (map HierarchicalSheetProjectPath_norm (hpi_paths o)).
(** dataclass == on HierarchicalSheetProjectInstance *)
Definition HierarchicalSheetProjectInstance_eqb (a b : HierarchicalSheetProjectInstance) : bool :=
  py_eqb (hpi_name a) (hpi_name b)
  && leqb HierarchicalSheetProjectPath_eqb (hpi_paths a) (hpi_paths b).
Definition HierarchicalSheetProjectInstance_ok (o : HierarchicalSheetProjectInstance) : bool :=
  txtb (hpi_name o)
  && forallb HierarchicalSheetProjectPath_ok (hpi_paths o).


(** The colour of a sheet is always read with four decimal places. *)
Definition fill4_ok (c : ColorRGBA) : bool :=
  numb (ca_R c) && numb (ca_G c) && numb (ca_B c) && fixb 4 (ca_A c) && match ca_precision c with VInt p => Z.eqb p 4 | _ => false end.
(** the names under which the two mandatory properties are found *)
Definition name_key (v : val) : bool := (v =s "Sheet name") || (v =s "Sheetname").
Definition file_key (v : val) : bool := (v =s "Sheet file") || (v =s "Sheetfile").
Definition other_key (p : Property) : bool := negb (name_key (pr_key p) || file_key (pr_key p)).
Definition sheet_keys_ok (name file : Property) (l : list Property) : bool :=
  name_key (pr_key name) && file_key (pr_key file) && forallb other_key l.
Definition HierarchicalSheet_tree (o : HierarchicalSheet) : val :=
  node "sheet" ([xy_tree "at" (hs_position o); node "size" [hs_width o; hs_height o]] ++ auto_tree (hs_fieldsAutoplaced o)
    ++ [Stroke_tree (hs_stroke o); node "fill" [ColorRGBA_tree (hs_fill o)]] ++ optn "uuid" (hs_uuid o)
    ++ [Property_tree (hs_sheetName o); Property_tree (hs_fileName o)] ++ map Property_tree (hs_properties o) ++ map HierarchicalPin_tree (hs_pins o)
    ++ (if Nat.eqb (length (hs_instances o)) 0 then [] else [node "instances" (map HierarchicalSheetProjectInstance_tree (hs_instances o))])).
Definition HierarchicalSheet_norm (o : HierarchicalSheet) : HierarchicalSheet :=
  mkHierarchicalSheet (Position_norm (hs_position o)) (nrm (hs_width o)) (nrm (hs_height o)) (hs_fieldsAutoplaced o) (Stroke_norm (hs_stroke o)) (ColorRGBA_norm (hs_fill o)) (hs_uuid o) (Property_norm (hs_sheetName o)) (Property_norm (hs_fileName o)) (map Property_norm (hs_properties o)) (map HierarchicalPin_norm (hs_pins o)) (map HierarchicalSheetProjectInstance_norm (hs_instances o)).
(** dataclass == on HierarchicalSheet *)
Definition HierarchicalSheet_eqb (a b : HierarchicalSheet) : bool :=
  Position_eqb (hs_position a) (hs_position b)
  && py_eqb (hs_width a) (hs_width b)
  && py_eqb (hs_height a) (hs_height b)
  && Bool.eqb (hs_fieldsAutoplaced a) (hs_fieldsAutoplaced b)
  && Stroke_eqb (hs_stroke a) (hs_stroke b)
  && ColorRGBA_eqb (hs_fill a) (hs_fill b)
  && py_eqb (hs_uuid a) (hs_uuid b)
  && Property_eqb (hs_sheetName a) (hs_sheetName b)
  && Property_eqb (hs_fileName a) (hs_fileName b)
  && leqb Property_eqb (hs_properties a) (hs_properties b)
  && leqb HierarchicalPin_eqb (hs_pins a) (hs_pins b)
  && leqb HierarchicalSheetProjectInstance_eqb (hs_instances a) (hs_instances b).
Definition HierarchicalSheet_ok (o : HierarchicalSheet) : bool :=
  pos2_ok (hs_position o)
  && numb (hs_width o)
  && numb (hs_height o)
  && Stroke_ok (hs_stroke o)
  && fill4_ok (hs_fill o)
  && optb wordv (hs_uuid o)
  && Property_ok (hs_sheetName o)
  && Property_ok (hs_fileName o)
  && forallb Property_ok (hs_properties o)
  && forallb HierarchicalPin_ok (hs_pins o)
  && forallb HierarchicalSheetProjectInstance_ok (hs_instances o)
  && (sheet_keys_ok (hs_sheetName o) (hs_fileName o) (hs_properties o)).


Definition HierarchicalSheetInstance_tree (o : HierarchicalSheetInstance) : val := node "path" [hi_instancePath o; node "page" [hi_page o]].
Definition HierarchicalSheetInstance_norm (o : HierarchicalSheetInstance) : HierarchicalSheetInstance :=
  mkHierarchicalSheetInstance (hi_instancePath o) (hi_page o).
(** dataclass == on HierarchicalSheetInstance *)
Definition HierarchicalSheetInstance_eqb (a b : HierarchicalSheetInstance) : bool :=
  py_eqb (hi_instancePath a) (hi_instancePath b)
  && py_eqb (hi_page a) (hi_page b).
Definition HierarchicalSheetInstance_ok (o : HierarchicalSheetInstance) : bool :=
  txtb (hi_instancePath o)
  && txtb (hi_page o).

Definition SymbolInstance_tree (o : SymbolInstance) : val :=
  node "path" [syi_path o; node "reference" [syi_reference o]; node "unit" [syi_unit o]; node "value" [syi_value o]; node "footprint" [syi_footprint o]].
Definition SymbolInstance_norm (o : SymbolInstance) : SymbolInstance :=
  mkSymbolInstance (syi_path o) (syi_reference o) (nrm (syi_unit o)) (syi_value o) (syi_footprint o).
(** dataclass == on SymbolInstance *)
Definition SymbolInstance_eqb (a b : SymbolInstance) : bool :=
  py_eqb (syi_path a) (syi_path b)
  && py_eqb (syi_reference a) (syi_reference b)
  && py_eqb (syi_unit a) (syi_unit b)
  && py_eqb (syi_value a) (syi_value b)
  && py_eqb (syi_footprint a) (syi_footprint b).
Definition SymbolInstance_ok (o : SymbolInstance) : bool :=
  txtb (syi_path o)
  && txtb (syi_reference o)
  && atomb (syi_unit o)
  && txtb (syi_value o)
  && txtb (syi_footprint o).


Definition Rectangle_tree (o : Rectangle) : val :=
  node "rectangle" ([xy_tree "start" (rct_start o); xy_tree "end" (rct_end o); Stroke_tree (rct_stroke o); Fill_tree (rct_fill o)] ++ optn "uuid" (rct_uuid o)).
Definition Rectangle_norm (o : Rectangle) : Rectangle :=
  mkRectangle (Position_norm (rct_start o)) (Position_norm (rct_end o)) (Stroke_norm (rct_stroke o)) (Fill_norm (rct_fill o)) (rct_uuid o).
(** dataclass == on Rectangle *)
Definition Rectangle_eqb (a b : Rectangle) : bool :=
  Position_eqb (rct_start a) (rct_start b)
  && Position_eqb (rct_end a) (rct_end b)
  && Stroke_eqb (rct_stroke a) (rct_stroke b)
  && Fill_eqb (rct_fill a) (rct_fill b)
  && py_eqb (rct_uuid a) (rct_uuid b).
Definition Rectangle_ok (o : Rectangle) : bool :=
  pos2_ok (rct_start o)
  && pos2_ok (rct_end o)
  && Stroke_ok (rct_stroke o)
  && Fill_ok (rct_fill o)
  && optb wordv (rct_uuid o).

Definition SchArc_tree (o : SchArc) : val :=
  node "arc" ([xy_tree "start" (sar_start o); xy_tree "mid" (sar_mid o); xy_tree "end" (sar_end o); Stroke_tree (sar_stroke o); Fill_tree (sar_fill o)] ++ optn "uuid" (sar_uuid o)).
Definition SchArc_norm (o : SchArc) : SchArc :=
  mkSchArc (Position_norm (sar_start o)) (Position_norm (sar_mid o)) (Position_norm (sar_end o)) (Stroke_norm (sar_stroke o)) (Fill_norm (sar_fill o)) (sar_uuid o).
(** dataclass == on SchArc *)
Definition SchArc_eqb (a b : SchArc) : bool :=
  Position_eqb (sar_start a) (sar_start b)
  && Position_eqb (sar_mid a) (sar_mid b)
  && Position_eqb (sar_end a) (sar_end b)
  && Stroke_eqb (sar_stroke a) (sar_stroke b)
  && Fill_eqb (sar_fill a) (sar_fill b)
  && py_eqb (sar_uuid a) (sar_uuid b).
Definition SchArc_ok (o : SchArc) : bool :=
  pos2_ok (sar_start o)
  && pos2_ok (sar_mid o)
  && pos2_ok (sar_end o)
  && Stroke_ok (sar_stroke o)
  && Fill_ok (sar_fill o)
  && optb wordv (sar_uuid o).

Definition Circle_tree (o : Circle) : val :=
  node "circle" ([xy_tree "center" (cir_center o); node "radius" [cir_radius o]; Stroke_tree (cir_stroke o); Fill_tree (cir_fill o)] ++ optn "uuid" (cir_uuid o)).
Definition Circle_norm (o : Circle) : Circle :=
  mkCircle (Position_norm (cir_center o)) (nrm (cir_radius o)) (Stroke_norm (cir_stroke o)) (Fill_norm (cir_fill o)) (cir_uuid o).
(** dataclass == on Circle *)
Definition Circle_eqb (a b : Circle) : bool :=
  Position_eqb (cir_center a) (cir_center b)
  && py_eqb (cir_radius a) (cir_radius b)
  && Stroke_eqb (cir_stroke a) (cir_stroke b)
  && Fill_eqb (cir_fill a) (cir_fill b)
  && py_eqb (cir_uuid a) (cir_uuid b).
Definition Circle_ok (o : Circle) : bool :=
  pos2_ok (cir_center o)
  && numb (cir_radius o)
  && Stroke_ok (cir_stroke o)
  && Fill_ok (cir_fill o)
  && optb wordv (cir_uuid o).


(** an attribute that is an object, not the class *)
Definition some_ok {A} (f : A -> bool) (o : option A) : bool := match o with Some x => f x | None => false end.
Definition NetclassFlag_tree (o : NetclassFlag) : val :=
  node "netclass_flag" ([nf_text o; node "length" [nf_length o]; node "shape" [nf_shape o]] ++ opto (at3_tree "at") (nf_position o) ++ auto_tree (nf_fieldsAutoplaced o)
    ++ opto Effects_tree (nf_effects o) ++ optn "uuid" (nf_uuid o) ++ map Property_tree (nf_properties o)).
Definition NetclassFlag_norm (o : NetclassFlag) : NetclassFlag :=
  mkNetclassFlag (nf_text o) (nrm (nf_length o)) (nrm (nf_shape o)) (option_map Position_norm (nf_position o)) (option_map Effects_norm (nf_effects o)) (map Property_norm (nf_properties o)) (nf_uuid o) (nf_fieldsAutoplaced o).
(** dataclass == on NetclassFlag *)
Definition NetclassFlag_eqb (a b : NetclassFlag) : bool :=
  py_eqb (nf_text a) (nf_text b)
  && py_eqb (nf_length a) (nf_length b)
  && py_eqb (nf_shape a) (nf_shape b)
  && oeqb Position_eqb (nf_position a) (nf_position b)
  && oeqb Effects_eqb (nf_effects a) (nf_effects b)
  && leqb Property_eqb (nf_properties a) (nf_properties b)
  && py_eqb (nf_uuid a) (nf_uuid b)
  && Bool.eqb (nf_fieldsAutoplaced a) (nf_fieldsAutoplaced b).
Definition NetclassFlag_ok (o : NetclassFlag) : bool :=
  txtb (nf_text o)
  && numb (nf_length o)
  && atomb (nf_shape o)
  && some_ok pos3_ok (nf_position o)
  && some_ok Effects_ok (nf_effects o)
  && forallb Property_ok (nf_properties o)
  && optb wordv (nf_uuid o).

