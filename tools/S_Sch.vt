(** Specification of the classes in items/schitems.py. *)
From Verif Require Import PyBase PyNum PyStr Sexpr S_Leaf S_Tree S_Id S_Fix M_Common S_Common M_Sym S_Sym M_Footprint S_Footprint M_Sch.

(** the int 0 *)
Definition zerov (v : val) : bool := match v with VInt 0 => true | _ => false end.
Definition JColor_ok (c : JColor) : bool := match c with JColor_obj c => ColorRGBA_ok c | JColor_val _ => false end.
Definition JColor_norm (c : JColor) : JColor := match c with JColor_obj c => JColor_obj (ColorRGBA_norm c) | JColor_val v => JColor_val v end.
Definition JColor_eqb (a b : JColor) : bool :=
  match a, b with JColor_obj a, JColor_obj b => ColorRGBA_eqb a b | JColor_val a, JColor_val b => py_eqb a b | _, _ => false end.
Definition JColor_tree (c : JColor) : val := match c with JColor_obj c => ColorRGBA_tree c | JColor_val v => v end.
(** Only the default diameter survives. *)
Definition Junction_tree (o : Junction) : val :=
  node "junction" ([xy_tree "at" (jn_position o); node "diameter" [jn_diameter o]; JColor_tree (jn_color o)] ++ optn "uuid" (jn_uuid o)).
@ok Junction

Definition NoConnect_tree (o : NoConnect) : val := node "no_connect" ([xy_tree "at" (nc_position o)] ++ optn "uuid" (nc_uuid o)).
@ok NoConnect

Definition BusEntry_tree (o : BusEntry) : val :=
  node "bus_entry" ([xy_tree "at" (be_position o); xy_tree "size" (be_size o); Stroke_tree (be_stroke o)] ++ optn "uuid" (be_uuid o)).
@ok BusEntry

Definition BusAlias_tree (o : BusAlias) : val := node "bus_alias" [ba_name o; node "members" (ba_members o)].
@ok BusAlias

Definition Connection_tree (o : Connection) : val :=
  VList (cx_type o :: [node "pts" (map (xy_tree "xy") (cx_points o)); Stroke_tree (cx_stroke o)] ++ optn "uuid" (cx_uuid o)).
@ok Connection

Definition PolyLine_tree (o : PolyLine) : val :=
  node "polyline" ([node "pts" (map (xy_tree "xy") (pl_points o)); Stroke_tree (pl_stroke o)] ++ optn "uuid" (pl_uuid o)).
@ok PolyLine

Definition Text_tree (o : Text) : val :=
  node "text" ([tx_text o; at3_tree "at" (tx_position o); Effects_tree (tx_effects o)] ++ optn "uuid" (tx_uuid o)).
@ok Text

Definition TextBox_tree (o : TextBox) : val :=
  node "text_box" ([bx_text o; at3_tree "at" (bx_position o); xy_tree "size" (bx_size o); Stroke_tree (bx_stroke o); Fill_tree (bx_fill o); Effects_tree (bx_effects o)]
    ++ optn "uuid" (bx_uuid o)).
@ok TextBox

(** the flag [(fields_autoplaced)] *)
Notation auto_tree b := (if b then [node "fields_autoplaced" []] else []) (only parsing).

Definition LocalLabel_tree (o : LocalLabel) : val :=
  node "label" ([ll_text o; at3_tree "at" (ll_position o)] ++ auto_tree (ll_fieldsAutoplaced o) ++ [Effects_tree (ll_effects o)] ++ optn "uuid" (ll_uuid o)).
@ok LocalLabel

Definition GlobalLabel_tree (o : GlobalLabel) : val :=
  node "global_label" ([gla_text o; node "shape" [gla_shape o]; at3_tree "at" (gla_position o)] ++ auto_tree (gla_fieldsAutoplaced o)
    ++ [Effects_tree (gla_effects o)] ++ optn "uuid" (gla_uuid o) ++ map Property_tree (gla_properties o)).
@ok GlobalLabel

Definition HierarchicalLabel_tree (o : HierarchicalLabel) : val :=
  node "hierarchical_label" ([hl_text o; node "shape" [hl_shape o]; at3_tree "at" (hl_position o)] ++ auto_tree (hl_fieldsAutoplaced o)
    ++ [Effects_tree (hl_effects o)] ++ optn "uuid" (hl_uuid o)).
@ok HierarchicalLabel

Definition SymbolProjectPath_tree (o : SymbolProjectPath) : val :=
  node "path" [spp_sheetInstancePath o; node "reference" [spp_reference o]; node "unit" [spp_unit o]].
@ok SymbolProjectPath
Definition SymbolProjectInstance_tree (o : SymbolProjectInstance) : val :=
  node "project" ([spi_name o] ++ map SymbolProjectPath_tree (spi_paths o)).
@ok SymbolProjectInstance

(** an identifier that may be empty *)
Definition uuid0_ok (v : val) : bool := match v with VStr [] => true | _ => wordv v end.
(** a dictionary from pin numbers (texts) to unique identifiers *)
Definition pin_dict_ok (d : list (val * val)) : bool := forallb (fun kv => txtb (fst kv) && wordv (snd kv)) d && dict_keys_ok d.
Notation yn_tree key b := (node key [VStr (if b then $"yes" else $"no")]) (only parsing).
Definition SchematicSymbol_tree (o : SchematicSymbol) : val :=
  node "symbol" (optn "lib_name" (ss_libName o) ++ [node "lib_id" [VStr (fp_id (ss_libraryNickname o) (ss_entryName o))]; at3_tree "at" (ss_position o)]
    ++ optn "mirror" (ss_mirror o) ++ optn "unit" (ss_unit o) ++ [yn_tree "in_bom" (ss_inBom o); yn_tree "on_board" (ss_onBoard o)]
    ++ optyn "dnp" (ss_dnp o) ++ auto_tree (ss_fieldsAutoplaced o) ++ (if truthy (ss_uuid o) then [node "uuid" [ss_uuid o]] else [])
    ++ map Property_tree (ss_properties o) ++ map (fun kv => node "pin" [fst kv; node "uuid" [snd kv]]) (ss_pins o)
    ++ (if Nat.eqb (length (ss_instances o)) 0 then [] else [node "instances" (map SymbolProjectInstance_tree (ss_instances o))])).
@ok SchematicSymbol fp_id_ok (ss_libraryNickname o) (ss_entryName o)

Definition HierarchicalPin_tree (o : HierarchicalPin) : val :=
  node "pin" ([hp_name o; hp_connectionType o; at3_tree "at" (hp_position o); Effects_tree (hp_effects o)] ++ optn "uuid" (hp_uuid o)).
@ok HierarchicalPin
Definition HierarchicalSheetProjectPath_tree (o : HierarchicalSheetProjectPath) : val :=
  node "path" [hpp_sheetInstancePath o; node "page" [hpp_page o]].
@ok HierarchicalSheetProjectPath
Definition HierarchicalSheetProjectInstance_tree (o : HierarchicalSheetProjectInstance) : val :=
  node "project" ([hpi_name o] ++ map HierarchicalSheetProjectPath_tree (hpi_paths o)).
@ok HierarchicalSheetProjectInstance

(** The colour of a sheet is always read with four decimal places. *)
Definition fill4_ok (c : ColorRGBA) : bool :=
  numb (ca_R c) && numb (ca_G c) && numb (ca_B c) && fixb 4 (ca_A c) && match ca_precision c with VInt p => Z.eqb p 4 | _ => false end.
(** the names under which the two mandatory properties are found *)
Definition name_key (v : val) : bool := (v =s "Sheet name") || (v =s "Sheetname").
Definition file_key (v : val) : bool := (v =s "Sheet file") || (v =s "Sheetfile").
Definition other_key (p : Property) : bool := negb (name_key (pr_key p) || file_key (pr_key p)).
Definition sheet_keys_ok (name file : Property) (l : list Property) : bool :=
  name_key (pr_key name) && file_key (pr_key file) && forallb other_key l.
Definition HierarchicalSheet_tree (o : HierarchicalSheet) : val :=
  node "sheet" ([xy_tree "at" (hs_position o); node "size" [hs_width o; hs_height o]] ++ auto_tree (hs_fieldsAutoplaced o)
    ++ [Stroke_tree (hs_stroke o); node "fill" [ColorRGBA_tree (hs_fill o)]] ++ optn "uuid" (hs_uuid o)
    ++ [Property_tree (hs_sheetName o); Property_tree (hs_fileName o)] ++ map Property_tree (hs_properties o) ++ map HierarchicalPin_tree (hs_pins o)
    ++ (if Nat.eqb (length (hs_instances o)) 0 then [] else [node "instances" (map HierarchicalSheetProjectInstance_tree (hs_instances o))])).
@ok HierarchicalSheet sheet_keys_ok (hs_sheetName o) (hs_fileName o) (hs_properties o)

Definition HierarchicalSheetInstance_tree (o : HierarchicalSheetInstance) : val := node "path" [hi_instancePath o; node "page" [hi_page o]].
@ok HierarchicalSheetInstance
Definition SymbolInstance_tree (o : SymbolInstance) : val :=
  node "path" [syi_path o; node "reference" [syi_reference o]; node "unit" [syi_unit o]; node "value" [syi_value o]; node "footprint" [syi_footprint o]].
@ok SymbolInstance

Definition Rectangle_tree (o : Rectangle) : val :=
  node "rectangle" ([xy_tree "start" (rct_start o); xy_tree "end" (rct_end o); Stroke_tree (rct_stroke o); Fill_tree (rct_fill o)] ++ optn "uuid" (rct_uuid o)).
@ok Rectangle
Definition SchArc_tree (o : SchArc) : val :=
  node "arc" ([xy_tree "start" (sar_start o); xy_tree "mid" (sar_mid o); xy_tree "end" (sar_end o); Stroke_tree (sar_stroke o); Fill_tree (sar_fill o)] ++ optn "uuid" (sar_uuid o)).
@ok SchArc
Definition Circle_tree (o : Circle) : val :=
  node "circle" ([xy_tree "center" (cir_center o); node "radius" [cir_radius o]; Stroke_tree (cir_stroke o); Fill_tree (cir_fill o)] ++ optn "uuid" (cir_uuid o)).
@ok Circle

(** an attribute that is an object, not the class *)
Definition some_ok {A} (f : A -> bool) (o : option A) : bool := match o with Some x => f x | None => false end.
Definition NetclassFlag_tree (o : NetclassFlag) : val :=
  node "netclass_flag" ([nf_text o; node "length" [nf_length o]; node "shape" [nf_shape o]] ++ opto (at3_tree "at") (nf_position o) ++ auto_tree (nf_fieldsAutoplaced o)
    ++ opto Effects_tree (nf_effects o) ++ optn "uuid" (nf_uuid o) ++ map Property_tree (nf_properties o)).
@ok NetclassFlag
