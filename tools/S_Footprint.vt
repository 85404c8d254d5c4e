(** Specification of footprint.py. *)
From Verif Require Import PyBase PyNum PyStr PyRe Sexpr S_Leaf S_Tree S_Id M_Common S_Common M_Sym S_Sym M_Fp S_Fp M_Gr S_Gr M_Zone S_Zone M_Footprint.

Definition Attributes_tree (o : Attributes) : val :=
  node "attr" (optv (fx_type o) ++ optw "board_only" (fx_boardOnly o) ++ optw "exclude_from_pos_files" (fx_excludeFromPosFiles o)
    ++ optw "exclude_from_bom" (fx_excludeFromBom o) ++ optw "allow_missing_courtyard" (fx_allowMissingCourtyard o)).
(** nothing is set: then nothing is written *)
Definition Attributes_empty (o : Attributes) : bool :=
  is_none (fx_type o) && negb (fx_boardOnly o) && negb (fx_excludeFromPosFiles o) && negb (fx_excludeFromBom o) && negb (fx_allowMissingCourtyard o).
@ok Attributes
Definition Attributes_ok1 (o : Attributes) : bool := Attributes_ok o && negb (Attributes_empty o).

Definition Model_tree (o : Model) : val :=
  node "model" ([mo_path o] ++ optw "hide" (mo_hide o) ++ optn "opacity" (mo_opacity o)
    ++ [node "offset" [Coordinate_tree (mo_pos o)]; node "scale" [Coordinate_tree (mo_scale o)]; node "rotate" [Coordinate_tree (mo_rotate o)]]).
@ok Model

(** an oval drill has a width; a round one has neither width nor offset *)
Definition DrillDefinition_tree (o : DrillDefinition) : val :=
  node "drill" (optw "oval" (dd_oval o) ++ [dd_diameter o] ++ optv (dd_width o) ++ opto (xy_tree "offset") (dd_offset o)).
@ok DrillDefinition if dd_oval o then negb (is_none (dd_width o)) else is_none (dd_width o) && no_object (dd_offset o)

Definition PadOptions_tree (o : PadOptions) : val :=
  node "options" [node "clearance" [pq_clearance o]; node "anchor" [pq_anchor o]].
@ok PadOptions

@uspec PadPrimitive
(** a layer with a wild card is written without quotes *)
Fixpoint star_dot (s : str) : bool :=
  match s with a :: r => N.eqb a 42 && match r with b :: _ => N.eqb b 46 | [] => false end || star_dot r | [] => false end.
Definition wild_layer (s : str) : bool := existsb (N.eqb 38) s || star_dot s.
Definition pad_layer_ok (v : val) : bool := match v with VStr s => if wild_layer s then wordv v else txtb v | _ => false end.
Definition Pad_tree (o : Pad) : val :=
  node "pad" ([pd_number o; pd_type o; pd_shape o] ++ optw "locked" (pd_locked o)
    ++ [at3_tree "at" (pd_position o); xy_tree "size" (pd_size o)] ++ opto DrillDefinition_tree (pd_drill o) ++ optn "property" (pd_property o)
    ++ [node "layers" (pd_layers o)] ++ optl "remove_unused_layers" (pd_removeUnusedLayers o) ++ optl "keep_end_layers" (pd_keepEndLayers o)
    ++ optn "roundrect_rratio" (pd_roundrectRatio o) ++ optn "chamfer_ratio" (pd_chamferRatio o)
    ++ (if Nat.eqb (length (pd_chamfer o)) 0 then [] else [node "chamfer" (pd_chamfer o)])
    ++ optn "die_length" (pd_dieLength o) ++ opto Net_tree (pd_net o) ++ optn "pinfunction" (pd_pinFunction o) ++ optn "pintype" (pd_pinType o)
    ++ optn "solder_mask_margin" (pd_solderMaskMargin o)
    ++ optn "solder_paste_margin" (pd_solderPasteMargin o)
    ++ optn "solder_paste_margin_ratio" (pd_solderPasteMarginRatio o)
    ++ optn "clearance" (pd_clearance o)
    ++ optn "zone_connect" (pd_zoneConnect o)
    ++ optn "thermal_width" (pd_thermalWidth o)
    ++ optn "thermal_gap" (pd_thermalGap o)
    ++ opto PadOptions_tree (pd_customPadOptions o)
    ++ (if Nat.eqb (length (pd_customPadPrimitives o)) 0 then [] else [node "primitives" (map PadPrimitive_tree (pd_customPadPrimitives o))])
    ++ optn "tstamp" (pd_tstamp o)).
(** a shape called "locked" would be taken for the flag *)
@ok Pad negb (pd_shape o =s "locked")

@uspec FpItem
(** the identifier [nickname:entry] or [entry] *)
Definition fp_id (nick entry : val) : str :=
  match nick, entry with
  | VStr n, VStr e => n ++ $":" ++ e
  | _, VStr e => e
  | _, _ => []
  end.
Definition fp_id_ok (nick entry : val) : bool :=
  match nick, entry with
  | VStr n, VStr e => nonempty n && oneline n && negb (existsb (N.eqb 58) (tl n)) && nonempty e && oneline e && quotableb e
  | VNone, VStr e => oneline e && negb (inner_colon e) && quotableb e
  | _, _ => false
  end.
(** a dictionary from texts to texts *)
Definition text_dict_ok (d : list (val * val)) : bool := forallb (fun kv => txtb (fst kv) && txtb (snd kv)) d && dict_keys_ok d.
Definition Footprint_tree (o : Footprint) : val :=
  node "footprint" ([VStr (fp_id (fd_libraryNickname o) (fd_entryName o))] ++ optw "locked" (fd_locked o) ++ optw "placed" (fd_placed o)
    ++ optn "version" (fd_version o) ++ optn "generator" (fd_generator o) ++ [node "layer" [fd_layer o]; node "tedit" [fd_tedit o]]
    ++ optn "tstamp" (fd_tstamp o) ++ opto (at3_tree "at") (fd_position o) ++ optn "descr" (fd_description o) ++ optn "tags" (fd_tags o)
    ++ map (fun kv => node "property" [fst kv; snd kv]) (fd_properties o) ++ optn "path" (fd_path o)
    ++ optn "autoplace_cost90" (fd_autoplaceCost90 o)
    ++ optn "autoplace_cost180" (fd_autoplaceCost180 o)
    ++ optn "solder_mask_margin" (fd_solderMaskMargin o)
    ++ optn "solder_paste_margin" (fd_solderPasteMargin o)
    ++ optn "solder_paste_ratio" (fd_solderPasteRatio o)
    ++ optn "clearance" (fd_clearance o)
    ++ optn "zone_connect" (fd_zoneConnect o)
    ++ optn "thermal_width" (fd_thermalWidth o)
    ++ optn "thermal_gap" (fd_thermalGap o)
    ++ (if Attributes_empty (fd_attributes o) then [] else [Attributes_tree (fd_attributes o)])
    ++ (if Nat.eqb (length (fd_privateLayers o)) 0 then [] else [node "private_layers" (fd_privateLayers o)])
    ++ (if Nat.eqb (length (fd_netTiePadGroups o)) 0 then [] else [node "net_tie_pad_groups" (fd_netTiePadGroups o)])
    ++ map FpItem_tree (fd_graphicItems o) ++ map Pad_tree (fd_pads o) ++ map Zone_tree (fd_zones o) ++ map Model_tree (fd_models o)
    ++ map Group_tree (fd_groups o)).
@ok Footprint fp_id_ok (fd_libraryNickname o) (fd_entryName o)
