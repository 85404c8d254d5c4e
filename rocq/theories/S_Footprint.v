(** Specification of footprint.py. *)
From Verif Require Import PyBase PyNum PyStr PyRe Sexpr S_Leaf S_Tree S_Id M_Common S_Common M_Sym S_Sym M_Fp S_Fp M_Gr S_Gr M_Zone S_Zone M_Footprint.

Definition Attributes_tree (o : Attributes) : val :=
  node "attr" (optv (fx_type o) ++ optw "board_only" (fx_boardOnly o) ++ optw "exclude_from_pos_files" (fx_excludeFromPosFiles o)
    ++ optw "exclude_from_bom" (fx_excludeFromBom o) ++ optw "allow_missing_courtyard" (fx_allowMissingCourtyard o)).
(** nothing is set: then nothing is written *)
Definition Attributes_empty (o : Attributes) : bool :=
  is_none (fx_type o) && negb (fx_boardOnly o) && negb (fx_excludeFromPosFiles o) && negb (fx_excludeFromBom o) && negb (fx_allowMissingCourtyard o).
Definition Attributes_norm (o : Attributes) : Attributes :=
  mkAttributes (fx_type o) (fx_boardOnly o) (fx_excludeFromPosFiles o) (fx_excludeFromBom o) (fx_allowMissingCourtyard o).
(** dataclass == on Attributes *)
Definition Attributes_eqb (a b : Attributes) : bool :=
  py_eqb (fx_type a) (fx_type b)
  && Bool.eqb (fx_boardOnly a) (fx_boardOnly b)
  && Bool.eqb (fx_excludeFromPosFiles a) (fx_excludeFromPosFiles b)
  && Bool.eqb (fx_excludeFromBom a) (fx_excludeFromBom b)
  && Bool.eqb (fx_allowMissingCourtyard a) (fx_allowMissingCourtyard b).
Definition Attributes_ok (o : Attributes) : bool :=
  optb (enumb ["through_hole"%string; "smd"%string]) (fx_type o).

Definition Attributes_ok1 (o : Attributes) : bool := Attributes_ok o && negb (Attributes_empty o).

Definition Model_tree (o : Model) : val :=
  node "model" ([mo_path o] ++ optw "hide" (mo_hide o) ++ optn "opacity" (mo_opacity o)
    ++ [node "offset" [Coordinate_tree (mo_pos o)]; node "scale" [Coordinate_tree (mo_scale o)]; node "rotate" [Coordinate_tree (mo_rotate o)]]).
Definition Model_norm (o : Model) : Model :=
  mkModel (mo_path o) (Coordinate_norm (mo_pos o)) (Coordinate_norm (mo_scale o)) (Coordinate_norm (mo_rotate o)) (mo_hide o) (nrm (mo_opacity o)).
(** dataclass == on Model *)
Definition Model_eqb (a b : Model) : bool :=
  py_eqb (mo_path a) (mo_path b)
  && Coordinate_eqb (mo_pos a) (mo_pos b)
  && Coordinate_eqb (mo_scale a) (mo_scale b)
  && Coordinate_eqb (mo_rotate a) (mo_rotate b)
  && Bool.eqb (mo_hide a) (mo_hide b)
  && py_eqb (mo_opacity a) (mo_opacity b).
Definition Model_ok (o : Model) : bool :=
  txtb (mo_path o)
  && Coordinate_ok (mo_pos o)
  && Coordinate_ok (mo_scale o)
  && Coordinate_ok (mo_rotate o)
  && optb numb (mo_opacity o).


(** an oval drill has a width; a round one has neither width nor offset *)
Definition DrillDefinition_tree (o : DrillDefinition) : val :=
  node "drill" (optw "oval" (dd_oval o) ++ [dd_diameter o] ++ optv (dd_width o) ++ opto (xy_tree "offset") (dd_offset o)).
Definition DrillDefinition_norm (o : DrillDefinition) : DrillDefinition :=
  mkDrillDefinition (dd_oval o) (nrm (dd_diameter o)) (nrm (dd_width o)) (option_map Position_norm (dd_offset o)).
(** dataclass == on DrillDefinition *)
Definition DrillDefinition_eqb (a b : DrillDefinition) : bool :=
  Bool.eqb (dd_oval a) (dd_oval b)
  && py_eqb (dd_diameter a) (dd_diameter b)
  && py_eqb (dd_width a) (dd_width b)
  && oeqb Position_eqb (dd_offset a) (dd_offset b).
Definition DrillDefinition_ok (o : DrillDefinition) : bool :=
  numb (dd_diameter o)
  && optb numb (dd_width o)
  && optok pos2_ok (dd_offset o)
  && (if dd_oval o then negb (is_none (dd_width o)) else is_none (dd_width o) && no_object (dd_offset o)).


Definition PadOptions_tree (o : PadOptions) : val :=
  node "options" [node "clearance" [pq_clearance o]; node "anchor" [pq_anchor o]].
Definition PadOptions_norm (o : PadOptions) : PadOptions :=
  mkPadOptions (pq_clearance o) (pq_anchor o).
(** dataclass == on PadOptions *)
Definition PadOptions_eqb (a b : PadOptions) : bool :=
  py_eqb (pq_clearance a) (pq_clearance b)
  && py_eqb (pq_anchor a) (pq_anchor b).
Definition PadOptions_ok (o : PadOptions) : bool :=
  wordv (pq_clearance o)
  && wordv (pq_anchor o).


Definition PadPrimitive_tree (o : PadPrimitive) : val :=
  match o with
  | PadPrimitive_GrText x => GrText_tree x
  | PadPrimitive_GrTextBox x => GrTextBox_tree x
  | PadPrimitive_GrLine x => GrLine_tree x
  | PadPrimitive_GrRect x => GrRect_tree x
  | PadPrimitive_GrCircle x => GrCircle_tree x
  | PadPrimitive_GrArc x => GrArc_tree x
  | PadPrimitive_GrPoly x => GrPoly_tree x
  | PadPrimitive_GrCurve x => GrCurve_tree x
  end.
Definition PadPrimitive_norm (o : PadPrimitive) : PadPrimitive :=
  match o with
  | PadPrimitive_GrText x => PadPrimitive_GrText (GrText_norm x)
  | PadPrimitive_GrTextBox x => PadPrimitive_GrTextBox (GrTextBox_norm x)
  | PadPrimitive_GrLine x => PadPrimitive_GrLine (GrLine_norm x)
  | PadPrimitive_GrRect x => PadPrimitive_GrRect (GrRect_norm x)
  | PadPrimitive_GrCircle x => PadPrimitive_GrCircle (GrCircle_norm x)
  | PadPrimitive_GrArc x => PadPrimitive_GrArc (GrArc_norm x)
  | PadPrimitive_GrPoly x => PadPrimitive_GrPoly (GrPoly_norm x)
  | PadPrimitive_GrCurve x => PadPrimitive_GrCurve (GrCurve_norm x)
  end.
Definition PadPrimitive_ok (o : PadPrimitive) : bool :=
  match o with
  | PadPrimitive_GrText x => GrText_ok x
  | PadPrimitive_GrTextBox x => GrTextBox_ok x
  | PadPrimitive_GrLine x => GrLine_ok x
  | PadPrimitive_GrRect x => GrRect_ok x
  | PadPrimitive_GrCircle x => GrCircle_ok x
  | PadPrimitive_GrArc x => GrArc_ok x
  | PadPrimitive_GrPoly x => GrPoly_ok x
  | PadPrimitive_GrCurve x => GrCurve_ok x
  end.
Definition PadPrimitive_eqb (a b : PadPrimitive) : bool :=
  match a, b with
  | PadPrimitive_GrText x, PadPrimitive_GrText y => GrText_eqb x y
  | PadPrimitive_GrTextBox x, PadPrimitive_GrTextBox y => GrTextBox_eqb x y
  | PadPrimitive_GrLine x, PadPrimitive_GrLine y => GrLine_eqb x y
  | PadPrimitive_GrRect x, PadPrimitive_GrRect y => GrRect_eqb x y
  | PadPrimitive_GrCircle x, PadPrimitive_GrCircle y => GrCircle_eqb x y
  | PadPrimitive_GrArc x, PadPrimitive_GrArc y => GrArc_eqb x y
  | PadPrimitive_GrPoly x, PadPrimitive_GrPoly y => GrPoly_eqb x y
  | PadPrimitive_GrCurve x, PadPrimitive_GrCurve y => GrCurve_eqb x y
  | _, _ => false
  end.

(** a layer with a wild card is written without quotes *)
Fixpoint star_dot (s : str) : bool :=
  match s with a :: r => N.eqb a 42 && match r with b :: _ => N.eqb b 46 | [] => false end || star_dot r | [] => false end.
Definition wild_layer (s : str) : bool := existsb (N.eqb 38) s || star_dot s.
Definition pad_layer_ok (v : val) : bool := match v with VStr s => if wild_layer s then wordv v else txtb v | _ => false end.
Definition Pad_tree (o : Pad) : val :=
  node "pad" ([pd_number o; pd_type o; pd_shape o] ++ optw "locked" (pd_locked o)
    ++ [at3_tree "at" (pd_position o); xy_tree "size" (pd_size o)] ++ opto DrillDefinition_tree (pd_drill o) ++ optn "property" (pd_property o)
    ++ [node "layers" (pd_layers o)] ++ optl "remove_unused_layers" (pd_removeUnusedLayers o) ++ optl "keep_end_layers" (pd_keepEndLayers o)
    ++ optn "roundrect_rratio" (pd_roundrectRatio o) ++ optn "chamfer_ratio" (pd_chamferRatio o)
    ++ (if Nat.eqb (length (pd_chamfer o)) 0 then [] else [node "chamfer" (pd_chamfer o)])
    ++ optn "die_length" (pd_dieLength o) ++ opto Net_tree (pd_net o) ++ optn "pinfunction" (pd_pinFunction o) ++ optn "pintype" (pd_pinType o)
    ++ optn "solder_mask_margin" (pd_solderMaskMargin o)
    ++ optn "solder_paste_margin" (pd_solderPasteMargin o)
    ++ optn "solder_paste_margin_ratio" (pd_solderPasteMarginRatio o)
    ++ optn "clearance" (pd_clearance o)
    ++ optn "zone_connect" (pd_zoneConnect o)
    ++ optn "thermal_width" (pd_thermalWidth o)
    ++ optn "thermal_gap" (pd_thermalGap o)
    ++ opto PadOptions_tree (pd_customPadOptions o)
    ++ (if Nat.eqb (length (pd_customPadPrimitives o)) 0 then [] else [node "primitives" (map PadPrimitive_tree (pd_customPadPrimitives o))])
    ++ optn "tstamp" (pd_tstamp o)).
(** a shape called "locked" would be taken for the flag *)
Definition Pad_norm (o : Pad) : Pad :=
  mkPad (pd_number o) (pd_type o) (pd_shape o) (Position_norm (pd_position o)) (pd_locked o) (Position_norm (pd_size o)) (option_map DrillDefinition_norm (pd_drill o)) (pd_layers o) (pd_property o) (pd_removeUnusedLayers o) (pd_keepEndLayers o) (nrm (pd_roundrectRatio o)) (nrm (pd_chamferRatio o)) (pd_chamfer o) (option_map Net_norm (pd_net o)) (pd_tstamp o) (pd_pinFunction o) (pd_pinType o) (nrm (pd_dieLength o)) (nrm (pd_solderMaskMargin o)) (nrm (pd_solderPasteMargin o)) (nrm (pd_solderPasteMarginRatio o)) (nrm (pd_clearance o)) (nrm (pd_zoneConnect o)) (nrm (pd_thermalWidth o)) (nrm (pd_thermalGap o)) (option_map PadOptions_norm (pd_customPadOptions o)) (map PadPrimitive_norm (pd_customPadPrimitives o)).
(** dataclass == on Pad *)
Definition Pad_eqb (a b : Pad) : bool :=
  py_eqb (pd_number a) (pd_number b)
  && py_eqb (pd_type a) (pd_type b)
  && py_eqb (pd_shape a) (pd_shape b)
  && Position_eqb (pd_position a) (pd_position b)
  && Bool.eqb (pd_locked a) (pd_locked b)
  && Position_eqb (pd_size a) (pd_size b)
  && oeqb DrillDefinition_eqb (pd_drill a) (pd_drill b)
  && leqb py_eqb (pd_layers a) (pd_layers b)
  && py_eqb (pd_property a) (pd_property b)
  && Bool.eqb (pd_removeUnusedLayers a) (pd_removeUnusedLayers b)
  && Bool.eqb (pd_keepEndLayers a) (pd_keepEndLayers b)
  && py_eqb (pd_roundrectRatio a) (pd_roundrectRatio b)
  && py_eqb (pd_chamferRatio a) (pd_chamferRatio b)
  && leqb py_eqb (pd_chamfer a) (pd_chamfer b)
  && oeqb Net_eqb (pd_net a) (pd_net b)
  && py_eqb (pd_tstamp a) (pd_tstamp b)
  && py_eqb (pd_pinFunction a) (pd_pinFunction b)
  && py_eqb (pd_pinType a) (pd_pinType b)
  && py_eqb (pd_dieLength a) (pd_dieLength b)
  && py_eqb (pd_solderMaskMargin a) (pd_solderMaskMargin b)
  && py_eqb (pd_solderPasteMargin a) (pd_solderPasteMargin b)
  && py_eqb (pd_solderPasteMarginRatio a) (pd_solderPasteMarginRatio b)
  && py_eqb (pd_clearance a) (pd_clearance b)
  && py_eqb (pd_zoneConnect a) (pd_zoneConnect b)
  && py_eqb (pd_thermalWidth a) (pd_thermalWidth b)
  && py_eqb (pd_thermalGap a) (pd_thermalGap b)
  && oeqb PadOptions_eqb (pd_customPadOptions a) (pd_customPadOptions b)
  && leqb PadPrimitive_eqb (pd_customPadPrimitives a) (pd_customPadPrimitives b).
Definition Pad_ok (o : Pad) : bool :=
  txtb (pd_number o)
  && wordv (pd_type o)
  && wordv (pd_shape o)
  && pos3_ok (pd_position o)
  && pos2_ok (pd_size o)
  && optok DrillDefinition_ok (pd_drill o)
  && forallb pad_layer_ok (pd_layers o)
  && optb wordv (pd_property o)
  && optb numb (pd_roundrectRatio o)
  && optb numb (pd_chamferRatio o)
  && forallb wordv (pd_chamfer o)
  && optok Net_ok (pd_net o)
  && optb wordv (pd_tstamp o)
  && optb txtb (pd_pinFunction o)
  && optb txtb (pd_pinType o)
  && optb numb (pd_dieLength o)
  && optb numb (pd_solderMaskMargin o)
  && optb numb (pd_solderPasteMargin o)
  && optb numb (pd_solderPasteMarginRatio o)
  && optb numb (pd_clearance o)
  && optb numb (pd_zoneConnect o)
  && optb numb (pd_thermalWidth o)
  && optb numb (pd_thermalGap o)
  && optok PadOptions_ok (pd_customPadOptions o)
  && forallb PadPrimitive_ok (pd_customPadPrimitives o)
  && (negb (pd_shape o =s "locked")).


Definition FpItem_tree (o : FpItem) : val :=
  match o with
  | FpItem_FpText x => FpText_tree x
  | FpItem_FpTextBox x => FpTextBox_tree x
  | FpItem_FpLine x => FpLine_tree x
  | FpItem_FpRect x => FpRect_tree x
  | FpItem_FpCircle x => FpCircle_tree x
  | FpItem_FpArc x => FpArc_tree x
  | FpItem_FpPoly x => FpPoly_tree x
  | FpItem_FpCurve x => FpCurve_tree x
  | FpItem_Image x => Image_tree x
  end.
Definition FpItem_norm (o : FpItem) : FpItem :=
  match o with
  | FpItem_FpText x => FpItem_FpText (FpText_norm x)
  | FpItem_FpTextBox x => FpItem_FpTextBox (FpTextBox_norm x)
  | FpItem_FpLine x => FpItem_FpLine (FpLine_norm x)
  | FpItem_FpRect x => FpItem_FpRect (FpRect_norm x)
  | FpItem_FpCircle x => FpItem_FpCircle (FpCircle_norm x)
  | FpItem_FpArc x => FpItem_FpArc (FpArc_norm x)
  | FpItem_FpPoly x => FpItem_FpPoly (FpPoly_norm x)
  | FpItem_FpCurve x => FpItem_FpCurve (FpCurve_norm x)
  | FpItem_Image x => FpItem_Image (Image_norm x)
  end.
Definition FpItem_ok (o : FpItem) : bool :=
  match o with
  | FpItem_FpText x => FpText_ok x
  | FpItem_FpTextBox x => FpTextBox_ok x
  | FpItem_FpLine x => FpLine_ok x
  | FpItem_FpRect x => FpRect_ok x
  | FpItem_FpCircle x => FpCircle_ok x
  | FpItem_FpArc x => FpArc_ok x
  | FpItem_FpPoly x => FpPoly_ok x
  | FpItem_FpCurve x => FpCurve_ok x
  | FpItem_Image x => Image_ok x
  end.
Definition FpItem_eqb (a b : FpItem) : bool :=
  match a, b with
  | FpItem_FpText x, FpItem_FpText y => FpText_eqb x y
  | FpItem_FpTextBox x, FpItem_FpTextBox y => FpTextBox_eqb x y
  | FpItem_FpLine x, FpItem_FpLine y => FpLine_eqb x y
  | FpItem_FpRect x, FpItem_FpRect y => FpRect_eqb x y
  | FpItem_FpCircle x, FpItem_FpCircle y => FpCircle_eqb x y
  | FpItem_FpArc x, FpItem_FpArc y => FpArc_eqb x y
  | FpItem_FpPoly x, FpItem_FpPoly y => FpPoly_eqb x y
  | FpItem_FpCurve x, FpItem_FpCurve y => FpCurve_eqb x y
  | FpItem_Image x, FpItem_Image y => Image_eqb x y
  | _, _ => false
  end.

(** the identifier [nickname:entry] or [entry] *)
Definition fp_id (nick entry : val) : str :=
  match nick, entry with
  | VStr n, VStr e => n ++ $":" ++ e
  | _, VStr e => e
  | _, _ => []
  end.
Definition fp_id_ok (nick entry : val) : bool :=
  match nick, entry with
  | VStr n, VStr e => nonempty n && oneline n && negb (existsb (N.eqb 58) (tl n)) && nonempty e && oneline e && quotableb e
  | VNone, VStr e => oneline e && negb (inner_colon e) && quotableb e
  | _, _ => false
  end.
(** a dictionary from texts to texts *)
Definition text_dict_ok (d : list (val * val)) : bool := forallb (fun kv => txtb (fst kv) && txtb (snd kv)) d && dict_keys_ok d.
Definition Footprint_tree (o : Footprint) : val :=
  node "footprint" ([VStr (fp_id (fd_libraryNickname o) (fd_entryName o))] ++ optw "locked" (fd_locked o) ++ optw "placed" (fd_placed o)
    ++ optn "version" (fd_version o) ++ optn "generator" (fd_generator o) ++ [node "layer" [fd_layer o]; node "tedit" [fd_tedit o]]
    ++ optn "tstamp" (fd_tstamp o) ++ opto (at3_tree "at") (fd_position o) ++ optn "descr" (fd_description o) ++ optn "tags" (fd_tags o)
    ++ map (fun kv => node "property" [fst kv; snd kv]) (fd_properties o) ++ optn "path" (fd_path o)
    ++ optn "autoplace_cost90" (fd_autoplaceCost90 o)
    ++ optn "autoplace_cost180" (fd_autoplaceCost180 o)
    ++ optn "solder_mask_margin" (fd_solderMaskMargin o)
    ++ optn "solder_paste_margin" (fd_solderPasteMargin o)
    ++ optn "solder_paste_ratio" (fd_solderPasteRatio o)
    ++ optn "clearance" (fd_clearance o)
    ++ optn "zone_connect" (fd_zoneConnect o)
    ++ optn "thermal_width" (fd_thermalWidth o)
    ++ optn "thermal_gap" (fd_thermalGap o)
    ++ (if Attributes_empty (fd_attributes o) then [] else [Attributes_tree (fd_attributes o)])
    ++ (if Nat.eqb (length (fd_privateLayers o)) 0 then [] else [node "private_layers" (fd_privateLayers o)])
    ++ (if Nat.eqb (length (fd_netTiePadGroups o)) 0 then [] else [node "net_tie_pad_groups" (fd_netTiePadGroups o)])
    ++ map FpItem_tree (fd_graphicItems o) ++ map Pad_tree (fd_pads o) ++ map Zone_tree (fd_zones o) ++ map Model_tree (fd_models o)
    ++ map Group_tree (fd_groups o)).
Definition Footprint_norm (o : Footprint) : Footprint :=
  mkFootprint (fd_libraryNickname o) (fd_entryName o) (nrm (fd_version o)) (nrm (fd_generator o)) (fd_locked o) (fd_placed o) (fd_layer o) (nrm (fd_tedit o)) (fd_tstamp o) (option_map Position_norm (fd_position o)) (fd_description o) (fd_tags o) (fd_properties o) (fd_path o) (nrm (fd_autoplaceCost90 o)) (nrm (fd_autoplaceCost180 o)) (nrm (fd_solderMaskMargin o)) (nrm (fd_solderPasteMargin o)) (nrm (fd_solderPasteRatio o)) (nrm (fd_clearance o)) (nrm (fd_zoneConnect o)) (nrm (fd_thermalWidth o)) (nrm (fd_thermalGap o)) (Attributes_norm (fd_attributes o)) (fd_privateLayers o) (fd_netTiePadGroups o) (map FpItem_norm (fd_graphicItems o)) (map Pad_norm (fd_pads o)) (map Zone_norm (fd_zones o)) (map Group_norm (fd_groups o)) (map Model_norm (fd_models o)) (fd_filePath o).
(** dataclass == on Footprint *)
Definition Footprint_eqb (a b : Footprint) : bool :=
  py_eqb (fd_libraryNickname a) (fd_libraryNickname b)
  && py_eqb (fd_entryName a) (fd_entryName b)
  && py_eqb (fd_version a) (fd_version b)
  && py_eqb (fd_generator a) (fd_generator b)
  && Bool.eqb (fd_locked a) (fd_locked b)
  && Bool.eqb (fd_placed a) (fd_placed b)
  && py_eqb (fd_layer a) (fd_layer b)
  && py_eqb (fd_tedit a) (fd_tedit b)
  && py_eqb (fd_tstamp a) (fd_tstamp b)
  && oeqb Position_eqb (fd_position a) (fd_position b)
  && py_eqb (fd_description a) (fd_description b)
  && py_eqb (fd_tags a) (fd_tags b)
  && leqb kveqb (fd_properties a) (fd_properties b)
  && py_eqb (fd_path a) (fd_path b)
  && py_eqb (fd_autoplaceCost90 a) (fd_autoplaceCost90 b)
  && py_eqb (fd_autoplaceCost180 a) (fd_autoplaceCost180 b)
  && py_eqb (fd_solderMaskMargin a) (fd_solderMaskMargin b)
  && py_eqb (fd_solderPasteMargin a) (fd_solderPasteMargin b)
  && py_eqb (fd_solderPasteRatio a) (fd_solderPasteRatio b)
  && py_eqb (fd_clearance a) (fd_clearance b)
  && py_eqb (fd_zoneConnect a) (fd_zoneConnect b)
  && py_eqb (fd_thermalWidth a) (fd_thermalWidth b)
  && py_eqb (fd_thermalGap a) (fd_thermalGap b)
  && Attributes_eqb (fd_attributes a) (fd_attributes b)
  && leqb py_eqb (fd_privateLayers a) (fd_privateLayers b)
  && leqb py_eqb (fd_netTiePadGroups a) (fd_netTiePadGroups b)
  && leqb FpItem_eqb (fd_graphicItems a) (fd_graphicItems b)
  && leqb Pad_eqb (fd_pads a) (fd_pads b)
  && leqb Zone_eqb (fd_zones a) (fd_zones b)
  && leqb Group_eqb (fd_groups a) (fd_groups b)
  && leqb Model_eqb (fd_models a) (fd_models b)
  && py_eqb (fd_filePath a) (fd_filePath b).
Definition Footprint_ok (o : Footprint) : bool :=
  optb atomb (fd_version o)
  && optb atomb (fd_generator o)
  && txtb (fd_layer o)
  && atomb (fd_tedit o)
  && optb wordv (fd_tstamp o)
  && optok pos3_ok (fd_position o)
  && optb txtb (fd_description o)
  && optb txtb (fd_tags o)
  && text_dict_ok (fd_properties o)
  && optb txtb (fd_path o)
  && optb numb (fd_autoplaceCost90 o)
  && optb numb (fd_autoplaceCost180 o)
  && optb numb (fd_solderMaskMargin o)
  && optb numb (fd_solderPasteMargin o)
  && optb numb (fd_solderPasteRatio o)
  && optb numb (fd_clearance o)
  && optb numb (fd_zoneConnect o)
  && optb numb (fd_thermalWidth o)
  && optb numb (fd_thermalGap o)
  && Attributes_ok (fd_attributes o)
  && forallb txtb (fd_privateLayers o)
  && forallb txtb (fd_netTiePadGroups o)
  && forallb FpItem_ok (fd_graphicItems o)
  && forallb Pad_ok (fd_pads o)
  && forallb Zone_ok (fd_zones o)
  && forallb Group_ok (fd_groups o)
  && forallb Model_ok (fd_models o)
  && is_none (fd_filePath o)
  && (fp_id_ok (fd_libraryNickname o) (fd_entryName o)).

