(** Specification of items/zones.py. *)
From Verif Require Import PyBase PyNum PyStr Sexpr S_Leaf S_Tree M_Common S_Common M_Zone.

Definition KeepoutSettings_tree (o : KeepoutSettings) : val :=
  node "keepout" [node "tracks" [ks_tracks o]; node "vias" [ks_vias o]; node "pads" [ks_pads o];
    node "copperpour" [ks_copperpour o]; node "footprints" [ks_footprints o]].
Definition KeepoutSettings_norm (o : KeepoutSettings) : KeepoutSettings :=
  mkKeepoutSettings (ks_tracks o) (ks_vias o) (ks_pads o) (ks_copperpour o) (ks_footprints o).
(** dataclass == on KeepoutSettings *)
Definition KeepoutSettings_eqb (a b : KeepoutSettings) : bool :=
  py_eqb (ks_tracks a) (ks_tracks b)
  && py_eqb (ks_vias a) (ks_vias b)
  && py_eqb (ks_pads a) (ks_pads b)
  && py_eqb (ks_copperpour a) (ks_copperpour b)
  && py_eqb (ks_footprints a) (ks_footprints b).
Definition KeepoutSettings_ok (o : KeepoutSettings) : bool :=
  wordv (ks_tracks o)
  && wordv (ks_vias o)
  && wordv (ks_pads o)
  && wordv (ks_copperpour o)
  && wordv (ks_footprints o).


Definition FillSettings_tree (o : FillSettings) : val :=
  node "fill" (optw "yes" (fs_yes o) ++ optn "mode" (fs_mode o)
    ++ [node "thermal_gap" [fs_thermalGap o]; node "thermal_bridge_width" [fs_thermalBridgeWidth o]]
    ++ optn "smoothing" (fs_smoothingStyle o) ++ optn "radius" (fs_smoothingRadius o) ++ optn "island_removal_mode" (fs_islandRemovalMode o) ++ optn "island_area_min" (fs_islandAreaMin o) ++ optn "hatch_thickness" (fs_hatchThickness o) ++ optn "hatch_gap" (fs_hatchGap o) ++ optn "hatch_orientation" (fs_hatchOrientation o) ++ optn "hatch_smoothing_level" (fs_hatchSmoothingLevel o) ++ optn "hatch_smoothing_value" (fs_hatchSmoothingValue o) ++ optn "hatch_border_algorithm" (fs_hatchBorderAlgorithm o) ++ optn "hatch_min_hole_area" (fs_hatchMinHoleArea o)).
Definition FillSettings_norm (o : FillSettings) : FillSettings :=
  mkFillSettings (fs_yes o) (fs_mode o) (nrm (fs_thermalGap o)) (nrm (fs_thermalBridgeWidth o)) (fs_smoothingStyle o) (nrm (fs_smoothingRadius o)) (nrm (fs_islandRemovalMode o)) (nrm (fs_islandAreaMin o)) (nrm (fs_hatchThickness o)) (nrm (fs_hatchGap o)) (nrm (fs_hatchOrientation o)) (nrm (fs_hatchSmoothingLevel o)) (nrm (fs_hatchSmoothingValue o)) (nrm (fs_hatchBorderAlgorithm o)) (nrm (fs_hatchMinHoleArea o)).
(** dataclass == on FillSettings *)
Definition FillSettings_eqb (a b : FillSettings) : bool :=
  Bool.eqb (fs_yes a) (fs_yes b)
  && py_eqb (fs_mode a) (fs_mode b)
  && py_eqb (fs_thermalGap a) (fs_thermalGap b)
  && py_eqb (fs_thermalBridgeWidth a) (fs_thermalBridgeWidth b)
  && py_eqb (fs_smoothingStyle a) (fs_smoothingStyle b)
  && py_eqb (fs_smoothingRadius a) (fs_smoothingRadius b)
  && py_eqb (fs_islandRemovalMode a) (fs_islandRemovalMode b)
  && py_eqb (fs_islandAreaMin a) (fs_islandAreaMin b)
  && py_eqb (fs_hatchThickness a) (fs_hatchThickness b)
  && py_eqb (fs_hatchGap a) (fs_hatchGap b)
  && py_eqb (fs_hatchOrientation a) (fs_hatchOrientation b)
  && py_eqb (fs_hatchSmoothingLevel a) (fs_hatchSmoothingLevel b)
  && py_eqb (fs_hatchSmoothingValue a) (fs_hatchSmoothingValue b)
  && py_eqb (fs_hatchBorderAlgorithm a) (fs_hatchBorderAlgorithm b)
  && py_eqb (fs_hatchMinHoleArea a) (fs_hatchMinHoleArea b).
Definition FillSettings_ok (o : FillSettings) : bool :=
  optb wordv (fs_mode o)
  && numb (fs_thermalGap o)
  && numb (fs_thermalBridgeWidth o)
  && optb wordv (fs_smoothingStyle o)
  && optb numb (fs_smoothingRadius o)
  && optb numb (fs_islandRemovalMode o)
  && optb numb (fs_islandAreaMin o)
  && optb numb (fs_hatchThickness o)
  && optb numb (fs_hatchGap o)
  && optb numb (fs_hatchOrientation o)
  && optb numb (fs_hatchSmoothingLevel o)
  && optb numb (fs_hatchSmoothingValue o)
  && optb numb (fs_hatchBorderAlgorithm o)
  && optb numb (fs_hatchMinHoleArea o).


(** a polygon needs a point: without any it is not written at all *)
Definition ZonePolygon_tree (o : ZonePolygon) : val :=
  node "polygon" [node "pts" (map (xy_tree "xy") (zp_coordinates o))].
Definition ZonePolygon_norm (o : ZonePolygon) : ZonePolygon :=
  mkZonePolygon (map Position_norm (zp_coordinates o)).
(** dataclass == on ZonePolygon *)
Definition ZonePolygon_eqb (a b : ZonePolygon) : bool :=
  leqb Position_eqb (zp_coordinates a) (zp_coordinates b).
Definition ZonePolygon_ok (o : ZonePolygon) : bool :=
  forallb pos2_ok (zp_coordinates o)
  && (negb (Nat.eqb (length (zp_coordinates o)) 0)).


Definition FilledPolygon_tree (o : FilledPolygon) : val :=
  node "filled_polygon" ([node "layer" [zf_layer o]] ++ optl "island" (zf_island o) ++ [node "pts" (map (xy_tree "xy") (zf_coordinates o))]).
Definition FilledPolygon_norm (o : FilledPolygon) : FilledPolygon :=
  mkFilledPolygon (zf_layer o) (zf_island o) (map Position_norm (zf_coordinates o)).
(** dataclass == on FilledPolygon *)
Definition FilledPolygon_eqb (a b : FilledPolygon) : bool :=
  py_eqb (zf_layer a) (zf_layer b)
  && Bool.eqb (zf_island a) (zf_island b)
  && leqb Position_eqb (zf_coordinates a) (zf_coordinates b).
Definition FilledPolygon_ok (o : FilledPolygon) : bool :=
  txtb (zf_layer o)
  && forallb pos2_ok (zf_coordinates o)
  && (negb (Nat.eqb (length (zf_coordinates o)) 0)).


Definition FillSegments_tree (o : FillSegments) : val :=
  node "fill_segments" [node "layer" [zs_layer o]; node "pts" (map (xy_tree "xy") (zs_coordinates o))].
Definition FillSegments_norm (o : FillSegments) : FillSegments :=
  mkFillSegments (zs_layer o) (map Position_norm (zs_coordinates o)).
(** dataclass == on FillSegments *)
Definition FillSegments_eqb (a b : FillSegments) : bool :=
  py_eqb (zs_layer a) (zs_layer b)
  && leqb Position_eqb (zs_coordinates a) (zs_coordinates b).
Definition FillSegments_ok (o : FillSegments) : bool :=
  txtb (zs_layer o)
  && forallb pos2_ok (zs_coordinates o)
  && (negb (Nat.eqb (length (zs_coordinates o)) 0)).


Definition Hatch_tree (o : Hatch) : val := node "hatch" [ht_style o; ht_pitch o].
Definition Hatch_norm (o : Hatch) : Hatch :=
  mkHatch (ht_style o) (nrm (ht_pitch o)).
(** dataclass == on Hatch *)
Definition Hatch_eqb (a b : Hatch) : bool :=
  py_eqb (ht_style a) (ht_style b)
  && py_eqb (ht_pitch a) (ht_pitch b).
Definition Hatch_ok (o : Hatch) : bool :=
  wordv (ht_style o)
  && numb (ht_pitch o).


(** one ordinary layer is given as [layer], several or a wild card as [layers] *)
Definition one_layer (l : list val) : bool :=
  match l with [x] => negb (enumb ["F&B.Cu"%string; "*.Cu"%string] x) | _ => false end.
Definition Zone_tree (o : Zone) : val :=
  node "zone" (optw "locked" (zo_locked o) ++ [node "net" [zo_net o]; node "net_name" [zo_netName o]]
    ++ (if one_layer (zo_layers o) then [node "layer" (zo_layers o)] else [node "layers" (zo_layers o)])
    ++ optn "tstamp" (zo_tstamp o) ++ optn "name" (zo_name o)
    ++ [Hatch_tree (zo_hatch o)] ++ optn "priority" (zo_priority o)
    ++ [node "connect_pads" (optv (zo_connectPads o) ++ [node "clearance" [zo_clearance o]]); node "min_thickness" [zo_minThickness o]]
    ++ optn "filled_areas_thickness" (zo_filledAreasThickness o)
    ++ opto KeepoutSettings_tree (zo_keepoutSettings o) ++ opto FillSettings_tree (zo_fillSettings o)
    ++ map ZonePolygon_tree (zo_polygons o) ++ map FilledPolygon_tree (zo_filledPolygons o)
    ++ opto FillSegments_tree (zo_fillSegments o)).
(** a zone lies on at least one layer *)
Definition Zone_norm (o : Zone) : Zone :=
  mkZone (zo_locked o) (nrm (zo_net o)) (zo_netName o) (zo_layers o) (zo_tstamp o) (zo_name o) (Hatch_norm (zo_hatch o)) (nrm (zo_priority o)) (zo_connectPads o) (nrm (zo_clearance o)) (nrm (zo_minThickness o)) (zo_filledAreasThickness o) (option_map KeepoutSettings_norm (zo_keepoutSettings o)) (option_map FillSettings_norm (zo_fillSettings o)) (map ZonePolygon_norm (zo_polygons o)) (map FilledPolygon_norm (zo_filledPolygons o)) (option_map FillSegments_norm (zo_fillSegments o)).
(** dataclass == on Zone *)
Definition Zone_eqb (a b : Zone) : bool :=
  Bool.eqb (zo_locked a) (zo_locked b)
  && py_eqb (zo_net a) (zo_net b)
  && py_eqb (zo_netName a) (zo_netName b)
  && leqb py_eqb (zo_layers a) (zo_layers b)
  && py_eqb (zo_tstamp a) (zo_tstamp b)
  && py_eqb (zo_name a) (zo_name b)
  && Hatch_eqb (zo_hatch a) (zo_hatch b)
  && py_eqb (zo_priority a) (zo_priority b)
  && py_eqb (zo_connectPads a) (zo_connectPads b)
  && py_eqb (zo_clearance a) (zo_clearance b)
  && py_eqb (zo_minThickness a) (zo_minThickness b)
  && py_eqb (zo_filledAreasThickness a) (zo_filledAreasThickness b)
  && oeqb KeepoutSettings_eqb (zo_keepoutSettings a) (zo_keepoutSettings b)
  && oeqb FillSettings_eqb (zo_fillSettings a) (zo_fillSettings b)
  && leqb ZonePolygon_eqb (zo_polygons a) (zo_polygons b)
  && leqb FilledPolygon_eqb (zo_filledPolygons a) (zo_filledPolygons b)
  && oeqb FillSegments_eqb (zo_fillSegments a) (zo_fillSegments b).
Definition Zone_ok (o : Zone) : bool :=
  numb (zo_net o)
  && txtb (zo_netName o)
  && forallb txtb (zo_layers o)
  && optb wordv (zo_tstamp o)
  && optb txtb (zo_name o)
  && Hatch_ok (zo_hatch o)
  && optb numb (zo_priority o)
  && optb wordv (zo_connectPads o)
  && numb (zo_clearance o)
  && numb (zo_minThickness o)
  && optb wordv (zo_filledAreasThickness o)
  && optok KeepoutSettings_ok (zo_keepoutSettings o)
  && optok FillSettings_ok (zo_fillSettings o)
  && forallb ZonePolygon_ok (zo_polygons o)
  && forallb FilledPolygon_ok (zo_filledPolygons o)
  && optok FillSegments_ok (zo_fillSegments o)
  && (negb (Nat.eqb (length (zo_layers o)) 0)).

