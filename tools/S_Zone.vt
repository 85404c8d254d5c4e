(** Specification of items/zones.py. *)
From Verif Require Import PyBase PyNum PyStr Sexpr S_Leaf S_Tree M_Common S_Common M_Zone.

Definition KeepoutSettings_tree (o : KeepoutSettings) : val :=
  node "keepout" [node "tracks" [ks_tracks o]; node "vias" [ks_vias o]; node "pads" [ks_pads o];
    node "copperpour" [ks_copperpour o]; node "footprints" [ks_footprints o]].
@ok KeepoutSettings

Definition FillSettings_tree (o : FillSettings) : val :=
  node "fill" (optw "yes" (fs_yes o) ++ optn "mode" (fs_mode o)
    ++ [node "thermal_gap" [fs_thermalGap o]; node "thermal_bridge_width" [fs_thermalBridgeWidth o]]
    ++ optn "smoothing" (fs_smoothingStyle o) ++ optn "radius" (fs_smoothingRadius o) ++ optn "island_removal_mode" (fs_islandRemovalMode o) ++ optn "island_area_min" (fs_islandAreaMin o) ++ optn "hatch_thickness" (fs_hatchThickness o) ++ optn "hatch_gap" (fs_hatchGap o) ++ optn "hatch_orientation" (fs_hatchOrientation o) ++ optn "hatch_smoothing_level" (fs_hatchSmoothingLevel o) ++ optn "hatch_smoothing_value" (fs_hatchSmoothingValue o) ++ optn "hatch_border_algorithm" (fs_hatchBorderAlgorithm o) ++ optn "hatch_min_hole_area" (fs_hatchMinHoleArea o)).
@ok FillSettings

(** a polygon needs a point: without any it is not written at all *)
Definition ZonePolygon_tree (o : ZonePolygon) : val :=
  node "polygon" [node "pts" (map (xy_tree "xy") (zp_coordinates o))].
@ok ZonePolygon negb (Nat.eqb (length (zp_coordinates o)) 0)

Definition FilledPolygon_tree (o : FilledPolygon) : val :=
  node "filled_polygon" ([node "layer" [zf_layer o]] ++ optl "island" (zf_island o) ++ [node "pts" (map (xy_tree "xy") (zf_coordinates o))]).
@ok FilledPolygon negb (Nat.eqb (length (zf_coordinates o)) 0)

Definition FillSegments_tree (o : FillSegments) : val :=
  node "fill_segments" [node "layer" [zs_layer o]; node "pts" (map (xy_tree "xy") (zs_coordinates o))].
@ok FillSegments negb (Nat.eqb (length (zs_coordinates o)) 0)

Definition Hatch_tree (o : Hatch) : val := node "hatch" [ht_style o; ht_pitch o].
@ok Hatch

(** one ordinary layer is given as [layer], several or a wild card as [layers] *)
Definition one_layer (l : list val) : bool :=
  match l with [x] => negb (enumb ["F&B.Cu"%string; "*.Cu"%string] x) | _ => false end.
Definition Zone_tree (o : Zone) : val :=
  node "zone" (optw "locked" (zo_locked o) ++ [node "net" [zo_net o]; node "net_name" [zo_netName o]]
    ++ (if one_layer (zo_layers o) then [node "layer" (zo_layers o)] else [node "layers" (zo_layers o)])
    ++ optn "tstamp" (zo_tstamp o) ++ optn "name" (zo_name o)
    ++ [Hatch_tree (zo_hatch o)] ++ optn "priority" (zo_priority o)
    ++ [node "connect_pads" (optv (zo_connectPads o) ++ [node "clearance" [zo_clearance o]]); node "min_thickness" [zo_minThickness o]]
    ++ optn "filled_areas_thickness" (zo_filledAreasThickness o)
    ++ opto KeepoutSettings_tree (zo_keepoutSettings o) ++ opto FillSettings_tree (zo_fillSettings o)
    ++ map ZonePolygon_tree (zo_polygons o) ++ map FilledPolygon_tree (zo_filledPolygons o)
    ++ opto FillSegments_tree (zo_fillSegments o)).
(** a zone lies on at least one layer *)
@ok Zone negb (Nat.eqb (length (zo_layers o)) 0)
