(** Model of items/zones.py. *)
From Verif Require Import PyBase PyNum PyStr Sexpr M_Common.

(** items/zones.py:25-52: attributes of KeepoutSettings and their defaults *)
Record KeepoutSettings := mkKeepoutSettings {
  ks_tracks : val;
  ks_vias : val;
  ks_pads : val;
  ks_copperpour : val;
  ks_footprints : val }.
#[export] Instance eta_KeepoutSettings : Settable KeepoutSettings :=
  settable! mkKeepoutSettings <ks_tracks; ks_vias; ks_pads; ks_copperpour; ks_footprints>.
Definition KeepoutSettings_default : KeepoutSettings :=
  mkKeepoutSettings (VStr $"allowed") (VStr $"allowed") (VStr $"allowed") (VStr $"not-allowed") (VStr $"not-allowed").

(** zones.py:76-83 *)
Definition KeepoutSettings_step (o : KeepoutSettings) (item : val) : res KeepoutSettings :=
  if negb (is_list item) then Ok o else
  let! h := item@0 in
  let! o := on (h =s "tracks") (setf ks_tracks (item@1)) o in
  let! o := on (h =s "vias") (setf ks_vias (item@1)) o in
  let! o := on (h =s "pads") (setf ks_pads (item@1)) o in
  let! o := on (h =s "copperpour") (setf ks_copperpour (item@1)) o in
  let! o := on (h =s "footprints") (setf ks_footprints (item@1)) o in
  Ok o.
(** zones.py:54-85 *)
Definition KeepoutSettings_from (exp : val) : res KeepoutSettings :=
  let! l := need_head "keepout" exp in foldM KeepoutSettings_step KeepoutSettings_default l.
(** zones.py:87-102 *)
Definition KeepoutSettings_to (o : KeepoutSettings) (indent : nat) (newline : bool) : res str :=
  Ok (spaces indent ++ $"(keepout (tracks " ++ fmt (ks_tracks o) ++ $") (vias " ++ fmt (ks_vias o) ++ $") (pads " ++ fmt (ks_pads o)
      ++ $" ) (copperpour " ++ fmt (ks_copperpour o) ++ $") (footprints " ++ fmt (ks_footprints o) ++ $"))" ++ eol newline).

(** items/zones.py:104-179: attributes of FillSettings and their defaults *)
Record FillSettings := mkFillSettings {
  fs_yes : bool;
  fs_mode : val;
  fs_thermalGap : val;
  fs_thermalBridgeWidth : val;
  fs_smoothingStyle : val;
  fs_smoothingRadius : val;
  fs_islandRemovalMode : val;
  fs_islandAreaMin : val;
  fs_hatchThickness : val;
  fs_hatchGap : val;
  fs_hatchOrientation : val;
  fs_hatchSmoothingLevel : val;
  fs_hatchSmoothingValue : val;
  fs_hatchBorderAlgorithm : val;
  fs_hatchMinHoleArea : val }.
#[export] Instance eta_FillSettings : Settable FillSettings :=
  settable! mkFillSettings <fs_yes; fs_mode; fs_thermalGap; fs_thermalBridgeWidth; fs_smoothingStyle; fs_smoothingRadius; fs_islandRemovalMode; fs_islandAreaMin; fs_hatchThickness; fs_hatchGap; fs_hatchOrientation; fs_hatchSmoothingLevel; fs_hatchSmoothingValue; fs_hatchBorderAlgorithm; fs_hatchMinHoleArea>.
Definition FillSettings_default : FillSettings :=
  mkFillSettings false VNone VNone VNone VNone VNone VNone VNone VNone VNone VNone VNone VNone VNone VNone.

(** zones.py:203-220: the bare word [yes] goes on to the tests of [item[0]], a letter *)
Definition FillSettings_step (o : FillSettings) (item : val) : res FillSettings :=
  if negb (is_list item) && negb (item =s "yes") then Ok o else
  let! o := on (negb (is_list item)) (setf fs_yes (Ok true)) o in
  let! h := item@0 in
  let! o := on (h =s "mode") (setf fs_mode (item@1)) o in
  let! o := on (h =s "thermal_gap") (setf fs_thermalGap (item@1)) o in
  let! o := on (h =s "thermal_bridge_width") (setf fs_thermalBridgeWidth (item@1)) o in
  let! o := on (h =s "smoothing") (setf fs_smoothingStyle (item@1)) o in
  let! o := on (h =s "radius") (setf fs_smoothingRadius (item@1)) o in
  let! o := on (h =s "island_removal_mode") (setf fs_islandRemovalMode (item@1)) o in
  let! o := on (h =s "island_area_min") (setf fs_islandAreaMin (item@1)) o in
  let! o := on (h =s "hatch_thickness") (setf fs_hatchThickness (item@1)) o in
  let! o := on (h =s "hatch_gap") (setf fs_hatchGap (item@1)) o in
  let! o := on (h =s "hatch_orientation") (setf fs_hatchOrientation (item@1)) o in
  let! o := on (h =s "hatch_smoothing_level") (setf fs_hatchSmoothingLevel (item@1)) o in
  let! o := on (h =s "hatch_smoothing_value") (setf fs_hatchSmoothingValue (item@1)) o in
  let! o := on (h =s "hatch_border_algorithm") (setf fs_hatchBorderAlgorithm (item@1)) o in
  let! o := on (h =s "hatch_min_hole_area") (setf fs_hatchMinHoleArea (item@1)) o in
  Ok o.
(** zones.py:181-222 *)
Definition FillSettings_from (exp : val) : res FillSettings :=
  let! l := need_head "fill" exp in foldM FillSettings_step FillSettings_default l.
(** zones.py:224-252 *)
Definition FillSettings_to (o : FillSettings) (indent : nat) (newline : bool) : res str :=
  let indents := spaces indent in
  let yes := if fs_yes o then $" yes" else [] in
  let mode := if is_none (fs_mode o) then [] else $" (mode " ++ fmt (fs_mode o) ++ $")" in
  let smoothing := if is_none (fs_smoothingStyle o) then [] else $" (smoothing " ++ fmt (fs_smoothingStyle o) ++ $")" in
  let radius := if is_none (fs_smoothingRadius o) then [] else $" (radius " ++ fmt (fs_smoothingRadius o) ++ $")" in
  let irm := if is_none (fs_islandRemovalMode o) then [] else $" (island_removal_mode " ++ fmt (fs_islandRemovalMode o) ++ $")" in
  let iam := if is_none (fs_islandAreaMin o) then [] else $" (island_area_min " ++ fmt (fs_islandAreaMin o) ++ $")" in
  let ht := if is_none (fs_hatchThickness o) then [] else nl ++ indents ++ $"  (hatch_thickness " ++ fmt (fs_hatchThickness o) ++ $")" in
  let hg := if is_none (fs_hatchGap o) then [] else $" (hatch_gap " ++ fmt (fs_hatchGap o) ++ $")" in
  let ho := if is_none (fs_hatchOrientation o) then [] else $" (hatch_orientation " ++ fmt (fs_hatchOrientation o) ++ $")" in
  let hsl := if is_none (fs_hatchSmoothingLevel o) then [] else nl ++ indents ++ $"  (hatch_smoothing_level " ++ fmt (fs_hatchSmoothingLevel o) ++ $")" in
  let hsv := if is_none (fs_hatchSmoothingValue o) then [] else $" (hatch_smoothing_value " ++ fmt (fs_hatchSmoothingValue o) ++ $")" in
  let hba := if is_none (fs_hatchBorderAlgorithm o) then [] else nl ++ indents ++ $"  (hatch_border_algorithm " ++ fmt (fs_hatchBorderAlgorithm o) ++ $")" in
  let hmha := if is_none (fs_hatchMinHoleArea o) then [] else $" (hatch_min_hole_area " ++ fmt (fs_hatchMinHoleArea o) ++ $")" in
  Ok (indents ++ $"(fill" ++ yes ++ mode ++ $" (thermal_gap " ++ fmt (fs_thermalGap o) ++ $") (thermal_bridge_width " ++ fmt (fs_thermalBridgeWidth o)
      ++ $")" ++ smoothing ++ radius ++ irm ++ iam ++ ht ++ hg ++ ho ++ hsl ++ hsv ++ hba ++ hmha ++ $")" ++ eol newline).

(** items/zones.py:254-259: attributes of ZonePolygon and their defaults *)
Record ZonePolygon := mkZonePolygon {
  zp_coordinates : list Position }.
#[export] Instance eta_ZonePolygon : Settable ZonePolygon :=
  settable! mkZonePolygon <zp_coordinates>.
Definition ZonePolygon_default : ZonePolygon :=
  mkZonePolygon [].

(** zones.py:283-287 *)
Definition ZonePolygon_step (o : ZonePolygon) (item : val) : res ZonePolygon :=
  if negb (is_list item) then Ok o else
  let! h := item@0 in
  let! o := on (h =s "pts") (extf zp_coordinates (let! l := from_ item 1 in mapM Position_from l)) o in
  Ok o.
(** zones.py:261-289 *)
Definition ZonePolygon_from (exp : val) : res ZonePolygon :=
  let! l := need_head "polygon" exp in foldM ZonePolygon_step ZonePolygon_default l.
(** zones.py:291-314; [newline] only matters for the empty polygon *)
Definition ZonePolygon_to (o : ZonePolygon) (indent : nat) (newline : bool) : res str :=
  let indents := spaces indent in
  if Nat.eqb (length (zp_coordinates o)) 0 then Ok (indents ++ eol newline) else
  let! pts := concatM (fun p => Ok (indents ++ $"    (xy " ++ fmt (po_X p) ++ $" " ++ fmt (po_Y p) ++ $")" ++ nl)) (zp_coordinates o) in
  Ok (indents ++ $"(polygon" ++ nl ++ indents ++ $"  (pts" ++ nl ++ pts ++ indents ++ $"  )" ++ nl ++ indents ++ $")" ++ nl).

(** items/zones.py:316-332: attributes of FilledPolygon and their defaults *)
Record FilledPolygon := mkFilledPolygon {
  zf_layer : val;
  zf_island : bool;
  zf_coordinates : list Position }.
#[export] Instance eta_FilledPolygon : Settable FilledPolygon :=
  settable! mkFilledPolygon <zf_layer; zf_island; zf_coordinates>.
Definition FilledPolygon_default : FilledPolygon :=
  mkFilledPolygon (VStr $"F.Cu") false [].

(** zones.py:356-363 *)
Definition FilledPolygon_step (o : FilledPolygon) (item : val) : res FilledPolygon :=
  if negb (is_list item) then Ok o else
  let! h := item@0 in
  let! o := on (h =s "layer") (setf zf_layer (item@1)) o in
  let! o := on (h =s "island") (setf zf_island (Ok true)) o in
  let! o := on (h =s "pts") (extf zf_coordinates (let! l := from_ item 1 in mapM Position_from l)) o in
  Ok o.
(** zones.py:334-365 *)
Definition FilledPolygon_from (exp : val) : res FilledPolygon :=
  let! l := need_head "filled_polygon" exp in foldM FilledPolygon_step FilledPolygon_default l.
(** zones.py:367-393 *)
Definition FilledPolygon_to (o : FilledPolygon) (indent : nat) (newline : bool) : res str :=
  let indents := spaces indent in
  if Nat.eqb (length (zf_coordinates o)) 0 then Ok (indents ++ eol newline) else
  let island := if zf_island o then indents ++ $"  (island)" ++ nl else [] in
  let! pts := concatM (fun p => Ok (indents ++ $"    (xy " ++ fmt (po_X p) ++ $" " ++ fmt (po_Y p) ++ $")" ++ nl)) (zf_coordinates o) in
  Ok (indents ++ $"(filled_polygon" ++ nl ++ indents ++ $"  (layer " ++ quoted (zf_layer o) ++ $")" ++ nl ++ island
      ++ indents ++ $"  (pts" ++ nl ++ pts ++ indents ++ $"  )" ++ nl ++ indents ++ $")" ++ nl).

(** items/zones.py:396-409: attributes of FillSegments and their defaults *)
Record FillSegments := mkFillSegments {
  zs_layer : val;
  zs_coordinates : list Position }.
#[export] Instance eta_FillSegments : Settable FillSegments :=
  settable! mkFillSegments <zs_layer; zs_coordinates>.
Definition FillSegments_default : FillSegments :=
  mkFillSegments (VStr $"F.Cu") [].

(** zones.py:433-439 *)
Definition FillSegments_step (o : FillSegments) (item : val) : res FillSegments :=
  if negb (is_list item) then Ok o else
  let! h := item@0 in
  let! o := on (h =s "layer") (setf zs_layer (item@1)) o in
  let! o := on (h =s "pts") (extf zs_coordinates (let! l := from_ item 1 in mapM Position_from l)) o in
  Ok o.
(** zones.py:411-441 *)
Definition FillSegments_from (exp : val) : res FillSegments :=
  let! l := need_head "fill_segments" exp in foldM FillSegments_step FillSegments_default l.
(** zones.py:443-467 *)
Definition FillSegments_to (o : FillSegments) (indent : nat) (newline : bool) : res str :=
  let indents := spaces indent in
  if Nat.eqb (length (zs_coordinates o)) 0 then Ok (indents ++ eol newline) else
  let! pts := concatM (fun p => Ok (indents ++ $"    (xy " ++ fmt (po_X p) ++ $" " ++ fmt (po_Y p) ++ $")" ++ nl)) (zs_coordinates o) in
  Ok (indents ++ $"(fill_segments" ++ nl ++ indents ++ $"  (layer " ++ quoted (zs_layer o) ++ $")" ++ nl
      ++ indents ++ $"  (pts" ++ nl ++ pts ++ indents ++ $"  )" ++ nl ++ indents ++ $")" ++ nl).

(** items/zones.py:469-476: attributes of Hatch and their defaults *)
Record Hatch := mkHatch {
  ht_style : val;
  ht_pitch : val }.
#[export] Instance eta_Hatch : Settable Hatch :=
  settable! mkHatch <ht_style; ht_pitch>.
Definition Hatch_default : Hatch :=
  mkHatch (VStr $"none") (fdec 0 0).


(** items/zones.py:480-551: attributes of Zone and their defaults *)
Record Zone := mkZone {
  zo_locked : bool;
  zo_net : val;
  zo_netName : val;
  zo_layers : list val;
  zo_tstamp : val;
  zo_name : val;
  zo_hatch : Hatch;
  zo_priority : val;
  zo_connectPads : val;
  zo_clearance : val;
  zo_minThickness : val;
  zo_filledAreasThickness : val;
  zo_keepoutSettings : option KeepoutSettings;
  zo_fillSettings : option FillSettings;
  zo_polygons : list ZonePolygon;
  zo_filledPolygons : list FilledPolygon;
  zo_fillSegments : option FillSegments }.
#[export] Instance eta_Zone : Settable Zone :=
  settable! mkZone <zo_locked; zo_net; zo_netName; zo_layers; zo_tstamp; zo_name; zo_hatch; zo_priority; zo_connectPads; zo_clearance; zo_minThickness; zo_filledAreasThickness; zo_keepoutSettings; zo_fillSettings; zo_polygons; zo_filledPolygons; zo_fillSegments>.
Definition Zone_default : Zone :=
  mkZone false (VInt 0) (VStr $"unknown") [] VNone VNone Hatch_default VNone VNone (fdec 254 (-3)) (fdec 254 (-3)) VNone None None [] [] None.

(** zones.py:575-601: the bare word [locked] goes on to the tests of [item[0]], a letter *)
Definition Zone_step (o : Zone) (item : val) : res Zone :=
  if negb (is_list item) && negb (item =s "locked") then Ok o else
  let! o := on (negb (is_list item)) (setf zo_locked (Ok true)) o in
  let! h := item@0 in
  let! o := on (h =s "net") (setf zo_net (item@1)) o in
  let! o := on (h =s "net_name") (setf zo_netName (item@1)) o in
  let! o := on ((h =s "layers") || (h =s "layer")) (extf zo_layers (from_ item 1)) o in
  let! o := on (h =s "tstamp") (setf zo_tstamp (item@1)) o in
  let! o := on (h =s "name") (setf zo_name (item@1)) o in
  let! o := on (h =s "hatch") (setf zo_hatch (let! s := item@1 in let! p := item@2 in Ok (mkHatch s p))) o in
  let! o := on (h =s "priority") (setf zo_priority (item@1)) o in
  let! o := on (h =s "connect_pads") (fun o =>
    let! n := len_ item in
    if Nat.eqb n 2 then setf zo_clearance (let! x := item@1 in x@1) o
    else let! o := setf zo_connectPads (item@1) o in setf zo_clearance (let! x := item@2 in x@1) o) o in
  let! o := on (h =s "min_thickness") (setf zo_minThickness (item@1)) o in
  let! o := on (h =s "filled_areas_thickness") (setf zo_filledAreasThickness (item@1)) o in
  let! o := on (h =s "keepout") (setf zo_keepoutSettings (let! x := KeepoutSettings_from item in Ok (Some x))) o in
  let! o := on (h =s "fill") (setf zo_fillSettings (let! x := FillSettings_from item in Ok (Some x))) o in
  let! o := on (h =s "polygon") (addf zo_polygons (ZonePolygon_from item)) o in
  let! o := on (h =s "filled_polygon") (addf zo_filledPolygons (FilledPolygon_from item)) o in
  let! o := on (h =s "fill_segments") (setf zo_fillSegments (let! x := FillSegments_from item in Ok (Some x))) o in
  Ok o.
(** zones.py:553-603 *)
Definition Zone_from (exp : val) : res Zone :=
  let! l := need_head "zone" exp in foldM Zone_step Zone_default l.
(** zones.py:626-628: [for layer in layers: text += f' "{dequote(layer)}"'] *)
Definition quoted_list (l : list val) : str := flat_map (fun v => $" " ++ quoted v) l.
(** zones.py:625-635: the token with the layers *)
Definition Zone_layer_token (layers : list val) : res str :=
  match layers with
  | [] => Err EException
  | [l] => if negb (l =s "F&B.Cu") && negb (l =s "*.Cu") then Ok ($" (layer" ++ quoted_list layers ++ $")")
           else Ok ($" (layers" ++ quoted_list layers ++ $")")
  | _ => Ok ($" (layers" ++ quoted_list layers ++ $")")
  end.
(** zones.py:605-657; fillSegments.to_sexpr() is called with its default indentation 4 *)
Definition Zone_to (o : Zone) (indent : nat) (newline : bool) : res str :=
  let indents := spaces indent in
  let locked := if zo_locked o then $" locked" else [] in
  let tstamp := if is_none (zo_tstamp o) then [] else $" (tstamp " ++ fmt (zo_tstamp o) ++ $")" in
  let name := if is_none (zo_name o) then [] else $" (name " ++ quoted (zo_name o) ++ $")" in
  let contype := if is_none (zo_connectPads o) then [] else $" " ++ fmt (zo_connectPads o) in
  let fat := if is_none (zo_filledAreasThickness o) then [] else $" (filled_areas_thickness " ++ fmt (zo_filledAreasThickness o) ++ $")" in
  let! layer_token := Zone_layer_token (zo_layers o) in
  let priority := if is_none (zo_priority o) then [] else indents ++ $"  (priority " ++ fmt (zo_priority o) ++ $")" ++ nl in
  let! keepout := opt_str (zo_keepoutSettings o) (fun k => let! s := KeepoutSettings_to k 0 false in Ok (indents ++ $"  " ++ s ++ nl)) in
  let! fill := opt_str (zo_fillSettings o) (fun f => FillSettings_to f (indent + 2) true) in
  let! polygons := concatM (fun p => ZonePolygon_to p (indent + 2) true) (zo_polygons o) in
  let! filled := concatM (fun p => FilledPolygon_to p (indent + 2) true) (zo_filledPolygons o) in
  let! segments := opt_str (zo_fillSegments o) (fun s => FillSegments_to s 4 true) in
  Ok (indents ++ $"(zone" ++ locked ++ $" (net " ++ fmt (zo_net o) ++ $") (net_name " ++ quoted (zo_netName o) ++ $")" ++ layer_token ++ tstamp ++ name
      ++ $" (hatch " ++ fmt (ht_style (zo_hatch o)) ++ $" " ++ fmt (ht_pitch (zo_hatch o)) ++ $")" ++ nl ++ priority
      ++ indents ++ $"  (connect_pads" ++ contype ++ $" (clearance " ++ fmt (zo_clearance o) ++ $"))" ++ nl
      ++ indents ++ $"  (min_thickness " ++ fmt (zo_minThickness o) ++ $")" ++ fat ++ nl
      ++ keepout ++ fill ++ polygons ++ filled ++ segments ++ indents ++ $")" ++ eol newline).
