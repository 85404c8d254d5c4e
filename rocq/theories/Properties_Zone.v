(** Property theorems C20: copper zones (items/zones.py). *)
From Verif Require Import PyBase PyNum PyStr Sexpr S_Leaf S_Tree M_Common S_Common M_Zone S_Zone L_Lex L_Num L_Seq L_Tac L_Fp L_Zone Properties_Common Properties_Fp.

Definition ex_keepout : KeepoutSettings := KeepoutSettings_default <| ks_vias := VStr $"not_allowed" |>.
Definition ex_zfill : FillSettings :=
  mkFillSettings true (VStr $"hatch") (fdec 5 (-1)) (fdec 508 (-3)) (VStr $"chamfer") (VInt 1) (VInt 2) (VInt 10) (VInt 1) (fdec 15 (-1)) (VInt 45) (VInt 1) (fdec 1 (-1)) (VInt 0) (fdec 3 (-1)).
Definition ex_zone : Zone :=
  mkZone true (VInt 12) (VStr $"Net ""(1)""") [VStr $"F.Cu"; VStr $"B.Cu"] ex_stamp (VStr $"my zone") (mkHatch (VStr $"edge") (fdec 508 (-3))) (VInt 3)
    (VStr $"thru_hole_only") (fdec 2 (-1)) (fdec 254 (-3)) (VStr $"no") (Some ex_keepout) (Some ex_zfill)
    [mkZonePolygon ex_pts; mkZonePolygon [ex_xy (VInt 1) (VInt 2)]] [mkFilledPolygon (VStr $"F.Cu") true ex_pts] (Some (mkFillSegments (VStr $"B.Cu") ex_pts)).
Theorem C20_KeepoutSettings : roundtrips KeepoutSettings_to KeepoutSettings_from KeepoutSettings_ok KeepoutSettings_norm KeepoutSettings_eqb.
Proof. exact KeepoutSettings_rt. Qed.
Print Assumptions C20_KeepoutSettings.
Theorem C36_KeepoutSettings : conforms KeepoutSettings_to KeepoutSettings_from KeepoutSettings_ok KeepoutSettings_norm KeepoutSettings_tree.
Proof. exact KeepoutSettings_fmt. Qed.
Print Assumptions C36_KeepoutSettings.
Theorem C27_KeepoutSettings : refuses KeepoutSettings_from ["keepout"%string].
Proof. exact KeepoutSettings_ref. Qed.
Print Assumptions C27_KeepoutSettings.
Theorem C28_KeepoutSettings : ignores KeepoutSettings_from 0 ["tracks"%string; "vias"%string; "pads"%string; "copperpour"%string; "footprints"%string].
Proof. exact KeepoutSettings_ign. Qed.
Print Assumptions C28_KeepoutSettings.
Theorem C30_KeepoutSettings : last_wins KeepoutSettings_from 0 ["tracks"%string; "vias"%string; "pads"%string; "copperpour"%string; "footprints"%string].
Proof. exact KeepoutSettings_win. Qed.
Print Assumptions C30_KeepoutSettings.
Example C20_KeepoutSettings_ex : KeepoutSettings_ok (ex_keepout) = true.
Proof. vm_compute. reflexivity. Qed.

Theorem C20_FillSettings : roundtrips FillSettings_to FillSettings_from FillSettings_ok FillSettings_norm FillSettings_eqb.
Proof. exact FillSettings_rt. Qed.
Print Assumptions C20_FillSettings.
Theorem C36_FillSettings : conforms FillSettings_to FillSettings_from FillSettings_ok FillSettings_norm FillSettings_tree.
Proof. exact FillSettings_fmt. Qed.
Print Assumptions C36_FillSettings.
Theorem C27_FillSettings : refuses FillSettings_from ["fill"%string].
Proof. exact FillSettings_ref. Qed.
Print Assumptions C27_FillSettings.
Theorem C28_FillSettings : ignores FillSettings_from 0 ["mode"%string; "thermal_gap"%string; "thermal_bridge_width"%string; "smoothing"%string; "radius"%string; "island_removal_mode"%string; "island_area_min"%string; "hatch_thickness"%string; "hatch_gap"%string; "hatch_orientation"%string; "hatch_smoothing_level"%string; "hatch_smoothing_value"%string; "hatch_border_algorithm"%string; "hatch_min_hole_area"%string].
Proof. exact FillSettings_ign. Qed.
Print Assumptions C28_FillSettings.
Theorem C30_FillSettings : last_wins FillSettings_from 0 ["mode"%string; "thermal_gap"%string; "thermal_bridge_width"%string; "smoothing"%string; "radius"%string; "island_removal_mode"%string; "island_area_min"%string; "hatch_thickness"%string; "hatch_gap"%string; "hatch_orientation"%string; "hatch_smoothing_level"%string; "hatch_smoothing_value"%string; "hatch_border_algorithm"%string; "hatch_min_hole_area"%string].
Proof. exact FillSettings_win. Qed.
Print Assumptions C30_FillSettings.
Example C20_FillSettings_ex : FillSettings_ok (ex_zfill) = true.
Proof. vm_compute. reflexivity. Qed.

Theorem C20_ZonePolygon : roundtrips ZonePolygon_to ZonePolygon_from ZonePolygon_ok ZonePolygon_norm ZonePolygon_eqb.
Proof. exact ZonePolygon_rt. Qed.
Print Assumptions C20_ZonePolygon.
Theorem C36_ZonePolygon : conforms ZonePolygon_to ZonePolygon_from ZonePolygon_ok ZonePolygon_norm ZonePolygon_tree.
Proof. exact ZonePolygon_fmt. Qed.
Print Assumptions C36_ZonePolygon.
Theorem C27_ZonePolygon : refuses ZonePolygon_from ["polygon"%string].
Proof. exact ZonePolygon_ref. Qed.
Print Assumptions C27_ZonePolygon.
Theorem C28_ZonePolygon : ignores ZonePolygon_from 0 ["pts"%string].
Proof. exact ZonePolygon_ign. Qed.
Print Assumptions C28_ZonePolygon.
Example C20_ZonePolygon_ex : ZonePolygon_ok (mkZonePolygon ex_pts) = true.
Proof. vm_compute. reflexivity. Qed.

Theorem C20_FilledPolygon : roundtrips FilledPolygon_to FilledPolygon_from FilledPolygon_ok FilledPolygon_norm FilledPolygon_eqb.
Proof. exact FilledPolygon_rt. Qed.
Print Assumptions C20_FilledPolygon.
Theorem C36_FilledPolygon : conforms FilledPolygon_to FilledPolygon_from FilledPolygon_ok FilledPolygon_norm FilledPolygon_tree.
Proof. exact FilledPolygon_fmt. Qed.
Print Assumptions C36_FilledPolygon.
Theorem C27_FilledPolygon : refuses FilledPolygon_from ["filled_polygon"%string].
Proof. exact FilledPolygon_ref. Qed.
Print Assumptions C27_FilledPolygon.
Theorem C28_FilledPolygon : ignores FilledPolygon_from 0 ["layer"%string; "island"%string; "pts"%string].
Proof. exact FilledPolygon_ign. Qed.
Print Assumptions C28_FilledPolygon.
Theorem C30_FilledPolygon : last_wins FilledPolygon_from 0 ["layer"%string; "island"%string].
Proof. exact FilledPolygon_win. Qed.
Print Assumptions C30_FilledPolygon.
Example C20_FilledPolygon_ex : FilledPolygon_ok (mkFilledPolygon (VStr $"In1.Cu") true ex_pts) = true.
Proof. vm_compute. reflexivity. Qed.

Theorem C20_FillSegments : roundtrips FillSegments_to FillSegments_from FillSegments_ok FillSegments_norm FillSegments_eqb.
Proof. exact FillSegments_rt. Qed.
Print Assumptions C20_FillSegments.
Theorem C36_FillSegments : conforms FillSegments_to FillSegments_from FillSegments_ok FillSegments_norm FillSegments_tree.
Proof. exact FillSegments_fmt. Qed.
Print Assumptions C36_FillSegments.
Theorem C27_FillSegments : refuses FillSegments_from ["fill_segments"%string].
Proof. exact FillSegments_ref. Qed.
Print Assumptions C27_FillSegments.
Theorem C28_FillSegments : ignores FillSegments_from 0 ["layer"%string; "pts"%string].
Proof. exact FillSegments_ign. Qed.
Print Assumptions C28_FillSegments.
Theorem C30_FillSegments : last_wins FillSegments_from 0 ["layer"%string].
Proof. exact FillSegments_win. Qed.
Print Assumptions C30_FillSegments.
Example C20_FillSegments_ex : FillSegments_ok (mkFillSegments (VStr $"In1.Cu") ex_pts) = true.
Proof. vm_compute. reflexivity. Qed.

Theorem C20_Zone : roundtrips Zone_to Zone_from Zone_ok Zone_norm Zone_eqb.
Proof. exact Zone_rt. Qed.
Print Assumptions C20_Zone.
Theorem C36_Zone : conforms Zone_to Zone_from Zone_ok Zone_norm Zone_tree.
Proof. exact Zone_fmt. Qed.
Print Assumptions C36_Zone.
Theorem C27_Zone : refuses Zone_from ["zone"%string].
Proof. exact Zone_ref. Qed.
Print Assumptions C27_Zone.
Theorem C28_Zone : ignores Zone_from 0 ["net"%string; "net_name"%string; "layers"%string; "layer"%string; "tstamp"%string; "name"%string; "hatch"%string; "priority"%string; "connect_pads"%string; "min_thickness"%string; "filled_areas_thickness"%string; "keepout"%string; "fill"%string; "polygon"%string; "filled_polygon"%string; "fill_segments"%string].
Proof. exact Zone_ign. Qed.
Print Assumptions C28_Zone.
Theorem C30_Zone : last_wins Zone_from 0 ["net"%string; "net_name"%string; "tstamp"%string; "name"%string; "hatch"%string; "priority"%string; "min_thickness"%string; "filled_areas_thickness"%string; "keepout"%string; "fill"%string; "fill_segments"%string].
Proof. exact Zone_win. Qed.
Print Assumptions C30_Zone.
Example C20_Zone_ex : Zone_ok (ex_zone) = true.
Proof. vm_compute. reflexivity. Qed.

(** Both spellings of the layers occur. *)
Example C20_Zone_layer_ex : Zone_ok (ex_zone <| zo_layers := [VStr $"F.Cu"] |>) = true /\ Zone_ok (ex_zone <| zo_layers := [VStr $"*.Cu"] |>) = true
  /\ one_layer [VStr $"F.Cu"] = true /\ one_layer [VStr $"*.Cu"] = false.
Proof. repeat split; vm_compute; reflexivity. Qed.
(** The reader joins all the layers that [layer] and [layers] give, in the order of the file. *)
Theorem C20_Zone_layers : forall h before k1 k2 l1 l2 after,
  let layered k := k = "layer"%string \/ k = "layers"%string in layered k1 -> layered k2 ->
  Zone_from (VList (h :: before ++ node k1 l1 :: node k2 l2 :: after)) = Zone_from (VList (h :: before ++ node "layers" (l1 ++ l2) :: after)).
Proof. exact Zone_layers. Qed.
Print Assumptions C20_Zone_layers.

(** ** What is refused, lost or corrupted *)
Theorem C20_Zone_no_layers : forall o indent newline, zo_layers o = [] -> Zone_to o indent newline = Err EException.
Proof. exact Zone_no_layers. Qed.
Print Assumptions C20_Zone_no_layers.
(** The default settings of a fill are not printable: both thermal sizes are written as the word None. *)
Theorem C20_FillSettings_none_refuted :
  write_read FillSettings_to FillSettings_from FillSettings_default 4 true
  = Ok (FillSettings_default <| fs_thermalGap := VStr $"None" |> <| fs_thermalBridgeWidth := VStr $"None" |>).
Proof. vm_compute. reflexivity. Qed.
Print Assumptions C20_FillSettings_none_refuted.
Theorem C20_ZonePolygon_empty_refuted : forall o indent newline, zp_coordinates o = [] ->
  write_read ZonePolygon_to ZonePolygon_from o indent newline = Err EIndex.
Proof. exact ZonePolygon_empty. Qed.
Print Assumptions C20_ZonePolygon_empty_refuted.
Theorem C20_FilledPolygon_empty_refuted : forall o indent newline, zf_coordinates o = [] ->
  write_read FilledPolygon_to FilledPolygon_from o indent newline = Err EIndex.
Proof. exact FilledPolygon_empty. Qed.
Print Assumptions C20_FilledPolygon_empty_refuted.
Theorem C20_FillSegments_empty_refuted : forall o indent newline, zs_coordinates o = [] ->
  write_read FillSegments_to FillSegments_from o indent newline = Err EIndex.
Proof. exact FillSegments_empty. Qed.
Print Assumptions C20_FillSegments_empty_refuted.
(** Polygons without points silently disappear from a zone; everything else stays. *)
Theorem C20_Zone_empty_polygons : forall o indent newline,
  let o' := o <| zo_polygons := filter (fun p => negb (Nat.eqb (length (zp_coordinates p)) 0)) (zo_polygons o) |>
              <| zo_filledPolygons := filter (fun p => negb (Nat.eqb (length (zf_coordinates p)) 0)) (zo_filledPolygons o) |> in
  Zone_ok o' = true -> write_read Zone_to Zone_from o indent newline = Ok (Zone_norm o').
Proof. exact Zone_empty_polygons. Qed.
Print Assumptions C20_Zone_empty_polygons.
Example C20_Zone_empty_polygons_ex : let o := ex_zone <| zo_polygons := [mkZonePolygon []; mkZonePolygon ex_pts] |> in
  Zone_ok o = false
  /\ Zone_ok (o <| zo_polygons := filter (fun p => negb (Nat.eqb (length (zp_coordinates p)) 0)) (zo_polygons o) |>
                <| zo_filledPolygons := filter (fun p => negb (Nat.eqb (length (zf_coordinates p)) 0)) (zo_filledPolygons o) |>) = true.
Proof. split; vm_compute; reflexivity. Qed.
