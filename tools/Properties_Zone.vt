(** Property theorems C20: copper zones (items/zones.py). *)
From Verif Require Import PyBase PyNum PyStr Sexpr S_Leaf S_Tree M_Common S_Common M_Zone S_Zone L_Lex L_Num L_Seq L_Tac L_Fp L_Zone Properties_Common Properties_Fp.

Definition ex_keepout : KeepoutSettings := KeepoutSettings_default <| ks_vias := VStr $"not_allowed" |>.
Definition ex_zfill : FillSettings :=
  mkFillSettings true (VStr $"hatch") (fdec 5 (-1)) (fdec 508 (-3)) (VStr $"chamfer") (VInt 1) (VInt 2) (VInt 10) (VInt 1) (fdec 15 (-1)) (VInt 45) (VInt 1) (fdec 1 (-1)) (VInt 0) (fdec 3 (-1)).
Definition ex_zone : Zone :=
  mkZone true (VInt 12) (VStr $"Net ""(1)""") [VStr $"F.Cu"; VStr $"B.Cu"] ex_stamp (VStr $"my zone") (mkHatch (VStr $"edge") (fdec 508 (-3))) (VInt 3)
    (VStr $"thru_hole_only") (fdec 2 (-1)) (fdec 254 (-3)) (VStr $"no") (Some ex_keepout) (Some ex_zfill)
    [mkZonePolygon ex_pts; mkZonePolygon [ex_xy (VInt 1) (VInt 2)]] [mkFilledPolygon (VStr $"F.Cu") true ex_pts] (Some (mkFillSegments (VStr $"B.Cu") ex_pts)).
@prop C20 KeepoutSettings ex_keepout
@prop C20 FillSettings ex_zfill
@prop C20 ZonePolygon mkZonePolygon ex_pts
@prop C20 FilledPolygon mkFilledPolygon (VStr $"In1.Cu") true ex_pts
@prop C20 FillSegments mkFillSegments (VStr $"In1.Cu") ex_pts
@prop C20 Zone ex_zone
(** Both spellings of the layers occur. *)
Example C20_Zone_layer_ex : Zone_ok (ex_zone <| zo_layers := [VStr $"F.Cu"] |>) = true /\ Zone_ok (ex_zone <| zo_layers := [VStr $"*.Cu"] |>) = true
  /\ one_layer [VStr $"F.Cu"] = true /\ one_layer [VStr $"*.Cu"] = false.
Proof. repeat split; vm_compute; reflexivity. Qed.
(** The reader joins all the layers that [layer] and [layers] give, in the order of the file. *)
Theorem C20_Zone_layers : forall h before k1 k2 l1 l2 after,
  let layered k := k = "layer"%string \/ k = "layers"%string in layered k1 -> layered k2 ->
  Zone_from (VList (h :: before ++ node k1 l1 :: node k2 l2 :: after)) = Zone_from (VList (h :: before ++ node "layers" (l1 ++ l2) :: after)).
Proof. exact Zone_layers. Qed.
Print Assumptions C20_Zone_layers.

(** ** What is refused, lost or corrupted *)
Theorem C20_Zone_no_layers : forall o indent newline, zo_layers o = [] -> Zone_to o indent newline = Err EException.
Proof. exact Zone_no_layers. Qed.
Print Assumptions C20_Zone_no_layers.
(** The default settings of a fill are not printable: both thermal sizes are written as the word None. *)
Theorem C20_FillSettings_none_refuted :
  write_read FillSettings_to FillSettings_from FillSettings_default 4 true
  = Ok (FillSettings_default <| fs_thermalGap := VStr $"None" |> <| fs_thermalBridgeWidth := VStr $"None" |>).
Proof. vm_compute. reflexivity. Qed.
Print Assumptions C20_FillSettings_none_refuted.
Theorem C20_ZonePolygon_empty_refuted : forall o indent newline, zp_coordinates o = [] ->
  write_read ZonePolygon_to ZonePolygon_from o indent newline = Err EIndex.
Proof. exact ZonePolygon_empty. Qed.
Print Assumptions C20_ZonePolygon_empty_refuted.
Theorem C20_FilledPolygon_empty_refuted : forall o indent newline, zf_coordinates o = [] ->
  write_read FilledPolygon_to FilledPolygon_from o indent newline = Err EIndex.
Proof. exact FilledPolygon_empty. Qed.
Print Assumptions C20_FilledPolygon_empty_refuted.
Theorem C20_FillSegments_empty_refuted : forall o indent newline, zs_coordinates o = [] ->
  write_read FillSegments_to FillSegments_from o indent newline = Err EIndex.
Proof. exact FillSegments_empty. Qed.
Print Assumptions C20_FillSegments_empty_refuted.
(** Polygons without points silently disappear from a zone; everything else stays. *)
Theorem C20_Zone_empty_polygons : forall o indent newline,
  let o' := o <| zo_polygons := filter (fun p => negb (Nat.eqb (length (zp_coordinates p)) 0)) (zo_polygons o) |>
              <| zo_filledPolygons := filter (fun p => negb (Nat.eqb (length (zf_coordinates p)) 0)) (zo_filledPolygons o) |> in
  Zone_ok o' = true -> write_read Zone_to Zone_from o indent newline = Ok (Zone_norm o').
Proof. exact Zone_empty_polygons. Qed.
Print Assumptions C20_Zone_empty_polygons.
Example C20_Zone_empty_polygons_ex : let o := ex_zone <| zo_polygons := [mkZonePolygon []; mkZonePolygon ex_pts] |> in
  Zone_ok o = false
  /\ Zone_ok (o <| zo_polygons := filter (fun p => negb (Nat.eqb (length (zp_coordinates p)) 0)) (zo_polygons o) |>
                <| zo_filledPolygons := filter (fun p => negb (Nat.eqb (length (zf_coordinates p)) 0)) (zo_filledPolygons o) |>) = true.
Proof. split; vm_compute; reflexivity. Qed.
