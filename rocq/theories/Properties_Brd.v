(** Property theorems C22: board setup and items (items/brditems.py). *)
From Verif Require Import PyBase PyNum PyStr Sexpr S_Leaf S_Tree S_Fix M_Common S_Common M_Fp M_Brd S_Brd L_Lex L_Num L_Seq L_Tac L_Fp L_Brd L_Plot Properties_Common Properties_Fp.

Definition ex_sub1 : StackupSubLayer := mkStackupSubLayer (fdec 48 (-2)) (VStr $"FR4 ""(x)""") (fdec 45 (-1)) (fdec 2 (-2)).
Definition ex_sub2 : StackupSubLayer := mkStackupSubLayer (VInt 1) VNone VNone (fdec 2 (-2)).
Definition ex_slayer : StackupLayer :=
  mkStackupLayer (VStr $"dielectric 1") (VStr $"core") (VStr $"Green") (fdec 151 (-2)) (VStr $"FR4") (fdec 45 (-1)) VNone [ex_sub1; ex_sub2; ex_sub1].
Definition ex_stackup : Stackup :=
  mkStackup [StackupLayer_default <| sl_name := VStr $"F.SilkS" |> <| sl_type := VStr $"Top Silk Screen" |>; ex_slayer] (VStr $"ENIG") (VStr $"no") (VStr $"bevelled") true false.
Definition ex_plot : PlotSettings :=
  PlotSettings_default <| ps_layerSelection := VStr $"0x00010fc_ffffffff" |> <| ps_plotOnAllLayersSelection := VStr $"0x0000000_00000000" |>
    <| ps_dashedLineDashRatio := VInt 12 |> <| ps_dashedLineGapRatio := fdec 3000001 (-6) |> <| ps_svgUseInch := Some false |> <| ps_viasOnMask := true |>
    <| ps_hpglPenDiameter := fdec 15 (-1) |> <| ps_excludeEdgeLayer := Some true |> <| ps_mirror := true |> <| ps_outputDirectory := VStr $"out ""(1)""/" |>.
Definition ex_setup : SetupData :=
  mkSetupData (Some ex_stackup) (fdec 5 (-2)) (fdec 1 (-1)) VNone (fdec (-5) (-2)) (Some (ex_xy (VInt 1) (fdec 25 (-1)))) None (Some ex_plot).
Definition ex_segment : Segment := mkSegment (ex_xy (VInt 1) (fdec 25 (-1))) (ex_xy (VInt 3) (VInt 4)) (fdec 25 (-2)) (VStr $"F.Cu") true (VInt 7) ex_stamp.
Definition ex_via : Via :=
  mkVia (VStr $"blind") true (ex_xy (VInt 1) (fdec 25 (-1))) (fdec 8 (-1)) (fdec 4 (-1)) [VStr $"F.Cu"; VStr $"In 1 ""(x)"""] true true true (VInt 3) ex_stamp.
Definition ex_arc : Arc :=
  mkArc (ex_xy (VInt 1) (fdec 25 (-1))) (ex_xy (VInt 3) (VInt 4)) (ex_xy (VInt 5) (VInt 4)) (fdec 25 (-2)) (VStr $"F ""Cu") true (VInt 7) VNone.
Definition ex_target : Target := mkTarget (VStr $"x") (ex_xy (VInt 1) (fdec 25 (-1))) (VInt 5) (fdec 5 (-2)) (VStr $"Edge.Cuts") ex_stamp.
Theorem C22_GeneralSettings : roundtrips GeneralSettings_to GeneralSettings_from GeneralSettings_ok GeneralSettings_norm GeneralSettings_eqb.
Proof. exact GeneralSettings_rt. Qed.
Print Assumptions C22_GeneralSettings.
Theorem C36_GeneralSettings : conforms GeneralSettings_to GeneralSettings_from GeneralSettings_ok GeneralSettings_norm GeneralSettings_tree.
Proof. exact GeneralSettings_fmt. Qed.
Print Assumptions C36_GeneralSettings.
Theorem C27_GeneralSettings : refuses GeneralSettings_from ["general"%string].
Proof. exact GeneralSettings_ref. Qed.
Print Assumptions C27_GeneralSettings.
Theorem C28_GeneralSettings : ignores GeneralSettings_from 0 ["thickness"%string].
Proof. exact GeneralSettings_ign. Qed.
Print Assumptions C28_GeneralSettings.
Theorem C30_GeneralSettings : last_wins GeneralSettings_from 0 ["thickness"%string].
Proof. exact GeneralSettings_win. Qed.
Print Assumptions C30_GeneralSettings.
Example C22_GeneralSettings_ex : GeneralSettings_ok (GeneralSettings_default) = true.
Proof. vm_compute. reflexivity. Qed.

Theorem C22_LayerToken : roundtrips LayerToken_to LayerToken_from LayerToken_ok LayerToken_norm LayerToken_eqb.
Proof. exact LayerToken_rt. Qed.
Print Assumptions C22_LayerToken.
Theorem C36_LayerToken : conforms LayerToken_to LayerToken_from LayerToken_ok LayerToken_norm LayerToken_tree.
Proof. exact LayerToken_fmt. Qed.
Print Assumptions C36_LayerToken.
Example C22_LayerToken_ex : LayerToken_ok (mkLayerToken (VInt 37) (VStr $"F.Silk""S") (VStr $"user") (VStr $"F.Silkscreen (top)")) = true.
Proof. vm_compute. reflexivity. Qed.

Theorem C22_StackupLayer : roundtrips StackupLayer_to StackupLayer_from StackupLayer_ok StackupLayer_norm StackupLayer_eqb.
Proof. exact StackupLayer_rt. Qed.
Print Assumptions C22_StackupLayer.
Theorem C36_StackupLayer : conforms StackupLayer_to StackupLayer_from StackupLayer_ok StackupLayer_norm StackupLayer_tree.
Proof. exact StackupLayer_fmt. Qed.
Print Assumptions C36_StackupLayer.
Theorem C27_StackupLayer : refuses StackupLayer_from ["layer"%string].
Proof. exact StackupLayer_ref. Qed.
Print Assumptions C27_StackupLayer.
Example C22_StackupLayer_ex : StackupLayer_ok (ex_slayer) = true.
Proof. vm_compute. reflexivity. Qed.

Theorem C22_Stackup : roundtrips Stackup_to Stackup_from Stackup_ok Stackup_norm Stackup_eqb.
Proof. exact Stackup_rt. Qed.
Print Assumptions C22_Stackup.
Theorem C36_Stackup : conforms Stackup_to Stackup_from Stackup_ok Stackup_norm Stackup_tree.
Proof. exact Stackup_fmt. Qed.
Print Assumptions C36_Stackup.
Theorem C27_Stackup : refuses Stackup_from ["stackup"%string].
Proof. exact Stackup_ref. Qed.
Print Assumptions C27_Stackup.
Theorem C28_Stackup : ignores Stackup_from 0 ["layer"%string; "copper_finish"%string; "dielectric_constraints"%string; "edge_connector"%string; "castellated_pads"%string; "edge_plating"%string].
Proof. exact Stackup_ign. Qed.
Print Assumptions C28_Stackup.
Theorem C30_Stackup : last_wins Stackup_from 0 ["copper_finish"%string; "dielectric_constraints"%string; "edge_connector"%string; "castellated_pads"%string; "edge_plating"%string].
Proof. exact Stackup_win. Qed.
Print Assumptions C30_Stackup.
Example C22_Stackup_ex : Stackup_ok (ex_stackup) = true.
Proof. vm_compute. reflexivity. Qed.

Theorem C22_PlotSettings : roundtrips PlotSettings_to PlotSettings_from PlotSettings_ok PlotSettings_norm PlotSettings_eqb.
Proof. exact PlotSettings_rt. Qed.
Print Assumptions C22_PlotSettings.
Theorem C36_PlotSettings : conforms PlotSettings_to PlotSettings_from PlotSettings_ok PlotSettings_norm PlotSettings_tree.
Proof. exact PlotSettings_fmt. Qed.
Print Assumptions C36_PlotSettings.
Theorem C27_PlotSettings : refuses PlotSettings_from ["pcbplotparams"%string].
Proof. exact PlotSettings_ref. Qed.
Print Assumptions C27_PlotSettings.
Theorem C28_PlotSettings : ignores PlotSettings_from 0 ["layerselection"%string; "plot_on_all_layers_selection"%string; "disableapertmacros"%string; "usegerberextensions"%string; "usegerberattributes"%string; "usegerberadvancedattributes"%string; "creategerberjobfile"%string; "dashed_line_dash_ratio"%string; "dashed_line_gap_ratio"%string; "svguseinch"%string; "svgprecision"%string; "excludeedgelayer"%string; "plotframeref"%string; "viasonmask"%string; "mode"%string; "useauxorigin"%string; "hpglpennumber"%string; "hpglpenspeed"%string; "hpglpendiameter"%string; "dxfpolygonmode"%string; "dxfimperialunits"%string; "dxfusepcbnewfont"%string; "psnegative"%string; "psa4output"%string; "plotreference"%string; "plotvalue"%string; "plotinvisibletext"%string; "sketchpadsonfab"%string; "subtractmaskfromsilk"%string; "outputformat"%string; "mirror"%string; "drillshape"%string; "scaleselection"%string; "outputdirectory"%string].
Proof. exact PlotSettings_ign. Qed.
Print Assumptions C28_PlotSettings.
Theorem C30_PlotSettings : last_wins PlotSettings_from 0 ["layerselection"%string; "plot_on_all_layers_selection"%string; "disableapertmacros"%string; "usegerberextensions"%string; "usegerberattributes"%string; "usegerberadvancedattributes"%string; "creategerberjobfile"%string; "dashed_line_dash_ratio"%string; "dashed_line_gap_ratio"%string; "svguseinch"%string; "svgprecision"%string; "excludeedgelayer"%string; "plotframeref"%string; "viasonmask"%string; "mode"%string; "useauxorigin"%string; "hpglpennumber"%string; "hpglpenspeed"%string; "hpglpendiameter"%string; "dxfpolygonmode"%string; "dxfimperialunits"%string; "dxfusepcbnewfont"%string; "psnegative"%string; "psa4output"%string; "plotreference"%string; "plotvalue"%string; "plotinvisibletext"%string; "sketchpadsonfab"%string; "subtractmaskfromsilk"%string; "outputformat"%string; "mirror"%string; "drillshape"%string; "scaleselection"%string; "outputdirectory"%string].
Proof. exact PlotSettings_win. Qed.
Print Assumptions C30_PlotSettings.
Example C22_PlotSettings_ex : PlotSettings_ok (ex_plot) = true.
Proof. vm_compute. reflexivity. Qed.

Theorem C22_SetupData : roundtrips SetupData_to SetupData_from SetupData_ok SetupData_norm SetupData_eqb.
Proof. exact SetupData_rt. Qed.
Print Assumptions C22_SetupData.
Theorem C36_SetupData : conforms SetupData_to SetupData_from SetupData_ok SetupData_norm SetupData_tree.
Proof. exact SetupData_fmt. Qed.
Print Assumptions C36_SetupData.
Theorem C27_SetupData : refuses SetupData_from ["setup"%string].
Proof. exact SetupData_ref. Qed.
Print Assumptions C27_SetupData.
Theorem C28_SetupData : ignores SetupData_from 0 ["stackup"%string; "pcbplotparams"%string; "pad_to_mask_clearance"%string; "solder_mask_min_width"%string; "pad_to_paste_clearance"%string; "pad_to_paste_clearance_ratio"%string; "aux_axis_origin"%string; "grid_origin"%string].
Proof. exact SetupData_ign. Qed.
Print Assumptions C28_SetupData.
Theorem C30_SetupData : last_wins SetupData_from 0 ["stackup"%string; "pcbplotparams"%string; "pad_to_mask_clearance"%string; "solder_mask_min_width"%string; "pad_to_paste_clearance"%string; "pad_to_paste_clearance_ratio"%string; "aux_axis_origin"%string; "grid_origin"%string].
Proof. exact SetupData_win. Qed.
Print Assumptions C30_SetupData.
Example C22_SetupData_ex : SetupData_ok (ex_setup) = true.
Proof. vm_compute. reflexivity. Qed.

Theorem C22_Segment : roundtrips Segment_to Segment_from Segment_ok Segment_norm Segment_eqb.
Proof. exact Segment_rt. Qed.
Print Assumptions C22_Segment.
Theorem C36_Segment : conforms Segment_to Segment_from Segment_ok Segment_norm Segment_tree.
Proof. exact Segment_fmt. Qed.
Print Assumptions C36_Segment.
Theorem C27_Segment : refuses Segment_from ["segment"%string].
Proof. exact Segment_ref. Qed.
Print Assumptions C27_Segment.
Theorem C28_Segment : ignores Segment_from 0 ["start"%string; "end"%string; "width"%string; "layer"%string; "net"%string; "tstamp"%string].
Proof. exact Segment_ign. Qed.
Print Assumptions C28_Segment.
Theorem C30_Segment : last_wins Segment_from 0 ["start"%string; "end"%string; "width"%string; "layer"%string; "net"%string; "tstamp"%string].
Proof. exact Segment_win. Qed.
Print Assumptions C30_Segment.
Example C22_Segment_ex : Segment_ok (ex_segment) = true.
Proof. vm_compute. reflexivity. Qed.

Theorem C22_Via : roundtrips Via_to Via_from Via_ok Via_norm Via_eqb.
Proof. exact Via_rt. Qed.
Print Assumptions C22_Via.
Theorem C36_Via : conforms Via_to Via_from Via_ok Via_norm Via_tree.
Proof. exact Via_fmt. Qed.
Print Assumptions C36_Via.
Theorem C27_Via : refuses Via_from ["via"%string].
Proof. exact Via_ref. Qed.
Print Assumptions C27_Via.
Theorem C28_Via : ignores Via_from 0 ["at"%string; "size"%string; "drill"%string; "layers"%string; "remove_unused_layers"%string; "keep_end_layers"%string; "free"%string; "net"%string; "tstamp"%string].
Proof. exact Via_ign. Qed.
Print Assumptions C28_Via.
Theorem C30_Via : last_wins Via_from 0 ["at"%string; "size"%string; "drill"%string; "remove_unused_layers"%string; "keep_end_layers"%string; "free"%string; "net"%string; "tstamp"%string].
Proof. exact Via_win. Qed.
Print Assumptions C30_Via.
Example C22_Via_ex : Via_ok (ex_via) = true.
Proof. vm_compute. reflexivity. Qed.

Theorem C22_Arc : roundtrips Arc_to Arc_from Arc_ok Arc_norm Arc_eqb.
Proof. exact Arc_rt. Qed.
Print Assumptions C22_Arc.
Theorem C36_Arc : conforms Arc_to Arc_from Arc_ok Arc_norm Arc_tree.
Proof. exact Arc_fmt. Qed.
Print Assumptions C36_Arc.
Theorem C27_Arc : refuses Arc_from ["arc"%string].
Proof. exact Arc_ref. Qed.
Print Assumptions C27_Arc.
Theorem C28_Arc : ignores Arc_from 0 ["start"%string; "mid"%string; "end"%string; "width"%string; "layer"%string; "net"%string; "tstamp"%string].
Proof. exact Arc_ign. Qed.
Print Assumptions C28_Arc.
Theorem C30_Arc : last_wins Arc_from 0 ["start"%string; "mid"%string; "end"%string; "width"%string; "layer"%string; "net"%string; "tstamp"%string].
Proof. exact Arc_win. Qed.
Print Assumptions C30_Arc.
Example C22_Arc_ex : Arc_ok (ex_arc) = true.
Proof. vm_compute. reflexivity. Qed.

Theorem C22_Target : roundtrips Target_to Target_from Target_ok Target_norm Target_eqb.
Proof. exact Target_rt. Qed.
Print Assumptions C22_Target.
Theorem C36_Target : conforms Target_to Target_from Target_ok Target_norm Target_tree.
Proof. exact Target_fmt. Qed.
Print Assumptions C36_Target.
Theorem C27_Target : refuses Target_from ["target"%string].
Proof. exact Target_ref. Qed.
Print Assumptions C27_Target.
Theorem C28_Target : ignores Target_from 1 ["at"%string; "size"%string; "width"%string; "layer"%string; "tstamp"%string].
Proof. exact Target_ign. Qed.
Print Assumptions C28_Target.
Theorem C30_Target : last_wins Target_from 1 ["at"%string; "size"%string; "width"%string; "layer"%string; "tstamp"%string].
Proof. exact Target_win. Qed.
Print Assumptions C30_Target.
Example C22_Target_ex : Target_ok (ex_target) = true.
Proof. vm_compute. reflexivity. Qed.

Example C22_ex2 : LayerToken_ok LayerToken_default && Stackup_ok Stackup_default && SetupData_ok SetupData_default && Via_ok Via_default && Arc_ok Arc_default = true.
Proof. vm_compute. reflexivity. Qed.
(** A layer has three or four parts; anything else is refused. *)
Theorem C27_LayerToken : forall exp, (forall l, exp = VList l -> length l < 3 \/ 4 < length l) -> LayerToken_from exp = Err EException.
Proof. exact LayerToken_refuses. Qed.
Print Assumptions C27_LayerToken.
Example C27_LayerToken_ex : LayerToken_from (VList [VInt 1; VStr $"a"]) = Err EException
  /\ LayerToken_from (VList [VInt 1; VStr $"a"; VStr $"b"; VStr $"c"; VStr $"d"]) = Err EException /\ LayerToken_from (VStr $"abc") = Err EException.
Proof. repeat split; vm_compute; reflexivity. Qed.

(** ** What is lost or corrupted *)
(** The plot setting useAuxOrigin is switched off by a round trip; everything else stays. *)
Theorem C22_PlotSettings_aux_refuted : forall o indent newline, PlotSettings_ok (o <| ps_useAuxOrigin := false |>) = true ->
  write_read PlotSettings_to PlotSettings_from o indent newline = Ok (PlotSettings_norm (o <| ps_useAuxOrigin := false |>)).
Proof. exact PlotSettings_aux. Qed.
Print Assumptions C22_PlotSettings_aux_refuted.
Example C22_PlotSettings_aux_ex : PlotSettings_ok (ex_plot <| ps_useAuxOrigin := true |>) = false
  /\ PlotSettings_from (node "pcbplotparams" [node "useauxorigin" [VStr $"true"]]) = Ok (PlotSettings_default <| ps_useAuxOrigin := true |>).
Proof. split; vm_compute; reflexivity. Qed.
(** The pen diameter is cut to six decimals. *)
Theorem C22_PlotSettings_pen_refuted :
  write_read PlotSettings_to PlotSettings_from (ex_plot <| ps_hpglPenDiameter := fdec 12345678 (-7) |>) 4 true
  = Ok (PlotSettings_norm (ex_plot <| ps_hpglPenDiameter := fdec 1234568 (-6) |>)).
Proof. vm_compute. reflexivity. Qed.
Print Assumptions C22_PlotSettings_pen_refuted.
(** Default plot settings and a default segment cannot be read again: an empty string is not written as anything. *)
Theorem C22_default_refuted :
  write_read PlotSettings_to PlotSettings_from PlotSettings_default 4 true = Err EIndex
  /\ write_read Segment_to Segment_from Segment_default 2 true = Err EIndex.
Proof. split; vm_compute; reflexivity. Qed.
Print Assumptions C22_default_refuted.
(** A target without time stamp gets the time stamp None. *)
Theorem C22_Target_tstamp_refuted : forall o indent newline, tg_tstamp o = VNone -> Target_ok (o <| tg_tstamp := VStr $"None" |>) = true ->
  write_read Target_to Target_from o indent newline = Ok (Target_norm (o <| tg_tstamp := VStr $"None" |>)).
Proof. exact Target_none. Qed.
Print Assumptions C22_Target_tstamp_refuted.
Example C22_Target_tstamp_ex : Target_ok (Target_default <| tg_tstamp := VStr $"None" |>) = true.
Proof. vm_compute. reflexivity. Qed.
(** [castellated_pads] and [edge_plating] switch the flags on even if they say no: the argument is not looked at. *)
Theorem C22_Stackup_flags_refuted : forall l args,
  Stackup_from (node "stackup" (l ++ [node "castellated_pads" args]))
  = (let! o := Stackup_from (node "stackup" l) in Ok (o <| sk_castellatedPads := true |>))
  /\ Stackup_from (node "stackup" (l ++ [node "edge_plating" args]))
  = (let! o := Stackup_from (node "stackup" l) in Ok (o <| sk_edgePlating := true |>)).
Proof. exact Stackup_flags. Qed.
Print Assumptions C22_Stackup_flags_refuted.
Example C22_Stackup_flags_ex : Stackup_from (node "stackup" [node "castellated_pads" [VStr $"no"]]) = Ok (Stackup_default <| sk_castellatedPads := true |>).
Proof. vm_compute. reflexivity. Qed.
