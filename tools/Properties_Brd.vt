(** Property theorems C22: board setup and items (items/brditems.py). *)
From Verif Require Import PyBase PyNum PyStr Sexpr S_Leaf S_Tree S_Fix M_Common S_Common M_Fp M_Brd S_Brd L_Lex L_Num L_Seq L_Tac L_Fp L_Brd L_Plot Properties_Common Properties_Fp.

Definition ex_sub1 : StackupSubLayer := mkStackupSubLayer (fdec 48 (-2)) (VStr $"FR4 ""(x)""") (fdec 45 (-1)) (fdec 2 (-2)).
Definition ex_sub2 : StackupSubLayer := mkStackupSubLayer (VInt 1) VNone VNone (fdec 2 (-2)).
Definition ex_slayer : StackupLayer :=
  mkStackupLayer (VStr $"dielectric 1") (VStr $"core") (VStr $"Green") (fdec 151 (-2)) (VStr $"FR4") (fdec 45 (-1)) VNone [ex_sub1; ex_sub2; ex_sub1].
Definition ex_stackup : Stackup :=
  mkStackup [StackupLayer_default <| sl_name := VStr $"F.SilkS" |> <| sl_type := VStr $"Top Silk Screen" |>; ex_slayer] (VStr $"ENIG") (VStr $"no") (VStr $"bevelled") true false.
Definition ex_plot : PlotSettings :=
  PlotSettings_default <| ps_layerSelection := VStr $"0x00010fc_ffffffff" |> <| ps_plotOnAllLayersSelection := VStr $"0x0000000_00000000" |>
    <| ps_dashedLineDashRatio := VInt 12 |> <| ps_dashedLineGapRatio := fdec 3000001 (-6) |> <| ps_svgUseInch := Some false |> <| ps_viasOnMask := true |>
    <| ps_hpglPenDiameter := fdec 15 (-1) |> <| ps_excludeEdgeLayer := Some true |> <| ps_mirror := true |> <| ps_outputDirectory := VStr $"out ""(1)""/" |>.
Definition ex_setup : SetupData :=
  mkSetupData (Some ex_stackup) (fdec 5 (-2)) (fdec 1 (-1)) VNone (fdec (-5) (-2)) (Some (ex_xy (VInt 1) (fdec 25 (-1)))) None (Some ex_plot).
Definition ex_segment : Segment := mkSegment (ex_xy (VInt 1) (fdec 25 (-1))) (ex_xy (VInt 3) (VInt 4)) (fdec 25 (-2)) (VStr $"F.Cu") true (VInt 7) ex_stamp.
Definition ex_via : Via :=
  mkVia (VStr $"blind") true (ex_xy (VInt 1) (fdec 25 (-1))) (fdec 8 (-1)) (fdec 4 (-1)) [VStr $"F.Cu"; VStr $"In 1 ""(x)"""] true true true (VInt 3) ex_stamp.
Definition ex_arc : Arc :=
  mkArc (ex_xy (VInt 1) (fdec 25 (-1))) (ex_xy (VInt 3) (VInt 4)) (ex_xy (VInt 5) (VInt 4)) (fdec 25 (-2)) (VStr $"F ""Cu") true (VInt 7) VNone.
Definition ex_target : Target := mkTarget (VStr $"x") (ex_xy (VInt 1) (fdec 25 (-1))) (VInt 5) (fdec 5 (-2)) (VStr $"Edge.Cuts") ex_stamp.
@prop C22 GeneralSettings GeneralSettings_default
@prop C22 LayerToken mkLayerToken (VInt 37) (VStr $"F.Silk""S") (VStr $"user") (VStr $"F.Silkscreen (top)")
@prop C22 StackupLayer ex_slayer
@prop C22 Stackup ex_stackup
@prop C22 PlotSettings ex_plot
@prop C22 SetupData ex_setup
@prop C22 Segment ex_segment
@prop C22 Via ex_via
@prop C22 Arc ex_arc
@prop C22 Target ex_target
Example C22_ex2 : LayerToken_ok LayerToken_default && Stackup_ok Stackup_default && SetupData_ok SetupData_default && Via_ok Via_default && Arc_ok Arc_default = true.
Proof. vm_compute. reflexivity. Qed.
(** A layer has three or four parts; anything else is refused. *)
Theorem C27_LayerToken : forall exp, (forall l, exp = VList l -> length l < 3 \/ 4 < length l) -> LayerToken_from exp = Err EException.
Proof. exact LayerToken_refuses. Qed.
Print Assumptions C27_LayerToken.
Example C27_LayerToken_ex : LayerToken_from (VList [VInt 1; VStr $"a"]) = Err EException
  /\ LayerToken_from (VList [VInt 1; VStr $"a"; VStr $"b"; VStr $"c"; VStr $"d"]) = Err EException /\ LayerToken_from (VStr $"abc") = Err EException.
Proof. repeat split; vm_compute; reflexivity. Qed.

(** ** What is lost or corrupted *)
(** The plot setting useAuxOrigin is switched off by a round trip; everything else stays. *)
Theorem C22_PlotSettings_aux_refuted : forall o indent newline, PlotSettings_ok (o <| ps_useAuxOrigin := false |>) = true ->
  write_read PlotSettings_to PlotSettings_from o indent newline = Ok (PlotSettings_norm (o <| ps_useAuxOrigin := false |>)).
Proof. exact PlotSettings_aux. Qed.
Print Assumptions C22_PlotSettings_aux_refuted.
Example C22_PlotSettings_aux_ex : PlotSettings_ok (ex_plot <| ps_useAuxOrigin := true |>) = false
  /\ PlotSettings_from (node "pcbplotparams" [node "useauxorigin" [VStr $"true"]]) = Ok (PlotSettings_default <| ps_useAuxOrigin := true |>).
Proof. split; vm_compute; reflexivity. Qed.
(** The pen diameter is cut to six decimals. *)
Theorem C22_PlotSettings_pen_refuted :
  write_read PlotSettings_to PlotSettings_from (ex_plot <| ps_hpglPenDiameter := fdec 12345678 (-7) |>) 4 true
  = Ok (PlotSettings_norm (ex_plot <| ps_hpglPenDiameter := fdec 1234568 (-6) |>)).
Proof. vm_compute. reflexivity. Qed.
Print Assumptions C22_PlotSettings_pen_refuted.
(** Default plot settings and a default segment cannot be read again: an empty string is not written as anything. *)
Theorem C22_default_refuted :
  write_read PlotSettings_to PlotSettings_from PlotSettings_default 4 true = Err EIndex
  /\ write_read Segment_to Segment_from Segment_default 2 true = Err EIndex.
Proof. split; vm_compute; reflexivity. Qed.
Print Assumptions C22_default_refuted.
(** A target without time stamp gets the time stamp None. *)
Theorem C22_Target_tstamp_refuted : forall o indent newline, tg_tstamp o = VNone -> Target_ok (o <| tg_tstamp := VStr $"None" |>) = true ->
  write_read Target_to Target_from o indent newline = Ok (Target_norm (o <| tg_tstamp := VStr $"None" |>)).
Proof. exact Target_none. Qed.
Print Assumptions C22_Target_tstamp_refuted.
Example C22_Target_tstamp_ex : Target_ok (Target_default <| tg_tstamp := VStr $"None" |>) = true.
Proof. vm_compute. reflexivity. Qed.
(** [castellated_pads] and [edge_plating] switch the flags on even if they say no: the argument is not looked at. *)
Theorem C22_Stackup_flags_refuted : forall l args,
  Stackup_from (node "stackup" (l ++ [node "castellated_pads" args]))
  = (let! o := Stackup_from (node "stackup" l) in Ok (o <| sk_castellatedPads := true |>))
  /\ Stackup_from (node "stackup" (l ++ [node "edge_plating" args]))
  = (let! o := Stackup_from (node "stackup" l) in Ok (o <| sk_edgePlating := true |>)).
Proof. exact Stackup_flags. Qed.
Print Assumptions C22_Stackup_flags_refuted.
Example C22_Stackup_flags_ex : Stackup_from (node "stackup" [node "castellated_pads" [VStr $"no"]]) = Ok (Stackup_default <| sk_castellatedPads := true |>).
Proof. vm_compute. reflexivity. Qed.
