(** Property theorems C37: list attributes hold the children in order, dictionaries the last value of each key. *)
From Verif Require Import PyBase PyNum PyStr PyRe Sexpr S_Leaf S_Tree S_Reader S_Gather S_Fix M_Common M_Lib M_Sym M_Zone M_Fp M_Gr M_Dim M_Brd M_Footprint M_Board M_Sch M_Schematic M_Wks
  S_Common S_Lib S_Sym S_Zone S_Fp S_Gr S_Dim S_Brd S_Footprint S_Board S_Sch S_Schematic S_Wks
  Properties_Common Properties_Zone Properties_Fp Properties_Gr Properties_Dim Properties_Brd Properties_Footprint Properties_Board L_GatherB.

Theorem C37_FpPoly : collects_args FpPoly_from 0 ["pts"]%string Position_from fp_coordinates.
Proof. exact FpPoly_gather. Qed.
Print Assumptions C37_FpPoly.
Example C37_FpPoly_ex : accepts FpPoly_from (FpPoly_tree (mkFpPoly (VStr $"F.Fab") ex_pts VNone (Some ex_stroke) (VStr $"solid") true ex_stamp)) = true.
Proof. vm_compute. reflexivity. Qed.

Theorem C37_FpCurve : collects_args FpCurve_from 0 ["pts"]%string Position_from fv_coordinates.
Proof. exact FpCurve_gather. Qed.
Print Assumptions C37_FpCurve.
Example C37_FpCurve_ex : accepts FpCurve_from (FpCurve_tree (mkFpCurve ex_pts (VStr $"F.Fab") (fdec 15 (-2)) None true ex_stamp)) = true.
Proof. vm_compute. reflexivity. Qed.

Theorem C37_GrPoly : collects_args GrPoly_from 0 ["pts"]%string Position_from gp_coordinates.
Proof. exact GrPoly_gather. Qed.
Print Assumptions C37_GrPoly.
Example C37_GrPoly_ex : accepts GrPoly_from (GrPoly_tree (mkGrPoly (VStr $"F.Fab") ex_pts (fdec 15 (-2)) (VStr $"solid") ex_stamp true)) = true.
Proof. vm_compute. reflexivity. Qed.

Theorem C37_GrCurve : collects_args GrCurve_from 0 ["pts"]%string Position_from gv_coordinates.
Proof. exact GrCurve_gather. Qed.
Print Assumptions C37_GrCurve.
Example C37_GrCurve_ex : accepts GrCurve_from (GrCurve_tree (mkGrCurve ex_pts VNone (fdec 15 (-2)) ex_stamp true)) = true.
Proof. vm_compute. reflexivity. Qed.

Theorem C37_Dimension : collects_args Dimension_from 1 ["pts"]%string Position_from di_pts.
Proof. exact Dimension_gather. Qed.
Print Assumptions C37_Dimension.
Example C37_Dimension_ex : accepts Dimension_from (Dimension_tree (ex_dimension <| di_tstamp := VStr $"None" |>)) = true.
Proof. vm_compute. reflexivity. Qed.

Theorem C37_Stackup : collects Stackup_from 0 ["layer"]%string StackupLayer_from sk_layers.
Proof. exact Stackup_gather. Qed.
Print Assumptions C37_Stackup.
Example C37_Stackup_ex : accepts Stackup_from (Stackup_tree (ex_stackup)) = true.
Proof. vm_compute. reflexivity. Qed.

Theorem C37_Via : copies_args Via_from 0 ["layers"]%string vi_layers.
Proof. exact Via_gather. Qed.
Print Assumptions C37_Via.
Example C37_Via_ex : accepts Via_from (Via_tree (ex_via)) = true.
Proof. vm_compute. reflexivity. Qed.

Theorem C37_Pad : copies_args Pad_from 3 ["layers"]%string pd_layers
  /\ copies_args Pad_from 3 ["chamfer"]%string pd_chamfer.
Proof. exact Pad_gather. Qed.
Print Assumptions C37_Pad.
Example C37_Pad_ex : accepts Pad_from (Pad_tree (ex_pad)) = true.
Proof. vm_compute. reflexivity. Qed.

Theorem C37_Footprint : forall now, collects (Footprint_from now) 2 ["model"]%string Model_from fd_models
  /\ collects (Footprint_from now) 2 ["pad"]%string Pad_from fd_pads
  /\ collects (Footprint_from now) 2 ["zone"]%string Zone_from fd_zones
  /\ collects (Footprint_from now) 2 ["group"]%string Group_from fd_groups
  /\ copies_args (Footprint_from now) 2 ["private_layers"]%string fd_privateLayers
  /\ copies_args (Footprint_from now) 2 ["net_tie_pad_groups"]%string fd_netTiePadGroups
  /\ collects (Footprint_from now) 2 ["fp_text"; "fp_text_box"; "fp_line"; "fp_rect"; "fp_circle"; "fp_arc"; "fp_poly"; "fp_curve"; "image"]%string (by_head [("fp_text"%string, as_ FpItem_FpText FpText_from); ("fp_text_box"%string, as_ FpItem_FpTextBox FpTextBox_from); ("fp_line"%string, as_ FpItem_FpLine FpLine_from); ("fp_rect"%string, as_ FpItem_FpRect FpRect_from); ("fp_circle"%string, as_ FpItem_FpCircle FpCircle_from); ("fp_arc"%string, as_ FpItem_FpArc FpArc_from); ("fp_poly"%string, as_ FpItem_FpPoly FpPoly_from); ("fp_curve"%string, as_ FpItem_FpCurve FpCurve_from); ("image"%string, as_ FpItem_Image Image_from)]) fd_graphicItems.
Proof. exact Footprint_gather. Qed.
Print Assumptions C37_Footprint.
Example C37_Footprint_ex : accepts (fun e => Footprint_from (VStr $"0") e) (Footprint_tree (Footprint_default (VStr $"65fa1b2c") <| fd_entryName := VStr $"None" |>)) = true.
Proof. vm_compute. reflexivity. Qed.

Theorem C37_Board : forall now, collects_args (Board_from now) 0 ["layers"]%string LayerToken_from bd_layers
  /\ collects (Board_from now) 0 ["net"]%string Net_from bd_nets
  /\ collects (Board_from now) 0 ["footprint"]%string (Footprint_from now) bd_footprints
  /\ collects (Board_from now) 0 ["dimension"]%string Dimension_from bd_dimensions
  /\ collects (Board_from now) 0 ["target"]%string Target_from bd_targets
  /\ collects (Board_from now) 0 ["zone"]%string Zone_from bd_zones
  /\ collects (Board_from now) 0 ["group"]%string Group_from bd_groups
  /\ collects (Board_from now) 0 ["gr_text"; "gr_text_box"; "gr_line"; "gr_rect"; "gr_circle"; "gr_arc"; "gr_poly"; "gr_curve"; "image"]%string (by_head [("gr_text"%string, as_ BdItem_GrText GrText_from); ("gr_text_box"%string, as_ BdItem_GrTextBox GrTextBox_from); ("gr_line"%string, as_ BdItem_GrLine GrLine_from); ("gr_rect"%string, as_ BdItem_GrRect GrRect_from); ("gr_circle"%string, as_ BdItem_GrCircle GrCircle_from); ("gr_arc"%string, as_ BdItem_GrArc GrArc_from); ("gr_poly"%string, as_ BdItem_GrPoly GrPoly_from); ("gr_curve"%string, as_ BdItem_GrCurve GrCurve_from); ("image"%string, as_ BdItem_Image Image_from)]) bd_graphicItems
  /\ collects (Board_from now) 0 ["segment"; "arc"; "via"]%string (by_head [("segment"%string, as_ TrItem_Segment Segment_from); ("arc"%string, as_ TrItem_Arc Arc_from); ("via"%string, as_ TrItem_Via Via_from)]) bd_traceItems.
Proof. exact Board_gather. Qed.
Print Assumptions C37_Board.
Example C37_Board_ex : accepts (fun e => Board_from (VStr $"0") e) (Board_tree (ex_board <| bd_version := VInt 20211014 |>)) = true.
Proof. vm_compute. reflexivity. Qed.

