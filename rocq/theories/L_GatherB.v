(** Collected children: proofs. *)
From Verif Require Import PyBase PyNum PyStr PyRe Sexpr S_Leaf S_Tree S_Reader S_Gather L_Tac L_Keep L_Gather M_Common M_Lib M_Sym M_Zone M_Fp M_Gr M_Dim M_Brd M_Footprint M_Board M_Sch M_Schematic M_Wks.

Lemma FpPoly_gather : collects_args FpPoly_from 0 ["pts"]%string Position_from fp_coordinates.
Proof. collect_in FpPoly_from FpPoly_step FpPoly_default. Qed.
Lemma FpCurve_gather : collects_args FpCurve_from 0 ["pts"]%string Position_from fv_coordinates.
Proof. collect_in FpCurve_from FpCurve_step FpCurve_default. Qed.
Lemma GrPoly_gather : collects_args GrPoly_from 0 ["pts"]%string Position_from gp_coordinates.
Proof. collect_in GrPoly_from GrPoly_step GrPoly_default. Qed.
Lemma GrCurve_gather : collects_args GrCurve_from 0 ["pts"]%string Position_from gv_coordinates.
Proof. collect_in GrCurve_from GrCurve_step GrCurve_default. Qed.
Lemma Dimension_gather : collects_args Dimension_from 1 ["pts"]%string Position_from di_pts.
Proof. collect_in Dimension_from Dimension_step Dimension_default. Qed.
Lemma Stackup_gather : collects Stackup_from 0 ["layer"]%string StackupLayer_from sk_layers.
Proof. collect_in Stackup_from Stackup_step Stackup_default. Qed.
Lemma Via_gather : copies_args Via_from 0 ["layers"]%string vi_layers.
Proof. collect_in Via_from Via_step Via_default. Qed.
Lemma Pad_gather : copies_args Pad_from 3 ["layers"]%string pd_layers
  /\ copies_args Pad_from 3 ["chamfer"]%string pd_chamfer.
Proof. repeat apply conj; collect_in Pad_from Pad_step Pad_default. Qed.
Lemma Footprint_gather : forall now, collects (Footprint_from now) 2 ["model"]%string Model_from fd_models
  /\ collects (Footprint_from now) 2 ["pad"]%string Pad_from fd_pads
  /\ collects (Footprint_from now) 2 ["zone"]%string Zone_from fd_zones
  /\ collects (Footprint_from now) 2 ["group"]%string Group_from fd_groups
  /\ copies_args (Footprint_from now) 2 ["private_layers"]%string fd_privateLayers
  /\ copies_args (Footprint_from now) 2 ["net_tie_pad_groups"]%string fd_netTiePadGroups
  /\ collects (Footprint_from now) 2 ["fp_text"; "fp_text_box"; "fp_line"; "fp_rect"; "fp_circle"; "fp_arc"; "fp_poly"; "fp_curve"; "image"]%string (by_head [("fp_text"%string, as_ FpItem_FpText FpText_from); ("fp_text_box"%string, as_ FpItem_FpTextBox FpTextBox_from); ("fp_line"%string, as_ FpItem_FpLine FpLine_from); ("fp_rect"%string, as_ FpItem_FpRect FpRect_from); ("fp_circle"%string, as_ FpItem_FpCircle FpCircle_from); ("fp_arc"%string, as_ FpItem_FpArc FpArc_from); ("fp_poly"%string, as_ FpItem_FpPoly FpPoly_from); ("fp_curve"%string, as_ FpItem_FpCurve FpCurve_from); ("image"%string, as_ FpItem_Image Image_from)]) fd_graphicItems.
Proof. intros now; repeat apply conj; collect_in Footprint_from Footprint_step (Footprint_default now). Qed.
Lemma Board_gather : forall now, collects_args (Board_from now) 0 ["layers"]%string LayerToken_from bd_layers
  /\ collects (Board_from now) 0 ["net"]%string Net_from bd_nets
  /\ collects (Board_from now) 0 ["footprint"]%string (Footprint_from now) bd_footprints
  /\ collects (Board_from now) 0 ["dimension"]%string Dimension_from bd_dimensions
  /\ collects (Board_from now) 0 ["target"]%string Target_from bd_targets
  /\ collects (Board_from now) 0 ["zone"]%string Zone_from bd_zones
  /\ collects (Board_from now) 0 ["group"]%string Group_from bd_groups
  /\ collects (Board_from now) 0 ["gr_text"; "gr_text_box"; "gr_line"; "gr_rect"; "gr_circle"; "gr_arc"; "gr_poly"; "gr_curve"; "image"]%string (by_head [("gr_text"%string, as_ BdItem_GrText GrText_from); ("gr_text_box"%string, as_ BdItem_GrTextBox GrTextBox_from); ("gr_line"%string, as_ BdItem_GrLine GrLine_from); ("gr_rect"%string, as_ BdItem_GrRect GrRect_from); ("gr_circle"%string, as_ BdItem_GrCircle GrCircle_from); ("gr_arc"%string, as_ BdItem_GrArc GrArc_from); ("gr_poly"%string, as_ BdItem_GrPoly GrPoly_from); ("gr_curve"%string, as_ BdItem_GrCurve GrCurve_from); ("image"%string, as_ BdItem_Image Image_from)]) bd_graphicItems
  /\ collects (Board_from now) 0 ["segment"; "arc"; "via"]%string (by_head [("segment"%string, as_ TrItem_Segment Segment_from); ("arc"%string, as_ TrItem_Arc Arc_from); ("via"%string, as_ TrItem_Via Via_from)]) bd_traceItems.
Proof. intros now; repeat apply conj; collect_in Board_from Board_step Board_default. Qed.
