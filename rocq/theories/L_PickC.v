(** From which tokens the attributes are taken: proofs.  The statements were generated from the
    from_sexpr methods in /repo/src/kiutils, by reading their syntax trees. *)
From Verif Require Import PyBase PyNum PyStr PyRe Sexpr S_Leaf S_Tree S_Reader S_Gather S_Pick L_Lex L_Seq L_Keep L_Swap L_Pick M_Common M_Gr M_Zone M_Footprint M_Dim M_Brd M_Board.

Lemma DimensionFormat_pick : marks DimensionFormat_from 1 ["suppress_zeroes"]%string "suppress_zeroes"%string true df_suppressZeroes /\
  picks DimensionFormat_from 1 ["prefix"]%string "prefix"%string (arg 1) df_prefix /\
  picks DimensionFormat_from 1 ["suffix"]%string "suffix"%string (arg 1) df_suffix /\
  picks DimensionFormat_from 1 ["units"]%string "units"%string (arg 1) df_units /\
  picks DimensionFormat_from 1 ["units_format"]%string "units_format"%string (arg 1) df_unitsFormat /\
  picks DimensionFormat_from 1 ["precision"]%string "precision"%string (arg 1) df_precision /\
  picks DimensionFormat_from 1 ["override_value"]%string "override_value"%string (arg 1) df_overrideValue.
Proof. repeat apply conj; pick_in DimensionFormat_from DimensionFormat_step. Qed.
Lemma DimensionStyle_pick : marks DimensionStyle_from 1 ["keep_text_aligned"]%string "keep_text_aligned"%string true ds_keepTextAligned /\
  picks DimensionStyle_from 1 ["thickness"]%string "thickness"%string (arg 1) ds_thickness /\
  picks DimensionStyle_from 1 ["arrow_length"]%string "arrow_length"%string (arg 1) ds_arrowLength /\
  picks DimensionStyle_from 1 ["text_position_mode"]%string "text_position_mode"%string (arg 1) ds_textPositionMode /\
  picks DimensionStyle_from 1 ["extension_height"]%string "extension_height"%string (arg 1) ds_extensionHeight /\
  picks DimensionStyle_from 1 ["text_frame"]%string "text_frame"%string (arg 1) ds_textFrame /\
  picks DimensionStyle_from 1 ["extension_offset"]%string "extension_offset"%string (arg 1) ds_extensionOffset.
Proof. repeat apply conj; pick_in DimensionStyle_from DimensionStyle_step. Qed.
Lemma Dimension_pick : marks Dimension_from 1 ["locked"]%string "locked"%string true di_locked /\
  picks Dimension_from 1 ["type"]%string "type"%string (arg 1) di_type /\
  picks Dimension_from 1 ["layer"]%string "layer"%string (arg 1) di_layer /\
  picks Dimension_from 1 ["tstamp"]%string "tstamp"%string (arg 1) di_tstamp /\
  picks Dimension_from 1 ["height"]%string "height"%string (arg 1) di_height /\
  picks Dimension_from 1 ["orientation"]%string "orientation"%string (arg 1) di_orientation /\
  picks Dimension_from 1 ["leader_length"]%string "leader_length"%string (arg 1) di_leaderLength /\
  picks Dimension_from 1 ["gr_text"]%string "gr_text"%string (as_ Some GrText_from) di_grText /\
  picks Dimension_from 1 ["format"]%string "format"%string (as_ Some DimensionFormat_from) di_format /\
  picks Dimension_from 1 ["style"]%string "style"%string DimensionStyle_from di_style.
Proof. repeat apply conj; pick_in Dimension_from Dimension_step. Qed.
Lemma GeneralSettings_pick : picks GeneralSettings_from 0 ["thickness"]%string "thickness"%string (arg 1) gs_thickness.
Proof. repeat apply conj; pick_in GeneralSettings_from GeneralSettings_step. Qed.
(** The reader of a stackup layer hands the tokens behind [addsublayer] to the sub-layers. *)
Lemma StackupLayer_next_own {T} (p : StackupLayer -> T) items : lacks ["addsublayer"%string] items = true ->
  forall o s, foldM StackupLayer_next (None, o) items = Ok s -> fst s = None.
Proof.
  intros L. induction items as [|x l IH]; intros o s E; [injection E as <-; reflexivity|].
  change (bind (StackupLayer_next (None, o) x) (fun s => foldM StackupLayer_next s l) = Ok s) in E.
  apply bind_inv in E as (s1 & E1 & E2). unfold lacks in L. cbn [forallb] in L. apply andb_prop in L as [L1 L2].
  assert (N : fst s1 = None).
  { unfold StackupLayer_next in E1. destruct (is_list x) eqn:W; cbn [negb] in E1.
    - apply bind_inv in E1 as (o1 & _ & E1). injection E1 as <-. reflexivity.
    - destruct (x =s "addsublayer") eqn:W2; [|injection E1 as <-; reflexivity].
      exfalso. destruct x; try discriminate W; cbn [existsb token] in L1; rewrite W2 in L1; discriminate L1. }
  destruct s1 as [t o1]. cbn [fst] in N. subst t. exact (IH L2 _ _ E2).
Qed.
Lemma StackupLayer_next_sub {T} (p : StackupLayer -> T) items : (forall o x, p (set sl_subLayers (fun l => l ++ [x]) o) = p o) ->
  forall t o s, foldM StackupLayer_next (Some t, o) items = Ok s -> p (snd s) = p o.
Proof.
  intros P. induction items as [|x l IH]; intros t o s E; [injection E as <-; reflexivity|].
  change (bind (StackupLayer_next (Some t, o) x) (fun s => foldM StackupLayer_next s l) = Ok s) in E.
  apply bind_inv in E as (s1 & E1 & E2). unfold StackupLayer_next in E1.
  destruct (negb (is_list x)).
  - destruct (x =s "addsublayer"); [cbn [addf bind] in E1|]; injection E1 as <-; rewrite (IH _ _ _ E2); [apply P|reflexivity].
  - apply bind_inv in E1 as (t1 & _ & E1). injection E1 as <-. exact (IH _ _ _ E2).
Qed.
Lemma StackupLayer_pick_by {T} (p : StackupLayer -> T) keys k f :
  (forall o x, p (set sl_subLayers (fun l => l ++ [x]) o) = p o) ->
  (forall o y, existsb (fun k => token k y) keys = false -> Keep p o (StackupLayer_own o y)) ->
  (forall args o, Hit p (f (VList (VStr $k :: args))) (StackupLayer_own o (VList (VStr $k :: args)))) ->
  picks_until StackupLayer_from 2 "addsublayer"%string keys k f p.
Proof.
  intros P K H before args after rest o N L1 L2 L3 R. unfold StackupLayer_from.
  destruct (need_head _ _) as [l|] eqn:El; [|discriminate]. apply need_head_in in El. injection El as <-. cbn [bind].
  intros E. apply bind_inv in E as (o0 & _ & E). apply bind_inv in E as (s & E & F).
  rewrite skipn_app, (proj2 (Nat.sub_0_le _ _) N) in E. cbn [skipn] in E. rewrite foldM_app in E.
  apply bind_inv in E as (s1 & E1 & E). change (bind (StackupLayer_next s1 (VList (VStr $k :: args))) (fun s => foldM StackupLayer_next s (after ++ rest)) = Ok s) in E.
  apply bind_inv in E as (s2 & E2 & E). rewrite foldM_app in E. apply bind_inv in E as (s3 & E3 & E4).
  assert (L0 : lacks ["addsublayer"%string] (skipn 2 before) = true).
  { unfold lacks in *. rewrite forallb_forall in *. intros y Hy. apply L1. exact (in_skip _ _ _ Hy). }
  assert (N1 := StackupLayer_next_own p _ L0 _ _ E1). destruct s1 as [t1 o1]. cbn [fst] in N1. subst t1.
  unfold StackupLayer_next in E2. cbn [is_list negb] in E2. apply bind_inv in E2 as (o2 & E2 & E2'). injection E2' as <-.
  rewrite (H _ _ _ E2). f_equal. symmetry.
  assert (N3 := StackupLayer_next_own p _ L2 _ _ E3). destruct s3 as [t3 o3]. cbn [fst] in N3. subst t3.
  transitivity (p (snd s)); [destruct s as [[t|] o4]; [cbn [addf bind] in F|]; injection F as <-; [apply P|reflexivity]|].
  transitivity (p o3).
  - destruct R as [->|[rest' ->]]; [injection E4 as <-; reflexivity|].
    change (foldM StackupLayer_next (Some StackupSubLayer_default, o3) rest' = Ok s) in E4. exact (StackupLayer_next_sub p _ P _ _ _ E4).
  - clear - K L2 L3 E3. revert o2 E3. induction after as [|y l IH]; intros o2 E; [injection E as <-; reflexivity|].
    change (bind (StackupLayer_next (None, o2) y) (fun s => foldM StackupLayer_next s l) = Ok (None, o3)) in E.
    apply bind_inv in E as (s1 & E1 & E2). unfold lacks in L2, L3. cbn [forallb] in L2, L3. apply andb_prop in L2 as [L2 L2']. apply andb_prop in L3 as [L3 L3'].
    assert (N : exists o4, s1 = (None, o4) /\ p o4 = p o2).
    { unfold StackupLayer_next in E1. destruct (is_list y) eqn:W; cbn [negb] in E1.
      - apply bind_inv in E1 as (o4 & E1 & E1'). injection E1' as <-. exists o4. split; [reflexivity|]. refine (K _ _ _ _ E1). now apply Bool.negb_true_iff.
      - destruct (y =s "addsublayer") eqn:W2; [|injection E1 as <-; exists o2; split; reflexivity].
        exfalso. destruct y; try discriminate W; cbn [existsb token] in L2; rewrite W2 in L2; discriminate L2. }
    destruct N as (o4 & -> & <-). exact (IH L2' L3' _ E2).
Qed.
Ltac stackup_pick := apply StackupLayer_pick_by; [reflexivity | intros ? ? ?; unfold StackupLayer_own; solve [pkeep] | intros ? ?; unfold StackupLayer_own; repeat hit_step].
Lemma StackupLayer_pick : picks_until StackupLayer_from 2 "addsublayer"%string ["type"]%string "type"%string (arg 1) sl_type /\
  picks_until StackupLayer_from 2 "addsublayer"%string ["thickness"]%string "thickness"%string (arg 1) sl_thickness /\
  picks_until StackupLayer_from 2 "addsublayer"%string ["material"]%string "material"%string (arg 1) sl_material /\
  picks_until StackupLayer_from 2 "addsublayer"%string ["epsilon_r"]%string "epsilon_r"%string (arg 1) sl_epsilonR /\
  picks_until StackupLayer_from 2 "addsublayer"%string ["loss_tangent"]%string "loss_tangent"%string (arg 1) sl_lossTangent /\
  picks_until StackupLayer_from 2 "addsublayer"%string ["color"]%string "color"%string (arg 1) sl_color.
Proof. repeat apply conj; stackup_pick. Qed.
Lemma Stackup_pick : picks Stackup_from 0 ["copper_finish"]%string "copper_finish"%string (arg 1) sk_copperFinish /\
  picks Stackup_from 0 ["dielectric_constraints"]%string "dielectric_constraints"%string (arg 1) sk_dielectricContraints /\
  picks Stackup_from 0 ["edge_connector"]%string "edge_connector"%string (arg 1) sk_edgeConnector /\
  picks Stackup_from 0 ["castellated_pads"]%string "castellated_pads"%string (const true) sk_castellatedPads /\
  picks Stackup_from 0 ["edge_plating"]%string "edge_plating"%string (const true) sk_edgePlating.
Proof. repeat apply conj; pick_in Stackup_from Stackup_step. Qed.
Lemma PlotSettings_pick : picks PlotSettings_from 0 ["layerselection"]%string "layerselection"%string (arg 1) ps_layerSelection /\
  picks PlotSettings_from 0 ["plot_on_all_layers_selection"]%string "plot_on_all_layers_selection"%string (arg 1) ps_plotOnAllLayersSelection /\
  picks PlotSettings_from 0 ["disableapertmacros"]%string "disableapertmacros"%string (arg_is 1 "true"%string) ps_disableApertMacros /\
  picks PlotSettings_from 0 ["usegerberextensions"]%string "usegerberextensions"%string (arg_is 1 "true"%string) ps_useGerberExtensions /\
  picks PlotSettings_from 0 ["usegerberattributes"]%string "usegerberattributes"%string (arg_is 1 "true"%string) ps_useGerberAttributes /\
  picks PlotSettings_from 0 ["usegerberadvancedattributes"]%string "usegerberadvancedattributes"%string (arg_is 1 "true"%string) ps_useGerberAdvancedAttributes /\
  picks PlotSettings_from 0 ["creategerberjobfile"]%string "creategerberjobfile"%string (arg_is 1 "true"%string) ps_createGerberJobFile /\
  picks PlotSettings_from 0 ["dashed_line_dash_ratio"]%string "dashed_line_dash_ratio"%string (arg 1) ps_dashedLineDashRatio /\
  picks PlotSettings_from 0 ["dashed_line_gap_ratio"]%string "dashed_line_gap_ratio"%string (arg 1) ps_dashedLineGapRatio /\
  picks PlotSettings_from 0 ["svguseinch"]%string "svguseinch"%string (as_ Some (arg_is 1 "true"%string)) ps_svgUseInch /\
  picks PlotSettings_from 0 ["svgprecision"]%string "svgprecision"%string (arg 1) ps_svgPrecision /\
  picks PlotSettings_from 0 ["excludeedgelayer"]%string "excludeedgelayer"%string (as_ Some (arg_is 1 "true"%string)) ps_excludeEdgeLayer /\
  picks PlotSettings_from 0 ["plotframeref"]%string "plotframeref"%string (arg_is 1 "true"%string) ps_plotFameRef /\
  picks PlotSettings_from 0 ["viasonmask"]%string "viasonmask"%string (arg_is 1 "true"%string) ps_viasOnMask /\
  picks PlotSettings_from 0 ["mode"]%string "mode"%string (arg 1) ps_mode /\
  picks PlotSettings_from 0 ["useauxorigin"]%string "useauxorigin"%string (arg_is 1 "true"%string) ps_useAuxOrigin /\
  picks PlotSettings_from 0 ["hpglpennumber"]%string "hpglpennumber"%string (arg 1) ps_hpglPenNumber /\
  picks PlotSettings_from 0 ["hpglpenspeed"]%string "hpglpenspeed"%string (arg 1) ps_hpglPenSpeed /\
  picks PlotSettings_from 0 ["hpglpendiameter"]%string "hpglpendiameter"%string (arg 1) ps_hpglPenDiameter /\
  picks PlotSettings_from 0 ["dxfpolygonmode"]%string "dxfpolygonmode"%string (arg_is 1 "true"%string) ps_dxfPolygonMode /\
  picks PlotSettings_from 0 ["dxfimperialunits"]%string "dxfimperialunits"%string (arg_is 1 "true"%string) ps_dxfImperialUnits /\
  picks PlotSettings_from 0 ["dxfusepcbnewfont"]%string "dxfusepcbnewfont"%string (arg_is 1 "true"%string) ps_dxfUsePcbnewFont /\
  picks PlotSettings_from 0 ["psnegative"]%string "psnegative"%string (arg_is 1 "true"%string) ps_psNegative /\
  picks PlotSettings_from 0 ["psa4output"]%string "psa4output"%string (arg_is 1 "true"%string) ps_psA4Output /\
  picks PlotSettings_from 0 ["plotreference"]%string "plotreference"%string (arg_is 1 "true"%string) ps_plotReference /\
  picks PlotSettings_from 0 ["plotvalue"]%string "plotvalue"%string (arg_is 1 "true"%string) ps_plotValue /\
  picks PlotSettings_from 0 ["plotinvisibletext"]%string "plotinvisibletext"%string (arg_is 1 "true"%string) ps_plotInvisibleText /\
  picks PlotSettings_from 0 ["sketchpadsonfab"]%string "sketchpadsonfab"%string (arg_is 1 "true"%string) ps_sketchPadsOnFab /\
  picks PlotSettings_from 0 ["subtractmaskfromsilk"]%string "subtractmaskfromsilk"%string (arg_is 1 "true"%string) ps_subtractMaskFromSilk /\
  picks PlotSettings_from 0 ["outputformat"]%string "outputformat"%string (arg 1) ps_outputFormat /\
  picks PlotSettings_from 0 ["mirror"]%string "mirror"%string (arg_is 1 "true"%string) ps_mirror /\
  picks PlotSettings_from 0 ["drillshape"]%string "drillshape"%string (arg 1) ps_drillShape /\
  picks PlotSettings_from 0 ["scaleselection"]%string "scaleselection"%string (arg 1) ps_scaleSelection /\
  picks PlotSettings_from 0 ["outputdirectory"]%string "outputdirectory"%string (arg 1) ps_outputDirectory.
Proof. repeat apply conj; pick_in PlotSettings_from PlotSettings_step. Qed.
Lemma SetupData_pick : picks SetupData_from 0 ["stackup"]%string "stackup"%string (as_ Some Stackup_from) sd_stackup /\
  picks SetupData_from 0 ["pcbplotparams"]%string "pcbplotparams"%string (as_ Some PlotSettings_from) sd_plotSettings /\
  picks SetupData_from 0 ["pad_to_mask_clearance"]%string "pad_to_mask_clearance"%string (arg 1) sd_packToMaskClearance /\
  picks SetupData_from 0 ["solder_mask_min_width"]%string "solder_mask_min_width"%string (arg 1) sd_solderMaskMinWidth /\
  picks SetupData_from 0 ["pad_to_paste_clearance"]%string "pad_to_paste_clearance"%string (arg 1) sd_padToPasteClearance /\
  picks SetupData_from 0 ["pad_to_paste_clearance_ratio"]%string "pad_to_paste_clearance_ratio"%string (arg 1) sd_padToPasteClearanceRatio /\
  picks SetupData_from 0 ["aux_axis_origin"]%string "aux_axis_origin"%string (as_ Some Position_from) sd_auxAxisOrigin /\
  picks SetupData_from 0 ["grid_origin"]%string "grid_origin"%string (as_ Some Position_from) sd_gridOrigin.
Proof. repeat apply conj; pick_in SetupData_from SetupData_step. Qed.
Lemma Segment_pick : marks Segment_from 0 ["locked"]%string "locked"%string true sg_locked /\
  picks Segment_from 0 ["start"]%string "start"%string Position_from sg_start /\
  picks Segment_from 0 ["end"]%string "end"%string Position_from sg_end /\
  picks Segment_from 0 ["width"]%string "width"%string (arg 1) sg_width /\
  picks Segment_from 0 ["layer"]%string "layer"%string (arg 1) sg_layer /\
  picks Segment_from 0 ["net"]%string "net"%string (arg 1) sg_net /\
  picks Segment_from 0 ["tstamp"]%string "tstamp"%string (arg 1) sg_tstamp.
Proof. repeat apply conj; pick_in Segment_from Segment_step. Qed.
Lemma Via_pick : marks Via_from 0 ["locked"]%string "locked"%string true vi_locked /\
  marks Via_from 0 ["micro"; "blind"]%string "micro"%string (VStr $"micro") vi_type /\
  marks Via_from 0 ["micro"; "blind"]%string "blind"%string (VStr $"blind") vi_type /\
  picks Via_from 0 ["at"]%string "at"%string Position_from vi_position /\
  picks Via_from 0 ["size"]%string "size"%string (arg 1) vi_size /\
  picks Via_from 0 ["drill"]%string "drill"%string (arg 1) vi_drill /\
  picks Via_from 0 ["remove_unused_layers"]%string "remove_unused_layers"%string (const true) vi_removeUnusedLayers /\
  picks Via_from 0 ["keep_end_layers"]%string "keep_end_layers"%string (const true) vi_keepEndLayers /\
  picks Via_from 0 ["free"]%string "free"%string (const true) vi_free /\
  picks Via_from 0 ["net"]%string "net"%string (arg 1) vi_net /\
  picks Via_from 0 ["tstamp"]%string "tstamp"%string (arg 1) vi_tstamp.
Proof. repeat apply conj; pick_in Via_from Via_step. Qed.
Lemma Arc_pick : marks Arc_from 0 ["locked"]%string "locked"%string true ac_locked /\
  picks Arc_from 0 ["start"]%string "start"%string Position_from ac_start /\
  picks Arc_from 0 ["mid"]%string "mid"%string Position_from ac_mid /\
  picks Arc_from 0 ["end"]%string "end"%string Position_from ac_end /\
  picks Arc_from 0 ["width"]%string "width"%string (arg 1) ac_width /\
  picks Arc_from 0 ["layer"]%string "layer"%string (arg 1) ac_layer /\
  picks Arc_from 0 ["net"]%string "net"%string (arg 1) ac_net /\
  picks Arc_from 0 ["tstamp"]%string "tstamp"%string (arg 1) ac_tstamp.
Proof. repeat apply conj; pick_in Arc_from Arc_step. Qed.
Lemma Target_pick : picks Target_from 2 ["at"]%string "at"%string Position_from tg_position /\
  picks Target_from 2 ["size"]%string "size"%string (arg 1) tg_size /\
  picks Target_from 2 ["width"]%string "width"%string (arg 1) tg_width /\
  picks Target_from 2 ["layer"]%string "layer"%string (arg 1) tg_layer /\
  picks Target_from 2 ["tstamp"]%string "tstamp"%string (arg 1) tg_tstamp.
Proof. repeat apply conj; pick_in Target_from Target_step. Qed.
Lemma Board_pick now : picks (Board_from now) 0 ["version"]%string "version"%string (arg 1) bd_version /\
  picks (Board_from now) 0 ["generator"]%string "generator"%string (arg 1) bd_generator /\
  picks (Board_from now) 0 ["general"]%string "general"%string GeneralSettings_from bd_general /\
  picks (Board_from now) 0 ["paper"]%string "paper"%string PageSettings_from bd_paper /\
  picks (Board_from now) 0 ["title_block"]%string "title_block"%string (as_ Some TitleBlock_from) bd_titleBlock /\
  picks (Board_from now) 0 ["setup"]%string "setup"%string SetupData_from bd_setup.
Proof. repeat apply conj; pick_in Board_from Board_step. Qed.
