(** What readers give for missing tokens: proofs. *)
From Verif Require Import PyBase PyNum PyStr PyRe Sexpr S_Leaf S_Tree S_Reader L_Keep M_Common M_Lib M_Sym M_Fp M_Gr M_Zone M_Footprint M_Dim M_Brd M_Board.

Lemma DimensionFormat_absent : absent DimensionFormat_from ["prefix"]%string df_prefix VNone /\
  absent DimensionFormat_from ["suffix"]%string df_suffix VNone /\
  absent DimensionFormat_from ["units"]%string df_units (VInt 3) /\
  absent DimensionFormat_from ["units_format"]%string df_unitsFormat (VInt 1) /\
  absent DimensionFormat_from ["precision"]%string df_precision (VInt 4) /\
  absent DimensionFormat_from ["override_value"]%string df_overrideValue VNone /\
  absent DimensionFormat_from ["suppress_zeroes"]%string df_suppressZeroes false.
Proof. repeat split; absent_in DimensionFormat_from DimensionFormat_default. Qed.
Lemma DimensionStyle_absent : absent DimensionStyle_from ["thickness"]%string ds_thickness (fdec 0 0) /\
  absent DimensionStyle_from ["arrow_length"]%string ds_arrowLength (fdec 0 0) /\
  absent DimensionStyle_from ["text_position_mode"]%string ds_textPositionMode (VInt 0) /\
  absent DimensionStyle_from ["extension_height"]%string ds_extensionHeight VNone /\
  absent DimensionStyle_from ["text_frame"]%string ds_textFrame VNone /\
  absent DimensionStyle_from ["extension_offset"]%string ds_extensionOffset VNone /\
  absent DimensionStyle_from ["keep_text_aligned"]%string ds_keepTextAligned false.
Proof. repeat split; absent_in DimensionStyle_from DimensionStyle_default. Qed.
Lemma Dimension_absent : absent Dimension_from ["locked"]%string di_locked false /\
  absent Dimension_from ["type"]%string di_type (VStr $"aligned") /\
  absent Dimension_from ["layer"]%string di_layer (VStr $"F.Cu") /\
  absent Dimension_from ["tstamp"]%string di_tstamp VNone /\
  absent Dimension_from ["pts"]%string di_pts [] /\
  absent Dimension_from ["height"]%string di_height VNone /\
  absent Dimension_from ["orientation"]%string di_orientation VNone /\
  absent Dimension_from ["leader_length"]%string di_leaderLength VNone /\
  absent Dimension_from ["gr_text"]%string di_grText None /\
  absent Dimension_from ["format"]%string di_format None /\
  absent Dimension_from ["style"]%string di_style (mkDimensionStyle (fdec 0 0) (fdec 0 0) (VInt 0) VNone VNone VNone false).
Proof. repeat split; absent_in Dimension_from Dimension_default. Qed.
Lemma GeneralSettings_absent : absent GeneralSettings_from ["thickness"]%string gs_thickness (fdec 16 (-1)).
Proof. repeat split; absent_in GeneralSettings_from GeneralSettings_default. Qed.
Lemma StackupLayer_own_absent {T} (p : StackupLayer -> T) items o :
  (forall o x, p (set sl_subLayers (fun l => l ++ [x]) o) = p o) -> (forall v, p (StackupLayer_default <| sl_name := v |>) = p StackupLayer_default) ->
  (forall o x, In x items -> Keep p o (StackupLayer_own o x)) ->
  StackupLayer_from (VList items) = Ok o -> p o = p StackupLayer_default.
Proof.
  intros P D S. unfold StackupLayer_from. destruct (need_head _ _) as [l|] eqn:El; [|discriminate]. apply need_head_in in El. injection El as <-. cbn [bind].
  unfold setf. destruct (at_ _ 1) as [v|]; [|discriminate]. cbn [bind].
  assert (F : Keep (fun s => p (snd s)) (None, StackupLayer_default <| sl_name := v |>)
                (foldM StackupLayer_next (None, StackupLayer_default <| sl_name := v |>) (skipn 2 items))).
  { apply Keep_fold. intros [t o1] x I. apply in_skip in I. unfold StackupLayer_next. cbv beta iota.
    repeat first [apply Keep_if; intros ? | apply Keep_bind; intros ? ?; cbv beta | destruct t]; try (apply Keep_ok; try reflexivity).
    - match goal with H : addf _ _ _ = Ok _ |- _ => injection H as <- end. apply P.
    - cbn [snd]. eapply S; eassumption. }
  destruct (foldM _ _ _) as [[t o1]|]; [|discriminate]. cbn [bind]. specialize (F _ eq_refl). cbn [snd] in F. rewrite <- (D v), <- F.
  destruct t; [|now intros [= <-]]. unfold addf. cbn [bind]. intros [= <-]. apply P.
Qed.
Lemma StackupLayer_no_sub : absent StackupLayer_from ["addsublayer"%string] sl_subLayers [].
Proof.
  intros items o L. unfold StackupLayer_from. destruct (need_head _ _) as [l|] eqn:El; [|discriminate]. apply need_head_in in El. injection El as <-. cbn [bind].
  unfold setf. destruct (at_ _ 1) as [v|]; [|discriminate]. cbn [bind].
  set (o0 := StackupLayer_default <| sl_name := v |>).
  assert (F : forall l s, (forall x, In x l -> In x items) -> fst s = None -> sl_subLayers (snd s) = [] ->
              forall s', foldM StackupLayer_next s l = Ok s' -> fst s' = None /\ sl_subLayers (snd s') = []).
  { induction l as [|x l IH]; intros s I E1 E2 s'; cbn [foldM]; [now intros [= <-]|].
    change (foldM StackupLayer_next s (x :: l)) with (let! a := StackupLayer_next s x in foldM StackupLayer_next a l).
    destruct (StackupLayer_next s x) as [s1|] eqn:E; [cbn [bind]|discriminate]. apply IH; [intros y Hy; apply I; now right| |];
    destruct s as [t o1]; cbn [fst snd] in E1, E2; subst t; unfold StackupLayer_next in E;
    assert (Hx := I x (or_introl eq_refl)); ab_in; cbv beta iota in E;
    (destruct (is_list x) eqn:Ex; cbn [negb] in E;
     [destruct (StackupLayer_own o1 x) as [o2|] eqn:Eo; [|discriminate E]; cbn [bind] in E; injection E as <-
     |destruct (is_str x "addsublayer") eqn:Ea; [ab_contra|injection E as <-]]);
    cbn [fst snd]; try reflexivity; try exact E2.
    rewrite <- E2. assert (K : Keep sl_subLayers o1 (StackupLayer_own o1 x)) by (unfold StackupLayer_own; keep). exact (K _ Eo). }
  destruct (foldM _ _ _) as [s|] eqn:E; [|discriminate]. cbn [bind].
  destruct (F _ (None, o0) (in_skip 2 items) eq_refl eq_refl _ E) as [E1 E2]. destruct s as [t o1]. cbn [fst snd] in E1, E2. subst t. now intros [= <-].
Qed.
Ltac own_absent := intros items o L; apply StackupLayer_own_absent; [reflexivity|reflexivity|intros o1 x I; ab_in; unfold StackupLayer_own; keep].
Lemma StackupLayer_absent : absent StackupLayer_from ["type"%string] sl_type (VStr []) /\
  absent StackupLayer_from ["color"%string] sl_color VNone /\
  absent StackupLayer_from ["thickness"%string] sl_thickness VNone /\
  absent StackupLayer_from ["material"%string] sl_material VNone /\
  absent StackupLayer_from ["epsilon_r"%string] sl_epsilonR VNone /\
  absent StackupLayer_from ["loss_tangent"%string] sl_lossTangent VNone /\
  absent StackupLayer_from ["addsublayer"%string] sl_subLayers [].
Proof. repeat (split; [own_absent|]). exact StackupLayer_no_sub. Qed.
Lemma Stackup_absent : absent Stackup_from ["layer"]%string sk_layers [] /\
  absent Stackup_from ["copper_finish"]%string sk_copperFinish VNone /\
  absent Stackup_from ["dielectric_constraints"]%string sk_dielectricContraints VNone /\
  absent Stackup_from ["edge_connector"]%string sk_edgeConnector VNone /\
  absent Stackup_from ["castellated_pads"]%string sk_castellatedPads false /\
  absent Stackup_from ["edge_plating"]%string sk_edgePlating false.
Proof. repeat split; absent_in Stackup_from Stackup_default. Qed.
Lemma PlotSettings_absent : absent PlotSettings_from ["layerselection"]%string ps_layerSelection (VStr []) /\
  absent PlotSettings_from ["plot_on_all_layers_selection"]%string ps_plotOnAllLayersSelection VNone /\
  absent PlotSettings_from ["disableapertmacros"]%string ps_disableApertMacros false /\
  absent PlotSettings_from ["usegerberextensions"]%string ps_useGerberExtensions false /\
  absent PlotSettings_from ["usegerberattributes"]%string ps_useGerberAttributes false /\
  absent PlotSettings_from ["usegerberadvancedattributes"]%string ps_useGerberAdvancedAttributes false /\
  absent PlotSettings_from ["creategerberjobfile"]%string ps_createGerberJobFile false /\
  absent PlotSettings_from ["dashed_line_dash_ratio"]%string ps_dashedLineDashRatio VNone /\
  absent PlotSettings_from ["dashed_line_gap_ratio"]%string ps_dashedLineGapRatio VNone /\
  absent PlotSettings_from ["svguseinch"]%string ps_svgUseInch None /\
  absent PlotSettings_from ["svgprecision"]%string ps_svgPrecision (fdec 0 0) /\
  absent PlotSettings_from ["excludeedgelayer"]%string ps_excludeEdgeLayer None /\
  absent PlotSettings_from ["plotframeref"]%string ps_plotFameRef false /\
  absent PlotSettings_from ["viasonmask"]%string ps_viasOnMask false /\
  absent PlotSettings_from ["mode"]%string ps_mode (VInt 1) /\
  absent PlotSettings_from ["useauxorigin"]%string ps_useAuxOrigin false /\
  absent PlotSettings_from ["hpglpennumber"]%string ps_hpglPenNumber (VInt 0) /\
  absent PlotSettings_from ["hpglpenspeed"]%string ps_hpglPenSpeed (VInt 0) /\
  absent PlotSettings_from ["hpglpendiameter"]%string ps_hpglPenDiameter (fdec 0 0) /\
  absent PlotSettings_from ["dxfpolygonmode"]%string ps_dxfPolygonMode false /\
  absent PlotSettings_from ["dxfimperialunits"]%string ps_dxfImperialUnits false /\
  absent PlotSettings_from ["dxfusepcbnewfont"]%string ps_dxfUsePcbnewFont false /\
  absent PlotSettings_from ["psnegative"]%string ps_psNegative false /\
  absent PlotSettings_from ["psa4output"]%string ps_psA4Output false /\
  absent PlotSettings_from ["plotreference"]%string ps_plotReference false /\
  absent PlotSettings_from ["plotvalue"]%string ps_plotValue false /\
  absent PlotSettings_from ["plotinvisibletext"]%string ps_plotInvisibleText false /\
  absent PlotSettings_from ["sketchpadsonfab"]%string ps_sketchPadsOnFab false /\
  absent PlotSettings_from ["subtractmaskfromsilk"]%string ps_subtractMaskFromSilk false /\
  absent PlotSettings_from ["outputformat"]%string ps_outputFormat (VInt 0) /\
  absent PlotSettings_from ["mirror"]%string ps_mirror false /\
  absent PlotSettings_from ["drillshape"]%string ps_drillShape (VInt 0) /\
  absent PlotSettings_from ["scaleselection"]%string ps_scaleSelection (VInt 1) /\
  absent PlotSettings_from ["outputdirectory"]%string ps_outputDirectory (VStr []).
Proof. repeat split; absent_in PlotSettings_from PlotSettings_default. Qed.
Lemma SetupData_absent : absent SetupData_from ["stackup"]%string sd_stackup None /\
  absent SetupData_from ["pad_to_mask_clearance"]%string sd_packToMaskClearance (fdec 0 0) /\
  absent SetupData_from ["solder_mask_min_width"]%string sd_solderMaskMinWidth VNone /\
  absent SetupData_from ["pad_to_paste_clearance"]%string sd_padToPasteClearance VNone /\
  absent SetupData_from ["pad_to_paste_clearance_ratio"]%string sd_padToPasteClearanceRatio VNone /\
  absent SetupData_from ["aux_axis_origin"]%string sd_auxAxisOrigin None /\
  absent SetupData_from ["grid_origin"]%string sd_gridOrigin None /\
  absent SetupData_from ["pcbplotparams"]%string sd_plotSettings None.
Proof. repeat split; absent_in SetupData_from SetupData_default. Qed.
Lemma Segment_absent : absent Segment_from ["start"]%string sg_start (mkPosition (fdec 0 0) (fdec 0 0) VNone false) /\
  absent Segment_from ["end"]%string sg_end (mkPosition (fdec 0 0) (fdec 0 0) VNone false) /\
  absent Segment_from ["width"]%string sg_width (fdec 1 (-1)) /\
  absent Segment_from ["layer"]%string sg_layer (VStr $"F.Cu") /\
  absent Segment_from ["locked"]%string sg_locked false /\
  absent Segment_from ["net"]%string sg_net (VInt 0) /\
  absent Segment_from ["tstamp"]%string sg_tstamp (VStr []).
Proof. repeat split; absent_in Segment_from Segment_default. Qed.
Lemma Via_absent : absent Via_from ["micro"; "blind"]%string vi_type VNone /\
  absent Via_from ["locked"]%string vi_locked false /\
  absent Via_from ["at"]%string vi_position (mkPosition (fdec 0 0) (fdec 0 0) VNone false) /\
  absent Via_from ["size"]%string vi_size (fdec 0 0) /\
  absent Via_from ["drill"]%string vi_drill (fdec 0 0) /\
  absent Via_from ["layers"]%string vi_layers [] /\
  absent Via_from ["remove_unused_layers"]%string vi_removeUnusedLayers false /\
  absent Via_from ["keep_end_layers"]%string vi_keepEndLayers false /\
  absent Via_from ["free"]%string vi_free false /\
  absent Via_from ["net"]%string vi_net (VInt 0) /\
  absent Via_from ["tstamp"]%string vi_tstamp VNone.
Proof. repeat split; absent_in Via_from Via_default. Qed.
Lemma Arc_absent : absent Arc_from ["start"]%string ac_start (mkPosition (fdec 0 0) (fdec 0 0) VNone false) /\
  absent Arc_from ["mid"]%string ac_mid (mkPosition (fdec 0 0) (fdec 0 0) VNone false) /\
  absent Arc_from ["end"]%string ac_end (mkPosition (fdec 0 0) (fdec 0 0) VNone false) /\
  absent Arc_from ["width"]%string ac_width (fdec 2 (-1)) /\
  absent Arc_from ["layer"]%string ac_layer (VStr $"F.Cu") /\
  absent Arc_from ["locked"]%string ac_locked false /\
  absent Arc_from ["net"]%string ac_net (VInt 0) /\
  absent Arc_from ["tstamp"]%string ac_tstamp VNone.
Proof. repeat split; absent_in Arc_from Arc_default. Qed.
Lemma Target_absent : absent Target_from ["at"]%string tg_position (mkPosition (fdec 0 0) (fdec 0 0) VNone false) /\
  absent Target_from ["size"]%string tg_size (VInt 0) /\
  absent Target_from ["width"]%string tg_width (fdec 1 (-1)) /\
  absent Target_from ["layer"]%string tg_layer (VStr $"F.Cu") /\
  absent Target_from ["tstamp"]%string tg_tstamp VNone.
Proof. repeat split; absent_in Target_from Target_default. Qed.
Lemma Board_absent : forall now, absent (Board_from now) ["version"]%string bd_version (VStr []) /\
  absent (Board_from now) ["generator"]%string bd_generator (VStr []) /\
  absent (Board_from now) ["general"]%string bd_general (mkGeneralSettings (fdec 16 (-1))) /\
  absent (Board_from now) ["paper"]%string bd_paper (mkPageSettings (VStr $"A4") VNone VNone false) /\
  absent (Board_from now) ["title_block"]%string bd_titleBlock None /\
  absent (Board_from now) ["layers"]%string bd_layers [] /\
  absent (Board_from now) ["setup"]%string bd_setup (mkSetupData None (fdec 0 0) VNone VNone VNone None None None) /\
  absent (Board_from now) ["property"]%string bd_properties [] /\
  absent (Board_from now) ["net"]%string bd_nets [] /\
  absent (Board_from now) ["footprint"]%string bd_footprints [] /\
  absent (Board_from now) ["gr_text"; "gr_text_box"; "gr_line"; "gr_rect"; "gr_circle"; "gr_arc"; "gr_poly"; "gr_curve"; "image"]%string bd_graphicItems [] /\
  absent (Board_from now) ["segment"; "arc"; "via"]%string bd_traceItems [] /\
  absent (Board_from now) ["zone"]%string bd_zones [] /\
  absent (Board_from now) ["dimension"]%string bd_dimensions [] /\
  absent (Board_from now) ["target"]%string bd_targets [] /\
  absent (Board_from now) ["group"]%string bd_groups [] /\
  absent (Board_from now) [] bd_filePath VNone.
Proof. intros now; repeat split; absent_in Board_from Board_default. Qed.
