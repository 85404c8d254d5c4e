(** Order of the children: proofs. *)
From Verif Require Import PyBase PyNum PyStr PyRe Sexpr S_Leaf S_Tree S_Reader L_Keep L_Swap M_Common M_Lib M_Sym M_Fp M_Gr M_Zone M_Footprint M_Dim M_Brd M_Board.

Lemma DimensionFormat_swap : swaps DimensionFormat_from 0 [["suppress_zeroes"]; ["prefix"]; ["suffix"]; ["units"]; ["units_format"]; ["precision"]; ["override_value"]]%string.
Proof. swap_in DimensionFormat_from DimensionFormat_step 0. Qed.
Lemma DimensionStyle_swap : swaps DimensionStyle_from 0 [["keep_text_aligned"]; ["thickness"]; ["arrow_length"]; ["text_position_mode"]; ["extension_height"]; ["text_frame"]; ["extension_offset"]]%string.
Proof. swap_in DimensionStyle_from DimensionStyle_step 0. Qed.
Lemma Dimension_swap : swaps Dimension_from 0 [["locked"]; ["type"]; ["layer"]; ["tstamp"]; ["height"]; ["orientation"]; ["leader_length"]; ["gr_text"]; ["format"]; ["style"]; ["pts"]]%string.
Proof. swap_in Dimension_from Dimension_step 0. Qed.
Lemma GeneralSettings_swap : swaps GeneralSettings_from 0 [["thickness"]]%string.
Proof. swap_in GeneralSettings_from GeneralSettings_step 0. Qed.
Lemma StackupLayer_swap : forall h before x y after o, 1 <= length before -> (is_list x && is_list y)%bool = true ->
  apart [["type"]; ["thickness"]; ["material"]; ["epsilon_r"]; ["loss_tangent"]; ["color"]]%string x y = true ->
  StackupLayer_from (VList (h :: before ++ x :: y :: after)) = Ok o -> StackupLayer_from (VList (h :: before ++ y :: x :: after)) = Ok o.
Proof.
  intros h before x y after o H W K. swap_args 1 H before.
  apply apart_group in K; repeat (let G := fresh "G" in apply Forall_cons_iff in K as [G K]); clear K.
  apply andb_prop in W as [W1 W2].
  assert (C1 : Comm (fun o => StackupLayer_own o x) (fun o => StackupLayer_own o y)) by (unfold StackupLayer_own; comm o).
  assert (C2 : Comm (fun t => StackupSubLayer_step t x) (fun t => StackupSubLayer_step t y)).
  { assert (w : StackupSubLayer) by exact StackupSubLayer_default. unfold StackupSubLayer_step. comm w. }
  assert (C : Comm (fun s => StackupLayer_next s x) (fun s => StackupLayer_next s y)).
  { intros [t o1] s'. unfold StackupLayer_next. rewrite W1, W2. cbn [negb]. destruct t as [t|].
    - specialize (C2 t). cbv beta in C2. intros E. apply bind_inv in E as (s1 & E1 & E2). apply bind_inv in E1 as (t1 & E1 & [= <-]).
      apply bind_inv in E2 as (t2 & E2 & [= <-]). specialize (C2 t2). rewrite E1 in C2. cbn [bind] in C2. specialize (C2 E2).
      apply bind_inv in C2 as (t3 & F1 & F2). rewrite F1. cbn [bind]. rewrite F2. reflexivity.
    - specialize (C1 o1). cbv beta in C1. intros E. apply bind_inv in E as (s1 & E1 & E2). apply bind_inv in E1 as (t1 & E1 & [= <-]).
      apply bind_inv in E2 as (t2 & E2 & [= <-]). specialize (C1 t2). rewrite E1 in C1. cbn [bind] in C1. specialize (C1 E2).
      apply bind_inv in C1 as (t3 & F1 & F2). rewrite F1. cbn [bind]. rewrite F2. reflexivity. }
  unfold StackupLayer_from, need_head, need_list; cbn [app at_ nth_error bind Datatypes.length skipn Nat.ltb Nat.leb].
  destruct (is_str h "layer"); [|discriminate]. cbn [bind]. destruct (setf _ _ _) as [o1|]; [|discriminate]. cbn [bind].
  intros E. apply bind_inv in E as (s & E & F). rewrite (fold_swap _ _ _ _ _ C _ _ E). exact F.
Qed.
Lemma Stackup_swap : swaps Stackup_from 0 [["layer"]; ["copper_finish"]; ["dielectric_constraints"]; ["edge_connector"]; ["castellated_pads"]; ["edge_plating"]]%string.
Proof. swap_in Stackup_from Stackup_step 0. Qed.
Lemma PlotSettings_swap : swaps PlotSettings_from 0 [["layerselection"]; ["plot_on_all_layers_selection"]; ["disableapertmacros"]; ["usegerberextensions"]; ["usegerberattributes"]; ["usegerberadvancedattributes"]; ["creategerberjobfile"]; ["dashed_line_dash_ratio"]; ["dashed_line_gap_ratio"]; ["svguseinch"]; ["svgprecision"]; ["excludeedgelayer"]; ["plotframeref"]; ["viasonmask"]; ["mode"]; ["useauxorigin"]; ["hpglpennumber"]; ["hpglpenspeed"]; ["hpglpendiameter"]; ["dxfpolygonmode"]; ["dxfimperialunits"]; ["dxfusepcbnewfont"]; ["psnegative"]; ["psa4output"]; ["plotreference"]; ["plotvalue"]; ["plotinvisibletext"]; ["sketchpadsonfab"]; ["subtractmaskfromsilk"]; ["outputformat"]; ["mirror"]; ["drillshape"]; ["scaleselection"]; ["outputdirectory"]]%string.
Proof. swap_in PlotSettings_from PlotSettings_step 0. Qed.
Lemma SetupData_swap : swaps SetupData_from 0 [["stackup"]; ["pcbplotparams"]; ["pad_to_mask_clearance"]; ["solder_mask_min_width"]; ["pad_to_paste_clearance"]; ["pad_to_paste_clearance_ratio"]; ["aux_axis_origin"]; ["grid_origin"]]%string.
Proof. swap_in SetupData_from SetupData_step 0. Qed.
Lemma Segment_swap : swaps Segment_from 0 [["locked"]; ["start"]; ["end"]; ["width"]; ["layer"]; ["net"]; ["tstamp"]]%string.
Proof. swap_in Segment_from Segment_step 0. Qed.
Lemma Via_swap : swaps Via_from 0 [["locked"]; ["micro"; "blind"]; ["at"]; ["size"]; ["drill"]; ["layers"]; ["remove_unused_layers"]; ["keep_end_layers"]; ["free"]; ["net"]; ["tstamp"]]%string.
Proof. swap_in Via_from Via_step 0. Qed.
Lemma Arc_swap : swaps Arc_from 0 [["locked"]; ["start"]; ["mid"]; ["end"]; ["width"]; ["layer"]; ["net"]; ["tstamp"]]%string.
Proof. swap_in Arc_from Arc_step 0. Qed.
Lemma Target_swap : swaps Target_from 1 [["at"]; ["size"]; ["width"]; ["layer"]; ["tstamp"]]%string.
Proof. swap_in Target_from Target_step 1. Qed.
Lemma Board_swap : forall now, swaps (Board_from now) 0 [["version"]; ["generator"]; ["general"]; ["paper"]; ["title_block"]; ["layers"]; ["setup"]; ["property"]; ["net"]; ["footprint"]; ["gr_text"; "gr_text_box"; "gr_line"; "gr_rect"; "gr_circle"; "gr_arc"; "gr_poly"; "gr_curve"; "image"]; ["dimension"]; ["target"]; ["segment"; "arc"; "via"]; ["zone"]; ["group"]]%string.
Proof. intros now; swap_in Board_from Board_step 0. Qed.
