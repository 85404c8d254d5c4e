(** When the flags are set: proofs.  The statements were generated from the from_sexpr methods, except those at the end. *)
From Verif Require Import PyBase PyNum PyStr PyRe Sexpr S_Leaf S_Tree S_Id S_Reader S_Gather S_Pick S_Place L_Lex L_Seq L_Tac L_Keep L_Swap L_Pick L_Id L_SymId L_Place M_Common M_Lib M_Sym M_Fp M_Gr M_Zone M_Footprint M_Dim M_Brd M_Board M_Sch M_Schematic M_Wks L_PlaceA.

Lemma Position_flags : flags Position_from 0 (word "unlocked"%string) po_unlocked.
Proof. repeat apply conj; flag_in Position_from Position_from Position_default. Qed.
Lemma Font_flags : flags Font_from 0 (word "bold"%string) fo_bold /\ flags Font_from 0 (word "italic"%string) fo_italic.
Proof. repeat apply conj; flag_in Font_from Font_step Font_default. Qed.
Lemma Justify_flags : flags Justify_from 0 (word "mirror"%string) ju_mirror.
Proof. repeat apply conj; flag_in Justify_from Justify_step Justify_default. Qed.
Lemma Effects_flags : flags Effects_from 0 (word "hide"%string) ef_hide.
Proof. repeat apply conj; flag_in Effects_from Effects_step Effects_default. Qed.
Lemma Group_flags : flags Group_from 0 (word "locked"%string) M_Common.gr_locked.
Proof. repeat apply conj; flag_in Group_from Group_step Group_default. Qed.
Lemma PageSettings_flags : flags PageSettings_from 0 (word "portrait"%string) pg_portrait.
Proof. repeat apply conj; flag_in PageSettings_from PageSettings_step PageSettings_default. Qed.
Lemma Property_flags : flags Property_from 3 (head "show_name"%string) pr_showName.
Proof. repeat apply conj; flag_in Property_from Property_step Property_default. Qed.
Lemma SyArc_flags : flags SyArc_from 0 (word "private"%string) sa_private.
Proof. repeat apply conj; flag_in SyArc_from SyArc_step SyArc_default. Qed.
Lemma SyCircle_flags : flags SyCircle_from 0 (word "private"%string) si_private.
Proof. repeat apply conj; flag_in SyCircle_from SyCircle_step SyCircle_default. Qed.
Lemma SyRect_flags : flags SyRect_from 0 (word "private"%string) sr_private.
Proof. repeat apply conj; flag_in SyRect_from SyRect_step SyRect_default. Qed.
Lemma SymbolPin_flags : flags SymbolPin_from 3 (word "hide"%string) sp_hide.
Proof. repeat apply conj; flag_in SymbolPin_from SymbolPin_step SymbolPin_default. Qed.
Lemma FpLine_flags : flags FpLine_from 0 (word "locked"%string) fl_locked.
Proof. repeat apply conj; flag_in FpLine_from FpLine_step FpLine_default. Qed.
Lemma FpRect_flags : flags FpRect_from 0 (word "locked"%string) fr_locked.
Proof. repeat apply conj; flag_in FpRect_from FpRect_step FpRect_default. Qed.
Lemma FpCircle_flags : flags FpCircle_from 0 (word "locked"%string) fc_locked.
Proof. repeat apply conj; flag_in FpCircle_from FpCircle_step FpCircle_default. Qed.
Lemma FpArc_flags : flags FpArc_from 0 (word "locked"%string) fa_locked.
Proof. repeat apply conj; flag_in FpArc_from FpArc_step FpArc_default. Qed.
Lemma FpPoly_flags : flags FpPoly_from 0 (word "locked"%string) fp_locked.
Proof. repeat apply conj; flag_in FpPoly_from FpPoly_step FpPoly_default. Qed.
Lemma FpCurve_flags : flags FpCurve_from 0 (word "locked"%string) fv_locked.
Proof. repeat apply conj; flag_in FpCurve_from FpCurve_step FpCurve_default. Qed.
Lemma GrLine_flags : flags GrLine_from 0 (word "locked"%string) gl_locked.
Proof. repeat apply conj; flag_in GrLine_from GrLine_step GrLine_default. Qed.
Lemma GrRect_flags : flags GrRect_from 0 (word "locked"%string) M_Gr.gr_locked.
Proof. repeat apply conj; flag_in GrRect_from GrRect_step GrRect_default. Qed.
Lemma GrCircle_flags : flags GrCircle_from 0 (word "locked"%string) gc_locked.
Proof. repeat apply conj; flag_in GrCircle_from GrCircle_step GrCircle_default. Qed.
Lemma GrArc_flags : flags GrArc_from 0 (word "locked"%string) ga_locked.
Proof. repeat apply conj; flag_in GrArc_from GrArc_step GrArc_default. Qed.
Lemma GrPoly_flags : flags GrPoly_from 0 (word "locked"%string) gp_locked.
Proof. repeat apply conj; flag_in GrPoly_from GrPoly_step GrPoly_default. Qed.
Lemma GrCurve_flags : flags GrCurve_from 0 (word "locked"%string) gv_locked.
Proof. repeat apply conj; flag_in GrCurve_from GrCurve_step GrCurve_default. Qed.
Lemma FillSettings_flags : flags FillSettings_from 0 (word "yes"%string) fs_yes.
Proof. repeat apply conj; flag_in FillSettings_from FillSettings_step FillSettings_default. Qed.
Lemma FilledPolygon_flags : flags FilledPolygon_from 0 (head "island"%string) zf_island.
Proof. repeat apply conj; flag_in FilledPolygon_from FilledPolygon_step FilledPolygon_default. Qed.
Lemma Zone_flags : flags Zone_from 0 (word "locked"%string) zo_locked.
Proof. repeat apply conj; flag_in Zone_from Zone_step Zone_default. Qed.
Lemma Attributes_flags : flags Attributes_from 0 (word "board_only"%string) fx_boardOnly /\ flags Attributes_from 0 (word "exclude_from_pos_files"%string) fx_excludeFromPosFiles /\ flags Attributes_from 0 (word "exclude_from_bom"%string) fx_excludeFromBom /\ flags Attributes_from 0 (word "allow_missing_courtyard"%string) fx_allowMissingCourtyard.
Proof. repeat apply conj; flag_in Attributes_from Attributes_item Attributes_default. Qed.
Lemma Pad_flags : flags Pad_from 3 (word "locked"%string) pd_locked /\ flags Pad_from 3 (head "remove_unused_layers"%string) pd_removeUnusedLayers /\ flags Pad_from 3 (head "keep_end_layers"%string) pd_keepEndLayers.
Proof. repeat apply conj; flag_in Pad_from Pad_step Pad_default. Qed.
Lemma DimensionFormat_flags : flags DimensionFormat_from 1 (word "suppress_zeroes"%string) df_suppressZeroes.
Proof. repeat apply conj; flag_in DimensionFormat_from DimensionFormat_step DimensionFormat_default. Qed.
Lemma DimensionStyle_flags : flags DimensionStyle_from 1 (word "keep_text_aligned"%string) ds_keepTextAligned.
Proof. repeat apply conj; flag_in DimensionStyle_from DimensionStyle_step DimensionStyle_default. Qed.
Lemma Dimension_flags : flags Dimension_from 1 (word "locked"%string) di_locked.
Proof. repeat apply conj; flag_in Dimension_from Dimension_step Dimension_default. Qed.
Lemma Stackup_flags : flags Stackup_from 0 (head "castellated_pads"%string) sk_castellatedPads /\ flags Stackup_from 0 (head "edge_plating"%string) sk_edgePlating.
Proof. repeat apply conj; flag_in Stackup_from Stackup_step Stackup_default. Qed.
Lemma Segment_flags : flags Segment_from 0 (word "locked"%string) sg_locked.
Proof. repeat apply conj; flag_in Segment_from Segment_step Segment_default. Qed.
Lemma Via_flags : flags Via_from 0 (word "locked"%string) vi_locked /\ flags Via_from 0 (head "remove_unused_layers"%string) vi_removeUnusedLayers /\ flags Via_from 0 (head "keep_end_layers"%string) vi_keepEndLayers /\ flags Via_from 0 (head "free"%string) vi_free.
Proof. repeat apply conj; flag_in Via_from Via_step Via_default. Qed.
Lemma Arc_flags : flags Arc_from 0 (word "locked"%string) ac_locked.
Proof. repeat apply conj; flag_in Arc_from Arc_step Arc_default. Qed.
Lemma LocalLabel_flags : flags LocalLabel_from 2 (head "fields_autoplaced"%string) ll_fieldsAutoplaced.
Proof. repeat apply conj; flag_in LocalLabel_from LocalLabel_step LocalLabel_default. Qed.
Lemma GlobalLabel_flags : flags GlobalLabel_from 2 (head "fields_autoplaced"%string) gla_fieldsAutoplaced.
Proof. repeat apply conj; flag_in GlobalLabel_from GlobalLabel_step GlobalLabel_default. Qed.
Lemma HierarchicalLabel_flags : flags HierarchicalLabel_from 2 (head "fields_autoplaced"%string) hl_fieldsAutoplaced.
Proof. repeat apply conj; flag_in HierarchicalLabel_from HierarchicalLabel_step HierarchicalLabel_default. Qed.
Lemma SchematicSymbol_flags : flags SchematicSymbol_from 1 (head "fields_autoplaced"%string) ss_fieldsAutoplaced.
Proof. repeat apply conj; flag_in SchematicSymbol_from SchematicSymbol_step SchematicSymbol_default. Qed.
Lemma HierarchicalSheet_flags : flags HierarchicalSheet_from 1 (head "fields_autoplaced"%string) hs_fieldsAutoplaced.
Proof. repeat apply conj; flag_in HierarchicalSheet_from HierarchicalSheet_step HierarchicalSheet_default. Qed.
Lemma NetclassFlag_flags : flags NetclassFlag_from 2 (head "fields_autoplaced"%string) nf_fieldsAutoplaced.
Proof. repeat apply conj; flag_in NetclassFlag_from NetclassFlag_step NetclassFlag_default. Qed.
Lemma WksFont_flags : flags WksFont_from 0 (word "bold"%string) wf_bold /\ flags WksFont_from 0 (word "italic"%string) wf_italic.
Proof. repeat apply conj; flag_in WksFont_from WksFont_step WksFont_default. Qed.
Lemma Footprint_flags now : flags (Footprint_from now) 2 (word "locked"%string) fd_locked /\ flags (Footprint_from now) 2 (word "placed"%string) fd_placed.
Proof.
  split; (apply (flags_by _ _ _ _ (Footprint_default now)); [reflexivity|]; intros l; unfold Footprint_from);
    (apply Flag_pre; intros l1 E; apply need_list_in in E; injection E as <-); (apply Flag_pre; intros h _); (apply Flag_if; [apply Flag_err|]);
    apply Flag_pre; intros id _;
    (apply (Flag_from _ _ (Footprint_set_libId id (Footprint_default now))); [unfold Footprint_set_libId; now destruct (re_match _ _)|]);
    apply (Flag_fold _ Footprint_step); intros o x; flag_step Footprint_step.
Qed.
Lemma Symbol_flags_by sets (p : Symbol -> bool) : p Symbol_default = false ->
  (forall id o o', Symbol_set_libId id o = Ok o' -> p o' = p o) ->
  (forall o x, Flag p o (sets x) (Symbol_step Symbol_from o x)) -> flags Symbol_from 2 sets p.
Proof.
  intros D S H l o E. destruct l as [|h [|id items]]; try discriminate E; [cbn in E; destruct (is_str h "symbol"); discriminate E|].
  rewrite Symbol_from_eq in E. destruct (is_str h "symbol"); [|discriminate E]. apply bind_inv in E as (o1 & E1 & E2).
  rewrite (Flag_fold p _ sets items H o1 o E2), (S _ _ _ E1), D. reflexivity.
Qed.
Ltac symbol_flag_start := apply Symbol_flags_by; [reflexivity | intros id o o' E; unfold Symbol_set_libId in E; apply bind_inv in E as (s & _ & E); destruct (re_match re_nick s); [|destruct (re_match re_unit s)]; cbn in E; injection E as <-; reflexivity|]; intros o x.
Lemma pin_names_hide l : forall o, Flag sy_pinNamesHide o (hides l) (foldM Symbol_pin_names_step o l).
Proof. apply Flag_fold. intros o x. flag_step Symbol_pin_names_step. Qed.
Lemma Symbol_flags :
  flags Symbol_from 2 (head "pin_names"%string) sy_pinNames /\ flags Symbol_from 2 (head "power"%string) sy_isPower
  /\ flags Symbol_from 2 (headed "pin_numbers"%string (fun l => match l with x :: _ => is_str x "hide" | [] => false end)) sy_hidePinNumbers
  /\ flags Symbol_from 2 (headed "pin_names"%string hides) sy_pinNamesHide.
Proof.
  repeat apply conj; symbol_flag_start.
  - apply Flag_by; intros F; [|solve [flag_keep]]. apply head_true in F as [l F]; subst. unfold Symbol_step. item_skip.
    apply Hit_seq_l; [intros o' E; injection E as <-; reflexivity|]. intros o1. place_keep.
  - flag_step Symbol_step.
  - apply Flag_by; intros F.
    + item_hit. destruct l as [|k l]; [discriminate C|]. cbn in C. unfold Symbol_step. item_skip. intros o' E. cbn in E. rewrite C in E. cbn in E. injection E as <-. reflexivity.
    + unfold Symbol_step. item_keep. exfalso. destruct l as [|k l]; [discriminate|]. cbn in *. match goal with H : Ok _ = Ok _ |- _ => injection H as -> end.
      match goal with H : (_ && _)%bool = false |- _ => apply andb_false_iff in H as [H|H] end; congruence.
  - apply Flag_by; intros F.
    + item_hit. unfold Symbol_step. item_skip. apply Hit_pre. intros o1 _. cbn [from_ skipn bind]. intros o' E. rewrite (pin_names_hide l _ _ E), C. now rewrite orb_true_r.
    + unfold Symbol_step. repeat first [keep1 | progress unfold Symbol_item]; try reflexivity.
      match goal with
      | I : at_ ?y 0 = Ok ?h, E : is_str ?h ?k = true |- _ => destruct (head_list k y h eq_refl I E) as [l Ey]; subst y
      end.
      match goal with H : from_ _ _ = Ok _ |- _ => cbn in H; injection H as <- end. cbn [headed] in F.
      match goal with E : is_str _ "pin_names" = true |- _ => rewrite E in F end. cbn [andb] in F.
      match goal with I : In ?y l |- _ => assert (Q : word "hide"%string y = false)
        by (destruct (word "hide"%string y) eqn:Q; [|reflexivity]; assert (hides l = true) by (apply existsb_exists; now exists y); congruence) end.
      flag_keep.
Qed.
Lemma FpText_flags :
  flags FpText_from 3 (word "hide"%string) ft_hide /\ flags FpText_from 3 (headed "layer"%string knocked) ft_knockout.
Proof.
  split; [flag_in FpText_from FpText_step FpText_default|].
  apply (flags_by _ _ _ _ FpText_default); [reflexivity|]; intros l; unfold FpText_from.
  apply Flag_pre; intros l1 E; apply need_head_in in E; injection E as <-. apply Flag_pre; intros t _. apply Flag_pre; intros t2 _.
  eapply Flag_from; [|apply (Flag_fold _ FpText_step)]; [reflexivity|]. intros o x. apply Flag_by; intros F.
  - item_hit. destruct l0 as [|a [|k l0]]; try discriminate C. cbn in C. unfold FpText_step. item_skip. intros o' E. cbn in E. rewrite C in E. cbn in E. injection E as <-. reflexivity.
  - unfold FpText_step. item_keep. exfalso. match goal with H : len_ (VList _) = Ok _ |- _ => injection H as <- end. destruct l0 as [|a [|k l0]]; try discriminate. cbn in *.
    match goal with H : Ok _ = Ok _ |- _ => injection H as -> end.
    match goal with H : (_ && _)%bool = false |- _ => apply andb_false_iff in H as [H|H] end; congruence.
Qed.
Lemma GrText_flags :
  flags GrText_from 2 (word "locked"%string) gt_locked /\ flags GrText_from 2 (headed "layer"%string knocked) gt_knockout.
Proof.
  split; [flag_in GrText_from GrText_step GrText_default|].
  apply (flags_by _ _ _ _ GrText_default); [reflexivity|]; intros l; unfold GrText_from.
  apply Flag_pre; intros l1 E; apply need_head_in in E; injection E as <-. apply Flag_pre; intros t _.
  eapply Flag_from; [|apply (Flag_fold _ GrText_step)]; [reflexivity|]. intros o x. apply Flag_by; intros F.
  - item_hit. destruct l0 as [|a [|k l0]]; try discriminate C. cbn in C. unfold GrText_step. item_skip. intros o' E. cbn in E. rewrite C in E. cbn in E. injection E as <-. reflexivity.
  - unfold GrText_step. item_keep. exfalso. match goal with H : len_ (VList _) = Ok _ |- _ => injection H as <- end. destruct l0 as [|a [|k l0]]; try discriminate. cbn in *.
    match goal with H : Ok _ = Ok _ |- _ => injection H as -> end.
    match goal with H : (_ && _)%bool = false |- _ => apply andb_false_iff in H as [H|H] end; congruence.
Qed.
