(** Proofs for C51, class by class *)
From Coq Require Import String.
From Verif Require Import PyBase PyNum PyStr Sexpr PyRe S_Leaf S_Tree S_Fix S_Accept L_Accept L_Dict L_Tac L_Seq S_Typed L_Typed.
From Verif Require Import M_Common S_Common M_Lib S_Lib M_Sym S_Sym M_Fp S_Fp M_Gr S_Gr M_Zone S_Zone M_Footprint S_Footprint M_Dim S_Dim M_Brd S_Brd M_Board S_Board M_Sch S_Sch M_Schematic S_Schematic M_Wks S_Wks.


Lemma Justify_all l : forallb always l = true.
Proof. apply always_all. Qed.

Definition Coordinate_inv (o : Coordinate) : bool :=
  numb (co_X o)
  && numb (co_Y o)
  && numb (co_Z o).
Lemma Coordinate_inv_t : forall v, Coordinate_typed v = true -> sat (fun o => Coordinate_inv o = true) (Coordinate_from v).
Proof. tsmall Coordinate_typed Coordinate_from Coordinate_inv. Qed.
Lemma Coordinate_t : forall v, Coordinate_typed v = true -> sat (fun o => Coordinate_ok o = true) (Coordinate_from v).
Proof. to_ok Coordinate_inv_t. unfold Coordinate_inv, Coordinate_ok in *. done_tac. Qed.
#[export] Hint Resolve Coordinate_t : typd.

Definition ColorRGBA_inv (o : ColorRGBA) : bool :=
  numb (ca_R o)
  && numb (ca_G o)
  && numb (ca_B o)
  && numb (ca_A o)
  && is_none (ca_precision o).
Lemma ColorRGBA_inv_t : forall v, ColorRGBA_typed v = true -> sat (fun o => ColorRGBA_inv o = true) (ColorRGBA_from v).
Proof. tsmall ColorRGBA_typed ColorRGBA_from ColorRGBA_inv. Qed.
Lemma ColorRGBA_t : forall v, ColorRGBA_typed v = true -> sat (fun o => ColorRGBA_ok o = true) (ColorRGBA_from v).
Proof. to_ok ColorRGBA_inv_t. unfold ColorRGBA_inv, ColorRGBA_ok in *. done_tac. Qed.
#[export] Hint Resolve ColorRGBA_t : typd.

Definition Stroke_inv (o : Stroke) : bool :=
  numb (st_width o)
  && optb wordv (st_type o)
  && optok ColorRGBA_ok (st_color o).
Lemma Stroke_step_t : forall o x, Stroke_inv o = true -> lists Stroke_kinds x = true -> sat (fun o => Stroke_inv o = true) (Stroke_step o x).
Proof. unfold Stroke_kinds. tstep ltac:(unfold Stroke_step) Stroke_inv. Qed.
Lemma Stroke_inv_t : forall v, Stroke_typed v = true -> sat (fun o => Stroke_inv o = true) (Stroke_from v).
Proof. tfrom ltac:(fun H => unfold Stroke_typed in H; unfold Stroke_from) Stroke_inv Stroke_step_t. Qed.
Lemma Stroke_t : forall v, Stroke_typed v = true -> sat (fun o => Stroke_ok o = true) (Stroke_from v).
Proof. to_ok Stroke_inv_t. unfold Stroke_inv, Stroke_ok in *. done_tac. Qed.
#[export] Hint Resolve Stroke_t : typd.

Definition Font_inv (o : Font) : bool :=
  optb txtb (fo_face o)
  && numb (fo_height o)
  && numb (fo_width o)
  && optb numb (fo_thickness o)
  && optb numb (fo_lineSpacing o)
  && optok ColorRGBA_ok (fo_color o).
Lemma Font_step_t : forall o x, Font_inv o = true -> lists Font_kinds x = true -> sat (fun o => Font_inv o = true) (Font_step o x).
Proof. unfold Font_kinds. tstep ltac:(unfold Font_step) Font_inv. Qed.
Lemma Font_inv_t : forall v, Font_typed v = true -> sat (fun o => Font_inv o = true) (Font_from v).
Proof. tfrom ltac:(fun H => unfold Font_typed in H; unfold Font_from) Font_inv Font_step_t. Qed.
Lemma Font_t : forall v, Font_typed v = true -> sat (fun o => Font_ok o = true) (Font_from v).
Proof. to_ok Font_inv_t. unfold Font_inv, Font_ok in *. done_tac. Qed.
#[export] Hint Resolve Font_t : typd.

Definition Justify_inv (o : Justify) : bool :=
  optb (enumb ["left"%string; "right"%string; "center"%string]) (ju_horizontally o)
  && optb (enumb ["top"%string; "bottom"%string]) (ju_vertically o).
Lemma Justify_step_t : forall o x, Justify_inv o = true -> always x = true -> sat (fun o => Justify_inv o = true) (Justify_step o x).
Proof. tstep0 ltac:(unfold Justify_step) Justify_inv. Qed.
Lemma Justify_inv_t : forall v, Justify_typed v = true -> sat (fun o => Justify_inv o = true) (Justify_from v).
Proof. tfrom ltac:(fun H => unfold Justify_typed in H; unfold Justify_from) Justify_inv Justify_step_t. Qed.
Lemma Justify_t : forall v, Justify_typed v = true -> sat (fun o => Justify_ok o = true) (Justify_from v).
Proof. to_ok Justify_inv_t. unfold Justify_inv, Justify_ok in *. done_tac. Qed.
#[export] Hint Resolve Justify_t : typd.

Definition Effects_inv (o : Effects) : bool :=
  Font_ok (ef_font o)
  && Justify_ok (ef_justify o)
  && optb txtb (ef_href o).
Lemma Effects_step_t : forall o x, Effects_inv o = true -> lists Effects_kinds x = true -> sat (fun o => Effects_inv o = true) (Effects_step o x).
Proof. unfold Effects_kinds. tstep ltac:(unfold Effects_step) Effects_inv. Qed.
Lemma Effects_inv_t : forall v, Effects_typed v = true -> sat (fun o => Effects_inv o = true) (Effects_from v).
Proof. tfrom ltac:(fun H => unfold Effects_typed in H; unfold Effects_from) Effects_inv Effects_step_t. Qed.
Lemma Effects_t : forall v, Effects_typed v = true -> sat (fun o => Effects_ok o = true) (Effects_from v).
Proof. to_ok Effects_inv_t. unfold Effects_inv, Effects_ok in *. done_tac. Qed.
#[export] Hint Resolve Effects_t : typd.

Definition Net_inv (o : Net) : bool :=
  numb (ne_number o)
  && txtb (ne_name o).
Lemma Net_inv_t : forall v, Net_typed v = true -> sat (fun o => Net_inv o = true) (Net_from v).
Proof. tfrom ltac:(fun H => unfold Net_typed in H; unfold Net_from) Net_inv I. Qed.
Lemma Net_t : forall v, Net_typed v = true -> sat (fun o => Net_ok o = true) (Net_from v).
Proof. to_ok Net_inv_t. unfold Net_inv, Net_ok in *. done_tac. Qed.
#[export] Hint Resolve Net_t : typd.

Definition Group_then (o : Group) : bool := implb (Group_whole o) (Group_ok o).
Definition Group_inv (o : Group) : bool :=
  txtb (gr_name o)
  && orv atomb (gr_id o)
  && forallb word0v (gr_members o).
Lemma Group_step_t : forall o x, Group_inv o = true -> lists Group_kinds x = true -> sat (fun o => Group_inv o = true) (Group_step o x).
Proof. unfold Group_kinds. tstep ltac:(unfold Group_step) Group_inv. Qed.
Lemma Group_inv_t : forall v, Group_typed v = true -> sat (fun o => Group_inv o = true) (Group_from v).
Proof. tfrom ltac:(fun H => unfold Group_typed in H; unfold Group_from) Group_inv Group_step_t. Qed.
Lemma Group_t : forall v, Group_typed v = true -> sat (fun o => Group_then o = true) (Group_from v).
Proof. to_ok Group_inv_t. apply implb_i. unfold Group_inv, Group_whole, Group_ok in *. intros W. done_tac. Qed.
#[export] Hint Resolve Group_t : typd.

Definition PageSettings_then (o : PageSettings) : bool := implb (PageSettings_whole o) (PageSettings_ok o).
Definition PageSettings_inv (o : PageSettings) : bool :=
  txtb (pg_paperSize o)
  && optb numb (pg_width o)
  && optb numb (pg_height o).
Lemma PageSettings_step_t : forall o x, PageSettings_inv o = true -> always x = true -> sat (fun o => PageSettings_inv o = true) (PageSettings_step o x).
Proof. tstep0 ltac:(unfold PageSettings_step) PageSettings_inv. Qed.
Lemma PageSettings_inv_t : forall v, PageSettings_typed v = true -> sat (fun o => PageSettings_inv o = true) (PageSettings_from v).
Proof.
  intros v H. destruct v as [| | | | |[|h [|size l]]]; try discriminate H. unfold PageSettings_typed in H. bools.
  unfold PageSettings_from, need_head. cbn [need_list bind at_ nth_error]. destruct (h =s "paper") eqn:Eh; [|discriminate H]. cbn [bind setf].
  apply (sat_bind (fun o => PageSettings_inv o = true)).
  - apply sat_on.
    + intros E. change ((size =s "User") = true) in E. rewrite E in *. destruct l as [|w [|t l]]; try discriminate. bools.
      apply sat_ok. unfold PageSettings_inv. start.
    + unfold PageSettings_inv. start.
  - intros o Ho. exact (sat_fold _ _ _ PageSettings_step_t _ _ Ho (always_all _)).
Qed.
Lemma PageSettings_t : forall v, PageSettings_typed v = true -> sat (fun o => PageSettings_then o = true) (PageSettings_from v).
Proof. to_ok PageSettings_inv_t. apply implb_i. unfold PageSettings_inv, PageSettings_whole, PageSettings_ok in *. intros W. done_tac. Qed.
#[export] Hint Resolve PageSettings_t : typd.


Definition TitleBlock_inv (o : TitleBlock) : bool :=
  optb txtb (tb_title o)
  && optb txtb (tb_date o)
  && optb txtb (tb_revision o)
  && optb txtb (tb_company o)
  && dict_ok (tb_comments o).
Lemma TitleBlock_step_t : forall o x, TitleBlock_inv o = true -> strict TitleBlock_kinds x = true -> sat (fun o => TitleBlock_inv o = true) (TitleBlock_step o x).
Proof. unfold TitleBlock_kinds. tstep ltac:(unfold TitleBlock_step) TitleBlock_inv. Qed.
Lemma TitleBlock_inv_t : forall v, TitleBlock_typed v = true -> sat (fun o => TitleBlock_inv o = true) (TitleBlock_from v).
Proof. tfrom ltac:(fun H => unfold TitleBlock_typed in H; unfold TitleBlock_from) TitleBlock_inv TitleBlock_step_t. Qed.
Lemma TitleBlock_t : forall v, TitleBlock_typed v = true -> sat (fun o => TitleBlock_ok o = true) (TitleBlock_from v).
Proof. to_ok TitleBlock_inv_t. unfold TitleBlock_inv, TitleBlock_ok in *. done_tac. Qed.
#[export] Hint Resolve TitleBlock_t : typd.

Definition Property_inv (o : Property) : bool :=
  txtb (pr_key o)
  && txtb (pr_value o)
  && optb numb (pr_id o)
  && pos3_ok (pr_position o)
  && optok Effects_ok (pr_effects o).
Lemma Property_step_t : forall o x, Property_inv o = true -> strict Property_kinds x = true -> sat (fun o => Property_inv o = true) (Property_step o x).
Proof. unfold Property_kinds. tstep ltac:(unfold Property_step) Property_inv. Qed.
Lemma Property_inv_t : forall v, Property_typed v = true -> sat (fun o => Property_inv o = true) (Property_from v).
Proof. tfrom ltac:(fun H => unfold Property_typed in H; unfold Property_from) Property_inv Property_step_t. Qed.
Lemma Property_t : forall v, Property_typed v = true -> sat (fun o => Property_ok o = true) (Property_from v).
Proof. to_ok Property_inv_t. unfold Property_inv, Property_ok in *. done_tac. Qed.
#[export] Hint Resolve Property_t : typd.

Definition RenderCachePolygon_inv (o : RenderCachePolygon) : bool :=
  forallb pos2_ok (rp_pts o).
Lemma RenderCachePolygon_step_t : forall o x, RenderCachePolygon_inv o = true -> strict RenderCachePolygon_kinds x = true -> sat (fun o => RenderCachePolygon_inv o = true) (RenderCachePolygon_step o x).
Proof. unfold RenderCachePolygon_kinds. tstep ltac:(unfold RenderCachePolygon_step) RenderCachePolygon_inv. Qed.
Lemma RenderCachePolygon_inv_t : forall v, RenderCachePolygon_typed v = true -> sat (fun o => RenderCachePolygon_inv o = true) (RenderCachePolygon_from v).
Proof. tfrom ltac:(fun H => unfold RenderCachePolygon_typed in H; unfold RenderCachePolygon_from) RenderCachePolygon_inv RenderCachePolygon_step_t. Qed.
Lemma RenderCachePolygon_t : forall v, RenderCachePolygon_typed v = true -> sat (fun o => RenderCachePolygon_ok o = true) (RenderCachePolygon_from v).
Proof. to_ok RenderCachePolygon_inv_t. unfold RenderCachePolygon_inv, RenderCachePolygon_ok in *. done_tac. Qed.
#[export] Hint Resolve RenderCachePolygon_t : typd.

Definition RenderCache_then (o : RenderCache) : bool := implb (RenderCache_whole o) (RenderCache_ok o).
Definition RenderCache_inv (o : RenderCache) : bool :=
  txtb (rc_text o)
  && word0v (rc_id o)
  && forallb RenderCachePolygon_ok (rc_polygons o).
Lemma RenderCache_step_t : forall o x, RenderCache_inv o = true -> strict RenderCache_kinds x = true -> sat (fun o => RenderCache_inv o = true) (RenderCache_step o x).
Proof. unfold RenderCache_kinds. tstep ltac:(unfold RenderCache_step) RenderCache_inv. Qed.
Lemma RenderCache_inv_t : forall v, RenderCache_typed v = true -> sat (fun o => RenderCache_inv o = true) (RenderCache_from v).
Proof. tfrom ltac:(fun H => unfold RenderCache_typed in H; unfold RenderCache_from) RenderCache_inv RenderCache_step_t. Qed.
Lemma RenderCache_t : forall v, RenderCache_typed v = true -> sat (fun o => RenderCache_then o = true) (RenderCache_from v).
Proof. to_ok RenderCache_inv_t. apply implb_i. unfold RenderCache_inv, RenderCache_whole, RenderCache_ok in *. intros W. done_tac. Qed.
#[export] Hint Resolve RenderCache_t : typd.

Definition Fill_inv (o : Fill) : bool :=
  wordv (fi_type o)
  && optok ColorRGBA_ok (fi_color o).
Lemma Fill_step_t : forall o x, Fill_inv o = true -> strict Fill_kinds x = true -> sat (fun o => Fill_inv o = true) (Fill_step o x).
Proof. unfold Fill_kinds. tstep ltac:(unfold Fill_step) Fill_inv. Qed.
Lemma Fill_inv_t : forall v, Fill_typed v = true -> sat (fun o => Fill_inv o = true) (Fill_from v).
Proof. tfrom ltac:(fun H => unfold Fill_typed in H; unfold Fill_from) Fill_inv Fill_step_t. Qed.
Lemma Fill_t : forall v, Fill_typed v = true -> sat (fun o => Fill_ok o = true) (Fill_from v).
Proof. to_ok Fill_inv_t. unfold Fill_inv, Fill_ok in *. done_tac. Qed.
#[export] Hint Resolve Fill_t : typd.

Definition Image_inv (o : Image) : bool :=
  pos2_ok (im_position o)
  && optb numb (im_scale o)
  && forallb word0v (im_data o)
  && optb atomb (im_uuid o)
  && optb txtb (im_layer o).
Lemma Image_step_t : forall o x, Image_inv o = true -> strict Image_kinds x = true -> sat (fun o => Image_inv o = true) (Image_step o x).
Proof. unfold Image_kinds. tstep ltac:(unfold Image_step) Image_inv. Qed.
Lemma Image_inv_t : forall v, Image_typed v = true -> sat (fun o => Image_inv o = true) (Image_from v).
Proof. tfrom ltac:(fun H => unfold Image_typed in H; unfold Image_from) Image_inv Image_step_t. Qed.
Lemma Image_t : forall v, Image_typed v = true -> sat (fun o => Image_ok o = true) (Image_from v).
Proof. to_ok Image_inv_t. unfold Image_inv, Image_ok in *. done_tac. Qed.
#[export] Hint Resolve Image_t : typd.

Definition Library_inv (o : Library) : bool :=
  txtb (lb_name o)
  && txtb (lb_type o)
  && txtb (lb_uri o)
  && txtb (lb_options o)
  && txtb (lb_description o).
Lemma Library_step_t : forall o x, Library_inv o = true -> strict Library_kinds x = true -> sat (fun o => Library_inv o = true) (Library_step o x).
Proof. unfold Library_kinds. tstep ltac:(unfold Library_step) Library_inv. Qed.
Lemma Library_inv_t : forall v, Library_typed v = true -> sat (fun o => Library_inv o = true) (Library_from v).
Proof. tfrom ltac:(fun H => unfold Library_typed in H; unfold Library_from) Library_inv Library_step_t. Qed.
Lemma Library_t : forall v, Library_typed v = true -> sat (fun o => Library_ok o = true) (Library_from v).
Proof. to_ok Library_inv_t. unfold Library_inv, Library_ok in *. done_tac. Qed.
#[export] Hint Resolve Library_t : typd.

Definition LibTable_inv (o : LibTable) : bool :=
  enumb ["fp_lib_table"%string; "sym_lib_table"%string] (M_Lib.lt_type o)
  && forallb Library_ok (lt_libs o)
  && is_none (lt_filePath o).
Lemma LibTable_step_t : forall o x, LibTable_inv o = true -> strict LibTable_kinds x = true -> sat (fun o => LibTable_inv o = true) (LibTable_step o x).
Proof. unfold LibTable_kinds. tstep ltac:(unfold LibTable_step) LibTable_inv. Qed.
Lemma LibTable_inv_t : forall v, LibTable_typed v = true -> sat (fun o => LibTable_inv o = true) (LibTable_from v).
Proof.
  intros v H. unfold LibTable_typed, expr in H. destruct v as [| | | | |[|h l]]; try discriminate. bools.
  unfold LibTable_from. cbn [need_list bind]. change (VList (h :: l)@0) with (Ok h). cbn [bind setf].
  destruct ((h =s "fp_lib_table") || (h =s "sym_lib_table")) eqn:E; cbn [negb]; [|apply sat_err].
  refine (sat_fold _ _ _ LibTable_step_t _ _ _ _); [|all_items]. unfold LibTable_inv. start.
Qed.
Lemma LibTable_t : forall v, LibTable_typed v = true -> sat (fun o => LibTable_ok o = true) (LibTable_from v).
Proof. to_ok LibTable_inv_t. unfold LibTable_inv, LibTable_ok in *. done_tac. Qed.
#[export] Hint Resolve LibTable_t : typd.

Definition Constraint_inv (o : Constraint) : bool :=
  wordv (cn_type o)
  && optb txtb (cn_min o)
  && optb txtb (cn_opt o)
  && optb txtb (cn_max o)
  && forallb wordv (cn_elements o).
Lemma Constraint_step_t : forall o x, Constraint_inv o = true -> Constraint_item x = true -> sat (fun o => Constraint_inv o = true) (Constraint_step o x).
Proof.
  unfold Constraint_kinds. intros o x I R. unfold Constraint_item, strict in R. apply andb_prop in R as [R W]. unfold Constraint_step.
  destruct x as [| | | |s|l]; [try discriminate R; tchain Constraint_inv I..|].
  unfold Constraint_kinds, rows in R. destruct l as [|h l]; [discriminate R|]; split_rows R; tchain Constraint_inv I.
Qed.
Lemma Constraint_inv_t : forall v, Constraint_typed v = true -> sat (fun o => Constraint_inv o = true) (Constraint_from v).
Proof. tfrom ltac:(fun H => unfold Constraint_typed in H; unfold Constraint_from) Constraint_inv Constraint_step_t. Qed.
Lemma Constraint_t : forall v, Constraint_typed v = true -> sat (fun o => Constraint_ok o = true) (Constraint_from v).
Proof. to_ok Constraint_inv_t. unfold Constraint_inv, Constraint_ok in *. done_tac. Qed.
#[export] Hint Resolve Constraint_t : typd.

Definition Rule_inv (o : Rule) : bool :=
  txtb (ru_name o)
  && forallb Constraint_ok (ru_constraints o)
  && txtb (ru_condition o)
  && optb txtb (ru_layer o)
  && optb plainv (ru_severity o).
Lemma Rule_step_t : forall o x, Rule_inv o = true -> strict Rule_kinds x = true -> sat (fun o => Rule_inv o = true) (Rule_step o x).
Proof. unfold Rule_kinds. tstep ltac:(unfold Rule_step) Rule_inv. Qed.
Lemma Rule_inv_t : forall v, Rule_typed v = true -> sat (fun o => Rule_inv o = true) (Rule_from v).
Proof. tfrom ltac:(fun H => unfold Rule_typed in H; unfold Rule_from) Rule_inv Rule_step_t. Qed.
Lemma Rule_t : forall v, Rule_typed v = true -> sat (fun o => Rule_ok o = true) (Rule_from v).
Proof. to_ok Rule_inv_t. unfold Rule_inv, Rule_ok in *. done_tac. Qed.
#[export] Hint Resolve Rule_t : typd.

Definition DesignRules_inv (o : DesignRules) : bool :=
  numb (dr_version o)
  && forallb Rule_ok (dr_rules o)
  && is_none (dr_filePath o).
Lemma DesignRules_step_t : forall o x, DesignRules_inv o = true -> strict DesignRules_kinds x = true -> sat (fun o => DesignRules_inv o = true) (DesignRules_step o x).
Proof. unfold DesignRules_kinds. tstep ltac:(unfold DesignRules_step) DesignRules_inv. Qed.
Lemma DesignRules_inv_t : forall v, DesignRules_typed v = true -> sat (fun o => DesignRules_inv o = true) (DesignRules_from v).
Proof.
  intros v H. destruct v as [| | | | |[|[| | | | |[|h t]] l]]; try discriminate H. unfold DesignRules_typed in H. bools.
  unfold DesignRules_from. cbn [need_list at_ nth_error bind]. destruct (h =s "version"); [|discriminate]. cbn [negb].
  refine (sat_fold _ _ _ DesignRules_step_t _ _ _ _); [reflexivity|assumption].
Qed.
Lemma DesignRules_t : forall v, DesignRules_typed v = true -> sat (fun o => DesignRules_ok o = true) (DesignRules_from v).
Proof. to_ok DesignRules_inv_t. unfold DesignRules_inv, DesignRules_ok in *. done_tac. Qed.
#[export] Hint Resolve DesignRules_t : typd.

Definition SyArc_inv (o : SyArc) : bool :=
  pos3_ok (sa_start o)
  && pos3_ok (sa_mid o)
  && pos3_ok (sa_end o)
  && Stroke_ok (sa_stroke o)
  && Fill_ok (sa_fill o).
Lemma SyArc_step_t : forall o x, SyArc_inv o = true -> texts SyArc_kinds x = true -> sat (fun o => SyArc_inv o = true) (SyArc_step o x).
Proof. unfold SyArc_kinds. tstep ltac:(unfold SyArc_step) SyArc_inv. Qed.
Lemma SyArc_inv_t : forall v, SyArc_typed v = true -> sat (fun o => SyArc_inv o = true) (SyArc_from v).
Proof. tfrom ltac:(fun H => unfold SyArc_typed in H; unfold SyArc_from) SyArc_inv SyArc_step_t. Qed.
Lemma SyArc_t : forall v, SyArc_typed v = true -> sat (fun o => SyArc_ok o = true) (SyArc_from v).
Proof. to_ok SyArc_inv_t. unfold SyArc_inv, SyArc_ok in *. done_tac. Qed.
#[export] Hint Resolve SyArc_t : typd.

Definition SyCircle_inv (o : SyCircle) : bool :=
  pos2_ok (si_center o)
  && numb (si_radius o)
  && Stroke_ok (si_stroke o)
  && Fill_ok (si_fill o).
Lemma SyCircle_step_t : forall o x, SyCircle_inv o = true -> texts SyCircle_kinds x = true -> sat (fun o => SyCircle_inv o = true) (SyCircle_step o x).
Proof. unfold SyCircle_kinds. tstep ltac:(unfold SyCircle_step) SyCircle_inv. Qed.
Lemma SyCircle_inv_t : forall v, SyCircle_typed v = true -> sat (fun o => SyCircle_inv o = true) (SyCircle_from v).
Proof. tfrom ltac:(fun H => unfold SyCircle_typed in H; unfold SyCircle_from) SyCircle_inv SyCircle_step_t. Qed.
Lemma SyCircle_t : forall v, SyCircle_typed v = true -> sat (fun o => SyCircle_ok o = true) (SyCircle_from v).
Proof. to_ok SyCircle_inv_t. unfold SyCircle_inv, SyCircle_ok in *. done_tac. Qed.
#[export] Hint Resolve SyCircle_t : typd.

Definition SyCurve_inv (o : SyCurve) : bool :=
  forallb pos2_ok (sc_points o)
  && Stroke_ok (sc_stroke o)
  && Fill_ok (sc_fill o).
Lemma SyCurve_step_t : forall o x, SyCurve_inv o = true -> strict SyCurve_kinds x = true -> sat (fun o => SyCurve_inv o = true) (SyCurve_step o x).
Proof. unfold SyCurve_kinds. tstep ltac:(unfold SyCurve_step) SyCurve_inv. Qed.
Lemma SyCurve_inv_t : forall v, SyCurve_typed v = true -> sat (fun o => SyCurve_inv o = true) (SyCurve_from v).
Proof. tfrom ltac:(fun H => unfold SyCurve_typed in H; unfold SyCurve_from) SyCurve_inv SyCurve_step_t. Qed.
Lemma SyCurve_t : forall v, SyCurve_typed v = true -> sat (fun o => SyCurve_ok o = true) (SyCurve_from v).
Proof. to_ok SyCurve_inv_t. unfold SyCurve_inv, SyCurve_ok in *. done_tac. Qed.
#[export] Hint Resolve SyCurve_t : typd.

Definition SyPolyLine_inv (o : SyPolyLine) : bool :=
  forallb pos2_ok (sl_points o)
  && Stroke_ok (sl_stroke o)
  && Fill_ok (sl_fill o).
Lemma SyPolyLine_step_t : forall o x, SyPolyLine_inv o = true -> strict SyPolyLine_kinds x = true -> sat (fun o => SyPolyLine_inv o = true) (SyPolyLine_step o x).
Proof. unfold SyPolyLine_kinds. tstep ltac:(unfold SyPolyLine_step) SyPolyLine_inv. Qed.
Lemma SyPolyLine_inv_t : forall v, SyPolyLine_typed v = true -> sat (fun o => SyPolyLine_inv o = true) (SyPolyLine_from v).
Proof. tfrom ltac:(fun H => unfold SyPolyLine_typed in H; unfold SyPolyLine_from) SyPolyLine_inv SyPolyLine_step_t. Qed.
Lemma SyPolyLine_t : forall v, SyPolyLine_typed v = true -> sat (fun o => SyPolyLine_ok o = true) (SyPolyLine_from v).
Proof. to_ok SyPolyLine_inv_t. unfold SyPolyLine_inv, SyPolyLine_ok in *. done_tac. Qed.
#[export] Hint Resolve SyPolyLine_t : typd.

Definition SyRect_inv (o : SyRect) : bool :=
  pos2_ok (sr_start o)
  && pos2_ok (sr_end o)
  && Stroke_ok (sr_stroke o)
  && Fill_ok (sr_fill o).
Lemma SyRect_step_t : forall o x, SyRect_inv o = true -> texts SyRect_kinds x = true -> sat (fun o => SyRect_inv o = true) (SyRect_step o x).
Proof. unfold SyRect_kinds. tstep ltac:(unfold SyRect_step) SyRect_inv. Qed.
Lemma SyRect_inv_t : forall v, SyRect_typed v = true -> sat (fun o => SyRect_inv o = true) (SyRect_from v).
Proof. tfrom ltac:(fun H => unfold SyRect_typed in H; unfold SyRect_from) SyRect_inv SyRect_step_t. Qed.
Lemma SyRect_t : forall v, SyRect_typed v = true -> sat (fun o => SyRect_ok o = true) (SyRect_from v).
Proof. to_ok SyRect_inv_t. unfold SyRect_inv, SyRect_ok in *. done_tac. Qed.
#[export] Hint Resolve SyRect_t : typd.

Definition SyText_inv (o : SyText) : bool :=
  txtb (sx_text o)
  && pos3_ok (sx_position o)
  && Effects_ok (sx_effects o).
Lemma SyText_step_t : forall o x, SyText_inv o = true -> strict SyText_kinds x = true -> sat (fun o => SyText_inv o = true) (SyText_step o x).
Proof. unfold SyText_kinds. tstep ltac:(unfold SyText_step) SyText_inv. Qed.
Lemma SyText_inv_t : forall v, SyText_typed v = true -> sat (fun o => SyText_inv o = true) (SyText_from v).
Proof. tfrom ltac:(fun H => unfold SyText_typed in H; unfold SyText_from) SyText_inv SyText_step_t. Qed.
Lemma SyText_t : forall v, SyText_typed v = true -> sat (fun o => SyText_ok o = true) (SyText_from v).
Proof. to_ok SyText_inv_t. unfold SyText_inv, SyText_ok in *. done_tac. Qed.
#[export] Hint Resolve SyText_t : typd.

Definition SyTextBox_inv (o : SyTextBox) : bool :=
  txtb (sb_text o)
  && pos3_ok (sb_position o)
  && pos2_ok (sb_size o)
  && Stroke_ok (sb_stroke o)
  && Fill_ok (sb_fill o)
  && Effects_ok (sb_effects o)
  && optb atomb (sb_uuid o).
Lemma SyTextBox_step_t : forall o x, SyTextBox_inv o = true -> strict SyTextBox_kinds x = true -> sat (fun o => SyTextBox_inv o = true) (SyTextBox_step o x).
Proof. unfold SyTextBox_kinds. tstep ltac:(unfold SyTextBox_step) SyTextBox_inv. Qed.
Lemma SyTextBox_inv_t : forall v, SyTextBox_typed v = true -> sat (fun o => SyTextBox_inv o = true) (SyTextBox_from v).
Proof.
  intros v H. unfold SyTextBox_typed, flagged_typed in H. destruct v as [| | | | |[|h [|x l]]]; try discriminate H. bools.
  unfold SyTextBox_from, SyTextBox_private, need_head. cbn [need_list bind at_ nth_error].
  match goal with E : (h =s _) = true |- _ => rewrite E end. cbn [negb bind].
  destruct (x =s "private").
  - destruct l as [|y l]; [discriminate|]. cbn [bind at_ nth_error].
    destruct y; bools; cbn [is_list negb bind skipn at_ nth_error setf];
      (refine (sat_fold _ _ _ SyTextBox_step_t _ _ _ _); [unfold SyTextBox_inv; start | assumption]).
  - bools. cbn [is_list negb bind skipn at_ nth_error setf].
    refine (sat_fold _ _ _ SyTextBox_step_t _ _ _ _); [unfold SyTextBox_inv; start | assumption].
Qed.
Lemma SyTextBox_t : forall v, SyTextBox_typed v = true -> sat (fun o => SyTextBox_ok o = true) (SyTextBox_from v).
Proof. to_ok SyTextBox_inv_t. unfold SyTextBox_inv, SyTextBox_ok in *. done_tac. Qed.
#[export] Hint Resolve SyTextBox_t : typd.

Definition SymbolAlternativePin_inv (o : SymbolAlternativePin) : bool :=
  txtb (ap_pinName o)
  && wordv (ap_electricalType o)
  && wordv (ap_graphicalStyle o).
Lemma SymbolAlternativePin_inv_t : forall v, SymbolAlternativePin_typed v = true -> sat (fun o => SymbolAlternativePin_inv o = true) (SymbolAlternativePin_from v).
Proof. tfrom ltac:(fun H => unfold SymbolAlternativePin_typed in H; unfold SymbolAlternativePin_from) SymbolAlternativePin_inv I. Qed.
Lemma SymbolAlternativePin_t : forall v, SymbolAlternativePin_typed v = true -> sat (fun o => SymbolAlternativePin_ok o = true) (SymbolAlternativePin_from v).
Proof. to_ok SymbolAlternativePin_inv_t. unfold SymbolAlternativePin_inv, SymbolAlternativePin_ok in *. done_tac. Qed.
#[export] Hint Resolve SymbolAlternativePin_t : typd.

Definition SymbolPin_inv (o : SymbolPin) : bool :=
  wordv (sp_electricalType o)
  && wordv (sp_graphicalStyle o)
  && pos3_ok (sp_position o)
  && numb (sp_length o)
  && txtb (sp_name o)
  && optok Effects_ok (sp_nameEffects o)
  && txtb (sp_number o)
  && optok Effects_ok (sp_numberEffects o)
  && forallb SymbolAlternativePin_ok (sp_alternatePins o).
Lemma SymbolPin_step_t : forall o x, SymbolPin_inv o = true -> lists SymbolPin_kinds x = true -> sat (fun o => SymbolPin_inv o = true) (SymbolPin_step o x).
Proof. unfold SymbolPin_kinds. tstep ltac:(unfold SymbolPin_step) SymbolPin_inv. Qed.
Lemma SymbolPin_inv_t : forall v, SymbolPin_typed v = true -> sat (fun o => SymbolPin_inv o = true) (SymbolPin_from v).
Proof. tfrom ltac:(fun H => unfold SymbolPin_typed in H; unfold SymbolPin_from) SymbolPin_inv SymbolPin_step_t. Qed.
Lemma SymbolPin_t : forall v, SymbolPin_typed v = true -> sat (fun o => SymbolPin_ok o = true) (SymbolPin_from v).
Proof. to_ok SymbolPin_inv_t. unfold SymbolPin_inv, SymbolPin_ok in *. done_tac. Qed.
#[export] Hint Resolve SymbolPin_t : typd.



Definition Symbol_then (o : Symbol) : bool := implb (Symbol_whole o) (Symbol_ok o).
Definition Symbol_inv (o : Symbol) : bool :=
  optb txtb (sy_extends o)
  && optb numb (sy_pinNamesOffset o)
  && forallb Property_ok (sy_properties o)
  && forallb SyItem_ok (sy_graphicItems o)
  && forallb SymbolPin_ok (sy_pins o)
  && forallb Symbol_then (sy_units o).
Lemma pin_names_t : forall o x, Symbol_inv o = true -> lists [("offset"%string, at_place 1 numb)] x = true -> sat (fun o => Symbol_inv o = true) (Symbol_pin_names_step o x).
Proof.
  intros o x I R. unfold Symbol_pin_names_step. destruct x as [| | | |s|l]; cbn [is_list]; try (apply sat_on; [intros _; br Symbol_inv I|exact I]).
  unfold lists, rows in R. destruct l as [|h l]; [discriminate R|]. split_rows R. tchain Symbol_inv I.
Qed.
Ltac br_more inv I ::= lazymatch goal with
  | |- sat _ (Symbol_item _ _ _) => unfold Symbol_item; br inv I
  | |- sat _ (foldM Symbol_pin_names_step _ _) => refine (sat_fold _ _ _ pin_names_t _ _ I _); assumption
  | |- sat ?P (bind (from_ (VList ?l) ?n) ?k) => change (sat P (k (skipn n l))); cbn [skipn]; br inv I
  end.
Definition Symbol_items (x : val) : bool := (if at_place 0 (fun h => h =s "symbol") x then Symbol_typed x else true) && strict Symbol_kinds x.
Lemma Symbol_step_t : forall o x, Symbol_inv o = true -> Symbol_items x = true ->
  (Symbol_typed x = true -> sat (fun o => Symbol_then o = true) (Symbol_from x)) ->
  sat (fun o => Symbol_inv o = true) (Symbol_step Symbol_from o x).
Proof.
  unfold Symbol_kinds. intros o x I R IH. unfold Symbol_items, strict in R. apply andb_prop in R as [W R]. unfold Symbol_step.
  destruct x as [| | | |s|l]; [try discriminate R; tchain Symbol_inv I..|].
  unfold Symbol_kinds, rows in R. destruct l as [|h l]; [discriminate R|]. split_rows R. cbn [at_place nth_error] in W.
  tchain Symbol_inv I.
Qed.
Lemma Symbol_from_t : forall v, Symbol_typed v = true -> sat (fun o => Symbol_then o = true) (Symbol_from v).
Proof.
  induction v as [v Hv|l IH] using val_ind2; [intros H; destruct v; discriminate|]. intros H.
  destruct l as [|h [|[| | | |id|] items]]; try discriminate H.
  change ((h =s "symbol") && forallb Symbol_items items = true) in H. bools.
  cbn [Symbol_from]. destruct (h =s "symbol"); [|apply sat_err].
  apply (sat_bind (fun o => Symbol_inv o = true)).
  - unfold Symbol_set_libId. cbn [as_text bind]. destruct (re_match re_nick id); [apply sat_ok; reflexivity|].
    destruct (re_match re_unit id); apply sat_ok; reflexivity.
  - intros o I. apply (sat_weak (fun o => Symbol_inv o = true)).
    + clear. intros o I. apply implb_i. destruct o as [z1 z2 z3 z4 z5 z6 z7 z8 z9 z10 z11 z12 z13 z14 z15 z16]. unfold Symbol_inv in I. cbn [Symbol_whole Symbol_ok] in *.
      cbn [sy_extends sy_pinNamesOffset sy_properties sy_graphicItems sy_pins sy_units sy_libraryNickname sy_entryName sy_unitId sy_styleId sy_pinNames sy_pinNamesHide] in *.
      intros W. bools_keep. repeat (apply andb_true_intro; split); try assumption.
      match goal with A : forallb Symbol_then ?x = true, B : forallb _ ?x = true |- _ => exact (all_e _ _ x A B) end.
    + assert (IHi : Forall (fun x => Symbol_typed x = true -> sat (fun o => Symbol_then o = true) (Symbol_from x)) items)
        by (inversion IH as [|? ? ? K]; now inversion K).
      match goal with K : forallb Symbol_items items = true |- _ => revert o I K end. clear - IHi. induction IHi as [|x items Hx _ IHi]; intros o I K; [now apply sat_ok|].
      cbn [forallb] in K. apply andb_prop in K as [K1 K2]. cbn [foldM]. apply (sat_bind (fun o => Symbol_inv o = true)); [now apply Symbol_step_t|].
      intros o' I'. now apply IHi.
Qed.
Definition Symbol_t := Symbol_from_t.
#[export] Hint Resolve Symbol_t : typd.


Definition SymbolLib_then (o : SymbolLib) : bool := implb (SymbolLib_whole o) (SymbolLib_ok o).
Definition SymbolLib_inv (o : SymbolLib) : bool :=
  orv atomb (sj_generator o)
  && forallb Symbol_then (sj_symbols o)
  && is_none (sj_filePath o).
Lemma SymbolLib_step_t : forall o x, SymbolLib_inv o = true -> strict SymbolLib_kinds x = true -> sat (fun o => SymbolLib_inv o = true) (SymbolLib_step o x).
Proof. unfold SymbolLib_kinds. tstep ltac:(unfold SymbolLib_step) SymbolLib_inv. Qed.
Lemma SymbolLib_inv_t : forall v, SymbolLib_typed v = true -> sat (fun o => SymbolLib_inv o = true) (SymbolLib_from v).
Proof. tfrom ltac:(fun H => unfold SymbolLib_typed in H; unfold SymbolLib_from) SymbolLib_inv SymbolLib_step_t. Qed.
Lemma SymbolLib_t : forall v, SymbolLib_typed v = true -> sat (fun o => SymbolLib_then o = true) (SymbolLib_from v).
Proof. to_ok SymbolLib_inv_t. apply implb_i. unfold SymbolLib_inv, SymbolLib_whole, SymbolLib_ok in *. intros W. done_tac. Qed.
#[export] Hint Resolve SymbolLib_t : typd.

Definition FpText_then (o : FpText) : bool := implb (FpText_whole o) (FpText_ok o).
Definition FpText_inv (o : FpText) : bool :=
  wordv (ft_type o)
  && txtb (ft_text o)
  && pos4_ok (ft_position o)
  && txtb (ft_layer o)
  && Effects_ok (ft_effects o)
  && optb wordv (ft_tstamp o)
  && optok RenderCache_then (ft_renderCache o).
Lemma FpText_step_t : forall o x, FpText_inv o = true -> lists FpText_kinds x = true -> sat (fun o => FpText_inv o = true) (FpText_step o x).
Proof. unfold FpText_kinds. tstep ltac:(unfold FpText_step) FpText_inv. Qed.
Lemma FpText_inv_t : forall v, FpText_typed v = true -> sat (fun o => FpText_inv o = true) (FpText_from v).
Proof. tfrom ltac:(fun H => unfold FpText_typed in H; unfold FpText_from) FpText_inv FpText_step_t. Qed.
Lemma FpText_t : forall v, FpText_typed v = true -> sat (fun o => FpText_then o = true) (FpText_from v).
Proof. to_ok FpText_inv_t. apply implb_i. unfold FpText_inv, FpText_whole, FpText_ok in *. intros W. done_tac. Qed.
#[export] Hint Resolve FpText_t : typd.

Definition FpLine_then (o : FpLine) : bool := implb (FpLine_whole o) (FpLine_ok o).
Definition FpLine_inv (o : FpLine) : bool :=
  pos2_ok (fl_start o)
  && pos2_ok (fl_end o)
  && txtb (fl_layer o)
  && optb numb (fl_width o)
  && optok Stroke_ok (fl_stroke o)
  && optb wordv (fl_tstamp o).
Lemma FpLine_step_t : forall o x, FpLine_inv o = true -> lists FpLine_kinds x = true -> sat (fun o => FpLine_inv o = true) (FpLine_step o x).
Proof. unfold FpLine_kinds. tstep ltac:(unfold FpLine_step) FpLine_inv. Qed.
Lemma FpLine_inv_t : forall v, FpLine_typed v = true -> sat (fun o => FpLine_inv o = true) (FpLine_from v).
Proof. tfrom ltac:(fun H => unfold FpLine_typed in H; unfold FpLine_from) FpLine_inv FpLine_step_t. Qed.
Lemma FpLine_t : forall v, FpLine_typed v = true -> sat (fun o => FpLine_then o = true) (FpLine_from v).
Proof. to_ok FpLine_inv_t. apply implb_i. unfold FpLine_inv, FpLine_whole, FpLine_ok in *. intros W. done_tac. Qed.
#[export] Hint Resolve FpLine_t : typd.

Definition FpRect_then (o : FpRect) : bool := implb (FpRect_whole o) (FpRect_ok o).
Definition FpRect_inv (o : FpRect) : bool :=
  pos2_ok (fr_start o)
  && pos2_ok (fr_end o)
  && txtb (fr_layer o)
  && optb numb (fr_width o)
  && optok Stroke_ok (fr_stroke o)
  && optb wordv (fr_fill o)
  && optb wordv (fr_tstamp o).
Lemma FpRect_step_t : forall o x, FpRect_inv o = true -> lists FpRect_kinds x = true -> sat (fun o => FpRect_inv o = true) (FpRect_step o x).
Proof. unfold FpRect_kinds. tstep ltac:(unfold FpRect_step) FpRect_inv. Qed.
Lemma FpRect_inv_t : forall v, FpRect_typed v = true -> sat (fun o => FpRect_inv o = true) (FpRect_from v).
Proof. tfrom ltac:(fun H => unfold FpRect_typed in H; unfold FpRect_from) FpRect_inv FpRect_step_t. Qed.
Lemma FpRect_t : forall v, FpRect_typed v = true -> sat (fun o => FpRect_then o = true) (FpRect_from v).
Proof. to_ok FpRect_inv_t. apply implb_i. unfold FpRect_inv, FpRect_whole, FpRect_ok in *. intros W. done_tac. Qed.
#[export] Hint Resolve FpRect_t : typd.

Definition FpCircle_then (o : FpCircle) : bool := implb (FpCircle_whole o) (FpCircle_ok o).
Definition FpCircle_inv (o : FpCircle) : bool :=
  pos2_ok (fc_center o)
  && pos2_ok (fc_end o)
  && txtb (fc_layer o)
  && optb numb (fc_width o)
  && optok Stroke_ok (fc_stroke o)
  && optb wordv (fc_fill o)
  && optb wordv (fc_tstamp o).
Lemma FpCircle_step_t : forall o x, FpCircle_inv o = true -> lists FpCircle_kinds x = true -> sat (fun o => FpCircle_inv o = true) (FpCircle_step o x).
Proof. unfold FpCircle_kinds. tstep ltac:(unfold FpCircle_step) FpCircle_inv. Qed.
Lemma FpCircle_inv_t : forall v, FpCircle_typed v = true -> sat (fun o => FpCircle_inv o = true) (FpCircle_from v).
Proof. tfrom ltac:(fun H => unfold FpCircle_typed in H; unfold FpCircle_from) FpCircle_inv FpCircle_step_t. Qed.
Lemma FpCircle_t : forall v, FpCircle_typed v = true -> sat (fun o => FpCircle_then o = true) (FpCircle_from v).
Proof. to_ok FpCircle_inv_t. apply implb_i. unfold FpCircle_inv, FpCircle_whole, FpCircle_ok in *. intros W. done_tac. Qed.
#[export] Hint Resolve FpCircle_t : typd.

Definition FpArc_then (o : FpArc) : bool := implb (FpArc_whole o) (FpArc_ok o).
Definition FpArc_inv (o : FpArc) : bool :=
  pos2_ok (fa_start o)
  && pos2_ok (fa_mid o)
  && pos2_ok (fa_end o)
  && txtb (fa_layer o)
  && optb numb (fa_width o)
  && optok Stroke_ok (fa_stroke o)
  && optb wordv (fa_tstamp o).
Lemma FpArc_step_t : forall o x, FpArc_inv o = true -> lists FpArc_kinds x = true -> sat (fun o => FpArc_inv o = true) (FpArc_step o x).
Proof. unfold FpArc_kinds. tstep ltac:(unfold FpArc_step) FpArc_inv. Qed.
Lemma FpArc_inv_t : forall v, FpArc_typed v = true -> sat (fun o => FpArc_inv o = true) (FpArc_from v).
Proof. tfrom ltac:(fun H => unfold FpArc_typed in H; unfold FpArc_from) FpArc_inv FpArc_step_t. Qed.
Lemma FpArc_t : forall v, FpArc_typed v = true -> sat (fun o => FpArc_then o = true) (FpArc_from v).
Proof. to_ok FpArc_inv_t. apply implb_i. unfold FpArc_inv, FpArc_whole, FpArc_ok in *. intros W. done_tac. Qed.
#[export] Hint Resolve FpArc_t : typd.

Definition FpPoly_then (o : FpPoly) : bool := implb (FpPoly_whole o) (FpPoly_ok o).
Definition FpPoly_inv (o : FpPoly) : bool :=
  txtb (fp_layer o)
  && forallb pos2_ok (fp_coordinates o)
  && optb numb (fp_width o)
  && optok Stroke_ok (fp_stroke o)
  && optb wordv (fp_fill o)
  && optb wordv (fp_tstamp o).
Lemma FpPoly_step_t : forall o x, FpPoly_inv o = true -> lists FpPoly_kinds x = true -> sat (fun o => FpPoly_inv o = true) (FpPoly_step o x).
Proof. unfold FpPoly_kinds. tstep ltac:(unfold FpPoly_step) FpPoly_inv. Qed.
Lemma FpPoly_inv_t : forall v, FpPoly_typed v = true -> sat (fun o => FpPoly_inv o = true) (FpPoly_from v).
Proof. tfrom ltac:(fun H => unfold FpPoly_typed in H; unfold FpPoly_from) FpPoly_inv FpPoly_step_t. Qed.
Lemma FpPoly_t : forall v, FpPoly_typed v = true -> sat (fun o => FpPoly_then o = true) (FpPoly_from v).
Proof. to_ok FpPoly_inv_t. apply implb_i. unfold FpPoly_inv, FpPoly_whole, FpPoly_ok in *. intros W. done_tac. Qed.
#[export] Hint Resolve FpPoly_t : typd.

Definition FpCurve_then (o : FpCurve) : bool := implb (FpCurve_whole o) (FpCurve_ok o).
Definition FpCurve_inv (o : FpCurve) : bool :=
  forallb pos2_ok (fv_coordinates o)
  && txtb (fv_layer o)
  && optb numb (fv_width o)
  && optok Stroke_ok (fv_stroke o)
  && optb wordv (fv_tstamp o).
Lemma FpCurve_step_t : forall o x, FpCurve_inv o = true -> lists FpCurve_kinds x = true -> sat (fun o => FpCurve_inv o = true) (FpCurve_step o x).
Proof. unfold FpCurve_kinds. tstep ltac:(unfold FpCurve_step) FpCurve_inv. Qed.
Lemma FpCurve_inv_t : forall v, FpCurve_typed v = true -> sat (fun o => FpCurve_inv o = true) (FpCurve_from v).
Proof. tfrom ltac:(fun H => unfold FpCurve_typed in H; unfold FpCurve_from) FpCurve_inv FpCurve_step_t. Qed.
Lemma FpCurve_t : forall v, FpCurve_typed v = true -> sat (fun o => FpCurve_then o = true) (FpCurve_from v).
Proof. to_ok FpCurve_inv_t. apply implb_i. unfold FpCurve_inv, FpCurve_whole, FpCurve_ok in *. intros W. done_tac. Qed.
#[export] Hint Resolve FpCurve_t : typd.

Definition FpTextBox_then (o : FpTextBox) : bool := implb (FpTextBox_whole o) (FpTextBox_ok o).
Definition FpTextBox_inv (o : FpTextBox) : bool :=
  txtb (fb_text o)
  && optok pos2_ok (fb_start o)
  && optok pos2_ok (fb_end o)
  && forallb pos2_ok (fb_pts o)
  && optb numb (fb_angle o)
  && txtb (fb_layer o)
  && optb wordv (fb_tstamp o)
  && optok Effects_ok (fb_effects o)
  && optok Stroke_ok (fb_stroke o)
  && optok RenderCache_then (fb_renderCache o).
Lemma FpTextBox_step_t : forall o x, FpTextBox_inv o = true -> strict FpTextBox_kinds x = true -> sat (fun o => FpTextBox_inv o = true) (FpTextBox_step o x).
Proof. unfold FpTextBox_kinds. tstep ltac:(unfold FpTextBox_step) FpTextBox_inv. Qed.
Lemma FpTextBox_inv_t : forall v, FpTextBox_typed v = true -> sat (fun o => FpTextBox_inv o = true) (FpTextBox_from v).
Proof.
  intros v H. unfold FpTextBox_typed, flagged_typed in H. destruct v as [| | | | |[|h [|x l]]]; try discriminate H. bools.
  unfold FpTextBox_from, text_box_locked. cbn [need_list bind at_ nth_error length Nat.ltb Nat.leb].
  match goal with E : (h =s _) = true |- _ => rewrite E end. cbn [negb bind].
  destruct (x =s "locked").
  - destruct l as [|y l]; [discriminate|]. cbn [bind at_ nth_error].
    destruct y; bools; cbn [is_list negb bind skipn at_ nth_error];
      (refine (sat_fold _ _ _ FpTextBox_step_t _ _ _ _); [unfold FpTextBox_inv; start | assumption]).
  - bools. cbn [is_list negb bind skipn at_ nth_error].
    refine (sat_fold _ _ _ FpTextBox_step_t _ _ _ _); [unfold FpTextBox_inv; start | assumption].
Qed.
Lemma FpTextBox_t : forall v, FpTextBox_typed v = true -> sat (fun o => FpTextBox_then o = true) (FpTextBox_from v).
Proof. to_ok FpTextBox_inv_t. apply implb_i. unfold FpTextBox_inv, FpTextBox_whole, FpTextBox_ok in *. intros W. done_tac. Qed.
#[export] Hint Resolve FpTextBox_t : typd.

Definition GrText_then (o : GrText) : bool := implb (GrText_whole o) (GrText_ok o).
Definition GrText_inv (o : GrText) : bool :=
  txtb (gt_text o)
  && pos3_ok (gt_position o)
  && optb txtb (gt_layer o)
  && Effects_ok (gt_effects o)
  && optb wordv (gt_tstamp o)
  && optok RenderCache_then (gt_renderCache o).
Lemma GrText_step_t : forall o x, GrText_inv o = true -> lists GrText_kinds x = true -> sat (fun o => GrText_inv o = true) (GrText_step o x).
Proof. unfold GrText_kinds. tstep ltac:(unfold GrText_step) GrText_inv. Qed.
Lemma GrText_inv_t : forall v, GrText_typed v = true -> sat (fun o => GrText_inv o = true) (GrText_from v).
Proof. tfrom ltac:(fun H => unfold GrText_typed in H; unfold GrText_from) GrText_inv GrText_step_t. Qed.
Lemma GrText_t : forall v, GrText_typed v = true -> sat (fun o => GrText_then o = true) (GrText_from v).
Proof. to_ok GrText_inv_t. apply implb_i. unfold GrText_inv, GrText_whole, GrText_ok in *. intros W. done_tac. Qed.
#[export] Hint Resolve GrText_t : typd.

Definition GrLine_inv (o : GrLine) : bool :=
  pos2_ok (gl_start o)
  && pos2_ok (gl_end o)
  && is_none (gl_angle o)
  && optb txtb (gl_layer o)
  && numb (gl_width o)
  && optb wordv (gl_tstamp o).
Lemma GrLine_step_t : forall o x, GrLine_inv o = true -> lists GrLine_kinds x = true -> sat (fun o => GrLine_inv o = true) (GrLine_step o x).
Proof. unfold GrLine_kinds. tstep ltac:(unfold GrLine_step) GrLine_inv. Qed.
Lemma GrLine_inv_t : forall v, GrLine_typed v = true -> sat (fun o => GrLine_inv o = true) (GrLine_from v).
Proof. tfrom ltac:(fun H => unfold GrLine_typed in H; unfold GrLine_from) GrLine_inv GrLine_step_t. Qed.
Lemma GrLine_t : forall v, GrLine_typed v = true -> sat (fun o => GrLine_ok o = true) (GrLine_from v).
Proof. to_ok GrLine_inv_t. unfold GrLine_inv, GrLine_ok in *. done_tac. Qed.
#[export] Hint Resolve GrLine_t : typd.

Definition GrRect_inv (o : GrRect) : bool :=
  pos2_ok (gr_start o)
  && pos2_ok (gr_end o)
  && optb txtb (gr_layer o)
  && numb (gr_width o)
  && optb wordv (gr_fill o)
  && optb wordv (gr_tstamp o).
Lemma GrRect_step_t : forall o x, GrRect_inv o = true -> lists GrRect_kinds x = true -> sat (fun o => GrRect_inv o = true) (GrRect_step o x).
Proof. unfold GrRect_kinds. tstep ltac:(unfold GrRect_step) GrRect_inv. Qed.
Lemma GrRect_inv_t : forall v, GrRect_typed v = true -> sat (fun o => GrRect_inv o = true) (GrRect_from v).
Proof. tfrom ltac:(fun H => unfold GrRect_typed in H; unfold GrRect_from) GrRect_inv GrRect_step_t. Qed.
Lemma GrRect_t : forall v, GrRect_typed v = true -> sat (fun o => GrRect_ok o = true) (GrRect_from v).
Proof. to_ok GrRect_inv_t. unfold GrRect_inv, GrRect_ok in *. done_tac. Qed.
#[export] Hint Resolve GrRect_t : typd.

Definition GrCircle_inv (o : GrCircle) : bool :=
  pos2_ok (gc_center o)
  && pos2_ok (gc_end o)
  && optb txtb (gc_layer o)
  && numb (gc_width o)
  && optb wordv (gc_fill o)
  && optb wordv (gc_tstamp o).
Lemma GrCircle_step_t : forall o x, GrCircle_inv o = true -> lists GrCircle_kinds x = true -> sat (fun o => GrCircle_inv o = true) (GrCircle_step o x).
Proof. unfold GrCircle_kinds. tstep ltac:(unfold GrCircle_step) GrCircle_inv. Qed.
Lemma GrCircle_inv_t : forall v, GrCircle_typed v = true -> sat (fun o => GrCircle_inv o = true) (GrCircle_from v).
Proof. tfrom ltac:(fun H => unfold GrCircle_typed in H; unfold GrCircle_from) GrCircle_inv GrCircle_step_t. Qed.
Lemma GrCircle_t : forall v, GrCircle_typed v = true -> sat (fun o => GrCircle_ok o = true) (GrCircle_from v).
Proof. to_ok GrCircle_inv_t. unfold GrCircle_inv, GrCircle_ok in *. done_tac. Qed.
#[export] Hint Resolve GrCircle_t : typd.

Definition GrArc_inv (o : GrArc) : bool :=
  pos2_ok (ga_start o)
  && pos2_ok (ga_mid o)
  && pos2_ok (ga_end o)
  && optb txtb (ga_layer o)
  && numb (ga_width o)
  && optb wordv (ga_tstamp o).
Lemma GrArc_step_t : forall o x, GrArc_inv o = true -> lists GrArc_kinds x = true -> sat (fun o => GrArc_inv o = true) (GrArc_step o x).
Proof. unfold GrArc_kinds. tstep ltac:(unfold GrArc_step) GrArc_inv. Qed.
Lemma GrArc_inv_t : forall v, GrArc_typed v = true -> sat (fun o => GrArc_inv o = true) (GrArc_from v).
Proof. tfrom ltac:(fun H => unfold GrArc_typed in H; unfold GrArc_from) GrArc_inv GrArc_step_t. Qed.
Lemma GrArc_t : forall v, GrArc_typed v = true -> sat (fun o => GrArc_ok o = true) (GrArc_from v).
Proof. to_ok GrArc_inv_t. unfold GrArc_inv, GrArc_ok in *. done_tac. Qed.
#[export] Hint Resolve GrArc_t : typd.

Definition GrPoly_then (o : GrPoly) : bool := implb (GrPoly_whole o) (GrPoly_ok o).
Definition GrPoly_inv (o : GrPoly) : bool :=
  optb txtb (gp_layer o)
  && forallb pos2_ok (gp_coordinates o)
  && numb (gp_width o)
  && optb wordv (gp_fill o)
  && optb wordv (gp_tstamp o).
Lemma GrPoly_step_t : forall o x, GrPoly_inv o = true -> lists GrPoly_kinds x = true -> sat (fun o => GrPoly_inv o = true) (GrPoly_step o x).
Proof. unfold GrPoly_kinds. tstep ltac:(unfold GrPoly_step) GrPoly_inv. Qed.
Lemma GrPoly_inv_t : forall v, GrPoly_typed v = true -> sat (fun o => GrPoly_inv o = true) (GrPoly_from v).
Proof. tfrom ltac:(fun H => unfold GrPoly_typed in H; unfold GrPoly_from) GrPoly_inv GrPoly_step_t. Qed.
Lemma GrPoly_t : forall v, GrPoly_typed v = true -> sat (fun o => GrPoly_then o = true) (GrPoly_from v).
Proof. to_ok GrPoly_inv_t. apply implb_i. unfold GrPoly_inv, GrPoly_whole, GrPoly_ok in *. intros W. done_tac. Qed.
#[export] Hint Resolve GrPoly_t : typd.

Definition GrCurve_then (o : GrCurve) : bool := implb (GrCurve_whole o) (GrCurve_ok o).
Definition GrCurve_inv (o : GrCurve) : bool :=
  forallb pos2_ok (gv_coordinates o)
  && optb txtb (gv_layer o)
  && numb (gv_width o)
  && optb wordv (gv_tstamp o).
Lemma GrCurve_step_t : forall o x, GrCurve_inv o = true -> lists GrCurve_kinds x = true -> sat (fun o => GrCurve_inv o = true) (GrCurve_step o x).
Proof. unfold GrCurve_kinds. tstep ltac:(unfold GrCurve_step) GrCurve_inv. Qed.
Lemma GrCurve_inv_t : forall v, GrCurve_typed v = true -> sat (fun o => GrCurve_inv o = true) (GrCurve_from v).
Proof. tfrom ltac:(fun H => unfold GrCurve_typed in H; unfold GrCurve_from) GrCurve_inv GrCurve_step_t. Qed.
Lemma GrCurve_t : forall v, GrCurve_typed v = true -> sat (fun o => GrCurve_then o = true) (GrCurve_from v).
Proof. to_ok GrCurve_inv_t. apply implb_i. unfold GrCurve_inv, GrCurve_whole, GrCurve_ok in *. intros W. done_tac. Qed.
#[export] Hint Resolve GrCurve_t : typd.

Definition GrTextBox_then (o : GrTextBox) : bool := implb (GrTextBox_whole o) (GrTextBox_ok o).
Definition GrTextBox_inv (o : GrTextBox) : bool :=
  txtb (gb_text o)
  && optok pos2_ok (gb_start o)
  && optok pos2_ok (gb_end o)
  && forallb pos2_ok (gb_pts o)
  && optb numb (gb_angle o)
  && txtb (gb_layer o)
  && optb wordv (gb_tstamp o)
  && optok Effects_ok (gb_effects o)
  && optok Stroke_ok (gb_stroke o)
  && optok RenderCache_then (gb_renderCache o).
Lemma GrTextBox_step_t : forall o x, GrTextBox_inv o = true -> strict GrTextBox_kinds x = true -> sat (fun o => GrTextBox_inv o = true) (GrTextBox_step o x).
Proof. unfold GrTextBox_kinds. tstep ltac:(unfold GrTextBox_step) GrTextBox_inv. Qed.
Lemma GrTextBox_inv_t : forall v, GrTextBox_typed v = true -> sat (fun o => GrTextBox_inv o = true) (GrTextBox_from v).
Proof.
  intros v H. unfold GrTextBox_typed, flagged_typed in H. destruct v as [| | | | |[|h [|x l]]]; try discriminate H. bools.
  unfold GrTextBox_from, text_box_locked. cbn [need_list bind at_ nth_error length Nat.ltb Nat.leb].
  match goal with E : (h =s _) = true |- _ => rewrite E end. cbn [negb bind].
  destruct (x =s "locked").
  - destruct l as [|y l]; [discriminate|]. cbn [bind at_ nth_error].
    destruct y; bools; cbn [is_list negb bind skipn at_ nth_error];
      (refine (sat_fold _ _ _ GrTextBox_step_t _ _ _ _); [unfold GrTextBox_inv; start | assumption]).
  - bools. cbn [is_list negb bind skipn at_ nth_error].
    refine (sat_fold _ _ _ GrTextBox_step_t _ _ _ _); [unfold GrTextBox_inv; start | assumption].
Qed.
Lemma GrTextBox_t : forall v, GrTextBox_typed v = true -> sat (fun o => GrTextBox_then o = true) (GrTextBox_from v).
Proof. to_ok GrTextBox_inv_t. apply implb_i. unfold GrTextBox_inv, GrTextBox_whole, GrTextBox_ok in *. intros W. done_tac. Qed.
#[export] Hint Resolve GrTextBox_t : typd.

Definition KeepoutSettings_inv (o : KeepoutSettings) : bool :=
  wordv (ks_tracks o)
  && wordv (ks_vias o)
  && wordv (ks_pads o)
  && wordv (ks_copperpour o)
  && wordv (ks_footprints o).
Lemma KeepoutSettings_step_t : forall o x, KeepoutSettings_inv o = true -> lists KeepoutSettings_kinds x = true -> sat (fun o => KeepoutSettings_inv o = true) (KeepoutSettings_step o x).
Proof. unfold KeepoutSettings_kinds. tstep ltac:(unfold KeepoutSettings_step) KeepoutSettings_inv. Qed.
Lemma KeepoutSettings_inv_t : forall v, KeepoutSettings_typed v = true -> sat (fun o => KeepoutSettings_inv o = true) (KeepoutSettings_from v).
Proof. tfrom ltac:(fun H => unfold KeepoutSettings_typed in H; unfold KeepoutSettings_from) KeepoutSettings_inv KeepoutSettings_step_t. Qed.
Lemma KeepoutSettings_t : forall v, KeepoutSettings_typed v = true -> sat (fun o => KeepoutSettings_ok o = true) (KeepoutSettings_from v).
Proof. to_ok KeepoutSettings_inv_t. unfold KeepoutSettings_inv, KeepoutSettings_ok in *. done_tac. Qed.
#[export] Hint Resolve KeepoutSettings_t : typd.

Definition FillSettings_then (o : FillSettings) : bool := implb (FillSettings_whole o) (FillSettings_ok o).
Definition FillSettings_inv (o : FillSettings) : bool :=
  optb wordv (fs_mode o)
  && orv numb (fs_thermalGap o)
  && orv numb (fs_thermalBridgeWidth o)
  && optb wordv (fs_smoothingStyle o)
  && optb numb (fs_smoothingRadius o)
  && optb numb (fs_islandRemovalMode o)
  && optb numb (fs_islandAreaMin o)
  && optb numb (fs_hatchThickness o)
  && optb numb (fs_hatchGap o)
  && optb numb (fs_hatchOrientation o)
  && optb numb (fs_hatchSmoothingLevel o)
  && optb numb (fs_hatchSmoothingValue o)
  && optb numb (fs_hatchBorderAlgorithm o)
  && optb numb (fs_hatchMinHoleArea o).
Lemma FillSettings_step_t : forall o x, FillSettings_inv o = true -> lists FillSettings_kinds x = true -> sat (fun o => FillSettings_inv o = true) (FillSettings_step o x).
Proof. unfold FillSettings_kinds. tstep ltac:(unfold FillSettings_step) FillSettings_inv. Qed.
Lemma FillSettings_inv_t : forall v, FillSettings_typed v = true -> sat (fun o => FillSettings_inv o = true) (FillSettings_from v).
Proof. tfrom ltac:(fun H => unfold FillSettings_typed in H; unfold FillSettings_from) FillSettings_inv FillSettings_step_t. Qed.
Lemma FillSettings_t : forall v, FillSettings_typed v = true -> sat (fun o => FillSettings_then o = true) (FillSettings_from v).
Proof. to_ok FillSettings_inv_t. apply implb_i. unfold FillSettings_inv, FillSettings_whole, FillSettings_ok in *. intros W. done_tac. Qed.
#[export] Hint Resolve FillSettings_t : typd.

Definition ZonePolygon_then (o : ZonePolygon) : bool := implb (ZonePolygon_whole o) (ZonePolygon_ok o).
Definition ZonePolygon_inv (o : ZonePolygon) : bool :=
  forallb pos2_ok (zp_coordinates o).
Lemma ZonePolygon_step_t : forall o x, ZonePolygon_inv o = true -> lists ZonePolygon_kinds x = true -> sat (fun o => ZonePolygon_inv o = true) (ZonePolygon_step o x).
Proof. unfold ZonePolygon_kinds. tstep ltac:(unfold ZonePolygon_step) ZonePolygon_inv. Qed.
Lemma ZonePolygon_inv_t : forall v, ZonePolygon_typed v = true -> sat (fun o => ZonePolygon_inv o = true) (ZonePolygon_from v).
Proof. tfrom ltac:(fun H => unfold ZonePolygon_typed in H; unfold ZonePolygon_from) ZonePolygon_inv ZonePolygon_step_t. Qed.
Lemma ZonePolygon_t : forall v, ZonePolygon_typed v = true -> sat (fun o => ZonePolygon_then o = true) (ZonePolygon_from v).
Proof. to_ok ZonePolygon_inv_t. apply implb_i. unfold ZonePolygon_inv, ZonePolygon_whole, ZonePolygon_ok in *. intros W. done_tac. Qed.
#[export] Hint Resolve ZonePolygon_t : typd.

Definition FilledPolygon_then (o : FilledPolygon) : bool := implb (FilledPolygon_whole o) (FilledPolygon_ok o).
Definition FilledPolygon_inv (o : FilledPolygon) : bool :=
  txtb (zf_layer o)
  && forallb pos2_ok (zf_coordinates o).
Lemma FilledPolygon_step_t : forall o x, FilledPolygon_inv o = true -> lists FilledPolygon_kinds x = true -> sat (fun o => FilledPolygon_inv o = true) (FilledPolygon_step o x).
Proof. unfold FilledPolygon_kinds. tstep ltac:(unfold FilledPolygon_step) FilledPolygon_inv. Qed.
Lemma FilledPolygon_inv_t : forall v, FilledPolygon_typed v = true -> sat (fun o => FilledPolygon_inv o = true) (FilledPolygon_from v).
Proof. tfrom ltac:(fun H => unfold FilledPolygon_typed in H; unfold FilledPolygon_from) FilledPolygon_inv FilledPolygon_step_t. Qed.
Lemma FilledPolygon_t : forall v, FilledPolygon_typed v = true -> sat (fun o => FilledPolygon_then o = true) (FilledPolygon_from v).
Proof. to_ok FilledPolygon_inv_t. apply implb_i. unfold FilledPolygon_inv, FilledPolygon_whole, FilledPolygon_ok in *. intros W. done_tac. Qed.
#[export] Hint Resolve FilledPolygon_t : typd.

Definition FillSegments_then (o : FillSegments) : bool := implb (FillSegments_whole o) (FillSegments_ok o).
Definition FillSegments_inv (o : FillSegments) : bool :=
  txtb (zs_layer o)
  && forallb pos2_ok (zs_coordinates o).
Lemma FillSegments_step_t : forall o x, FillSegments_inv o = true -> lists FillSegments_kinds x = true -> sat (fun o => FillSegments_inv o = true) (FillSegments_step o x).
Proof. unfold FillSegments_kinds. tstep ltac:(unfold FillSegments_step) FillSegments_inv. Qed.
Lemma FillSegments_inv_t : forall v, FillSegments_typed v = true -> sat (fun o => FillSegments_inv o = true) (FillSegments_from v).
Proof. tfrom ltac:(fun H => unfold FillSegments_typed in H; unfold FillSegments_from) FillSegments_inv FillSegments_step_t. Qed.
Lemma FillSegments_t : forall v, FillSegments_typed v = true -> sat (fun o => FillSegments_then o = true) (FillSegments_from v).
Proof. to_ok FillSegments_inv_t. apply implb_i. unfold FillSegments_inv, FillSegments_whole, FillSegments_ok in *. intros W. done_tac. Qed.
#[export] Hint Resolve FillSegments_t : typd.

Lemma Zone_pads_2 h x : Zone_pads (VList [h; x]) = true -> at_place 1 (at_place 1 numb) (VList [h; x]) = true.
Proof. exact (fun H => H). Qed.
Lemma Zone_pads_3 h l : Zone_pads (VList (h :: l)) = true -> Nat.eqb (length (h :: l)) 2 = false ->
  at_place 1 wordv (VList (h :: l)) = true /\ at_place 2 (at_place 1 numb) (VList (h :: l)) = true.
Proof. destruct l as [|a [|b l]]; try discriminate. intros H _. unfold Zone_pads in H. now apply andb_prop in H. Qed.
Lemma hatch_t v : at_place 1 wordv v = true -> at_place 2 numb v = true -> sat (fun x => Hatch_ok x = true) (let! s := v@1 in let! p := v@2 in Ok (mkHatch s p)).
Proof.
  intros H K. eapply sat_bind; [exact (sat_at _ _ _ H)|]. intros s S. eapply sat_bind; [exact (sat_at _ _ _ K)|]. intros p P.
  apply sat_ok. unfold Hatch_ok. cbn in *. now rewrite S, P.
Qed.
Ltac leaf_first ::= lazymatch goal with |- sat _ (bind _ (fun s => bind _ (fun p => Ok (mkHatch s p)))) => eapply hatch_t; eassumption end.
Ltac look_more ::= try match goal with
  | H : Zone_pads (VList (?h :: ?l)) = true |- _ =>
      destruct l as [|? [|? ?]]; try discriminate H; [apply Zone_pads_2 in H | apply Zone_pads_3 in H; [destruct H|reflexivity]]
  end.
Definition Zone_then (o : Zone) : bool := implb (Zone_whole o) (Zone_ok o).
Definition Zone_inv (o : Zone) : bool :=
  numb (zo_net o)
  && txtb (zo_netName o)
  && forallb txtb (zo_layers o)
  && optb wordv (zo_tstamp o)
  && optb txtb (zo_name o)
  && Hatch_ok (zo_hatch o)
  && optb numb (zo_priority o)
  && optb wordv (zo_connectPads o)
  && numb (zo_clearance o)
  && numb (zo_minThickness o)
  && optb wordv (zo_filledAreasThickness o)
  && optok KeepoutSettings_ok (zo_keepoutSettings o)
  && optok FillSettings_then (zo_fillSettings o)
  && forallb ZonePolygon_then (zo_polygons o)
  && forallb FilledPolygon_then (zo_filledPolygons o)
  && optok FillSegments_then (zo_fillSegments o).
Lemma Zone_step_t : forall o x, Zone_inv o = true -> lists Zone_kinds x = true -> sat (fun o => Zone_inv o = true) (Zone_step o x).
Proof. unfold Zone_kinds. tstep ltac:(unfold Zone_step) Zone_inv. Qed.
Lemma Zone_inv_t : forall v, Zone_typed v = true -> sat (fun o => Zone_inv o = true) (Zone_from v).
Proof. tfrom ltac:(fun H => unfold Zone_typed in H; unfold Zone_from) Zone_inv Zone_step_t. Qed.
Lemma Zone_t : forall v, Zone_typed v = true -> sat (fun o => Zone_then o = true) (Zone_from v).
Proof. to_ok Zone_inv_t. apply implb_i. unfold Zone_inv, Zone_whole, Zone_ok in *. intros W. done_tac. Qed.
#[export] Hint Resolve Zone_t : typd.


Definition Attributes_inv (o : Attributes) : bool :=
  optb (enumb ["through_hole"%string; "smd"%string]) (fx_type o).
Lemma Attributes_item_t : forall o x, Attributes_inv o = true -> always x = true -> sat (fun o => Attributes_inv o = true) (Attributes_item o x).
Proof. tstep0 ltac:(unfold Attributes_item) Attributes_inv. Qed.
Lemma Attributes_t : forall v, Attributes_typed v = true -> sat (fun o => Attributes_ok o = true) (Attributes_from v).
Proof.
  intros v H. unfold Attributes_from. eapply sat_bind; [apply sat_any|]. intros l _. cbv zeta.
  apply (sat_bind (fun o => Attributes_inv o = true)).
  - apply sat_on; [|reflexivity]. intros _. eapply sat_bind; [apply sat_any|]. intros x _.
    apply sat_on; [|reflexivity]. intros E. apply sat_ok. unfold Attributes_inv. cbn [fx_type set].
    refine (optb_i _ _ _). unfold enumb; cbn [existsb]; rewrite ?Bool.orb_false_r, ?Bool.orb_assoc. exact E.
  - intros o I. refine (sat_weak _ _ _ _ (sat_fold _ _ _ Attributes_item_t _ _ I (always_all _))).
    cbv beta. intros ? ?. unfold Attributes_inv, Attributes_ok in *. done_tac.
Qed.
#[export] Hint Resolve Attributes_t : typd.


Definition Model_inv (o : Model) : bool :=
  txtb (mo_path o)
  && Coordinate_ok (mo_pos o)
  && Coordinate_ok (mo_scale o)
  && Coordinate_ok (mo_rotate o)
  && optb numb (mo_opacity o).
Lemma Model_step_t : forall o x, Model_inv o = true -> strict Model_kinds x = true -> sat (fun o => Model_inv o = true) (Model_step o x).
Proof. unfold Model_kinds. tstep ltac:(unfold Model_step) Model_inv. Qed.
Lemma Model_inv_t : forall v, Model_typed v = true -> sat (fun o => Model_inv o = true) (Model_from v).
Proof.
  intros v H. unfold Model_typed, both, expr in H. bools. destruct v as [| | | | |[|h l]]; try discriminate. bools.
  unfold Model_from. cbn [need_list bind].
  match goal with |- sat _ (if ?b then _ else _) => destruct b; [apply sat_err|] end. change (VList (h :: l)@0) with (Ok h). cbn [bind].
  destruct (h =s "model"); cbn [negb]; [|apply sat_err].
  eapply sat_bind; [apply sat_set; leaf|]. cbv beta. intros ? ?. ex_intros.
  eapply sat_bind; [apply sat_any|]. intros y _.
  apply (sat_bind (fun o => Model_inv o = true)).
  - apply sat_on; [intros _; apply sat_ok|]; unfold Model_inv; start.
  - intros o I. refine (sat_fold _ _ _ Model_step_t _ _ I _). assumption.
Qed.
Lemma Model_t : forall v, Model_typed v = true -> sat (fun o => Model_ok o = true) (Model_from v).
Proof. to_ok Model_inv_t. unfold Model_inv, Model_ok in *. done_tac. Qed.
#[export] Hint Resolve Model_t : typd.

Definition DrillDefinition_then (o : DrillDefinition) : bool := implb (DrillDefinition_whole o) (DrillDefinition_ok o).
Definition DrillDefinition_inv (o : DrillDefinition) : bool :=
  numb (dd_diameter o)
  && optb numb (dd_width o)
  && optok pos2_ok (dd_offset o).
Lemma DrillDefinition_step_t : forall o x, DrillDefinition_inv o = true -> lists DrillDefinition_kinds x = true -> sat (fun o => DrillDefinition_inv o = true) (DrillDefinition_step o x).
Proof. unfold DrillDefinition_kinds. tstep ltac:(unfold DrillDefinition_step) DrillDefinition_inv. Qed.
Lemma DrillDefinition_inv_t : forall v, DrillDefinition_typed v = true -> sat (fun o => DrillDefinition_inv o = true) (DrillDefinition_from v).
Proof.
  intros v H. destruct v as [| | | | |[|h [|x l]]]; try discriminate H. unfold DrillDefinition_typed in H. bools.
  unfold DrillDefinition_from, need_head. cbn [need_list bind at_ nth_error].
  match goal with E : (h =s _) = true |- _ => rewrite E; apply is_str_true in E; subst h end. cbn [bind]. cbv zeta.
  apply (sat_bind (fun o => DrillDefinition_inv o = true)).
  - destruct (x =s "oval").
    + destruct l as [|d [|w l]]; try discriminate. bools. apply sat_ok. unfold DrillDefinition_inv. start.
    + bools. cbn [setf bind]. apply sat_on; [intros _|unfold DrillDefinition_inv; start].
      destruct l as [|w l]; [apply sat_err|]. apply sat_ok. unfold DrillDefinition_inv. start.
  - intros o I. refine (sat_fold _ _ _ DrillDefinition_step_t _ _ I _). apply item_head; [reflexivity|assumption].
Qed.
Lemma DrillDefinition_t : forall v, DrillDefinition_typed v = true -> sat (fun o => DrillDefinition_then o = true) (DrillDefinition_from v).
Proof. to_ok DrillDefinition_inv_t. apply implb_i. unfold DrillDefinition_inv, DrillDefinition_whole, DrillDefinition_ok in *. intros W. done_tac. Qed.
#[export] Hint Resolve DrillDefinition_t : typd.

Definition PadOptions_inv (o : PadOptions) : bool :=
  wordv (pq_clearance o)
  && wordv (pq_anchor o).
Lemma PadOptions_step_t : forall o x, PadOptions_inv o = true -> strict PadOptions_kinds x = true -> sat (fun o => PadOptions_inv o = true) (PadOptions_step o x).
Proof. unfold PadOptions_kinds. tstep ltac:(unfold PadOptions_step) PadOptions_inv. Qed.
Lemma PadOptions_inv_t : forall v, PadOptions_typed v = true -> sat (fun o => PadOptions_inv o = true) (PadOptions_from v).
Proof. tfrom ltac:(fun H => unfold PadOptions_typed in H; unfold PadOptions_from) PadOptions_inv PadOptions_step_t. Qed.
Lemma PadOptions_t : forall v, PadOptions_typed v = true -> sat (fun o => PadOptions_ok o = true) (PadOptions_from v).
Proof. to_ok PadOptions_inv_t. unfold PadOptions_inv, PadOptions_ok in *. done_tac. Qed.
#[export] Hint Resolve PadOptions_t : typd.

Definition PadPrimitive_then (o : PadPrimitive) : bool := implb (PadPrimitive_whole o) (PadPrimitive_ok o).

Lemma PadPrimitive_read_t v : strict PadPrimitive_kinds v = true -> sat (fun l => forallb PadPrimitive_then l = true) (PadPrimitive_read v).
Proof.
  unfold PadPrimitive_kinds, strict. intros R. unfold PadPrimitive_read. destruct v as [| | | |s|l]; try discriminate R.
  - destruct s as [|c s]; [apply sat_err|]. change (VStr (c :: s)@0) with (Ok (VStr [c])). cbn [bind]. rewrite !char_no by discriminate. now apply sat_ok.
  - unfold rows in R. destruct l as [|h l]; [discriminate R|]. split_rows R. change (VList (h :: l)@0) with (Ok h). cbn [bind].
    repeat (match goal with |- sat _ (if ?b then _ else _) => let E := fresh "E" in destruct b eqn:E; [look E; try apply sat_err|] end).
    all: try (eapply sat_bind; [eauto 2 with typd nocore|]; cbv beta; intros a A; apply sat_ok; cbn [forallb]; rewrite Bool.andb_true_r;
      unfold PadPrimitive_then, PadPrimitive_whole, PadPrimitive_ok; cbn [implb]; exact A).
    now apply sat_ok.
Qed.
Lemma all_concat {A} (P : A -> bool) l : forallb (forallb P) l = true -> forallb P (concat l) = true.
Proof. induction l as [|x l IH]; [reflexivity|]. cbn [forallb concat]. intros H. apply andb_prop in H as [H1 H2]. now rewrite forallb_app, H1, IH. Qed.
Lemma PadPrimitives_read_t l : forallb (strict PadPrimitive_kinds) l = true -> sat (fun l => forallb PadPrimitive_then l = true) (PadPrimitives_read l).
Proof.
  intros H. unfold PadPrimitives_read. eapply sat_bind; [exact (sat_mapM _ _ _ PadPrimitive_read_t _ H)|]. cbv beta.
  intros ll L. apply sat_ok. now apply all_concat.
Qed.
#[export] Hint Resolve PadPrimitives_read_t : typd.
Definition Pad_then (o : Pad) : bool := implb (Pad_whole o) (Pad_ok o).
Definition Pad_inv (o : Pad) : bool :=
  txtb (pd_number o)
  && wordv (pd_type o)
  && wordv (pd_shape o)
  && pos3_ok (pd_position o)
  && pos2_ok (pd_size o)
  && optok DrillDefinition_then (pd_drill o)
  && forallb pad_layer_ok (pd_layers o)
  && optb wordv (pd_property o)
  && optb numb (pd_roundrectRatio o)
  && optb numb (pd_chamferRatio o)
  && forallb wordv (pd_chamfer o)
  && optok Net_ok (pd_net o)
  && optb wordv (pd_tstamp o)
  && optb txtb (pd_pinFunction o)
  && optb txtb (pd_pinType o)
  && optb numb (pd_dieLength o)
  && optb numb (pd_solderMaskMargin o)
  && optb numb (pd_solderPasteMargin o)
  && optb numb (pd_solderPasteMarginRatio o)
  && optb numb (pd_clearance o)
  && optb numb (pd_zoneConnect o)
  && optb numb (pd_thermalWidth o)
  && optb numb (pd_thermalGap o)
  && optok PadOptions_ok (pd_customPadOptions o)
  && forallb PadPrimitive_then (pd_customPadPrimitives o).
Lemma Pad_step_t : forall o x, Pad_inv o = true -> strict Pad_kinds x = true -> sat (fun o => Pad_inv o = true) (Pad_step o x).
Proof. unfold Pad_kinds. tstep ltac:(unfold Pad_step) Pad_inv. Qed.
Lemma Pad_inv_t : forall v, Pad_typed v = true -> sat (fun o => Pad_inv o = true) (Pad_from v).
Proof. tfrom ltac:(fun H => unfold Pad_typed in H; unfold Pad_from) Pad_inv Pad_step_t. Qed.
Lemma Pad_t : forall v, Pad_typed v = true -> sat (fun o => Pad_then o = true) (Pad_from v).
Proof. to_ok Pad_inv_t. apply implb_i. unfold Pad_inv, Pad_whole, Pad_ok in *. intros W. done_tac. Qed.
#[export] Hint Resolve Pad_t : typd.

Definition FpItem_then (o : FpItem) : bool := implb (FpItem_whole o) (FpItem_ok o).

Definition Footprint_then (o : Footprint) : bool := implb (Footprint_whole o) (Footprint_ok o).
Definition Footprint_inv (o : Footprint) : bool :=
  optb atomb (fd_version o)
  && optb atomb (fd_generator o)
  && txtb (fd_layer o)
  && optb wordv (fd_tstamp o)
  && optok pos3_ok (fd_position o)
  && optb txtb (fd_description o)
  && optb txtb (fd_tags o)
  && text_dict_ok (fd_properties o)
  && optb txtb (fd_path o)
  && optb numb (fd_autoplaceCost90 o)
  && optb numb (fd_autoplaceCost180 o)
  && optb numb (fd_solderMaskMargin o)
  && optb numb (fd_solderPasteMargin o)
  && optb numb (fd_solderPasteRatio o)
  && optb numb (fd_clearance o)
  && optb numb (fd_zoneConnect o)
  && optb numb (fd_thermalWidth o)
  && optb numb (fd_thermalGap o)
  && Attributes_ok (fd_attributes o)
  && forallb txtb (fd_privateLayers o)
  && forallb txtb (fd_netTiePadGroups o)
  && forallb FpItem_then (fd_graphicItems o)
  && forallb Pad_then (fd_pads o)
  && forallb Zone_then (fd_zones o)
  && forallb Group_then (fd_groups o)
  && forallb Model_ok (fd_models o)
  && is_none (fd_filePath o).
Ltac br_more inv I ::= lazymatch goal with
  | |- sat _ (Footprint_item _ _ _) => unfold Footprint_item; br inv I
  end.
Lemma Footprint_step_t : forall o x, Footprint_inv o = true -> lists Footprint_kinds x = true -> sat (fun o => Footprint_inv o = true) (Footprint_step o x).
Proof. unfold Footprint_kinds. tstep ltac:(unfold Footprint_step) Footprint_inv. Qed.
Lemma Footprint_inv_t : forall now v, Footprint_typed v = true -> sat (fun o => Footprint_inv o = true) (Footprint_from now v).
Proof.
  intros now v H. unfold Footprint_typed, expr in H. destruct v as [| | | | |[|h [|id l]]]; try discriminate.
  { bools. discriminate. }
  bools. unfold Footprint_from. cbn [need_list bind]. change (VList (h :: id :: l)@0) with (Ok h). change (VList (h :: id :: l)@1) with (Ok id). cbn [bind].
  match goal with |- sat _ (if ?b then _ else _) => destruct b; [apply sat_err|] end.
  refine (sat_fold _ _ _ Footprint_step_t _ _ _ _); [|assumption].
  unfold Footprint_set_libId. destruct (re_match re_nick (fmt id)); reflexivity.
Qed.
Lemma Footprint_t : forall now v, Footprint_typed v = true -> sat (fun o => Footprint_then o = true) (Footprint_from now v).
Proof.
  intros now v H. eapply sat_weak; [|exact (Footprint_inv_t now v H)]. intros o I. cbv beta in *.
  apply implb_i. unfold Footprint_inv, Footprint_whole, Footprint_ok in *. intros W. done_tac.
Qed.
#[export] Hint Resolve Footprint_t : typd.


Definition DimensionFormat_inv (o : DimensionFormat) : bool :=
  optb txtb (df_prefix o)
  && optb txtb (df_suffix o)
  && numb (df_units o)
  && numb (df_unitsFormat o)
  && numb (df_precision o)
  && optb txtb (df_overrideValue o).
Lemma DimensionFormat_step_t : forall o x, DimensionFormat_inv o = true -> lists DimensionFormat_kinds x = true -> sat (fun o => DimensionFormat_inv o = true) (DimensionFormat_step o x).
Proof. unfold DimensionFormat_kinds. tstep ltac:(unfold DimensionFormat_step) DimensionFormat_inv. Qed.
Lemma DimensionFormat_inv_t : forall v, DimensionFormat_typed v = true -> sat (fun o => DimensionFormat_inv o = true) (DimensionFormat_from v).
Proof. tfrom ltac:(fun H => unfold DimensionFormat_typed in H; unfold DimensionFormat_from) DimensionFormat_inv DimensionFormat_step_t. Qed.
Lemma DimensionFormat_t : forall v, DimensionFormat_typed v = true -> sat (fun o => DimensionFormat_ok o = true) (DimensionFormat_from v).
Proof. to_ok DimensionFormat_inv_t. unfold DimensionFormat_inv, DimensionFormat_ok in *. done_tac. Qed.
#[export] Hint Resolve DimensionFormat_t : typd.

Definition DimensionStyle_inv (o : DimensionStyle) : bool :=
  numb (ds_thickness o)
  && numb (ds_arrowLength o)
  && numb (ds_textPositionMode o)
  && optb numb (ds_extensionHeight o)
  && optb numb (ds_textFrame o)
  && optb numb (ds_extensionOffset o).
Lemma DimensionStyle_step_t : forall o x, DimensionStyle_inv o = true -> lists DimensionStyle_kinds x = true -> sat (fun o => DimensionStyle_inv o = true) (DimensionStyle_step o x).
Proof. unfold DimensionStyle_kinds. tstep ltac:(unfold DimensionStyle_step) DimensionStyle_inv. Qed.
Lemma DimensionStyle_inv_t : forall v, DimensionStyle_typed v = true -> sat (fun o => DimensionStyle_inv o = true) (DimensionStyle_from v).
Proof. tfrom ltac:(fun H => unfold DimensionStyle_typed in H; unfold DimensionStyle_from) DimensionStyle_inv DimensionStyle_step_t. Qed.
Lemma DimensionStyle_t : forall v, DimensionStyle_typed v = true -> sat (fun o => DimensionStyle_ok o = true) (DimensionStyle_from v).
Proof. to_ok DimensionStyle_inv_t. unfold DimensionStyle_inv, DimensionStyle_ok in *. done_tac. Qed.
#[export] Hint Resolve DimensionStyle_t : typd.

Definition Dimension_then (o : Dimension) : bool := implb (Dimension_whole o) (Dimension_ok o).
Definition Dimension_inv (o : Dimension) : bool :=
  atomb (di_type o)
  && rawtxtb (di_layer o)
  && orv atomb (di_tstamp o)
  && forallb pos2_ok (di_pts o)
  && optb numb (di_height o)
  && optb numb (di_orientation o)
  && optb numb (di_leaderLength o)
  && optok GrText_then (di_grText o)
  && optok DimensionFormat_ok (di_format o)
  && DimensionStyle_ok (di_style o).
Lemma Dimension_step_t : forall o x, Dimension_inv o = true -> lists Dimension_kinds x = true -> sat (fun o => Dimension_inv o = true) (Dimension_step o x).
Proof. unfold Dimension_kinds. tstep ltac:(unfold Dimension_step) Dimension_inv. Qed.
Lemma Dimension_inv_t : forall v, Dimension_typed v = true -> sat (fun o => Dimension_inv o = true) (Dimension_from v).
Proof. tfrom ltac:(fun H => unfold Dimension_typed in H; unfold Dimension_from) Dimension_inv Dimension_step_t. Qed.
Lemma Dimension_t : forall v, Dimension_typed v = true -> sat (fun o => Dimension_then o = true) (Dimension_from v).
Proof. to_ok Dimension_inv_t. apply implb_i. unfold Dimension_inv, Dimension_whole, Dimension_ok in *. intros W. done_tac. Qed.
#[export] Hint Resolve Dimension_t : typd.

Definition GeneralSettings_inv (o : GeneralSettings) : bool :=
  numb (gs_thickness o).
Lemma GeneralSettings_step_t : forall o x, GeneralSettings_inv o = true -> strict GeneralSettings_kinds x = true -> sat (fun o => GeneralSettings_inv o = true) (GeneralSettings_step o x).
Proof. unfold GeneralSettings_kinds. tstep ltac:(unfold GeneralSettings_step) GeneralSettings_inv. Qed.
Lemma GeneralSettings_inv_t : forall v, GeneralSettings_typed v = true -> sat (fun o => GeneralSettings_inv o = true) (GeneralSettings_from v).
Proof. tfrom ltac:(fun H => unfold GeneralSettings_typed in H; unfold GeneralSettings_from) GeneralSettings_inv GeneralSettings_step_t. Qed.
Lemma GeneralSettings_t : forall v, GeneralSettings_typed v = true -> sat (fun o => GeneralSettings_ok o = true) (GeneralSettings_from v).
Proof. to_ok GeneralSettings_inv_t. unfold GeneralSettings_inv, GeneralSettings_ok in *. done_tac. Qed.
#[export] Hint Resolve GeneralSettings_t : typd.

Definition LayerToken_inv (o : LayerToken) : bool :=
  numb (lt_ordinal o)
  && txtb (lt_name o)
  && atomb (lt_type o)
  && optb txtb (lt_userName o).
Lemma LayerToken_inv_t : forall v, LayerToken_typed v = true -> sat (fun o => LayerToken_inv o = true) (LayerToken_from v).
Proof. tsmall LayerToken_typed LayerToken_from LayerToken_inv. Qed.
Lemma LayerToken_t : forall v, LayerToken_typed v = true -> sat (fun o => LayerToken_ok o = true) (LayerToken_from v).
Proof. to_ok LayerToken_inv_t. unfold LayerToken_inv, LayerToken_ok in *. done_tac. Qed.
#[export] Hint Resolve LayerToken_t : typd.


Definition StackupLayer_inv (o : StackupLayer) : bool :=
  txtb (sl_name o)
  && rawtxtb (sl_type o)
  && optb txtb (sl_color o)
  && optb numb (sl_thickness o)
  && optb txtb (sl_material o)
  && optb numb (sl_epsilonR o)
  && optb numb (sl_lossTangent o)
  && forallb StackupSubLayer_ok (sl_subLayers o).
Lemma StackupSubLayer_step_t : forall o l, StackupSubLayer_ok o = true -> lists StackupSubLayer_kinds (VList l) = true -> sat (fun o => StackupSubLayer_ok o = true) (StackupSubLayer_step o (VList l)).
Proof.
  unfold StackupSubLayer_kinds, lists. intros o l I R. unfold StackupSubLayer_step. unfold rows in R. destruct l as [|h l]; [discriminate R|]; split_rows R.
  tchain StackupSubLayer_ok I.
Qed.
Lemma StackupLayer_own_t : forall o l, StackupLayer_inv o = true -> lists StackupLayer_kinds (VList l) = true -> sat (fun o => StackupLayer_inv o = true) (StackupLayer_own o (VList l)).
Proof.
  unfold StackupLayer_kinds, lists. intros o l I R. unfold StackupLayer_own. unfold rows in R. destruct l as [|h l]; [discriminate R|]; split_rows R.
  tchain StackupLayer_inv I.
Qed.
Definition StackupLayer_st (s : StackupLayer_state) : bool :=
  StackupLayer_inv (snd s) && match fst s with Some t => StackupSubLayer_ok t | None => true end.
Lemma StackupLayer_add t o : StackupSubLayer_ok t = true -> StackupLayer_inv o = true -> StackupLayer_inv (set sl_subLayers (fun l => l ++ [t]) o) = true.
Proof. intros T I. unfold StackupLayer_inv in *. keep I. Qed.
Lemma StackupLayer_later : forall l t o, StackupSubLayer_ok t = true -> StackupLayer_inv o = true -> forallb (lists StackupSubLayer_kinds) l = true ->
  sat (fun s => StackupLayer_st s = true) (foldM StackupLayer_next (Some t, o) l).
Proof.
  induction l as [|x l IH]; intros t o T I R; [apply sat_ok; unfold StackupLayer_st; cbn [fst snd]; now rewrite T, I|].
  cbn [forallb] in R. apply andb_prop in R as [R1 R2]. match goal with |- sat ?P (foldM ?f ?s (?x :: ?l)) => change (sat P (bind (f s x) (fun r => foldM f r l))) end. unfold StackupLayer_next at 1.
  destruct (is_list x) eqn:L; cbn [negb].
  - destruct x as [| | | | |v]; try discriminate L. apply sat_assoc. eapply sat_bind; [exact (StackupSubLayer_step_t _ _ T R1)|].
    intros t' T'. cbn [bind]. now apply IH.
  - destruct (x =s "addsublayer"); cbn [bind]; [|now apply IH]. unfold addf. cbn [bind]. apply IH; [reflexivity| |exact R2].
    now apply StackupLayer_add.
Qed.
Lemma StackupLayer_items : forall l o, StackupLayer_inv o = true -> StackupLayer_typed_items l = true ->
  sat (fun s => StackupLayer_st s = true) (foldM StackupLayer_next (None, o) l).
Proof.
  induction l as [|x l IH]; intros o I R; [apply sat_ok; unfold StackupLayer_st; cbn [fst snd]; now rewrite I|].
  cbn [StackupLayer_typed_items] in R. match goal with |- sat ?P (foldM ?f ?s (?x :: ?l)) => change (sat P (bind (f s x) (fun r => foldM f r l))) end. unfold StackupLayer_next at 1.
  destruct (is_list x) eqn:L; cbn [negb].
  - destruct x as [| | | | |v]; try discriminate L. change (VList v =s "addsublayer") with false in R. apply andb_prop in R as [R1 R2].
    apply sat_assoc. eapply sat_bind; [exact (StackupLayer_own_t _ _ I R1)|]. intros o' I'. cbn [bind]. now apply IH.
  - destruct (x =s "addsublayer"); cbn [bind]; [now apply StackupLayer_later|]. apply andb_prop in R as [_ R]. now apply IH.
Qed.
Lemma StackupLayer_t : forall v, StackupLayer_typed v = true -> sat (fun o => StackupLayer_ok o = true) (StackupLayer_from v).
Proof.
  intros v H. destruct v as [| | | | |[|h [|n l]]]; try discriminate H. unfold StackupLayer_typed in H. bools.
  unfold StackupLayer_from, need_head. cbn [need_list bind]. change (VList (h :: n :: l)@0) with (Ok h). change (VList (h :: n :: l)@1) with (Ok n).
  cbn [bind]. destruct (h =s "layer"); [|discriminate]. cbn [bind setf skipn].
  eapply sat_bind.
  - apply StackupLayer_items; [|eassumption]. unfold StackupLayer_inv. start.
  - intros [[t|] o]; unfold StackupLayer_st; cbn [fst snd]; intros S; apply andb_prop in S as [S1 S2].
    + apply sat_ok. apply (StackupLayer_add _ _ S2) in S1. unfold StackupLayer_inv, StackupLayer_ok in *. exact S1.
    + apply sat_ok. exact S1.
Qed.
#[export] Hint Resolve StackupLayer_t : typd.


Definition Stackup_inv (o : Stackup) : bool :=
  forallb StackupLayer_ok (sk_layers o)
  && optb txtb (sk_copperFinish o)
  && optb atomb (sk_dielectricContraints o)
  && optb atomb (sk_edgeConnector o).
Lemma Stackup_step_t : forall o x, Stackup_inv o = true -> strict Stackup_kinds x = true -> sat (fun o => Stackup_inv o = true) (Stackup_step o x).
Proof. unfold Stackup_kinds. tstep ltac:(unfold Stackup_step) Stackup_inv. Qed.
Lemma Stackup_inv_t : forall v, Stackup_typed v = true -> sat (fun o => Stackup_inv o = true) (Stackup_from v).
Proof. tfrom ltac:(fun H => unfold Stackup_typed in H; unfold Stackup_from) Stackup_inv Stackup_step_t. Qed.
Lemma Stackup_t : forall v, Stackup_typed v = true -> sat (fun o => Stackup_ok o = true) (Stackup_from v).
Proof. to_ok Stackup_inv_t. unfold Stackup_inv, Stackup_ok in *. done_tac. Qed.
#[export] Hint Resolve Stackup_t : typd.

Definition PlotSettings_then (o : PlotSettings) : bool := implb (PlotSettings_whole o) (PlotSettings_ok o).
Definition PlotSettings_inv (o : PlotSettings) : bool :=
  orv atomb (ps_layerSelection o)
  && optb atomb (ps_plotOnAllLayersSelection o)
  && optb (fixb 6) (ps_dashedLineDashRatio o)
  && optb (fixb 6) (ps_dashedLineGapRatio o)
  && numb (ps_svgPrecision o)
  && numb (ps_mode o)
  && numb (ps_hpglPenNumber o)
  && numb (ps_hpglPenSpeed o)
  && fixb 6 (ps_hpglPenDiameter o)
  && numb (ps_outputFormat o)
  && numb (ps_drillShape o)
  && numb (ps_scaleSelection o)
  && txtb (ps_outputDirectory o).
Lemma PlotSettings_step_t : forall o x, PlotSettings_inv o = true -> strict PlotSettings_kinds x = true -> sat (fun o => PlotSettings_inv o = true) (PlotSettings_step o x).
Proof. unfold PlotSettings_kinds. tstep ltac:(unfold PlotSettings_step) PlotSettings_inv. Qed.
Lemma PlotSettings_inv_t : forall v, PlotSettings_typed v = true -> sat (fun o => PlotSettings_inv o = true) (PlotSettings_from v).
Proof. tfrom ltac:(fun H => unfold PlotSettings_typed in H; unfold PlotSettings_from) PlotSettings_inv PlotSettings_step_t. Qed.
Lemma PlotSettings_t : forall v, PlotSettings_typed v = true -> sat (fun o => PlotSettings_then o = true) (PlotSettings_from v).
Proof. to_ok PlotSettings_inv_t. apply implb_i. unfold PlotSettings_inv, PlotSettings_whole, PlotSettings_ok in *. intros W. done_tac. Qed.
#[export] Hint Resolve PlotSettings_t : typd.

Definition SetupData_then (o : SetupData) : bool := implb (SetupData_whole o) (SetupData_ok o).
Definition SetupData_inv (o : SetupData) : bool :=
  optok Stackup_ok (sd_stackup o)
  && numb (sd_packToMaskClearance o)
  && optb numb (sd_solderMaskMinWidth o)
  && optb numb (sd_padToPasteClearance o)
  && optb numb (sd_padToPasteClearanceRatio o)
  && optok pos2_ok (sd_auxAxisOrigin o)
  && optok pos2_ok (sd_gridOrigin o)
  && optok PlotSettings_then (sd_plotSettings o).
Lemma SetupData_step_t : forall o x, SetupData_inv o = true -> strict SetupData_kinds x = true -> sat (fun o => SetupData_inv o = true) (SetupData_step o x).
Proof. unfold SetupData_kinds. tstep ltac:(unfold SetupData_step) SetupData_inv. Qed.
Lemma SetupData_inv_t : forall v, SetupData_typed v = true -> sat (fun o => SetupData_inv o = true) (SetupData_from v).
Proof. tfrom ltac:(fun H => unfold SetupData_typed in H; unfold SetupData_from) SetupData_inv SetupData_step_t. Qed.
Lemma SetupData_t : forall v, SetupData_typed v = true -> sat (fun o => SetupData_then o = true) (SetupData_from v).
Proof. to_ok SetupData_inv_t. apply implb_i. unfold SetupData_inv, SetupData_whole, SetupData_ok in *. intros W. done_tac. Qed.
#[export] Hint Resolve SetupData_t : typd.

Definition Segment_then (o : Segment) : bool := implb (Segment_whole o) (Segment_ok o).
Definition Segment_inv (o : Segment) : bool :=
  pos2_ok (sg_start o)
  && pos2_ok (sg_end o)
  && numb (sg_width o)
  && txtb (sg_layer o)
  && numb (sg_net o)
  && orv atomb (sg_tstamp o).
Lemma Segment_step_t : forall o x, Segment_inv o = true -> lists Segment_kinds x = true -> sat (fun o => Segment_inv o = true) (Segment_step o x).
Proof. unfold Segment_kinds. tstep ltac:(unfold Segment_step) Segment_inv. Qed.
Lemma Segment_inv_t : forall v, Segment_typed v = true -> sat (fun o => Segment_inv o = true) (Segment_from v).
Proof. tfrom ltac:(fun H => unfold Segment_typed in H; unfold Segment_from) Segment_inv Segment_step_t. Qed.
Lemma Segment_t : forall v, Segment_typed v = true -> sat (fun o => Segment_then o = true) (Segment_from v).
Proof. to_ok Segment_inv_t. apply implb_i. unfold Segment_inv, Segment_whole, Segment_ok in *. intros W. done_tac. Qed.
#[export] Hint Resolve Segment_t : typd.

Definition Via_inv (o : Via) : bool :=
  optb (enumb ["micro"%string; "blind"%string]) (vi_type o)
  && pos2_ok (vi_position o)
  && numb (vi_size o)
  && numb (vi_drill o)
  && forallb txtb (vi_layers o)
  && numb (vi_net o)
  && optb atomb (vi_tstamp o).
Lemma Via_step_t : forall o x, Via_inv o = true -> lists Via_kinds x = true -> sat (fun o => Via_inv o = true) (Via_step o x).
Proof. unfold Via_kinds. tstep ltac:(unfold Via_step) Via_inv. Qed.
Lemma Via_inv_t : forall v, Via_typed v = true -> sat (fun o => Via_inv o = true) (Via_from v).
Proof. tfrom ltac:(fun H => unfold Via_typed in H; unfold Via_from) Via_inv Via_step_t. Qed.
Lemma Via_t : forall v, Via_typed v = true -> sat (fun o => Via_ok o = true) (Via_from v).
Proof. to_ok Via_inv_t. unfold Via_inv, Via_ok in *. done_tac. Qed.
#[export] Hint Resolve Via_t : typd.

Definition Arc_inv (o : Arc) : bool :=
  pos2_ok (ac_start o)
  && pos2_ok (ac_mid o)
  && pos2_ok (ac_end o)
  && numb (ac_width o)
  && txtb (ac_layer o)
  && numb (ac_net o)
  && optb atomb (ac_tstamp o).
Lemma Arc_step_t : forall o x, Arc_inv o = true -> lists Arc_kinds x = true -> sat (fun o => Arc_inv o = true) (Arc_step o x).
Proof. unfold Arc_kinds. tstep ltac:(unfold Arc_step) Arc_inv. Qed.
Lemma Arc_inv_t : forall v, Arc_typed v = true -> sat (fun o => Arc_inv o = true) (Arc_from v).
Proof. tfrom ltac:(fun H => unfold Arc_typed in H; unfold Arc_from) Arc_inv Arc_step_t. Qed.
Lemma Arc_t : forall v, Arc_typed v = true -> sat (fun o => Arc_ok o = true) (Arc_from v).
Proof. to_ok Arc_inv_t. unfold Arc_inv, Arc_ok in *. done_tac. Qed.
#[export] Hint Resolve Arc_t : typd.

Definition Target_then (o : Target) : bool := implb (Target_whole o) (Target_ok o).
Definition Target_inv (o : Target) : bool :=
  atomb (tg_type o)
  && pos2_ok (tg_position o)
  && numb (tg_size o)
  && numb (tg_width o)
  && rawtxtb (tg_layer o)
  && orv atomb (tg_tstamp o).
Lemma Target_step_t : forall o x, Target_inv o = true -> strict Target_kinds x = true -> sat (fun o => Target_inv o = true) (Target_step o x).
Proof. unfold Target_kinds. tstep ltac:(unfold Target_step) Target_inv. Qed.
Lemma Target_inv_t : forall v, Target_typed v = true -> sat (fun o => Target_inv o = true) (Target_from v).
Proof. tfrom ltac:(fun H => unfold Target_typed in H; unfold Target_from) Target_inv Target_step_t. Qed.
Lemma Target_t : forall v, Target_typed v = true -> sat (fun o => Target_then o = true) (Target_from v).
Proof. to_ok Target_inv_t. apply implb_i. unfold Target_inv, Target_whole, Target_ok in *. intros W. done_tac. Qed.
#[export] Hint Resolve Target_t : typd.

Definition BdItem_then (o : BdItem) : bool := implb (BdItem_whole o) (BdItem_ok o).

Definition TrItem_then (o : TrItem) : bool := implb (TrItem_whole o) (TrItem_ok o).

Definition Board_then (o : Board) : bool := implb (Board_whole o) (Board_ok o).
Definition Board_inv (o : Board) : bool :=
  orv atomb (bd_version o)
  && orv atomb (bd_generator o)
  && GeneralSettings_ok (bd_general o)
  && PageSettings_then (bd_paper o)
  && optok TitleBlock_ok (bd_titleBlock o)
  && forallb LayerToken_ok (bd_layers o)
  && SetupData_then (bd_setup o)
  && text_dict_ok (bd_properties o)
  && forallb Net_ok (bd_nets o)
  && forallb Footprint_then (bd_footprints o)
  && forallb BdItem_then (bd_graphicItems o)
  && forallb TrItem_then (bd_traceItems o)
  && forallb Zone_then (bd_zones o)
  && forallb Dimension_then (bd_dimensions o)
  && forallb Target_then (bd_targets o)
  && forallb Group_then (bd_groups o)
  && is_none (bd_filePath o).
Ltac br_more inv I ::= lazymatch goal with
  | |- sat _ (Board_item _ _ _) => unfold Board_item; br inv I
  | |- sat _ (Board_trace _ _ _) => unfold Board_trace; br inv I
  end.
Lemma Board_step_t now : forall o x, Board_inv o = true -> strict Board_kinds x = true -> sat (fun o => Board_inv o = true) (Board_step now o x).
Proof. unfold Board_kinds. tstep ltac:(unfold Board_step) Board_inv. Qed.
Lemma Board_inv_t now : forall v, Board_typed v = true -> sat (fun o => Board_inv o = true) (Board_from now v).
Proof. tfrom ltac:(fun H => unfold Board_typed in H; unfold Board_from) Board_inv (Board_step_t now). Qed.
Lemma Board_t : forall now v, Board_typed v = true -> sat (fun o => Board_then o = true) (Board_from now v).
Proof.
  intros now v H. eapply sat_weak; [|exact (Board_inv_t now v H)]. intros o I. cbv beta in *.
  apply implb_i. unfold Board_inv, Board_whole, Board_ok in *. intros W. done_tac.
Qed.
#[export] Hint Resolve Board_t : typd.


Definition Junction_then (o : Junction) : bool := implb (Junction_whole o) (Junction_ok o).
Definition Junction_inv (o : Junction) : bool :=
  pos2_ok (jn_position o)
  && zerov (jn_diameter o)
  && match jn_color o with JColor_obj c => ColorRGBA_ok c | JColor_val _ => true end
  && optb wordv (jn_uuid o).
Lemma Junction_step_t : forall o x, Junction_inv o = true -> strict Junction_kinds x = true -> sat (fun o => Junction_inv o = true) (Junction_step o x).
Proof. unfold Junction_kinds. tstep ltac:(unfold Junction_step) Junction_inv. Qed.
Lemma Junction_inv_t : forall v, Junction_typed v = true -> sat (fun o => Junction_inv o = true) (Junction_from v).
Proof. tfrom ltac:(fun H => unfold Junction_typed in H; unfold Junction_from) Junction_inv Junction_step_t. Qed.
Lemma Junction_t : forall v, Junction_typed v = true -> sat (fun o => Junction_then o = true) (Junction_from v).
Proof.
  to_ok Junction_inv_t. apply implb_i. unfold Junction_inv, Junction_whole, Junction_ok, JColor_ok in *. intros W.
  destruct (jn_color o); [|discriminate W]. exact I.
Qed.
#[export] Hint Resolve Junction_t : typd.

Definition NoConnect_inv (o : NoConnect) : bool :=
  pos2_ok (nc_position o)
  && optb wordv (nc_uuid o).
Lemma NoConnect_step_t : forall o x, NoConnect_inv o = true -> strict NoConnect_kinds x = true -> sat (fun o => NoConnect_inv o = true) (NoConnect_step o x).
Proof. unfold NoConnect_kinds. tstep ltac:(unfold NoConnect_step) NoConnect_inv. Qed.
Lemma NoConnect_inv_t : forall v, NoConnect_typed v = true -> sat (fun o => NoConnect_inv o = true) (NoConnect_from v).
Proof. tfrom ltac:(fun H => unfold NoConnect_typed in H; unfold NoConnect_from) NoConnect_inv NoConnect_step_t. Qed.
Lemma NoConnect_t : forall v, NoConnect_typed v = true -> sat (fun o => NoConnect_ok o = true) (NoConnect_from v).
Proof. to_ok NoConnect_inv_t. unfold NoConnect_inv, NoConnect_ok in *. done_tac. Qed.
#[export] Hint Resolve NoConnect_t : typd.

Definition BusEntry_inv (o : BusEntry) : bool :=
  pos2_ok (be_position o)
  && optb wordv (be_uuid o)
  && pos2_ok (be_size o)
  && Stroke_ok (be_stroke o).
Lemma BusEntry_step_t : forall o x, BusEntry_inv o = true -> strict BusEntry_kinds x = true -> sat (fun o => BusEntry_inv o = true) (BusEntry_step o x).
Proof. unfold BusEntry_kinds. tstep ltac:(unfold BusEntry_step) BusEntry_inv. Qed.
Lemma BusEntry_inv_t : forall v, BusEntry_typed v = true -> sat (fun o => BusEntry_inv o = true) (BusEntry_from v).
Proof. tfrom ltac:(fun H => unfold BusEntry_typed in H; unfold BusEntry_from) BusEntry_inv BusEntry_step_t. Qed.
Lemma BusEntry_t : forall v, BusEntry_typed v = true -> sat (fun o => BusEntry_ok o = true) (BusEntry_from v).
Proof. to_ok BusEntry_inv_t. unfold BusEntry_inv, BusEntry_ok in *. done_tac. Qed.
#[export] Hint Resolve BusEntry_t : typd.

Definition BusAlias_inv (o : BusAlias) : bool :=
  txtb (ba_name o)
  && forallb txtb (ba_members o).
Lemma BusAlias_inv_t : forall v, BusAlias_typed v = true -> sat (fun o => BusAlias_inv o = true) (BusAlias_from v).
Proof.
  intros v H. destruct v as [| | | | |[|h [|n [|[| | | | |[|m l]] [|? ?]]]]]; try discriminate H. unfold BusAlias_typed in H. bools.
  unfold BusAlias_from, need_head. cbn [need_list bind]. change (VList [h; n; VList (m :: l)]@0) with (Ok h). cbn [bind].
  destruct (h =s "bus_alias"); [|discriminate]. cbn [bind length Nat.eqb negb]. change (VList [h; n; VList (m :: l)]@2) with (Ok (VList (m :: l))).
  change (VList [h; n; VList (m :: l)]@1) with (Ok n). cbn [bind is_list negb]. change (VList (m :: l)@0) with (Ok m). cbn [bind].
  destruct (m =s "members"); [|discriminate]. cbn [negb]. apply sat_ok. unfold BusAlias_inv. start.
Qed.
Lemma BusAlias_t : forall v, BusAlias_typed v = true -> sat (fun o => BusAlias_ok o = true) (BusAlias_from v).
Proof. to_ok BusAlias_inv_t. unfold BusAlias_inv, BusAlias_ok in *. done_tac. Qed.
#[export] Hint Resolve BusAlias_t : typd.

Definition Connection_inv (o : Connection) : bool :=
  enumb ["wire"%string; "bus"%string] (cx_type o)
  && forallb pos2_ok (cx_points o)
  && Stroke_ok (cx_stroke o)
  && optb wordv (cx_uuid o).
Lemma Connection_step_t : forall o x, Connection_inv o = true -> strict Connection_kinds x = true -> sat (fun o => Connection_inv o = true) (Connection_step o x).
Proof. unfold Connection_kinds. tstep ltac:(unfold Connection_step) Connection_inv. Qed.
Lemma Connection_inv_t : forall v, Connection_typed v = true -> sat (fun o => Connection_inv o = true) (Connection_from v).
Proof. tfrom ltac:(fun H => unfold Connection_typed in H; unfold Connection_from) Connection_inv Connection_step_t. Qed.
Lemma Connection_t : forall v, Connection_typed v = true -> sat (fun o => Connection_ok o = true) (Connection_from v).
Proof. to_ok Connection_inv_t. unfold Connection_inv, Connection_ok in *. done_tac. Qed.
#[export] Hint Resolve Connection_t : typd.

Definition PolyLine_inv (o : PolyLine) : bool :=
  forallb pos2_ok (pl_points o)
  && Stroke_ok (pl_stroke o)
  && optb wordv (pl_uuid o).
Lemma PolyLine_step_t : forall o x, PolyLine_inv o = true -> strict PolyLine_kinds x = true -> sat (fun o => PolyLine_inv o = true) (PolyLine_step o x).
Proof. unfold PolyLine_kinds. tstep ltac:(unfold PolyLine_step) PolyLine_inv. Qed.
Lemma PolyLine_inv_t : forall v, PolyLine_typed v = true -> sat (fun o => PolyLine_inv o = true) (PolyLine_from v).
Proof. tfrom ltac:(fun H => unfold PolyLine_typed in H; unfold PolyLine_from) PolyLine_inv PolyLine_step_t. Qed.
Lemma PolyLine_t : forall v, PolyLine_typed v = true -> sat (fun o => PolyLine_ok o = true) (PolyLine_from v).
Proof. to_ok PolyLine_inv_t. unfold PolyLine_inv, PolyLine_ok in *. done_tac. Qed.
#[export] Hint Resolve PolyLine_t : typd.

Definition Text_inv (o : Text) : bool :=
  txtb (tx_text o)
  && pos3_ok (tx_position o)
  && Effects_ok (tx_effects o)
  && optb wordv (tx_uuid o).
Lemma Text_step_t : forall o x, Text_inv o = true -> strict Text_kinds x = true -> sat (fun o => Text_inv o = true) (Text_step o x).
Proof. unfold Text_kinds. tstep ltac:(unfold Text_step) Text_inv. Qed.
Lemma Text_inv_t : forall v, Text_typed v = true -> sat (fun o => Text_inv o = true) (Text_from v).
Proof. tfrom ltac:(fun H => unfold Text_typed in H; unfold Text_from) Text_inv Text_step_t. Qed.
Lemma Text_t : forall v, Text_typed v = true -> sat (fun o => Text_ok o = true) (Text_from v).
Proof. to_ok Text_inv_t. unfold Text_inv, Text_ok in *. done_tac. Qed.
#[export] Hint Resolve Text_t : typd.

Definition TextBox_inv (o : TextBox) : bool :=
  txtb (bx_text o)
  && pos3_ok (bx_position o)
  && pos2_ok (bx_size o)
  && Stroke_ok (bx_stroke o)
  && Fill_ok (bx_fill o)
  && Effects_ok (bx_effects o)
  && optb wordv (bx_uuid o).
Lemma TextBox_step_t : forall o x, TextBox_inv o = true -> strict TextBox_kinds x = true -> sat (fun o => TextBox_inv o = true) (TextBox_step o x).
Proof. unfold TextBox_kinds. tstep ltac:(unfold TextBox_step) TextBox_inv. Qed.
Lemma TextBox_inv_t : forall v, TextBox_typed v = true -> sat (fun o => TextBox_inv o = true) (TextBox_from v).
Proof. tfrom ltac:(fun H => unfold TextBox_typed in H; unfold TextBox_from) TextBox_inv TextBox_step_t. Qed.
Lemma TextBox_t : forall v, TextBox_typed v = true -> sat (fun o => TextBox_ok o = true) (TextBox_from v).
Proof. to_ok TextBox_inv_t. unfold TextBox_inv, TextBox_ok in *. done_tac. Qed.
#[export] Hint Resolve TextBox_t : typd.

Definition LocalLabel_inv (o : LocalLabel) : bool :=
  txtb (ll_text o)
  && pos3_ok (ll_position o)
  && Effects_ok (ll_effects o)
  && optb wordv (ll_uuid o).
Lemma LocalLabel_step_t : forall o x, LocalLabel_inv o = true -> strict LocalLabel_kinds x = true -> sat (fun o => LocalLabel_inv o = true) (LocalLabel_step o x).
Proof. unfold LocalLabel_kinds. tstep ltac:(unfold LocalLabel_step) LocalLabel_inv. Qed.
Lemma LocalLabel_inv_t : forall v, LocalLabel_typed v = true -> sat (fun o => LocalLabel_inv o = true) (LocalLabel_from v).
Proof. tfrom ltac:(fun H => unfold LocalLabel_typed in H; unfold LocalLabel_from) LocalLabel_inv LocalLabel_step_t. Qed.
Lemma LocalLabel_t : forall v, LocalLabel_typed v = true -> sat (fun o => LocalLabel_ok o = true) (LocalLabel_from v).
Proof. to_ok LocalLabel_inv_t. unfold LocalLabel_inv, LocalLabel_ok in *. done_tac. Qed.
#[export] Hint Resolve LocalLabel_t : typd.

Definition GlobalLabel_inv (o : GlobalLabel) : bool :=
  txtb (gla_text o)
  && atomb (gla_shape o)
  && pos3_ok (gla_position o)
  && Effects_ok (gla_effects o)
  && optb wordv (gla_uuid o)
  && forallb Property_ok (gla_properties o).
Lemma GlobalLabel_step_t : forall o x, GlobalLabel_inv o = true -> strict GlobalLabel_kinds x = true -> sat (fun o => GlobalLabel_inv o = true) (GlobalLabel_step o x).
Proof. unfold GlobalLabel_kinds. tstep ltac:(unfold GlobalLabel_step) GlobalLabel_inv. Qed.
Lemma GlobalLabel_inv_t : forall v, GlobalLabel_typed v = true -> sat (fun o => GlobalLabel_inv o = true) (GlobalLabel_from v).
Proof. tfrom ltac:(fun H => unfold GlobalLabel_typed in H; unfold GlobalLabel_from) GlobalLabel_inv GlobalLabel_step_t. Qed.
Lemma GlobalLabel_t : forall v, GlobalLabel_typed v = true -> sat (fun o => GlobalLabel_ok o = true) (GlobalLabel_from v).
Proof. to_ok GlobalLabel_inv_t. unfold GlobalLabel_inv, GlobalLabel_ok in *. done_tac. Qed.
#[export] Hint Resolve GlobalLabel_t : typd.

Definition HierarchicalLabel_inv (o : HierarchicalLabel) : bool :=
  txtb (hl_text o)
  && atomb (hl_shape o)
  && pos3_ok (hl_position o)
  && Effects_ok (hl_effects o)
  && optb wordv (hl_uuid o).
Lemma HierarchicalLabel_step_t : forall o x, HierarchicalLabel_inv o = true -> strict HierarchicalLabel_kinds x = true -> sat (fun o => HierarchicalLabel_inv o = true) (HierarchicalLabel_step o x).
Proof. unfold HierarchicalLabel_kinds. tstep ltac:(unfold HierarchicalLabel_step) HierarchicalLabel_inv. Qed.
Lemma HierarchicalLabel_inv_t : forall v, HierarchicalLabel_typed v = true -> sat (fun o => HierarchicalLabel_inv o = true) (HierarchicalLabel_from v).
Proof. tfrom ltac:(fun H => unfold HierarchicalLabel_typed in H; unfold HierarchicalLabel_from) HierarchicalLabel_inv HierarchicalLabel_step_t. Qed.
Lemma HierarchicalLabel_t : forall v, HierarchicalLabel_typed v = true -> sat (fun o => HierarchicalLabel_ok o = true) (HierarchicalLabel_from v).
Proof. to_ok HierarchicalLabel_inv_t. unfold HierarchicalLabel_inv, HierarchicalLabel_ok in *. done_tac. Qed.
#[export] Hint Resolve HierarchicalLabel_t : typd.

Definition SymbolProjectPath_inv (o : SymbolProjectPath) : bool :=
  txtb (spp_sheetInstancePath o)
  && txtb (spp_reference o)
  && atomb (spp_unit o).
Lemma SymbolProjectPath_step_t : forall o x, SymbolProjectPath_inv o = true -> strict SymbolProjectPath_kinds x = true -> sat (fun o => SymbolProjectPath_inv o = true) (SymbolProjectPath_step o x).
Proof. unfold SymbolProjectPath_kinds. tstep ltac:(unfold SymbolProjectPath_step) SymbolProjectPath_inv. Qed.
Lemma SymbolProjectPath_inv_t : forall v, SymbolProjectPath_typed v = true -> sat (fun o => SymbolProjectPath_inv o = true) (SymbolProjectPath_from v).
Proof. tfrom ltac:(fun H => unfold SymbolProjectPath_typed in H; unfold SymbolProjectPath_from) SymbolProjectPath_inv SymbolProjectPath_step_t. Qed.
Lemma SymbolProjectPath_t : forall v, SymbolProjectPath_typed v = true -> sat (fun o => SymbolProjectPath_ok o = true) (SymbolProjectPath_from v).
Proof. to_ok SymbolProjectPath_inv_t. unfold SymbolProjectPath_inv, SymbolProjectPath_ok in *. done_tac. Qed.
#[export] Hint Resolve SymbolProjectPath_t : typd.

Definition SymbolProjectInstance_inv (o : SymbolProjectInstance) : bool :=
  txtb (spi_name o)
  && forallb SymbolProjectPath_ok (spi_paths o).
Lemma SymbolProjectInstance_step_t : forall o x, SymbolProjectInstance_inv o = true -> strict SymbolProjectInstance_kinds x = true -> sat (fun o => SymbolProjectInstance_inv o = true) (SymbolProjectInstance_step o x).
Proof. unfold SymbolProjectInstance_kinds. tstep ltac:(unfold SymbolProjectInstance_step) SymbolProjectInstance_inv. Qed.
Lemma SymbolProjectInstance_inv_t : forall v, SymbolProjectInstance_typed v = true -> sat (fun o => SymbolProjectInstance_inv o = true) (SymbolProjectInstance_from v).
Proof. tfrom ltac:(fun H => unfold SymbolProjectInstance_typed in H; unfold SymbolProjectInstance_from) SymbolProjectInstance_inv SymbolProjectInstance_step_t. Qed.
Lemma SymbolProjectInstance_t : forall v, SymbolProjectInstance_typed v = true -> sat (fun o => SymbolProjectInstance_ok o = true) (SymbolProjectInstance_from v).
Proof. to_ok SymbolProjectInstance_inv_t. unfold SymbolProjectInstance_inv, SymbolProjectInstance_ok in *. done_tac. Qed.
#[export] Hint Resolve SymbolProjectInstance_t : typd.

Definition SchematicSymbol_then (o : SchematicSymbol) : bool := implb (SchematicSymbol_whole o) (SchematicSymbol_ok o).
Definition SchematicSymbol_inv (o : SchematicSymbol) : bool :=
  optb txtb (ss_libName o)
  && pos3_ok (ss_position o)
  && optb numb (ss_unit o)
  && uuid0_ok (ss_uuid o)
  && forallb Property_ok (ss_properties o)
  && pin_dict_ok (ss_pins o)
  && optb wordv (ss_mirror o)
  && forallb SymbolProjectInstance_ok (ss_instances o).
Lemma SchematicSymbol_set_libId_t : forall id o, SchematicSymbol_inv o = true -> sat (fun o => SchematicSymbol_inv o = true) (SchematicSymbol_set_libId id o).
Proof.
  intros id o I. unfold SchematicSymbol_set_libId. eapply sat_bind; [apply sat_any|]. intros s _.
  destruct (re_match re_nick s); apply sat_ok; exact I.
Qed.
Ltac br_more inv I ::= lazymatch goal with
  | |- sat _ (SchematicSymbol_set_libId _ _) => apply SchematicSymbol_set_libId_t; exact I
  end.
Lemma SchematicSymbol_step_t : forall o x, SchematicSymbol_inv o = true -> strict SchematicSymbol_kinds x = true -> sat (fun o => SchematicSymbol_inv o = true) (SchematicSymbol_step o x).
Proof. unfold SchematicSymbol_kinds. tstep ltac:(unfold SchematicSymbol_step) SchematicSymbol_inv. Qed.
Lemma SchematicSymbol_inv_t : forall v, SchematicSymbol_typed v = true -> sat (fun o => SchematicSymbol_inv o = true) (SchematicSymbol_from v).
Proof. tfrom ltac:(fun H => unfold SchematicSymbol_typed in H; unfold SchematicSymbol_from) SchematicSymbol_inv SchematicSymbol_step_t. Qed.
Lemma SchematicSymbol_t : forall v, SchematicSymbol_typed v = true -> sat (fun o => SchematicSymbol_then o = true) (SchematicSymbol_from v).
Proof. to_ok SchematicSymbol_inv_t. apply implb_i. unfold SchematicSymbol_inv, SchematicSymbol_whole, SchematicSymbol_ok in *. intros W. done_tac. Qed.
#[export] Hint Resolve SchematicSymbol_t : typd.

Definition HierarchicalPin_inv (o : HierarchicalPin) : bool :=
  txtb (hp_name o)
  && atomb (hp_connectionType o)
  && pos3_ok (hp_position o)
  && Effects_ok (hp_effects o)
  && optb wordv (hp_uuid o).
Lemma HierarchicalPin_step_t : forall o x, HierarchicalPin_inv o = true -> strict HierarchicalPin_kinds x = true -> sat (fun o => HierarchicalPin_inv o = true) (HierarchicalPin_step o x).
Proof. unfold HierarchicalPin_kinds. tstep ltac:(unfold HierarchicalPin_step) HierarchicalPin_inv. Qed.
Lemma HierarchicalPin_inv_t : forall v, HierarchicalPin_typed v = true -> sat (fun o => HierarchicalPin_inv o = true) (HierarchicalPin_from v).
Proof. tfrom ltac:(fun H => unfold HierarchicalPin_typed in H; unfold HierarchicalPin_from) HierarchicalPin_inv HierarchicalPin_step_t. Qed.
Lemma HierarchicalPin_t : forall v, HierarchicalPin_typed v = true -> sat (fun o => HierarchicalPin_ok o = true) (HierarchicalPin_from v).
Proof. to_ok HierarchicalPin_inv_t. unfold HierarchicalPin_inv, HierarchicalPin_ok in *. done_tac. Qed.
#[export] Hint Resolve HierarchicalPin_t : typd.

Definition HierarchicalSheetProjectPath_inv (o : HierarchicalSheetProjectPath) : bool :=
  txtb (hpp_sheetInstancePath o)
  && txtb (hpp_page o).
Lemma HierarchicalSheetProjectPath_step_t : forall o x, HierarchicalSheetProjectPath_inv o = true -> strict HierarchicalSheetProjectPath_kinds x = true -> sat (fun o => HierarchicalSheetProjectPath_inv o = true) (HierarchicalSheetProjectPath_step o x).
Proof. unfold HierarchicalSheetProjectPath_kinds. tstep ltac:(unfold HierarchicalSheetProjectPath_step) HierarchicalSheetProjectPath_inv. Qed.
Lemma HierarchicalSheetProjectPath_inv_t : forall v, HierarchicalSheetProjectPath_typed v = true -> sat (fun o => HierarchicalSheetProjectPath_inv o = true) (HierarchicalSheetProjectPath_from v).
Proof. tfrom ltac:(fun H => unfold HierarchicalSheetProjectPath_typed in H; unfold HierarchicalSheetProjectPath_from) HierarchicalSheetProjectPath_inv HierarchicalSheetProjectPath_step_t. Qed.
Lemma HierarchicalSheetProjectPath_t : forall v, HierarchicalSheetProjectPath_typed v = true -> sat (fun o => HierarchicalSheetProjectPath_ok o = true) (HierarchicalSheetProjectPath_from v).
Proof. to_ok HierarchicalSheetProjectPath_inv_t. unfold HierarchicalSheetProjectPath_inv, HierarchicalSheetProjectPath_ok in *. done_tac. Qed.
#[export] Hint Resolve HierarchicalSheetProjectPath_t : typd.

Definition HierarchicalSheetProjectInstance_inv (o : HierarchicalSheetProjectInstance) : bool :=
  txtb (hpi_name o)
  && forallb HierarchicalSheetProjectPath_ok (hpi_paths o).
Lemma HierarchicalSheetProjectInstance_step_t : forall o x, HierarchicalSheetProjectInstance_inv o = true -> strict HierarchicalSheetProjectInstance_kinds x = true -> sat (fun o => HierarchicalSheetProjectInstance_inv o = true) (HierarchicalSheetProjectInstance_step o x).
Proof. unfold HierarchicalSheetProjectInstance_kinds. tstep ltac:(unfold HierarchicalSheetProjectInstance_step) HierarchicalSheetProjectInstance_inv. Qed.
Lemma HierarchicalSheetProjectInstance_inv_t : forall v, HierarchicalSheetProjectInstance_typed v = true -> sat (fun o => HierarchicalSheetProjectInstance_inv o = true) (HierarchicalSheetProjectInstance_from v).
Proof. tfrom ltac:(fun H => unfold HierarchicalSheetProjectInstance_typed in H; unfold HierarchicalSheetProjectInstance_from) HierarchicalSheetProjectInstance_inv HierarchicalSheetProjectInstance_step_t. Qed.
Lemma HierarchicalSheetProjectInstance_t : forall v, HierarchicalSheetProjectInstance_typed v = true -> sat (fun o => HierarchicalSheetProjectInstance_ok o = true) (HierarchicalSheetProjectInstance_from v).
Proof. to_ok HierarchicalSheetProjectInstance_inv_t. unfold HierarchicalSheetProjectInstance_inv, HierarchicalSheetProjectInstance_ok in *. done_tac. Qed.
#[export] Hint Resolve HierarchicalSheetProjectInstance_t : typd.

Lemma sheet_fill_t v : at_place 1 color4 v = true ->
  sat (fun x => is_none (ca_precision x) || fill4_ok x = true) (let! f := v@1 in let! c := ColorRGBA_from f in Ok (c <| ca_precision := VInt 4 |>)).
Proof.
  intros H. eapply sat_bind; [exact (sat_at _ _ _ H)|]. cbv beta. intros f F. clear v H.
  destruct f as [| | | | |[|h [|a [|b [|c [|d [|? ?]]]]]]]; try discriminate F. unfold color4 in F. bools.
  unfold ColorRGBA_from. cbn [need_list bind length Nat.eqb negb]. change (VList [h; a; b; c; d]@0) with (Ok h). cbn [bind].
  destruct (h =s "color"); [|discriminate]. cbn [negb]. apply sat_ok. cbn [is_none ca_precision set orb]. unfold fill4_ok. cbn [ca_R ca_G ca_B ca_A ca_precision set ColorRGBA_default].
  cbn. repeat match goal with K : ?x = true |- context [?x] => rewrite K end. reflexivity.
Qed.
Ltac leaf_first ::= lazymatch goal with |- sat _ (bind _ (fun f => bind (ColorRGBA_from f) _)) => eapply sheet_fill_t; eassumption end.
Ltac br_more inv I ::= lazymatch goal with
  | |- sat _ (HierarchicalSheet_property _ _) => unfold HierarchicalSheet_property; br inv I
  end.
Definition HierarchicalSheet_then (o : HierarchicalSheet) : bool := implb (HierarchicalSheet_whole o) (HierarchicalSheet_ok o).
Definition HierarchicalSheet_inv (o : HierarchicalSheet) : bool :=
  pos2_ok (hs_position o)
  && numb (hs_width o)
  && numb (hs_height o)
  && Stroke_ok (hs_stroke o)
  && (is_none (ca_precision (hs_fill o)) || fill4_ok (hs_fill o))
  && optb wordv (hs_uuid o)
  && Property_ok (hs_sheetName o)
  && Property_ok (hs_fileName o)
  && forallb Property_ok (hs_properties o)
  && forallb HierarchicalPin_ok (hs_pins o)
  && forallb HierarchicalSheetProjectInstance_ok (hs_instances o).
Lemma HierarchicalSheet_step_t : forall o x, HierarchicalSheet_inv o = true -> strict HierarchicalSheet_kinds x = true -> sat (fun o => HierarchicalSheet_inv o = true) (HierarchicalSheet_step o x).
Proof. unfold HierarchicalSheet_kinds. tstep ltac:(unfold HierarchicalSheet_step) HierarchicalSheet_inv. Qed.
Lemma HierarchicalSheet_inv_t : forall v, HierarchicalSheet_typed v = true -> sat (fun o => HierarchicalSheet_inv o = true) (HierarchicalSheet_from v).
Proof. tfrom ltac:(fun H => unfold HierarchicalSheet_typed in H; unfold HierarchicalSheet_from) HierarchicalSheet_inv HierarchicalSheet_step_t. Qed.
Lemma HierarchicalSheet_t : forall v, HierarchicalSheet_typed v = true -> sat (fun o => HierarchicalSheet_then o = true) (HierarchicalSheet_from v).
Proof.
  to_ok HierarchicalSheet_inv_t. apply implb_i. unfold HierarchicalSheet_inv, HierarchicalSheet_whole, HierarchicalSheet_ok in *. intros W.
  bools_keep. match goal with K : is_none ?x || _ = true, L : negb (is_none ?x) = true |- _ => destruct (is_none x); [discriminate L|]; cbn [orb] in K end. done_tac.
Qed.
#[export] Hint Resolve HierarchicalSheet_t : typd.

Definition HierarchicalSheetInstance_inv (o : HierarchicalSheetInstance) : bool :=
  txtb (hi_instancePath o)
  && txtb (hi_page o).
Lemma HierarchicalSheetInstance_step_t : forall o x, HierarchicalSheetInstance_inv o = true -> strict HierarchicalSheetInstance_kinds x = true -> sat (fun o => HierarchicalSheetInstance_inv o = true) (HierarchicalSheetInstance_step o x).
Proof. unfold HierarchicalSheetInstance_kinds. tstep ltac:(unfold HierarchicalSheetInstance_step) HierarchicalSheetInstance_inv. Qed.
Lemma HierarchicalSheetInstance_inv_t : forall v, HierarchicalSheetInstance_typed v = true -> sat (fun o => HierarchicalSheetInstance_inv o = true) (HierarchicalSheetInstance_from v).
Proof. tfrom ltac:(fun H => unfold HierarchicalSheetInstance_typed in H; unfold HierarchicalSheetInstance_from) HierarchicalSheetInstance_inv HierarchicalSheetInstance_step_t. Qed.
Lemma HierarchicalSheetInstance_t : forall v, HierarchicalSheetInstance_typed v = true -> sat (fun o => HierarchicalSheetInstance_ok o = true) (HierarchicalSheetInstance_from v).
Proof. to_ok HierarchicalSheetInstance_inv_t. unfold HierarchicalSheetInstance_inv, HierarchicalSheetInstance_ok in *. done_tac. Qed.
#[export] Hint Resolve HierarchicalSheetInstance_t : typd.

Definition SymbolInstance_inv (o : SymbolInstance) : bool :=
  txtb (syi_path o)
  && txtb (syi_reference o)
  && atomb (syi_unit o)
  && txtb (syi_value o)
  && txtb (syi_footprint o).
Lemma SymbolInstance_step_t : forall o x, SymbolInstance_inv o = true -> strict SymbolInstance_kinds x = true -> sat (fun o => SymbolInstance_inv o = true) (SymbolInstance_step o x).
Proof. unfold SymbolInstance_kinds. tstep ltac:(unfold SymbolInstance_step) SymbolInstance_inv. Qed.
Lemma SymbolInstance_inv_t : forall v, SymbolInstance_typed v = true -> sat (fun o => SymbolInstance_inv o = true) (SymbolInstance_from v).
Proof. tfrom ltac:(fun H => unfold SymbolInstance_typed in H; unfold SymbolInstance_from) SymbolInstance_inv SymbolInstance_step_t. Qed.
Lemma SymbolInstance_t : forall v, SymbolInstance_typed v = true -> sat (fun o => SymbolInstance_ok o = true) (SymbolInstance_from v).
Proof. to_ok SymbolInstance_inv_t. unfold SymbolInstance_inv, SymbolInstance_ok in *. done_tac. Qed.
#[export] Hint Resolve SymbolInstance_t : typd.

Definition Rectangle_inv (o : Rectangle) : bool :=
  pos2_ok (rct_start o)
  && pos2_ok (rct_end o)
  && Stroke_ok (rct_stroke o)
  && Fill_ok (rct_fill o)
  && optb wordv (rct_uuid o).
Lemma Rectangle_step_t : forall o x, Rectangle_inv o = true -> strict Rectangle_kinds x = true -> sat (fun o => Rectangle_inv o = true) (Rectangle_step o x).
Proof. unfold Rectangle_kinds. tstep ltac:(unfold Rectangle_step) Rectangle_inv. Qed.
Lemma Rectangle_inv_t : forall v, Rectangle_typed v = true -> sat (fun o => Rectangle_inv o = true) (Rectangle_from v).
Proof. tfrom ltac:(fun H => unfold Rectangle_typed in H; unfold Rectangle_from) Rectangle_inv Rectangle_step_t. Qed.
Lemma Rectangle_t : forall v, Rectangle_typed v = true -> sat (fun o => Rectangle_ok o = true) (Rectangle_from v).
Proof. to_ok Rectangle_inv_t. unfold Rectangle_inv, Rectangle_ok in *. done_tac. Qed.
#[export] Hint Resolve Rectangle_t : typd.

Definition SchArc_inv (o : SchArc) : bool :=
  pos2_ok (sar_start o)
  && pos2_ok (sar_mid o)
  && pos2_ok (sar_end o)
  && Stroke_ok (sar_stroke o)
  && Fill_ok (sar_fill o)
  && optb wordv (sar_uuid o).
Lemma SchArc_step_t : forall o x, SchArc_inv o = true -> strict SchArc_kinds x = true -> sat (fun o => SchArc_inv o = true) (SchArc_step o x).
Proof. unfold SchArc_kinds. tstep ltac:(unfold SchArc_step) SchArc_inv. Qed.
Lemma SchArc_inv_t : forall v, SchArc_typed v = true -> sat (fun o => SchArc_inv o = true) (SchArc_from v).
Proof. tfrom ltac:(fun H => unfold SchArc_typed in H; unfold SchArc_from) SchArc_inv SchArc_step_t. Qed.
Lemma SchArc_t : forall v, SchArc_typed v = true -> sat (fun o => SchArc_ok o = true) (SchArc_from v).
Proof. to_ok SchArc_inv_t. unfold SchArc_inv, SchArc_ok in *. done_tac. Qed.
#[export] Hint Resolve SchArc_t : typd.

Definition Circle_inv (o : Circle) : bool :=
  pos2_ok (cir_center o)
  && numb (cir_radius o)
  && Stroke_ok (cir_stroke o)
  && Fill_ok (cir_fill o)
  && optb wordv (cir_uuid o).
Lemma Circle_step_t : forall o x, Circle_inv o = true -> strict Circle_kinds x = true -> sat (fun o => Circle_inv o = true) (Circle_step o x).
Proof. unfold Circle_kinds. tstep ltac:(unfold Circle_step) Circle_inv. Qed.
Lemma Circle_inv_t : forall v, Circle_typed v = true -> sat (fun o => Circle_inv o = true) (Circle_from v).
Proof. tfrom ltac:(fun H => unfold Circle_typed in H; unfold Circle_from) Circle_inv Circle_step_t. Qed.
Lemma Circle_t : forall v, Circle_typed v = true -> sat (fun o => Circle_ok o = true) (Circle_from v).
Proof. to_ok Circle_inv_t. unfold Circle_inv, Circle_ok in *. done_tac. Qed.
#[export] Hint Resolve Circle_t : typd.

Definition NetclassFlag_then (o : NetclassFlag) : bool := implb (NetclassFlag_whole o) (NetclassFlag_ok o).
Definition NetclassFlag_inv (o : NetclassFlag) : bool :=
  txtb (nf_text o)
  && numb (nf_length o)
  && atomb (nf_shape o)
  && optok pos3_ok (nf_position o)
  && optok Effects_ok (nf_effects o)
  && forallb Property_ok (nf_properties o)
  && optb wordv (nf_uuid o).
Lemma NetclassFlag_step_t : forall o x, NetclassFlag_inv o = true -> strict NetclassFlag_kinds x = true -> sat (fun o => NetclassFlag_inv o = true) (NetclassFlag_step o x).
Proof. unfold NetclassFlag_kinds. tstep ltac:(unfold NetclassFlag_step) NetclassFlag_inv. Qed.
Lemma NetclassFlag_inv_t : forall v, NetclassFlag_typed v = true -> sat (fun o => NetclassFlag_inv o = true) (NetclassFlag_from v).
Proof. tfrom ltac:(fun H => unfold NetclassFlag_typed in H; unfold NetclassFlag_from) NetclassFlag_inv NetclassFlag_step_t. Qed.
Lemma NetclassFlag_t : forall v, NetclassFlag_typed v = true -> sat (fun o => NetclassFlag_then o = true) (NetclassFlag_from v).
Proof. to_ok NetclassFlag_inv_t. apply implb_i. unfold NetclassFlag_inv, NetclassFlag_whole, NetclassFlag_ok in *. intros W. done_tac. Qed.
#[export] Hint Resolve NetclassFlag_t : typd.





Ltac br_more inv I ::= lazymatch goal with
  | |- sat _ (Schematic_line _ _ _) => unfold Schematic_line; br inv I
  | |- sat _ (Schematic_shape _ _ _) => unfold Schematic_shape; br inv I
  end.
Definition Schematic_then (o : Schematic) : bool := implb (Schematic_whole o) (Schematic_ok o).
Definition Schematic_inv (o : Schematic) : bool :=
  atomb (sc_generator o)
  && optb atomb (sc_uuid o)
  && PageSettings_then (sc_paper o)
  && optok TitleBlock_ok (sc_titleBlock o)
  && forallb Symbol_then (sc_libSymbols o)
  && forallb SchematicSymbol_then (sc_schematicSymbols o)
  && forallb Junction_then (sc_junctions o)
  && forallb NoConnect_ok (sc_noConnects o)
  && forallb BusEntry_ok (sc_busEntries o)
  && forallb BusAlias_ok (sc_busAliases o)
  && forallb ScLine_ok (sc_graphicalItems o)
  && forallb ScShape_ok (sc_shapes o)
  && forallb Image_ok (sc_images o)
  && forallb Text_ok (sc_texts o)
  && forallb TextBox_ok (sc_textBoxes o)
  && forallb LocalLabel_ok (sc_labels o)
  && forallb GlobalLabel_ok (sc_globalLabels o)
  && forallb HierarchicalLabel_ok (sc_hierarchicalLabels o)
  && forallb NetclassFlag_then (sc_netclassFlags o)
  && forallb HierarchicalSheet_then (sc_sheets o)
  && forallb HierarchicalSheetInstance_ok (sc_sheetInstances o)
  && forallb SymbolInstance_ok (sc_symbolInstances o)
  && is_none (sc_filePath o).
Lemma Schematic_step_t : forall o x, Schematic_inv o = true -> strict Schematic_kinds x = true -> sat (fun o => Schematic_inv o = true) (Schematic_step o x).
Proof. unfold Schematic_kinds. tstep ltac:(unfold Schematic_step) Schematic_inv. Qed.
Lemma Schematic_inv_t : forall v, Schematic_typed v = true -> sat (fun o => Schematic_inv o = true) (Schematic_from v).
Proof. tfrom ltac:(fun H => unfold Schematic_typed in H; unfold Schematic_from) Schematic_inv Schematic_step_t. Qed.
Lemma Schematic_t : forall v, Schematic_typed v = true -> sat (fun o => Schematic_then o = true) (Schematic_from v).
Proof. to_ok Schematic_inv_t. apply implb_i. unfold Schematic_inv, Schematic_whole, Schematic_ok in *. intros W. done_tac. Qed.
#[export] Hint Resolve Schematic_t : typd.

Definition WksFontSize_inv (o : WksFontSize) : bool :=
  numb (wz_width o)
  && numb (wz_height o).
Lemma WksFontSize_inv_t : forall v, WksFontSize_typed v = true -> sat (fun o => WksFontSize_inv o = true) (WksFontSize_from v).
Proof. tsmall WksFontSize_typed WksFontSize_from WksFontSize_inv. Qed.
Lemma WksFontSize_t : forall v, WksFontSize_typed v = true -> sat (fun o => WksFontSize_ok o = true) (WksFontSize_from v).
Proof. to_ok WksFontSize_inv_t. unfold WksFontSize_inv, WksFontSize_ok in *. done_tac. Qed.
#[export] Hint Resolve WksFontSize_t : typd.

Definition WksFont_inv (o : WksFont) : bool :=
  optb numb (wf_linewidth o)
  && optok WksFontSize_ok (wf_size o).
Lemma WksFont_step_t : forall o x, WksFont_inv o = true -> lists WksFont_kinds x = true -> sat (fun o => WksFont_inv o = true) (WksFont_step o x).
Proof. unfold WksFont_kinds. tstep ltac:(unfold WksFont_step) WksFont_inv. Qed.
Lemma WksFont_inv_t : forall v, WksFont_typed v = true -> sat (fun o => WksFont_inv o = true) (WksFont_from v).
Proof. tfrom ltac:(fun H => unfold WksFont_typed in H; unfold WksFont_from) WksFont_inv WksFont_step_t. Qed.
Lemma WksFont_t : forall v, WksFont_typed v = true -> sat (fun o => WksFont_ok o = true) (WksFont_from v).
Proof. to_ok WksFont_inv_t. unfold WksFont_inv, WksFont_ok in *. done_tac. Qed.
#[export] Hint Resolve WksFont_t : typd.

Definition WksPosition_inv (o : WksPosition) : bool :=
  numb (wp_X o)
  && numb (wp_Y o)
  && optb atomb (wp_corner o).
Lemma WksPosition_inv_t : forall v, WksPosition_typed v = true -> sat (fun o => WksPosition_inv o = true) (WksPosition_from v).
Proof. tsmall WksPosition_typed WksPosition_from WksPosition_inv. Qed.
Lemma WksPosition_t : forall v, WksPosition_typed v = true -> sat (fun o => WksPosition_ok o = true) (WksPosition_from v).
Proof. to_ok WksPosition_inv_t. unfold WksPosition_inv, WksPosition_ok in *. done_tac. Qed.
#[export] Hint Resolve WksPosition_t : typd.

Definition Line_inv (o : Line) : bool :=
  txtb (wl_name o)
  && WksPosition_ok (wl_start o)
  && WksPosition_ok (wl_end o)
  && optb atomb (wl_option o)
  && optb numb (wl_lineWidth o)
  && optb numb (wl_repeat o)
  && optb numb (wl_incrx o)
  && optb numb (wl_incry o)
  && optb txtb (wl_comment o).
Lemma Line_step_t : forall o x, Line_inv o = true -> strict Line_kinds x = true -> sat (fun o => Line_inv o = true) (Line_step o x).
Proof. unfold Line_kinds. tstep ltac:(unfold Line_step) Line_inv. Qed.
Lemma Line_inv_t : forall v, Line_typed v = true -> sat (fun o => Line_inv o = true) (Line_from v).
Proof. tfrom ltac:(fun H => unfold Line_typed in H; unfold Line_from) Line_inv Line_step_t. Qed.
Lemma Line_t : forall v, Line_typed v = true -> sat (fun o => Line_ok o = true) (Line_from v).
Proof. to_ok Line_inv_t. unfold Line_inv, Line_ok in *. done_tac. Qed.
#[export] Hint Resolve Line_t : typd.

Definition Rect_inv (o : Rect) : bool :=
  txtb (wr_name o)
  && WksPosition_ok (wr_start o)
  && WksPosition_ok (wr_end o)
  && optb atomb (wr_option o)
  && optb numb (wr_lineWidth o)
  && optb numb (wr_repeat o)
  && optb numb (wr_incrx o)
  && optb numb (wr_incry o)
  && optb txtb (wr_comment o).
Lemma Rect_step_t : forall o x, Rect_inv o = true -> strict Rect_kinds x = true -> sat (fun o => Rect_inv o = true) (Rect_step o x).
Proof. unfold Rect_kinds. tstep ltac:(unfold Rect_step) Rect_inv. Qed.
Lemma Rect_inv_t : forall v, Rect_typed v = true -> sat (fun o => Rect_inv o = true) (Rect_from v).
Proof. tfrom ltac:(fun H => unfold Rect_typed in H; unfold Rect_from) Rect_inv Rect_step_t. Qed.
Lemma Rect_t : forall v, Rect_typed v = true -> sat (fun o => Rect_ok o = true) (Rect_from v).
Proof. to_ok Rect_inv_t. unfold Rect_inv, Rect_ok in *. done_tac. Qed.
#[export] Hint Resolve Rect_t : typd.

Lemma Bitmap_data_t : forall o x, forallb rawtxtb o = true -> strict [("data"%string, at_place 1 rawtxtb)] x = true -> sat (fun o => forallb rawtxtb o = true) (Bitmap_data o x).
Proof.
  intros o x I R. unfold Bitmap_data. destruct x as [| | | |s|l]; try discriminate R.
  - destruct s as [|c s]; [apply sat_err|]. change (VStr (c :: s)@0) with (Ok (VStr [c])). cbn [bind]. rewrite char_no by discriminate. now apply sat_ok.
  - unfold strict, rows in R. destruct l as [|h l]; [discriminate R|]. split_rows R. change (VList (h :: l)@0) with (Ok h). cbn [bind].
    destruct (h =s "data") eqn:E; [|now apply sat_ok]. look E. eapply sat_bind; [leaf|]. cbv beta. intros d D. apply sat_ok. now apply snoc_i.
Qed.
Ltac leaf_first ::= lazymatch goal with
  | |- sat _ (foldM Bitmap_data [] _) => refine (sat_fold _ _ _ Bitmap_data_t _ [] eq_refl _); eassumption
  end.
Definition Bitmap_inv (o : Bitmap) : bool :=
  txtb (wb_name o)
  && WksPosition_ok (wb_position o)
  && optb atomb (wb_option o)
  && numb (wb_scale o)
  && optb numb (wb_repeat o)
  && optb numb (wb_incrx o)
  && optb numb (wb_incry o)
  && optb txtb (wb_comment o)
  && forallb rawtxtb (wb_pngdata o).
Lemma Bitmap_step_t : forall o x, Bitmap_inv o = true -> strict Bitmap_kinds x = true -> sat (fun o => Bitmap_inv o = true) (Bitmap_step o x).
Proof. unfold Bitmap_kinds. tstep ltac:(unfold Bitmap_step) Bitmap_inv. Qed.
Lemma Bitmap_inv_t : forall v, Bitmap_typed v = true -> sat (fun o => Bitmap_inv o = true) (Bitmap_from v).
Proof. tfrom ltac:(fun H => unfold Bitmap_typed in H; unfold Bitmap_from) Bitmap_inv Bitmap_step_t. Qed.
Lemma Bitmap_t : forall v, Bitmap_typed v = true -> sat (fun o => Bitmap_ok o = true) (Bitmap_from v).
Proof. to_ok Bitmap_inv_t. unfold Bitmap_inv, Bitmap_ok in *. done_tac. Qed.
#[export] Hint Resolve Bitmap_t : typd.

Definition TbText_then (o : TbText) : bool := implb (TbText_whole o) (TbText_ok o).
Definition TbText_inv (o : TbText) : bool :=
  txtb (tt_text o)
  && txtb (tt_name o)
  && WksPosition_ok (tt_position o)
  && optb atomb (tt_option o)
  && optb numb (tt_rotate o)
  && WksFont_ok (tt_font o)
  && optok Justify_ok (tt_justify o)
  && optb numb (tt_maxlen o)
  && optb numb (tt_maxheight o)
  && optb numb (tt_repeat o)
  && optb numb (tt_incrx o)
  && optb numb (tt_incry o)
  && optb numb (tt_incrlabel o)
  && optb txtb (tt_comment o).
Lemma TbText_step_t : forall o x, TbText_inv o = true -> strict TbText_kinds x = true -> sat (fun o => TbText_inv o = true) (TbText_step o x).
Proof. unfold TbText_kinds. tstep ltac:(unfold TbText_step) TbText_inv. Qed.
Lemma TbText_inv_t : forall v, TbText_typed v = true -> sat (fun o => TbText_inv o = true) (TbText_from v).
Proof. tfrom ltac:(fun H => unfold TbText_typed in H; unfold TbText_from) TbText_inv TbText_step_t. Qed.
Lemma TbText_t : forall v, TbText_typed v = true -> sat (fun o => TbText_then o = true) (TbText_from v).
Proof. to_ok TbText_inv_t. apply implb_i. unfold TbText_inv, TbText_whole, TbText_ok in *. intros W. done_tac. Qed.
#[export] Hint Resolve TbText_t : typd.

Definition TextSize_inv (o : TextSize) : bool :=
  numb (tz_width o)
  && numb (tz_height o).
Lemma TextSize_inv_t : forall v, TextSize_typed v = true -> sat (fun o => TextSize_inv o = true) (TextSize_from v).
Proof. tsmall TextSize_typed TextSize_from TextSize_inv. Qed.
Lemma TextSize_t : forall v, TextSize_typed v = true -> sat (fun o => TextSize_ok o = true) (TextSize_from v).
Proof. to_ok TextSize_inv_t. unfold TextSize_inv, TextSize_ok in *. done_tac. Qed.
#[export] Hint Resolve TextSize_t : typd.

Definition Setup_inv (o : Setup) : bool :=
  TextSize_ok (wu_textSize o)
  && numb (wu_lineWidth o)
  && numb (wu_textLineWidth o)
  && numb (wu_leftMargin o)
  && numb (wu_rightMargin o)
  && numb (wu_topMargin o)
  && numb (wu_bottomMargin o).
Lemma Setup_step_t : forall o x, Setup_inv o = true -> strict Setup_kinds x = true -> sat (fun o => Setup_inv o = true) (Setup_step o x).
Proof. unfold Setup_kinds. tstep ltac:(unfold Setup_step) Setup_inv. Qed.
Lemma Setup_inv_t : forall v, Setup_typed v = true -> sat (fun o => Setup_inv o = true) (Setup_from v).
Proof. tfrom ltac:(fun H => unfold Setup_typed in H; unfold Setup_from) Setup_inv Setup_step_t. Qed.
Lemma Setup_t : forall v, Setup_typed v = true -> sat (fun o => Setup_ok o = true) (Setup_from v).
Proof. to_ok Setup_inv_t. unfold Setup_inv, Setup_ok in *. done_tac. Qed.
#[export] Hint Resolve Setup_t : typd.

Definition WkItem_then (o : WkItem) : bool := implb (WkItem_whole o) (WkItem_ok o).

Ltac br_more inv I ::= lazymatch goal with
  | |- sat _ (WorkSheet_item _ _ _) => unfold WorkSheet_item; br inv I
  end.
Definition WorkSheet_then (o : WorkSheet) : bool := implb (WorkSheet_whole o) (WorkSheet_ok o).
Definition WorkSheet_inv (o : WorkSheet) : bool :=
  atomb (wk_generator o)
  && Setup_ok (wk_setup o)
  && forallb WkItem_then (wk_drawingObjects o)
  && is_none (wk_filePath o).
Lemma WorkSheet_step_t : forall o x, WorkSheet_inv o = true -> strict WorkSheet_kinds x = true -> sat (fun o => WorkSheet_inv o = true) (WorkSheet_step o x).
Proof. unfold WorkSheet_kinds. tstep ltac:(unfold WorkSheet_step) WorkSheet_inv. Qed.
Lemma WorkSheet_inv_t : forall v, WorkSheet_typed v = true -> sat (fun o => WorkSheet_inv o = true) (WorkSheet_from v).
Proof. tfrom ltac:(fun H => unfold WorkSheet_typed in H; unfold WorkSheet_from) WorkSheet_inv WorkSheet_step_t. Qed.
Lemma WorkSheet_t : forall v, WorkSheet_typed v = true -> sat (fun o => WorkSheet_then o = true) (WorkSheet_from v).
Proof. to_ok WorkSheet_inv_t. apply implb_i. unfold WorkSheet_inv, WorkSheet_whole, WorkSheet_ok in *. intros W. done_tac. Qed.
#[export] Hint Resolve WorkSheet_t : typd.
