(** What readers give for missing tokens: proofs. *)
From Verif Require Import PyBase PyNum PyStr PyRe Sexpr S_Leaf S_Tree S_Reader L_Keep M_Common M_Lib M_Sym.

Lemma Position_absent : absent Position_from ["unlocked"]%string po_unlocked false.
Proof. repeat split; absent_in Position_from Position_default. Qed.
Lemma ColorRGBA_absent : absent ColorRGBA_from [] ca_precision VNone.
Proof. repeat split; absent_in ColorRGBA_from ColorRGBA_default. Qed.
Lemma Stroke_absent : absent Stroke_from ["width"]%string st_width (fdec 0 0) /\
  absent Stroke_from ["type"]%string st_type VNone /\
  absent Stroke_from ["color"]%string st_color None.
Proof. repeat split; absent_in Stroke_from Stroke_default. Qed.
Lemma Font_absent : absent Font_from ["face"]%string fo_face VNone /\
  absent Font_from ["size"]%string fo_height (fdec 1 0) /\
  absent Font_from ["size"]%string fo_width (fdec 1 0) /\
  absent Font_from ["thickness"]%string fo_thickness VNone /\
  absent Font_from ["bold"]%string fo_bold false /\
  absent Font_from ["italic"]%string fo_italic false /\
  absent Font_from ["line_spacing"]%string fo_lineSpacing VNone /\
  absent Font_from ["color"]%string fo_color None.
Proof. repeat split; absent_in Font_from Font_default. Qed.
Lemma Justify_absent : absent Justify_from ["left"; "right"; "center"]%string ju_horizontally VNone /\
  absent Justify_from ["top"; "bottom"]%string ju_vertically VNone /\
  absent Justify_from ["mirror"]%string ju_mirror false.
Proof. repeat split; absent_in Justify_from Justify_default. Qed.
Lemma Effects_absent : absent Effects_from ["font"]%string ef_font (mkFont VNone (fdec 1 0) (fdec 1 0) VNone false false VNone None) /\
  absent Effects_from ["justify"]%string ef_justify (mkJustify VNone VNone false) /\
  absent Effects_from ["hide"]%string ef_hide false /\
  absent Effects_from ["href"]%string ef_href VNone.
Proof. repeat split; absent_in Effects_from Effects_default. Qed.
Lemma Group_absent : absent Group_from ["locked"]%string gr_locked false /\
  absent Group_from ["id"]%string gr_id (VStr []) /\
  absent Group_from ["members"]%string gr_members [].
Proof. repeat split; absent_in Group_from Group_default. Qed.
Lemma lacks_at k items n x : lacks [k] items = true -> at_ (VList items) n = Ok x -> is_str x k = false.
Proof.
  intros L I. apply at_in in I. ab_in. destruct (is_str x k) eqn:E; [|reflexivity]. ab_contra.
Qed.
Lemma PageSettings_sizes : absent PageSettings_from ["User"%string] pg_width VNone /\ absent PageSettings_from ["User"%string] pg_height VNone.
Proof.
  split; absent_start PageSettings_default items o L H; unfold PageSettings_from; apply Keep_bind; intros l El; unfold setf at 1;
  (destruct (at_ (VList items) 1) as [v|e] eqn:E; [cbn [bind]|apply Keep_err]);
  change (pg_paperSize (PageSettings_default <| pg_paperSize := v |>)) with v; rewrite (lacks_at _ _ _ _ L E);
  unfold on at 1; cbn [bind]; repeat keep1; try reflexivity; absent_steps.
Qed.
Lemma PageSettings_absent : absent PageSettings_from ["portrait"]%string pg_portrait false /\
  absent PageSettings_from ["User"]%string pg_width VNone /\
  absent PageSettings_from ["User"]%string pg_height VNone.
Proof. repeat apply conj.
  - absent_in PageSettings_from PageSettings_default.
  - exact (proj1 PageSettings_sizes).
  - exact (proj2 PageSettings_sizes).
 Qed.
Lemma TitleBlock_absent : absent TitleBlock_from ["title"]%string tb_title VNone /\
  absent TitleBlock_from ["date"]%string tb_date VNone /\
  absent TitleBlock_from ["rev"]%string tb_revision VNone /\
  absent TitleBlock_from ["company"]%string tb_company VNone /\
  absent TitleBlock_from ["comment"]%string tb_comments [].
Proof. repeat split; absent_in TitleBlock_from TitleBlock_default. Qed.
Lemma Property_absent : absent Property_from ["id"]%string pr_id VNone /\
  absent Property_from ["at"]%string pr_position ((mkPosition (fdec 0 0) (fdec 0 0) VNone false) <| po_angle := VInt 0 |>) /\
  absent Property_from ["effects"]%string pr_effects None /\
  absent Property_from ["show_name"]%string pr_showName false.
Proof. repeat split; absent_in Property_from Property_default. Qed.
Lemma RenderCachePolygon_absent : absent RenderCachePolygon_from ["pts"]%string rp_pts [].
Proof. repeat split; absent_in RenderCachePolygon_from RenderCachePolygon_default. Qed.
Lemma RenderCache_absent : absent RenderCache_from ["polygon"]%string rc_polygons [].
Proof. repeat split; absent_in RenderCache_from RenderCache_default. Qed.
Lemma Fill_absent : absent Fill_from ["type"]%string fi_type (VStr $"none") /\
  absent Fill_from ["color"]%string fi_color None.
Proof. repeat split; absent_in Fill_from Fill_default. Qed.
Lemma Image_absent : absent Image_from ["at"]%string im_position (mkPosition (fdec 0 0) (fdec 0 0) VNone false) /\
  absent Image_from ["scale"]%string im_scale VNone /\
  absent Image_from ["data"]%string im_data [] /\
  absent Image_from ["uuid"]%string im_uuid VNone /\
  absent Image_from ["layer"]%string im_layer VNone.
Proof. repeat split; absent_in Image_from Image_default. Qed.
Lemma Library_absent : absent Library_from ["name"]%string lb_name (VStr []) /\
  absent Library_from ["type"]%string lb_type (VStr $"KiCad") /\
  absent Library_from ["uri"]%string lb_uri (VStr []) /\
  absent Library_from ["options"]%string lb_options (VStr []) /\
  absent Library_from ["descr"]%string lb_description (VStr []) /\
  absent Library_from ["disabled"]%string lb_active true.
Proof. repeat split; absent_in Library_from Library_default. Qed.
Lemma LibTable_absent : absent LibTable_from ["lib"]%string lt_libs [] /\
  absent LibTable_from [] lt_filePath VNone.
Proof. repeat split; absent_in LibTable_from LibTable_default. Qed.
Lemma Constraint_absent : absent Constraint_from ["min"]%string cn_min VNone /\
  absent Constraint_from ["opt"]%string cn_opt VNone /\
  absent Constraint_from ["max"]%string cn_max VNone.
Proof. repeat split; absent_in Constraint_from Constraint_default. Qed.
Lemma Constraint_no_elements items o : forallb is_list (skipn 2 items) = true -> Constraint_from (VList items) = Ok o -> cn_elements o = [].
Proof.
  intros L H. match type of H with ?m = _ => assert (K : Keep cn_elements Constraint_default m); [clear H|rewrite (K _ H); reflexivity] end.
  unfold Constraint_from. repeat keep1; try reflexivity.
  all: match goal with E : need_head _ _ = Ok _ |- _ => apply need_head_in in E; injection E as <- end.
  rewrite forallb_forall in L. unfold Constraint_step. 
  match goal with I : In ?x _ |- _ => apply L in I; rewrite I; cbn [negb]; unfold on at 1; cbn [bind] end. keep.
Qed.
Lemma Rule_absent : absent Rule_from ["constraint"]%string ru_constraints [] /\
  absent Rule_from ["condition"]%string ru_condition (VStr []) /\
  absent Rule_from ["layer"]%string ru_layer VNone /\
  absent Rule_from ["severity"]%string ru_severity VNone.
Proof. repeat split; absent_in Rule_from Rule_default. Qed.
Lemma DesignRules_absent : absent DesignRules_from ["rule"]%string dr_rules [] /\
  absent DesignRules_from [] dr_filePath VNone.
Proof. repeat split; absent_in DesignRules_from DesignRules_default. Qed.
Lemma SyArc_absent : absent SyArc_from ["private"]%string sa_private false /\
  absent SyArc_from ["start"]%string sa_start (mkPosition (fdec 0 0) (fdec 0 0) VNone false) /\
  absent SyArc_from ["mid"]%string sa_mid (mkPosition (fdec 0 0) (fdec 0 0) VNone false) /\
  absent SyArc_from ["end"]%string sa_end (mkPosition (fdec 0 0) (fdec 0 0) VNone false) /\
  absent SyArc_from ["stroke"]%string sa_stroke (mkStroke (fdec 0 0) VNone None) /\
  absent SyArc_from ["fill"]%string sa_fill (mkFill (VStr $"none") None).
Proof. repeat split; absent_in SyArc_from SyArc_default. Qed.
Lemma SyCircle_absent : absent SyCircle_from ["private"]%string si_private false /\
  absent SyCircle_from ["center"]%string si_center (mkPosition (fdec 0 0) (fdec 0 0) VNone false) /\
  absent SyCircle_from ["radius"]%string si_radius (fdec 0 0) /\
  absent SyCircle_from ["stroke"]%string si_stroke (mkStroke (fdec 0 0) VNone None) /\
  absent SyCircle_from ["fill"]%string si_fill (mkFill (VStr $"none") None).
Proof. repeat split; absent_in SyCircle_from SyCircle_default. Qed.
Lemma SyCurve_absent : absent SyCurve_from ["pts"]%string sc_points [] /\
  absent SyCurve_from ["stroke"]%string sc_stroke (mkStroke (fdec 0 0) VNone None) /\
  absent SyCurve_from ["fill"]%string sc_fill (mkFill (VStr $"none") None).
Proof. repeat split; absent_in SyCurve_from SyCurve_default. Qed.
Lemma SyPolyLine_absent : absent SyPolyLine_from ["pts"]%string sl_points [] /\
  absent SyPolyLine_from ["stroke"]%string sl_stroke (mkStroke (fdec 0 0) VNone None) /\
  absent SyPolyLine_from ["fill"]%string sl_fill (mkFill (VStr $"none") None).
Proof. repeat split; absent_in SyPolyLine_from SyPolyLine_default. Qed.
Lemma SyRect_absent : absent SyRect_from ["private"]%string sr_private false /\
  absent SyRect_from ["start"]%string sr_start (mkPosition (fdec 0 0) (fdec 0 0) VNone false) /\
  absent SyRect_from ["end"]%string sr_end (mkPosition (fdec 0 0) (fdec 0 0) VNone false) /\
  absent SyRect_from ["stroke"]%string sr_stroke (mkStroke (fdec 0 0) VNone None) /\
  absent SyRect_from ["fill"]%string sr_fill (mkFill (VStr $"none") None).
Proof. repeat split; absent_in SyRect_from SyRect_default. Qed.
Lemma SyText_absent : absent SyText_from ["at"]%string sx_position (mkPosition (fdec 0 0) (fdec 0 0) VNone false) /\
  absent SyText_from ["effects"]%string sx_effects (mkEffects (mkFont VNone (fdec 1 0) (fdec 1 0) VNone false false VNone None) (mkJustify VNone VNone false) false VNone).
Proof. repeat split; absent_in SyText_from SyText_default. Qed.
Lemma SyTextBox_not_private : absent SyTextBox_from ["private"%string] sb_private false.
Proof.
  absent_start SyTextBox_default items o L H; unfold SyTextBox_from, SyTextBox_private.
  apply Keep_bind. intros l El. destruct (at_ (VList items) 1) as [v|e] eqn:E; [cbn [bind]|apply Keep_err].
  rewrite (lacks_at _ _ _ _ L E). cbn [bind]. repeat keep1; try reflexivity; absent_steps.
Qed.
Lemma SyTextBox_absent : absent SyTextBox_from ["at"]%string sb_position (mkPosition (fdec 0 0) (fdec 0 0) VNone false) /\
  absent SyTextBox_from ["size"]%string sb_size (mkPosition (fdec 0 0) (fdec 0 0) VNone false) /\
  absent SyTextBox_from ["stroke"]%string sb_stroke (mkStroke (fdec 0 0) VNone None) /\
  absent SyTextBox_from ["fill"]%string sb_fill (mkFill (VStr $"none") None) /\
  absent SyTextBox_from ["effects"]%string sb_effects (mkEffects (mkFont VNone (fdec 1 0) (fdec 1 0) VNone false false VNone None) (mkJustify VNone VNone false) false VNone) /\
  absent SyTextBox_from ["uuid"]%string sb_uuid VNone /\
  absent SyTextBox_from ["private"]%string sb_private false.
Proof. repeat apply conj.
  - absent_in SyTextBox_from SyTextBox_default.
  - absent_in SyTextBox_from SyTextBox_default.
  - absent_in SyTextBox_from SyTextBox_default.
  - absent_in SyTextBox_from SyTextBox_default.
  - absent_in SyTextBox_from SyTextBox_default.
  - absent_in SyTextBox_from SyTextBox_default.
  - exact SyTextBox_not_private.
 Qed.
Lemma SymbolPin_absent : absent SymbolPin_from ["at"]%string sp_position (mkPosition (fdec 0 0) (fdec 0 0) VNone false) /\
  absent SymbolPin_from ["length"]%string sp_length (fdec 254 (-3)) /\
  absent SymbolPin_from ["name"]%string sp_name (VStr []) /\
  absent SymbolPin_from ["name"]%string sp_nameEffects None /\
  absent SymbolPin_from ["number"]%string sp_number (VStr $"0") /\
  absent SymbolPin_from ["number"]%string sp_numberEffects None /\
  absent SymbolPin_from ["hide"]%string sp_hide false /\
  absent SymbolPin_from ["alternate"]%string sp_alternatePins [].
Proof. repeat split; absent_in SymbolPin_from SymbolPin_default. Qed.
Lemma Symbol_absent_start {T} (p : Symbol -> T) items o :
  (forall n e u s, p (Symbol_default <| sy_libraryNickname := n |> <| sy_entryName := e |> <| sy_unitId := u |> <| sy_styleId := s |>) = p Symbol_default) ->
  (forall o1 x, In x (tl items) -> Keep p o1 (Symbol_step Symbol_from o1 x)) ->
  Symbol_from (VList items) = Ok o -> p o = p Symbol_default.
Proof.
  intros D S H. destruct items as [|h [|id items]]; [discriminate H|cbn in H; destruct (is_str h "symbol"); discriminate H|].
  change ((if is_str h "symbol" then let! o := Symbol_set_libId id Symbol_default in foldM (fun o item => Symbol_step Symbol_from o item) o items else Err EException) = Ok o) in H.
  destruct (is_str h "symbol"); [|discriminate H].
  destruct (Symbol_set_libId id Symbol_default) as [o1|] eqn:E; [|discriminate H]. cbn [bind] in H.
  assert (E1 : p o1 = p Symbol_default).
  { unfold Symbol_set_libId in E. destruct (as_text id); [|discriminate E]. cbn [bind] in E.
    destruct (re_match re_nick _); [|destruct (re_match re_unit _)]; cbn [bind] in E; injection E as <-; apply D. }
  rewrite <- E1. revert H. apply Keep_fold. intros o2 x I. apply S. now right.
Qed.
Lemma Symbol_absent : absent Symbol_from ["extends"]%string sy_extends VNone /\
  absent Symbol_from ["pin_numbers"]%string sy_hidePinNumbers false /\
  absent Symbol_from ["pin_names"]%string sy_pinNames false /\
  absent Symbol_from ["pin_names"]%string sy_pinNamesHide false /\
  absent Symbol_from ["pin_names"]%string sy_pinNamesOffset VNone /\
  absent Symbol_from ["in_bom"]%string sy_inBom None /\
  absent Symbol_from ["on_board"]%string sy_onBoard None /\
  absent Symbol_from ["power"]%string sy_isPower false /\
  absent Symbol_from ["property"]%string sy_properties [] /\
  absent Symbol_from ["arc"; "circle"; "curve"; "polyline"; "rectangle"; "text"; "text_box"]%string sy_graphicItems [] /\
  absent Symbol_from ["pin"]%string sy_pins [] /\
  (forall h items o, lacks ["symbol"]%string items = true -> Symbol_from (VList (h :: items)) = Ok o -> sy_units o = []).
Proof. repeat split; [..|intros h items o L; apply Symbol_absent_start; [reflexivity|intros o1 x I; cbn [tl] in I; absent_steps]];
  intros items o L; (apply Symbol_absent_start; [reflexivity|intros o1 x I; apply (in_skip 1) in I; absent_steps]). Qed.
Lemma SymbolLib_absent : absent SymbolLib_from ["version"]%string sj_version (VStr $"20211014") /\
  absent SymbolLib_from ["generator"]%string sj_generator VNone /\
  absent SymbolLib_from ["symbol"]%string sj_symbols [] /\
  absent SymbolLib_from [] sj_filePath VNone.
Proof. repeat split; absent_in SymbolLib_from SymbolLib_default. Qed.
