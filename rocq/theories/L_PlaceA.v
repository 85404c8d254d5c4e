(** From which places the attributes are taken: proofs.  The first part was generated from the from_sexpr methods. *)
From Verif Require Import PyBase PyNum PyStr PyRe Sexpr S_Leaf S_Tree S_Id S_Reader S_Gather S_Pick S_Place L_Lex L_Seq L_Tac L_Keep L_Swap L_Pick L_Id L_SymId L_Place M_Common M_Lib M_Sym M_Fp M_Gr M_Zone M_Footprint M_Dim M_Brd M_Board M_Sch M_Schematic M_Wks.

Lemma Coordinate_place : stands Coordinate_from 1 co_X /\ stands Coordinate_from 2 co_Y /\ stands Coordinate_from 3 co_Z.
Proof. repeat apply conj; place Coordinate_from. Qed.
Lemma ColorRGBA_place : stands ColorRGBA_from 1 ca_R /\ stands ColorRGBA_from 2 ca_G /\ stands ColorRGBA_from 3 ca_B /\ stands ColorRGBA_from 4 ca_A.
Proof. repeat apply conj; place ColorRGBA_from. Qed.
Lemma Net_place : stands Net_from 1 ne_number /\ stands Net_from 2 ne_name.
Proof. repeat apply conj; place Net_from. Qed.
Lemma Group_place : stands Group_from 1 gr_name.
Proof. repeat apply conj; place Group_from. Qed.
Lemma Property_place : stands Property_from 1 pr_key /\ stands Property_from 2 pr_value.
Proof. repeat apply conj; place Property_from. Qed.
Lemma RenderCache_place : stands RenderCache_from 1 rc_text /\ stands RenderCache_from 2 rc_id.
Proof. repeat apply conj; place RenderCache_from. Qed.
Lemma LibTable_place : stands LibTable_from 0 M_Lib.lt_type.
Proof. repeat apply conj; place LibTable_from. Qed.
Lemma Constraint_place : stands Constraint_from 1 cn_type.
Proof. repeat apply conj; place Constraint_from. Qed.
Lemma Rule_place : stands Rule_from 1 ru_name.
Proof. repeat apply conj; place Rule_from. Qed.
Lemma SyText_place : stands SyText_from 1 sx_text.
Proof. repeat apply conj; place SyText_from. Qed.
Lemma SymbolAlternativePin_place : stands SymbolAlternativePin_from 1 ap_pinName /\ stands SymbolAlternativePin_from 2 ap_electricalType /\ stands SymbolAlternativePin_from 3 ap_graphicalStyle.
Proof. repeat apply conj; place SymbolAlternativePin_from. Qed.
Lemma SymbolPin_place : stands SymbolPin_from 1 sp_electricalType /\ stands SymbolPin_from 2 sp_graphicalStyle.
Proof. repeat apply conj; place SymbolPin_from. Qed.
Lemma FpText_place : stands FpText_from 1 ft_type /\ stands FpText_from 2 ft_text.
Proof. repeat apply conj; place FpText_from. Qed.
Lemma GrText_place : stands GrText_from 1 gt_text.
Proof. repeat apply conj; place GrText_from. Qed.
Lemma Model_place : stands Model_from 1 mo_path.
Proof. repeat apply conj; place Model_from. Qed.
Lemma Pad_place : stands Pad_from 1 pd_number /\ stands Pad_from 2 pd_type /\ stands Pad_from 3 pd_shape.
Proof. repeat apply conj; place Pad_from. Qed.
Lemma LayerToken_place : stands LayerToken_from 0 M_Brd.lt_ordinal /\ stands LayerToken_from 1 M_Brd.lt_name /\ stands LayerToken_from 2 M_Brd.lt_type.
Proof. repeat apply conj; place LayerToken_from. Qed.
Lemma Target_place : stands Target_from 1 tg_type.
Proof. repeat apply conj; place Target_from. Qed.
Lemma BusAlias_place : stands BusAlias_from 1 ba_name.
Proof. repeat apply conj; place BusAlias_from. Qed.
Lemma Connection_place : stands Connection_from 0 cx_type.
Proof. repeat apply conj; place Connection_from. Qed.
Lemma Text_place : stands Text_from 1 tx_text.
Proof. repeat apply conj; place Text_from. Qed.
Lemma TextBox_place : stands TextBox_from 1 bx_text.
Proof. repeat apply conj; place TextBox_from. Qed.
Lemma LocalLabel_place : stands LocalLabel_from 1 ll_text.
Proof. repeat apply conj; place LocalLabel_from. Qed.
Lemma GlobalLabel_place : stands GlobalLabel_from 1 gla_text.
Proof. repeat apply conj; place GlobalLabel_from. Qed.
Lemma HierarchicalLabel_place : stands HierarchicalLabel_from 1 hl_text.
Proof. repeat apply conj; place HierarchicalLabel_from. Qed.
Lemma SymbolProjectPath_place : stands SymbolProjectPath_from 1 spp_sheetInstancePath.
Proof. repeat apply conj; place SymbolProjectPath_from. Qed.
Lemma SymbolProjectInstance_place : stands SymbolProjectInstance_from 1 spi_name.
Proof. repeat apply conj; place SymbolProjectInstance_from. Qed.
Lemma HierarchicalPin_place : stands HierarchicalPin_from 1 hp_name /\ stands HierarchicalPin_from 2 hp_connectionType.
Proof. repeat apply conj; place HierarchicalPin_from. Qed.
Lemma HierarchicalSheetProjectPath_place : stands HierarchicalSheetProjectPath_from 1 hpp_sheetInstancePath.
Proof. repeat apply conj; place HierarchicalSheetProjectPath_from. Qed.
Lemma HierarchicalSheetProjectInstance_place : stands HierarchicalSheetProjectInstance_from 1 hpi_name.
Proof. repeat apply conj; place HierarchicalSheetProjectInstance_from. Qed.
Lemma HierarchicalSheetInstance_place : stands HierarchicalSheetInstance_from 1 hi_instancePath.
Proof. repeat apply conj; place HierarchicalSheetInstance_from. Qed.
Lemma SymbolInstance_place : stands SymbolInstance_from 1 syi_path.
Proof. repeat apply conj; place SymbolInstance_from. Qed.
Lemma NetclassFlag_place : stands NetclassFlag_from 1 nf_text.
Proof. repeat apply conj; place NetclassFlag_from. Qed.
Lemma WksFontSize_place : stands WksFontSize_from 1 wz_width /\ stands WksFontSize_from 2 wz_height.
Proof. repeat apply conj; place WksFontSize_from. Qed.
Lemma WksPosition_place : stands WksPosition_from 1 wp_X /\ stands WksPosition_from 2 wp_Y.
Proof. repeat apply conj; place WksPosition_from. Qed.
Lemma TbText_place : stands TbText_from 1 tt_text.
Proof. repeat apply conj; place TbText_from. Qed.
Lemma TextSize_place : stands TextSize_from 1 tz_width /\ stands TextSize_from 2 tz_height.
Proof. repeat apply conj; place TextSize_from. Qed.

Lemma Position_place : stands Position_from 1 po_X /\ stands Position_from 2 po_Y
  /\ finds Position_from (fun e => let! a := maybe 3 e in Ok (if is_str a "unlocked" then VNone else a)) po_angle.
Proof.
  repeat apply conj; try unfold stands; apply finds_by; intros e; unfold Position_from; destruct e as [| | | | |l]; try apply Hit_err; try place_top.
  apply Hit_if; intros H; [apply Hit_err|]. cbv zeta. destruct l as [|a [|b [|c r]]]; try discriminate H.
  apply Hit_pre; intros o1 E1. apply Hit_pre; intros o2 E2.
  apply Hit_seq_l; [|intros ?; place_keep].
  cbn [at_ nth_error] in E1, E2. unfold setf in E1, E2. cbn [bind] in E1, E2. injection E1 as <-. injection E2 as <-.
  destruct r as [|d r]; cbn; intros o' E; [injection E as <-; reflexivity|].
  unfold on in E. destruct (is_str d "unlocked"); cbn in E; injection E as <-; reflexivity.
Qed.
Lemma PageSettings_place : stands PageSettings_from 1 pg_paperSize
  /\ finds PageSettings_from (fun e => let! s := arg 1 e in if is_str s "User" then arg 2 e else Ok VNone) pg_width
  /\ finds PageSettings_from (fun e => let! s := arg 1 e in if is_str s "User" then arg 3 e else Ok VNone) pg_height.
Proof.
  repeat apply conj; [place PageSettings_from| |]; apply finds_by; intros e; unfold PageSettings_from; apply Hit_pre; intros l E; apply need_head_in in E; subst e;
    destruct l as [|a [|s r]]; try (intros o' E; discriminate E); cbn [at_ nth_error]; unfold setf at 1; cbn [bind]; (apply Hit_seq_l; [|intros ?; place_keep]);
    cbn; unfold on; destruct (is_str s "User"); cbn; intros o' E; try (injection E as <-; reflexivity);
    destruct r as [|w [|h r]]; try discriminate E; cbn in E; injection E as <-; reflexivity.
Qed.
Lemma LayerToken_user : finds LayerToken_from (maybe 3) M_Brd.lt_userName.
Proof.
  apply finds_by; intros e; unfold LayerToken_from. apply Hit_pre; intros l E; apply need_list_in in E; subst e.
  apply Hit_if; intros H; [apply Hit_err|]. destruct l as [|a [|b [|c [|d [|x r]]]]]; try discriminate H; cbn; intros o' E; injection E as <-; reflexivity.
Qed.
Lemma WksPosition_corner : finds WksPosition_from (maybe 3) wp_corner.
Proof.
  apply finds_by; intros e; unfold WksPosition_from. apply Hit_pre; intros l E; apply need_list_in in E; subst e.
  apply Hit_if; intros H; [apply Hit_err|]. destruct l as [|a [|b [|c [|d r]]]]; try discriminate H; cbn; intros o' E; injection E as <-; reflexivity.
Qed.
Lemma locked_flag e b : text_box_locked e = Ok b -> is_list e = true -> flagged "locked"%string e = Ok b.
Proof.
  destruct e as [| | | | |[|h [|w r]]]; try discriminate. unfold text_box_locked. cbn. destruct (is_str w "locked"); [|intros [= <-]; reflexivity].
  destruct r as [|y r]; [discriminate|]. cbn. intros [= <-] _. now destruct y.
Qed.
Lemma private_flag e b : SyTextBox_private e = Ok b -> is_list e = true -> flagged "private"%string e = Ok b.
Proof.
  destruct e as [| | | | |[|h [|w r]]]; try discriminate. unfold SyTextBox_private. cbn. destruct (is_str w "private"); [|intros [= <-]; reflexivity].
  destruct r as [|y r]; [discriminate|]. cbn. intros [= <-] _. now destruct y.
Qed.
Lemma FpTextBox_place : finds FpTextBox_from (behind "locked"%string) fb_text /\ finds FpTextBox_from (flagged "locked"%string) fb_locked.
Proof.
  split; apply finds_by; intros e; unfold FpTextBox_from; (apply Hit_pre; intros l E; apply need_list_in in E; subst e);
    (apply Hit_if; intros _; [apply Hit_err|]); (apply Hit_pre; intros h _); (apply Hit_if; intros _; [apply Hit_err|]);
    apply Hit_pre; intros b Hb; apply locked_flag in Hb; try reflexivity; apply Hit_pre; intros t Ht;
    (match goal with |- Hit _ _ (foldM _ ?o _) => apply (Hit_of_Keep _ _ o) end; [|place_keep]); unfold behind; rewrite Hb; [|reflexivity].
  destruct b; exact Ht.
Qed.
Lemma GrTextBox_place : finds GrTextBox_from (behind "locked"%string) gb_text /\ finds GrTextBox_from (flagged "locked"%string) gb_locked.
Proof.
  split; apply finds_by; intros e; unfold GrTextBox_from; (apply Hit_pre; intros l E; apply need_list_in in E; subst e);
    (apply Hit_if; intros _; [apply Hit_err|]); (apply Hit_pre; intros h _); (apply Hit_if; intros _; [apply Hit_err|]);
    apply Hit_pre; intros b Hb; apply locked_flag in Hb; try reflexivity; apply Hit_pre; intros t Ht;
    (match goal with |- Hit _ _ (foldM _ ?o _) => apply (Hit_of_Keep _ _ o) end; [|place_keep]); unfold behind; rewrite Hb; [|reflexivity].
  destruct b; exact Ht.
Qed.
Lemma SyTextBox_place : finds SyTextBox_from (behind "private"%string) M_Sym.sb_text /\ finds SyTextBox_from (flagged "private"%string) M_Sym.sb_private.
Proof.
  split; apply finds_by; intros e; unfold SyTextBox_from; (apply Hit_pre; intros l E; apply need_head_in in E; subst e);
    apply Hit_pre; intros b Hb; apply private_flag in Hb; try reflexivity; unfold behind; rewrite Hb; destruct b.
  - apply Hit_pre; intros o1 _. place_top.
  - place_top.
  - apply Hit_seq_l; [refine (Hit_setf _ _ _ _ _ _); intros; reflexivity | intros ?; place_keep].
  - apply Hit_pre; intros o1 E1. apply (Hit_of_Keep _ _ o1); [|place_keep]. unfold setf in E1. destruct (at_ _ _); [|discriminate E1]. cbn in E1. now injection E1 as <-.
Qed.
Lemma DrillDefinition_place : finds DrillDefinition_from (arg_is 1 "oval"%string) dd_oval
  /\ finds DrillDefinition_from (fun e => let! b := arg_is 1 "oval"%string e in arg (if b : bool then 2 else 1) e) dd_diameter
  /\ finds DrillDefinition_from (fun e => let! b := arg_is 1 "oval"%string e in if b : bool then arg 3 e else maybe 2 e) dd_width.
Proof.
  repeat apply conj; apply finds_by; intros e; unfold DrillDefinition_from; (apply Hit_pre; intros l E; apply need_head_in in E; subst e);
    cbv zeta; (apply Hit_pre; intros x Hx); (apply Hit_seq_l; [|intros ?; place_keep]);
    destruct l as [|h [|x' r]]; try discriminate Hx; injection Hx as ->; unfold arg_is, arg; cbn;
    destruct (is_str x "oval"); cbn; intros o' E; destruct r as [|y [|z r]]; cbn in E; try discriminate E; injection E as <-; reflexivity.
Qed.
Lemma Attributes_place : finds Attributes_from (fun e => let! x := maybe 1 e in Ok (if is_str x "through_hole" || is_str x "smd" then x else VNone)) fx_type.
Proof.
  apply finds_by; intros e; unfold Attributes_from; (apply Hit_pre; intros l E; apply need_head_in in E; subst e). cbv zeta.
  apply Hit_seq_l; [|intros ?; place_keep].
  destruct l as [|h [|x r]]; cbn; intros o' E; try (injection E as <-; reflexivity).
  unfold on in E. destruct (is_str x "through_hole" || is_str x "smd"); cbn in E; injection E as <-; reflexivity.
Qed.
Lemma StackupLayer_place : stands StackupLayer_from 1 sl_name.
Proof.
  apply finds_by; intros e; unfold StackupLayer_from; (apply Hit_pre; intros l E; apply need_head_in in E; subst e).
  apply Hit_seq_l; [refine (Hit_setf _ _ _ _ _ _); intros; reflexivity |]. intros o. intros o' E. apply bind_inv in E as (s & E1 & E2).
  assert (K : Keep (fun s : StackupLayer_state => sl_name (snd s)) (None, o) (foldM StackupLayer_next (None, o) (skipn 2 l))).
  { apply Keep_fold. intros [t q] x _ s' E. unfold StackupLayer_next in E. destruct (is_list x); cbn [negb] in E.
    - destruct t as [t|]; apply bind_inv in E as (y & F1 & [= <-]); cbn [snd]; [reflexivity|].
      revert y F1. change (Keep sl_name q (StackupLayer_own q x)). place_keep.
    - destruct (is_str x "addsublayer"); [|now injection E as <-]. destruct t; [|now injection E as <-]. cbn in E. now injection E as <-. }
  specialize (K _ E1). cbn [snd] in K. destruct s as [[t|] q]; cbn [snd] in K; cbn in E2; injection E2 as <-; exact K.
Qed.
Lemma Model_hide : finds Model_from (arg_is 2 "hide"%string) mo_hide.
Proof.
  apply finds_by; intros e; unfold Model_from. apply Hit_pre; intros l E; apply need_list_in in E; subst e.
  apply Hit_if; intros H; [apply Hit_err|]. apply Hit_pre; intros h _. apply Hit_if; intros _; [apply Hit_err|]. apply Hit_pre; intros o1 E1. apply Hit_pre; intros x Hx.
  apply Hit_seq_l; [|intros ?; place_keep]. unfold arg_is. change (arg 2 (VList l)) with (at_ (VList l) 2). rewrite Hx. unfold setf in E1. destruct (at_ (VList l) 1); [|discriminate E1].
  cbn in E1. injection E1 as <-. destruct (is_str x "hide"); cbn; intros o' E; injection E as <-; reflexivity.
Qed.


Lemma SymbolPin_pick2 :
  picks_item SymbolPin_from 3 (headed "name"%string (fun l => Nat.leb 2 (length l))) (in_arg 2 (as_ Some Effects_from)) sp_nameEffects
  /\ picks_item SymbolPin_from 3 (headed "number"%string (fun l => Nat.leb 2 (length l))) (in_arg 2 (as_ Some Effects_from)) sp_numberEffects.
Proof.
  split; item_in SymbolPin_from SymbolPin_step; [item_keep; item_contra| |item_keep; item_contra|];
    item_hit; destruct l as [|a [|b l]]; try discriminate C; item_skip; intros o' E; cbn in E; unfold in_arg, arg, as_; cbn;
    destruct (Effects_from b); try discriminate E; cbn in E; injection E as <-; reflexivity.
Qed.
Lemma Zone_pick2 :
  picks_item Zone_from 0 (headed "connect_pads"%string (fun l => negb (Nat.eqb (length l) 1))) (arg 1) zo_connectPads
  /\ picks_item Zone_from 0 (headed "connect_pads"%string (fun _ => true))
       clearance_of zo_clearance.
Proof.
  split; item_in Zone_from Zone_step.
  - item_keep. exfalso. match goal with H : len_ (VList _) = Ok _ |- _ => injection H as <- end. 
    match goal with F : headed _ _ (VList (?h :: _)) = false, E : is_str ?h _ = true |- _ => cbn [headed] in F; rewrite E in F; cbn [andb] in F; apply negb_false_iff in F; cbn [length] in *; change (Nat.eqb (S (length l)) 2) with (Nat.eqb (length l) 1) in *; congruence end.
  - item_hit. item_skip. intros o' E. destruct l as [|a [|b l]]; try discriminate C; cbn in E; try discriminate E. 
    destruct b as [| | | |s|s]; try discriminate E; cbn in E; destruct s as [|? [|? ?]]; try discriminate E; cbn in E; injection E as <-; reflexivity.
  - item_keep; match goal with F : headed _ _ (VList (?h :: _)) = false, E : is_str ?h _ = true |- _ => cbn [headed] in F; rewrite E in F; discriminate F end.
  - item_hit. item_skip. intros o' E. destruct l as [|a [|b l]]; cbn in E; try discriminate E;
      [destruct a as [| | | |s|s]|destruct b as [| | | |s|s]]; try discriminate E; cbn in E; destruct s as [|? [|? ?]]; try discriminate E; cbn in E; injection E as <-; reflexivity.
Qed.
Lemma HierarchicalSheet_pick2 :
  picks_item HierarchicalSheet_from 1 (headed "property"%string (keyed ["Sheet name"; "Sheetname"]%string)) Property_from hs_sheetName
  /\ picks_item HierarchicalSheet_from 1 (headed "property"%string (keyed ["Sheet file"; "Sheetfile"]%string)) Property_from hs_fileName.
Proof.
  split; item_in HierarchicalSheet_from HierarchicalSheet_step.
  - item_keep; exfalso. destruct l as [|k l]; [discriminate|]. cbn in *. match goal with H : Ok _ = Ok _ |- _ => injection H as -> end.
    rewrite orb_false_r in *. match goal with H : (_ && _)%bool = false |- _ => apply andb_false_iff in H as [H|H] end; congruence.
  - item_hit. destruct l as [|k l]; [discriminate C|]. cbn in C. rewrite orb_false_r in C. item_skip. intros o' E. unfold HierarchicalSheet_property in E.
    destruct (Property_from _) as [p|]; [|discriminate E]. cbn in E. rewrite C in E. injection E as <-. reflexivity.
  - item_keep; exfalso. destruct l as [|k l]; [discriminate|]. cbn in *. match goal with H : Ok _ = Ok _ |- _ => injection H as -> end.
    rewrite orb_false_r in *. match goal with H : (_ && _)%bool = false |- _ => apply andb_false_iff in H as [H|H] end; congruence.
  - item_hit. destruct l as [|k l]; [discriminate C|]. cbn in C. rewrite orb_false_r in C. item_skip. intros o' E. unfold HierarchicalSheet_property in E.
    destruct (Property_from _) as [p|]; [|discriminate E]. cbn in E.
    assert (N : is_str k "Sheet name" || is_str k "Sheetname" = false).
    { apply orb_prop in C as [C|C]; apply is_str_eq in C; subst k; reflexivity. }
    rewrite N, C in E. injection E as <-. reflexivity.
Qed.
(** ** Identifiers *)
Lemma Symbol_set_named s o o' : Symbol_set_libId (VStr s) o = Ok o' ->
  symbol_named s (sy_libraryNickname o') (sy_entryName o') (sy_unitId o') (sy_styleId o').
Proof.
  destruct (set_cases s) as [(n & e & t & F)|[(N & e & u & v & t & F)|(N & U)]].
  - rewrite (set_nick s n e t o F). intros [= <-]. left. now exists n, e, t.
  - rewrite (set_unit s e u v t o N F). intros [= <-]. right. left. split; [assumption|]. now exists e, u, v, t.
  - rewrite (set_plain s o N U). intros [= <-]. right. right. now repeat split.
Qed.
Lemma Symbol_from_eq h id items : Symbol_from (VList (h :: id :: items)) =
  if is_str h "symbol" then let! o := Symbol_set_libId id Symbol_default in foldM (Symbol_step Symbol_from) o items else Err EException.
Proof. reflexivity. Qed.
Lemma Symbol_place e o : Symbol_from e = Ok o -> exists s, arg 1 e = Ok (VStr s)
  /\ symbol_named s (sy_libraryNickname o) (sy_entryName o) (sy_unitId o) (sy_styleId o).
Proof.
  destruct e as [| | | | |[|h [|id items]]]; try discriminate; [cbn; destruct (is_str h "symbol"); discriminate|].
  rewrite Symbol_from_eq. destruct (is_str h "symbol"); [|discriminate]. intros E. apply bind_inv in E as (o1 & E1 & E2).
  destruct id as [| | | |s|]; try discriminate E1. exists s. split; [reflexivity|]. apply Symbol_set_named in E1.
  pose (p := fun o => (sy_libraryNickname o, sy_entryName o, sy_unitId o, sy_styleId o)).
  assert (K : Keep p o1 (foldM (Symbol_step Symbol_from) o1 items)).
  { apply Keep_fold. intros o2 x _. unfold p. pkeep. }
  specialize (K _ E2). unfold p in K. now injection K as -> -> -> ->.
Qed.
Lemma Footprint_place now e o : Footprint_from now e = Ok o -> exists id, arg 1 e = Ok id
  /\ nick_named (fmt id) id (fd_libraryNickname o) (fd_entryName o).
Proof.
  unfold Footprint_from. intros E. apply bind_inv in E as (l & E1 & E). apply need_list_in in E1. subst e.
  apply bind_inv in E as (h & _ & E). destruct (_ && _); [discriminate E|]. apply bind_inv in E as (id & E1 & E). exists id. split; [exact E1|].
  set (o1 := Footprint_set_libId id (Footprint_default now)) in E.
  assert (N : nick_named (fmt id) id (fd_libraryNickname o1) (fd_entryName o1)).
  { unfold o1, Footprint_set_libId. destruct (re_match re_nick (fmt id)) as [m|] eqn:M.
    - left. destruct (nick_sound _ _ M) as [t F]. now exists (group 1 m), (group 2 m), t.
    - right. split; [now apply nick_none|]. now split. }
  pose (p := fun o => (fd_libraryNickname o, fd_entryName o)).
  assert (K : Keep p o1 (foldM Footprint_step o1 (skipn 2 l))).
  { apply Keep_fold. intros o2 x _. unfold p. pkeep. }
  specialize (K _ E). unfold p in K. now injection K as -> ->.
Qed.
Lemma SchematicSymbol_lib before args after o : 1 <= length before -> lacks ["lib_id"%string] after = true ->
  SchematicSymbol_from (VList (before ++ VList (VStr $"lib_id" :: args) :: after)) = Ok o ->
  exists s rest, args = VStr s :: rest /\ nick_named s (VStr s) (ss_libraryNickname o) (ss_entryName o).
Proof.
  intros Hn L E. unfold SchematicSymbol_from in E. apply bind_inv in E as (l & E1 & E). apply need_head_in in E1. injection E1 as <-.
  destruct before as [|b before]; [cbn in Hn; lia|]. cbn [app skipn] in E. rewrite foldM_app in E. apply bind_inv in E as (o1 & _ & E).
  apply bind_inv in E as (o2 & E1 & E2).
  pose (p := fun o => (ss_libraryNickname o, ss_entryName o)).
  assert (K : Keep p o2 (foldM SchematicSymbol_step o2 after)).
  { apply Keep_fold. intros o3 x I. pose proof (lacks_in _ _ _ L I) as F. unfold p. pkeep. }
  specialize (K _ E2). unfold p in K. injection K as -> ->.
  unfold SchematicSymbol_step in E1. destruct args as [|id args]; [discriminate E1|]. cbn in E1.
  destruct id as [| | | |s|]; try discriminate E1. exists s, args. split; [reflexivity|]. unfold SchematicSymbol_set_libId in E1. cbn [as_text bind] in E1.
  destruct (re_match re_nick s) as [m|] eqn:M; cbn in E1; injection E1 as <-.
  - left. destruct (nick_sound _ _ M) as [t F]. now exists (group 1 m), (group 2 m), t.
  - right. split; [now apply nick_none|]. now split.
Qed.
(** ** The pin names of a symbol *)
Lemma last_split {A} (f : A -> bool) l : existsb f l = true -> exists a x b, l = a ++ x :: b /\ f x = true /\ forallb (fun y => negb (f y)) b = true.
Proof.
  induction l as [|x l IH]; [discriminate|]. cbn. intros H. destruct (existsb f l) eqn:E.
  - destruct (IH eq_refl) as (a & y & b & -> & Fy & Fb). now exists (x :: a), y, b.
  - exists [], x, l. split; [reflexivity|]. split; [now rewrite orb_false_r in H|]. apply forallb_forall. intros y Hy. destruct (f y) eqn:Fy; [|reflexivity].
    assert (existsb f l = true) by (apply existsb_exists; now exists y). congruence.
Qed.
Lemma find_rev {A} (f : A -> bool) a x b : f x = true -> forallb (fun y => negb (f y)) b = true -> find f (rev (a ++ x :: b)) = Some x.
Proof.
  intros Fx Fb. rewrite rev_app_distr. cbn [rev]. rewrite <- app_assoc. cbn [app].
  assert (N : forallb (fun y => negb (f y)) (rev b) = true).
  { apply forallb_forall. intros y Hy. rewrite forallb_forall in Fb. apply Fb. now apply in_rev. }
  induction (rev b) as [|y l IH]; cbn [app find]; [now rewrite Fx|]. cbn in N. apply andb_prop in N as [N1 N2]. apply negb_true_iff in N1. rewrite N1. now apply IH.
Qed.
Lemma Symbol_pick2 : picks_item Symbol_from 2 (headed "pin_names"%string (existsb (headed "offset"%string (fun _ => true)))) offset_of sy_pinNamesOffset.
Proof.
  apply picks_item_by. intros before x after Hn F L. destruct before as [|h [|id before]]; [cbn in Hn; lia|cbn in Hn; lia|].
  cbn [app]; rewrite Symbol_from_eq; apply Hit_if; [|intros _; apply Hit_err]; intros _. apply Hit_pre; intros o _.
  assert (K : forall o y, headed "offset"%string (fun _ => true) y = false -> Keep sy_pinNamesOffset o (Symbol_pin_names_step o y)).
  { intros o1 y Fy. unfold Symbol_pin_names_step. item_keep. match goal with E : is_str _ _ = true |- _ => cbn in Fy; rewrite E in Fy; discriminate Fy end. }
  apply (Hit_items0 sy_pinNamesOffset _ _ _ _ _ _ L).
  - intros o1 y Fy. unfold Symbol_step. repeat first [keep1 | progress unfold Symbol_item]; try reflexivity.
    match goal with
    | I : at_ ?y 0 = Ok ?h, E : is_str ?h ?k = true |- _ => destruct (head_list k y h eq_refl I E) as [l Ey]; subst y
    end.
    match goal with H : from_ _ _ = Ok _ |- _ => cbn in H; injection H as <- end. cbn [headed] in Fy.
    match goal with E : is_str _ "pin_names" = true |- _ => rewrite E in Fy end. cbn [andb] in Fy. apply K.
    match goal with I : In ?y l |- _ => destruct (headed "offset"%string (fun _ => true) y) eqn:Q; [|reflexivity];
      assert (existsb (headed "offset"%string (fun _ => true)) l = true) by (apply existsb_exists; now exists y); congruence end.
  - intros o1. item_hit. unfold Symbol_step. item_skip. apply Hit_pre. intros o2 _. cbn [from_ skipn bind].
    apply last_split in C as (a & y & b & -> & Fy & Fb). unfold offset_of, last_headed. rewrite (find_rev _ _ _ _ Fy Fb).
    apply (Hit_items0 sy_pinNamesOffset _ _ _ _ _ _ Fb K). intros o3.
    apply headed_in in Fy as (h' & l & -> & E & _). apply is_str_eq in E; subst h'. unfold Symbol_pin_names_step. cbn [is_list].
    cbn [at_ nth_error bind]. change (is_str (VStr $"offset") "offset") with true. cbn [on].
    refine (Hit_setf _ _ _ _ _ _); [intros ?; reflexivity|]. reflexivity.
Qed.
