From Coq Require Import String.
From Verif Require Import PyBase PyNum PyStr Sexpr S_Leaf S_Tree M_Common M_Lib M_Sym M_Fp M_Gr M_Zone M_Footprint M_Dim M_Brd M_Board M_Sch M_Schematic M_Wks S_Common S_Lib S_Sym S_Fp S_Gr S_Zone S_Footprint S_Dim S_Brd S_Board S_Sch S_Schematic S_Wks S_Fix L_Lex L_Tok L_Num L_Seq L_Tac L_Fix S_Tidy L_Tidy L_TidyB.
Ltac fixfin v :=
  first [ apply numb_finite; leaf_fact v numb
        | match goal with H : fixb ?p v = true |- _ => exact (numb_finite v (fixb_numb p v H)) end
        | match goal with H : optb (fixb ?p) v = true, N : is_none v = false |- _ => exact (numb_finite v (optb_spec numb v (optb_fixb_numb p v H) N)) end ].
Ltac nonil l := first [match goal with H : negb (Nat.eqb (length l) 0) = true |- _ => apply negb_true in H; exact (length_ne l H) end
  | match goal with H : Nat.eqb (length l) 0 = false |- _ => exact (length_ne l H) end
  | match goal with H : Nat.ltb 0 (length l) = true |- _ => exact (length_lt l H) end].
Ltac td_more ::=
  lazymatch goal with
  | |- Tid _ _ (wks_pos _) _ => unfold wks_pos; td_go
  | |- Tid _ _ (ps_line _ _ _) _ => unfold ps_line; td_go
  | |- Tid _ _ (lower _) _ => unfold lower; td_go
  | |- Tid _ _ (word_list _) _ => unfold word_list; td_go
  | |- Tid _ _ (quoted_list _) _ => unfold quoted_list; td_go
  | |- Tid _ _ (dequote ?v) _ => eapply Tid_dequote; [leaf_fact v plainv|reflexivity]
  | |- Tid 0 (_, ABol) (lit _) _ => eapply Tid_bol0; td_lit
  | |- Tid _ _ (quoted_join ?l) _ => eapply Tid_quoted_join; [nonil l|assumption]
  end.
Ltac tw_more2 := fail.
Ltac tw_more ::=
  lazymatch goal with
  | |- WT _ _ (ColorRGBA_alpha _) _ => eapply WT_alpha; eassumption
  | |- WT _ _ (fmt_fixed _ ?v) _ => eapply WT_fixed; [reflexivity|fixfin v|reflexivity]
  | |- WT _ _ (width_str _ _) _ => unfold width_str; tw_go
  | |- WT _ _ (sch_pts _) _ => unfold sch_pts; tw_go
  | |- WT _ _ (section _ _) _ => unfold section; tw_go
  | |- WT _ _ (py_join _ ?l) _ => eapply WT_join; [nonil l|assumption]
  | |- WT _ _ (Zone_layer_token _) _ => eapply WT_zone_layers; assumption
  | |- WT _ _ (Pad_layers_text _) _ => eapply WT_pad_layers; assumption
  | |- WT _ _ (bind (Justify_to _ _ _) _) _ => eapply WT_justify; first [eassumption | solve [eauto 2 with okf] | solve [eauto 3 with okk]]
  | |- WT _ _ (bind (WksFont_to _ _ _) _) _ => tw_more2
  | |- WT _ _ (Symbol_to _ _ _) _ => tw_more2
  | |- WT _ _ (Rule_to _ _ _) _ => tw_more2
  | |- WT _ _ (Footprint_to_layer _ _ _ _) _ => tw_more2
  | |- WT _ _ (BdItem_write _ _ _) _ => tw_more2
  | |- WT _ _ (Attributes_to _ _ true) _ => eapply WT_attributes; [first [eassumption | solve [eauto 2 with okf] | solve [eauto 3 with okk]]|clear; lia]
  end.
Lemma TyL_use {A} (to : A -> nat -> bool -> res str) ok x i n : TyL to ok -> ok x = true -> WT i (0, ABol) (to x i n) (0, fin n).
Proof. intros H K. exact (H x i n K). Qed.
Tactic Notation "tys" tactic3(U) reference(X_to) :=
  let o := fresh "o" in let i := fresh "i" in let n := fresh "n" in let H := fresh "Hok" in
  intros o i n H; U; unfold X_to; destruct o; facts;
  first [contra | eapply TyL_use; [solve [eauto 1 with tyL] | first [eassumption | solve [eauto 2 with okf] | solve [eauto 3 with okk]]]].
Lemma Coordinate_ti : TyI Coordinate_to Coordinate_ok.
Proof. tyi (unfold Coordinate_ok in *) Coordinate_to. Qed.
#[export] Hint Resolve Coordinate_ti : tyI.
Lemma Coordinate_tl : TyL Coordinate_to Coordinate_ok.
Proof. exact (TyI_L _ _ Coordinate_ti). Qed.
#[export] Hint Resolve Coordinate_tl : tyL.
Lemma ColorRGBA_ti : TyI ColorRGBA_to ColorRGBA_ok.
Proof. tyi (unfold ColorRGBA_ok in *) ColorRGBA_to. Qed.
#[export] Hint Resolve ColorRGBA_ti : tyI.
Lemma ColorRGBA_tl : TyL ColorRGBA_to ColorRGBA_ok.
Proof. exact (TyI_L _ _ ColorRGBA_ti). Qed.
#[export] Hint Resolve ColorRGBA_tl : tyL.
Lemma Stroke_ti : TyI Stroke_to Stroke_ok.
Proof. tyi (unfold Stroke_ok in *) Stroke_to. Qed.
#[export] Hint Resolve Stroke_ti : tyI.
Lemma Stroke_tl : TyL Stroke_to Stroke_ok.
Proof. exact (TyI_L _ _ Stroke_ti). Qed.
#[export] Hint Resolve Stroke_tl : tyL.
Lemma Font_ti : TyI Font_to Font_ok.
Proof. tyi (unfold Font_ok in *) Font_to. Qed.
#[export] Hint Resolve Font_ti : tyI.
Lemma Font_tl : TyL Font_to Font_ok.
Proof. exact (TyI_L _ _ Font_ti). Qed.
#[export] Hint Resolve Font_tl : tyL.
Lemma Effects_ti : TyI Effects_to Effects_ok.
Proof. tyi (unfold Effects_ok in *) Effects_to. Qed.
#[export] Hint Resolve Effects_ti : tyI.
Lemma Effects_tl : TyL Effects_to Effects_ok.
Proof. exact (TyI_L _ _ Effects_ti). Qed.
#[export] Hint Resolve Effects_tl : tyL.
Lemma Net_ti : TyI Net_to Net_ok.
Proof. tyi (unfold Net_ok in *) Net_to. Qed.
#[export] Hint Resolve Net_ti : tyI.
Lemma Net_tl : TyL Net_to Net_ok.
Proof. exact (TyI_L _ _ Net_ti). Qed.
#[export] Hint Resolve Net_tl : tyL.
Lemma Group_tl : TyL Group_to Group_ok.
Proof. tyl (unfold Group_ok in *) Group_to. Qed.
#[export] Hint Resolve Group_tl : tyL.
Lemma PageSettings_ti : TyI PageSettings_to PageSettings_ok.
Proof. tyi (unfold PageSettings_ok in *) PageSettings_to. Qed.
#[export] Hint Resolve PageSettings_ti : tyI.
Lemma PageSettings_tl : TyL PageSettings_to PageSettings_ok.
Proof. exact (TyI_L _ _ PageSettings_ti). Qed.
#[export] Hint Resolve PageSettings_tl : tyL.
Lemma TitleBlock_tl : TyL TitleBlock_to TitleBlock_ok.
Proof. tyl (unfold TitleBlock_ok in *) TitleBlock_to. Qed.
#[export] Hint Resolve TitleBlock_tl : tyL.
Lemma Property_tl : TyL Property_to Property_ok.
Proof. tyl (unfold Property_ok in *) Property_to. Qed.
#[export] Hint Resolve Property_tl : tyL.
Lemma Fill_ti : TyI Fill_to Fill_ok.
Proof. tyi (unfold Fill_ok in *) Fill_to. Qed.
#[export] Hint Resolve Fill_ti : tyI.
Lemma Fill_tl : TyL Fill_to Fill_ok.
Proof. exact (TyI_L _ _ Fill_ti). Qed.
#[export] Hint Resolve Fill_tl : tyL.
Lemma Image_tl : TyL Image_to Image_ok.
Proof. tyl (unfold Image_ok in *) Image_to. Qed.
#[export] Hint Resolve Image_tl : tyL.
Lemma Constraint_ti : TyI Constraint_to Constraint_ok.
Proof. tyi (unfold Constraint_ok in *) Constraint_to. Qed.
#[export] Hint Resolve Constraint_ti : tyI.
Lemma Constraint_tl : TyL Constraint_to Constraint_ok.
Proof. exact (TyI_L _ _ Constraint_ti). Qed.
#[export] Hint Resolve Constraint_tl : tyL.
Lemma Rule_t0 o n : Rule_ok o = true -> WT 0 (0, ABol) (Rule_to o 0 n) (0, ABol).
Proof.
  intros H t E. unfold Rule_ok in H. facts. unfold Rule_to in E. change (spaces 0) with (@nil N) in E.
  peel E; rewrite <- E; clear E; td_go.
Qed.
Ltac tw_more2 ::=
  lazymatch goal with
  | |- WT 0 (0, ABol) (Rule_to _ 0 _) _ => eapply Rule_t0; first [eassumption | solve [eauto 2 with okf] | solve [eauto 3 with okk]]
  end.
Lemma DesignRules_t0 o n : DesignRules_ok o = true -> WT 0 (0, ABol) (DesignRules_to o 0 n) (0, ABol).
Proof.
  intros H t E. unfold DesignRules_ok in H. facts. unfold DesignRules_to in E. change (spaces 0) with (@nil N) in E.
  destruct n; cbn [eol] in E; peel E; rewrite <- E; clear E; td_go.
Qed.
Lemma SyArc_tl : TyL SyArc_to SyArc_ok.
Proof. tyl (unfold SyArc_ok in *) SyArc_to. Qed.
#[export] Hint Resolve SyArc_tl : tyL.
Lemma SyCircle_tl : TyL SyCircle_to SyCircle_ok.
Proof. tyl (unfold SyCircle_ok in *) SyCircle_to. Qed.
#[export] Hint Resolve SyCircle_tl : tyL.
Lemma SyPolyLine_tl : TyL SyPolyLine_to SyPolyLine_ok.
Proof. tyl (unfold SyPolyLine_ok in *) SyPolyLine_to. Qed.
#[export] Hint Resolve SyPolyLine_tl : tyL.
Lemma SyRect_tl : TyL SyRect_to SyRect_ok.
Proof. tyl (unfold SyRect_ok in *) SyRect_to. Qed.
#[export] Hint Resolve SyRect_tl : tyL.
Lemma SyText_tl : TyL SyText_to SyText_ok.
Proof. tyl (unfold SyText_ok in *) SyText_to. Qed.
#[export] Hint Resolve SyText_tl : tyL.
Lemma SyTextBox_tl : TyL SyTextBox_to SyTextBox_ok.
Proof. tyl (unfold SyTextBox_ok in *) SyTextBox_to. Qed.
#[export] Hint Resolve SyTextBox_tl : tyL.
Lemma SymbolAlternativePin_ti : TyI SymbolAlternativePin_to SymbolAlternativePin_ok.
Proof. tyi (unfold SymbolAlternativePin_ok in *) SymbolAlternativePin_to. Qed.
#[export] Hint Resolve SymbolAlternativePin_ti : tyI.
Lemma SymbolAlternativePin_tl : TyL SymbolAlternativePin_to SymbolAlternativePin_ok.
Proof. exact (TyI_L _ _ SymbolAlternativePin_ti). Qed.
#[export] Hint Resolve SymbolAlternativePin_tl : tyL.
Lemma SymbolPin_tl : TyL SymbolPin_to SymbolPin_ok.
Proof.
  intros o i n H t E. unfold SymbolPin_ok in H. facts. unfold SymbolPin_to in E.
  destruct (no_object (sp_nameEffects o) && no_object (sp_numberEffects o)) eqn:P, (Nat.ltb 0 (length (sp_alternatePins o))) eqn:A;
    cbn [negb orb] in E; peel E; rewrite <- E; clear E; td_go.
Qed.
#[export] Hint Resolve SymbolPin_tl : tyL.
Lemma SyItem_tl : TyL SyItem_to SyItem_ok.
Proof. tys (unfold SyItem_ok in *) SyItem_to. Qed.
#[export] Hint Resolve SyItem_tl : tyL.
Lemma Symbol_sub i j k n u : (forall i n, Symbol_ok u = true -> WT i (0, ABol) (Symbol_to u i n) (0, fin n)) ->
  Symbol_ok u = true -> k = i + 2 * j -> WT i (j, ABol) (Symbol_to u k n) (j, fin n).
Proof. intros H F K t E. exact (Tid_shift i k j n t K (H k n F t E)). Qed.
Ltac tw_more2 ::=
  match goal with
  | IH : forall u, In u _ -> _ |- WT _ _ (Symbol_to ?x _ _) _ => eapply Symbol_sub; [intros; apply IH; assumption|first [eassumption | solve [eauto 2 with okf] | solve [eauto 3 with okk]]|clear; lia]
  end.
Lemma Symbol_tl : TyL Symbol_to Symbol_ok.
Proof.
  intros o. induction o as [o IH] using Symbol_ind2. intros i n H t E.
  pose proof (sy_id_txt o) as Hid. destruct o as [a b c d e f g h x j k l m y p us].
  cbn [Symbol_ok] in H. cbn [Symbol_to] in E.
  set (o := mkSymbol a b c d e f g h x j k l m y p us) in *. clearbody o. clear a b c d e f g h x j k l m y p us. facts.
  match goal with K : id_ok _ _ _ _ = true |- _ => apply Hid in K end. clear Hid.
  peel E; rewrite <- E; clear E; td_go.
Qed.
#[export] Hint Resolve Symbol_tl : tyL.
Lemma SymbolLib_t0 o n : SymbolLib_ok o = true -> WT 0 (0, ABol) (SymbolLib_to o 0 n) (0, fin n).
Proof.
  intros H t E. unfold SymbolLib_ok in H. facts. unfold SymbolLib_to in E. change (spaces 0) with (@nil N) in E.
  peel E; rewrite <- E; clear E; td_go.
Qed.
Lemma FpText_tl : TyL FpText_to FpText_fine.
Proof. tyl (unfold FpText_fine, FpText_ok, FpText_neat in *) FpText_to. Qed.
#[export] Hint Resolve FpText_tl : tyL.
Lemma FpLine_ti : TyI FpLine_to FpLine_ok.
Proof. tyi (unfold FpLine_ok in *) FpLine_to. Qed.
#[export] Hint Resolve FpLine_ti : tyI.
Lemma FpLine_tl : TyL FpLine_to FpLine_ok.
Proof. exact (TyI_L _ _ FpLine_ti). Qed.
#[export] Hint Resolve FpLine_tl : tyL.
Lemma FpRect_ti : TyI FpRect_to FpRect_ok.
Proof. tyi (unfold FpRect_ok in *) FpRect_to. Qed.
#[export] Hint Resolve FpRect_ti : tyI.
Lemma FpRect_tl : TyL FpRect_to FpRect_ok.
Proof. exact (TyI_L _ _ FpRect_ti). Qed.
#[export] Hint Resolve FpRect_tl : tyL.
Lemma FpCircle_ti : TyI FpCircle_to FpCircle_ok.
Proof. tyi (unfold FpCircle_ok in *) FpCircle_to. Qed.
#[export] Hint Resolve FpCircle_ti : tyI.
Lemma FpCircle_tl : TyL FpCircle_to FpCircle_ok.
Proof. exact (TyI_L _ _ FpCircle_ti). Qed.
#[export] Hint Resolve FpCircle_tl : tyL.
Lemma FpArc_ti : TyI FpArc_to FpArc_ok.
Proof. tyi (unfold FpArc_ok in *) FpArc_to. Qed.
#[export] Hint Resolve FpArc_ti : tyI.
Lemma FpArc_tl : TyL FpArc_to FpArc_ok.
Proof. exact (TyI_L _ _ FpArc_ti). Qed.
#[export] Hint Resolve FpArc_tl : tyL.
Lemma FpPoly_tl : TyL FpPoly_to FpPoly_ok.
Proof. tyl (unfold FpPoly_ok in *) FpPoly_to. Qed.
#[export] Hint Resolve FpPoly_tl : tyL.
Lemma FpTextBox_tl : TyL FpTextBox_to FpTextBox_fine.
Proof.
  intros o i n H t E. unfold FpTextBox_fine, FpTextBox_ok, FpTextBox_neat in H. facts. destruct (fb_pts o) eqn:P; [|discriminate]. unfold FpTextBox_to in E. rewrite P in E. peel E; rewrite <- E; clear E; td_go.
Qed.
#[export] Hint Resolve FpTextBox_tl : tyL.
Lemma GrText_tl : TyL GrText_to GrText_fine.
Proof. tyl (unfold GrText_fine, GrText_ok, GrText_neat in *) GrText_to. Qed.
#[export] Hint Resolve GrText_tl : tyL.
Lemma GrLine_ti : TyI GrLine_to GrLine_ok.
Proof. tyi (unfold GrLine_ok in *) GrLine_to. Qed.
#[export] Hint Resolve GrLine_ti : tyI.
Lemma GrLine_tl : TyL GrLine_to GrLine_ok.
Proof. exact (TyI_L _ _ GrLine_ti). Qed.
#[export] Hint Resolve GrLine_tl : tyL.
Lemma GrRect_ti : TyI GrRect_to GrRect_ok.
Proof. tyi (unfold GrRect_ok in *) GrRect_to. Qed.
#[export] Hint Resolve GrRect_ti : tyI.
Lemma GrRect_tl : TyL GrRect_to GrRect_ok.
Proof. exact (TyI_L _ _ GrRect_ti). Qed.
#[export] Hint Resolve GrRect_tl : tyL.
Lemma GrCircle_ti : TyI GrCircle_to GrCircle_ok.
Proof. tyi (unfold GrCircle_ok in *) GrCircle_to. Qed.
#[export] Hint Resolve GrCircle_ti : tyI.
Lemma GrCircle_tl : TyL GrCircle_to GrCircle_ok.
Proof. exact (TyI_L _ _ GrCircle_ti). Qed.
#[export] Hint Resolve GrCircle_tl : tyL.
Lemma GrArc_ti : TyI GrArc_to GrArc_ok.
Proof. tyi (unfold GrArc_ok in *) GrArc_to. Qed.
#[export] Hint Resolve GrArc_ti : tyI.
Lemma GrArc_tl : TyL GrArc_to GrArc_ok.
Proof. exact (TyI_L _ _ GrArc_ti). Qed.
#[export] Hint Resolve GrArc_tl : tyL.
Lemma GrPoly_pts_tl b : TyL (GrPoly_to_pts b) GrPoly_ok.
Proof. tyl (unfold GrPoly_ok in * ) GrPoly_to_pts. Qed.
Lemma GrPoly_tl : TyL GrPoly_to GrPoly_ok.
Proof. exact (GrPoly_pts_tl false). Qed.
#[export] Hint Resolve GrPoly_tl GrPoly_pts_tl : tyL.
Lemma GrTextBox_tl : TyL GrTextBox_to GrTextBox_fine.
Proof.
  intros o i n H t E. unfold GrTextBox_fine, GrTextBox_ok, GrTextBox_neat in H. facts. destruct (gb_pts o) eqn:P; [|discriminate]. unfold GrTextBox_to in E. rewrite P in E. peel E; rewrite <- E; clear E; td_go.
Qed.
#[export] Hint Resolve GrTextBox_tl : tyL.
Lemma FillSettings_tl : TyL FillSettings_to FillSettings_ok.
Proof. tyl (unfold FillSettings_ok in *) FillSettings_to. Qed.
#[export] Hint Resolve FillSettings_tl : tyL.
Lemma ZonePolygon_tn : TyN ZonePolygon_to ZonePolygon_ok.
Proof. tyn (unfold ZonePolygon_ok in * ) ZonePolygon_to. Qed.
#[export] Hint Resolve ZonePolygon_tn : tyN.
Lemma FilledPolygon_tn : TyN FilledPolygon_to FilledPolygon_ok.
Proof. tyn (unfold FilledPolygon_ok in * ) FilledPolygon_to. Qed.
#[export] Hint Resolve FilledPolygon_tn : tyN.
Lemma FillSegments_tn : TyN FillSegments_to FillSegments_ok.
Proof. tyn (unfold FillSegments_ok in * ) FillSegments_to. Qed.
#[export] Hint Resolve FillSegments_tn : tyN.
Lemma Zone_tl : TyL Zone_to Zone_fine.
Proof. tyl (unfold Zone_fine, Zone_ok, Zone_neat, Hatch_ok in *) Zone_to. Qed.
#[export] Hint Resolve Zone_tl : tyL.
Lemma Model_tl : TyL Model_to Model_ok.
Proof. tyl (unfold Model_ok in *) Model_to. Qed.
#[export] Hint Resolve Model_tl : tyL.
Lemma DrillDefinition_ti : TyI DrillDefinition_to DrillDefinition_ok.
Proof. tyi (unfold DrillDefinition_ok in *) DrillDefinition_to. Qed.
#[export] Hint Resolve DrillDefinition_ti : tyI.
Lemma DrillDefinition_tl : TyL DrillDefinition_to DrillDefinition_ok.
Proof. exact (TyI_L _ _ DrillDefinition_ti). Qed.
#[export] Hint Resolve DrillDefinition_tl : tyL.
Lemma PadOptions_ti : TyI PadOptions_to PadOptions_ok.
Proof. tyi (unfold PadOptions_ok in *) PadOptions_to. Qed.
#[export] Hint Resolve PadOptions_ti : tyI.
Lemma PadOptions_tl : TyL PadOptions_to PadOptions_ok.
Proof. exact (TyI_L _ _ PadOptions_ti). Qed.
#[export] Hint Resolve PadOptions_tl : tyL.
Lemma PadPrimitive_tl : TyL PadPrimitive_to PadPrimitive_fine.
Proof. tys (unfold PadPrimitive_fine, PadPrimitive_ok, PadPrimitive_neat in *) PadPrimitive_to. Qed.
#[export] Hint Resolve PadPrimitive_tl : tyL.
Lemma extra_tid i b t : (b = true -> Tid i (1, ALine 1) t (1, ASome)) -> Tid i (1, ASome) (extra_line b i t) (1, ASome).
Proof.
  intros H. unfold extra_line. destruct b; [|apply Tid_nil]. apply Tid_app with (1, ABol); [now apply Tid_lit|].
  apply Tid_app with (1, ALine 0); [apply Tid_spaces; lia|]. apply Tid_app with (1, ALine 1); [now apply Tid_lit|]. now apply H.
Qed.
Lemma part_opt i (b : bool) s r : (b = false -> Tid i (1, AGapL 2) (lit s ++ r) (1, AItem true)) ->
  part i (if b then [] else lit (String.String (Ascii.ascii_of_nat 32) s) ++ r).
Proof. intros H. exact (part_if i b (lit s ++ r) H). Qed.
Lemma opt_nil (b : bool) c s r : (if b then [] else lit (String.String c s) ++ r) = [] -> b = true.
Proof. destruct b; [reflexivity|discriminate]. Qed.
Lemma TyI_part {A} (to : A -> nat -> bool -> res str) ok i (o : option A) t : TyI to ok -> optok ok o = true ->
  opt_str o (fun x => let! s := to x 0 false in Ok ($" " ++ s)) = Ok t -> part i t.
Proof.
  intros H K E. destruct o as [x|]; cbn [opt_str] in E; [|apply Ok_inj in E; now left]. destruct (to x 0 false) as [s|] eqn:F; [|discriminate E]. cbn [bind] in E.
  apply Ok_inj in E. subst t. apply (part_if i false s). intros _. exact (TyI_gapl to ok H i 1 2 false x K eq_refl s F).
Qed.
Lemma parts2 i a b : Forall (part i) [a; b] -> a ++ b <> [] -> Tid i (1, ALine 1) (a ++ b) (1, ASome).
Proof. intros H N. replace (a ++ b) with (concat [a; b]) in * by (cbn [concat]; now rewrite app_nil_r). now apply parts_line. Qed.
Lemma parts10 i a b c d e f g h k l : Forall (part i) [a; b; c; d; e; f; g; h; k; l] -> a ++ b ++ c ++ d ++ e ++ f ++ g ++ h ++ k ++ l <> [] ->
  Tid i (1, ALine 1) (a ++ b ++ c ++ d ++ e ++ f ++ g ++ h ++ k ++ l) (1, ASome).
Proof.
  intros H N. replace (a ++ b ++ c ++ d ++ e ++ f ++ g ++ h ++ k ++ l) with (concat [a; b; c; d; e; f; g; h; k; l]) in * by (cbn [concat]; now rewrite app_nil_r).
  now apply parts_line.
Qed.
Ltac part_go :=
  match goal with
  | |- part _ (if ?b then [] else _) => let B := fresh "B" in eapply part_opt; intros B; facts; td_go
  end.
Lemma Pad_tl : TyL Pad_to Pad_fine.
Proof.
  intros o i n H t E. unfold Pad_fine, Pad_ok, Pad_neat in H. facts. unfold Pad_to in E. peel E. rewrite <- E. clear E.
  Ltac app_to k := lazymatch goal with |- Tid _ _ (extra_line _ _ _ ++ _) _ => k | _ => eapply Tid_app; [td_go|norm_st; app_to k] end.
  app_to idtac.
  eapply (Tid_from i 1 (AItem true) ASome); [reflexivity|].
  eapply Tid_app.
  { apply extra_tid. intros B. apply parts2.
    - repeat apply Forall_cons; try apply Forall_nil; part_go.
    - intros N. apply app_eq_nil in N as [N1 N2]. apply opt_nil in N1. apply opt_nil in N2. rewrite N1, N2 in B. discriminate B. }
  norm_st. app_to idtac. 
  eapply Tid_app.
  { apply extra_tid. intros B. apply parts10.
    - repeat apply Forall_cons; try apply Forall_nil; try part_go. eapply TyI_part; [apply Net_ti|eassumption|eassumption].
    - intros N. repeat (apply app_eq_nil in N as [?N N]).
      rewrite N0, N1, N2 in B. repeat match goal with K : (if _ then [] else _) = [] |- _ => apply opt_nil in K; rewrite ?K in B; clear K end. discriminate B. }
  norm_st. td_go.
Qed.
#[export] Hint Resolve Pad_tl : tyL.
Lemma FpItem_tl : TyL FpItem_to FpItem_fine.
Proof. tys (unfold FpItem_fine, FpItem_ok, FpItem_neat in *) FpItem_to. Qed.
#[export] Hint Resolve FpItem_tl : tyL.
Lemma Footprint_layer_tl b : TyL (Footprint_to_layer b) Footprint_fine.
Proof.
  intros o i n H t E. unfold Footprint_fine, Footprint_ok, Footprint_neat, text_dict_ok in H. facts. match goal with K : fp_id_ok _ _ = true |- _ => apply fp_id_txt in K end.
  unfold Footprint_to_layer in E. peel E; rewrite <- E; clear E; td_go.
Qed.
Lemma Footprint_tl : TyL Footprint_to Footprint_fine.
Proof. exact (Footprint_layer_tl false). Qed.
#[export] Hint Resolve Footprint_tl Footprint_layer_tl : tyL.
Lemma DimensionFormat_ti : TyI DimensionFormat_to DimensionFormat_ok.
Proof. tyi (unfold DimensionFormat_ok in *) DimensionFormat_to. Qed.
#[export] Hint Resolve DimensionFormat_ti : tyI.
Lemma DimensionFormat_tl : TyL DimensionFormat_to DimensionFormat_ok.
Proof. exact (TyI_L _ _ DimensionFormat_ti). Qed.
#[export] Hint Resolve DimensionFormat_tl : tyL.
Lemma DimensionStyle_ti : TyI DimensionStyle_to DimensionStyle_ok.
Proof. tyi (unfold DimensionStyle_ok in *) DimensionStyle_to. Qed.
#[export] Hint Resolve DimensionStyle_ti : tyI.
Lemma DimensionStyle_tl : TyL DimensionStyle_to DimensionStyle_ok.
Proof. exact (TyI_L _ _ DimensionStyle_ti). Qed.
#[export] Hint Resolve DimensionStyle_tl : tyL.
Lemma Dimension_tl : TyL Dimension_to Dimension_fine.
Proof. tyl (unfold Dimension_fine, Dimension_ok, Dimension_neat in *) Dimension_to. Qed.
#[export] Hint Resolve Dimension_tl : tyL.
Lemma GeneralSettings_tl : TyL GeneralSettings_to GeneralSettings_ok.
Proof. tyl (unfold GeneralSettings_ok in *) GeneralSettings_to. Qed.
#[export] Hint Resolve GeneralSettings_tl : tyL.
Lemma LayerToken_ti : TyI LayerToken_to LayerToken_ok.
Proof. tyi (unfold LayerToken_ok in *) LayerToken_to. Qed.
#[export] Hint Resolve LayerToken_ti : tyI.
Lemma LayerToken_tl : TyL LayerToken_to LayerToken_ok.
Proof. exact (TyI_L _ _ LayerToken_ti). Qed.
#[export] Hint Resolve LayerToken_tl : tyL.
Lemma StackupSubLayer_tl : TyL StackupSubLayer_to StackupSubLayer_ok.
Proof. tyl (unfold StackupSubLayer_ok in *) StackupSubLayer_to. Qed.
#[export] Hint Resolve StackupSubLayer_tl : tyL.
Lemma StackupLayer_tl : TyL StackupLayer_to StackupLayer_ok.
Proof. tyl (unfold StackupLayer_ok in *) StackupLayer_to. Qed.
#[export] Hint Resolve StackupLayer_tl : tyL.
Lemma Stackup_tl : TyL Stackup_to Stackup_ok.
Proof. tyl (unfold Stackup_ok in *) Stackup_to. Qed.
#[export] Hint Resolve Stackup_tl : tyL.
Lemma PlotSettings_tl : TyL PlotSettings_to PlotSettings_ok.
Proof. tyl (unfold PlotSettings_ok in *) PlotSettings_to. Qed.
#[export] Hint Resolve PlotSettings_tl : tyL.
Lemma SetupData_tl : TyL SetupData_to SetupData_ok.
Proof. tyl (unfold SetupData_ok in *) SetupData_to. Qed.
#[export] Hint Resolve SetupData_tl : tyL.
Lemma Segment_ti : TyI Segment_to Segment_ok.
Proof. tyi (unfold Segment_ok in *) Segment_to. Qed.
#[export] Hint Resolve Segment_ti : tyI.
Lemma Segment_tl : TyL Segment_to Segment_ok.
Proof. exact (TyI_L _ _ Segment_ti). Qed.
#[export] Hint Resolve Segment_tl : tyL.
Lemma Via_ti : TyI Via_to Via_ok.
Proof. tyi (unfold Via_ok in *) Via_to. Qed.
#[export] Hint Resolve Via_ti : tyI.
Lemma Via_tl : TyL Via_to Via_ok.
Proof. exact (TyI_L _ _ Via_ti). Qed.
#[export] Hint Resolve Via_tl : tyL.
Lemma Arc_ti : TyI Arc_to Arc_ok.
Proof. tyi (unfold Arc_ok in *) Arc_to. Qed.
#[export] Hint Resolve Arc_ti : tyI.
Lemma Arc_tl : TyL Arc_to Arc_ok.
Proof. exact (TyI_L _ _ Arc_ti). Qed.
#[export] Hint Resolve Arc_tl : tyL.
Lemma Target_ti : TyI Target_to Target_ok.
Proof. tyi (unfold Target_ok in *) Target_to. Qed.
#[export] Hint Resolve Target_ti : tyI.
Lemma Target_tl : TyL Target_to Target_ok.
Proof. exact (TyI_L _ _ Target_ti). Qed.
#[export] Hint Resolve Target_tl : tyL.
Lemma BdItem_tl : TyL BdItem_to BdItem_fine.
Proof. tys (unfold BdItem_fine, BdItem_ok, BdItem_neat in *) BdItem_to. Qed.
#[export] Hint Resolve BdItem_tl : tyL.
Lemma TrItem_tl : TyL TrItem_to TrItem_ok.
Proof. tys (unfold TrItem_ok in *) TrItem_to. Qed.
#[export] Hint Resolve TrItem_tl : tyL.
Lemma BdItem_write_tl : TyL BdItem_write BdItem_fine.
Proof.
  intros o i n H. destruct o; try exact (BdItem_tl _ i n H). exact (GrPoly_pts_tl true x i n (proj1 (andb_prop _ _ H))).
Qed.
#[export] Hint Resolve BdItem_write_tl : tyL.
Lemma Board_t0 o n : Board_fine o = true -> WT 0 (0, ABol) (Board_to o 0 n) (0, fin n).
Proof.
  intros H t E. unfold Board_fine, Board_ok, Board_neat, text_dict_ok in H. facts. unfold Board_to in E. change (spaces 0) with (@nil N) in E.
  peel E; rewrite <- E; clear E; td_go.
Qed.
Lemma zerov_numb v : zerov v = true -> numb v = true.
Proof. destruct v as [| |[| |]| | |]; try discriminate. reflexivity. Qed.
Lemma Junction_tl : TyL Junction_to Junction_fine.
Proof.
  intros o i n H t E. unfold Junction_fine, Junction_ok, Junction_neat in H. facts. match goal with K : zerov _ = true |- _ => apply zerov_numb in K end.
  unfold Junction_to in E. destruct (jn_color o) as [c|]; [|discriminate E]. match goal with K : JColor_ok _ = true |- _ => cbn [JColor_ok] in K end.
  peel E; rewrite <- E; clear E; td_go.
Qed.
#[export] Hint Resolve Junction_tl : tyL.
Lemma NoConnect_ti : TyI NoConnect_to NoConnect_ok.
Proof. tyi (unfold NoConnect_ok in *) NoConnect_to. Qed.
#[export] Hint Resolve NoConnect_ti : tyI.
Lemma NoConnect_tl : TyL NoConnect_to NoConnect_ok.
Proof. exact (TyI_L _ _ NoConnect_ti). Qed.
#[export] Hint Resolve NoConnect_tl : tyL.
Lemma BusEntry_tl : TyL BusEntry_to BusEntry_ok.
Proof. tyl (unfold BusEntry_ok in *) BusEntry_to. Qed.
#[export] Hint Resolve BusEntry_tl : tyL.
Lemma BusAlias_ti : TyI BusAlias_to BusAlias_fine.
Proof. tyi (unfold BusAlias_fine, BusAlias_ok, BusAlias_neat in *) BusAlias_to. Qed.
#[export] Hint Resolve BusAlias_ti : tyI.
Lemma BusAlias_tl : TyL BusAlias_to BusAlias_fine.
Proof. exact (TyI_L _ _ BusAlias_ti). Qed.
#[export] Hint Resolve BusAlias_tl : tyL.
Lemma Connection_tl : TyL Connection_to Connection_ok.
Proof. tyl (unfold Connection_ok in *) Connection_to. Qed.
#[export] Hint Resolve Connection_tl : tyL.
Lemma PolyLine_tl : TyL PolyLine_to PolyLine_ok.
Proof. tyl (unfold PolyLine_ok in *) PolyLine_to. Qed.
#[export] Hint Resolve PolyLine_tl : tyL.
Lemma Text_tl : TyL Text_to Text_ok.
Proof. tyl (unfold Text_ok in *) Text_to. Qed.
#[export] Hint Resolve Text_tl : tyL.
Lemma TextBox_tl : TyL TextBox_to TextBox_ok.
Proof. tyl (unfold TextBox_ok in *) TextBox_to. Qed.
#[export] Hint Resolve TextBox_tl : tyL.
Lemma LocalLabel_tl : TyL LocalLabel_to LocalLabel_ok.
Proof. tyl (unfold LocalLabel_ok in *) LocalLabel_to. Qed.
#[export] Hint Resolve LocalLabel_tl : tyL.
Lemma GlobalLabel_tl : TyL GlobalLabel_to GlobalLabel_ok.
Proof. tyl (unfold GlobalLabel_ok in *) GlobalLabel_to. Qed.
#[export] Hint Resolve GlobalLabel_tl : tyL.
Lemma HierarchicalLabel_tl : TyL HierarchicalLabel_to HierarchicalLabel_ok.
Proof. tyl (unfold HierarchicalLabel_ok in *) HierarchicalLabel_to. Qed.
#[export] Hint Resolve HierarchicalLabel_tl : tyL.
Lemma SymbolProjectPath_tl : TyL SymbolProjectPath_to SymbolProjectPath_ok.
Proof. tyl (unfold SymbolProjectPath_ok in *) SymbolProjectPath_to. Qed.
#[export] Hint Resolve SymbolProjectPath_tl : tyL.
Lemma SymbolProjectInstance_tl : TyL SymbolProjectInstance_to SymbolProjectInstance_ok.
Proof. tyl (unfold SymbolProjectInstance_ok in *) SymbolProjectInstance_to. Qed.
#[export] Hint Resolve SymbolProjectInstance_tl : tyL.
Lemma uuid0_word v : uuid0_ok v = true -> truthy v = true -> wordv v = true.
Proof. destruct v as [| | | |[|c s]|]; try discriminate; auto. Qed.
Lemma SchematicSymbol_tl : TyL SchematicSymbol_to SchematicSymbol_ok.
Proof.
  intros o i n H t E. unfold SchematicSymbol_ok, pin_dict_ok in H. facts. match goal with K : fp_id_ok _ _ = true |- _ => apply ss_id_txt in K end.
  unfold SchematicSymbol_to in E. match goal with K : uuid0_ok _ = true |- _ => pose proof (uuid0_word _ K) end.
  destruct (truthy (ss_uuid o)); [match goal with K : true = true -> _ |- _ => specialize (K eq_refl) end|]; peel E; rewrite <- E; clear E; td_go.
Qed.
#[export] Hint Resolve SchematicSymbol_tl : tyL.
Lemma HierarchicalPin_tl : TyL HierarchicalPin_to HierarchicalPin_ok.
Proof. tyl (unfold HierarchicalPin_ok in *) HierarchicalPin_to. Qed.
#[export] Hint Resolve HierarchicalPin_tl : tyL.
Lemma HierarchicalSheetProjectPath_ti : TyI HierarchicalSheetProjectPath_to HierarchicalSheetProjectPath_ok.
Proof. tyi (unfold HierarchicalSheetProjectPath_ok in *) HierarchicalSheetProjectPath_to. Qed.
#[export] Hint Resolve HierarchicalSheetProjectPath_ti : tyI.
Lemma HierarchicalSheetProjectPath_tl : TyL HierarchicalSheetProjectPath_to HierarchicalSheetProjectPath_ok.
Proof. exact (TyI_L _ _ HierarchicalSheetProjectPath_ti). Qed.
#[export] Hint Resolve HierarchicalSheetProjectPath_tl : tyL.
Lemma HierarchicalSheetProjectInstance_tl : TyL HierarchicalSheetProjectInstance_to HierarchicalSheetProjectInstance_ok.
Proof. tyl (unfold HierarchicalSheetProjectInstance_ok in *) HierarchicalSheetProjectInstance_to. Qed.
#[export] Hint Resolve HierarchicalSheetProjectInstance_tl : tyL.
Lemma fill4_ti : TyI ColorRGBA_to fill4_ok.
Proof.
  intros o k n t H E. unfold fill4_ok in H. facts. unfold ColorRGBA_to, ColorRGBA_alpha in E. destruct (ca_precision o) as [| |p| | |]; try discriminate.
  match goal with K : Z.eqb p 4 = true |- _ => apply Z.eqb_eq in K; subst p end. change (4 <? 0)%Z with false in E. cbv iota in E.
  peel E. eapply TyI_intro; [symmetry; exact E|]. clear E. intros i j. td_go.
Qed.
#[local] Hint Resolve fill4_ti : tyI.
Lemma HierarchicalSheet_tl : TyL HierarchicalSheet_to HierarchicalSheet_ok.
Proof.
  intros o i n H t E. unfold HierarchicalSheet_ok in H. facts. unfold HierarchicalSheet_to in E. 
  peel E; rewrite <- E; clear E; td_go.
Qed.
#[export] Hint Resolve HierarchicalSheet_tl : tyL.
Lemma HierarchicalSheetInstance_ti : TyI HierarchicalSheetInstance_to HierarchicalSheetInstance_ok.
Proof. tyi (unfold HierarchicalSheetInstance_ok in *) HierarchicalSheetInstance_to. Qed.
#[export] Hint Resolve HierarchicalSheetInstance_ti : tyI.
Lemma HierarchicalSheetInstance_tl : TyL HierarchicalSheetInstance_to HierarchicalSheetInstance_ok.
Proof. exact (TyI_L _ _ HierarchicalSheetInstance_ti). Qed.
#[export] Hint Resolve HierarchicalSheetInstance_tl : tyL.
Lemma SymbolInstance_tl : TyL SymbolInstance_to SymbolInstance_ok.
Proof. tyl (unfold SymbolInstance_ok in *) SymbolInstance_to. Qed.
#[export] Hint Resolve SymbolInstance_tl : tyL.
Lemma Rectangle_tl : TyL Rectangle_to Rectangle_ok.
Proof. tyl (unfold Rectangle_ok in *) Rectangle_to. Qed.
#[export] Hint Resolve Rectangle_tl : tyL.
Lemma SchArc_tl : TyL SchArc_to SchArc_ok.
Proof. tyl (unfold SchArc_ok in *) SchArc_to. Qed.
#[export] Hint Resolve SchArc_tl : tyL.
Lemma Circle_tl : TyL Circle_to Circle_ok.
Proof. tyl (unfold Circle_ok in *) Circle_to. Qed.
#[export] Hint Resolve Circle_tl : tyL.
Lemma NetclassFlag_tl : TyL NetclassFlag_to NetclassFlag_ok.
Proof.
  intros o i n H t E. unfold NetclassFlag_ok in H. facts. unfold NetclassFlag_to in E. destruct (nf_position o); [|discriminate]. destruct (nf_effects o); [|discriminate].
  cbn [some_ok] in *. facts. peel E; rewrite <- E; clear E; td_go.
Qed.
#[export] Hint Resolve NetclassFlag_tl : tyL.
Lemma ScLine_tl : TyL ScLine_to ScLine_ok.
Proof. tys (unfold ScLine_ok in *) ScLine_to. Qed.
#[export] Hint Resolve ScLine_tl : tyL.
Lemma ScShape_tl : TyL ScShape_to ScShape_ok.
Proof. tys (unfold ScShape_ok in *) ScShape_to. Qed.
#[export] Hint Resolve ScShape_tl : tyL.
Ltac tw_loop ::=
  lazymatch goal with
  | |- WT _ (_, AItem false) (concatM _ ?l) _ => eapply (WT_each1 _ _ l _ (AItem false) ABol); [nonil l|intros x Hx; ef; facts; tw_go|intros x Hx; ef; facts; tw_go]
  end.
Lemma Schematic_t0 o n : Schematic_fine o = true -> WT 0 (0, ABol) (Schematic_to o 0 n) (0, fin n).
Proof.
  intros H t E. unfold Schematic_fine, Schematic_ok, Schematic_neat in H. facts. unfold Schematic_to in E. change (spaces 0) with (@nil N) in E.
  peel E; rewrite <- E; clear E; td_go.
Qed.
Lemma WksFontSize_ti : TyI WksFontSize_to WksFontSize_ok.
Proof. tyi (unfold WksFontSize_ok in *) WksFontSize_to. Qed.
#[export] Hint Resolve WksFontSize_ti : tyI.
Lemma WksFontSize_tl : TyL WksFontSize_to WksFontSize_ok.
Proof. exact (TyI_L _ _ WksFontSize_ti). Qed.
#[export] Hint Resolve WksFontSize_tl : tyL.
Lemma WksFont_size_nil z t : WksFontSize_ok z = true -> WksFontSize_to z 0 false = Ok t -> $" " ++ t <> [].
Proof. discriminate. Qed.
Lemma WksFont_text o k n t : WksFont_to o k n = Ok t ->
  t = [] /\ WksFont_neat o = false \/ WksFont_neat o = true /\ exists size, opt_str (wf_size o) (fun z => let! s := WksFontSize_to z 0 false in Ok ($" " ++ s)) = Ok size
    /\ t = spaces k ++ $"(font" ++ (if is_none (wf_linewidth o) then [] else $" (linewidth " ++ fmt (wf_linewidth o) ++ $")") ++ size
      ++ (if wf_bold o then $" bold" else []) ++ (if wf_italic o then $" italic" else []) ++ $")" ++ eol n.
Proof.
  unfold WksFont_to. intros E. destruct (opt_str _ _) as [size|] eqn:S; [|discriminate E]. cbn [bind] in E.
  assert (L : Nat.eqb (length size) 0 = no_object (wf_size o)).
  { destruct (wf_size o) as [z|]; cbn [opt_str] in S; [|now apply Ok_inj in S; subst size]. destruct (WksFontSize_to z 0 false); [|discriminate S].
    cbn [bind] in S. apply Ok_inj in S. now subst size. }
  cbv zeta in E. rewrite L in E. unfold WksFont_neat.
  match type of E with (if ?b then _ else _) = _ =>
    replace b with (is_none (wf_linewidth o) && no_object (wf_size o) && negb (wf_bold o) && negb (wf_italic o)) in E
      by (destruct (is_none (wf_linewidth o)), (wf_bold o), (wf_italic o); reflexivity) end.
  match type of E with (if ?b then _ else _) = _ => destruct b eqn:W end; apply Ok_inj in E; subst t; [left; split; reflexivity|]. right. split; [reflexivity|]. now exists size.
Qed.
Lemma WksFont_ti : TyI WksFont_to WksFont_fine.
Proof.
  intros o k n t H E. unfold WksFont_fine, WksFont_ok in H. facts.
  destruct (WksFont_text o k n t E) as [[_ C]|(_ & size & S & F)]; [contra|]. clear E.
  eapply TyI_intro; [exact F|]. clear F. intros i j. td_go.
Qed.
#[export] Hint Resolve WksFont_ti : tyI.
Lemma WksFont_tl : TyL WksFont_to WksFont_fine.
Proof. exact (TyI_L _ _ WksFont_ti). Qed.
#[export] Hint Resolve WksFont_tl : tyL.
Lemma WT_wksfont i j x : WksFont_ok x = true ->
  WT i (j, AItem true) (let! s := WksFont_to x 0 false in match s with [] => Ok [] | _ => Ok ($" " ++ s) end) (j, AItem true).
Proof.
  intros O t E. destruct (WksFont_to x 0 false) as [s|] eqn:F; [|discriminate E]. cbn [bind] in E. destruct (WksFont_text x 0 false s F) as [[-> _]|(N & _)].
  - apply Ok_inj in E. subst t. apply Tid_nil.
  - pose proof (TyI_gap _ _ WksFont_ti i j false x (WksFont_fine_i x O N)) as H.
    destruct s as [|c s]; apply Ok_inj in E; subst t; [apply Tid_nil|]. apply Tid_app with (j, AGap); [now apply Tid_lit|]. exact (H _ F).
Qed.
Ltac tw_more2 ::= eapply WT_wksfont; first [eassumption | solve [eauto 2 with okf] | solve [eauto 3 with okk]].
Lemma WksPosition_ti : TyI WksPosition_to WksPosition_ok.
Proof. tyi (unfold WksPosition_ok in *) WksPosition_to. Qed.
#[export] Hint Resolve WksPosition_ti : tyI.
Lemma WksPosition_tl : TyL WksPosition_to WksPosition_ok.
Proof. exact (TyI_L _ _ WksPosition_ti). Qed.
#[export] Hint Resolve WksPosition_tl : tyL.
Lemma Line_ti : TyI Line_to Line_fine.
Proof. tyi (unfold Line_fine, Line_ok, Line_neat, WksPosition_ok in *) Line_to. Qed.
#[export] Hint Resolve Line_ti : tyI.
Lemma Line_tl : TyL Line_to Line_fine.
Proof. exact (TyI_L _ _ Line_ti). Qed.
#[export] Hint Resolve Line_tl : tyL.
Lemma Rect_ti : TyI Rect_to Rect_fine.
Proof. tyi (unfold Rect_fine, Rect_ok, Rect_neat, WksPosition_ok in *) Rect_to. Qed.
#[export] Hint Resolve Rect_ti : tyI.
Lemma Rect_tl : TyL Rect_to Rect_fine.
Proof. exact (TyI_L _ _ Rect_ti). Qed.
#[export] Hint Resolve Rect_tl : tyL.
Lemma TbText_ti : TyI TbText_to TbText_fine.
Proof. tyi (unfold TbText_fine, TbText_ok, TbText_neat, WksPosition_ok in *) TbText_to. Qed.
#[export] Hint Resolve TbText_ti : tyI.
Lemma TbText_tl : TyL TbText_to TbText_fine.
Proof. exact (TyI_L _ _ TbText_ti). Qed.
#[export] Hint Resolve TbText_tl : tyL.
Lemma TextSize_ti : TyI TextSize_to TextSize_ok.
Proof. tyi (unfold TextSize_ok in *) TextSize_to. Qed.
#[export] Hint Resolve TextSize_ti : tyI.
Lemma TextSize_tl : TyL TextSize_to TextSize_ok.
Proof. exact (TyI_L _ _ TextSize_ti). Qed.
#[export] Hint Resolve TextSize_tl : tyL.
