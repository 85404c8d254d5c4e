(** C57: the general part, and the places of each class *)
From Coq Require Import List Bool.
From Verif Require Import PyBase PyNum PyStr Sexpr RecordSet S_Leaf S_Tree S_Fix S_Equal S_Edit S_Deep L_Tac L_Equal L_EqualA L_Edit L_EditA L_EditB.
From Verif Require Import M_Common M_Lib M_Sym M_Fp M_Gr M_Zone M_Footprint M_Dim M_Brd M_Board M_Sch M_Schematic M_Wks.
From Verif Require Import S_Common S_Lib S_Sym S_Fp S_Gr S_Zone S_Footprint S_Dim S_Brd S_Board S_Sch S_Schematic S_Wks.
From Verif Require Import L_Common L_Lib L_Sym L_Symbol L_Fp L_Gr L_Zone L_Pad L_Footprint L_Dim L_Brd L_Plot L_Board L_Sch L_Sheet L_Schematic L_Wks.

Record good {A} (okA : A -> bool) (sameA : A -> A -> bool) {B} (okB : B -> bool) (sameB : B -> B -> bool) (p : place A B) : Prop := {
  g_ok : forall a b, okA a = true -> view p a = Some b -> okB b = true;
  g_put : forall a b b', okA a = true -> view p a = Some b -> okB b' = true -> okA (over p b' a) = true;
  g_get : forall a b b' a', view p a = Some b -> sameA (over p b' a) a' = true ->
    exists b'', view p a' = Some b'' /\ sameB b' b'' = true /\ sameA a (over p b a') = true;
  g_same : forall a b b1 b2, view p a = Some b -> sameB b1 b2 = true -> sameA (over p b1 a) (over p b2 a) = true;
  g_both : forall a a' b', sameA a a' = true -> view p a' = Some b' ->
    exists b, view p a = Some b /\ sameB b b' = true /\ forall c c', sameB c c' = true -> sameA (over p c a) (over p c' a') = true }.
Lemma trans {A} (f : A -> A -> bool) x y z : equality f -> f x y = true -> f y z = true -> f x z = true.
Proof. intros (_ & _ & T). apply T. Qed.
Section Places.
Context {A B : Type} (okA : A -> bool) (sameA : A -> A -> bool) (okB : B -> bool) (sameB : B -> B -> bool).
Hypothesis EA : equality sameA.
Hypothesis EB : equality sameB.
Lemma good_whole (get : A -> B) put : lawful okA sameA (Edit get put (fun _ x => okB x) sameB) -> good okA sameA okB sameB (whole get put).
Proof.
  intros (P & S & C & G & E5). split; cbn [whole view over].
  - intros a b O E. injection E as <-. exact (G a O).
  - intros a b b' O _ O'. exact (P a b' O O').
  - intros a b b' a' E H. injection E as <-. destruct (S _ _ _ H) as [H1 H2]. eauto.
  - intros a b b1 b2 _ H. exact (C a _ _ H).
  - intros a a' b' H E. injection E as <-. destruct (E5 _ _ H) as (H1 & H2 & _). eauto.
Qed.
Lemma good_opt (get : A -> option B) put : lawful okA sameA (Edit get put (fun _ x => optok okB x) (oeqb sameB)) -> good okA sameA okB sameB (if_there get put).
Proof.
  intros (P & S & C & G & E5). split; cbn [if_there view over].
  - intros a b O E. pose proof (G a O) as H. cbn beta in H. rewrite E in H. exact H.
  - intros a b b' O _ O'. exact (P a (Some b') O O').
  - intros a b b' a' E H. destruct (S _ _ _ H) as [H1 H2]. rewrite E in H2. destruct (get a') as [b''|]; [|discriminate H1]. eauto.
  - intros a b b1 b2 _ H. exact (C a (Some b1) (Some b2) H).
  - intros a a' b' H E. destruct (E5 _ _ H) as (H1 & H2 & _). rewrite E in H1. destruct (get a) as [b|]; [|discriminate H1].
    exists b. repeat split; [exact H1|]. intros c c' H3. exact (H2 (Some c) (Some c') H3).
Qed.
Lemma replace_ok i x l : forallb okB l = true -> okB x = true -> forallb okB (replace i x l) = true.
Proof.
  revert i. induction l as [|y l IH]; intros i H O; [reflexivity|]. cbn [forallb] in H. apply andb_prop in H as [H1 H2].
  destruct i as [|i]; cbn [replace forallb]; [now rewrite O, H2|]. rewrite H1. now apply IH.
Qed.
Lemma nth_ok i l x : forallb okB l = true -> nth_error l i = Some x -> okB x = true.
Proof. intros H E. apply nth_error_In in E. exact (proj1 (forallb_forall _ _) H x E). Qed.
Lemma replace_same i x y l : sameB x y = true -> leqb sameB (replace i x l) (replace i y l) = true.
Proof.
  intros H. revert i. induction l as [|z l IH]; intros i; [reflexivity|]. destruct i as [|i]; cbn [replace leqb].
  - rewrite H. cbn [andb]. apply leqb_refl. apply EB.
  - rewrite IH, andb_true_r. apply EB.
Qed.
Lemma replace_back i x y l m : nth_error l i = Some x -> leqb sameB (replace i y l) m = true ->
  exists z, nth_error m i = Some z /\ sameB y z = true /\ leqb sameB l (replace i x m) = true.
Proof.
  revert i m. induction l as [|w l IH]; intros i m E H; [destruct i; discriminate|]. destruct i as [|i]; cbn [nth_error replace] in *.
  - injection E as <-. destruct m as [|z m]; [discriminate|]. cbn [leqb] in H. apply andb_prop in H as [H1 H2].
    exists z. cbn [nth_error replace leqb]. repeat split; [exact H1|]. rewrite H2, andb_true_r. apply EB.
  - destruct m as [|z m]; [discriminate|]. cbn [leqb] in H. apply andb_prop in H as [H1 H2]. destruct (IH i m E H2) as (z' & N & S & R).
    exists z'. cbn [nth_error replace leqb]. repeat split; [exact N|exact S|]. now rewrite H1.
Qed.
Lemma replace_both i z l m : leqb sameB l m = true -> nth_error m i = Some z ->
  exists y, nth_error l i = Some y /\ sameB y z = true /\ forall c c', sameB c c' = true -> leqb sameB (replace i c l) (replace i c' m) = true.
Proof.
  revert i m. induction l as [|w l IH]; intros i [|v m] H E; try discriminate H; [destruct i; discriminate E|].
  cbn [leqb] in H. apply andb_prop in H as [H1 H2]. destruct i as [|i]; cbn [nth_error replace leqb] in *.
  - injection E as <-. exists w. repeat split; [exact H1|]. intros c c' H3. now rewrite H3, H2.
  - destruct (IH i m H2 E) as (y & N & S & R). exists y. repeat split; [exact N|exact S|]. intros c c' H3. rewrite H1. now apply R.
Qed.
Lemma good_nth (get : A -> list B) put i : lawful okA sameA (Edit get put (fun _ x => forallb okB x) (leqb sameB)) -> good okA sameA okB sameB (nth_of get put i).
Proof.
  intros (P & S & C & G & E5). split; cbn [nth_of view over].
  - intros a b O E. exact (nth_ok _ _ _ (G a O) E).
  - intros a b b' O _ O'. apply P; [exact O|]. apply replace_ok; [exact (G a O)|exact O'].
  - intros a b b' a' E H. destruct (S _ _ _ H) as [H1 H2]. destruct (replace_back _ _ _ _ _ E H1) as (z & N & Z & R). exists z. repeat split; [exact N|exact Z|].
    apply (trans _ _ _ _ EA H2). apply C. exact R.
  - intros a b b1 b2 _ H. apply C. now apply replace_same.
  - intros a a' b' H E. destruct (E5 _ _ H) as (H1 & H2 & _). destruct (replace_both _ _ _ _ H1 E) as (y & N & Y & R).
    exists y. repeat split; [exact N|exact Y|]. intros c c' H3. apply H2. now apply R.
Qed.
End Places.
Lemma good_within {A B C} (okA : A -> bool) sameA (okB : B -> bool) sameB (okC : C -> bool) sameC p q :
  equality sameA -> good okA sameA okB sameB p -> good okB sameB okC sameC q -> good okA sameA okC sameC (within p q).
Proof.
  intros EA [P1 P2 P3 P4 P5] [Q1 Q2 Q3 Q4 Q5]. split; cbn [within view over].
  - intros a c O E. destruct (view p a) as [b|] eqn:V; [|discriminate]. exact (Q1 b c (P1 a b O V) E).
  - intros a c c' O E O'. destruct (view p a) as [b|] eqn:V; [|discriminate]. apply (P2 a b); [exact O|exact V|]. exact (Q2 b c c' (P1 a b O V) E O').
  - intros a c c' a' E H. destruct (view p a) as [b|] eqn:V; [|discriminate]. destruct (P3 a b _ a' V H) as (b'' & V' & H1 & H2).
    destruct (Q3 b c c' b'' E H1) as (c'' & W & H3 & H4). exists c''. rewrite V'. repeat split; [exact W|exact H3|].
    apply (trans _ _ _ _ EA H2). exact (P4 a' b'' _ _ V' H4).
  - intros a c c1 c2 E H. destruct (view p a) as [b|] eqn:V; [|discriminate]. apply (P4 a b _ _ V). exact (Q4 b c _ _ E H).
  - intros a a' c' H E. destruct (view p a') as [b'|] eqn:V; [|discriminate]. destruct (P5 a a' b' H V) as (b & V' & H1 & H2).
    destruct (Q5 b b' c' H1 E) as (c & W & H3 & H4). exists c. rewrite V'. repeat split; [exact W|exact H3|]. intros d d' H5. apply H2. now apply H4.
Qed.
Lemma good_itself {A} (ok : A -> bool) same : equality same -> good ok same ok same itself.
Proof.
  intros E. split; cbn [itself view over].
  - intros a b O H. now injection H as <-.
  - auto.
  - intros a b b' a' H S. injection H as <-. exists a'. repeat split; [exact S|]. apply E.
  - auto.
  - intros a a' b' S H. injection H as <-. exists a. auto.
Qed.
Ltac listed l := refine (proj1 (Forall_forall _ _) l _ _); repeat first [left; reflexivity|right].
Ltac case_of := split; cbn [of_class view over];
  [intros [] b O E; try discriminate E; injection E as <-; exact O
  |intros a b b' _ _ O; exact O
  |intros [] b b' [] E H; try discriminate E; try discriminate H; injection E as <-; eexists; (split; [reflexivity|split; [exact H|]]); apply refl; auto with equ
  |intros a b b1 b2 _ H; exact H
  |intros [] [] b' H E; try discriminate E; try discriminate H; injection E as <-; eexists; (split; [reflexivity|split; [exact H|]]); intros c c' H3; exact H3].
#[local] Transparent BdItem_eqb BdItem_ok FpItem_eqb FpItem_ok PadPrimitive_eqb PadPrimitive_ok ScLine_eqb ScLine_ok ScShape_eqb ScShape_ok SyItem_eqb SyItem_ok TrItem_eqb TrItem_ok WkItem_eqb WkItem_ok.
Lemma part_good A okA sameA B okB sameB p : part A okA sameA B okB sameB p -> @good A okA sameA B okB sameB p.
Proof.
  intros H. destruct H.
  - apply good_opt; listed Stroke_l.
  - apply good_opt; listed Font_l.
  - apply good_whole; listed Effects_l.
  - apply good_opt; listed Property_l.
  - apply good_nth; [auto with equ|auto with equ|listed RenderCache_l].
  - apply good_opt; listed Fill_l.
  - apply good_nth; [auto with equ|auto with equ|listed LibTable_l].
  - apply good_nth; [auto with equ|auto with equ|listed Rule_l].
  - apply good_nth; [auto with equ|auto with equ|listed DesignRules_l].
  - apply good_whole; listed SyArc_l.
  - apply good_whole; listed SyArc_l.
  - apply good_whole; listed SyCircle_l.
  - apply good_whole; listed SyCircle_l.
  - apply good_whole; listed SyPolyLine_l.
  - apply good_whole; listed SyPolyLine_l.
  - apply good_whole; listed SyRect_l.
  - apply good_whole; listed SyRect_l.
  - apply good_whole; listed SyText_l.
  - apply good_whole; listed SyTextBox_l.
  - apply good_whole; listed SyTextBox_l.
  - apply good_whole; listed SyTextBox_l.
  - apply good_opt; listed SymbolPin_l.
  - apply good_opt; listed SymbolPin_l.
  - apply good_nth; [auto with equ|auto with equ|listed SymbolPin_l].
  - apply good_nth; [auto with equ|auto with equ|listed Symbol_l].
  - apply good_nth; [auto with equ|auto with equ|listed Symbol_l].
  - apply good_nth; [auto with equ|auto with equ|listed Symbol_l].
  - apply good_nth; [auto with equ|auto with equ|listed Symbol_l].
  - apply good_nth; [auto with equ|auto with equ|listed SymbolLib_l].
  - apply good_whole; listed FpText_l.
  - apply good_opt; listed FpText_l.
  - apply good_opt; listed FpTextBox_l.
  - apply good_opt; listed FpTextBox_l.
  - apply good_opt; listed FpTextBox_l.
  - apply good_whole; listed GrText_l.
  - apply good_opt; listed GrText_l.
  - apply good_opt; listed GrTextBox_l.
  - apply good_opt; listed GrTextBox_l.
  - apply good_opt; listed GrTextBox_l.
  - apply good_opt; listed Zone_l.
  - apply good_opt; listed Zone_l.
  - apply good_nth; [auto with equ|auto with equ|listed Zone_l].
  - apply good_nth; [auto with equ|auto with equ|listed Zone_l].
  - apply good_opt; listed Zone_l.
  - apply good_whole; listed Model_l.
  - apply good_whole; listed Model_l.
  - apply good_whole; listed Model_l.
  - apply good_opt; listed Pad_l.
  - apply good_opt; listed Pad_l.
  - apply good_opt; listed Pad_l.
  - apply good_nth; [auto with equ|auto with equ|listed Pad_l].
  - apply good_nth; [auto with equ|auto with equ|listed Footprint_l].
  - apply good_nth; [auto with equ|auto with equ|listed Footprint_l].
  - apply good_nth; [auto with equ|auto with equ|listed Footprint_l].
  - apply good_nth; [auto with equ|auto with equ|listed Footprint_l].
  - apply good_nth; [auto with equ|auto with equ|listed Footprint_l].
  - apply good_opt; listed Dimension_l.
  - apply good_opt; listed Dimension_l.
  - apply good_whole; listed Dimension_l.
  - apply good_nth; [auto with equ|auto with equ|listed Stackup_l].
  - apply good_opt; listed SetupData_l.
  - apply good_opt; listed SetupData_l.
  - apply good_whole; listed Board_l.
  - apply good_whole; listed Board_l.
  - apply good_opt; listed Board_l.
  - apply good_nth; [auto with equ|auto with equ|listed Board_l].
  - apply good_whole; listed Board_l.
  - apply good_nth; [auto with equ|auto with equ|listed Board_l].
  - apply good_nth; [auto with equ|auto with equ|listed Board_l].
  - apply good_nth; [auto with equ|auto with equ|listed Board_l].
  - apply good_nth; [auto with equ|auto with equ|listed Board_l].
  - apply good_nth; [auto with equ|auto with equ|listed Board_l].
  - apply good_nth; [auto with equ|auto with equ|listed Board_l].
  - apply good_nth; [auto with equ|auto with equ|listed Board_l].
  - apply good_nth; [auto with equ|auto with equ|listed Board_l].
  - apply good_whole; listed BusEntry_l.
  - apply good_whole; listed Connection_l.
  - apply good_whole; listed PolyLine_l.
  - apply good_whole; listed Text_l.
  - apply good_whole; listed TextBox_l.
  - apply good_whole; listed TextBox_l.
  - apply good_whole; listed TextBox_l.
  - apply good_whole; listed LocalLabel_l.
  - apply good_whole; listed GlobalLabel_l.
  - apply good_nth; [auto with equ|auto with equ|listed GlobalLabel_l].
  - apply good_whole; listed HierarchicalLabel_l.
  - apply good_nth; [auto with equ|auto with equ|listed SymbolProjectInstance_l].
  - apply good_nth; [auto with equ|auto with equ|listed SchematicSymbol_l].
  - apply good_nth; [auto with equ|auto with equ|listed SchematicSymbol_l].
  - apply good_whole; listed HierarchicalPin_l.
  - apply good_nth; [auto with equ|auto with equ|listed HierarchicalSheetProjectInstance_l].
  - apply good_whole; listed HierarchicalSheet_l.
  - apply good_nth; [auto with equ|auto with equ|listed HierarchicalSheet_l].
  - apply good_nth; [auto with equ|auto with equ|listed HierarchicalSheet_l].
  - apply good_whole; listed Rectangle_l.
  - apply good_whole; listed Rectangle_l.
  - apply good_whole; listed SchArc_l.
  - apply good_whole; listed SchArc_l.
  - apply good_whole; listed Circle_l.
  - apply good_whole; listed Circle_l.
  - apply good_nth; [auto with equ|auto with equ|listed NetclassFlag_l].
  - apply good_whole; listed Schematic_l.
  - apply good_opt; listed Schematic_l.
  - apply good_nth; [auto with equ|auto with equ|listed Schematic_l].
  - apply good_nth; [auto with equ|auto with equ|listed Schematic_l].
  - apply good_nth; [auto with equ|auto with equ|listed Schematic_l].
  - apply good_nth; [auto with equ|auto with equ|listed Schematic_l].
  - apply good_nth; [auto with equ|auto with equ|listed Schematic_l].
  - apply good_nth; [auto with equ|auto with equ|listed Schematic_l].
  - apply good_nth; [auto with equ|auto with equ|listed Schematic_l].
  - apply good_nth; [auto with equ|auto with equ|listed Schematic_l].
  - apply good_nth; [auto with equ|auto with equ|listed Schematic_l].
  - apply good_nth; [auto with equ|auto with equ|listed Schematic_l].
  - apply good_nth; [auto with equ|auto with equ|listed Schematic_l].
  - apply good_nth; [auto with equ|auto with equ|listed Schematic_l].
  - apply good_nth; [auto with equ|auto with equ|listed Schematic_l].
  - apply good_nth; [auto with equ|auto with equ|listed Schematic_l].
  - apply good_nth; [auto with equ|auto with equ|listed Schematic_l].
  - apply good_nth; [auto with equ|auto with equ|listed Schematic_l].
  - apply good_nth; [auto with equ|auto with equ|listed Schematic_l].
  - apply good_nth; [auto with equ|auto with equ|listed Schematic_l].
  - apply good_whole; listed Setup_l.
  - apply good_whole; listed WorkSheet_l.
  - apply good_nth; [auto with equ|auto with equ|listed WorkSheet_l].
  - case_of.
  - case_of.
  - case_of.
  - case_of.
  - case_of.
  - case_of.
  - case_of.
  - case_of.
  - case_of.
  - case_of.
  - case_of.
  - case_of.
  - case_of.
  - case_of.
  - case_of.
  - case_of.
  - case_of.
  - case_of.
  - case_of.
  - case_of.
  - case_of.
  - case_of.
  - case_of.
  - case_of.
  - case_of.
  - case_of.
  - case_of.
  - case_of.
  - case_of.
  - case_of.
  - case_of.
  - case_of.
  - case_of.
  - case_of.
  - case_of.
  - case_of.
  - case_of.
  - case_of.
  - case_of.
  - case_of.
  - case_of.
  - case_of.
  - case_of.
  - case_of.
Qed.
Lemma attributes_lawful A ok same es : attributes A ok same es -> Forall (lawful ok same) es.
Proof.
  intros H. destruct H.
  - exact Coordinate_l.
  - exact ColorRGBA_l.
  - exact Stroke_l.
  - exact Font_l.
  - exact Justify_l.
  - exact Effects_l.
  - exact Net_l.
  - exact Group_l.
  - exact PageSettings_l.
  - exact TitleBlock_l.
  - exact Property_l.
  - exact RenderCachePolygon_l.
  - exact RenderCache_l.
  - exact Fill_l.
  - exact Image_l.
  - exact Library_l.
  - exact LibTable_l.
  - exact Constraint_l.
  - exact Rule_l.
  - exact DesignRules_l.
  - exact SyArc_l.
  - exact SyCircle_l.
  - exact SyPolyLine_l.
  - exact SyRect_l.
  - exact SyText_l.
  - exact SyTextBox_l.
  - exact SymbolAlternativePin_l.
  - exact SymbolPin_l.
  - exact Symbol_l.
  - exact SymbolLib_l.
  - exact FpText_l.
  - exact FpLine_l.
  - exact FpRect_l.
  - exact FpCircle_l.
  - exact FpArc_l.
  - exact FpPoly_l.
  - exact FpCurve_l.
  - exact FpTextBox_l.
  - exact GrText_l.
  - exact GrLine_l.
  - exact GrRect_l.
  - exact GrCircle_l.
  - exact GrArc_l.
  - exact GrPoly_l.
  - exact GrCurve_l.
  - exact GrTextBox_l.
  - exact KeepoutSettings_l.
  - exact FillSettings_l.
  - exact ZonePolygon_l.
  - exact FilledPolygon_l.
  - exact FillSegments_l.
  - exact Zone_l.
  - exact Attributes_l.
  - exact Model_l.
  - exact DrillDefinition_l.
  - exact PadOptions_l.
  - exact Pad_l.
  - exact Footprint_l.
  - exact DimensionFormat_l.
  - exact DimensionStyle_l.
  - exact Dimension_l.
  - exact GeneralSettings_l.
  - exact LayerToken_l.
  - exact StackupLayer_l.
  - exact Stackup_l.
  - exact PlotSettings_l.
  - exact SetupData_l.
  - exact Segment_l.
  - exact Via_l.
  - exact Arc_l.
  - exact Target_l.
  - exact Board_l.
  - exact Junction_l.
  - exact NoConnect_l.
  - exact BusEntry_l.
  - exact BusAlias_l.
  - exact Connection_l.
  - exact PolyLine_l.
  - exact Text_l.
  - exact TextBox_l.
  - exact LocalLabel_l.
  - exact GlobalLabel_l.
  - exact HierarchicalLabel_l.
  - exact SymbolProjectPath_l.
  - exact SymbolProjectInstance_l.
  - exact SchematicSymbol_l.
  - exact HierarchicalPin_l.
  - exact HierarchicalSheetProjectPath_l.
  - exact HierarchicalSheetProjectInstance_l.
  - exact HierarchicalSheet_l.
  - exact HierarchicalSheetInstance_l.
  - exact SymbolInstance_l.
  - exact Rectangle_l.
  - exact SchArc_l.
  - exact Circle_l.
  - exact NetclassFlag_l.
  - exact Schematic_l.
  - exact WksFontSize_l.
  - exact WksFont_l.
  - exact Line_l.
  - exact Rect_l.
  - exact Bitmap_l.
  - exact TbText_l.
  - exact TextSize_l.
  - exact Setup_l.
  - exact WorkSheet_l.
Qed.
Lemma inside_good {A} (ok : A -> bool) same B okB sameB p : equality same -> inside ok same B okB sameB p -> good ok same okB sameB p.
Proof. intros E. induction 1 as [|B okB sameB C okC sameC p q _ IH Q]; [now apply good_itself|]. exact (good_within _ _ _ _ _ _ _ _ E IH (part_good _ _ _ _ _ _ _ Q)). Qed.
Lemma survive_inside {A} (to : A -> nat -> bool -> res str) from ok norm same :
  equality same -> roundtrips to from ok norm same -> survives_inside to from ok same.
Proof.
  intros E RT B okB sameB p es I AT C get put fit alike L o b x O V F. destruct (inside_good _ _ _ _ _ _ E I) as [G1 G2 G3 _ _].
  pose proof (proj1 (Forall_forall _ _) (attributes_lawful _ _ _ _ AT) _ L) as (P & S & _).
  assert (K : ok (over p (put x b) o) = true) by (apply (G2 o b); [exact O|exact V|]; apply P; [exact (G1 o b O V)|exact F]).
  split; [exact K|]. intros i n. destruct (RT _ K) as (W & H & _). exists (norm (over p (put x b) o)).
  destruct (G3 o b _ _ V H) as (b' & V' & H1 & H2). destruct (S _ _ _ H1) as [H3 H4]. exists b'. repeat split; [apply W|exact V'|exact H3|exact H4|exact H2].
Qed.
