(** Round trip lemmas for footprint.py: attributes, models and pads. *)
From Verif Require Import PyBase PyNum PyStr PyRe Sexpr S_Leaf S_Tree S_Id M_Common S_Common M_Sym S_Sym M_Fp S_Fp M_Gr S_Gr M_Zone S_Zone M_Footprint S_Footprint
  L_Lex L_Tok L_Num L_Seq L_Tac L_Common L_Sym L_Id L_SymId L_Fp L_Gr L_Zone.

Lemma Attributes_wr o i n : Attributes_ok o = true -> Wr (Attributes_to o i n) (if Attributes_empty o then [] else flat (Attributes_tree o)).
Proof.
  intros H. unfold Attributes_ok in H. facts. unfold Attributes_to, Attributes_empty.
  replace (is_none (fx_type o) && negb (fx_boardOnly o) && negb (fx_excludeFromBom o) && negb (fx_excludeFromPosFiles o) && negb (fx_allowMissingCourtyard o))
    with (is_none (fx_type o) && negb (fx_boardOnly o) && negb (fx_excludeFromPosFiles o) && negb (fx_excludeFromBom o) && negb (fx_allowMissingCourtyard o))
    by (destruct (is_none (fx_type o)), (fx_boardOnly o), (fx_excludeFromBom o), (fx_excludeFromPosFiles o), (fx_allowMissingCourtyard o); reflexivity).
  match goal with |- Wr (if ?b then _ else _) _ => destruct b end; [apply Wr_nil|].
  eapply Wr_eq; [wr_go|unfold Attributes_tree; tpeel].
Qed.
#[export] Hint Resolve Attributes_wr : wr.
Lemma Attributes_norm_id o : Attributes_norm o = o.
Proof. now destruct o. Qed.
Lemma Attributes_wr1 o i n : Attributes_ok1 o = true -> Wr (Attributes_to o i n) (flat (Attributes_tree (Attributes_norm o))).
Proof.
  unfold Attributes_ok1. intros H. apply andb_prop in H as [H H1]. eapply Wr_eq; [now apply Attributes_wr|].
  rewrite Attributes_norm_id. now destruct (Attributes_empty o).
Qed.
Lemma Attributes_rd o : Attributes_ok o = true -> Attributes_from (Attributes_tree o) = Ok o.
Proof.
  intros H. destruct o as [t b1 b2 b3 b4]. unfold Attributes_ok in H. cbn in H.
  unfold optb in H. apply orb_prop in H as [H|H]; [apply is_none_eq in H; subst t|enum_cases H t];
    destruct b1, b2, b3, b4; vm_compute; reflexivity.
Qed.
#[export] Hint Resolve Attributes_rd : rd.
Lemma Attributes_idem o : Attributes_norm (Attributes_norm o) = Attributes_norm o.
Proof. idem Attributes_norm. Qed.
#[export] Hint Rewrite Attributes_idem : idem.
Lemma Attributes_okn o : Attributes_ok o = true -> Attributes_ok (Attributes_norm o) = true.
Proof. okn Attributes_ok Attributes_norm. Qed.
#[export] Hint Resolve Attributes_okn : okn.
Lemma Attributes_hd o : exists l, Attributes_tree o = node "attr" l.
Proof. eexists. reflexivity. Qed.
#[export] Hint Resolve Attributes_hd : hd.
Lemma Attributes_same o : Attributes_eqb o (Attributes_norm o) = true.
Proof. same Attributes_eqb Attributes_norm. Qed.
#[export] Hint Resolve Attributes_same : same.
Lemma Attributes_ref : refuses Attributes_from ["attr"%string].
Proof. refuse Attributes_from. Qed.

Lemma Attributes_rt1 : roundtrips Attributes_to Attributes_from Attributes_ok1 Attributes_norm Attributes_eqb.
Proof.
  apply (rt_of _ _ _ Attributes_tree); [exact Attributes_wr1| |exact Attributes_same| |exact Attributes_idem].
  - unfold Attributes_ok1. intros o H. apply andb_prop in H as [H _]. now apply Attributes_rd.
  - intros o. now rewrite Attributes_norm_id.
Qed.
Lemma Attributes_fmt1 : conforms Attributes_to Attributes_from Attributes_ok1 Attributes_norm Attributes_tree.
Proof.
  apply fmt_of; [exact Attributes_wr1|]. unfold Attributes_ok1. intros o H. apply andb_prop in H as [H _]. now apply Attributes_rd.
Qed.
Lemma Attributes_empty_eq a : Attributes_empty a = true -> a = Attributes_default.
Proof. unfold Attributes_empty. intros H. andbs. destruct a as [t [] [] [] []]; try discriminate. cbn in *. apply is_none_eq in H. now subst. Qed.
Global Opaque Attributes_from Attributes_tree Attributes_to Attributes_norm Attributes_ok Attributes_eqb.

Lemma Model_rd o : Model_ok o = true -> Model_from (Model_tree o) = Ok o.
Proof.
  intros H. destruct o as [p a b c hd op]. unfold Model_ok in H. cbn in H. facts0.
  pose proof (Coordinate_rd a ltac:(assumption)) as R1. pose proof (Coordinate_rd b ltac:(assumption)) as R2.
  pose proof (Coordinate_rd c ltac:(assumption)) as R3.
  unfold Model_from, Model_tree, optw, optn. cbn [mo_path mo_pos mo_scale mo_rotate mo_hide mo_opacity]. destruct hd; (destruct (is_none op) eqn:B; [apply is_none_eq in B; subst op|]); opt_facts; cbn [app]; rd_post Model_step;
    match goal with Hst : ?st = Model_step |- _ => rd_loop st Model_step end.
Qed.
#[export] Hint Resolve Model_rd : rd.
Lemma Model_ref : refuses Model_from ["model"%string].
Proof.
  unfold refuses, Model_from, need_list. repeat split.
  - intros e He. destruct e; try discriminate He; reflexivity.
  - eexists. reflexivity.
  - intros h l H. cbn [existsb] in H. apply orb_false_elim in H as [H _]. cbn [need_list bind].
    destruct (Nat.ltb (length (h :: l)) 5); [reflexivity|]. cbn [at_ nth_error bind]. now rewrite H.
Qed.
Lemma Model_wr o i n : Model_ok o = true -> Wr (Model_to o i n) (flat (Model_tree (Model_norm o))).
Proof. wr Model_to Model_ok Model_tree Model_norm. Qed.
#[export] Hint Resolve Model_wr : wr.
Lemma Model_idem o : Model_norm (Model_norm o) = Model_norm o.
Proof. idem Model_norm. Qed.
#[export] Hint Rewrite Model_idem : idem.
Lemma Model_okn o : Model_ok o = true -> Model_ok (Model_norm o) = true.
Proof. okn Model_ok Model_norm. Qed.
#[export] Hint Resolve Model_okn : okn.
Lemma Model_hd o : exists l, Model_tree o = node "model" l.
Proof. eexists. reflexivity. Qed.
#[export] Hint Resolve Model_hd : hd.
Lemma Model_same o : Model_eqb o (Model_norm o) = true.
Proof. same Model_eqb Model_norm. Qed.
#[export] Hint Resolve Model_same : same.
Lemma Model_rt : roundtrips Model_to Model_from Model_ok Model_norm Model_eqb.
Proof. exact (rt_of _ _ _ Model_tree _ _ Model_wr Model_rd Model_same Model_okn Model_idem). Qed.
Lemma Model_fmt : conforms Model_to Model_from Model_ok Model_norm Model_tree.
Proof. exact (fmt_of _ _ _ _ _ Model_wr Model_rd). Qed.
Lemma Model_ign : ignores Model_from 4 ["opacity"%string; "offset"%string; "scale"%string; "rotate"%string].
Proof. ign Model_from Model_step (S (S (S (S O)))). Qed.
Lemma Model_win : last_wins Model_from 4 ["opacity"%string; "offset"%string; "scale"%string; "rotate"%string].
Proof. wins Model_from Model_step (S (S (S (S O)))). Qed.
Global Opaque Model_from Model_tree Model_to Model_norm Model_ok Model_eqb.


Lemma DrillDefinition_wr o i n : DrillDefinition_ok o = true -> Wr (DrillDefinition_to o i n) (flat (DrillDefinition_tree (DrillDefinition_norm o))).
Proof.
  intros H. destruct o as [v d w p]. unfold DrillDefinition_ok in H. cbn [dd_oval dd_diameter dd_width dd_offset] in H. unfold DrillDefinition_to. cbn [dd_oval dd_diameter dd_width dd_offset].
  destruct v; facts; fixed_subst; [|destruct p; [discriminate|]]; cbn [andb negb].
  - assert (B : is_none w = false) by assumption. rewrite B. cbn [negb]. destruct p; opt_facts; facts; (eapply Wr_eq; [wr_go|]);
      unfold DrillDefinition_tree, DrillDefinition_norm, optv; cbn; rewrite nrm_none, B; tpeel.
  - eapply Wr_eq; [wr_go|]. unfold DrillDefinition_tree, DrillDefinition_norm. cbn. change (nrm VNone) with VNone. unfold optw, optv, opto. cbn [is_none app]. tpeel.
Qed.
#[export] Hint Resolve DrillDefinition_wr : wr.
Lemma DrillDefinition_rd o : DrillDefinition_ok o = true -> DrillDefinition_from (DrillDefinition_tree o) = Ok o.
Proof.
  intros H. destruct o as [v d w p]. unfold DrillDefinition_ok in H. cbn [dd_oval dd_diameter dd_width dd_offset] in H. unfold DrillDefinition_from, DrillDefinition_tree, optw. cbn [dd_oval dd_diameter dd_width dd_offset].
  destruct v; facts0; fixed_subst; [|destruct p; [discriminate|]].
  - unfold optv, opto. destruct (is_none w) eqn:B; [discriminate|]. destruct p; cbn [app]; opt_facts; rd_post DrillDefinition_step;
      match goal with Hst : ?st = DrillDefinition_step |- _ => rd_loop st DrillDefinition_step end.
  - unfold optv, opto. change (is_none VNone) with true. cbn [app]. unfold node.
    assert (E : is_str d "oval" = false) by (now apply numb_nstr).
    cbn [need_head need_list bind at_ nth_error app]. rewrite E. remember DrillDefinition_step as st eqn:Hst. red_step.
    rd_loop st DrillDefinition_step.
Qed.
#[export] Hint Resolve DrillDefinition_rd : rd.
Lemma DrillDefinition_okn o : DrillDefinition_ok o = true -> DrillDefinition_ok (DrillDefinition_norm o) = true.
Proof.
  intros H. destruct o as [v d w p]. unfold DrillDefinition_ok, DrillDefinition_norm in *.
  cbn [dd_oval dd_diameter dd_width dd_offset] in *. rewrite nrm_none. andbs.
  repeat match goal with |- (_ && _)%bool = true => apply andb_true_intro; split end; eauto 4 with okn.
  destruct v; [assumption|]. andbs. destruct p; [discriminate|]. rewrite andb_true_r. assumption.
Qed.
#[export] Hint Resolve DrillDefinition_okn : okn.
Lemma DrillDefinition_idem o : DrillDefinition_norm (DrillDefinition_norm o) = DrillDefinition_norm o.
Proof. idem DrillDefinition_norm. Qed.
#[export] Hint Rewrite DrillDefinition_idem : idem.
Lemma DrillDefinition_hd o : exists l, DrillDefinition_tree o = node "drill" l.
Proof. eexists. reflexivity. Qed.
#[export] Hint Resolve DrillDefinition_hd : hd.
Lemma DrillDefinition_same o : DrillDefinition_eqb o (DrillDefinition_norm o) = true.
Proof. same DrillDefinition_eqb DrillDefinition_norm. Qed.
#[export] Hint Resolve DrillDefinition_same : same.
Lemma DrillDefinition_rt : roundtrips DrillDefinition_to DrillDefinition_from DrillDefinition_ok DrillDefinition_norm DrillDefinition_eqb.
Proof. exact (rt_of _ _ _ DrillDefinition_tree _ _ DrillDefinition_wr DrillDefinition_rd DrillDefinition_same DrillDefinition_okn DrillDefinition_idem). Qed.
Lemma DrillDefinition_fmt : conforms DrillDefinition_to DrillDefinition_from DrillDefinition_ok DrillDefinition_norm DrillDefinition_tree.
Proof. exact (fmt_of _ _ _ _ _ DrillDefinition_wr DrillDefinition_rd). Qed.
Lemma DrillDefinition_ref : refuses DrillDefinition_from ["drill"%string].
Proof. refuse DrillDefinition_from. Qed.
Lemma DrillDefinition_ign : ignores DrillDefinition_from 3 ["offset"%string].
Proof. ign DrillDefinition_from DrillDefinition_step (S (S (S O))). Qed.
Lemma DrillDefinition_win : last_wins DrillDefinition_from 3 ["offset"%string].
Proof. wins DrillDefinition_from DrillDefinition_step (S (S (S O))). Qed.
Global Opaque DrillDefinition_from DrillDefinition_tree DrillDefinition_to DrillDefinition_norm DrillDefinition_ok DrillDefinition_eqb.

Lemma PadOptions_wr o i n : PadOptions_ok o = true -> Wr (PadOptions_to o i n) (flat (PadOptions_tree (PadOptions_norm o))).
Proof. wr PadOptions_to PadOptions_ok PadOptions_tree PadOptions_norm. Qed.
#[export] Hint Resolve PadOptions_wr : wr.
Lemma PadOptions_idem o : PadOptions_norm (PadOptions_norm o) = PadOptions_norm o.
Proof. idem PadOptions_norm. Qed.
#[export] Hint Rewrite PadOptions_idem : idem.
Lemma PadOptions_okn o : PadOptions_ok o = true -> PadOptions_ok (PadOptions_norm o) = true.
Proof. okn PadOptions_ok PadOptions_norm. Qed.
#[export] Hint Resolve PadOptions_okn : okn.
Lemma PadOptions_hd o : exists l, PadOptions_tree o = node "options" l.
Proof. eexists. reflexivity. Qed.
#[export] Hint Resolve PadOptions_hd : hd.
Lemma PadOptions_rd o : PadOptions_ok o = true -> PadOptions_from (PadOptions_tree o) = Ok o.
Proof. rd PadOptions_ok PadOptions_from PadOptions_tree PadOptions_step. Qed.
#[export] Hint Resolve PadOptions_rd : rd.
Lemma PadOptions_same o : PadOptions_eqb o (PadOptions_norm o) = true.
Proof. same PadOptions_eqb PadOptions_norm. Qed.
#[export] Hint Resolve PadOptions_same : same.
Lemma PadOptions_rt : roundtrips PadOptions_to PadOptions_from PadOptions_ok PadOptions_norm PadOptions_eqb.
Proof. exact (rt_of _ _ _ PadOptions_tree _ _ PadOptions_wr PadOptions_rd PadOptions_same PadOptions_okn PadOptions_idem). Qed.
Lemma PadOptions_fmt : conforms PadOptions_to PadOptions_from PadOptions_ok PadOptions_norm PadOptions_tree.
Proof. exact (fmt_of _ _ _ _ _ PadOptions_wr PadOptions_rd). Qed.
Lemma PadOptions_ref : refuses PadOptions_from ["options"%string].
Proof. refuse PadOptions_from. Qed.
Lemma PadOptions_ign : ignores PadOptions_from 0 ["clearance"%string; "anchor"%string].
Proof. ign PadOptions_from PadOptions_step O. Qed.
Lemma PadOptions_win : last_wins PadOptions_from 0 ["clearance"%string; "anchor"%string].
Proof. wins PadOptions_from PadOptions_step O. Qed.
Global Opaque PadOptions_from PadOptions_tree PadOptions_to PadOptions_norm PadOptions_ok PadOptions_eqb.

#[export] Hint Extern 1 (IsUnion PadPrimitive) => exact I : union.
Lemma PadPrimitive_wr o i n : PadPrimitive_ok o = true -> Wr (PadPrimitive_to o i n) (flat (PadPrimitive_tree (PadPrimitive_norm o))).
Proof. destruct o; cbn [PadPrimitive_to PadPrimitive_ok PadPrimitive_tree PadPrimitive_norm]; try discriminate; eauto 2 with wr. Qed.
#[export] Hint Resolve PadPrimitive_wr : wr.
Lemma PadPrimitive_idem o : PadPrimitive_norm (PadPrimitive_norm o) = PadPrimitive_norm o.
Proof. destruct o; cbn [PadPrimitive_norm]; autorewrite with idem; reflexivity. Qed.
#[export] Hint Rewrite PadPrimitive_idem : idem.
Lemma PadPrimitive_okn o : PadPrimitive_ok o = true -> PadPrimitive_ok (PadPrimitive_norm o) = true.
Proof. destruct o; cbn [PadPrimitive_norm PadPrimitive_ok]; try discriminate; eauto 2 with okn. Qed.
#[export] Hint Resolve PadPrimitive_okn : okn.
Lemma PadPrimitive_same o : PadPrimitive_eqb o (PadPrimitive_norm o) = true.
Proof. destruct o; cbn [PadPrimitive_norm PadPrimitive_eqb]; eauto 2 with same. Qed.
#[export] Hint Resolve PadPrimitive_same : same.
Global Arguments PadPrimitive_tree : simpl never. Global Arguments PadPrimitive_norm : simpl never. Global Arguments PadPrimitive_ok : simpl never.
Global Arguments PadPrimitive_to : simpl never. Global Arguments PadPrimitive_eqb : simpl never.

Lemma PadPrimitive_read_rd x : PadPrimitive_ok x = true -> PadPrimitive_read (PadPrimitive_tree x) = Ok [x].
Proof.
  unfold PadPrimitive_read. intros H. union_cases (PadPrimitive_tree x); ev_sub.
Qed.
Lemma PadPrimitives_rd l : forallb PadPrimitive_ok l = true -> PadPrimitives_read (map PadPrimitive_tree l) = Ok l.
Proof.
  unfold PadPrimitives_read. intros H.
  assert (E : mapM PadPrimitive_read (map PadPrimitive_tree l) = Ok (map (fun x => [x]) l)).
  { induction l as [|x l IH]; [reflexivity|]. cbn [forallb] in H. apply andb_prop in H as [H1 H2].
    cbn [map mapM]. rewrite (PadPrimitive_read_rd x H1). cbn [bind]. now rewrite (IH H2). }
  rewrite E. cbn [bind]. f_equal. clear. induction l as [|x l IH]; [reflexivity|]. cbn. now rewrite IH.
Qed.

(** layers *)
Lemma contains_wild s : contains $"*." s || contains $"&" s = wild_layer s.
Proof.
  unfold wild_layer. rewrite orb_comm. f_equal.
  - induction s as [|c s IH]; [reflexivity|].
    change (contains $"&" (c :: s)) with (N.eqb 38 c && true || contains $"&" s). now rewrite IH, andb_true_r.
  - induction s as [|c s IH]; [reflexivity|].
    change (contains $"*." (c :: s)) with (N.eqb 42 c && match s with [] => false | y :: _ => N.eqb 46 y && true end || contains $"*." s). rewrite IH.
    cbn [star_dot]. rewrite (N.eqb_sym 42 c). destruct s as [|d s]; [reflexivity|]. now rewrite andb_true_r, (N.eqb_sym 46 d).
Qed.
Lemma Pad_layer_ok v : pad_layer_ok v = true ->
  exists s, Pad_layer_text v = Ok ($" " ++ s) /\ Seq KC s KQ (flat v).
Proof.
  destruct v as [| | | |s|]; try discriminate. unfold pad_layer_ok, Pad_layer_text, py_in. cbn [bind]. rewrite contains_wild.
  destruct (wild_layer s); intros H; eexists; (split; [reflexivity|]).
  - eapply Seq_weaken; [|now apply Seq_word]. reflexivity.
  - now apply Seq_quoted.
Qed.
Lemma Pad_layers_ok l k : forallb pad_layer_ok l = true ->
  exists s, concatM Pad_layer_text l = Ok s /\ Seq k s (kmax k KQ) (flats l).
Proof.
  revert k. induction l as [|v l IH]; intros k H.
  - exists []. split; [reflexivity|]. rewrite flats_nil. eapply Seq_weaken; [|apply Seq_nil]. now destruct k.
  - cbn [forallb] in H. andbs. destruct (Pad_layer_ok v H) as (s1 & E1 & S1). destruct (IH KQ H0) as (s2 & E2 & S2).
    exists (($" " ++ s1) ++ s2). cbn [concatM]. rewrite E1. cbn [bind]. rewrite E2. cbn [bind]. split; [reflexivity|].
    rewrite flats_cons, <- app_assoc. eapply Seq_weaken with (k1 := KQ); [now destruct k|].
    apply (Seq_app k $" " KC [] _ KQ (flat v ++ flats l)); [now apply Seq_lit; destruct k|].
    eapply Seq_app; [exact S1|exact S2].
Qed.
Lemma Pad_layers_wr l : forallb pad_layer_ok l = true -> Wr (Pad_layers_text l) (flat (node "layers" l)).
Proof.
  intros H. unfold Pad_layers_text. destruct (Pad_layers_ok l KW H) as (s & -> & S). cbn [bind].
  eapply Wr_eq; [eapply Wr_ok|].
  - eapply Seq_app; [seq_lit|]. eapply Seq_app; [exact S|]. seq_lit.
  - rewrite flat_node. reflexivity.
Qed.
Global Opaque Pad_layers_text.
#[export] Hint Resolve Pad_layers_wr : wr.
Lemma Seq_word_list l k : forallb wordv l = true -> Seq k (word_list l) (kmax k KW) (flats l).
Proof.
  revert k. induction l as [|x l IH]; intros k H.
  - rewrite flats_nil. eapply Seq_weaken; [|apply Seq_nil]. now destruct k.
  - cbn [forallb] in H. andbs. cbn [word_list flat_map]. fold (word_list l). rewrite flats_cons, <- app_assoc.
    eapply Seq_weaken with (k1 := KW); [now destruct k|].
    apply (Seq_app k $" " KC [] _ KW (flat x ++ flats l)); [now apply Seq_lit; destruct k|].
    eapply Seq_app; [now apply Seq_word|]. exact (IH KW H0).
Qed.
Global Arguments word_list : simpl never.
#[export] Hint Resolve Seq_word_list : wr.
(** a line that is only written when one of its parts is *)
Lemma Seq_line (b : bool) s i ts : Seq KC s KC ts -> (b = false -> s = []) -> Seq KC (extra_line b i s) KC ts.
Proof.
  intros H E. unfold extra_line. destruct b.
  - apply (Seq_app KC nl KC [] _ KC ts); [seq_lit|]. apply (Seq_app KC (spaces i) KC [] _ KC ts); [apply Seq_spaces|].
    apply (Seq_app KC $" " KC [] _ KC ts); [seq_lit|exact H].
  - now rewrite E in H.
Qed.
Lemma nonblank_nil s : nonblank s = false -> s = [].
Proof. now destruct s. Qed.
Lemma negb_false b : negb b = false -> b = true.
Proof. now destruct b. Qed.
Ltac line_nil :=
  let H := fresh "H" in intros H;
  repeat match goal with H : (_ || _)%bool = false |- _ => apply orb_false_elim in H; destruct H end;
  repeat match goal with
  | H : nonblank _ = false |- _ => apply nonblank_nil in H; rewrite H; clear H
  | H : negb _ = false |- _ => apply negb_false in H; rewrite H; clear H
  end; reflexivity.
Ltac seq_more ::=
  lazymatch goal with
  | |- Seq _ (extra_line _ _ _) _ _ => eapply Seq_line; [seq_top | line_nil]
  end.
(** elements on lines of their own *)
Lemma Seq_nl s k ts : Seq KC (nl ++ s) k ts -> Seq KW (nl ++ s) k ts.
Proof. intros H rest Hr. destruct (H rest Hr) as [_ E]. split; [reflexivity|exact E]. Qed.
Lemma Wr_lines {A} (f : A -> res str) (t : A -> list tok) l : (forall x, In x l -> Wr (f x) (t x)) ->
  exists s, concatM (fun x => let! s := f x in Ok (nl ++ s)) l = Ok s /\ (Nat.eqb (length l) 0 = false -> Seq KW s KC (flat_map t l)).
Proof.
  intros H. assert (W : Wr (concatM (fun x => let! s := f x in Ok (nl ++ s)) l) (flat_map t l)).
  { apply Wr_concatM. intros x Hx. destruct (H x Hx) as (s & -> & S). cbn [bind]. apply Wr_ok.
    apply (Seq_app KC nl KC [] s KC (t x)); [seq_lit|exact S]. }
  destruct W as (s & E & S). exists s. split; [exact E|]. destruct l as [|x l]; [discriminate|]. intros _.
  cbn [concatM] in E. destruct (f x) as [s1|]; [|discriminate]. cbn [bind] in E.
  destruct (concatM _ l) as [s2|]; [|discriminate]. cbn [bind] in E. injection E as <-. change (Seq KW (nl ++ (s1 ++ s2)) KC (flat_map t (x :: l))). now apply Seq_nl.
Qed.
Lemma at_if x y a : (if is_none a then $"(at " ++ fmt x ++ $" " ++ fmt y ++ $")" else $"(at " ++ fmt x ++ $" " ++ fmt y ++ $" " ++ fmt a ++ $")")
  = $"(at " ++ fmt x ++ $" " ++ fmt y ++ (if is_none a then [] else $" " ++ fmt a) ++ $")".
Proof. now destruct (is_none a). Qed.
Lemma Pad_wr o i n : Pad_ok o = true -> Wr (Pad_to o i n) (flat (Pad_tree (Pad_norm o))).
Proof.
  intros H. unfold Pad_ok in H. facts. unfold Pad_to.
  destruct (Wr_lines (fun p => PadPrimitive_to p (i + 4) false) (fun x => flat (PadPrimitive_tree (PadPrimitive_norm x))) (pd_customPadPrimitives o)) as (s & E & S).
  { intros x Hx. elem_facts. wr_go. }
  rewrite E. clear E. cbv zeta. cbn [bind]. rewrite at_if.
  match goal with |- context [@app N (if Nat.eqb (length (pd_customPadPrimitives o)) 0 then ?e else ?x) ?r] =>
    match goal with |- context [@app N ?p r] =>
    assert (SP : Seq KC p KC
      (flats (if Nat.eqb (length (pd_customPadPrimitives o)) 0 then [] else [node "primitives" (map PadPrimitive_tree (map PadPrimitive_norm (pd_customPadPrimitives o)))])));
    [|revert SP; generalize p; intros P SP] end
  end.
  { destruct (Nat.eqb (length (pd_customPadPrimitives o)) 0) eqn:B; [apply Seq_nil|]. specialize (S eq_refl).
    match goal with |- Seq KC ?s KC ?ts => replace ts with ([] ++ [] ++ [TL; TA (VStr $"primitives")] ++ flat_map (fun x => flat (PadPrimitive_tree (PadPrimitive_norm x))) (pd_customPadPrimitives o) ++ [] ++ [] ++ [TR]) by tpeel end.
    seq_go. }
  eapply Wr_eq; [wr_go|unfold Pad_tree, Pad_norm; cbn; rewrite ?map_length; tpeel].
Qed.
#[export] Hint Resolve Pad_wr : wr.
Global Opaque PadPrimitives_read PadPrimitive_tree.
Lemma Pad_shape_step o v : wordv v = true -> (v =s "locked") = false -> Pad_step o v = Ok o.
Proof.
  intros W L. unfold Pad_step. rewrite L, andb_false_r. destruct v as [| | | |[|c s]|]; try discriminate W.
  cbn [bind at_ nth_error]. repeat (apply on_skip; [first [reflexivity|now apply char_nstr]|cbv beta]). reflexivity.
Qed.
Lemma Pad_rd o : Pad_ok o = true -> Pad_from (Pad_tree o) = Ok o.
Proof.
  rd_start Pad_ok Pad_from Pad_tree Pad_step. rewrite foldM_cons, Hst, Pad_shape_step by assumption. rewrite <- Hst. cbn [bind].
  match goal with H : forallb PadPrimitive_ok _ = true |- _ => pose proof (PadPrimitives_rd _ H) end.
  rd_loop st Pad_step.
Qed.
#[export] Hint Resolve Pad_rd : rd.
Lemma Pad_idem o : Pad_norm (Pad_norm o) = Pad_norm o.
Proof. idem Pad_norm. Qed.
#[export] Hint Rewrite Pad_idem : idem.
Lemma Pad_okn o : Pad_ok o = true -> Pad_ok (Pad_norm o) = true.
Proof. okn Pad_ok Pad_norm. Qed.
#[export] Hint Resolve Pad_okn : okn.
Lemma Pad_hd o : exists l, Pad_tree o = node "pad" l.
Proof. eexists. reflexivity. Qed.
#[export] Hint Resolve Pad_hd : hd.
Lemma Pad_same o : Pad_eqb o (Pad_norm o) = true.
Proof. same Pad_eqb Pad_norm. Qed.
#[export] Hint Resolve Pad_same : same.
Lemma Pad_rt : roundtrips Pad_to Pad_from Pad_ok Pad_norm Pad_eqb.
Proof. exact (rt_of _ _ _ Pad_tree _ _ Pad_wr Pad_rd Pad_same Pad_okn Pad_idem). Qed.
Lemma Pad_fmt : conforms Pad_to Pad_from Pad_ok Pad_norm Pad_tree.
Proof. exact (fmt_of _ _ _ _ _ Pad_wr Pad_rd). Qed.
Lemma Pad_ref : refuses Pad_from ["pad"%string].
Proof. refuse Pad_from. Qed.
Lemma Pad_ign : ignores Pad_from 3 ["at"%string; "size"%string; "drill"%string; "layers"%string; "property"%string; "remove_unused_layers"%string; "keep_end_layers"%string; "roundrect_rratio"%string; "chamfer_ratio"%string; "chamfer"%string; "net"%string; "tstamp"%string; "pinfunction"%string; "pintype"%string; "die_length"%string; "solder_mask_margin"%string; "solder_paste_margin"%string; "solder_paste_margin_ratio"%string; "clearance"%string; "zone_connect"%string; "thermal_width"%string; "thermal_gap"%string; "options"%string; "primitives"%string].
Proof. ign Pad_from Pad_step (S (S (S O))). Qed.
Lemma Pad_win : last_wins Pad_from 3 ["at"%string; "size"%string; "drill"%string; "property"%string; "remove_unused_layers"%string; "keep_end_layers"%string; "roundrect_rratio"%string; "chamfer_ratio"%string; "net"%string; "tstamp"%string; "pinfunction"%string; "pintype"%string; "die_length"%string; "solder_mask_margin"%string; "solder_paste_margin"%string; "solder_paste_margin_ratio"%string; "clearance"%string; "zone_connect"%string; "thermal_width"%string; "thermal_gap"%string; "options"%string].
Proof. wins Pad_from Pad_step (S (S (S O))). Qed.
Global Opaque Pad_from Pad_tree Pad_to Pad_norm Pad_ok Pad_eqb.


(** ** What is lost *)
#[local] Transparent Attributes_to Attributes_from Attributes_tree DrillDefinition_to DrillDefinition_from DrillDefinition_tree DrillDefinition_ok DrillDefinition_norm Pad_to.
Lemma wr_read {A} (to : A -> nat -> bool -> res str) from o i n t : Wr (to o i n) (flat t) -> write_read to from o i n = from t.
Proof. intros (s & E & S). unfold write_read. rewrite E. cbn [bind]. now rewrite (parse_seq s t S). Qed.
Lemma Attributes_nothing o i n : Attributes_empty o = true -> Attributes_to o i n = Ok [].
Proof.
  unfold Attributes_empty, Attributes_to. intros H. andbs.
  repeat match goal with E : _ = false |- _ => rewrite E; clear E end. rewrite H. reflexivity.
Qed.
Lemma Attributes_other t b1 b2 b3 b4 i n : wordv t = true ->
  enumb ["through_hole"; "smd"; "board_only"; "exclude_from_pos_files"; "exclude_from_bom"; "allow_missing_courtyard"]%string t = false ->
  write_read Attributes_to Attributes_from (mkAttributes t b1 b2 b3 b4) i n = Ok (mkAttributes VNone b1 b2 b3 b4).
Proof.
  intros W N. rewrite (wr_read _ _ _ i n (Attributes_tree (mkAttributes t b1 b2 b3 b4))).
  - unfold enumb in N. cbn [existsb] in N. repeat (apply orb_false_elim in N; destruct N as [? N]).
    unfold Attributes_tree. cbn [fx_type fx_boardOnly fx_excludeFromPosFiles fx_excludeFromBom fx_allowMissingCourtyard]. unfold optv.
    replace (is_none t) with false by (now destruct t). cbn [app].
    assert (A : forall o, Attributes_item o t = Ok o) by (intros; unfold Attributes_item; skip_ons; reflexivity).
    assert (B : forall l, Attributes_from (node "attr" (t :: l)) = foldM Attributes_item Attributes_default l).
    { intros l. unfold Attributes_from. change (need_head "attr" (node "attr" (t :: l))) with (Ok (VStr $"attr" :: t :: l)). cbn [bind].
      change (at_ (node "attr" (t :: l)) 1) with (Ok t). change (Nat.ltb 1 (length (VStr $"attr" :: t :: l))) with true. cbn [on bind].
      repeat match goal with E : is_str t _ = false |- _ => rewrite E; clear E end. cbn [on orb bind].
      rewrite foldM_cons. change (Attributes_item ?o (VStr $"attr")) with (Ok o). cbn [bind]. rewrite foldM_cons, A. reflexivity. }
    rewrite B. clear.
    destruct b1, b2, b3, b4; vm_compute; reflexivity.
  - unfold Attributes_to. cbn [fx_type fx_boardOnly fx_excludeFromPosFiles fx_excludeFromBom fx_allowMissingCourtyard].
    replace (is_none t) with false by (now destruct t). cbn [andb].
    eapply Wr_eq; [wr_go|]. unfold Attributes_tree. cbn. unfold optv. replace (is_none t) with false by (now destruct t). tpeel.
Qed.
(** a round drill *)
Lemma Drill_round_width o i n : dd_oval o = false -> DrillDefinition_ok (o <| dd_width := VNone |>) = true ->
  write_read DrillDefinition_to DrillDefinition_from o i n = Ok (DrillDefinition_norm (o <| dd_width := VNone |>)).
Proof.
  intros E H. apply (rt_as _ _ _ _ _ o _ i n DrillDefinition_rt); [|exact H].
  destruct o. cbn in E. subst. reflexivity.
Qed.
Lemma Drill_round_offset o p i n : dd_oval o = false -> numb (dd_diameter o) = true -> dd_offset o = Some p -> pos2_ok p = true ->
  write_read DrillDefinition_to DrillDefinition_from o i n
  = Ok (mkDrillDefinition false (nrm (dd_diameter o)) (xy_tree "offset" (Position_norm p)) (Some (Position_norm p))).
Proof.
  destruct o as [v d w q]. cbn [dd_oval dd_diameter dd_offset]. intros -> Hd -> Hp.
  assert (R : Position_from (xy_tree "offset" (Position_norm p)) = Ok (Position_norm p)).
  { apply pos2_rd; [reflexivity|]. now apply pos2_okn. }
  facts.
  rewrite (wr_read _ _ _ i n (node "drill" [nrm d; xy_tree "offset" (Position_norm p)])).
  - assert (Hn : numb (nrm d) = true) by (now apply numb_nrm). unfold DrillDefinition_from.
    remember (xy_tree "offset" (Position_norm p)) as q eqn:Eq.
    change (need_head "drill" (node "drill" [nrm d; q])) with (Ok [VStr $"drill"; nrm d; q]). cbn [bind].
    change (at_ (node "drill" [nrm d; q]) 1) with (Ok (nrm d)). change (at_ (node "drill" [nrm d; q]) 2) with (Ok q). cbn [bind].
    rewrite (numb_nstr (nrm d) _ Hn). cbn [length Nat.ltb Nat.leb on setf bind].
    rewrite foldM_cons. change (DrillDefinition_step ?o (VStr $"drill")) with (Ok o). cbn [bind].
    rewrite foldM_cons. unfold DrillDefinition_step at 1. rewrite (numb_leaf _ Hn). cbn [negb bind].
    rewrite foldM_cons. unfold DrillDefinition_step at 1.
    replace (is_list q) with true by (now rewrite Eq). replace (at_ q 0) with (Ok (VStr $"offset")) by (now rewrite Eq).
    cbn [negb bind]. change (is_str (VStr $"offset") "offset") with true. unfold on, setf. rewrite R. reflexivity.
  - unfold DrillDefinition_to. cbn [dd_oval dd_diameter dd_offset dd_width andb]. eapply Wr_eq; [wr_go|]. tpeel.
Qed.
Lemma Drill_oval_none o i n : dd_oval o = true -> numb (dd_diameter o) = true -> dd_width o = VNone -> dd_offset o = None ->
  write_read DrillDefinition_to DrillDefinition_from o i n = Err EIndex.
Proof.
  destruct o as [v d w q]. cbn [dd_oval dd_diameter dd_offset dd_width]. intros -> Hd -> ->.
  rewrite (wr_read _ _ _ i n (node "drill" [VStr $"oval"; nrm d])); [reflexivity|].
  unfold DrillDefinition_to. cbn [dd_oval dd_diameter dd_offset dd_width]. change (is_none VNone) with true. cbn [andb negb]. eapply Wr_eq; [wr_go|]. tpeel.
Qed.
(** the number of a pad comes back as text *)
Lemma Pad_number_text o i n : Pad_ok (o <| pd_number := VStr (fmt (pd_number o)) |>) = true ->
  write_read Pad_to Pad_from o i n = Ok (Pad_norm (o <| pd_number := VStr (fmt (pd_number o)) |>)).
Proof. intros H. apply (rt_as _ _ _ _ _ o _ i n Pad_rt); [|exact H]. destruct o. reflexivity. Qed.
