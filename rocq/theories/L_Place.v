(** From which place an attribute is taken. *)
From Verif Require Import PyBase PyNum PyStr Sexpr S_Leaf S_Tree S_Reader S_Gather S_Pick S_Place L_Lex L_Seq L_Tac L_Keep L_Swap L_Gather L_Pick.

Lemma finds_by {A T} (from : val -> res A) f (p : A -> T) : (forall e, Hit p (f e) (from e)) -> finds from f p.
Proof. intros H e o E. exact (H e o E). Qed.
Lemma Hit_of_Keep {A T} (p : A -> T) v o m : v = Ok (p o) -> Keep p o m -> Hit p v m.
Proof. intros -> K o' E. now rewrite (K _ E). Qed.
Lemma Keep_hit {A T} (p : A -> T) v o m : v = Ok (p o) -> (forall o', m = Ok o' -> p o' = p o) -> Hit p v m.
Proof. intros -> K o' E. now rewrite (K _ E). Qed.

Ltac place_keep := solve [pkeep].
Ltac place_find := match goal with E : at_ _ _ = Ok _ |- _ => exact E end.
Ltac place_top :=
  cbv beta zeta;
  lazymatch goal with
  | |- Hit _ _ (bind (need_head _ ?e) _) => apply Hit_pre; let l := fresh "l" in let E := fresh "E" in intros l E; apply need_head_in in E; subst e; place_top
  | |- Hit _ _ (bind (need_list ?e) _) => apply Hit_pre; let l := fresh "l" in let E := fresh "E" in intros l E; apply need_list_in in E; subst e; place_top
  | |- Hit _ _ (Err _) => apply Hit_err
  | |- Hit _ _ (if _ then _ else _) => apply Hit_if; intros ?; place_top
  | |- Hit ?p _ (bind (setf ?q _ _) _) =>
      first [ unify p q; apply Hit_seq_l; [refine (Hit_setf _ _ _ _ _ _); [intros ?; reflexivity | reflexivity] | intros ?; place_keep]
            | apply Hit_pre; intros ? _; place_top ]
  | |- Hit ?p _ (setf ?q _ _) => unify p q; refine (Hit_setf _ _ _ _ _ _); [intros ?; reflexivity | reflexivity]
  | |- Hit _ _ (foldM _ ?o _) => apply (Hit_of_Keep _ _ o); [place_find | place_keep]
  | |- Hit _ _ (bind _ _) => apply Hit_pre; intros ? ?; place_top
  end.
Ltac place X_from := first [unfold stands|idtac]; apply finds_by; intros e; unfold X_from; place_top.

(** ** Attributes fed by some of the items with a given head *)
Lemma picks_item_by {A T} (from : val -> res A) npos feeds f (p : A -> T) :
  (forall before x after, npos <= length before -> feeds x = true -> forallb (fun y => negb (feeds y)) after = true ->
    Hit p (f x) (from (VList (before ++ x :: after)))) ->
  picks_item from npos feeds f p.
Proof. intros H before x after o Hn F L E. exact (H before x after Hn F L o E). Qed.
Lemma Hit_items {A T} (p : A -> T) (st : A -> val -> res A) feeds v x before after n :
  n <= length before -> forallb (fun y => negb (feeds y)) after = true ->
  (forall o y, feeds y = false -> Keep p o (st o y)) ->
  (forall o, Hit p v (st o x)) ->
  forall o, Hit p v (foldM st o (skipn n (before ++ x :: after))).
Proof.
  intros Hn L K H o. rewrite skipn_app, (proj2 (Nat.sub_0_le _ _) Hn). cbn [skipn]. rewrite foldM_app.
  apply Hit_pre. intros o1 _. change (foldM st o1 (x :: after)) with (bind (st o1 x) (fun o => foldM st o after)).
  apply Hit_seq_l; [apply H|]. intros o2. apply Keep_fold. intros o3 y Hy. apply K.
  rewrite forallb_forall in L. specialize (L y Hy). now apply negb_true_iff in L.
Qed.
Lemma Hit_items0 {A T} (p : A -> T) (st : A -> val -> res A) feeds v x before after :
  forallb (fun y => negb (feeds y)) after = true ->
  (forall o y, feeds y = false -> Keep p o (st o y)) ->
  (forall o, Hit p v (st o x)) ->
  forall o, Hit p v (foldM st o (before ++ x :: after)).
Proof. intros L K H o. apply (Hit_items p st feeds v x before after 0); auto with arith. Qed.
Lemma head_list k y h : Nat.ltb 1 (String.length k) = true -> at_ y 0 = Ok h -> is_str h k = true -> exists l, y = VList (h :: l).
Proof.
  intros L H E. destruct y as [| | | |s|l]; try discriminate H.
  - exfalso. destruct s as [|c s]; [discriminate H|]. cbn in H. injection H as <-.
    apply is_str_eq in E. destruct k as [|a [|b k]]; try discriminate L. discriminate E.
  - destruct l as [|y l]; [discriminate H|]. cbn in H. injection H as <-. now exists l.
Qed.
Lemma headed_in k c x : headed k c x = true -> exists h l, x = VList (h :: l) /\ is_str h k = true /\ c l = true.
Proof. destruct x as [| | | | |[|h l]]; try discriminate. cbn. intros H. apply andb_prop in H as [H1 H2]. now exists h, l. Qed.
Ltac item_keep :=
  repeat first [keep1 | keep2]; try reflexivity;
  match goal with
  | I : at_ ?y 0 = Ok ?h, E : is_str ?h ?k = true |- _ =>
      let l := fresh "l" in let Ey := fresh "E" in destruct (head_list k y h eq_refl I E) as [l Ey]; subst y
  end.
Ltac item_top X_step feeds :=
  lazymatch goal with
  | |- Hit _ _ (bind (need_head _ _) _) => apply Hit_pre; let l := fresh "l" in let E := fresh "E" in intros l E; apply need_head_in in E; injection E as <-; item_top X_step feeds
  | |- Hit _ _ (bind (need_list (VList _)) _) => apply Hit_pre; let l := fresh "l" in let E := fresh "E" in intros l E; apply need_list_in in E; injection E as <-; item_top X_step feeds
  | |- Hit _ _ (Err _) => apply Hit_err
  | |- Hit _ _ (if _ then _ else _) => apply Hit_if; intros ?; item_top X_step feeds
  | |- Hit _ _ (let x := _ in _) => cbv zeta; item_top X_step feeds
  | |- Hit _ _ (bind _ _) => apply Hit_pre; intros ? ?; item_top X_step feeds
  | |- Hit ?p _ (foldM _ _ (skipn _ _)) => apply (Hit_items p _ feeds); [pick_lia | assumption | intros ? ? ?; unfold X_step | intros ?; unfold X_step]
  | |- Hit ?p _ (foldM _ _ _) => apply (Hit_items0 p _ feeds); [assumption | intros ? ? ?; unfold X_step | intros ?; unfold X_step]
  end.
Ltac item_in X_from X_step :=
  lazymatch goal with
  | |- picks_item _ _ ?feeds _ _ => apply picks_item_by; intros ? ? ? ? ? ?; unfold X_from; item_top X_step feeds
  end.
Ltac item_contra :=
  exfalso;
  repeat match goal with H : len_ (VList _) = Ok _ |- _ => injection H as <- end;
  repeat match goal with H : at_ (VList (?x :: _)) 0 = Ok ?x |- _ => clear H end;
  match goal with F : headed _ _ (VList (?h :: _)) = false, E : is_str ?h _ = true |- _ => cbn [headed] in F; rewrite E in F; cbn [andb] in F end;
  repeat match goal with H : context [length (?h :: ?l)] |- _ => is_var l; destruct l | H : context [length ?l] |- _ => is_var l; destruct l end;
  cbn in *; congruence.
Ltac item_hit :=
  match goal with F : headed ?k _ ?x = true |- _ =>
    let h := fresh "h" in let l := fresh "l" in let E := fresh "E" in let C := fresh "C" in
    apply headed_in in F as (h & l & -> & E & C); apply is_str_eq in E; subst h end.
Ltac item_skip :=
  repeat (lazymatch goal with
  | |- Hit _ _ (bind (at_ _ _) _) => cbn [at_ nth_error bind]
  | |- Hit _ _ (if ?b then _ else _) => let v := eval vm_compute in b in change b with v; cbv iota
  | |- Hit _ _ (bind (on ?b _ _) _) => let v := eval vm_compute in b in lazymatch v with false => change b with false; cbn [on bind] end
  end; cbv beta);
  lazymatch goal with |- Hit _ _ (bind (on ?b _ _) _) => change b with true; apply Hit_seq_l; [cbn [on]|intros ?; solve [pkeep]] end.

(** ** Flags *)
Definition Flag {A} (p : A -> bool) (o : A) (b : bool) (m : res A) : Prop := forall o', m = Ok o' -> p o' = (p o || b)%bool.
Lemma Flag_by {A} (p : A -> bool) o b m : (b = true -> Hit p (Ok true) m) -> (b = false -> Keep p o m) -> Flag p o b m.
Proof.
  intros H K o' E. destruct b.
  - specialize (H eq_refl o' E). injection H as <-. now rewrite orb_true_r.
  - now rewrite (K eq_refl o' E), orb_false_r.
Qed.
Lemma Flag_fold {A} (p : A -> bool) (st : A -> val -> res A) sets l : (forall o x, Flag p o (sets x) (st o x)) ->
  forall o, Flag p o (existsb sets l) (foldM st o l).
Proof.
  intros F. induction l as [|x l IH]; intros o o' E; [injection E as <-; now rewrite orb_false_r|].
  change (bind (st o x) (fun o => foldM st o l) = Ok o') in E. apply bind_inv in E as (o1 & E1 & E2).
  rewrite (IH _ _ E2), (F _ _ _ E1). cbn [existsb]. now rewrite orb_assoc.
Qed.
Lemma Flag_pre {A B} (p : A -> bool) o b (m : res B) k : (forall x, m = Ok x -> Flag p o b (k x)) -> Flag p o b (bind m k).
Proof. intros H o' E. apply bind_inv in E as (x & E1 & E2). exact (H x E1 _ E2). Qed.
Lemma Flag_post {A} (p : A -> bool) o b m k : Flag p o b m -> (forall o1, Keep p o1 (k o1)) -> Flag p o b (bind m k).
Proof. intros H K o' E. apply bind_inv in E as (x & E1 & E2). rewrite (K _ _ E2). exact (H _ E1). Qed.
Lemma Flag_if {A} (p : A -> bool) o b (c : bool) m n : Flag p o b m -> Flag p o b n -> Flag p o b (if c then m else n).
Proof. now destruct c. Qed.
Lemma Flag_err {A} (p : A -> bool) o b e : Flag p o b (Err e).
Proof. intros o'. discriminate. Qed.
Lemma Flag_from {A} (p : A -> bool) o o1 b m : p o1 = p o -> Flag p o1 b m -> Flag p o b m.
Proof. intros E H o' E'. rewrite <- E. now apply H. Qed.
Lemma flags_by {A} (from : val -> res A) npos sets (p : A -> bool) (d : A) :
  p d = false -> (forall l, Flag p d (existsb sets (skipn npos l)) (from (VList l))) -> flags from npos sets p.
Proof. intros D H l o E. rewrite (H l o E), D. reflexivity. Qed.
Lemma head_true k x : head k x = true -> exists l, x = VList (VStr $k :: l).
Proof. intros H. apply headed_in in H as (h & l & -> & E & _). apply is_str_eq in E. subst h. now exists l. Qed.
Lemma word_true k x : word k x = true -> x = VStr $k.
Proof. apply is_str_eq. Qed.
Ltac flag_contra :=
  exfalso;
  repeat match goal with
  | E : (negb ?a && negb ?b)%bool = false, N : negb ?a = true |- _ => apply (neither a b E) in N
  | E : orb _ _ = true |- _ => apply orb_prop in E as [E|E]
  | E : andb _ _ = true |- _ => let E2 := fresh "E" in apply andb_prop in E as [E E2]
  end;
  first [ match goal with F : word ?k ?x = false, E : is_str ?x ?k = true |- _ => unfold word in F; rewrite E in F; discriminate F end
        | match goal with F : head ?k ?x = false, I : at_ ?x 0 = Ok ?h, E : is_str ?h ?k = true |- _ =>
            let l := fresh "l" in let Ex := fresh "E" in destruct (head_list k x h eq_refl I E) as [l Ex]; subst x; unfold head, headed in F; rewrite E in F; discriminate F end
        | match goal with E : is_str _ _ = true |- _ => solve [vm_compute in E; discriminate E] end ].
Ltac flag_keep := repeat first [keep1 | keep2]; try first [reflexivity | flag_contra].
Ltac flag_step X_step :=
  apply Flag_by; intros F;
  [ first [apply word_true in F; subst | let l := fresh "l" in apply head_true in F as [l F]; subst]; try unfold X_step; cbv beta; repeat hit_step
  | solve [flag_keep] ].
Ltac flag_top X_step :=
  cbv beta zeta;
  lazymatch goal with
  | |- Flag _ _ _ (bind (need_head _ _) _) => apply Flag_pre; let l := fresh "l" in let E := fresh "E" in intros l E; apply need_head_in in E; injection E as <-; flag_top X_step
  | |- Flag _ _ _ (bind (need_list (VList _)) _) => apply Flag_pre; let l := fresh "l" in let E := fresh "E" in intros l E; apply need_list_in in E; injection E as <-; flag_top X_step
  | |- Flag _ _ _ (Err _) => apply Flag_err
  | |- Flag _ _ _ (if _ then _ else _) => apply Flag_if; flag_top X_step
  | |- Flag ?p _ _ (foldM _ ?o _) => apply (Flag_from p _ o); [reflexivity | cbn [skipn]; apply (Flag_fold p); intros ? ?; flag_step X_step]
  | |- @Flag ?A _ _ _ (@bind ?A ?A (foldM _ _ _) _) => apply Flag_post; [flag_top X_step | intros ?; solve [flag_keep]]
  | |- @Flag ?A ?p ?o _ (@bind ?A ?A ?m _) =>
      let o1 := fresh "o" in let E := fresh "E" in let K := fresh "K" in
      apply Flag_pre; intros o1 E; assert (K : p o1 = p o) by (revert o1 E; change (Keep p o m); flag_keep); clear E;
      apply (Flag_from p o o1); [exact K|clear K; flag_top X_step]
  | |- Flag _ _ _ (bind _ _) => apply Flag_pre; intros ? ?; flag_top X_step
  end.
Ltac flag_in X_from X_step X_default := apply (flags_by _ _ _ _ X_default); [reflexivity|]; intros l; unfold X_from; flag_top X_step.
