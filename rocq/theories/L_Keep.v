(** What a reading loop leaves unchanged. *)
From Verif Require Import PyBase PyNum PyStr Sexpr S_Leaf S_Tree S_Reader L_Lex L_Seq L_Tac.

(** If [m] gives an object, then its [p] is that of [o]. *)
Definition Keep {A T} (p : A -> T) (o : A) (m : res A) : Prop := forall o', m = Ok o' -> p o' = p o.
Lemma Keep_ok {A T} (p : A -> T) o o1 : p o1 = p o -> Keep p o (Ok o1).
Proof. intros E o' [= <-]. exact E. Qed.
Lemma Keep_err {A T} (p : A -> T) o e : Keep p o (Err e).
Proof. intros o'. discriminate. Qed.
Lemma Keep_seq {A T} (p : A -> T) o m k : Keep p o m -> (forall o1, Keep p o1 (k o1)) -> Keep p o (bind m k).
Proof. intros H K o' E. destruct m as [o1|]; [|discriminate E]. cbn [bind] in E. rewrite (K _ _ E). apply H. reflexivity. Qed.
Lemma Keep_bind {A B T} (p : A -> T) o (m : res B) k : (forall x, m = Ok x -> Keep p o (k x)) -> Keep p o (bind m k).
Proof. intros H o' E. destruct m as [x|]; [|discriminate E]. exact (H x eq_refl _ E). Qed.
Lemma Keep_if {A T} (p : A -> T) o (b : bool) m n : (b = true -> Keep p o m) -> (b = false -> Keep p o n) -> Keep p o (if b then m else n).
Proof. destruct b; intros H K; [now apply H|now apply K]. Qed.
Lemma Keep_on {A T} (p : A -> T) o (b : bool) f : (b = true -> Keep p o (f o)) -> Keep p o (on b f o).
Proof. intros H. unfold on. apply Keep_if; intros E; [exact (H E)|now apply Keep_ok]. Qed.
Lemma Keep_fold {A B T} (p : A -> T) (st : A -> B -> res A) l : forall o, (forall o x, In x l -> Keep p o (st o x)) -> Keep p o (foldM st o l).
Proof.
  induction l as [|x l IH]; intros o H; cbn [foldM]; [now apply Keep_ok|].
  apply Keep_seq; [apply H; now left|]. intros o1. apply IH. intros o2 y Hy. apply H. now right.
Qed.
Lemma Keep_setf {A T U} (p : A -> T) (q : A -> U) {S : Setter q} m o : (forall x, p (set q (fun _ => x) o) = p o) -> Keep p o (setf q m o).
Proof. intros H. unfold setf. apply Keep_bind. intros x _. now apply Keep_ok. Qed.
Lemma Keep_addf {A T U} (p : A -> T) (q : A -> list U) {S : Setter q} m o : (forall x, p (set q (fun l => l ++ [x]) o) = p o) -> Keep p o (addf q m o).
Proof. intros H. unfold addf. apply Keep_bind. intros x _. now apply Keep_ok. Qed.
Lemma Keep_extf {A T U} (p : A -> T) (q : A -> list U) {S : Setter q} m o : (forall x, p (set q (fun l => l ++ x) o) = p o) -> Keep p o (extf q m o).
Proof. intros H. unfold extf. apply Keep_bind. intros x _. now apply Keep_ok. Qed.


(** ** Missing tokens *)
Lemma token_word k x : is_str x k = true -> token k x = true.
Proof. destruct x; try discriminate. exact (fun H => H). Qed.
Lemma token_head k x h : Nat.ltb 1 (String.length k) = true -> x@0 = Ok h -> is_str h k = true -> token k x = true.
Proof.
  intros L H E. destruct x as [| | | |s|l]; try discriminate H.
  - exfalso. destruct s as [|c s]; [discriminate H|]. cbn in H. injection H as <-.
    apply is_str_eq in E. destruct k as [|a [|b k]]; try discriminate L. discriminate E.
  - destruct l as [|y l]; [discriminate H|]. cbn in H. injection H as <-. exact E.
Qed.
Lemma lacks_in keys args x : lacks keys args = true -> In x args -> existsb (fun k => token k x) keys = false.
Proof. unfold lacks. rewrite forallb_forall. intros H I. specialize (H x I). now apply negb_true_iff in H. Qed.
Lemma need_head_in k e l : need_head k e = Ok l -> e = VList l.
Proof.
  unfold need_head, need_list. destruct e; try discriminate. cbn [bind]. destruct (at_ _ _); [|discriminate]. cbn [bind].
  destruct (is_str _ _); [|discriminate]. now intros [= <-].
Qed.
Lemma need_list_in e l : need_list e = Ok l -> e = VList l.
Proof. destruct e; try discriminate. now intros [= <-]. Qed.
Lemma in_skip {A} n (l : list A) x : In x (skipn n l) -> In x l.
Proof. intros H. rewrite <- (firstn_skipn n l). apply in_or_app. now right. Qed.
Lemma neither a b : (negb a && negb b)%bool = false -> negb a = true -> b = true.
Proof. destruct a, b; intros H1 H2; try discriminate; reflexivity. Qed.

Ltac ab_lacks :=
  match goal with
  | L : lacks ?ks (?x :: ?l) = true |- _ => let F := fresh "F" in
      assert (F : existsb (fun k => token k x) ks = false) by exact (lacks_in ks (x :: l) x L (or_introl eq_refl))
  | L : lacks ?ks ?items = true, I : In ?x ?items |- _ => let F := fresh "F" in
      assert (F : existsb (fun k => token k x) ks = false) by exact (lacks_in ks items x L I); clear I
  end.
Ltac ab_in :=
  repeat match goal with I : In _ (skipn _ _) |- _ => apply in_skip in I end;
  repeat match goal with
  | E : need_head _ _ = Ok _ |- _ => apply need_head_in in E; injection E as <-
  | E : need_list (VList _) = Ok _ |- _ => apply need_list_in in E; injection E as <-
  end;
  ab_lacks.
Ltac ab_contra :=
  exfalso;
  repeat match goal with F : existsb _ _ = false |- _ => cbn [existsb] in F end;
  repeat match goal with F : orb _ _ = false |- _ => let G := fresh "F" in apply orb_false_elim in F as [G F] end;
  repeat match goal with
  | E : (negb ?a && negb ?b)%bool = false, N : negb ?a = true |- _ => apply (neither a b E) in N
  | E : orb _ _ = true |- _ => apply orb_prop in E as [E|E]
  | E : andb _ _ = true |- _ => let E2 := fresh "E" in apply andb_prop in E as [E E2]
  end;
  match goal with
  | E : is_str ?x ?k = true, F : token ?k ?x = false |- _ => rewrite (token_word k x E) in F; discriminate F
  | E : is_str ?h ?k = true, I : at_ ?x 0 = Ok ?h, F : token ?k ?x = false |- _ => rewrite (token_head k x h eq_refl I E) in F; discriminate F
  end.
Lemma Keep_from {A T} (p : A -> T) o o1 m : p o1 = p o -> Keep p o1 m -> Keep p o m.
Proof. intros E K o' H. rewrite <- E. now apply K. Qed.
Ltac keep1 :=
  lazymatch goal with
  | |- Keep _ _ (Err _) => apply Keep_err
  | |- Keep _ _ (Ok _) => apply Keep_ok
  | |- Keep _ _ (on _ _ _) => apply Keep_on; intros ?; cbv beta
  | |- Keep _ _ (setf _ _ _) => apply Keep_setf; intros ?
  | |- Keep _ _ (addf _ _ _) => apply Keep_addf; intros ?
  | |- Keep _ _ (extf _ _ _) => apply Keep_extf; intros ?
  | |- @Keep ?A _ _ _ (@bind ?A ?A _ _) => apply Keep_seq; [|intros ?; cbv beta]
  | |- Keep _ _ (bind _ _) => apply Keep_bind; intros ? ?; cbv beta
  | |- Keep _ _ (foldM _ _ _) => eapply Keep_from; [|apply Keep_fold; intros ? ? ?; cbv beta]
  | |- Keep _ _ (if ?b then _ else _) => apply Keep_if; intros ?
  | |- Keep _ _ (match ?m with _ => _ end) => destruct m
  | |- Keep _ _ (let x := _ in _) => cbv zeta
  end.
Ltac head_of m := lazymatch m with ?f _ => head_of f | _ => m end.
(* a helper function of the reader *)
Ltac keep2 := lazymatch goal with |- Keep _ _ ?m => let f := head_of m in unfold f; cbv beta end.
Ltac keep := repeat first [keep1 | keep2]; try first [reflexivity | ab_contra].
Ltac absent_start X_default items o L H :=
  unfold absent; intros items o L H;
  let K := fresh "K" in
  match type of H with ?m = Ok _ =>
    match goal with |- ?p o = ?d =>
      assert (K : Keep p X_default m);
      [ clear H | rewrite (K _ H); reflexivity ]
    end
  end.
Lemma at_in n : forall items x, at_ (VList items) n = Ok x -> In x items.
Proof.
  intros items x. unfold at_. destruct (nth_error items n) eqn:E; [|discriminate]. intros [= <-]. now apply nth_error_In in E.
Qed.
(* a positional element *)
Ltac ab_at :=
  match goal with
  | L : lacks _ ?items = true, I : at_ (VList ?items) _ = Ok ?x, E : _ = true |- _ =>
      match type of E with context [is_str x _] => apply at_in in I; ab_in; ab_contra end
  end.
Ltac absent_steps := first [match goal with I : In _ _ |- _ => ab_in end; keep | ab_at].
Tactic Notation "absent_in" reference(X_from) constr(X_default) :=
  let items := fresh "items" in let o := fresh "o" in let L := fresh "L" in let H := fresh "H" in
  absent_start X_default items o L H;
  unfold X_from; repeat keep1; try reflexivity; absent_steps.
