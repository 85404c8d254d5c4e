(** How readers fail: item by item. *)
From Verif Require Import PyBase PyNum PyStr Sexpr S_Leaf S_Tree S_Reader S_Local L_Lex L_Seq L_Tac L_Keep L_Swap.

Definition good {A} (r : res A) : bool := match r with Ok _ => true | Err _ => false end.
Lemma first_error_ext f g items : (forall x, f x = g x) -> first_error f items = first_error g items.
Proof. intros H. induction items as [|x l IH]; [reflexivity|]. cbn [first_error]. now rewrite H, IH. Qed.
(** The exception of a step does not depend on the object. *)
Definition blind {A B} (st : A -> B -> res A) : Prop := forall o1 o2 x, error (st o1 x) = error (st o2 x).
Lemma blind_fold {A} (st : A -> val -> res A) : blind st -> forall items o o', error (foldM st o items) = first_error (fun x => error (st o' x)) items.
Proof.
  intros B items. induction items as [|x l IH]; intros o o'; [reflexivity|].
  change (error (bind (st o x) (fun o => foldM st o l)) = match error (st o' x) with Some e => Some e | None => first_error (fun x => error (st o' x)) l end).
  rewrite (B o' o x). destruct (st o x) as [o1|e]; [|reflexivity]. cbn [error bind]. apply IH.
Qed.
Lemma local_fold {A B} (st : A -> val -> res A) (k : A -> res B) : blind st -> (forall o, good (k o) = true) -> forall o before items,
  good (bind (foldM st o before) k) = true ->
  error (bind (foldM st o (before ++ items)) k) = first_error (fun x => error (bind (foldM st o (before ++ [x])) k)) items.
Proof.
  intros H K o before items G. rewrite foldM_app.
  transitivity (first_error (fun x => error (bind (bind (foldM st o before) (fun o => foldM st o [x])) k)) items);
    [|apply first_error_ext; intros x; now rewrite foldM_app].
  destruct (foldM st o before) as [o1|e]; [|discriminate G]. cbn [bind].
  transitivity (error (foldM st o1 items)).
  { destruct (foldM st o1 items) as [o2|e]; [|reflexivity]. cbn [bind]. specialize (K o2). now destruct (k o2). }
  rewrite (blind_fold st H items o1 o1). apply first_error_ext. intros x. change (foldM st o1 [x]) with (bind (st o1 x) (fun o => Ok o)).
  destruct (st o1 x) as [o2|e]; [|reflexivity]. cbn [bind]. specialize (K o2). now destruct (k o2).
Qed.
Lemma local_fold0 {A} (st : A -> val -> res A) : blind st -> forall o before items, good (foldM st o before) = true ->
  error (foldM st o (before ++ items)) = first_error (fun x => error (foldM st o (before ++ [x]))) items.
Proof.
  intros H o before items G.
  assert (E : forall l, foldM st o l = bind (foldM st o l) (fun o => Ok o)) by (intros l; destruct (foldM st o l); reflexivity).
  rewrite E in G. rewrite E. rewrite (local_fold st (fun o => Ok o) H (fun _ => eq_refl) o before items G).
  apply first_error_ext. intros x. now rewrite <- E.
Qed.
Lemma error_bind {A B C} (m1 : res A) (m2 : res B) (k1 : A -> res C) (k2 : B -> res C) :
  error m1 = error m2 -> (forall a b, m1 = Ok a -> m2 = Ok b -> error (k1 a) = error (k2 b)) -> error (bind m1 k1) = error (bind m2 k2).
Proof. destruct m1, m2; cbn; intros H K; try discriminate H; [now apply K|assumption]. Qed.
Lemma error_same {A B C} (m : res A) (k1 : A -> res B) (k2 : A -> res C) : (forall a, m = Ok a -> error (k1 a) = error (k2 a)) -> error (bind m k1) = error (bind m k2).
Proof. destruct m; cbn; intros H; [now apply H|reflexivity]. Qed.
Lemma error_on {A} (b : bool) (f g : A -> res A) o1 o2 : (b = true -> error (f o1) = error (g o2)) -> error (on b f o1) = error (on b g o2).
Proof. destruct b; intros H; [now apply H|reflexivity]. Qed.
Lemma error_if {A B} (b : bool) (m1 n1 : res A) (m2 n2 : res B) : (b = true -> error m1 = error m2) -> (b = false -> error n1 = error n2) -> error (if b then m1 else n1) = error (if b then m2 else n2).
Proof. destruct b; auto. Qed.
Lemma error_fold {A} (st : A -> val -> res A) l : blind st -> forall o1 o2, error (foldM st o1 l) = error (foldM st o2 l).
Proof. intros B o1 o2. now rewrite (blind_fold st B l o1 o1), (blind_fold st B l o2 o1). Qed.

Ltac ind1 :=
  lazymatch goal with
  | |- error (Ok _) = error (Ok _) => reflexivity
  | |- error (Err ?e) = error (Err ?e) => reflexivity
  | |- error (on _ _ _) = error (on _ _ _) => apply error_on; intros ?
  | |- error (if ?b then _ else _) = error (if ?b then _ else _) => apply error_if; intros ?
  | |- error (setf _ _ _) = error (setf _ _ _) => unfold setf
  | |- error (addf _ _ _) = error (addf _ _ _) => unfold addf
  | |- error (extf _ _ _) = error (extf _ _ _) => unfold extf
  | |- error (bind ?m _) = error (bind ?m _) => apply error_same; intros ? ?
  | |- error (bind _ _) = error (bind _ _) => apply error_bind; [|intros ? ? ? ?]
  | |- error (foldM _ _ ?l) = error (foldM _ _ ?l) => apply error_fold; intros ? ? ?
  | |- error (dict_set _ ?k _) = error (dict_set _ ?k _) => unfold dict_set; destruct (is_list k); reflexivity
  | |- error (match ?m with _ => _ end) = error (match ?m with _ => _ end) => destruct m
  | |- error ?m = error _ => let f := head_of m in unfold f; cbv beta zeta
  end.
Ltac indep := intros ? ? ?; repeat ind1.
Ltac local_cbn := cbn [app at_ nth_error bind Datatypes.length skipn Nat.ltb Nat.leb negb].
Ltac local_top :=
  repeat match goal with
  | |- good (Err _) = true -> _ => discriminate
  | |- good _ = true -> _ => progress local_cbn
  | |- good (bind (match nth_error _ (if negb ?b then _ else _) with _ => _ end) _) = true -> _ => destruct b
  | |- good (bind (foldM _ _ _) _) = true -> _ => fail 1
  | |- good (bind (if ?b then _ else _) _) = true -> _ => destruct b; local_cbn
  | |- good (bind ?m _) = true -> _ => destruct m; local_cbn; [|discriminate]
  | |- good (if ?b then _ else _) = true -> _ => destruct b; try discriminate
  | |- good (foldM _ _ (skipn (if negb ?b then _ else _) _)) = true -> _ => destruct b; local_cbn
  end.
Ltac local_end items :=
  local_cbn;
  match goal with |- match ?m with Ok _ => true | Err _ => false end = true -> _ => change (match m with Ok _ => true | Err _ => false end) with (good m) end;
  local_top;
  lazymatch goal with
  | |- good (foldM ?st ?o ?l) = true -> _ => refine (local_fold0 st _ o l items); indep
  | |- good (bind (foldM ?st ?o ?l) ?k) = true -> _ => refine (local_fold st k _ _ o l items);
      [indep | intros ?; solve [reflexivity | repeat match goal with |- context [match ?m with _ => _ end] => destruct m end; reflexivity]]
  end.
Tactic Notation "local_in" reference(X_from) constr(n) "using" reference(Y) :=
  let h := fresh "h" in let before := fresh "before" in let items := fresh "items" in let H := fresh "H" in
  intros h before items H; swap_args n H before;
  unfold accepts, X_from, need_head, need_list, Y; local_end items.
Tactic Notation "local_in" reference(X_from) constr(n) :=
  let h := fresh "h" in let before := fresh "before" in let items := fresh "items" in let H := fresh "H" in
  intros h before items H; swap_args n H before;
  unfold accepts, X_from, need_head, need_list; local_end items.
