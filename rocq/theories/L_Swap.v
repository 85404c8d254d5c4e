(** Steps that may be exchanged. *)
From Verif Require Import PyBase PyNum PyStr Sexpr S_Leaf S_Tree S_Reader L_Lex L_Seq L_Tac L_Keep.

(** [f] and then [g] gives no other object than [g] and then [f]. *)
Definition Comm {A} (f g : A -> res A) : Prop :=
  forall o o', (let! a := f o in g a) = Ok o' -> (let! a := g o in f a) = Ok o'.
Lemma bind_inv {A B} (m : res A) (f : A -> res B) r : bind m f = Ok r -> exists x, m = Ok x /\ f x = Ok r.
Proof. destruct m as [x|]; [|discriminate]. intros E. now exists x. Qed.
Lemma Comm_intro {A} (f g : A -> res A) : (forall o a b, f o = Ok a -> g a = Ok b -> exists c, g o = Ok c /\ f c = Ok b) -> Comm f g.
Proof. intros H o o' E. apply bind_inv in E as (a & E1 & E2). destruct (H _ _ _ E1 E2) as (c & -> & E). exact E. Qed.
Lemma Comm_elim {A} (f g : A -> res A) o a b : Comm f g -> f o = Ok a -> g a = Ok b -> exists c, g o = Ok c /\ f c = Ok b.
Proof. intros H E1 E2. specialize (H o b). rewrite E1 in H. cbn [bind] in H. apply bind_inv, H. exact E2. Qed.
Lemma Comm_seq_r {A} (f g1 g2 : A -> res A) : Comm f g1 -> Comm f g2 -> Comm f (fun o => bind (g1 o) g2).
Proof.
  intros H1 H2. apply Comm_intro. intros o a b E1 E2. apply bind_inv in E2 as (a1 & E2 & E3).
  destruct (Comm_elim _ _ _ _ _ H1 E1 E2) as (c & F1 & F2). destruct (Comm_elim _ _ _ _ _ H2 F2 E3) as (d & F3 & F4).
  exists d. rewrite F1. cbn [bind]. now split.
Qed.
Lemma Comm_seq_l {A} (f1 f2 g : A -> res A) : Comm f1 g -> Comm f2 g -> Comm (fun o => bind (f1 o) f2) g.
Proof.
  intros H1 H2. apply Comm_intro. intros o a b E1 E2. apply bind_inv in E1 as (a1 & E1 & E3).
  destruct (Comm_elim _ _ _ _ _ H2 E3 E2) as (c & F1 & F2). destruct (Comm_elim _ _ _ _ _ H1 E1 F1) as (d & F3 & F4).
  exists d. rewrite F4. cbn [bind]. now split.
Qed.
Lemma Comm_pre_l {A B} (m : res B) (f : B -> A -> res A) g : (forall x, m = Ok x -> Comm (f x) g) -> Comm (fun o => bind m (fun x => f x o)) g.
Proof.
  intros H. apply Comm_intro. intros o a b E1 E2. apply bind_inv in E1 as (x & E & E1).
  destruct (Comm_elim _ _ _ _ _ (H x E) E1 E2) as (c & F1 & F2). exists c. rewrite E. cbn [bind]. now split.
Qed.
Lemma Comm_pre_r {A B} (m : res B) (f : B -> A -> res A) g : (forall x, m = Ok x -> Comm g (f x)) -> Comm g (fun o => bind m (fun x => f x o)).
Proof.
  intros H. apply Comm_intro. intros o a b E1 E2. apply bind_inv in E2 as (x & E & E2).
  destruct (Comm_elim _ _ _ _ _ (H x E) E1 E2) as (c & F1 & F2). exists c. rewrite E. cbn [bind]. now split.
Qed.
Lemma Comm_ok_l {A} (g : A -> res A) : Comm (fun o => Ok o) g.
Proof. intros o o'. cbn [bind]. now intros ->. Qed.
Lemma Comm_ok_r {A} (g : A -> res A) : Comm g (fun o => Ok o).
Proof. intros o o'. cbn [bind]. destruct (g o); exact (fun H => H). Qed.
Lemma Comm_err_l {A} e (g : A -> res A) : Comm (fun o => Err e) g.
Proof. intros o o'. discriminate. Qed.
Lemma Comm_err_r {A} e (g : A -> res A) : Comm g (fun o => Err e).
Proof. intros o o'. destruct (g o); discriminate. Qed.
Lemma Comm_on_l {A} (b : bool) (f g : A -> res A) : (b = true -> Comm f g) -> Comm (on b f) g.
Proof. destruct b; intros H; [now apply H|apply Comm_ok_l]. Qed.
Lemma Comm_on_r {A} (b : bool) (f g : A -> res A) : (b = true -> Comm g f) -> Comm g (on b f).
Proof. destruct b; intros H; [now apply H|apply Comm_ok_r]. Qed.
Lemma Comm_if_l {A} (b : bool) (f1 f2 g : A -> res A) : (b = true -> Comm f1 g) -> (b = false -> Comm f2 g) -> Comm (fun o => if b then f1 o else f2 o) g.
Proof. destruct b; intros H K; [now apply H|now apply K]. Qed.
Lemma Comm_if_r {A} (b : bool) (f1 f2 g : A -> res A) : (b = true -> Comm g f1) -> (b = false -> Comm g f2) -> Comm g (fun o => if b then f1 o else f2 o).
Proof. destruct b; intros H K; [now apply H|now apply K]. Qed.
Lemma Comm_fold_l {A B} (st : A -> B -> res A) g l : (forall x, Comm (fun o => st o x) g) -> Comm (fun o => foldM st o l) g.
Proof.
  intros H. induction l as [|x l IH]; [apply Comm_ok_l|]. change (Comm (fun o => bind (st o x) (fun o => foldM st o l)) g).
  apply Comm_seq_l; [apply H|exact IH].
Qed.
Lemma Comm_fold_r {A B} (st : A -> B -> res A) g l : (forall x, Comm g (fun o => st o x)) -> Comm g (fun o => foldM st o l).
Proof.
  intros H. induction l as [|x l IH]; [apply Comm_ok_r|]. change (Comm g (fun o => bind (st o x) (fun o => foldM st o l))).
  apply Comm_seq_r; [apply H|exact IH].
Qed.

(** [u] reads and writes nothing but [p]. *)
Definition Acts {A T} (p : A -> T) {S : Setter p} (u : A -> res A) : Prop :=
  exists g : T -> res T, forall o, u o = (let! x := g (p o) in Ok (set p (fun _ => x) o)).
Lemma Acts_setf {A T} (p : A -> T) {S : Setter p} m : Acts p (setf p m).
Proof. exists (fun _ => m). reflexivity. Qed.
Lemma Comm_acts {A T U} (p : A -> T) {S : Setter p} (q : A -> U) {R : Setter q} u v :
  Acts p u -> Acts q v ->
  (forall o x, p (set q (fun _ => x) o) = p o) -> (forall o x, q (set p (fun _ => x) o) = q o) ->
  (forall o x y, set q (fun _ => y) (set p (fun _ => x) o) = set p (fun _ => x) (set q (fun _ => y) o)) -> Comm u v.
Proof.
  intros [g G] [k K] L1 L2 L3 o o'. rewrite G, K.
  destruct (g (p o)) as [x|] eqn:Ex; cbn [bind]; [|discriminate]. rewrite K, L2.
  destruct (k (q o)) as [y|]; cbn [bind]; [|discriminate]. rewrite G, L1, Ex. cbn [bind]. intros [= <-]. now rewrite L3.
Qed.
Lemma fold_swap {A B} (st : A -> B -> res A) x y after o' : Comm (fun o => st o x) (fun o => st o y) ->
  forall before o, foldM st o (before ++ x :: y :: after) = Ok o' -> foldM st o (before ++ y :: x :: after) = Ok o'.
Proof.
  intros C. induction before as [|b before IH]; intros o.
  - change (bind (st o x) (fun o => bind (st o y) (fun o => foldM st o after)) = Ok o' -> bind (st o y) (fun o => bind (st o x) (fun o => foldM st o after)) = Ok o').
    intros E. apply bind_inv in E as (a & E1 & E). apply bind_inv in E as (c & E2 & E).
    destruct (Comm_elim _ _ _ _ _ C E1 E2) as (d & F1 & F2). cbv beta in F1, F2. rewrite F1. cbn [bind]. rewrite F2. exact E.
  - change (bind (st o b) (fun o => foldM st o (before ++ x :: y :: after)) = Ok o' -> bind (st o b) (fun o => foldM st o (before ++ y :: x :: after)) = Ok o').
    destruct (st o b) as [a|]; [|discriminate]. exact (IH a).
Qed.
Lemma Acts_addf {A T} (p : A -> list T) {S : Setter p} m : (forall f o, set p f o = set p (fun _ => f (p o)) o) -> Acts p (addf p m).
Proof. intros L. exists (fun l => let! x := m in Ok (l ++ [x])). intros o. unfold addf. destruct m; cbn [bind]; [|reflexivity]. now rewrite L. Qed.
Lemma Acts_extf {A T} (p : A -> list T) {S : Setter p} m : (forall f o, set p f o = set p (fun _ => f (p o)) o) -> Acts p (extf p m).
Proof. intros L. exists (fun l => let! x := m in Ok (l ++ x)). intros o. unfold extf. destruct m; cbn [bind]; [|reflexivity]. now rewrite L. Qed.

Lemma apart_group groups x y : apart groups x y = true -> Forall (fun g => (touches g x && touches g y)%bool = false) groups.
Proof. intros H. apply Forall_forall. intros g I. unfold apart in H. rewrite forallb_forall in H. specialize (H g I). now apply negb_true_iff in H. Qed.
Lemma touch_contra g x y k1 k2 : (touches g x && touches g y)%bool = false -> existsb (String.eqb k1) g = true -> existsb (String.eqb k2) g = true ->
  token k1 x = true -> token k2 y = true -> False.
Proof.
  intros H E1 E2 T1 T2. assert (touches g x = true) as Hx.
  { unfold touches. apply existsb_exists in E1 as (k & I & E). apply String.eqb_eq in E. subst k. apply existsb_exists. now exists k1. }
  assert (touches g y = true) as Hy.
  { unfold touches. apply existsb_exists in E2 as (k & I & E). apply String.eqb_eq in E. subst k. apply existsb_exists. now exists k2. }
  rewrite Hx, Hy in H. discriminate H.
Qed.
(* the tokens on both sides are in a common group *)
Ltac token_of x :=
  match goal with
  | E : is_str x ?k = true |- token _ x = true => exact (token_word k x E)
  | I : at_ x 0 = Ok ?h, E : is_str ?h ?k = true |- token _ x = true => exact (token_head k x h eq_refl I E)
  end.
Ltac same_group :=
  exfalso;
  repeat match goal with
  | E : (negb ?a && negb ?b)%bool = false, N : negb ?a = true |- _ => apply (neither a b E) in N
  | E : orb _ _ = true |- _ => apply orb_prop in E as [E|E]
  | E : andb _ _ = true |- _ => let E2 := fresh "E" in apply andb_prop in E as [E E2]
  end;
  match goal with
  | G : (touches _ ?x && touches _ ?y)%bool = false |- _ =>
      eapply (touch_contra _ x y _ _ G); [ | | token_of x | token_of y]; reflexivity
  end.
Lemma Acts_dict {A} (p : A -> list (val * val)) {S : Setter p} k v : Acts p (fun o => let! d := dict_set (p o) k v in Ok (set p (fun _ => d) o)).
Proof. exists (fun d => dict_set d k v). reflexivity. Qed.
Ltac acts :=
  lazymatch goal with
  | |- Acts _ (setf _ _) => apply Acts_setf
  | |- Acts _ (addf _ _) => apply Acts_addf; reflexivity
  | |- Acts _ (extf _ _) => apply Acts_extf; reflexivity
  | |- Acts _ _ => apply Acts_dict
  end.
Ltac comm_leaf := first [ eapply Comm_acts; [acts | acts | reflexivity | reflexivity | reflexivity] | same_group | discriminate ].
Ltac comm w :=
  lazymatch goal with |- @Comm ?A ?f ?g =>
    let b := eval cbv beta in (f w) in
    lazymatch b with
    | Ok w => apply Comm_ok_l
    | Ok (set ?q ?k (set ?p ?h w)) => change (@Comm A (fun o => bind (Ok (set p h o)) (fun o => Ok (set q k o))) g); comm w
    | Ok (@set _ _ ?p ?S (fun _ => ?p w ++ [?x]) w) => change (Comm (@addf _ _ p S (Ok x)) g); comm_right w
    | Ok (@set _ _ ?p ?S (fun _ => ?x) w) => change (Comm (@setf _ _ p S (Ok x)) g); comm_right w
    | Err _ => apply Comm_err_l
    | on _ _ _ => apply Comm_on_l; intros ?; comm w
    | bind (dict_set (?p w) ?k ?v) _ => comm_right w
    | @bind A _ _ _ => apply Comm_seq_l; comm w
    | bind _ _ => apply Comm_pre_l; intros ? ?; comm w
    | if _ then _ else _ => apply Comm_if_l; intros ?; comm w
    | match ?m with _ => _ end => destruct m; comm w
    | foldM _ _ _ => apply Comm_fold_l; intros ?; comm w
    | @setf _ _ ?p ?S (dict_set (?p w) ?k ?v) w => change (Comm (fun o => let! d := dict_set (p o) k v in Ok (@set _ _ p S (fun _ => d) o)) g); comm_right w
    | @setf _ _ ?p ?S ?m w => change (Comm (@setf _ _ p S m) g); comm_right w
    | @addf _ _ ?p ?S ?m w => change (Comm (@addf _ _ p S m) g); comm_right w
    | @extf _ _ ?p ?S ?m w => change (Comm (@extf _ _ p S m) g); comm_right w
    | _ => let h := head_of b in let b' := eval unfold h in b in
           let f' := lazymatch (eval pattern w in b') with ?F _ => F end in change (Comm f' g); comm w
    end
  end
with comm_right w :=
  lazymatch goal with |- @Comm ?A ?f ?g =>
    let b := eval cbv beta in (g w) in
    lazymatch b with
    | Ok w => apply Comm_ok_r
    | Ok (set ?q ?k (set ?p ?h w)) => change (@Comm A f (fun o => bind (Ok (set p h o)) (fun o => Ok (set q k o)))); comm_right w
    | Ok (@set _ _ ?p ?S (fun _ => ?p w ++ [?x]) w) => change (Comm f (@addf _ _ p S (Ok x))); comm_leaf
    | Ok (@set _ _ ?p ?S (fun _ => ?x) w) => change (Comm f (@setf _ _ p S (Ok x))); comm_leaf
    | Err _ => apply Comm_err_r
    | on _ _ _ => apply Comm_on_r; intros ?; comm_right w
    | bind (dict_set (?p w) ?k ?v) _ => comm_leaf
    | @bind A _ _ _ => apply Comm_seq_r; comm_right w
    | bind _ _ => apply Comm_pre_r; intros ? ?; comm_right w
    | if _ then _ else _ => apply Comm_if_r; intros ?; comm_right w
    | match ?m with _ => _ end => destruct m; comm_right w
    | foldM _ _ _ => apply Comm_fold_r; intros ?; comm_right w
    | @setf _ _ ?p ?S (dict_set (?p w) ?k ?v) w => change (Comm f (fun o => let! d := dict_set (p o) k v in Ok (@set _ _ p S (fun _ => d) o))); comm_leaf
    | @setf _ _ ?p ?S ?m w => change (Comm f (@setf _ _ p S m)); comm_leaf
    | @addf _ _ ?p ?S ?m w => change (Comm f (@addf _ _ p S m)); comm_leaf
    | @extf _ _ ?p ?S ?m w => change (Comm f (@extf _ _ p S m)); comm_leaf
    | _ => let h := head_of b in let b' := eval unfold h in b in
           let g' := lazymatch (eval pattern w in b') with ?F _ => F end in change (Comm f g'); comm_right w
    end
  end.
Ltac swap_args n H before :=
  lazymatch n with
  | O => clear H
  | S ?m => destruct before as [|? before]; [exfalso; clear - H; cbn [length] in H; lia|]; swap_args m H before
  end.
Ltac swap_finish :=
  repeat match goal with
  | |- bind (if ?b then _ else _) _ = _ -> _ => destruct b; cbn [bind]; try discriminate
  | |- bind ?m _ = _ -> bind ?m _ = _ => destruct m; cbn [bind]; [|discriminate]
  | |- (if ?b then _ else _) = _ -> (if ?b then _ else _) = _ => destruct b; try discriminate
  | |- bind ?m _ = _ -> bind ?n _ = _ => change n with m; destruct m; cbn [bind]; [|discriminate]
  end;
  repeat (refine (fold_imp _ _ _ _ _ _ _); intros ?);
  refine (fold_swap _ _ _ _ _ _ _ _).
(* with the helper [Y], which looks at positional arguments only *)
Tactic Notation "swap_in" reference(X_from) reference(X_step) constr(n) "using" reference(Y) :=
  let h := fresh "h" in let before := fresh "before" in let x := fresh "x" in let y := fresh "y" in
  let after := fresh "after" in let o := fresh "o" in let H := fresh "H" in let K := fresh "K" in
  unfold swaps; intros h before x y after o H K;
  swap_args n H before;
  apply apart_group in K; repeat (let G := fresh "G" in apply Forall_cons_iff in K as [G K]); clear K;
  unfold X_from, need_head, need_list, Y; cbn [app at_ nth_error bind Datatypes.length skipn Nat.ltb Nat.leb];
  repeat match goal with
  | |- bind (if ?b then _ else _) _ = _ -> _ => destruct b; cbn [bind at_ nth_error skipn]
  | |- (if ?b then _ else _) = _ -> _ => destruct b; cbn [bind at_ nth_error skipn]
  | |- context [if negb (is_list ?v) then _ else _] => destruct (is_list v); cbn [negb bind at_ nth_error skipn]
  | |- _ => progress cbn [bind negb nth_error skipn]
  end; try discriminate;
  swap_finish; unfold X_step; comm o.
Tactic Notation "swap_in" reference(X_from) reference(X_step) constr(n) :=
  let h := fresh "h" in let before := fresh "before" in let x := fresh "x" in let y := fresh "y" in
  let after := fresh "after" in let o := fresh "o" in let H := fresh "H" in let K := fresh "K" in
  unfold swaps; intros h before x y after o H K;
  swap_args n H before;
  apply apart_group in K; repeat (let G := fresh "G" in apply Forall_cons_iff in K as [G K]); clear K;
  unfold X_from, need_head, need_list; cbn [app at_ nth_error bind Datatypes.length skipn Nat.ltb Nat.leb];
  swap_finish; unfold X_step; comm o.
