(** C52, C53: equality of values, lists, optional values and records *)
From Coq Require Import List ZArith Lia Bool.
From Verif Require Import PyBase PyNum PyStr Sexpr S_Leaf S_Tree L_Seq L_Tac S_Equal.

(** ** Numbers: two of them are equal if they are the same multiple of a small enough power of two *)
Definition signed (n : bool) (m : Z) : Z := if n then Z.opp m else m.
Lemma dbl_scaled a m e b n k K : (0 <= e + K)%Z -> (0 <= k + K)%Z ->
  dbl_eqb (DFin a m e) (DFin b n k) = true <-> (signed a m * 2 ^ (e + K) = signed b n * 2 ^ (k + K))%Z.
Proof.
  intros E1 E2. cbn [dbl_eqb]. fold (signed a m) (signed b n). destruct (Z.leb_spec e k) as [L|L]; rewrite Z.eqb_eq.
  - replace (k + K)%Z with ((k - e) + (e + K))%Z by lia. rewrite (Z.pow_add_r 2 (k - e) (e + K)), Z.mul_assoc by lia.
    assert (P : (0 < 2 ^ (e + K))%Z) by (apply Z.pow_pos_nonneg; lia). split; [now intros ->|]. intros H. apply Z.mul_reg_r in H; [exact H|lia].
  - replace (e + K)%Z with ((e - k) + (k + K))%Z by lia. rewrite (Z.pow_add_r 2 (e - k) (k + K)), Z.mul_assoc by lia.
    assert (P : (0 < 2 ^ (k + K))%Z) by (apply Z.pow_pos_nonneg; lia). split; [now intros ->|]. intros H. apply Z.mul_reg_r in H; [exact H|lia].
Qed.
Lemma bool_ext (a b : bool) : (a = true <-> b = true) -> a = b.
Proof. destruct a, b; intros H; try reflexivity; [symmetry; apply H; reflexivity|apply H; reflexivity]. Qed.
Lemma dbl_sym f g : dbl_eqb f g = dbl_eqb g f.
Proof.
  destruct f as [a m e|a], g as [b n k|b]; try reflexivity; [|now destruct a, b]. apply bool_ext.
  rewrite (dbl_scaled a m e b n k (Z.abs e + Z.abs k)), (dbl_scaled b n k a m e (Z.abs e + Z.abs k)) by lia. split; congruence.
Qed.
Lemma dbl_trans f g h : dbl_eqb f g = true -> dbl_eqb g h = true -> dbl_eqb f h = true.
Proof.
  destruct f as [a m e|a], g as [b n k|b], h as [c p j|c]; try discriminate; [|destruct a, b, c; auto].
  rewrite (dbl_scaled a m e b n k (Z.abs e + Z.abs k + Z.abs j)), (dbl_scaled b n k c p j (Z.abs e + Z.abs k + Z.abs j)),
    (dbl_scaled a m e c p j (Z.abs e + Z.abs k + Z.abs j)) by lia. congruence.
Qed.

(** the number that a value stands for *)
Definition num (v : val) : option dbl :=
  match v with
  | VBool b => Some (DFin false (if b then 1 else 0) 0)
  | VInt z => Some (DFin false z 0)
  | VFloat f => Some f
  | _ => None
  end.
Lemma eq_Z f z : dbl_eq_Z f z = dbl_eqb f (DFin false z 0).
Proof.
  destruct f as [a m e|]; [|reflexivity]. cbn [dbl_eq_Z dbl_eqb]. destruct (Z.leb_spec 0 e) as [L|L], (Z.leb_spec e 0) as [L'|L']; try lia.
  - assert (e = 0%Z) by lia. subst e. cbn [Z.pow Z.sub Z.opp Z.add Z.pow_pos]. now rewrite !Z.mul_1_r.
  - now replace (e - 0)%Z with e by lia.
  - reflexivity.
Qed.
Lemma eq_ZZ x y : dbl_eqb (DFin false x 0) (DFin false y 0) = Z.eqb x y.
Proof. cbn. now rewrite Z.mul_1_r. Qed.
Lemma Some_inj {A} (a b : A) : Some a = Some b -> a = b.
Proof. congruence. Qed.
Lemma py_num a b x y : num a = Some x -> num b = Some y -> py_eqb a b = dbl_eqb x y.
Proof.
  destruct a as [|p|p|p| |], b as [|q|q|q| |]; cbn [num]; try discriminate; intros H1 H2; apply Some_inj in H1; apply Some_inj in H2; subst.
  - rewrite eq_ZZ. now destruct p, q.
  - rewrite eq_ZZ. reflexivity.
  - rewrite dbl_sym, <- eq_Z. reflexivity.
  - rewrite eq_ZZ, Z.eqb_sym. reflexivity.
  - rewrite eq_ZZ. reflexivity.
  - rewrite dbl_sym, <- eq_Z. reflexivity.
  - rewrite <- eq_Z. reflexivity.
  - rewrite <- eq_Z. reflexivity.
  - reflexivity.
Qed.
Lemma py_num_other a b x : num a = Some x -> num b = None -> py_eqb a b = false.
Proof. destruct a, b; cbn [num]; try discriminate; reflexivity. Qed.

Lemma lists_eq l m : py_eqb (VList l) (VList m) = leqb py_eqb l m.
Proof. revert m. induction l as [|x l IH]; intros [|y m]; try reflexivity; cbn [leqb]; rewrite <- IH; reflexivity. Qed.
Lemma leqb_sym_in {A} (f : A -> A -> bool) l : Forall (fun x => forall y, f x y = f y x) l -> forall m, leqb f l m = leqb f m l.
Proof. induction 1 as [|x l H _ IH]; intros [|y m]; try reflexivity. cbn [leqb]. now rewrite H, IH. Qed.
Lemma leqb_trans_in {A} (f : A -> A -> bool) l : Forall (fun x => forall y z, f x y = true -> f y z = true -> f x z = true) l ->
  forall m n, leqb f l m = true -> leqb f m n = true -> leqb f l n = true.
Proof.
  induction 1 as [|x l H _ IH]; intros [|y m] [|z n]; cbn [leqb]; try discriminate; [reflexivity|]. rewrite !andb_true_iff.
  intros [A1 A2] [B1 B2]. eauto.
Qed.
Lemma str_sym s t : str_eqb s t = str_eqb t s.
Proof. apply bool_ext. split; intros E; apply str_eqb_eq in E; subst; apply str_eqb_refl. Qed.
Lemma py_sym a : forall b, py_eqb a b = py_eqb b a.
Proof.
  induction a as [a L|l IH] using val_ind2; intros b.
  - destruct (num a) as [x|] eqn:Na, (num b) as [y|] eqn:Nb.
    + rewrite (py_num a b x y), (py_num b a y x) by assumption. apply dbl_sym.
    + rewrite (py_num_other a b x) by assumption. destruct b; try discriminate; destruct a; try discriminate; reflexivity.
    + rewrite (py_num_other b a y) by assumption. destruct a; try discriminate; destruct b; try discriminate; reflexivity.
    + destruct a, b; try discriminate; try reflexivity. apply str_sym.
  - destruct b as [| | | | |m]; try reflexivity. rewrite !lists_eq. now apply leqb_sym_in.
Qed.
Lemma py_trans a : forall b c, py_eqb a b = true -> py_eqb b c = true -> py_eqb a c = true.
Proof.
  induction a as [a L|l IH] using val_ind2; intros b c.
  - destruct (num a) as [x|] eqn:Na.
    + destruct (num b) as [y|] eqn:Nb; [|rewrite (py_num_other a b x) by assumption; discriminate].
      destruct (num c) as [z|] eqn:Nc; [|rewrite (py_num_other b c y) by assumption; discriminate].
      rewrite (py_num a b x y), (py_num b c y z), (py_num a c x z) by assumption. apply dbl_trans.
    + destruct a; try discriminate; destruct b; try discriminate; auto. intros E. apply str_eqb_eq in E. now subst.
  - destruct b as [| | | | |m]; try discriminate. destruct c as [| | | | |n]; try discriminate. rewrite !lists_eq. now apply leqb_trans_in.
Qed.

(** ** Combinations *)
Lemma e_py : equality py_eqb.
Proof. split; [exact py_eqb_refl|split; [exact py_sym|exact py_trans]]. Qed.
Lemma e_bool : equality Bool.eqb.
Proof. split; [|split]; [intros []|intros [] []|intros [] [] []]; auto. Qed.
Lemma e_list {A} (f : A -> A -> bool) : equality f -> equality (leqb f).
Proof.
  intros (R & S & T). split; [|split].
  - induction o as [|x l IH]; [reflexivity|]. cbn. now rewrite R, IH.
  - intros o. apply leqb_sym_in, Forall_forall. auto.
  - intros o. apply leqb_trans_in, Forall_forall. eauto.
Qed.
Lemma e_option {A} (f : A -> A -> bool) : equality f -> equality (oeqb f).
Proof. intros (R & S & T). split; [|split]; [intros []|intros [] []|intros [] [] []]; cbn; auto; try discriminate. apply T. Qed.
Lemma e_and {A} (f g : A -> A -> bool) : equality f -> equality g -> equality (fun a b => f a b && g a b).
Proof.
  intros (R & S & T) (R' & S' & T'). split; [|split].
  - intros o. now rewrite R, R'.
  - intros o o'. now rewrite S, S'.
  - intros a b c. rewrite !andb_true_iff. intros [H1 H2] [H3 H4]. eauto.
Qed.
Lemma e_of {A B} (p : A -> B) (f : B -> B -> bool) : equality f -> equality (fun a b => f (p a) (p b)).
Proof. intros (R & S & T). split; [|split]; auto. intros a b c. apply T. Qed.
Lemma e_pair : equality kveqb.
Proof. apply (e_and (fun a b : val * val => py_eqb (fst a) (fst b)) (fun a b => py_eqb (snd a) (snd b))); apply (e_of _ py_eqb), e_py. Qed.
Create HintDb equ discriminated.
#[export] Hint Resolve e_py e_bool e_pair e_list e_option : equ.
(** a record: attribute by attribute *)
Ltac fields :=
  match goal with
  | |- equality (fun a b => @?f a b && @?g a b) => apply (e_and f g); fields
  | |- equality (fun a b => ?f (?p a) (?p b)) => apply (e_of p f); auto with equ
  end.
Tactic Notation "eq_fields" reference(X) := unfold X; fields.
Tactic Notation "eq_cases" reference(X) :=
  repeat match goal with H : equality _ |- _ => destruct H as (? & ? & ?) end;
  split; [|split]; [intros []|intros [] []|intros [] [] []]; cbn [X]; auto; try discriminate; eauto.

Lemma tell {A} (to : A -> nat -> bool -> res str) from ok norm same :
  roundtrips to from ok norm same -> equality same -> tells_apart to ok same.
Proof.
  intros RT (R & S & T) o o' i i' n n' s s' O O' E E' P.
  destruct (RT o O) as (W & S1 & _). destruct (RT o' O') as (W' & S2 & _). specialize (W i n). specialize (W' i' n').
  unfold write_read in W, W'. rewrite E in W. rewrite E' in W'. cbn [bind] in W, W'. rewrite P in W. rewrite W in W'. apply Ok_inj in W'.
  apply T with (norm o); [exact S1|]. rewrite W', S. exact S2.
Qed.
