(** Proofs for C48: which expressions are read *)
From Coq Require Import String.
From Verif Require Import PyBase PyNum PyStr M_Common M_Lib M_Sym M_Fp M_Gr M_Zone M_Footprint M_Dim M_Brd M_Board M_Sch M_Schematic M_Wks S_Write L_Write S_Accept.

Lemma ok_at n v : is_ok (v@n) = has n v.
Proof.
  destruct v as [| | | |s|l]; try reflexivity; cbn [at_ has];
    [destruct (nth_error s n) eqn:E, (Nat.ltb_spec n (List.length s)); try reflexivity
    |destruct (nth_error l n) eqn:E, (Nat.ltb_spec n (List.length l)); try reflexivity];
    (apply nth_error_None in E; lia) || (assert (K := E); rewrite (proj2 (nth_error_None _ _)) in K by lia; discriminate).
Qed.
Lemma ok_setf {R T} (p : R -> T) {S : Setter p} m o : is_ok (setf p m o) = is_ok m.
Proof. now destruct m. Qed.
Lemma ok_addf {R T} (p : R -> list T) {S : Setter p} m o : is_ok (addf p m o) = is_ok m.
Proof. now destruct m. Qed.
Lemma ok_extf {R T} (p : R -> list T) {S : Setter p} m o : is_ok (extf p m o) = is_ok m.
Proof. now destruct m. Qed.
Lemma ok_on {A} b f (o : A) c : (forall o, is_ok (f o) = c) -> is_ok (on b f o) = if b then c else true.
Proof. intros H. destruct b; [apply H|reflexivity]. Qed.
Lemma ok_fold {A} (step : A -> val -> res A) cond : (forall o x, is_ok (step o x) = cond x) ->
  forall l o, is_ok (foldM step o l) = forallb cond l.
Proof.
  intros H l. induction l as [|x l IH]; intros o; [reflexivity|]. cbn [foldM forallb]. rewrite <- (H o x).
  destruct (step o x); [apply IH|reflexivity].
Qed.
Lemma ok_row {A} b (f : A -> res A) (k : A -> res A) (o : A) c d :
  (forall o, is_ok (f o) = c) -> (forall o, is_ok (k o) = d) -> is_ok (bind (on b f o) k) = (if b then c else true) && d.
Proof. intros H K. apply ok_bind; [now apply ok_on|exact K]. Qed.
Lemma ok_last {A} b (f : A -> res A) (o : A) c :
  (forall o, is_ok (f o) = c) -> is_ok (on b f o) = (if b then c else true) && true.
Proof. intros H. rewrite andb_true_r. now apply ok_on. Qed.
Lemma ok_each {B} (f : val -> res B) c n l : (forall x, is_ok (f x) = c x) ->
  is_ok (let! m := from_ (VList l) n in mapM f m) = behind n c (VList l).
Proof. intros H. now apply ok_map. Qed.
Lemma char_no c k : String.length k <> 1 -> (VStr [c] =s k) = false.
Proof.
  destruct k as [|a [|b k]]; intros H; [reflexivity|now destruct H|].
  unfold is_str, str_eqb, lit. cbn. apply andb_false_r.
Qed.
Lemma is_str_true h k : (h =s k) = true -> h = VStr (lit k).
Proof.
  destruct h as [| | | |s|]; try discriminate. unfold is_str. intros E. f_equal.
  revert E. generalize (lit k). intros t. revert t. induction s as [|x s IH]; intros [|y t]; try discriminate; [reflexivity|].
  intros E. unfold str_eqb in E; fold str_eqb in E. cbn in E. apply andb_prop in E as [E1 E2]. apply N.eqb_eq in E1 as ->. f_equal. now apply IH.
Qed.
Lemma strict_head t a s : strict t (VStr (lit (String a s))) = true.
Proof. reflexivity. Qed.
Lemma ok_is_true v : is_ok (is_true v) = has 1 v.
Proof. unfold is_true. rewrite <- ok_at. now destruct (v@1). Qed.
Create HintDb accd discriminated.
#[export] Hint Constants Opaque : accd.
#[export] Hint Resolve ok_at ok_is_true : accd.
Lemma ok_at_place {A} n l (k : val -> res A) g : (forall x, is_ok (k x) = g x) -> is_ok (bind (at_ (VList l) n) k) = at_place n g (VList l).
Proof. intros H. cbn [at_ at_place]. destruct (nth_error l n); [apply H|reflexivity]. Qed.
Lemma ok_row1 {A} b (f : A -> res A) (k : A -> res A) (o : A) d :
  (forall o, is_ok (f o) = true) -> (forall o, is_ok (k o) = d) -> is_ok (bind (on b f o) k) = d.
Proof. intros H K. apply ok_bind1; [|exact K]. rewrite (ok_on b f o true H). now destruct b. Qed.
Lemma ok_row_or {A} a b (f : A -> res A) (k : A -> res A) (o : A) c d :
  (forall o, is_ok (f o) = c) -> (forall o, is_ok (k o) = d) -> is_ok (bind (on (a || b) f o) k) = (if a then c else true) && ((if b then c else true) && d).
Proof. intros H K. rewrite (ok_row _ f k o c d H K). destruct a, b, c; reflexivity. Qed.
Lemma ok_dict_set d k v : is_ok (dict_set d k v) = hashable k.
Proof. destruct k; unfold dict_set; cbn; try reflexivity; now destruct (existsb _ _). Qed.
#[export] Hint Resolve ok_dict_set : accd.
Ltac fin := first [reflexivity
  | match goal with |- context[VList (_ :: ?l)] => destruct l as [|? [|? [|? [|? l]]]]; reflexivity end
  | match goal with |- context[VList (_ :: ?l)] => unfold both; destruct l as [|? [|? l]]; cbn [at_place nth_error]; rewrite ?andb_false_r;
      first [reflexivity | apply andb_comm] end].
Lemma ok_as_text v : is_ok (as_text v) = text v.
Proof. now destruct v. Qed.
#[export] Hint Resolve ok_as_text : accd.
Ltac ifs := repeat match goal with
  | |- context[on ?b _ _] => destruct b; unfold setf; cbn [on bind]
  | |- context[match ?b with true => _ | false => _ end] => lazymatch b with true => fail | false => fail | _ => destruct b end end; reflexivity.
Ltac okq_more := fail.
Ltac okq :=
  first [solve [eauto 1 with accd nocore] |
  lazymatch goal with
  | |- is_ok (setf _ _ _) = _ => eapply eq_trans; [apply ok_setf|okq]
  | |- is_ok (addf _ _ _) = _ => eapply eq_trans; [apply ok_addf|okq]
  | |- is_ok (extf _ _ _) = _ => eapply eq_trans; [apply ok_extf|okq]
  | |- is_ok (Ok _) = _ => apply ok_ok
  | |- is_ok (Err _) = _ => apply ok_err
  | |- is_ok (bind (from_ (VList _) _) _) = _ => eapply ok_each; intros ?; okq
  | |- is_ok (bind (at_ (VList _) _) _) = _ => first [eapply ok_bind2; [apply ok_at|intros ?; solve [okq]] | eapply ok_at_place; intros ?; okq]
  | |- is_ok (bind _ _) = _ => first [eapply ok_bind2; [okq|intros ?; solve [okq]] | eapply ok_bind; [okq|intros ?; okq]]
  | |- is_ok (mapM _ _) = _ => eapply ok_map; intros ?; okq
  | |- is_ok (let _ := _ in _) = _ => cbv zeta; okq
  | |- is_ok (from_ (VList _) _) = _ => apply ok_ok
  | |- is_ok (if _ then _ else _) = _ => first [eapply ok_if1; [okq|okq] | eapply ok_if; [okq|okq]]
  | |- is_ok _ = _ => okq_more
  end].
Ltac okr0 := eapply eq_trans; [okq | fin].
Ltac okl := match goal with |- context[VList (_ :: ?l)] =>
   destruct l as [|? [|? l]]; unfold setf; cbn [at_ nth_error bind len_ length Nat.ltb Nat.leb Nat.eqb on has named Zone_pads];
   first [reflexivity | okr0 | match goal with |- context[on ?b _ _] => destruct b end; reflexivity] end.
Ltac okr := first [okr0 | okl].
Lemma ok_head {A} h l (k : val -> res A) d : is_ok (k h) = d -> is_ok (bind (at_ (VList (h :: l)) 0) k) = d.
Proof. intros H. exact H. Qed.
Lemma ok_skip {A} b (f : A -> res A) (k : A -> res A) (o : A) d : b = false -> is_ok (k o) = d -> is_ok (bind (on b f o) k) = d.
Proof. intros -> H. exact H. Qed.
Lemma ok_else {A} (b : bool) (m k : res A) d : b = false -> is_ok k = d -> is_ok (if b then m else k) = d.
Proof. intros -> H. exact H. Qed.
Ltac chain := cbv beta;
  lazymatch goal with
  | |- is_ok (bind (at_ (VList (_ :: _)) 0) _) = _ => apply ok_head; chain
  | |- is_ok (bind (on (negb (is_list _)) _ _) _) = _ => apply ok_skip; [reflexivity|chain]
  | |- is_ok (bind (on (negb (is_list _) && _) _ _) _) = _ => apply ok_skip; [reflexivity|chain]
  | |- is_ok (if _ then _ else _) = _ => apply ok_else; [reflexivity|chain]
  | |- is_ok (bind (on _ _ _) _) = _ => first [apply ok_row; [intros ?; solve [okr] | intros ?] | apply ok_row_or; [intros ?; solve [okr] | intros ?] | apply ok_row1; [intros ?; okq | intros ?]]; chain
  | |- is_ok (on _ _ _) = _ => apply ok_last; intros ?; okr
  | |- is_ok (Ok _) = _ => reflexivity
  | |- is_ok (bind ?m _) = _ => cbn [bind is_list negb setf]; chain
  end.
(** one step: [stp] unfolds the step and its table *)
Lemma ok_off {A} b (f : A -> res A) (k : A -> res A) (o : A) : b = false -> is_ok (k o) = true -> is_ok (bind (on b f o) k) = true.
Proof. intros -> H. exact H. Qed.
Lemma ok_get {A} c s (k : val -> res A) : is_ok (k (VStr [c])) = true -> is_ok (bind (at_ (VStr (c :: s)) 0) k) = true.
Proof. intros H. exact H. Qed.
Lemma ok_on1 {A} b (f : A -> res A) (o : A) : (forall o, is_ok (f o) = true) -> is_ok (on b f o) = true.
Proof. intros H. rewrite (ok_on b f o true H). now destruct b. Qed.
Ltac text_chain := cbv beta;
  lazymatch goal with
  | |- is_ok (bind (at_ (VStr (_ :: _)) 0) _) = true => apply ok_get; text_chain
  | |- is_ok (bind (on (is_str (VStr [_]) _) _ _) _) = true => apply ok_off; [apply char_no; discriminate|text_chain]
  | |- is_ok (bind (on (orb (is_str (VStr [_]) _) _) _ _) _) = true => apply ok_off; [rewrite !char_no by discriminate; reflexivity|text_chain]
  | |- is_ok (bind (on _ _ _) _) = true => apply ok_row1; [intros ?; solve [okq | okt]|intros ?; text_chain]
  | |- is_ok (on _ _ _) = true => apply ok_on1; intros ?; solve [okq | okt]
  | |- is_ok (if is_str (VStr [_]) ?k then _ else _) = true => rewrite (char_no _ k) by discriminate; text_chain
  | |- is_ok (Ok _) = true => reflexivity
  end.
Ltac step_text s := destruct s as [|c s]; [reflexivity|]; text_chain.
Ltac step_tac stp :=
  let o := fresh in let item := fresh in
  intros o item; stp; unfold lists, texts, strict, rows; destruct item as [| | | |s|l];
  [try reflexivity; ifs | try reflexivity; ifs | try reflexivity; ifs | try reflexivity; ifs | |];
  [ cbn [is_list PyBase.is_text negb andb];
    first [abstract step_text s | abstract text_chain | ifs
          | match goal with |- context[is_str (VStr s) ?w] => destruct (is_str (VStr s) w) eqn:?E end; cbn [negb]; [|reflexivity];
            match goal with H : is_str (VStr s) _ = true |- _ => apply is_str_true in H; injection H as -> end; reflexivity
          | unfold setf, addf; cbn [on bind]; step_text s ]
  | destruct l as [|h l]; [reflexivity|]; cbn [forallb fst snd]; abstract chain ].
Ltac heads h := repeat match goal with |- context[is_str h ?k] => destruct (is_str h k) eqn:?E; cbn [negb andb orb]; [match goal with H : is_str h k = true |- _ => apply is_str_true in H; subst h end|] end.
Tactic Notation "from_tac" tactic3(frm) int_or_var(k) constr(stepl) :=
  let v := fresh in
  intros v; frm; unfold expr; destruct v as [| | | |s|l]; try reflexivity; destruct l as [|h l]; [reflexivity|];
  unfold need_head, need_list, setf;
  do k (destruct l as [|? l]; [cbn [is_list at_ nth_error bind existsb orb length Nat.ltb Nat.leb skipn]; heads h; reflexivity|]);
  cbn [is_list at_ nth_error bind existsb orb length Nat.ltb Nat.leb skipn from_]; heads h;
  try reflexivity;
  cbn [at_ nth_error bind skipn length Nat.leb andb from_]; 
  first [reflexivity | rewrite (ok_fold _ _ stepl); cbn [forallb lists texts]; rewrite ?strict_head; reflexivity].
Ltac decide_heads := repeat match goal with |- context[is_str (VStr (lit ?a)) ?b] =>
  let r := eval vm_compute in (is_str (VStr (lit a)) b) in change (is_str (VStr (lit a)) b) with r end.
Lemma always_all l : forallb S_Accept.always l = true.
Proof. now induction l. Qed.
(** readers that only count *)
Ltac heads0 := repeat match goal with |- context[is_str ?h ?k] => destruct (is_str h k) eqn:?E; cbn end.
Tactic Notation "small_tac" tactic3(t) :=
  intros v; t; unfold need_list, setf; destruct v as [| | | | |l]; try reflexivity;
  do 6 (destruct l as [|? l]; [cbn; heads0; reflexivity|]); cbn; heads0; reflexivity.
