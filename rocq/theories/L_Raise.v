(** Proofs for C49: which exception a reader raises *)
From Coq Require Import String.
From Verif Require Import PyBase PyNum PyStr M_Common M_Lib M_Sym M_Fp M_Gr M_Zone M_Footprint M_Dim M_Brd M_Board M_Sch M_Schematic M_Wks S_Raise.

Definition er {A} (m : res A) : fault := match m with Ok _ => None | Err e => Some e end.
Lemma raised {A} (m : res A) f e : er m = f -> (m = Err e <-> f = Some e).
Proof. intros <-. destruct m; cbn; split; congruence. Qed.
Lemma els_none a : els a None = a.
Proof. now destruct a. Qed.
Lemma er_ok {A} (s : A) : er (Ok s) = None. Proof. reflexivity. Qed.
Lemma er_err {A} e : er (@Err A e) = Some e. Proof. reflexivity. Qed.
Lemma er_bind {A B} (m : res A) (k : A -> res B) a b : er m = a -> (forall x, er (k x) = b) -> er (bind m k) = els a b.
Proof. intros <- H. destruct m; cbn; auto. Qed.
Lemma er_bind1 {A B} (m : res A) (k : A -> res B) b : er m = None -> (forall x, er (k x) = b) -> er (bind m k) = b.
Proof. intros E H. destruct m; cbn; auto. discriminate. Qed.
Lemma er_bind2 {A B} (m : res A) (k : A -> res B) b : er m = b -> (forall x, er (k x) = None) -> er (bind m k) = b.
Proof. intros <- H. destruct m; cbn; auto. Qed.
Lemma er_map {A B} (f : A -> res B) g l : (forall x, er (f x) = g x) -> er (mapM f l) = first g l.
Proof. intros H. induction l as [|x l IH]; [reflexivity|]. cbn [mapM first]. fold (first g). rewrite <- H, <- IH. destruct (f x); cbn; auto. now destruct (mapM f l). Qed.
Lemma er_if {A} (c : bool) (m k : res A) a b : er m = a -> er k = b -> er (if c then m else k) = if c then a else b.
Proof. destruct c; auto. Qed.
Lemma er_if1 {A} (c : bool) (m k : res A) a : er m = a -> er k = a -> er (if c then m else k) = a.
Proof. destruct c; auto. Qed.

Lemma er_at n v : er (v@n) = need n v.
Proof.
  destruct v as [| | | |s|l]; try reflexivity; cbn [at_ need];
    [destruct (nth_error s n) eqn:E, (Nat.ltb_spec n (List.length s)); try reflexivity
    |destruct (nth_error l n) eqn:E, (Nat.ltb_spec n (List.length l)); try reflexivity];
    (apply nth_error_None in E; lia) || (assert (K := E); rewrite (proj2 (nth_error_None _ _)) in K by lia; discriminate).
Qed.
Lemma er_setf {R T} (p : R -> T) {S : Setter p} m o : er (setf p m o) = er m.
Proof. now destruct m. Qed.
Lemma er_addf {R T} (p : R -> list T) {S : Setter p} m o : er (addf p m o) = er m.
Proof. now destruct m. Qed.
Lemma er_extf {R T} (p : R -> list T) {S : Setter p} m o : er (extf p m o) = er m.
Proof. now destruct m. Qed.
Lemma er_on {A} b f (o : A) c : (forall o, er (f o) = c) -> er (on b f o) = if b then c else None.
Proof. intros H. destruct b; [apply H|reflexivity]. Qed.
Lemma er_fold {A} (step : A -> val -> res A) cond : (forall o x, er (step o x) = cond x) ->
  forall l o, er (foldM step o l) = first cond l.
Proof.
  intros H l. induction l as [|x l IH]; intros o; [reflexivity|]. cbn [foldM first]. fold (first cond). rewrite <- (H o x).
  destruct (step o x); [apply IH|reflexivity].
Qed.
Lemma er_row {A} b (f : A -> res A) (k : A -> res A) (o : A) c d :
  (forall o, er (f o) = c) -> (forall o, er (k o) = d) -> er (bind (on b f o) k) = els (if b then c else None) d.
Proof. intros H K. apply er_bind; [now apply er_on|exact K]. Qed.
Lemma er_last {A} b (f : A -> res A) (o : A) c :
  (forall o, er (f o) = c) -> er (on b f o) = els (if b then c else None) None.
Proof. intros H. rewrite els_none. now apply er_on. Qed.
Lemma er_each {B} (f : val -> res B) c n l : (forall x, er (f x) = c x) ->
  er (let! m := from_ (VList l) n in mapM f m) = each n c (VList l).
Proof. intros H. now apply er_map. Qed.
Lemma char_no c k : String.length k <> 1 -> (VStr [c] =s k) = false.
Proof.
  destruct k as [|a [|b k]]; intros H; [reflexivity|now destruct H|].
  unfold is_str, str_eqb, lit. cbn. apply andb_false_r.
Qed.
Lemma is_str_true h k : (h =s k) = true -> h = VStr (lit k).
Proof.
  destruct h as [| | | |s|]; try discriminate. unfold is_str. intros E. f_equal.
  revert E. generalize (lit k). intros t. revert t. induction s as [|x s IH]; intros [|y t]; try discriminate; [reflexivity|].
  intros E. unfold str_eqb in E; fold str_eqb in E. cbn in E. apply andb_prop in E as [E1 E2]. apply N.eqb_eq in E1 as ->. f_equal. now apply IH.
Qed.
Lemma strict_head t a s : strict t (VStr (lit (String a s))) = None.
Proof. reflexivity. Qed.
Lemma er_is_true v : er (is_true v) = need 1 v.
Proof. unfold is_true. rewrite <- er_at. now destruct (v@1). Qed.
Create HintDb rsd discriminated.
#[export] Hint Constants Opaque : rsd.
#[export] Hint Resolve er_at er_is_true : rsd.
Lemma er_place {A} n l (k : val -> res A) g : (forall x, er (k x) = g x) -> er (bind (at_ (VList l) n) k) = place n g (VList l).
Proof. intros H. cbn [at_ place]. destruct (nth_error l n); [apply H|reflexivity]. Qed.
Lemma er_row1 {A} b (f : A -> res A) (k : A -> res A) (o : A) d :
  (forall o, er (f o) = None) -> (forall o, er (k o) = d) -> er (bind (on b f o) k) = d.
Proof. intros H K. apply er_bind1; [|exact K]. rewrite (er_on b f o None H). now destruct b. Qed.
Lemma er_row_or {A} a b (f : A -> res A) (k : A -> res A) (o : A) c d :
  (forall o, er (f o) = c) -> (forall o, er (k o) = d) -> er (bind (on (a || b) f o) k) = els (if a then c else None) (els (if b then c else None) d).
Proof. intros H K. rewrite (er_row _ f k o c d H K). destruct a, b, c; reflexivity. Qed.
Lemma er_dict_set d k v : er (dict_set d k v) = key k.
Proof. destruct k; unfold dict_set; cbn; try reflexivity; now destruct (existsb _ _). Qed.
#[export] Hint Resolve er_dict_set : rsd.
Lemma er_as_text v : er (as_text v) = textual v.
Proof. now destruct v. Qed.
#[export] Hint Resolve er_as_text : rsd.
Ltac fin := first [reflexivity
  | match goal with |- context[VList (_ :: ?l)] => unfold both; destruct l as [|? [|? [|? [|? l]]]]; reflexivity end
  | match goal with |- context[VList (_ :: ?l)] => unfold both; destruct l as [|? [|? l]]; cbn [place nth_error need length Nat.ltb Nat.leb els]; rewrite ?els_none; reflexivity end].
Ltac ifs := repeat match goal with
  | |- context[on ?b _ _] => destruct b; unfold setf; cbn [on bind]
  | |- context[match ?b with true => _ | false => _ end] => lazymatch b with true => fail | false => fail | _ => destruct b end end; reflexivity.
Ltac erq_more := fail.
Ltac erq :=
  first [solve [eauto 1 with rsd nocore] |
  lazymatch goal with
  | |- er (setf _ _ _) = _ => eapply eq_trans; [apply er_setf|erq]
  | |- er (addf _ _ _) = _ => eapply eq_trans; [apply er_addf|erq]
  | |- er (extf _ _ _) = _ => eapply eq_trans; [apply er_extf|erq]
  | |- er (Ok _) = _ => apply er_ok
  | |- er (Err _) = _ => apply er_err
  | |- er (bind (from_ (VList _) _) _) = _ => eapply er_each; intros ?; erq
  | |- er (bind (at_ (VList _) _) _) = _ => first [eapply er_bind2; [apply er_at|intros ?; solve [erq]] | eapply er_place; intros ?; erq]
  | |- er (bind _ _) = _ => first [eapply er_bind2; [erq|intros ?; solve [erq]] | eapply er_bind; [erq|intros ?; erq]]
  | |- er (mapM _ _) = _ => eapply er_map; intros ?; erq
  | |- er (let _ := _ in _) = _ => cbv zeta; erq
  | |- er (from_ (VList _) _) = _ => apply er_ok
  | |- er (if _ then _ else _) = _ => first [eapply er_if1; [erq|erq] | eapply er_if; [erq|erq]]
  | |- er _ = _ => erq_more
  end].
Ltac err0 := eapply eq_trans; [erq | fin].
Ltac erl := match goal with |- context[VList (_ :: ?l)] =>
   destruct l as [|? [|? l]]; unfold setf, both; cbn [at_ nth_error bind len_ length Nat.ltb Nat.leb Nat.eqb on need named Zone_pads place els];
   first [reflexivity | err0 | match goal with |- context[on ?b _ _] => destruct b end; reflexivity] end.
Ltac err := first [err0 | erl].
Lemma er_head {A} h l (k : val -> res A) d : er (k h) = d -> er (bind (at_ (VList (h :: l)) 0) k) = d.
Proof. intros H. exact H. Qed.
Lemma er_skip {A} b (f : A -> res A) (k : A -> res A) (o : A) d : b = false -> er (k o) = d -> er (bind (on b f o) k) = d.
Proof. intros -> H. exact H. Qed.
Lemma er_else {A} (b : bool) (m k : res A) d : b = false -> er k = d -> er (if b then m else k) = d.
Proof. intros -> H. exact H. Qed.
Ltac chain := cbv beta;
  lazymatch goal with
  | |- er (bind (at_ (VList (_ :: _)) 0) _) = _ => apply er_head; chain
  | |- er (bind (on (negb (is_list _)) _ _) _) = _ => apply er_skip; [reflexivity|chain]
  | |- er (bind (on (negb (is_list _) && _) _ _) _) = _ => apply er_skip; [reflexivity|chain]
  | |- er (if _ then _ else _) = _ => apply er_else; [reflexivity|chain]
  | |- er (bind (on _ _ _) _) = _ => first [apply er_row; [intros ?; solve [err] | intros ?] | apply er_row_or; [intros ?; solve [err] | intros ?] | apply er_row1; [intros ?; erq | intros ?]]; chain
  | |- er (on _ _ _) = _ => apply er_last; intros ?; err
  | |- er (Ok _) = _ => reflexivity
  | |- er (bind ?m _) = _ => cbn [bind is_list negb setf]; chain
  end.
Lemma er_off {A} b (f : A -> res A) (k : A -> res A) (o : A) : b = false -> er (k o) = None -> er (bind (on b f o) k) = None.
Proof. intros -> H. exact H. Qed.
Lemma er_get {A} c s (k : val -> res A) : er (k (VStr [c])) = None -> er (bind (at_ (VStr (c :: s)) 0) k) = None.
Proof. intros H. exact H. Qed.
Lemma er_on1 {A} b (f : A -> res A) (o : A) : (forall o, er (f o) = None) -> er (on b f o) = None.
Proof. intros H. rewrite (er_on b f o None H). now destruct b. Qed.
Ltac text_chain := cbv beta;
  lazymatch goal with
  | |- er (bind (at_ (VStr (_ :: _)) 0) _) = None => apply er_get; text_chain
  | |- er (bind (on (is_str (VStr [_]) _) _ _) _) = None => apply er_off; [apply char_no; discriminate|text_chain]
  | |- er (bind (on (orb (is_str (VStr [_]) _) _) _ _) _) = None => apply er_off; [rewrite !char_no by discriminate; reflexivity|text_chain]
  | |- er (bind (on _ _ _) _) = None => apply er_row1; [intros ?; solve [erq]|intros ?; text_chain]
  | |- er (on _ _ _) = None => apply er_on1; intros ?; solve [erq]
  | |- er (if is_str (VStr [_]) ?k then _ else _) = None => rewrite (char_no _ k) by discriminate; text_chain
  | |- er (Ok _) = None => reflexivity
  end.
Ltac step_text s := destruct s as [|c s]; [reflexivity|]; text_chain.
(** one step: [stp] unfolds the step and its table *)
Ltac step_tac stp :=
  let o := fresh in let item := fresh in
  intros o item; stp; unfold lists, texts, strict, rows; destruct item as [| | | |s|l];
  [try reflexivity; ifs | try reflexivity; ifs | try reflexivity; ifs | try reflexivity; ifs | |];
  [ cbn [is_list PyBase.is_text negb andb];
    first [abstract step_text s | abstract text_chain | ifs
          | match goal with |- context[is_str (VStr s) ?w] => destruct (is_str (VStr s) w) eqn:?E end; cbn [negb]; [|reflexivity];
            match goal with H : is_str (VStr s) _ = true |- _ => apply is_str_true in H; injection H as -> end; reflexivity
          | unfold setf, addf; cbn [on bind]; step_text s ]
  | destruct l as [|h l]; [reflexivity|]; cbn [first fst snd]; abstract chain ].
Ltac heads h := repeat match goal with |- context[is_str h ?k] => destruct (is_str h k) eqn:?E; cbn [negb andb orb]; [match goal with H : is_str h k = true |- _ => apply is_str_true in H; subst h end|] end.
Lemma first_cons {A} (f : A -> fault) x l : first f (x :: l) = els (f x) (first f l).
Proof. reflexivity. Qed.
Tactic Notation "from_tac" tactic3(frm) int_or_var(k) constr(stepl) :=
  let v := fresh in
  intros v; frm; unfold expr; destruct v as [| | | |s|l]; try reflexivity; destruct l as [|h l]; [reflexivity|];
  unfold need_head, need_list, setf;
  do k (destruct l as [|? l]; [cbn [is_list at_ nth_error bind existsb orb length Nat.ltb Nat.leb skipn]; heads h; reflexivity|]);
  cbn [is_list at_ nth_error bind existsb orb length Nat.ltb Nat.leb skipn from_]; heads h;
  try reflexivity;
  cbn [at_ nth_error bind skipn length Nat.leb andb from_];
  first [reflexivity | rewrite (er_fold _ _ stepl); rewrite ?first_cons; cbn [lists texts]; rewrite ?strict_head; reflexivity].
Ltac decide_heads := repeat match goal with |- context[is_str (VStr (lit ?a)) ?b] =>
  let r := eval vm_compute in (is_str (VStr (lit a)) b) in change (is_str (VStr (lit a)) b) with r end.
Lemma fine_all l : first fine l = None.
Proof. now induction l. Qed.
(** readers that only count *)
Ltac heads0 := repeat match goal with |- context[is_str ?h ?k] => destruct (is_str h k) eqn:?E; cbn end.
Tactic Notation "small_tac" tactic3(t) :=
  intros v; t; unfold need_list, setf; destruct v as [| | | | |l]; try reflexivity;
  do 6 (destruct l as [|? l]; [cbn; heads0; reflexivity|]); cbn; heads0; reflexivity.
