(** From which token an attribute is taken. *)
From Verif Require Import PyBase PyNum PyStr Sexpr S_Leaf S_Tree S_Reader S_Gather S_Pick L_Lex L_Seq L_Tac L_Keep L_Swap L_Gather.

(** If [m] gives an object, then its [p] is what [v] gives. *)
Definition Hit {A T} (p : A -> T) (v : res T) (m : res A) : Prop := forall o', m = Ok o' -> v = Ok (p o').
Lemma Hit_seq_l {A T} (p : A -> T) v m k : Hit p v m -> (forall o1, Keep p o1 (k o1)) -> Hit p v (bind m k).
Proof. intros H K o' E. apply bind_inv in E as (o1 & E1 & E2). rewrite (H _ E1). now rewrite (K _ _ E2). Qed.
Lemma Hit_pre {A B T} (p : A -> T) v (m : res B) k : (forall x, m = Ok x -> Hit p v (k x)) -> Hit p v (bind m k).
Proof. intros H o' E. apply bind_inv in E as (x & E1 & E2). exact (H x E1 _ E2). Qed.
Lemma Hit_err {A T} (p : A -> T) v e : Hit p v (Err e).
Proof. intros o'. discriminate. Qed.
Lemma Hit_if {A T} (p : A -> T) v (b : bool) m n : (b = true -> Hit p v m) -> (b = false -> Hit p v n) -> Hit p v (if b then m else n).
Proof. destruct b; intros H K; [now apply H|now apply K]. Qed.
Lemma Hit_setf {A T} (p : A -> T) {S : Setter p} v m o : (forall x, p (set p (fun _ => x) o) = x) -> v = m -> Hit p v (setf p m o).
Proof. intros L -> o' E. unfold setf in E. destruct m as [x|]; [|discriminate E]. cbn [bind] in E. injection E as <-. now rewrite L. Qed.
Lemma Hit_fold {A T} (p : A -> T) (st : A -> val -> res A) keys v x before after n :
  n <= length before -> lacks keys after = true ->
  (forall o y, existsb (fun k => token k y) keys = false -> Keep p o (st o y)) ->
  (forall o, Hit p v (st o x)) ->
  forall o, Hit p v (foldM st o (skipn n (before ++ x :: after))).
Proof.
  intros Hn L K H o. rewrite skipn_app, (proj2 (Nat.sub_0_le _ _) Hn). cbn [skipn]. rewrite foldM_app.
  apply Hit_pre. intros o1 _. change (foldM st o1 (x :: after)) with (bind (st o1 x) (fun o => foldM st o after)).
  apply Hit_seq_l; [apply H|]. intros o2. apply Keep_fold. intros o3 y Hy. apply K. exact (lacks_in keys after y L Hy).
Qed.
Lemma Hit_fold0 {A T} (p : A -> T) (st : A -> val -> res A) keys v x before after :
  lacks keys after = true ->
  (forall o y, existsb (fun k => token k y) keys = false -> Keep p o (st o y)) ->
  (forall o, Hit p v (st o x)) ->
  forall o, Hit p v (foldM st o (before ++ x :: after)).
Proof. intros L K H o. apply (Hit_fold p st keys v x before after 0); auto with arith. Qed.
Lemma picks_by {A T} (from : val -> res A) npos keys k f (p : A -> T) :
  (forall before args after, npos <= length before -> lacks keys after = true ->
    Hit p (f (VList (VStr $k :: args))) (from (VList (before ++ VList (VStr $k :: args) :: after)))) ->
  picks from npos keys k f p.
Proof. intros H before args after o Hn L E. exact (H before args after Hn L o E). Qed.
Lemma marks_by {A T} (from : val -> res A) npos keys k v (p : A -> T) :
  (forall before after, npos <= length before -> lacks keys after = true ->
    Hit p (Ok v) (from (VList (before ++ VStr $k :: after)))) ->
  marks from npos keys k v p.
Proof. intros H before after o Hn L E. specialize (H before after Hn L o E). now injection H. Qed.

(** ** The tactic *)
Ltac pkeep :=
  repeat first [keep1 | keep2];
  try first [ reflexivity
            | exfalso; repeat match goal with E : orb _ _ = true |- _ => apply orb_prop in E as [E|E] end;
              match goal with E : is_str _ _ = true |- _ => solve [vm_compute in E; discriminate E] end
            | ab_contra ].
Ltac hit_eq := first [ reflexivity | unfold as_, arg_is, arg; cbn; match goal with |- context [nth_error ?l ?n] => destruct (nth_error l n); reflexivity | |- context [match ?l with nil => _ | _ => _ end] => destruct l; reflexivity end ].
Ltac hit_leaf :=
  lazymatch goal with
  | |- Hit _ _ (setf _ _ _) => refine (Hit_setf _ _ _ _ _ _); [intros ?; reflexivity | hit_eq]
  | |- @Hit ?A _ _ _ (@bind ?A ?A _ _) => first [ apply Hit_seq_l; [hit_leaf | intros ?; solve [pkeep]] | apply Hit_pre; intros ? _; hit_leaf ]
  | |- Hit _ _ (bind _ _) => apply Hit_pre; intros ? _; hit_leaf
  | |- Hit _ _ (on ?b _ _) => let v := eval vm_compute in b in change b with v; lazymatch v with true => cbn [on]; hit_leaf end
  | |- Hit _ _ ?m => let f := head_of m in unfold f; cbv beta; hit_leaf
  end.
Ltac hit_step :=
  lazymatch goal with
  | |- Hit _ _ (bind (at_ _ _) _) => cbn [at_ nth_error bind]
  | |- Hit _ _ (if ?b then _ else _) => let v := eval vm_compute in b in change b with v; cbv iota
  | |- Hit _ _ (bind (on ?b _ _) _) =>
      let v := eval vm_compute in b in change b with v;
      lazymatch v with
      | true => cbn [on]; first [ apply Hit_seq_l; [hit_leaf | intros ?; solve [pkeep]] | apply Hit_pre; intros ? _ ]
      | false => cbn [on bind]
      end
  | |- Hit _ _ (on ?b _ _) => hit_leaf
  | |- Hit _ _ (setf _ _ _) => hit_leaf
  | |- @Hit ?A _ _ _ (@bind ?A ?A _ _) => first [ apply Hit_seq_l; [hit_leaf | intros ?; solve [pkeep]] | apply Hit_pre; intros ? _ ]
  end; cbv beta.
Ltac pick_lia := first [lia | match goal with |- context [if ?b then _ else _] => destruct b; lia end].
Ltac pick_top X_step keys :=
  lazymatch goal with
  | |- Hit _ _ (bind (need_head _ _) _) => apply Hit_pre; let l := fresh "l" in let E := fresh "E" in intros l E; apply need_head_in in E; injection E as <-; pick_top X_step keys
  | |- Hit _ _ (bind (need_list (VList _)) _) => apply Hit_pre; let l := fresh "l" in let E := fresh "E" in intros l E; apply need_list_in in E; injection E as <-; pick_top X_step keys
  | |- Hit _ _ (Err _) => apply Hit_err
  | |- Hit _ _ (if _ then _ else _) => apply Hit_if; intros ?; pick_top X_step keys
  | |- Hit _ _ (let x := _ in _) => cbv zeta; pick_top X_step keys
  | |- @Hit ?A _ _ _ (@bind ?A ?A (foldM _ _ _) _) => apply Hit_seq_l; [pick_top X_step keys | intros ?; solve [pkeep]]
  | |- Hit _ _ (bind _ _) => apply Hit_pre; intros ? ?; pick_top X_step keys
  | |- Hit ?p _ (foldM _ _ (skipn _ _)) => apply (Hit_fold p _ keys); [pick_lia | assumption | intros ? ? ?; solve [pkeep] | intros ?; try unfold X_step; cbv beta; repeat hit_step]
  | |- Hit ?p _ (foldM _ _ _) => apply (Hit_fold0 p _ keys); [assumption | intros ? ? ?; solve [pkeep] | intros ?; try unfold X_step; cbv beta; repeat hit_step]
  end.
Ltac pick_in X_from X_step :=
  lazymatch goal with
  | |- picks _ _ ?keys _ _ _ => apply picks_by; intros ? ? ? ? ?; unfold X_from; pick_top X_step keys
  | |- marks _ _ ?keys _ _ _ => apply marks_by; intros ? ? ? ?; unfold X_from; pick_top X_step keys
  end.
