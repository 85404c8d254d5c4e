(** What a reading loop collects. *)
From Verif Require Import PyBase PyNum PyStr Sexpr S_Leaf S_Tree S_Reader S_Gather L_Lex L_Seq L_Tac L_Keep L_Swap.

(** If [m] gives an object, then [l] gives what has been appended to [p]. *)
Definition Gain {A T} (p : A -> list T) (l : res (list T)) (o : A) (m : res A) : Prop :=
  forall o', m = Ok o' -> exists xs, l = Ok xs /\ p o' = p o ++ xs.
Lemma Gain_seq_l {A T} (p : A -> list T) l o m k : Gain p l o m -> (forall o1, Keep p o1 (k o1)) -> Gain p l o (bind m k).
Proof.
  intros H K o' E. apply bind_inv in E as (o1 & E1 & E2). destruct (H _ E1) as (xs & -> & E). exists xs. split; [reflexivity|].
  now rewrite (K _ _ E2).
Qed.
Lemma Gain_seq_r {A T} (p : A -> list T) l o m k : Keep p o m -> (forall o1, Gain p l o1 (k o1)) -> Gain p l o (bind m k).
Proof.
  intros H K o' E. apply bind_inv in E as (o1 & E1 & E2). destruct (K _ _ E2) as (xs & -> & E). exists xs. split; [reflexivity|].
  now rewrite E, (H _ E1).
Qed.
Lemma Gain_pre {A B T} (p : A -> list T) l o (m : res B) k : (forall x, m = Ok x -> Gain p l o (k x)) -> Gain p l o (bind m k).
Proof. intros H o' E. apply bind_inv in E as (x & E1 & E2). exact (H x E1 _ E2). Qed.
Lemma Gain_err {A T} (p : A -> list T) l o e : Gain p l o (Err e).
Proof. intros o'. discriminate. Qed.
Lemma Gain_if {A T} (p : A -> list T) l o (b : bool) m n : (b = true -> Gain p l o m) -> (b = false -> Gain p l o n) -> Gain p l o (if b then m else n).
Proof. destruct b; intros H K; [now apply H|now apply K]. Qed.
Lemma Gain_from {A T} (p : A -> list T) l o o1 m : p o1 = p o -> Gain p l o1 m -> Gain p l o m.
Proof. intros E G o' H. destruct (G _ H) as (xs & -> & F). exists xs. split; [reflexivity|]. now rewrite F, E. Qed.
Definition one {A} (m : res A) : res (list A) := match m with Ok x => Ok [x] | Err e => Err e end.
Lemma Gain_addf {A T} (p : A -> list T) {S : Setter p} m o : (forall f, p (set p f o) = f (p o)) -> Gain p (one m) o (addf p m o).
Proof. intros L o' E. unfold addf in E. destruct m as [x|]; [|discriminate E]. cbn [bind] in E. injection E as <-. exists [x]. split; [reflexivity|]. now rewrite L. Qed.
Lemma Gain_extf {A T} (p : A -> list T) {S : Setter p} m o : (forall f, p (set p f o) = f (p o)) -> Gain p m o (extf p m o).
Proof. intros L o' E. unfold extf in E. destruct m as [x|]; [|discriminate E]. cbn [bind] in E. injection E as <-. exists x. split; [reflexivity|]. now rewrite L. Qed.

Lemma Gain_fold {A T} (p : A -> list T) (st : A -> val -> res A) keys (f : val -> res (list T)) items :
  (forall o x, headed keys x = false -> Keep p o (st o x)) ->
  (forall o x, headed keys x = true -> Gain p (f x) o (st o x)) ->
  forall o, Gain p (let! parts := mapM f (filter (headed keys) items) in Ok (concat parts)) o (foldM st o items).
Proof.
  intros K G. induction items as [|x items IH]; intros o.
  - intros o' [= <-]. exists []. split; [reflexivity|]. now rewrite app_nil_r.
  - change (foldM st o (x :: items)) with (bind (st o x) (fun o => foldM st o items)). cbn [filter].
    destruct (headed keys x) eqn:E; [|apply Gain_seq_r; [now apply K|exact IH]].
    intros o' H. apply bind_inv in H as (o1 & H1 & H2). destruct (G o x E _ H1) as (xs & F & P). destruct (IH _ _ H2) as (ys & F2 & P2).
    cbn [mapM]. rewrite F. cbn [bind]. destruct (mapM f (filter (headed keys) items)) as [parts|]; [|discriminate F2]. cbn [bind] in *. injection F2 as <-.
    exists (xs ++ concat parts). split; [reflexivity|]. now rewrite P2, P, app_assoc.
Qed.
Lemma mapM_one {T} (f : val -> res T) l ys : (let! parts := mapM (fun x => one (f x)) l in Ok (concat parts)) = Ok ys -> mapM f l = Ok ys.
Proof.
  revert ys. induction l as [|x l IH]; intros ys; cbn [mapM bind]; [exact (fun H => H)|].
  destruct (f x) as [y|]; cbn [one bind]; [|discriminate]. intros E.
  destruct (mapM (fun x => one (f x)) l) as [parts|]; [|discriminate E]. cbn [bind] in *. injection E as <-. now rewrite (IH _ eq_refl).
Qed.
Lemma mapM_app {A B} (f : A -> res B) l m : mapM f (l ++ m) = let! a := mapM f l in let! b := mapM f m in Ok (a ++ b).
Proof.
  induction l as [|x l IH]; cbn [app mapM bind]; [now destruct (mapM f m)|]. destruct (f x); cbn [bind]; [|reflexivity]. rewrite IH.
  destruct (mapM f l); cbn [bind]; [|reflexivity]. now destruct (mapM f m).
Qed.
Lemma mapM_args {T} (f : val -> res T) l ys : (let! parts := mapM (fun x => mapM f (args_of x)) l in Ok (concat parts)) = Ok ys ->
  mapM f (concat (map args_of l)) = Ok ys.
Proof.
  revert ys. induction l as [|x l IH]; intros ys; cbn [mapM map concat bind]; [exact (fun H => H)|]. rewrite mapM_app.
  destruct (mapM f (args_of x)) as [y|]; cbn [bind]; [|discriminate]. intros E.
  destruct (mapM (fun x => mapM f (args_of x)) l) as [parts|]; [|discriminate E]. cbn [bind] in *. injection E as <-. now rewrite (IH _ eq_refl).
Qed.
Lemma collects_by {A T} (from : val -> res A) npos keys f (p : A -> list T) o0 : p o0 = [] ->
  (forall items, Gain p (let! parts := mapM (fun x => one (f x)) (filter (headed keys) (skipn npos items)) in Ok (concat parts)) o0 (from (VList items))) ->
  collects from npos keys f p.
Proof. intros E G items o H. destruct (G items o H) as (xs & F & P). rewrite P, E. cbn [app]. now apply mapM_one. Qed.
Lemma collects_args_by {A T} (from : val -> res A) npos keys f (p : A -> list T) o0 : p o0 = [] ->
  (forall items, Gain p (let! parts := mapM (fun x => mapM f (args_of x)) (filter (headed keys) (skipn npos items)) in Ok (concat parts)) o0 (from (VList items))) ->
  collects_args from npos keys f p.
Proof. intros E G items o H. destruct (G items o H) as (xs & F & P). rewrite P, E. cbn [app]. now apply mapM_args. Qed.
Lemma copies_args_by {A} (from : val -> res A) npos keys (p : A -> list val) o0 : p o0 = [] ->
  (forall items, Gain p (let! parts := mapM (fun x => Ok (args_of x)) (filter (headed keys) (skipn npos items)) in Ok (concat parts)) o0 (from (VList items))) ->
  copies_args from npos keys p.
Proof.
  intros E G items o H. destruct (G items o H) as (xs & F & P). rewrite P, E. cbn [app]. clear - F. revert xs F.
  generalize (filter (headed keys) (skipn npos items)) as l. induction l as [|x l IH]; intros xs; cbn [mapM bind].
  - now intros [= <-].
  - destruct (mapM (fun x => Ok (args_of x)) l) as [parts|]; [|discriminate]. cbn [bind map concat]. intros [= <-]. now rewrite <- (IH _ eq_refl).
Qed.

(** ** The tactic *)
Lemma headed_contra keys x h k : headed keys x = false -> Nat.ltb 1 (String.length k) = true -> x@0 = Ok h -> is_str h k = true ->
  existsb (String.eqb k) keys = true -> False.
Proof.
  intros H L E I M. destruct x as [| | | |s|l]; try discriminate E.
  - destruct s as [|c s]; [discriminate E|]. cbn in E. injection E as <-. apply is_str_eq in I.
    destruct k as [|a [|b k]]; try discriminate L. discriminate I.
  - destruct l as [|y l]; [discriminate E|]. cbn in E. injection E as <-. cbn [headed] in H.
    apply existsb_exists in M as (k' & M & E). apply String.eqb_eq in E. subst k'.
    rewrite (proj2 (existsb_exists _ _)) in H; [discriminate H|]. exists k. now split.
Qed.
Ltac gkeep :=
  repeat first [keep1 | keep2];
  try first [ reflexivity
            | exfalso; repeat match goal with E : orb _ _ = true |- _ => apply orb_prop in E as [E|E] end; match goal with
              | E : is_str _ _ = true |- _ => solve [vm_compute in E; discriminate E]
              | H : headed ?keys ?x = false, I : at_ ?x 0 = Ok ?h, E : is_str ?h ?k = true |- _ =>
                  exact (headed_contra keys x h k H eq_refl I E eq_refl)
              end ].
Ltac gain_leaf :=
  lazymatch goal with
  | |- Gain _ _ _ (addf _ _ _) => refine (Gain_addf _ _ _ _); intros ?; reflexivity
  | |- Gain _ _ _ (extf _ _ _) => refine (Gain_extf _ _ _ _); intros ?; reflexivity
  | |- Gain _ _ _ ?m => let f := head_of m in unfold f; cbv beta; gain_leaf
  end.
Ltac gain_step :=
  lazymatch goal with
  | |- Gain _ _ _ (bind (at_ _ _) _) => cbn [at_ nth_error bind]
  | |- Gain _ _ _ (if ?b then _ else _) => let v := eval vm_compute in b in change b with v; cbv iota
  | |- Gain _ _ _ (bind (on ?b _ _) _) =>
      let v := eval vm_compute in b in change b with v;
      lazymatch v with
      | true => cbn [on]; first [ apply Gain_seq_l; [gain_leaf | intros ?; solve [gkeep]] | apply Gain_seq_r; [solve [gkeep] | intros ?] ]
      | false => cbn [on bind]
      end
  end; cbv beta.
Ltac gain_item X_step keys :=
  let o := fresh "o" in let x := fresh "x" in let H := fresh "H" in intros o x H;
  let h := fresh "h" in destruct x as [| | | | |[|h ?]]; try discriminate H; cbn [headed existsb] in H;
  repeat match type of H with
  | orb _ _ = true => apply orb_prop in H as [H|H]; [apply is_str_eq in H; subst h; unfold X_step; repeat gain_step |]
  end; try discriminate H.
(* helpers applied to the object that the loop starts from *)
Ltac gain_start :=
  lazymatch goal with |- ?p (?f ?a ?b) = _ => unfold f; match goal with |- context [match ?m with _ => _ end] => destruct m end; reflexivity end.
Ltac gather_top X_step keys :=
  lazymatch goal with
  | |- Gain _ _ _ (bind (need_head _ _) _) => apply Gain_pre; let l := fresh "l" in let E := fresh "E" in intros l E; apply need_head_in in E; injection E as <-; gather_top X_step keys
  | |- Gain _ _ _ (bind (need_list (VList _)) _) => apply Gain_pre; let l := fresh "l" in let E := fresh "E" in intros l E; apply need_list_in in E; injection E as <-; gather_top X_step keys
  | |- Gain _ _ _ (Err _) => apply Gain_err
  | |- Gain _ _ _ (if _ then _ else _) => apply Gain_if; intros ?; gather_top X_step keys
  | |- Gain _ _ _ (let x := _ in _) => cbv zeta; gather_top X_step keys
  | |- @Gain ?A _ _ _ _ (@bind ?A ?A (foldM _ _ _) _) => apply Gain_seq_l; [gather_top X_step keys | intros ?; solve [gkeep]]
  | |- @Gain ?A _ _ _ _ (@bind ?A ?A _ _) => apply Gain_seq_r; [solve [gkeep] | intros ?; gather_top X_step keys]
  | |- Gain _ _ _ (bind _ _) => apply Gain_pre; intros ? ?; gather_top X_step keys
  | |- Gain ?p _ _ (foldM _ _ _) =>
      eapply Gain_from; [|apply (Gain_fold p _ keys); [intros ? ? ?; solve [gkeep] | gain_item X_step keys]]; first [reflexivity | gain_start]
  end.
Ltac collect_in X_from X_step o0 :=
  lazymatch goal with
  | |- collects _ _ ?keys _ _ => apply (collects_by _ _ _ _ _ o0 eq_refl); intros ?; unfold X_from; gather_top X_step keys
  | |- copies_args _ _ ?keys _ => apply (copies_args_by _ _ _ _ o0 eq_refl); intros ?; unfold X_from; gather_top X_step keys
  | |- collects_args _ _ ?keys _ _ => apply (collects_args_by _ _ _ _ _ o0 eq_refl); intros ?; unfold X_from; gather_top X_step keys
  end.
