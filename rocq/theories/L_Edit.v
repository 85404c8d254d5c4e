(** C54: the general part of the proofs *)
From Coq Require Import List Bool.
From Verif Require Import PyBase PyNum PyStr Sexpr RecordSet S_Leaf S_Tree S_Equal S_Edit L_Tac L_Equal.

(** What the parts of the description of an attribute must satisfy *)
Definition lawful {A} (ok : A -> bool) (same : A -> A -> bool) (e : edit A) : Prop :=
  match e with
  | Edit get put fit alike =>
      (forall o x, ok o = true -> fit o x = true -> ok (put x o) = true)
      /\ (forall o x o', same (put x o) o' = true -> alike x (get o') = true /\ same o (put (get o) o') = true)
      /\ (forall o x y, alike x y = true -> same (put x o) (put y o) = true)
      /\ (forall o, ok o = true -> fit o (get o) = true)
      /\ (forall o o', same o o' = true -> alike (get o) (get o') = true
           /\ (forall x y, alike x y = true -> same (put x o) (put y o') = true) /\ (forall x, same (put x o) (put x o') = true))
  end.
Lemma law {A B} (ok : A -> bool) same (get : A -> B) put fit alike :
  (forall o x, ok o = true -> fit o x = true -> ok (put x o) = true) ->
  (forall o x o', same (put x o) o' = true -> alike x (get o') = true /\ same o (put (get o) o') = true) ->
  (forall o x y, alike x y = true -> same (put x o) (put y o) = true) ->
  (forall o, ok o = true -> fit o (get o) = true) ->
  (forall o o', same o o' = true -> alike (get o) (get o') = true
     /\ (forall x y, alike x y = true -> same (put x o) (put y o') = true) /\ (forall x, same (put x o) (put x o') = true)) ->
  lawful ok same (Edit get put fit alike).
Proof. intros P S C G E. exact (conj P (conj S (conj C (conj G E)))). Qed.
Lemma lawful_survive {A} (to : A -> nat -> bool -> res str) from ok norm same es :
  roundtrips to from ok norm same -> Forall (lawful ok same) es -> edits_survive to from ok same es.
Proof.
  intros RT L. refine (Forall_impl _ _ L). intros [B get put fit alike] (P & S & _) o x O F. split; [exact (P o x O F)|].
  intros i n. destruct (RT (put x o) (P o x O F)) as (W & E & _). exists (norm (put x o)). split; [apply W|]. apply S. exact E.
Qed.
Ltac conjs := repeat match goal with H : (_ && _)%bool = true |- _ => apply andb_prop in H; destruct H end.
Ltac goals := repeat match goal with |- (_ && _)%bool = true => apply andb_true_intro; split end.
Lemma refl {A} (f : A -> A -> bool) x : equality f -> f x x = true.
Proof. intros (R & _). apply R. Qed.

Lemma edited_ok {A} (to : A -> nat -> bool -> res str) from ok same es o o' :
  edits_survive to from ok same es -> ok o = true -> edited es o o' -> ok o' = true.
Proof.
  intros H O E. induction E as [|B get put fit alike o' x _ IH I F]; [exact O|].
  apply (proj1 (Forall_forall _ _) H) in I. destruct (I o' x IH F) as [K _]. exact K.
Qed.
Lemma edit_kept {A} (to : A -> nat -> bool -> res str) from ok norm same es :
  roundtrips to from ok norm same -> edits_survive to from ok same es -> editable to from ok same es.
Proof.
  intros RT H. split; [exact H|]. intros o o' O E i n. pose proof (edited_ok _ _ _ _ _ _ _ H O E) as K. destruct (RT o' K) as (W & S & _). eauto.
Qed.
