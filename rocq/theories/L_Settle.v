(** Saving again and again: from the round trips and the format. *)
From Verif Require Import PyBase PyNum PyStr Sexpr S_Leaf S_Tree S_Settle.

Lemma settles_of {A} (to : A -> nat -> bool -> res str) from ok norm same tree :
  roundtrips to from ok norm same -> conforms to from ok norm tree -> settles to from ok.
Proof.
  intros R C o H i n. destruct (R o H) as (_ & _ & H1 & I). destruct (C o H) as [W _]. destruct (C (norm o) H1) as [W1 F].
  destruct (W i n) as (s1 & E1 & L1 & P1). destruct (W1 i n) as (s2 & E2 & L2 & P2). rewrite I in L2, P2.
  assert (S : forall s, parse_sexp s = Ok (tree (norm o)) -> forall i n, resave to from i n s = to (norm o) i n).
  { intros s P i' n'. unfold resave. rewrite P. cbn [bind]. rewrite F. reflexivity. }
  exists s1, (tree (norm o)), (norm o), s2. repeat apply conj.
  - exact E1.
  - exact P1.
  - exact F.
  - now rewrite (S s1 P1).
  - exact P2.
  - now rewrite L1, L2.
  - now rewrite (S s2 P2).
  - intros E. rewrite E, E1 in E2. now injection E2.
  - intros i' n'. destruct (W1 i' n') as (s3 & E3 & L3 & P3). rewrite I in L3, P3. exists s3.
    repeat apply conj; [now rewrite (S s1 P1)|now rewrite L1, L3|now rewrite (S s3 P3)].
Qed.
