(** C58: the proof, for all classes at once *)
From Coq Require Import List Bool.
From Verif Require Import PyBase PyNum PyStr Sexpr S_Leaf S_Tree S_Fix S_Equal S_Edit S_Deep S_Session L_Tac L_Equal L_Edit L_Deep.

Lemma leave_no_trace {W A} (to : A -> nat -> bool -> res str) (from : W -> val -> res A) ok norm same :
  equality same -> (forall day, roundtrips to (from day) ok (norm day) same) -> no_trace to from ok same.
Proof.
  intros E RT o s t O H.
  assert (K : ok s = true /\ same t s = true).
  { induction H as [|s t B okB sameB p es C get put fit alike b x H (K1 & K2) I AT L V F|s t s' day i n H (K1 & K2) WR].
    - split; [exact O|apply E].
    - destruct (inside_good _ _ _ _ _ _ E I) as [G1 G2 _ _ G5].
      pose proof (proj1 (Forall_forall _ _) (attributes_lawful _ _ _ _ AT) _ L) as (P & _ & _ & _ & P5).
      split; [apply (G2 s b); [exact K1|exact V|]; apply P; [exact (G1 s b K1 V)|exact F]|].
      destruct (G5 t s b K2 V) as (c & V' & H1 & H2). unfold set_at. rewrite V'. apply H2. apply (P5 _ _ H1).
    - destruct (RT day s K1) as (W1 & S1 & O1 & _). rewrite W1 in WR. injection WR as <-. split; [exact O1|]. exact (trans _ _ _ _ E K2 S1). }
  destruct K as [K1 K2]. split; [exact K2|]. intros day i n. destruct (RT day s K1) as (W1 & S1 & _). eexists. split; [apply W1|]. exact (trans _ _ _ _ E K2 S1).
Qed.
