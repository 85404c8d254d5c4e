(** Specification of what happens to a text that is read and saved again and again. *)
From Verif Require Import PyBase PyStr Sexpr.

(** read a text and write what was read *)
Definition resave {A} (to : A -> nat -> bool -> res str) (from : val -> res A) (indent : nat) (newline : bool) (s : str) : res str :=
  let! e := parse_sexp s in let! o := from e in to o indent newline.

(** The text [s1] written for a printable object: saving it again gives a text [s2] that consists of the same tokens and
    stands for the same expression; saving that one again gives [s2] to the letter, for ever; if reading [s1] gave back
    exactly the object that was written, [s2] is [s1].  With another indentation or line break flag the text still has
    the same tokens. *)
Definition settles {A} (to : A -> nat -> bool -> res str) (from : val -> res A) (ok : A -> bool) : Prop :=
  forall o, ok o = true -> forall indent newline, exists s1 e o1 s2,
    to o indent newline = Ok s1 /\ parse_sexp s1 = Ok e /\ from e = Ok o1
    /\ resave to from indent newline s1 = Ok s2 /\ parse_sexp s2 = Ok e /\ lex s2 = lex s1
    /\ resave to from indent newline s2 = Ok s2
    /\ (o1 = o -> s2 = s1)
    /\ (forall indent' newline', exists s3, resave to from indent' newline' s1 = Ok s3
          /\ lex s3 = lex s1 /\ resave to from indent newline s3 = Ok s2).
