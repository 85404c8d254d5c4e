(** Specification for C52 and C53: what [==] on objects must be, and that a text stands for one object only. *)
From Verif Require Import PyBase Sexpr.

(** [same] is an equivalence relation *)
Definition equality {A} (same : A -> A -> bool) : Prop :=
  (forall o, same o o = true)
  /\ (forall o o', same o o' = same o' o)
  /\ (forall o o' o'', same o o' = true -> same o' o'' = true -> same o o'' = true).

(** If the texts of two objects that can be written are the same expression, whatever their layout, the
    objects are equal. *)
Definition tells_apart {A} (to : A -> nat -> bool -> res str) (ok : A -> bool) (same : A -> A -> bool) : Prop :=
  forall o o' indent indent' newline newline' s s', ok o = true -> ok o' = true ->
  to o indent newline = Ok s -> to o' indent' newline' = Ok s' -> parse_sexp s = parse_sexp s' -> same o o' = true.
