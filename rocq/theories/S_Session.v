(** Specification for C58: sessions of edits, saves and loads *)
From Verif Require Import PyBase PyNum PyStr Sexpr S_Leaf S_Tree S_Fix S_Edit S_Deep.

(** the object with an attribute set in whatever stands at a place *)
Definition set_at {A B C} (p : place A B) (put : C -> B -> B) (x : C) (a : A) : A :=
  match view p a with Some b => over p (put x b) a | None => a end.

(** [session to from ok same o s t] : someone starts with the object [o], sets attributes of it and of its parts at any
    depth to values that fit, and in between saves the object, with any indent and newline, and continues with what is loaded.  [s] is
    the object they end with; [t] is what the same edits make of [o] when nothing is saved or loaded at all.
    The reading may depend on the day it is done ([W]). *)
Inductive session {W A} (to : A -> nat -> bool -> res str) (from : W -> val -> res A) (ok : A -> bool) (same : A -> A -> bool) (o : A) : A -> A -> Prop :=
| begins : session to from ok same o o o
| edits s t B okB sameB p es C (get : B -> C) put fit alike b x : session to from ok same o s t ->
    inside ok same B okB sameB p -> attributes B okB sameB es -> In (Edit get put fit alike) es ->
    view p s = Some b -> fit b x = true -> session to from ok same o (over p (put x b) s) (set_at p put x t)
| saves s t s' day indent newline : session to from ok same o s t ->
    write_read to (from day) s indent newline = Ok s' -> session to from ok same o s' t.

(** No save or load fails in a session, and the saves and loads leave no trace *)
Definition no_trace {W A} (to : A -> nat -> bool -> res str) (from : W -> val -> res A) (ok : A -> bool) (same : A -> A -> bool) : Prop :=
  forall o s t, ok o = true -> session to from ok same o s t ->
  same t s = true /\ forall day indent newline, exists s', write_read to (from day) s indent newline = Ok s' /\ same t s' = true.
