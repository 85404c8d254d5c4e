(** Specification of the frame of the written text: what the parameters [indent] and [newline] of to_sexpr are for. *)
From Verif Require Import PyBase.

(** [indent] blanks, then one expression in parentheses *)
Definition framed (indent : nat) (newline : bool) (body : str) : str :=
  repeat 32%N indent ++ [40%N] ++ body ++ [41%N] ++ (if newline then [10%N] else []).
(** If the object can be written at all, the text is an expression in parentheses behind exactly [indent] blanks,
    followed by a line feed exactly if [newline] is set, which makes no other difference. *)
Definition lays_out {A} (to : A -> nat -> bool -> res str) : Prop :=
  forall o indent n s, to o indent n = Ok s -> exists body, forall newline, to o indent newline = Ok (framed indent newline body).
(** only the indentation and the line feed *)
Definition blank (indent : nat) (newline : bool) : str := repeat 32%N indent ++ (if newline then [10%N] else []).
(** The same for a class some objects of which are written as a blank line. *)
Definition lays_out_or_blank {A} (nothing : A -> bool) (to : A -> nat -> bool -> res str) : Prop :=
  forall o indent n s, to o indent n = Ok s ->
    if nothing o then forall newline, to o indent newline = Ok (blank indent newline)
    else exists body, forall newline, to o indent newline = Ok (framed indent newline body).
(** The same for a class some objects of which are written as nothing at all. *)
Definition lays_out_or_nothing {A} (nothing : A -> bool) (to : A -> nat -> bool -> res str) : Prop :=
  forall o indent n s, to o indent n = Ok s ->
    if nothing o then forall newline, to o indent newline = Ok []
    else exists body, forall newline, to o indent newline = Ok (framed indent newline body).
(** A class that ends the line whatever [newline] says. *)
Definition lays_out_lines {A} (nothing : A -> bool) (to : A -> nat -> bool -> res str) : Prop :=
  forall o indent n s, to o indent n = Ok s ->
    if nothing o then forall newline, to o indent newline = Ok (blank indent newline)
    else exists body, forall newline, to o indent newline = Ok (framed indent true body).
