(** Specification vocabulary: expression trees, and how they are spelled as tokens. *)
From Verif Require Import PyBase PyNum PyStr Sexpr S_Leaf.

(** The tokens of an expression. *)
Fixpoint flat (v : val) : list tok :=
  match v with
  | VList l => TL :: (fix go (l : list val) : list tok :=
                        match l with [] => [TR] | x :: l' => flat x ++ go l' end) l
  | _ => [TA v]
  end.
Fixpoint flats (l : list val) : list tok :=
  match l with [] => [] | x :: l' => flat x ++ flats l' end.

(** [(key x y ...)] *)
Definition node (key : String.string) (l : list val) : val := VList (VStr (lit key) :: l).
(** [(key v)] if the attribute is present *)
Definition optn (key : String.string) (v : val) : list val :=
  if is_none v then [] else [node key [v]].
(** a flag written as a bare word / as [(key)] *)
Definition optw (key : String.string) (b : bool) : list val := if b then [VStr (lit key)] else [].
Definition optl (key : String.string) (b : bool) : list val := if b then [node key []] else [].
(** an optional bare value *)
Definition optv (v : val) : list val := if is_none v then [] else [v].
(** an optional sub-object *)
Definition opto {A} (t : A -> val) (o : option A) : list val :=
  match o with Some x => [t x] | None => [] end.
(** an optional truth value written as [(key yes)] or [(key no)] *)
Definition optyn (key : String.string) (b : option bool) : list val :=
  match b with Some b => [node key [VStr (if b then $"yes" else $"no")]] | None => [] end.
Arguments optyn key%string b.
Arguments node key%string l.
Arguments optn key%string v.
Arguments optw key%string b.
Arguments optl key%string b.

(** ** What a round trip is *)
(** Python's [==] on lists and on optional sub-objects, given [==] of the elements; [==] on
    dictionaries (here stricter than Python's: the insertion order has to agree as well) *)
Section Leqb.
Context {A : Type} (f : A -> A -> bool).
Fixpoint leqb (a b : list A) : bool :=
  match a, b with
  | [], [] => true
  | x :: a', y :: b' => f x y && leqb a' b'
  | _, _ => false
  end.
End Leqb.
Definition oeqb {A} (f : A -> A -> bool) (a b : option A) : bool :=
  match a, b with
  | None, None => true
  | Some x, Some y => f x y
  | _, _ => false
  end.
Definition kveqb (a b : val * val) : bool := py_eqb (fst a) (fst b) && py_eqb (snd a) (snd b).

(** write, parse, read *)
Definition write_read {A} (to : A -> nat -> bool -> res str) (from : val -> res A)
    (o : A) (indent : nat) (newline : bool) : res A :=
  let! s := to o indent newline in let! e := parse_sexp s in from e.

(** Every object [o] that is printable ([ok]): whatever the indentation and the line break
    flag, writing it succeeds, the text parses, and reading the result gives an object that is
    equal to [o] in the sense of Python's [==] on dataclasses ([same]). That object is [norm o]:
    it differs from [o] only in that integral floats have become ints.  It is printable
    again, and a further round trip gives exactly the same object. *)
Definition roundtrips {A} (to : A -> nat -> bool -> res str) (from : val -> res A)
    (ok : A -> bool) (norm : A -> A) (same : A -> A -> bool) : Prop :=
  forall o, ok o = true ->
    (forall indent newline, write_read to from o indent newline = Ok (norm o))
    /\ same o (norm o) = true
    /\ ok (norm o) = true
    /\ norm (norm o) = norm o.

(** ** The format itself *)
(** What is written for a printable object, whatever the indentation and the line break flag,
    spells exactly the expression [tree (norm o)] and parses to it; and the reader maps that
    expression to the object.  [tree] is the documented shape of the expression, given in the
    S_ files independently of writer and reader. *)
Definition conforms {A} (to : A -> nat -> bool -> res str) (from : val -> res A)
    (ok : A -> bool) (norm : A -> A) (tree : A -> val) : Prop :=
  forall o, ok o = true ->
    (forall indent newline, exists s, to o indent newline = Ok s
        /\ lex s = flat (tree (norm o)) /\ parse_sexp s = Ok (tree (norm o)))
    /\ from (tree o) = Ok o.

(** ** What a reader does with unexpected input *)
(** Anything but a list whose first item is one of the [heads] raises. *)
Definition refuses {A} (from : val -> res A) (heads : list String.string) : Prop :=
  (forall e, is_list e = false -> from e = Err EException)
  /\ (exists x, from (VList []) = Err x)
  /\ (forall h l, existsb (is_str h) heads = false -> from (VList (h :: l)) = Err EException).

(** A child list whose first item is none of the [keys], anywhere behind the first [npos]
    arguments, makes no difference. *)
Definition ignores {A} (from : val -> res A) (npos : nat) (keys : list String.string) : Prop :=
  forall h before u args after,
    npos <= length before -> existsb (is_str u) keys = false ->
    from (VList (h :: before ++ VList (u :: args) :: after)) = from (VList (h :: before ++ after)).

(** Of two neighbouring children with the same key the second one counts. *)
Definition last_wins {A} (from : val -> res A) (npos : nat) (keys : list String.string) : Prop :=
  forall h before k args1 args2 after o,
    npos <= length before -> In k keys ->
    from (VList (h :: before ++ node k args1 :: node k args2 :: after)) = Ok o ->
    from (VList (h :: before ++ node k args2 :: after)) = Ok o.
