(** Python values, exceptions and control flow used by the model.

    This file models the fragment of the Python language that kiutils uses, not kiutils
    itself: text, the values the S-expression parser can produce, exceptions as values,
    indexing, equality and the [for] loop. *)
From Coq Require Import Ascii String.
From Coq Require Export List ZArith NArith Bool Lia.
From Verif Require Export RecordSet.
Export ListNotations Ascii.AsciiSyntax String.StringSyntax.
Global Open Scope list_scope.

(** ** Text: Python [str] is a finite sequence of Unicode code points. *)
Definition str := list N.

Fixpoint lit (s : string) : str :=
  match s with
  | EmptyString => []
  | String a s' => N_of_ascii a :: lit s'
  end.
(** [$"abc"] is the Python literal 'abc'; [nl] is '\n'. *)
Notation "$ s" := (lit s%string) (at level 0, s at level 0, format "$ s").
Definition nl : str := [10%N].

Fixpoint str_eqb (a b : str) : bool :=
  match a, b with
  | [], [] => true
  | x :: a', y :: b' => N.eqb x y && str_eqb a' b'
  | _, _ => false
  end.

(** ** Floats: IEEE-754 binary64 without NaN (NaN cannot be produced by the parser).
    [DFin neg m e] is (-1)^neg * m * 2^e. *)
Inductive dbl := DFin (neg : bool) (m : Z) (e : Z) | DInf (neg : bool).

(** ** Values.  What [parse_sexp] returns and what an attribute can hold. *)
Inductive val :=
| VNone
| VBool (b : bool)
| VInt (z : Z)
| VFloat (f : dbl)
| VStr (s : str)
| VList (l : list val).

(** ** Exceptions as values *)
Inductive exn :=
| EAssertion       (* AssertionError *)
| EIndex           (* IndexError *)
| EType            (* TypeError *)
| EValue           (* ValueError *)
| EAttribute       (* AttributeError *)
| EKey             (* KeyError *)
| ENotImplemented  (* NotImplementedError *)
| EException.      (* raise Exception("...") *)

Inductive res (A : Type) := Ok (a : A) | Err (e : exn).
Arguments Ok {A} a.
Arguments Err {A} e.

Definition bind {A B} (m : res A) (f : A -> res B) : res B :=
  match m with Ok a => f a | Err e => Err e end.
Notation "'let!' x ':=' m 'in' k" := (bind m (fun x => k))
  (at level 200, x pattern, m at level 100, k at level 200, right associativity).

(** The Python [for] loop over a list with a mutable accumulator. *)
Section Loops.
Context {A B : Type}.
Section Fold.
Context (step : A -> B -> res A).
Fixpoint foldM (a : A) (l : list B) : res A :=
  match l with
  | [] => Ok a
  | x :: l' => let! a' := step a x in foldM a' l'
  end.
End Fold.

(** [for x in l: expression += f(x)] *)
Section Concat.
Context (f : A -> res str).
Fixpoint concatM (l : list A) : res str :=
  match l with
  | [] => Ok []
  | x :: l' => let! s := f x in let! r := concatM l' in Ok (s ++ r)
  end.
End Concat.

(** [[f(x) for x in l]] *)
Section Map.
Context (f : A -> res B).
Fixpoint mapM (l : list A) : res (list B) :=
  match l with
  | [] => Ok []
  | x :: l' => let! y := f x in let! r := mapM l' in Ok (y :: r)
  end.
End Map.
End Loops.

(** [f(x) if x is not None else ''] for an optional sub-object *)
Definition opt_str {A} (o : option A) (f : A -> res str) : res str :=
  match o with Some x => f x | None => Ok [] end.

(** [if b: o = f(o)] *)
Definition on {A} (b : bool) (f : A -> res A) (o : A) : res A := if b then f o else Ok o.

(** [object.field = m] *)
Definition setf {R T} (p : R -> T) {S : Setter p} (m : res T) (o : R) : res R :=
  let! x := m in Ok (set p (fun _ => x) o).
(** [object.field.append(m)] *)
Definition addf {R T} (p : R -> list T) {S : Setter p} (m : res T) (o : R) : res R :=
  let! x := m in Ok (set p (fun l => l ++ [x]) o).
(** [for x in m: object.field.append(x)] *)
Definition extf {R T} (p : R -> list T) {S : Setter p} (m : res (list T)) (o : R) : res R :=
  let! xs := m in Ok (set p (fun l => l ++ xs) o).

(** ** Inspecting values *)
Definition is_none (v : val) : bool := match v with VNone => true | _ => false end.
Definition is_list (v : val) : bool := match v with VList _ => true | _ => false end.
(** [o is None] for an optional sub-object *)
Definition no_object {A} (o : option A) : bool := match o with None => true | Some _ => false end.
(** [isinstance(v, str)] *)
Definition is_text (v : val) : bool := match v with VStr _ => true | _ => false end.
(** a function that accepts only str; everything else is a TypeError *)
Definition as_text (v : val) : res str := match v with VStr s => Ok s | _ => Err EType end.
(** [bool(v)] *)
Definition truthy (v : val) : bool :=
  match v with
  | VNone => false
  | VBool b => b
  | VInt z => negb (Z.eqb z 0)
  | VFloat (DFin _ m _) => negb (Z.eqb m 0)
  | VFloat (DInf _) => true
  | VStr s => match s with [] => false | _ => true end
  | VList l => match l with [] => false | _ => true end
  end.
(** [v == 'literal'] *)
Definition is_str (v : val) (s : string) : bool :=
  match v with VStr x => str_eqb x (lit s) | _ => false end.
Notation "v =s s" := (is_str v s%string) (at level 70).

(** [v[i]] for a non-negative constant index: lists and strings can be indexed, everything
    else raises TypeError. *)
Definition at_ (v : val) (i : nat) : res val :=
  match v with
  | VList l => match nth_error l i with Some x => Ok x | None => Err EIndex end
  | VStr s => match nth_error s i with Some c => Ok (VStr [c]) | None => Err EIndex end
  | _ => Err EType
  end.
Notation "v @ i" := (at_ v i) (at level 35, no associativity).

(** [len(v)] *)
Definition len_ (v : val) : res nat :=
  match v with
  | VList l => Ok (length l)
  | VStr s => Ok (length s)
  | _ => Err EType
  end.

(** [isinstance(exp, list)], else [raise Exception] *)
Definition need_list (v : val) : res (list val) :=
  match v with VList l => Ok l | _ => Err EException end.

(** The entry check shared by the [from_sexpr] methods:
    [if not isinstance(exp, list): raise ...; if exp[0] != head: raise ...] *)
Definition need_head (head : string) (exp : val) : res (list val) :=
  let! l := need_list exp in
  let! h := exp@0 in
  if h =s head then Ok l else Err EException.

(** [v[i:]] iterated by a for loop: for a list the tail, for a string its characters *)
Definition from_ (v : val) (i : nat) : res (list val) :=
  match v with
  | VList l => Ok (skipn i l)
  | VStr s => Ok (map (fun c => VStr [c]) (skipn i s))
  | _ => Err EType
  end.

(** Numeric value of [m * 2^e] comparisons are needed for [==] between int and float. *)
Definition dbl_eq_Z (f : dbl) (z : Z) : bool :=
  match f with
  | DInf _ => false
  | DFin n m e =>
      let sm := if n then Z.opp m else m in
      if (0 <=? e)%Z then Z.eqb (sm * 2 ^ e) z else Z.eqb sm (z * 2 ^ (- e))
  end.
Definition dbl_eqb (f g : dbl) : bool :=
  match f, g with
  | DInf a, DInf b => Bool.eqb a b
  | DFin a m e, DFin b n k =>
      let sm := if a then Z.opp m else m in
      let sn := if b then Z.opp n else n in
      if (e <=? k)%Z then Z.eqb sm (sn * 2 ^ (k - e)) else Z.eqb (sm * 2 ^ (e - k)) sn
  | _, _ => false
  end.

(** Python [==] on values *)
Fixpoint py_eqb (a b : val) {struct a} : bool :=
  match a, b with
  | VNone, VNone => true
  | VBool x, VBool y => Bool.eqb x y
  | VBool x, VInt z | VInt z, VBool x => Z.eqb (if x then 1 else 0) z
  | VBool x, VFloat f | VFloat f, VBool x => dbl_eq_Z f (if x then 1 else 0)
  | VInt x, VInt y => Z.eqb x y
  | VInt x, VFloat f | VFloat f, VInt x => dbl_eq_Z f x
  | VFloat f, VFloat g => dbl_eqb f g
  | VStr s, VStr t => str_eqb s t
  | VList l, VList m =>
      (fix go (l m : list val) {struct l} : bool :=
         match l, m with
         | [], [] => true
         | x :: l', y :: m' => py_eqb x y && go l' m'
         | _, _ => false
         end) l m
  | _, _ => false
  end.

(** Dictionaries keep insertion order; updating an existing key keeps its place.
    An unhashable key (a list) raises TypeError. *)
Fixpoint dict_put (d : list (val * val)) (k v : val) : list (val * val) :=
  match d with
  | [] => [(k, v)]
  | (k', v') :: d' => if py_eqb k' k then (k', v) :: d' else (k', v') :: dict_put d' k v
  end.
Definition dict_set (d : list (val * val)) (k v : val) : res (list (val * val)) :=
  if is_list k then Err EType else Ok (dict_put d k v).

Arguments lit : simpl never.
Arguments is_str : simpl never.
Arguments str_eqb : simpl never.
Delimit Scope string_scope with string.
