(** Specification of numbers that are written with a fixed number of decimal places. *)
From Verif Require Import PyBase PyNum PyStr S_Leaf.
Local Open Scope Z_scope.

(** [float(v)] of an int or a float *)
Definition float_of (v : val) : dbl :=
  match v with
  | VFloat f => f
  | VInt z => dec_to_dbl (z <? 0) (Z.abs z) 0
  | _ => DInf false
  end.
(** What is left of the number when it is written with [prec] decimal places: the multiple of
    10^-prec nearest to it (ties to even), read as a double, an integral one as an int. *)
Definition fixed_val (prec : Z) (v : val) : val :=
  match float_of v with
  | DFin neg m e => let '(p, q) := dbl_ratio m e in nrm (VFloat (dec_to_dbl neg (rne (p * 10 ^ prec) q) (- prec)))
  | DInf _ => v
  end.
(** the very same number *)
Definition num_same (a b : val) : bool :=
  match a, b with
  | VInt x, VInt y => x =? y
  | VFloat f, VFloat g => dbl_same f g
  | _, _ => false
  end.
(** A number that [prec] decimal places are enough for. *)
Definition fixb (prec : Z) (v : val) : bool := numb v && num_same (fixed_val prec v) (nrm v).
(** A finite int or float (an int must not be too large for a float). *)
Definition finite (v : val) : bool :=
  match v with VFloat f => canon f | VInt z => int_ok z | _ => false end.
