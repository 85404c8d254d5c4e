(** Specification of the leaves: which Python values survive being written and read again.

    These predicates are the hypotheses of the round trip theorems.  They speak about the
    values only, not about any kiutils function. *)
From Verif Require Import PyBase PyNum PyStr Sexpr.
Local Open Scope nat_scope.

(** The number a whole word denotes, if it is one. *)
Definition sign_any (w : str) : bool * str :=
  match w with
  | c :: w' => if N.eqb c 43 then (false, w') else if N.eqb c 45 then (true, w') else (false, w)
  | [] => (false, w)
  end.
Definition sign_minus (w : str) : bool * str :=
  match w with
  | c :: w' => if N.eqb c 45 then (true, w') else (false, w)
  | [] => (false, w)
  end.
Definition wdec (w : str) : option (bool * str * str) :=
  let '(neg, w1) := sign_any w in
  match span is_digit w1 with
  | ((_ :: _) as ip, d :: w2) =>
      if N.eqb d 46 then
        match span is_digit w2 with
        | ((_ :: _) as fp, []) => Some (neg, ip, fp)
        | _ => None
        end
      else None
  | _ => None
  end.
Definition wint (w : str) : option (bool * str) :=
  let '(neg, w1) := sign_minus w in
  match span is_digit w1 with
  | ((_ :: _) as ip, []) => Some (neg, ip)
  | _ => None
  end.
Definition wnum (w : str) : option val :=
  match wdec w with
  | Some (neg, ip, fp) => Some (num_val neg ip fp)
  | None => match wint w with
            | Some (neg, ip) => Some (num_val neg ip [])
            | None => None
            end
  end.

(** A bare word: not empty, only word characters, no leading quote, not a number. *)
Definition wordb (w : str) : bool :=
  match w with
  | [] => false
  | c :: _ => negb (N.eqb c dquote)
              && forallb word_char w
              && match wnum w with Some _ => false | None => true end
  end.

(** A text that can be written in quotes: it does not end in a backslash. *)
Definition quotableb (s : str) : bool := negb (N.eqb (last s 0%N) bslash).

(** An integer that a double can hold exactly (every integer up to 2^53 in magnitude can). *)
Definition int_ok (z : Z) : bool :=
  match dec_to_dbl (z <? 0)%Z (Z.abs z) 0 with
  | DInf _ => false
  | f => (to_int f =? z)%Z
  end.

Local Open Scope Z_scope.
(** A well formed finite binary64: the mantissa has 53 bits, or the number is subnormal. *)
Definition canon (f : dbl) : bool :=
  match f with
  | DInf _ => false
  | DFin _ m e => (0 <=? m) && (m <? two53) && (emin <=? e) && (e <=? emax)
                  && ((two52 <=? m) || (e =? emin))
  end.

(** Python prints the float without an exponent. *)
Definition positional (f : dbl) : bool :=
  match f with
  | DInf _ => false
  | DFin _ m e =>
      if m =? 0 then true
      else let '(d, k) := repr_dec m e in
           let '(d, k) := strip10 400 d k in
           let decpt := Z.of_nat (length (digits d)) + k in
           (-4 <? decpt) && (decpt <=? 16)
  end.


(** ** Leaves by kind *)
(** A text attribute, written in quotes. *)
Definition txtb (v : val) : bool := match v with VStr s => quotableb s | _ => false end.
(** A text attribute written in quotes without escaping: it must not contain a quote. *)
Definition rawtxtb (v : val) : bool :=
  match v with VStr s => quotableb s && negb (existsb (N.eqb dquote) s) | _ => false end.
(** A keyword attribute, written as a bare word. *)
Definition wordv (v : val) : bool := match v with VStr s => wordb s | _ => false end.
(** A bare word that is followed by a line break (it may then look like a number). *)
Definition word0v (v : val) : bool :=
  match v with
  | VStr ((c :: _) as w) => negb (N.eqb c dquote) && forallb word_char w
  | _ => false
  end.
(** A bare word without a double quote. *)
Definition plainv (v : val) : bool :=
  match v with VStr s => wordb s && negb (existsb (N.eqb dquote) s) | _ => false end.
(** One of the given keywords *)
Definition enumb (l : list String.string) (v : val) : bool := existsb (is_str v) l.
(** A number: an int or a float that prints exactly and without an exponent. *)
Definition numb (v : val) : bool :=
  match v with
  | VInt z => int_ok z
  | VFloat f => canon f && positional f
  | _ => false
  end.
(** A number or a bare word (for attributes written without quotes, such as time stamps). *)
Definition atomb (v : val) : bool := numb v || wordv v.
(** Optional attributes: absent, or satisfying [f]. *)
Definition optb (f : val -> bool) (v : val) : bool := is_none v || f v.

(** Reading turns an integral float into the equal int ([1.0] is written "1.0" and read as 1);
    every other value is unchanged.  [nrm v == v] holds in Python. *)
Definition nrm (v : val) : val :=
  match v with
  | VFloat f => if is_integer f then VInt (to_int f) else v
  | _ => v
  end.
(** optional sub-objects *)
Definition optok {A} (f : A -> bool) (o : option A) : bool := match o with Some x => f x | None => true end.
