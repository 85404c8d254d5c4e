(** Numbers: decimal text <-> int / binary64, as CPython does it.

    [float(s)] is correctly rounded (round half to even) decimal to binary64 conversion,
    [str(x)] / [f'{x}'] of a float is the shortest decimal that reads back as the same float
    (CPython's float_repr_style 'short'), [f'{x:.Nf}'] rounds the exact binary value half to
    even.  These are properties of the Python runtime that utils/sexpr.py:32-35 and every
    [to_sexpr] rely on. *)
From Verif Require Import PyBase.
Local Open Scope Z_scope.

(** ** Rounding *)
(** [n / d] rounded to the nearest integer, ties to even; [n >= 0], [d > 0]. *)
Definition rne (n d : Z) : Z :=
  let q := n / d in
  let r := n mod d in
  if 2 * r <? d then q
  else if d <? 2 * r then q + 1
  else if Z.even q then q else q + 1.

(** [p * 2^k / q] as a pair numerator, denominator *)
Definition scale2 (p q k : Z) : Z * Z :=
  if 0 <=? k then (p * 2 ^ k, q) else (p, q * 2 ^ (- k)).

(** The binary order of magnitude: 2^k <= p/q < 2^(k+1); [p > 0], [q > 0]. *)
Definition mag2 (p q : Z) : Z :=
  let k := Z.log2 p - Z.log2 q in
  let '(a, b) := scale2 p q (- k) in
  if b <=? a then k else k - 1.

Definition emin : Z := -1074.
Definition emax : Z := 971.
Definition two52 : Z := 4503599627370496.
Definition two53 : Z := 9007199254740992.

(** The binary64 nearest to the positive rational p/q. *)
Definition round_pos (neg : bool) (p q : Z) : dbl :=
  let e := Z.max (mag2 p q - 52) emin in
  let '(a, b) := scale2 p q (- e) in
  let m := rne a b in
  let '(m, e) := if m =? two53 then (two52, e + 1) else (m, e) in
  if emax <? e then DInf neg else DFin neg m e.

Definition dzero (neg : bool) : dbl := DFin neg 0 emin.

(** The binary64 nearest to (-1)^neg * d * 10^k. *)
Definition dec_to_dbl (neg : bool) (d k : Z) : dbl :=
  if d =? 0 then dzero neg
  else if 0 <=? k then round_pos neg (d * 10 ^ k) 1
  else round_pos neg d (10 ^ (- k)).

(** Float literals in the Python source: [fdec 127 (-2)] is 1.27. *)
Definition fdec (d k : Z) : val := VFloat (dec_to_dbl (d <? 0) (Z.abs d) k).

(** [x.is_integer()] *)
Definition is_integer (f : dbl) : bool :=
  match f with
  | DInf _ => false
  | DFin _ m e => if 0 <=? e then true else (m mod 2 ^ (- e)) =? 0
  end.
(** [int(x)] for a float with an integral value *)
Definition to_int (f : dbl) : Z :=
  match f with
  | DInf _ => 0
  | DFin n m e =>
      let a := if 0 <=? e then m * 2 ^ e else m / 2 ^ (- e) in
      if n then - a else a
  end.

(** ** Printing *)
Definition digit_char (d : Z) : N := Z.to_N (48 + d).

(** decimal digits of [z >= 0], most significant first *)
Fixpoint digits_aux (fuel : nat) (z : Z) : str :=
  match fuel with
  | O => []
  | S fuel' =>
      if z <? 10 then [digit_char z]
      else digits_aux fuel' (z / 10) ++ [digit_char (z mod 10)]
  end.
Definition digits (z : Z) : str := digits_aux (S (Z.to_nat (Z.log2 z))) z.

(** [str(int)] *)
Definition int_str (z : Z) : str :=
  if z <? 0 then 45%N :: digits (- z) else digits z.

(** the sign of a printed number *)
Definition sgn_str (neg : bool) : str := if neg then [45%N] else [].

Definition zeros (n : Z) : str := repeat 48%N (Z.to_nat n).

(** [d * 10^k] with the trailing zeros of [d] removed ([d > 0]) *)
Fixpoint strip10 (fuel : nat) (d k : Z) : Z * Z :=
  match fuel with
  | O => (d, k)
  | S fuel' => if d mod 10 =? 0 then strip10 fuel' (d / 10) (k + 1) else (d, k)
  end.

(** The decimal order of magnitude: smallest j with p/q < 10^j, searched in a finite range *)
Fixpoint dexp_up (fuel : nat) (p q j : Z) : Z :=   (* p/q >= 1 *)
  match fuel with
  | O => j
  | S fuel' => if p <? q then j else dexp_up fuel' p (q * 10) (j + 1)
  end.
Fixpoint dexp_down (fuel : nat) (p q j : Z) : Z := (* p/q < 1 *)
  match fuel with
  | O => j
  | S fuel' => if q <=? p * 10 then j else dexp_down fuel' (p * 10) q (j - 1)
  end.
Definition dexp (p q : Z) : Z :=
  if q <=? p then dexp_up 320 p q 0 else dexp_down 330 p q 0.

(** A double as a pair numerator, denominator of its absolute value *)
Definition dbl_ratio (m e : Z) : Z * Z := scale2 m 1 e.

Definition dbl_same (f g : dbl) : bool :=
  match f, g with
  | DFin a m e, DFin b n k => Bool.eqb a b && (m =? n) && (e =? k)
  | DInf a, DInf b => Bool.eqb a b
  | _, _ => false
  end.

(** The n-digit decimal nearest to the double among those that read back as it. *)
Definition repr_try (m e : Z) (n : Z) : option (Z * Z) :=
  let '(p, q) := dbl_ratio m e in
  let k := dexp p q - n in
  let '(a, b) := if 0 <=? k then (p, q * 10 ^ k) else (p * 10 ^ (- k), q) in
  let lo := a / b in
  let hi := lo + 1 in
  let rd d := dbl_same (dec_to_dbl false d k) (DFin false m e) in
  let lo_ok := rd lo in
  let hi_ok := rd hi in
  if lo_ok && hi_ok
  then (if 2 * (a mod b) <=? b then Some (lo, k) else Some (hi, k))
  else if lo_ok then Some (lo, k)
  else if hi_ok then Some (hi, k)
  else None.

Fixpoint repr_search (fuel : nat) (m e : Z) (n : Z) : option (Z * Z) :=
  match fuel with
  | O => None
  | S fuel' => match repr_try m e n with
               | Some r => Some r
               | None => repr_search fuel' m e (n + 1)
               end
  end.

(** Shortest decimal d * 10^k of a positive double.  17 digits always suffice for a
    canonical binary64; the last case (the exact decimal expansion) is there only to keep the
    function total. *)
Definition repr_dec (m e : Z) : Z * Z :=
  match repr_search 17 m e 1 with
  | Some (d, k) => (d, k)
  | None => if 0 <=? e then (m * 2 ^ e, 0) else (m * 5 ^ (- e), e)
  end.

(** Positional or exponent notation for d * 10^k, d > 0 without trailing zeros:
    CPython's format_float_short with 'r' uses an exponent if decpt <= -4 or decpt > 16. *)
Definition dec_str (d k : Z) : str :=
  let ds := digits d in
  let n := Z.of_nat (length ds) in
  let decpt := n + k in
  if (-4 <? decpt) && (decpt <=? 16) then
    if decpt <=? 0 then [48; 46]%N ++ zeros (- decpt) ++ ds
    else if n <=? decpt then ds ++ zeros (decpt - n) ++ [46; 48]%N
    else firstn (Z.to_nat decpt) ds ++ [46%N] ++ skipn (Z.to_nat decpt) ds
  else
    let x := decpt - 1 in
    let mant := match ds with
                | c :: (_ :: _) as rest => c :: 46%N :: tl ds
                | _ => ds
                end in
    let ax := digits (Z.abs x) in
    mant ++ [101%N; if x <? 0 then 45%N else 43%N]
         ++ (if Z.of_nat (length ax) <? 2 then 48%N :: ax else ax).

(** [str(float)] *)
Definition float_str (f : dbl) : str :=
  match f with
  | DInf n => sgn_str n ++ $"inf"
  | DFin n m e =>
      sgn_str n ++
      (if m =? 0 then $"0.0"
       else let '(d, k) := repr_dec m e in
            let '(d, k) := strip10 400 d k in dec_str d k)
  end.

(** [f'{x:.Pf}'] of an int or a float: exact value rounded half to even *)
Definition fixed_str (neg : bool) (p q : Z) (prec : Z) : str :=
  let r := rne (p * 10 ^ prec) q in
  let ds := digits r in
  let ds := zeros (prec + 1 - Z.of_nat (length ds)) ++ ds in
  let cut := (length ds - Z.to_nat prec)%nat in
  sgn_str neg ++ firstn cut ds
  ++ (if prec =? 0 then [] else 46%N :: skipn cut ds).
Definition fmt_fixed (prec : Z) (v : val) : res str :=
  match v with
  | VFloat (DFin n m e) => let '(p, q) := dbl_ratio m e in Ok (fixed_str n p q prec)
  | VFloat (DInf n) => Ok (sgn_str n ++ $"inf")
  | VInt z => match dec_to_dbl (z <? 0) (Z.abs z) 0 with
              | DFin n m e => let '(p, q) := dbl_ratio m e in Ok (fixed_str n p q prec)
              | DInf _ => Err EValue    (* OverflowError in Python *)
              end
  | VBool b => Ok (fixed_str false (if b then 1 else 0) 1 prec)
  | VStr _ => Err EValue
  | VNone | VList _ => Err EType
  end.

(** ** Reading *)
(** Characters matched by [\d]: Unicode category Nd (Unicode 14, CPython 3.11), given by the
    code points of the digits zero; the other nine follow. *)
Definition nd_zeros : list N :=
  [48; 1632; 1776; 1984; 2406; 2534; 2662; 2790; 2918; 3046; 3174; 3302; 3430; 3558; 3664; 3792;
   3872; 4160; 4240; 6112; 6160; 6470; 6608; 6784; 6800; 6992; 7088; 7232; 7248; 42528; 43216;
   43264; 43472; 43504; 43600; 44016; 65296; 66720; 68912; 69734; 69872; 69942; 70096; 70384;
   70736; 70864; 71248; 71360; 71472; 71904; 72016; 72784; 73040; 73120; 92768; 92864; 93008;
   120782; 120792; 120802; 120812; 120822; 123200; 123632; 125264; 130032]%N.
Fixpoint digit_in (zs : list N) (c : N) : option Z :=
  match zs with
  | [] => None
  | z :: zs' => if (N.leb z c && N.ltb c (z + 10))%N then Some (Z.of_N (c - z)) else digit_in zs' c
  end.
Definition digit_val (c : N) : option Z := digit_in nd_zeros c.
Definition is_digit (c : N) : bool := match digit_val c with Some _ => true | None => false end.

(** value of a digit sequence *)
Definition digits_val (s : str) : Z :=
  fold_left (fun a c => 10 * a + match digit_val c with Some d => d | None => 0 end) s 0.

(** [float(value)] on text that matched the num group: optional sign [neg], integral digits,
    fractional digits. *)
Definition read_float (neg : bool) (ip fp : str) : dbl :=
  dec_to_dbl neg (digits_val (ip ++ fp)) (- Z.of_nat (length fp)).

(** utils/sexpr.py:33-34: v = float(value); if v.is_integer(): v = int(v) *)
Definition num_val (neg : bool) (ip fp : str) : val :=
  let f := read_float neg ip fp in
  if is_integer f then VInt (to_int f) else VFloat f.

(** '0' to '9' *)
Definition ascii_digit (c : N) : bool := (N.leb 48 c && N.leb c 57)%bool.
