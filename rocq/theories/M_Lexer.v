(** Model of the tokenising half of utils/sexpr.py by Python's regular expressions: the pattern
    [term_regex] written out as it stands in the source, [re.finditer], and the choice of the term
    type from the named groups.  [Sexpr.lex] is a direct scanner; C40 proves that both agree. *)
From Verif Require Import PyBase PyNum PyStr PyRe Sexpr.
Local Open Scope N_scope.

(** sexpr.py:13 [(?=[\ \)])] *)
Definition r_num_end : re := RLook (fun c => (c =? 32) || (c =? 41)).
(** sexpr.py:13 [+-]?\d+\.\d+(?=[\ \)])|\-?\d+(?=[\ \)]) *)
Definition r_num : re :=
  RAlt (RSeq (ROpt (RChr (fun c => (c =? 43) || (c =? 45))))
       (RSeq (RPlus true (RChr is_digit))
       (RSeq (r_char 46)
       (RSeq (RPlus true (RChr is_digit)) r_num_end))))
       (RSeq (ROpt (r_char 45)) (RSeq (RPlus true (RChr is_digit)) r_num_end)).
(** sexpr.py:14 "(?:[^"]|(?<=\\)")*"(?:(?=\))|(?=\s)) *)
Definition r_sq : re :=
  RSeq (r_char 34)
  (RSeq (RStar true (RAlt (RChr (fun c => negb (34 =? c))) (RSeq (RBehind (N.eqb 92)) (r_char 34))))
  (RSeq (r_char 34) (RAlt (RLook (N.eqb 41)) (RLook is_space)))).
(** sexpr.py:15 [^(^)\s]+ *)
Definition r_s : re := RPlus true (RChr (fun c => negb ((c =? 40) || (c =? 94) || (c =? 41) || is_space c))).
(** sexpr.py:9-16 term_regex; the groups brackl, brackr, num, sq, s are numbered 1 to 5 *)
Definition term_regex : re :=
  RSeq (RStar true (RChr is_space))
  (RAlt (RGroup 1 (r_char 40))
  (RAlt (RGroup 2 (r_char 41))
  (RAlt (RGroup 3 r_num)
  (RAlt (RGroup 4 r_sq)
        (RGroup 5 r_s))))).

(** [re.finditer(r, s)]: the leftmost match from each starting point; the next search starts where
    the match ended, one character further if it was empty (Python would also look for a match
    that is not empty at the same place; [term_regex] has no empty match, so this is not used).
    [n] bounds the number of searches. *)
Fixpoint finditer (n : nat) (r : re) (pre rest : str) : list mstate :=
  match n with
  | O => []
  | S n' =>
      match run r (mkm pre rest []), rest with
      | m :: _, c :: s => m :: (if advances (mkm pre rest []) m then finditer n' r (m_pre m) (m_rest m) else finditer n' r (c :: pre) s)
      | m :: _, [] => [m]
      | [], c :: s => finditer n' r (c :: pre) s
      | [], [] => []
      end
  end.
Definition re_finditer (r : re) (s : str) : list mstate := finditer (S (length s)) r [] s.

(** sexpr.py:23 [[(t,v) for t,v in termtypes.groupdict().items() if v][0]]; [None]: IndexError *)
Definition term_value (m : mstate) : option (nat * str) :=
  match filter (fun tv : nat * str => match snd tv with [] => false | _ => true end)
               (map (fun n => (n, group n m)) [1; 2; 3; 4; 5]%nat) with
  | tv :: _ => Some tv
  | [] => None
  end.

(** sexpr.py:33-34 [v = float(value); if v.is_integer(): v = int(v)] for the texts that the group
    num can hold: a sign, digits, and perhaps a point and more digits *)
Definition num_text (value : str) : val :=
  let '(neg, s) := match value with
                   | c :: s => if c =? 43 then (false, s) else if c =? 45 then (true, s) else (false, value)
                   | [] => (false, value) end in
  let '(ip, s) := span is_digit s in
  num_val neg ip (match s with _ :: fp => fp | [] => [] end).
(** [value[1:-1]] *)
Definition inner (value : str) : str := removelast (tl value).
(** sexpr.py:25-41: what the term appends; [None] stands for the exceptions of lines 23 and 41 *)
Definition term_tok (m : mstate) : option tok :=
  match term_value m with
  | Some (1%nat, _) => Some TL
  | Some (2%nat, _) => Some TR
  | Some (3%nat, value) => Some (TA (num_text value))
  | Some (4%nat, value) => Some (TA (VStr (replace2 bslash dquote [dquote] (inner value))))
  | Some (5%nat, value) => Some (TA (VStr value))
  | _ => None
  end.

(** sexpr.py:18-43 parse_sexp, with the tokens taken from the regular expression; the loop runs
    while it searches, so an exception of line 23 or 41 would come after the terms before it. *)
Definition parse_sexp_re (s : str) : res val :=
  let! (stack, out) := foldM (fun st m => match term_tok m with Some t => pstep st t | None => Err EIndex end)
                             ([], []) (re_finditer term_regex s) in
  match stack with
  | _ :: _ => Err EAssertion
  | [] => match out with [] => Err EIndex | v :: _ => Ok v end
  end.
