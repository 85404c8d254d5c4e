(** Model of utils/sexpr.py: the S-expression tokeniser and parser. *)
From Verif Require Import PyBase PyNum PyStr.
Local Open Scope N_scope.

(** [\s] for str patterns: the characters for which CPython's str.isspace() holds. *)
Definition is_space (c : N) : bool :=
  ((9 <=? c) && (c <=? 13)) || ((28 <=? c) && (c <=? 32)) || (c =? 133) || (c =? 160)
  || (c =? 5760) || ((8192 <=? c) && (c <=? 8202)) || (c =? 8232) || (c =? 8233)
  || (c =? 8239) || (c =? 8287) || (c =? 12288).

Definition lpar : N := 40.
Definition rpar : N := 41.
Definition caret : N := 94.

(** One token, with the value the parser appends for it (sexpr.py:25-39). *)
Inductive tok := TL | TR | TA (v : val).

(** Longest prefix of characters satisfying [f], and the rest. *)
Fixpoint span (f : N -> bool) (s : str) : str * str :=
  match s with
  | [] => ([], [])
  | c :: s' => if f c then let '(a, b) := span f s' in (c :: a, b) else ([], s)
  end.

(** sexpr.py:13 lookahead (?=[\ \)]): the next character is a space or a closing bracket *)
Definition num_end (s : str) : bool :=
  match s with c :: _ => (c =? 32) || (c =? rpar) | [] => false end.
(** sexpr.py:14 lookahead (?:(?=\))|(?=\s)) *)
Definition sq_end (s : str) : bool :=
  match s with c :: _ => (c =? rpar) || is_space c | [] => false end.

(** sexpr.py:13, group num: [+-]?\d+\.\d+(?=[\ \)])|\-?\d+(?=[\ \)])
    \d+ is greedy and the following character is never a digit, so backtracking into a
    shorter run of digits cannot make the lookahead succeed. *)
Definition match_dec (s : str) : option (bool * str * str * str) :=
  let '(neg, s1) := match s with
                    | c :: s' => if c =? 43 then (false, s') else if c =? 45 then (true, s')
                                 else (false, s)
                    | [] => (false, s) end in
  let '(ip, s2) := span is_digit s1 in
  match ip, s2 with
  | _ :: _, d :: s3 =>
      if d =? 46 then
        let '(fp, s4) := span is_digit s3 in
        match fp with
        | _ :: _ => if num_end s4 then Some (neg, ip, fp, s4) else None
        | [] => None
        end
      else None
  | _, _ => None
  end.
Definition match_int (s : str) : option (bool * str * str) :=
  let '(neg, s1) := match s with
                    | c :: s' => if c =? 45 then (true, s') else (false, s)
                    | [] => (false, s) end in
  let '(ip, s2) := span is_digit s1 in
  match ip with
  | _ :: _ => if num_end s2 then Some (neg, ip, s2) else None
  | [] => None
  end.
Definition match_num (s : str) : option (val * str) :=
  match match_dec s with
  | Some (neg, ip, fp, r) => Some (num_val neg ip fp, r)
  | None => match match_int s with
            | Some (neg, ip, r) => Some (num_val neg ip [], r)
            | None => None
            end
  end.

(** sexpr.py:14, group sq: "(?:[^"]|(?<=\\)")*"(?:(?=\))|(?=\s)) behind the opening quote.
    [prev] is the preceding character (for the lookbehind).  The loop is greedy: an escaped
    quote is first consumed, and only when the rest fails tried as the closing quote. *)
Fixpoint match_sq (prev : N) (s : str) : option (str * str) :=
  match s with
  | [] => None
  | c :: s' =>
      if c =? dquote then
        if prev =? bslash then
          match match_sq c s' with
          | Some (b, r) => Some (c :: b, r)
          | None => if sq_end s' then Some ([], s') else None
          end
        else if sq_end s' then Some ([], s') else None
      else
        match match_sq c s' with
        | Some (b, r) => Some (c :: b, r)
        | None => None
        end
  end.

(** sexpr.py:15, group s: [^(^)\s]+, the characters that are not '(', '^', ')' or white space *)
Definition word_char (c : N) : bool :=
  negb ((c =? lpar) || (c =? caret) || (c =? rpar) || is_space c).

(** sexpr.py:36-37: value[1:-1].replace(r'\"', '"') *)
Definition unescape (s : str) : str := replace2 bslash dquote [dquote] s.

(** [re.finditer(term_regex, sexp)] (sexpr.py:9-16, 22): scan from the left; at each position
    skip white space and try the groups in order; a position where nothing matches (only '^'
    or white space at the end) is skipped.  [fuel] bounds the number of scanning steps; [None]
    means it was exhausted. *)
Fixpoint lexf (fuel : nat) (s : str) : option (list tok) :=
  match fuel with
  | O => None
  | S fuel' =>
      match s with
      | [] => Some []
      | c :: s' =>
          let emit t r := match lexf fuel' r with Some ts => Some (t :: ts) | None => None end in
          if is_space c then lexf fuel' s'
          else if c =? lpar then emit TL s'
          else if c =? rpar then emit TR s'
          else match match_num s with
               | Some (v, r) => emit (TA v) r
               | None =>
                   match (if c =? dquote then match_sq c s' else None) with
                   | Some (b, r) => emit (TA (VStr (unescape b))) r
                   | None =>
                       let '(w, r) := span word_char s in
                       match w with
                       | [] => lexf fuel' s'
                       | _ => emit (TA (VStr w)) r
                       end
                   end
               end
      end
  end.
(** One more step than characters always suffices (theorem [lexf_total]). *)
Definition lex (s : str) : list tok :=
  match lexf (S (length s)) s with Some ts => ts | None => [] end.

(** sexpr.py:25-41: the loop body; [stack] holds the enclosing lists, innermost first. *)
Definition pstep (st : list (list val) * list val) (t : tok) : res (list (list val) * list val) :=
  let '(stack, out) := st in
  match t with
  | TL => Ok (out :: stack, [])
  | TR => match stack with
          | [] => Err EAssertion
          | prev :: stack' => Ok (stack', prev ++ [VList out])
          end
  | TA v => Ok (stack, out ++ [v])
  end.
Definition parse_toks (ts : list tok) : res val :=
  let! (stack, out) := foldM pstep ([], []) ts in
  match stack with
  | _ :: _ => Err EAssertion
  | [] => match out with [] => Err EIndex | v :: _ => Ok v end
  end.

(** sexpr.py:18-43 parse_sexp *)
Definition parse_sexp (s : str) : res val := parse_toks (lex s).
