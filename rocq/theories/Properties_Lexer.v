(** Property theorems C40: the scanner is the regular expression. *)
From Verif Require Import PyBase PyNum PyStr PyRe Sexpr M_Lexer S_Chars L_Lexer L_Chars.

(** The terms that [re.finditer(term_regex, s)] yields, turned into tokens as the loop of
    parse_sexp does, are the tokens of the scanner; so no match is left without a term. *)
Theorem C40_tokeniser : forall s, map term_tok (re_finditer term_regex s) = map Some (lex s).
Proof. exact tokeniser. Qed.
Theorem C40_parse_sexp : forall s, parse_sexp_re s = parse_sexp s.
Proof. exact parser_re. Qed.
(** No match of [term_regex] is empty. *)
Theorem C40_matches_advance : forall pre s m,
  hd_error (run term_regex (mkm pre s [])) = Some m -> (length (m_rest m) < length s)%nat.
Proof. exact term_advances. Qed.
(** Nothing is lost: the text consists of the matched terms and, between them, of white space and
    carets only. *)
Theorem C40_nothing_lost : forall s, made_of s (map term_str (re_finditer term_regex s)).
Proof. exact nothing_lost. Qed.
(** What separates: exactly these 29 characters are white space ... *)
Theorem C40_white_space : forall c, is_space c = true <-> In c white_space.
Proof. exact white_iff. Qed.
(** ... and of the ASCII characters exactly '0' to '9' are digits. *)
Theorem C40_ascii_digits : forall c, (c < 128)%N -> (is_digit c = true <-> (48 <= c <= 57)%N).
Proof. exact digit_ascii. Qed.
Print Assumptions C40_tokeniser.
Print Assumptions C40_parse_sexp.
Print Assumptions C40_matches_advance.
Print Assumptions C40_nothing_lost.
Print Assumptions C40_white_space.
Print Assumptions C40_ascii_digits.

(** A document with every kind of term, a caret, an escaped quote and a number that is none. *)
Example C40_text : str := $"(a -1.50 ""b\"") c"" 7x ^ +5)".
Example C40_ex1 : map (fun m => term_value m) (re_finditer term_regex C40_text)
  = map Some [(1, $"("); (5, $"a"); (3, $"-1.50"); (4, $"""b\"") c"""); (5, $"7x"); (5, $"+5"); (2, $")")]%nat.
Proof. vm_compute. reflexivity. Qed.
Example C40_ex2 : parse_sexp_re C40_text
  = Ok (VList [VStr $"a"; VFloat (dec_to_dbl true 150 (-2)); VStr $"b"") c"; VStr $"7x"; VStr $"+5"]).
Proof. vm_compute. reflexivity. Qed.
Example C40_ex3 : map term_str (re_finditer term_regex $"(a^b ""c d"")") = [$"("; $"a"; $"b"; $"""c d"""; $")"].
Proof. vm_compute. reflexivity. Qed.
