(** Property theorems C01 - C08: the S-expression parser. *)
From Verif Require Import PyBase PyNum PyStr Sexpr S_Leaf S_Tree S_Parse L_Lex L_Tok L_Num L_Seq L_Parse.

(** ** C01 *)
Theorem C01_three_outcomes : forall s,
  (exists v, parse_sexp s = Ok v) \/ parse_sexp s = Err EAssertion \/ parse_sexp s = Err EIndex.
Proof. exact parse_outcomes. Qed.
Theorem C01_assertion_iff_unbalanced : forall s, parse_sexp s = Err EAssertion <-> ~ balanced (lex s).
Proof. exact parse_assertion. Qed.
Theorem C01_index_iff_empty : forall s, parse_sexp s = Err EIndex <-> balanced (lex s) /\ lex s = [].
Proof. exact parse_index. Qed.
Theorem C01_value_iff : forall s, (exists v, parse_sexp s = Ok v) <-> balanced (lex s) /\ lex s <> [].
Proof. exact parse_value. Qed.
(** The scan always ends: one step more than there are characters suffices. *)
Theorem C01_scan_terminates : forall s, lexf (S (length s)) s = Some (lex s).
Proof. exact (fun s => lexf_lex (S (length s)) s (Nat.lt_succ_diag_r _)). Qed.
Print Assumptions C01_three_outcomes.
Print Assumptions C01_assertion_iff_unbalanced.
Print Assumptions C01_index_iff_empty.
Print Assumptions C01_value_iff.
Print Assumptions C01_scan_terminates.
Example C01_ex1 : parse_sexp $"(a (b 1))" = Ok (VList [VStr $"a"; VList [VStr $"b"; VInt 1]]).
Proof. vm_compute. reflexivity. Qed.
Example C01_ex2 : parse_sexp $"(a))" = Err EAssertion. Proof. vm_compute. reflexivity. Qed.
Example C01_ex3 : parse_sexp $"(a" = Err EAssertion. Proof. vm_compute. reflexivity. Qed.
Example C01_ex4 : parse_sexp $" ^ " = Err EIndex. Proof. vm_compute. reflexivity. Qed.

(** ** C02 *)
Theorem C02_parse_inverts_writing : forall v d w,
  doc_ok d = true -> spells v (map fst d) -> white w = true ->
  parse_sexp (w ++ render d) = Ok v.
Proof. exact parse_spelled. Qed.
Print Assumptions C02_parse_inverts_writing.
Example C02_doc : doc :=
  [(POpen, []); (PWord $"at", [32; 10]%N); (PNum (VInt (-5)), $" "); (PNum (fdec 25 (-1)), []); (PClose, nl)].
Example C02_ex : doc_ok C02_doc = true
  /\ spells (VList [VStr $"at"; VInt (-5); fdec 25 (-1)]) (map fst C02_doc)
  /\ render C02_doc = $"(at " ++ nl ++ $"-5 2.5)" ++ nl.
Proof.
  split; [vm_compute; reflexivity|]. split; [|vm_compute; reflexivity].
  apply (spells_list _ [PWord $"at"; PNum (VInt (-5)); PNum (fdec 25 (-1))]).
  apply (spells_cons _ [_] _ [_; _]); [apply spells_word|].
  apply (spells_cons _ [_] _ [_]); [apply spells_num; vm_compute; reflexivity|].
  apply (spells_cons _ [_] _ []); [apply spells_num; vm_compute; reflexivity|]. apply spells_nil.
Qed.

(** ** C03 *)
Theorem C03_layout_irrelevant : forall d1 d2 w1 w2 rest,
  doc_ok d1 = true -> doc_ok d2 = true -> white w1 = true -> white w2 = true ->
  map fst d1 = map fst d2 ->
  parse_sexp (w1 ++ render d1 ++ rest) = parse_sexp (w2 ++ render d2 ++ rest).
Proof. exact layout_irrelevant. Qed.
Print Assumptions C03_layout_irrelevant.
(** Directly behind a number the kind of white space does matter. *)
Theorem C03_newline_behind_number_refuted : exists a b w1 w2,
  white w1 = true /\ white w2 = true /\ w1 <> [] /\ w2 <> [] /\
  parse_sexp (a ++ w1 ++ b) <> parse_sexp (a ++ w2 ++ b).
Proof. exists $"(a 1", $")", $" ", nl. repeat split; try discriminate; vm_compute; discriminate. Qed.
Print Assumptions C03_newline_behind_number_refuted.

(** ** C04 *)
Theorem C04_quoted_text : forall key s,
  wordb key = true -> quotableb s = true ->
  parse_sexp ($"(" ++ key ++ $" " ++ quoted (VStr s) ++ $")") = Ok (VList [VStr key; VStr s]).
Proof. exact parse_text. Qed.
Print Assumptions C04_quoted_text.
Example C04_ex : quotableb $"a ""b"") ( \n ^ 12 \x" = true. Proof. vm_compute. reflexivity. Qed.
(** A text that ends in a backslash corrupts the texts behind it. *)
Theorem C04_trailing_backslash_refuted : exists s t,
  parse_sexp ($"(a " ++ quoted (VStr s) ++ $" " ++ quoted (VStr t) ++ $")") <> Ok (VList [VStr $"a"; VStr s; VStr t]).
Proof. exists [bslash], $") x". vm_compute. discriminate. Qed.
Print Assumptions C04_trailing_backslash_refuted.

(** ** C05 *)
Theorem C05_int : forall key z,
  wordb key = true -> (Z.abs z <= 2 ^ 53)%Z ->
  parse_sexp ($"(" ++ key ++ $" " ++ fmt (VInt z) ++ $")") = Ok (VList [VStr key; VInt z]).
Proof. exact (fun key z Hk Hz => parse_num key (VInt z) Hk (int_ok_small z Hz)). Qed.
(** In general an integer comes back as the nearest integer that is a double. *)
Theorem C05_int_rounded : forall key z f,
  wordb key = true -> dec_to_dbl (z <? 0)%Z (Z.abs z) 0 = f -> (forall n, f <> DInf n) ->
  parse_sexp ($"(" ++ key ++ $" " ++ fmt (VInt z) ++ $")") = Ok (VList [VStr key; VInt (to_int f)]) /\
  forall g, canon g = true -> is_integer g = true -> (Z.abs (z - to_int f) <= Z.abs (z - to_int g))%Z.
Proof. exact (fun key z f Hk E Hf => conj (parse_int_any key z f Hk E Hf) (fun g => int_nearest z f g Hf E)). Qed.
Print Assumptions C05_int.
Print Assumptions C05_int_rounded.
Example C05_ex : parse_sexp ($"(v " ++ fmt (VInt (2 ^ 53 + 1)) ++ $")") = Ok (VList [VStr $"v"; VInt (2 ^ 53)]).
Proof. vm_compute. reflexivity. Qed.

(** ** C06 *)
Theorem C06_float : forall key f,
  wordb key = true -> canon f = true -> positional f = true ->
  exists v, parse_sexp ($"(" ++ key ++ $" " ++ fmt (VFloat f) ++ $")") = Ok (VList [VStr key; v])
    /\ v = nrm (VFloat f) /\ py_eqb v (VFloat f) = true.
Proof.
  exact (fun key f Hk Hc Hp => ex_intro _ (nrm (VFloat f))
    (conj (parse_num key (VFloat f) Hk (andb_true_intro (conj Hc Hp))) (conj eq_refl (nrm_py_eq (VFloat f) Hc)))).
Qed.
Theorem C06_float_exponent : forall key f,
  wordb key = true -> canon f = true -> positional f = false ->
  parse_sexp ($"(" ++ key ++ $" " ++ fmt (VFloat f) ++ $")") = Ok (VList [VStr key; VStr (float_str f)]).
Proof. exact parse_expfloat. Qed.
Print Assumptions C06_float.
Print Assumptions C06_float_exponent.
Example C06_ex1 : match fdec 127 (-2) with VFloat f => canon f && positional f | _ => false end = true.
Proof. vm_compute. reflexivity. Qed.
Example C06_ex2 : match fdec 1 (-7) with VFloat f => canon f && negb (positional f) | _ => false end = true.
Proof. vm_compute. reflexivity. Qed.

(** ** C07 *)
Theorem C07_first_expression : forall v d w rest,
  doc_ok d = true -> spells v (map fst d) -> white w = true -> balanced (lex rest) ->
  parse_sexp (w ++ render d ++ rest) = Ok v.
Proof. exact parse_first. Qed.
Print Assumptions C07_first_expression.
Example C07_ex : parse_sexp $"(a 1) (b 2) c" = Ok (VList [VStr $"a"; VInt 1]).
Proof. vm_compute. reflexivity. Qed.

(** ** C08 *)
Theorem C08_word : forall key w,
  wordb key = true -> wordb w = true ->
  parse_sexp ($"(" ++ key ++ $" " ++ w ++ $")") = Ok (VList [VStr key; VStr w]).
Proof. exact parse_word. Qed.
Theorem C08_caret_splits : forall key w1 w2,
  wordb key = true -> w1 <> [] -> hd 0%N w1 <> dquote -> forallb word_char w1 = true -> wordb w2 = true ->
  parse_sexp ($"(" ++ key ++ $" " ++ w1 ++ $"^" ++ w2 ++ $")") = Ok (VList [VStr key; VStr w1; VStr w2]).
Proof. exact parse_caret. Qed.
Theorem C08_number_word : forall key w v,
  wordb key = true -> forallb word_char w = true -> wnum w = Some v ->
  parse_sexp ($"(" ++ key ++ $" " ++ w ++ $")") = Ok (VList [VStr key; v]).
Proof. exact parse_numword. Qed.
Print Assumptions C08_word.
Print Assumptions C08_caret_splits.
Print Assumptions C08_number_word.
Example C08_ex1 : wordb $"F.Cu" && wordb $"1e-07" && wordb $"*.Mask" && wordb $"+5" && wordb $".5" = true.
Proof. vm_compute. reflexivity. Qed.
Example C08_ex2 : wnum $"007" = Some (VInt 7). Proof. vm_compute. reflexivity. Qed.
