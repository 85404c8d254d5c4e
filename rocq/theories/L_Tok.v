(** Which texts are read as which token: bare words, numbers, quoted strings. *)
From Verif Require Import PyBase PyNum PyStr Sexpr S_Leaf L_Lex.
Local Open Scope nat_scope.

Lemma span_stop f w c r :
  f c = false -> span f (w ++ c :: r) = (fst (span f w), snd (span f w) ++ c :: r).
Proof.
  intros Hc. induction w as [|x w IH]; cbn [span app].
  - now rewrite Hc.
  - destruct (f x); [|reflexivity]. rewrite IH. now destruct (span f w).
Qed.

(** Digits are word characters. *)
Lemma digit_in_spec zs c d : digit_in zs c = Some d -> exists z, In z zs /\ (z <= c < z + 10)%N.
Proof.
  induction zs as [|z zs IH]; cbn [digit_in]; [discriminate|].
  destruct (N.leb z c && N.ltb c (z + 10))%bool eqn:E.
  - apply andb_prop in E as [E1 E2]. apply N.leb_le in E1. apply N.ltb_lt in E2.
    intros _. exists z. split; [now left|lia].
  - intros H. destruct (IH H) as (z' & Hin & Hz). exists z'. split; [now right|exact Hz].
Qed.

Lemma nd_words :
  forallb (fun z => forallb (fun i => word_char (z + i)) [0;1;2;3;4;5;6;7;8;9]%N) nd_zeros = true.
Proof. vm_compute. reflexivity. Qed.

Lemma is_digit_word c : is_digit c = true -> word_char c = true.
Proof.
  unfold is_digit, digit_val. destruct (digit_in nd_zeros c) eqn:E; [|discriminate]. intros _.
  apply digit_in_spec in E as (z' & Hin & Hz).
  pose proof nd_words as H. rewrite forallb_forall in H. specialize (H z' Hin).
  rewrite forallb_forall in H. specialize (H (c - z')%N).
  replace (z' + (c - z'))%N with c in H by lia. apply H.
  assert (Hc : (c - z' = 0 \/ c - z' = 1 \/ c - z' = 2 \/ c - z' = 3 \/ c - z' = 4 \/ c - z' = 5
          \/ c - z' = 6 \/ c - z' = 7 \/ c - z' = 8 \/ c - z' = 9)%N) by lia.
  cbn. intuition congruence.
Qed.

Lemma nonword_nondigit c : word_char c = false -> is_digit c = false.
Proof. destruct (is_digit c) eqn:E; [|reflexivity]. now rewrite (is_digit_word c E). Qed.

Lemma word_no_num_end y w r : word_char y = true -> num_end ((y :: w) ++ r) = false.
Proof.
  unfold num_end, word_char. cbn [app]. intros H.
  destruct (N.eqb_spec y 32) as [->|]; [discriminate|].
  destruct (N.eqb y rpar); [|reflexivity].
  exfalso. revert H. destruct (N.eqb y lpar), (N.eqb y caret); cbn; discriminate.
Qed.

Lemma span_word f w :
  forallb word_char w = true ->
  forallb word_char (fst (span f w)) = true /\ forallb word_char (snd (span f w)) = true.
Proof.
  intros H. rewrite <- (span_app f w), forallb_app in H. now apply andb_prop in H.
Qed.

Lemma match_dec_word x w c r :
  forallb word_char (x :: w) = true -> word_char c = false ->
  match_dec ((x :: w) ++ c :: r) =
  match wdec (x :: w) with
  | Some (n, i, f) => if num_end (c :: r) then Some (n, i, f, c :: r) else None
  | None => None
  end.
Proof.
  intros Hw Hc. pose proof (nonword_nondigit c Hc) as Hd.
  unfold match_dec, wdec. cbn [app].
  assert (Hs : exists neg w1, sign_any (x :: w) = (neg, w1) /\ forallb word_char w1 = true /\
     (if N.eqb x 43 then @pair bool str false (w ++ c :: r) else if N.eqb x 45 then (true, w ++ c :: r)
      else (false, x :: w ++ c :: r)) = (neg, w1 ++ c :: r)).
  { cbn [sign_any]. pose proof Hw as Hw'. cbn [forallb] in Hw. apply andb_prop in Hw as [Hx Hw].
    destruct (N.eqb x 43); [eauto|]. destruct (N.eqb x 45); eauto. }
  destruct Hs as (neg & w1 & E1 & Hw1 & E2). rewrite E1. clear E1 Hw.
  set (p := if N.eqb x 43 then _ else _) at 1.
  assert (Ep : p = (neg, w1 ++ c :: r)) by exact E2. rewrite Ep. clear p Ep E2.
  rewrite (span_stop is_digit w1 c r Hd).
  destruct (span_word is_digit w1 Hw1) as [Ha Hb].
  destruct (span is_digit w1) as [ip w2]; cbn [fst snd] in *.
  destruct ip as [|i0 ip]; [reflexivity|].
  destruct w2 as [|d w2]; cbn [app].
  - destruct (N.eqb_spec c 46) as [->|]; [discriminate Hc|reflexivity].
  - destruct (N.eqb d 46); [|reflexivity].
    rewrite (span_stop is_digit w2 c r Hd).
    cbn [forallb] in Hb. apply andb_prop in Hb as [_ Hb].
    destruct (span_word is_digit w2 Hb) as [Hc1 Hc2].
    destruct (span is_digit w2) as [fp w3]; cbn [fst snd] in *.
    destruct fp as [|f0 fp]; [reflexivity|].
    destruct w3 as [|y w3]; [reflexivity|].
    cbn [forallb] in Hc2. apply andb_prop in Hc2 as [Hy _].
    rewrite word_no_num_end by assumption. reflexivity.
Qed.

Lemma match_int_word x w c r :
  forallb word_char (x :: w) = true -> word_char c = false ->
  match_int ((x :: w) ++ c :: r) =
  match wint (x :: w) with
  | Some (n, i) => if num_end (c :: r) then Some (n, i, c :: r) else None
  | None => None
  end.
Proof.
  intros Hw Hc. pose proof (nonword_nondigit c Hc) as Hd.
  unfold match_int, wint. cbn [app].
  assert (Hs : exists neg w1, sign_minus (x :: w) = (neg, w1) /\ forallb word_char w1 = true /\
     (if N.eqb x 45 then @pair bool str true (w ++ c :: r)
      else (false, x :: w ++ c :: r)) = (neg, w1 ++ c :: r)).
  { cbn [sign_minus]. pose proof Hw as Hw'. cbn [forallb] in Hw. apply andb_prop in Hw as [Hx Hw].
    destruct (N.eqb x 45); eauto. }
  destruct Hs as (neg & w1 & E1 & Hw1 & E2). rewrite E1. clear E1 Hw.
  set (p := if N.eqb x 45 then _ else _) at 1.
  assert (Ep : p = (neg, w1 ++ c :: r)) by exact E2. rewrite Ep. clear p Ep E2.
  rewrite (span_stop is_digit w1 c r Hd).
  destruct (span_word is_digit w1 Hw1) as [Ha Hb].
  destruct (span is_digit w1) as [ip w2]; cbn [fst snd] in *.
  destruct ip as [|i0 ip]; [reflexivity|].
  destruct w2 as [|y w2]; [reflexivity|].
  cbn [forallb] in Hb. apply andb_prop in Hb as [Hy _].
  rewrite word_no_num_end by assumption. reflexivity.
Qed.

Lemma match_num_word x w c r :
  forallb word_char (x :: w) = true -> word_char c = false ->
  match_num ((x :: w) ++ c :: r) =
  if num_end (c :: r) then match wnum (x :: w) with Some v => Some (v, c :: r) | None => None end
  else None.
Proof.
  intros Hw Hc. unfold match_num, wnum.
  rewrite (match_dec_word x w c r Hw Hc), (match_int_word x w c r Hw Hc).
  destruct (wdec (x :: w)) as [[[n i] f]|]; destruct (num_end (c :: r));
    destruct (wint (x :: w)) as [[n' i']|]; reflexivity.
Qed.

(** Characters that end a bare word and that the tokeniser does not skip silently. *)
Definition word_end (s : str) : bool :=
  match s with c :: _ => is_space c || N.eqb c lpar || N.eqb c rpar | [] => false end.

Lemma word_end_nonword c r : word_end (c :: r) = true -> word_char c = false.
Proof.
  unfold word_end, word_char. intros H.
  destruct (is_space c), (N.eqb c lpar), (N.eqb c rpar), (N.eqb c caret); cbn in *; congruence.
Qed.

Lemma word_char_facts c :
  word_char c = true ->
  is_space c = false /\ N.eqb c lpar = false /\ N.eqb c rpar = false /\ N.eqb c caret = false.
Proof.
  unfold word_char. destruct (is_space c), (N.eqb c lpar), (N.eqb c rpar), (N.eqb c caret);
    cbn; intuition congruence.
Qed.

Lemma lex_word w rest :
  wordb w = true -> word_end rest = true -> lex (w ++ rest) = TA (VStr w) :: lex rest.
Proof.
  intros Hw Hr. destruct rest as [|c r]; [discriminate|].
  pose proof (word_end_nonword c r Hr) as Hc.
  destruct w as [|x w]; [discriminate|]. unfold wordb in Hw.
  apply andb_prop in Hw as [Hw Hn]. apply andb_prop in Hw as [Hq Hw].
  pose proof (match_num_word x w c r Hw Hc) as Hm.
  change ((x :: w) ++ c :: r) with (x :: (w ++ c :: r)) in *.
  rewrite lex_cons. unfold lex1.
  pose proof Hw as Hw2. cbn [forallb] in Hw2. apply andb_prop in Hw2 as [Hx _].
  destruct (word_char_facts x Hx) as (-> & -> & -> & _).
  rewrite Hm. destruct (wnum (x :: w)); [discriminate|].
  replace (if num_end (c :: r) then None else None) with (@None (val * str)) by now destruct (num_end (c :: r)).
  destruct (N.eqb x dquote); [discriminate|].
  pose proof (span_all word_char (x :: w) c r Hw Hc) as Hs.
  change ((x :: w) ++ c :: r) with (x :: (w ++ c :: r)) in Hs. rewrite Hs. reflexivity.
Qed.

(** A number word *)
Lemma lex_num w v rest :
  forallb word_char w = true -> wnum w = Some v -> num_end rest = true ->
  lex (w ++ rest) = TA v :: lex rest.
Proof.
  intros Hw Hn Hr. destruct rest as [|c r]; [discriminate|].
  assert (Hc : word_char c = false).
  { cbn in Hr. unfold word_char. destruct (N.eqb_spec c 32) as [->|]; [reflexivity|].
    cbn in Hr. rewrite Hr. now destruct (N.eqb c lpar), (N.eqb c caret). }
  destruct w as [|x w]; [discriminate|].
  pose proof (match_num_word x w c r Hw Hc) as Hm.
  change ((x :: w) ++ c :: r) with (x :: (w ++ c :: r)) in *.
  rewrite lex_cons. unfold lex1.
  cbn [forallb] in Hw. apply andb_prop in Hw as [Hx _].
  destruct (word_char_facts x Hx) as (-> & -> & -> & _).
  rewrite Hm, Hr, Hn. reflexivity.
Qed.

(** ** Quoted strings *)
Lemma last_default (s : str) (a b : N) : s <> [] -> last s a = last s b.
Proof. induction s as [|x s IH]; [contradiction|]. intros _. destruct s; [reflexivity|]. cbn. apply IH. discriminate. Qed.

Lemma match_sq_dequote s : forall prev rest,
  last s prev <> bslash -> sq_end rest = true ->
  match_sq prev (replace1 dquote [bslash; dquote] s ++ dquote :: rest)
  = Some (replace1 dquote [bslash; dquote] s, rest).
Proof.
  induction s as [|c s IH]; intros prev rest Hl Hr.
  - cbn [replace1 app match_sq]. change (N.eqb dquote dquote) with true. cbv iota.
    cbn [last] in Hl. destruct (N.eqb_spec prev bslash); [contradiction|]. now rewrite Hr.
  - assert (Hl' : last s c <> bslash) by (destruct s; [exact Hl|rewrite (last_default _ c prev) by discriminate; exact Hl]).
    cbn [replace1]. destruct (N.eqb_spec c dquote) as [->|Hc].
    + cbn [app match_sq]. change (N.eqb bslash dquote) with false.
      change (N.eqb dquote dquote) with true. change (N.eqb bslash bslash) with true. cbv iota.
      rewrite IH by assumption. reflexivity.
    + cbn [app match_sq]. apply N.eqb_neq in Hc. rewrite Hc. rewrite IH by assumption. reflexivity.
Qed.

Lemma replace1_head_not s d r : replace1 dquote [bslash; dquote] s = d :: r -> d <> dquote.
Proof.
  destruct s as [|c s]; cbn [replace1]; [discriminate|].
  destruct (N.eqb_spec c dquote) as [->|Hc]; cbn [app]; intros [= <- _]; [discriminate|assumption].
Qed.

Lemma replace2_cons_skip a1 a2 b c s :
  (forall d r, s = d :: r -> N.eqb d a2 = false) ->
  replace2 a1 a2 b (c :: s) = c :: replace2 a1 a2 b s.
Proof.
  intros H. destruct s as [|d s]; [reflexivity|].
  change (replace2 a1 a2 b (c :: d :: s)) with
    (if (N.eqb c a1 && N.eqb d a2)%bool then b ++ replace2 a1 a2 b s else c :: replace2 a1 a2 b (d :: s)).
  rewrite (H d s eq_refl), andb_false_r. reflexivity.
Qed.

Lemma unescape_dequote s : unescape (replace1 dquote [bslash; dquote] s) = s.
Proof.
  unfold unescape. induction s as [|c s IH]; [reflexivity|].
  cbn [replace1]. destruct (N.eqb_spec c dquote) as [->|Hc].
  - cbn [app]. cbn [replace2].
    change (N.eqb bslash bslash && N.eqb dquote dquote)%bool with true. cbv iota.
    cbn [app]. now rewrite IH.
  - cbn [app]. rewrite replace2_cons_skip; [now rewrite IH|].
    intros d r E. apply replace1_head_not in E. now apply N.eqb_neq.
Qed.

Lemma lex_quoted v rest :
  quotableb (fmt v) = true -> sq_end rest = true ->
  lex (quoted v ++ rest) = TA (VStr (fmt v)) :: lex rest.
Proof.
  intros Hq Hr. unfold quoted, dequote. set (s := fmt v) in *.
  rewrite <- !app_assoc. cbn [app]. rewrite lex_cons. unfold lex1.
  change (is_space dquote) with false. change (N.eqb dquote lpar) with false.
  change (N.eqb dquote rpar) with false. change (N.eqb dquote dquote) with true. cbv iota.
  replace (match_num _) with (@None (val * str)) by reflexivity.
  rewrite match_sq_dequote; [|
    unfold quotableb in Hq; apply negb_true_iff, N.eqb_neq in Hq;
    destruct s as [|x s]; [discriminate|]; now rewrite (last_default _ dquote 0%N)|assumption].
  cbn [fst snd ocons]. now rewrite unescape_dequote.
Qed.
