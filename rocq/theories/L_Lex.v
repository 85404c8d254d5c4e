(** Lemmas about the tokeniser: totality and unfolding equations. *)
From Verif Require Import PyBase PyNum PyStr Sexpr.
Local Open Scope nat_scope.

Lemma span_app f s : fst (span f s) ++ snd (span f s) = s.
Proof.
  induction s as [|c s IH]; cbn [span]; [reflexivity|].
  destruct (f c); [|reflexivity].
  destruct (span f s) as [a b]; cbn in *. now rewrite IH.
Qed.

Lemma span_len f s : length (fst (span f s)) + length (snd (span f s)) = length s.
Proof. rewrite <- app_length, span_app. reflexivity. Qed.

Lemma span_all f w c r :
  forallb f w = true -> f c = false -> span f (w ++ c :: r) = (w, c :: r).
Proof.
  intros Hw Hc. induction w as [|x w IH]; cbn [span app].
  - now rewrite Hc.
  - cbn [forallb] in Hw. apply andb_prop in Hw as [Hx Hw]. rewrite Hx, IH by assumption. reflexivity.
Qed.

Lemma span_all_nil f w : forallb f w = true -> span f w = (w, []).
Proof.
  intros Hw. induction w as [|x w IH]; cbn [span app]; [reflexivity|].
  cbn [forallb] in Hw. apply andb_prop in Hw as [Hx Hw]. rewrite Hx, IH by assumption. reflexivity.
Qed.

Lemma match_dec_len s n i f r : match_dec s = Some (n, i, f, r) -> length r < length s.
Proof.
  unfold match_dec. destruct s as [|c s']; [discriminate|].
  set (p := if N.eqb c 43 then _ else _).
  assert (Hp : length (snd p) <= length (c :: s')).
  { unfold p. destruct (N.eqb c 43), (N.eqb c 45); cbn; lia. }
  destruct p as [neg s1]; cbn [snd] in Hp.
  pose proof (span_len is_digit s1) as H1. destruct (span is_digit s1) as [ip s2]; cbn [fst snd] in H1.
  destruct ip as [|i0 ip]; [discriminate|]. destruct s2 as [|d s3]; [discriminate|].
  destruct (N.eqb d 46); [|discriminate].
  pose proof (span_len is_digit s3) as H3. destruct (span is_digit s3) as [fp s4]; cbn [fst snd] in H3.
  destruct fp; [discriminate|]. destruct (num_end s4); [|discriminate].
  intros [= <- <- <- <-]. cbn [length] in *. lia.
Qed.

Lemma match_int_len s n i r : match_int s = Some (n, i, r) -> length r < length s.
Proof.
  unfold match_int. destruct s as [|c s']; [discriminate|].
  set (p := if N.eqb c 45 then _ else _).
  assert (Hp : length (snd p) <= length (c :: s')).
  { unfold p. destruct (N.eqb c 45); cbn; lia. }
  destruct p as [neg s1]; cbn [snd] in Hp.
  pose proof (span_len is_digit s1) as H1. destruct (span is_digit s1) as [ip s2]; cbn [fst snd] in H1.
  destruct ip as [|i0 ip]; [discriminate|]. destruct (num_end s2); [|discriminate].
  intros [= <- <- <-]. cbn [length] in *. lia.
Qed.

Lemma match_num_len s v r : match_num s = Some (v, r) -> length r < length s.
Proof.
  unfold match_num. destruct (match_dec s) as [[[[n i] f] r']|] eqn:E.
  - intros [= <- <-]. eapply match_dec_len; eassumption.
  - destruct (match_int s) as [[[n i] r']|] eqn:E2; [|discriminate].
    intros [= <- <-]. eapply match_int_len; eassumption.
Qed.

Lemma match_sq_len p s b r : match_sq p s = Some (b, r) -> length r < length s.
Proof.
  revert p b r. induction s as [|c s IH]; cbn [match_sq]; intros p b r; [discriminate|].
  destruct (N.eqb c dquote).
  - destruct (N.eqb p bslash).
    + destruct (match_sq c s) as [[b' r']|] eqn:E.
      * intros [= <- <-]. apply IH in E. cbn [length]. lia.
      * destruct (sq_end s); [|discriminate]. intros [= <- <-]. cbn [length]. lia.
    + destruct (sq_end s); [|discriminate]. intros [= <- <-]. cbn [length]. lia.
  - destruct (match_sq c s) as [[b' r']|] eqn:E; [|discriminate].
    intros [= <- <-]. apply IH in E. cbn [length]. lia.
Qed.

(** One scanning step: the token emitted (if any) and the text that remains. *)
Definition lex1 (c : N) (s' : str) : option tok * str :=
  if is_space c then (None, s')
  else if N.eqb c lpar then (Some TL, s')
  else if N.eqb c rpar then (Some TR, s')
  else match match_num (c :: s') with
       | Some (v, r) => (Some (TA v), r)
       | None =>
           match (if N.eqb c dquote then match_sq c s' else None) with
           | Some (b, r) => (Some (TA (VStr (unescape b))), r)
           | None =>
               let '(w, r) := span word_char (c :: s') in
               match w with
               | [] => (None, s')
               | _ => (Some (TA (VStr w)), r)
               end
           end
       end.

Definition ocons (t : option tok) (ts : list tok) : list tok :=
  match t with Some x => x :: ts | None => ts end.

Lemma lexf_step fuel c s' :
  lexf (S fuel) (c :: s') =
  match lexf fuel (snd (lex1 c s')) with
  | Some ts => Some (ocons (fst (lex1 c s')) ts)
  | None => None
  end.
Proof.
  cbn [lexf]. unfold lex1.
  destruct (is_space c); [cbn; now destruct (lexf fuel s')|].
  destruct (N.eqb c lpar); [reflexivity|].
  destruct (N.eqb c rpar); [reflexivity|].
  destruct (match_num (c :: s')) as [[v r]|]; [reflexivity|].
  destruct (if N.eqb c dquote then match_sq c s' else None) as [[b r]|]; [reflexivity|].
  destruct (span word_char (c :: s')) as [w r].
  destruct w; [cbn; now destruct (lexf fuel s')|reflexivity].
Qed.

Lemma lex1_len c s' : length (snd (lex1 c s')) <= length s'.
Proof.
  unfold lex1.
  destruct (is_space c); [cbn; lia|].
  destruct (N.eqb c lpar); [cbn; lia|].
  destruct (N.eqb c rpar); [cbn; lia|].
  destruct (match_num (c :: s')) as [[v r]|] eqn:E.
  { apply match_num_len in E. cbn in *. lia. }
  destruct (N.eqb c dquote).
  - destruct (match_sq c s') as [[b r]|] eqn:E2.
    { apply match_sq_len in E2. cbn in *. lia. }
    pose proof (span_len word_char (c :: s')) as H. destruct (span word_char (c :: s')) as [w r].
    destruct w; cbn in *; lia.
  - pose proof (span_len word_char (c :: s')) as H. destruct (span word_char (c :: s')) as [w r].
    destruct w; cbn in *; lia.
Qed.

Lemma lexf_total fuel s : length s < fuel -> exists ts, lexf fuel s = Some ts.
Proof.
  revert s. induction fuel as [|fuel IH]; intros s H; [lia|].
  destruct s as [|c s']; [exists []; reflexivity|].
  rewrite lexf_step. pose proof (lex1_len c s').
  destruct (IH (snd (lex1 c s'))) as [ts E]; [cbn in H; lia|].
  rewrite E. eauto.
Qed.

Lemma lexf_mono fuel fuel' s ts :
  lexf fuel s = Some ts -> fuel <= fuel' -> lexf fuel' s = Some ts.
Proof.
  revert fuel' s ts. induction fuel as [|fuel IH]; intros fuel' s ts H Hle; [discriminate|].
  destruct fuel' as [|fuel']; [lia|].
  destruct s as [|c s']; [exact H|].
  rewrite lexf_step in *. destruct (lexf fuel (snd (lex1 c s'))) as [ts'|] eqn:E; [|discriminate].
  rewrite (IH fuel' _ ts') by (auto; lia). exact H.
Qed.

Lemma lexf_lex fuel s : length s < fuel -> lexf fuel s = Some (lex s).
Proof.
  intros H. destruct (lexf_total (S (length s)) s) as [ts E]; [lia|].
  unfold lex. rewrite E. eapply lexf_mono; [exact E|lia].
Qed.

Lemma lex_nil : lex [] = [].
Proof. reflexivity. Qed.

Lemma lex_cons c s' : lex (c :: s') = ocons (fst (lex1 c s')) (lex (snd (lex1 c s'))).
Proof.
  assert (E : lexf (S (length (c :: s'))) (c :: s') = Some (lex (c :: s'))) by (apply lexf_lex; lia).
  rewrite lexf_step in E. pose proof (lex1_len c s').
  rewrite (lexf_lex (length (c :: s')) (snd (lex1 c s'))) in E by (cbn [length]; lia).
  now injection E.
Qed.

Lemma lex_space c s : is_space c = true -> lex (c :: s) = lex s.
Proof. intros H. rewrite lex_cons. unfold lex1. now rewrite H. Qed.

Lemma lex_lpar s : lex (lpar :: s) = TL :: lex s.
Proof. rewrite lex_cons. reflexivity. Qed.
Lemma lex_rpar s : lex (rpar :: s) = TR :: lex s.
Proof. rewrite lex_cons. reflexivity. Qed.

Lemma lex_caret s : lex (caret :: s) = lex s.
Proof. rewrite lex_cons. reflexivity. Qed.

Lemma lex_spaces w s : forallb is_space w = true -> lex (w ++ s) = lex s.
Proof.
  induction w as [|c w IH]; cbn [forallb app]; intros H; [reflexivity|].
  apply andb_prop in H as [Hc Hw]. rewrite lex_space, IH; auto.
Qed.
