(** Proofs for C40: separators and the completeness of the scan. *)
From Verif Require Import PyBase PyNum PyStr PyRe Sexpr M_Lexer L_Lex L_Tok L_Re L_Lexer S_Chars.

Lemma white_in c : existsb (N.eqb c) white_space = true -> In c white_space.
Proof. intros H. apply existsb_exists in H as (x & Hx & E). apply N.eqb_eq in E. now subst x. Qed.
Lemma white_iff c : is_space c = true <-> In c white_space.
Proof.
  split.
  - unfold is_space. intros H. apply white_in. repeat (apply orb_prop in H as [H|H]);
      try (apply N.eqb_eq in H; subst c; reflexivity);
      apply andb_prop in H as [H1 H2]; apply N.leb_le in H1, H2.
    + assert (H : (c = 9 \/ c = 10 \/ c = 11 \/ c = 12 \/ c = 13)%N) by lia. repeat destruct H as [H|H]; subst c; reflexivity.
    + assert (H : (c = 28 \/ c = 29 \/ c = 30 \/ c = 31 \/ c = 32)%N) by lia. repeat destruct H as [H|H]; subst c; reflexivity.
    + assert (H : (c = 8192 \/ c = 8193 \/ c = 8194 \/ c = 8195 \/ c = 8196 \/ c = 8197 \/ c = 8198 \/ c = 8199 \/ c = 8200 \/ c = 8201 \/ c = 8202)%N) by lia.
      repeat destruct H as [H|H]; subst c; reflexivity.
  - intros H. unfold white_space in H. cbn [In] in H. repeat (destruct H as [<-|H]; [reflexivity|]). destruct H.
Qed.
Lemma digit_in_low c : (c < 128)%N -> forall zs, forallb (N.leb 128) zs = true -> digit_in zs c = None.
Proof.
  intros Hc. induction zs as [|z zs IH]; intros H; [reflexivity|]. cbn [forallb] in H. apply andb_prop in H as [H1 H2]. apply N.leb_le in H1.
  cbn [digit_in]. rewrite (proj2 (N.leb_gt z c)) by lia. now apply IH.
Qed.
Lemma nd_zeros_cons : exists zs, nd_zeros = 48%N :: zs /\ forallb (N.leb 128) zs = true.
Proof. eexists. split; [unfold nd_zeros; reflexivity|reflexivity]. Qed.
Lemma digit_ascii c : (c < 128)%N -> (is_digit c = true <-> (48 <= c <= 57)%N).
Proof.
  intros H. unfold is_digit, digit_val. destruct nd_zeros_cons as (zs & -> & Hz). cbn [digit_in]. rewrite (digit_in_low c H zs Hz).
  destruct (N.leb_spec 48 c); cbn [andb]; [|split; [discriminate|lia]].
  destruct (N.ltb_spec c (48 + 10)); split; try discriminate; auto; lia.
Qed.

Lemma word_chars c : word_char c = true -> ~ In c [40; 41; 94]%N /\ ~ In c white_space.
Proof.
  unfold word_char. intros H. apply negb_true_iff in H. repeat (apply orb_false_elim in H as [H ?]).
  split.
  - cbn [In]. intros [<-|[<-|[<-|[]]]]; discriminate.
  - intros W. apply white_iff in W. congruence.
Qed.
Lemma words_text w : w <> [] -> forallb word_char w = true -> term_text w.
Proof. intros Hn H. right; right; right. split; [assumption|]. intros c Hc. rewrite forallb_forall in H. apply word_chars, H, Hc. Qed.
Lemma digits_words w : forallb is_digit w = true -> forallb word_char w = true.
Proof. intros H. rewrite forallb_forall in *. intros c Hc. apply is_digit_word, H, Hc. Qed.

Lemma match_num_text s v r : match_num s = Some (v, r) -> exists w, s = w ++ r /\ w <> [] /\ forallb word_char w = true.
Proof.
  unfold match_num. destruct (match_dec s) as [[[[neg ip] fp] r']|] eqn:D.
  - intros [= _ <-]. unfold match_dec in D.
    assert (G : forall sg t neg', forallb word_char sg = true ->
      (let '(ip, s2) := span is_digit t in
       match ip, s2 with
       | _ :: _, d :: s3 => if N.eqb d 46 then let '(fp, s4) := span is_digit s3 in
           match fp with _ :: _ => if num_end s4 then Some (neg', ip, fp, s4) else None | [] => None end else None
       | _, _ => None end) = Some (neg, ip, fp, r') ->
      exists w, sg ++ t = w ++ r' /\ w <> [] /\ forallb word_char w = true).
    { clear D. intros sg t neg' Hsg E. pose proof (span_app is_digit t) as A. pose proof (L_Lexer.span_forallb is_digit t) as F.
      destruct (span is_digit t) as [i s2]. cbn [fst snd] in *. destruct i as [|x i]; [discriminate|]. destruct s2 as [|d s3]; [discriminate|].
      destruct (N.eqb_spec d 46) as [->|]; [|discriminate]. pose proof (span_app is_digit s3) as A3. pose proof (L_Lexer.span_forallb is_digit s3) as F3.
      destruct (span is_digit s3) as [f s4]. cbn [fst snd] in *. destruct f as [|y f]; [discriminate|]. destruct (num_end s4); [|discriminate].
      injection E as _ _ _ ->. exists (sg ++ (x :: i) ++ 46%N :: y :: f). split; [|split].
      - subst. rewrite <- !app_assoc. reflexivity.
      - destruct sg; discriminate.
      - rewrite !forallb_app. cbn [forallb]. apply digits_words in F, F3. cbn [forallb] in F, F3. rewrite Hsg, F, F3. reflexivity. }
    destruct s as [|c s]; [apply (G [] [] false eq_refl D)|].
    destruct (N.eqb_spec c 43) as [->|]; [apply (G [43%N] s false eq_refl D)|].
    destruct (N.eqb_spec c 45) as [->|]; [apply (G [45%N] s true eq_refl D)|]. apply (G [] (c :: s) false eq_refl D).
  - clear D. destruct (match_int s) as [[[neg ip] r']|] eqn:D; [|discriminate]. intros [= _ <-]. unfold match_int in D.
    assert (G : forall sg t neg', forallb word_char sg = true ->
      (let '(ip, s2) := span is_digit t in
       match ip with _ :: _ => if num_end s2 then Some (neg', ip, s2) else None | [] => None end) = Some (neg, ip, r') ->
      exists w, sg ++ t = w ++ r' /\ w <> [] /\ forallb word_char w = true).
    { clear D. intros sg t neg' Hsg E. pose proof (span_app is_digit t) as A. pose proof (L_Lexer.span_forallb is_digit t) as F.
      destruct (span is_digit t) as [i s2]. cbn [fst snd] in *. destruct i as [|x i]; [discriminate|]. destruct (num_end s2); [|discriminate].
      injection E as _ _ ->. exists (sg ++ x :: i). split; [|split].
      - subst. rewrite <- !app_assoc. reflexivity.
      - destruct sg; discriminate.
      - rewrite forallb_app. apply digits_words in F. now rewrite Hsg, F. }
    destruct s as [|c s]; [apply (G [] [] false eq_refl D)|].
    destruct (N.eqb_spec c 45) as [->|]; [apply (G [45%N] s true eq_refl D)|]. apply (G [] (c :: s) false eq_refl D).
Qed.
Lemma match_sq_text : forall s p b r, match_sq p s = Some (b, r) -> s = b ++ dquote :: r.
Proof.
  induction s as [|c s IH]; intros p b r; cbn [match_sq]; [discriminate|].
  destruct (N.eqb_spec c dquote) as [->|].
  - destruct (N.eqb p bslash).
    + destruct (match_sq dquote s) as [[b' r']|] eqn:E.
      * intros [= <- <-]. apply IH in E. now rewrite E.
      * destruct (sq_end s); [|discriminate]. intros [= <- <-]. reflexivity.
    + destruct (sq_end s); [|discriminate]. intros [= <- <-]. reflexivity.
  - destruct (match_sq c s) as [[b' r']|] eqn:E; [|discriminate]. intros [= <- <-]. apply IH in E. now rewrite E.
Qed.

(** one scanning step: a term, or one character that separates *)
Lemma lex1_text c s :
  match fst (lex1 c s) with
  | Some _ => exists w, c :: s = w ++ snd (lex1 c s) /\ term_text w
  | None => snd (lex1 c s) = s /\ (c = 94%N \/ In c white_space)
  end.
Proof.
  unfold lex1. destruct (is_space c) eqn:Hc; [cbn; split; [reflexivity|right; now apply white_iff]|].
  destruct (N.eqb_spec c lpar) as [->|N1]; [exists [40%N]; split; [reflexivity|now left]|].
  destruct (N.eqb_spec c rpar) as [->|N2]; [exists [41%N]; split; [reflexivity|right; now left]|].
  destruct (match_num (c :: s)) as [[v r]|] eqn:M.
  { destruct (match_num_text _ _ _ M) as (w & E & Hn & Hw). exists w. split; [exact E|now apply words_text]. }
  destruct (N.eqb_spec c dquote) as [->|Nq].
  - destruct (match_sq dquote s) as [[b r]|] eqn:Q.
    + apply match_sq_text in Q. exists (34%N :: b ++ [34%N]). split; [|right; right; left; eauto].
      cbn [snd]. rewrite Q at 1. cbn [app]. rewrite <- app_assoc. reflexivity.
    + pose proof (span_app word_char (dquote :: s)) as A. pose proof (L_Lexer.span_forallb word_char (dquote :: s)) as F.
      cbn [span] in *. change (word_char dquote) with true in *. cbv iota in *. destruct (span word_char s) as [a b]. cbn [fst snd] in *.
      exists (dquote :: a). split; [now rewrite <- A at 1|]. apply words_text; [discriminate|exact F].
  - pose proof (span_app word_char (c :: s)) as A. pose proof (L_Lexer.span_forallb word_char (c :: s)) as F.
    cbn [span] in *. destruct (word_char c) eqn:W.
    + destruct (span word_char s) as [a b]. cbn [fst snd] in *.
      exists (c :: a). split; [now rewrite <- A at 1|]. apply words_text; [discriminate|exact F].
    + cbn. split; [reflexivity|]. left. unfold word_char in W. apply negb_false_iff in W. rewrite Hc, orb_false_r in W.
      apply orb_prop in W as [W|W]; [|apply N.eqb_eq in W; congruence]. apply orb_prop in W as [W|W]; apply N.eqb_eq in W; [congruence|exact W].
Qed.

Lemma filter_hd_in {A} (f : A -> bool) l x r : filter f l = x :: r -> In x l /\ f x = true.
Proof. intros H. apply filter_In. rewrite H. now left. Qed.
Lemma term_str_is p r n w t : term_tok (mkm p r [(n, w)]) = Some t -> term_str (mkm p r [(n, w)]) = w.
Proof.
  unfold term_tok, term_str. destruct (term_value (mkm p r [(n, w)])) as [[k v]|] eqn:E; [|discriminate]. intros _.
  unfold term_value in E. destruct (filter _ _) as [|tv l] eqn:F; [discriminate|]. injection E as ->.
  apply filter_hd_in in F as [I J]. cbn [snd] in J.
  apply in_map_iff in I as (q & Hq & _). injection Hq as -> Hv. unfold group in Hv. cbn [m_caps cap] in Hv.
  destruct (Nat.eqb n k); subst v; [reflexivity|discriminate].
Qed.

Lemma finditer_made : forall k n s, length s <= k -> length s < n -> forall pre,
  made_of s (map term_str (finditer n term_regex pre s)).
Proof.
  induction k as [|k IH]; intros n s Hk Hn pre.
  { destruct s; [|cbn in Hk; lia]. rewrite finditer_nil. constructor. }
  destruct s as [|c s]; [rewrite finditer_nil; constructor|]. destruct n as [|n]; [lia|]. cbn in Hk, Hn.
  destruct (is_space c) eqn:Hc.
  - apply made_gap; [right; now apply white_iff|].
    rewrite finditer_unfold, run_term_space by assumption. destruct (hd_error (run term_regex (mkm (c :: pre) s []))) as [m|] eqn:R.
    + assert (G := IH (S n) s ltac:(lia) ltac:(lia) (c :: pre)). destruct s as [|d s]; [discriminate|]. rewrite finditer_unfold, R in G. exact G.
    + apply IH; lia.
  - pose proof (run_terms pre c s Hc) as R. pose proof (lex1_text c s) as X. rewrite finditer_unfold, run_term_regex. cbn [span]. rewrite Hc. cbn [fst snd rev app].
    destruct (fst (lex1 c s)) as [t|].
    + destruct R as (w & k' & E & Es & Hw & Ht). destruct X as (w' & Es' & X). rewrite Es in Es'. apply app_inv_tail in Es'. subst w'.
      rewrite E. cbn [map m_pre m_rest]. rewrite (term_str_is _ _ _ _ _ (Ht _)), Es. apply made_term; [exact X|].
      apply IH; pose proof (lex1_len c s); lia.
    + destruct R as [E Es]. rewrite E. apply made_gap; [apply X|]. apply IH; lia.
Qed.
Lemma nothing_lost s : made_of s (map term_str (re_finditer term_regex s)).
Proof. apply (finditer_made (length s)); lia. Qed.
