(** The scanner [Sexpr.lex] finds exactly the matches of [term_regex]. *)
From Verif Require Import PyBase PyNum PyStr PyRe Sexpr M_Lexer L_Lex L_Re.
Local Open Scope nat_scope.

(** ** Greedy repetition of a character class: all prefixes, longest first *)
Lemma star_greedy p : forall n m, length (m_rest m) <= n ->
  star true (run (RChr p)) n m = map (fun k => adv k m) (rev (seq 0 (S (prefix_len p (m_rest m))))).
Proof.
  induction n as [|n IH]; intros [pre s caps] Hn; cbn [m_rest] in *.
  - destruct s; [|cbn in Hn; lia]. cbn. now rewrite adv0.
  - cbn [star run m_rest]. destruct s as [|c s]; cbn [filter flat_map].
    + cbn. now rewrite adv0.
    + rewrite prefix_len_cons. destruct (p c); cbn [filter flat_map].
      * unfold advances at 1. cbn [m_rest length]. rewrite (proj2 (Nat.ltb_lt _ _)) by lia. cbn [flat_map].
        rewrite IH by (cbn in *; lia). rewrite app_nil_r. cbn [m_rest].
        change (seq 0 (S (S (prefix_len p s)))) with (0 :: seq 1 (S (prefix_len p s))).
        cbn [rev]. rewrite map_app. cbn [map]. rewrite adv0. f_equal.
        rewrite <- (seq_shift (S (prefix_len p s)) 0), <- map_rev, map_map.
        apply map_ext. intros k. now rewrite advS.
      * cbn. now rewrite adv0.
Qed.
Lemma run_greedy_plus p m :
  run (RPlus true (RChr p)) m = map (fun k => adv k m) (rev (seq 1 (prefix_len p (m_rest m)))).
Proof.
  destruct m as [pre s caps]. unfold RPlus. rewrite run_seq, run_chr. cbn [m_rest m_pre m_caps]. destruct s as [|c s]; [reflexivity|].
  rewrite prefix_len_cons. destruct (p c); [|reflexivity]. cbn [flat_map]. rewrite app_nil_r.
  rewrite run_star, star_greedy by reflexivity. cbn [m_rest]. rewrite <- seq_shift, <- map_rev, map_map. apply map_ext. intros. now rewrite advS.
Qed.
(** the character behind a shorter prefix belongs to the class *)
Lemma prefix_next p : forall s k, k < prefix_len p s -> exists c r, skipn k s = c :: r /\ p c = true.
Proof.
  induction s as [|c s IH]; intros k Hk; [cbn in Hk; lia|]. rewrite prefix_len_cons in Hk.
  destruct (p c) eqn:E; [|lia]. destruct k; [now exists c, s|]. cbn. apply IH. lia.
Qed.
Lemma prefix_span p s : firstn (prefix_len p s) s = fst (span p s) /\ skipn (prefix_len p s) s = snd (span p s).
Proof.
  induction s as [|c s [I1 I2]]; [split; reflexivity|]. rewrite prefix_len_cons. cbn [span].
  destruct (p c); [|split; reflexivity]. cbn [firstn skipn]. rewrite I1, I2. destruct (span p s); split; reflexivity.
Qed.
Lemma adv_span p m : adv (prefix_len p (m_rest m)) m
  = mkm (rev (fst (span p (m_rest m))) ++ m_pre m) (snd (span p (m_rest m))) (m_caps m).
Proof. unfold adv. destruct (prefix_span p (m_rest m)) as [-> ->]. reflexivity. Qed.
Lemma flat_map_nil {A B} (f : A -> list B) l : (forall x, In x l -> f x = []) -> flat_map f l = [].
Proof.
  induction l as [|a l IH]; cbn [flat_map]; [reflexivity|]. intros H. rewrite H by now left. apply IH. intros x Hx. apply H. now right.
Qed.
(** what follows a greedy run of [p] cannot start with a character of [p] *)
Definition stops (p : N -> bool) (b : re) : Prop :=
  forall pre c r caps, p c = true -> run b (mkm pre (c :: r) caps) = [].
Lemma adv_stops p b m k : stops p b -> k < prefix_len p (m_rest m) -> run b (adv k m) = [].
Proof.
  intros Hb Hk. destruct (prefix_next p _ _ Hk) as (c & r & E & Hc). unfold adv. rewrite E. now apply Hb.
Qed.
Lemma run_plus_stop p b m : stops p b ->
  run (RSeq (RPlus true (RChr p)) b) m =
  match fst (span p (m_rest m)) with
  | [] => []
  | w => run b (mkm (rev w ++ m_pre m) (snd (span p (m_rest m))) (m_caps m))
  end.
Proof.
  intros Hb. rewrite run_seq, run_greedy_plus. destruct (prefix_len p (m_rest m)) as [|n] eqn:En.
  - unfold prefix_len in En. destruct (fst (span p (m_rest m))); [reflexivity|discriminate].
  - assert (E : rev (seq 1 (S n)) = S n :: rev (seq 1 n)) by (rewrite seq_S, rev_app_distr; reflexivity).
    rewrite E. cbn [map flat_map]. rewrite (flat_map_nil (run b)).
    + rewrite app_nil_r, <- En, adv_span. destruct (fst (span p (m_rest m))) eqn:F; [|reflexivity].
      unfold prefix_len in En. rewrite F in En. discriminate.
    + intros x Hx. apply in_map_iff in Hx as (k & <- & Hk). apply in_rev, in_seq in Hk. apply (adv_stops p); [assumption|lia].
Qed.
Lemma run_star_stop p b m : stops p b ->
  run (RSeq (RStar true (RChr p)) b) m =
  run b (mkm (rev (fst (span p (m_rest m))) ++ m_pre m) (snd (span p (m_rest m))) (m_caps m)).
Proof.
  intros Hb. rewrite run_seq, run_star, star_greedy by reflexivity. rewrite seq_S, rev_app_distr. cbn [rev app map flat_map Nat.add].
  rewrite (flat_map_nil (run b)); [now rewrite app_nil_r, adv_span|].
  intros x Hx. apply in_map_iff in Hx as (k & <- & Hk). apply in_rev, in_seq in Hk. apply (adv_stops p); [assumption|lia].
Qed.

(** ** Character classes *)
Lemma digit_in_bound zs c d : digit_in zs c = Some d -> forallb (fun z => N.leb 48 z) zs = true -> (48 <= c)%N.
Proof.
  induction zs as [|z zs IH]; [discriminate|]. cbn [digit_in forallb]. intros H Hz. apply andb_prop in Hz as [Hz1 Hz2].
  apply N.leb_le in Hz1. destruct (N.leb z c && N.ltb c (z + 10))%bool eqn:E; [|now apply IH].
  apply andb_prop in E as [E _]. apply N.leb_le in E. lia.
Qed.
Lemma digit_ge c : is_digit c = true -> (48 <= c)%N.
Proof.
  unfold is_digit, digit_val. destruct (digit_in nd_zeros c) eqn:E; [|discriminate]. intros _.
  now apply (digit_in_bound _ _ _ E).
Qed.
Lemma stops_num_end : stops is_digit r_num_end.
Proof.
  intros pre c r caps H. apply digit_ge in H. unfold r_num_end. cbn.
  destruct (N.eqb_spec c 32); [lia|]. destruct (N.eqb_spec c 41); [lia|]. reflexivity.
Qed.
Lemma stops_seq p a b : stops p a -> stops p (RSeq a b).
Proof. intros H pre c r caps Hc. rewrite run_seq, H by assumption. reflexivity. Qed.
Lemma stops_point : stops is_digit (r_char 46).
Proof. intros pre c r caps H. apply digit_ge in H. cbn. destruct c; [lia|]. destruct (Pos.eqb_spec 46 p); [subst; lia|reflexivity]. Qed.

(** ** Numbers *)
Lemma run_num_end pre s caps : run r_num_end (mkm pre s caps) = if num_end s then [mkm pre s caps] else [].
Proof. unfold r_num_end. cbn. unfold num_end. destruct s as [|c s]; [reflexivity|]. unfold rpar. reflexivity. Qed.
Lemma run_opt p b pre s caps : stops p b ->
  run (RSeq (ROpt (RChr p)) b) (mkm pre s caps) =
  match s with
  | c :: s' => if p c then run b (mkm (c :: pre) s' caps) else run b (mkm pre s caps)
  | [] => run b (mkm pre s caps)
  end.
Proof.
  intros Hb. rewrite run_seq. unfold ROpt.
  change (run (RAlt (RChr p) REps) (mkm pre s caps)) with (run (RChr p) (mkm pre s caps) ++ [mkm pre s caps]).
  rewrite run_chr. cbn [m_rest m_pre m_caps]. destruct s as [|c s]; [cbn; now rewrite app_nil_r|].
  destruct (p c) eqn:E; cbn [app flat_map]; rewrite app_nil_r; [|reflexivity]. rewrite (Hb pre c s caps E). now rewrite app_nil_r.
Qed.
Lemma stops_plus p q b : (forall c, p c = true -> q c = false) -> stops p (RSeq (RPlus true (RChr q)) b).
Proof.
  intros H pre c r caps Hc. rewrite run_seq, run_greedy_plus. cbn [m_rest]. rewrite prefix_len_cons, (H c Hc). reflexivity.
Qed.
Lemma sign_not_digit c : ((c =? 43) || (c =? 45))%N = true -> is_digit c = false.
Proof.
  intros H. destruct (is_digit c) eqn:E; [|reflexivity]. apply digit_ge in E.
  apply orb_prop in H as [H|H]; apply N.eqb_eq in H; lia.
Qed.
Lemma minus_not_digit c : N.eqb 45 c = true -> is_digit c = false.
Proof. intros H. apply N.eqb_eq in H. subst. reflexivity. Qed.

Lemma run_digits_end pre s caps :
  run (RSeq (RPlus true (RChr is_digit)) r_num_end) (mkm pre s caps)
  = match fst (span is_digit s) with
    | [] => []
    | w => if num_end (snd (span is_digit s)) then [mkm (rev w ++ pre) (snd (span is_digit s)) caps] else []
    end.
Proof.
  rewrite (run_plus_stop _ _ _ stops_num_end). cbn [m_rest m_pre m_caps].
  destruct (fst (span is_digit s)); [reflexivity|]. apply run_num_end.
Qed.
Lemma run_point b pre s caps :
  run (RSeq (r_char 46) b) (mkm pre s caps)
  = match s with c :: s' => if N.eqb 46 c then run b (mkm (c :: pre) s' caps) else [] | [] => [] end.
Proof.
  rewrite run_seq. unfold r_char. rewrite run_chr. cbn [m_rest m_pre m_caps]. destruct s as [|c s]; [reflexivity|].
  destruct (N.eqb 46 c); [|reflexivity]. cbn [flat_map]. apply app_nil_r.
Qed.

(** the number group: the text matched, up to where it ends *)
Definition taken (s r : str) : str := firstn (length s - length r) s.
Lemma taken_app w r : taken (w ++ r) r = w.
Proof. unfold taken. rewrite app_length, Nat.add_sub. rewrite firstn_app, Nat.sub_diag, firstn_all. apply app_nil_r. Qed.

Definition sign_of (s : str) : str * (bool * str) :=
  match s with
  | c :: s' => if N.eqb c 43 then ([c], (false, s')) else if N.eqb c 45 then ([c], (true, s')) else ([], (false, s))
  | [] => ([], (false, s))
  end.
Definition minus_of (s : str) : str * (bool * str) :=
  match s with
  | c :: s' => if N.eqb c 45 then ([c], (true, s')) else ([], (false, s))
  | [] => ([], (false, s))
  end.
Lemma span_not p : forall s c r, snd (span p s) = c :: r -> p c = false.
Proof.
  induction s as [|d s IH]; intros c r; cbn [span]; [discriminate|]. destruct (p d) eqn:E.
  - intros H. apply (IH c r). destruct (span p s); assumption.
  - intros H. injection H as -> ->. assumption.
Qed.
Lemma span_forallb p s : forallb p (fst (span p s)) = true.
Proof. induction s as [|d s IH]; [reflexivity|]. cbn [span]. destruct (p d) eqn:E; [|reflexivity]. destruct (span p s). cbn in *. now rewrite E. Qed.

Lemma run_dec pre s caps m :
  hd_error (run (RSeq (ROpt (RChr (fun c => ((c =? 43) || (c =? 45))%N)))
       (RSeq (RPlus true (RChr is_digit))
       (RSeq (r_char 46)
       (RSeq (RPlus true (RChr is_digit)) r_num_end)))) (mkm pre s caps)) = m ->
  match match_dec s with
  | Some (neg, ip, fp, r) => exists sg, m = Some (mkm (rev (sg ++ ip ++ 46%N :: fp) ++ pre) r caps) /\ s = (sg ++ ip ++ 46%N :: fp) ++ r
        /\ (sg = [] /\ neg = false \/ sg = [43%N] /\ neg = false \/ sg = [45%N] /\ neg = true)
        /\ ip <> [] /\ forallb is_digit ip = true
  | None => m = None
  end.
Proof.
  intros <-. rewrite run_opt by (apply stops_plus, sign_not_digit).
  assert (G : forall sg neg t, sg = [] /\ neg = false \/ sg = [43%N] /\ neg = false \/ sg = [45%N] /\ neg = true ->
    match (let '(ip, s2) := span is_digit t in
  match ip, s2 with
  | _ :: _, d :: s3 =>
      if N.eqb d 46 then
        let '(fp, s4) := span is_digit s3 in
        match fp with
        | _ :: _ => if num_end s4 then Some (neg, ip, fp, s4) else None
        | [] => None
        end
      else None
  | _, _ => None
  end) with
  | Some (neg, ip, fp, r) => exists sg', hd_error (run (RSeq (RPlus true (RChr is_digit)) (RSeq (r_char 46) (RSeq (RPlus true (RChr is_digit)) r_num_end))) (mkm (sg ++ pre) t caps))
       = Some (mkm (rev (sg' ++ ip ++ 46%N :: fp) ++ pre) r caps) /\ sg ++ t = (sg' ++ ip ++ 46%N :: fp) ++ r
        /\ (sg' = [] /\ neg = false \/ sg' = [43%N] /\ neg = false \/ sg' = [45%N] /\ neg = true)
        /\ ip <> [] /\ forallb is_digit ip = true
  | None => hd_error (run (RSeq (RPlus true (RChr is_digit)) (RSeq (r_char 46) (RSeq (RPlus true (RChr is_digit)) r_num_end))) (mkm (sg ++ pre) t caps)) = None
  end).
  { intros sg neg t Hsg. rewrite (run_plus_stop is_digit) by (apply stops_seq, stops_point). cbn [m_rest m_pre m_caps].
    pose proof (span_app is_digit t) as Ht. pose proof (span_forallb is_digit t) as Hd. destruct (span is_digit t) as [ip s2]. cbn [fst snd] in *. destruct ip as [|i ip]; [reflexivity|].
    rewrite run_point. destruct s2 as [|d s3]; [reflexivity|]. rewrite (N.eqb_sym 46 d). destruct (N.eqb_spec d 46) as [->|]; [|reflexivity].
    rewrite run_digits_end. pose proof (span_app is_digit s3) as Hs3. destruct (span is_digit s3) as [fp s4]. cbn [fst snd] in *. destruct fp as [|f fp]; [reflexivity|].
    destruct (num_end s4); [|reflexivity]. exists sg. cbn [hd_error].
    assert (R : rev sg = sg) by (destruct Hsg as [[-> _]|[[-> _]|[-> _]]]; reflexivity).
    repeat split; [| |assumption|discriminate|assumption].
    - do 2 f_equal. rewrite !rev_app_distr. change (rev (46%N :: f :: fp)) with (rev (f :: fp) ++ [46%N]). rewrite R, <- !app_assoc. reflexivity.
    - subst s3 t. rewrite <- !app_assoc. reflexivity. }
  unfold match_dec. destruct s as [|c s].
  - apply (G [] false []). tauto.
  - destruct (N.eqb_spec c 43) as [->|N1]; [apply (G [43%N] false s); tauto|].
    destruct (N.eqb_spec c 45) as [->|N2]; [apply (G [45%N] true s); tauto|]. cbn [orb]. apply (G [] false (c :: s)). tauto.
Qed.
Lemma run_int pre s caps :
  match match_int s with
  | Some (neg, ip, r) => exists sg, hd_error (run (RSeq (ROpt (r_char 45)) (RSeq (RPlus true (RChr is_digit)) r_num_end)) (mkm pre s caps))
        = Some (mkm (rev (sg ++ ip) ++ pre) r caps) /\ s = (sg ++ ip) ++ r
        /\ (sg = [] /\ neg = false \/ sg = [45%N] /\ neg = true)
        /\ ip <> [] /\ forallb is_digit ip = true
  | None => hd_error (run (RSeq (ROpt (r_char 45)) (RSeq (RPlus true (RChr is_digit)) r_num_end)) (mkm pre s caps)) = None
  end.
Proof.
  unfold r_char. rewrite run_opt by (apply stops_plus, minus_not_digit).
  assert (G : forall sg neg t, sg = [] /\ neg = false \/ sg = [45%N] /\ neg = true ->
    match (let '(ip, s2) := span is_digit t in
      match ip with
      | _ :: _ => if num_end s2 then Some (neg, ip, s2) else None
      | [] => None
      end) with
    | Some (neg, ip, r) => exists sg', hd_error (run (RSeq (RPlus true (RChr is_digit)) r_num_end) (mkm (sg ++ pre) t caps))
        = Some (mkm (rev (sg' ++ ip) ++ pre) r caps) /\ sg ++ t = (sg' ++ ip) ++ r
        /\ (sg' = [] /\ neg = false \/ sg' = [45%N] /\ neg = true)
        /\ ip <> [] /\ forallb is_digit ip = true
    | None => hd_error (run (RSeq (RPlus true (RChr is_digit)) r_num_end) (mkm (sg ++ pre) t caps)) = None
    end).
  { intros sg neg t Hsg. rewrite run_digits_end.
    pose proof (span_app is_digit t) as Ht. pose proof (span_forallb is_digit t) as Hd. destruct (span is_digit t) as [ip s2]. cbn [fst snd] in *. destruct ip as [|i ip]; [reflexivity|].
    destruct (num_end s2); [|reflexivity]. exists sg. cbn [hd_error].
    assert (R : rev sg = sg) by (destruct Hsg as [[-> _]|[-> _]]; reflexivity).
    repeat split; [| |assumption|discriminate|assumption].
    - do 2 f_equal. rewrite !rev_app_distr. rewrite R, <- !app_assoc. reflexivity.
    - subst t. rewrite <- !app_assoc. reflexivity. }
  unfold match_int. destruct s as [|c s].
  - apply (G [] false []). tauto.
  - rewrite (N.eqb_sym 45 c). destruct (N.eqb_spec c 45) as [->|N2]; [apply (G [45%N] true s); tauto|]. apply (G [] false (c :: s)). tauto.
Qed.

Lemma hd_app {A} (a b : list A) : hd_error (a ++ b) = match hd_error a with Some x => Some x | None => hd_error b end.
Proof. now destruct a. Qed.
Lemma span_digits ip c r : forallb is_digit ip = true -> is_digit c = false -> span is_digit (ip ++ c :: r) = (ip, c :: r).
Proof. apply span_all. Qed.

Lemma num_text_dec sg neg ip fp :
  (sg = [] /\ neg = false \/ sg = [43%N] /\ neg = false \/ sg = [45%N] /\ neg = true) -> ip <> [] -> forallb is_digit ip = true ->
  num_text (sg ++ ip ++ 46%N :: fp) = num_val neg ip fp.
Proof.
  intros Hs Hn Hd. unfold num_text.
  assert (E : forall x, x = (neg, ip ++ 46%N :: fp) -> (let '(neg0, s) := x in let '(ip0, s0) := span is_digit s in num_val neg0 ip0 (match s0 with _ :: fp0 => fp0 | [] => [] end)) = num_val neg ip fp).
  { intros x ->. rewrite span_digits by auto. reflexivity. }
  apply E. destruct Hs as [[-> ->]|[[-> ->]|[-> ->]]]; try reflexivity. cbn [app].
  destruct ip as [|i ip]; [congruence|]. cbn [app]. cbn [forallb] in Hd. apply andb_prop in Hd as [Hd _]. apply digit_ge in Hd.
  destruct (N.eqb_spec i 43); [lia|]. destruct (N.eqb_spec i 45); [lia|]. reflexivity.
Qed.
Lemma num_text_int sg neg ip :
  (sg = [] /\ neg = false \/ sg = [45%N] /\ neg = true) -> ip <> [] -> forallb is_digit ip = true ->
  num_text (sg ++ ip) = num_val neg ip [].
Proof.
  intros Hs Hn Hd. unfold num_text.
  assert (E : forall x, x = (neg, ip) -> (let '(neg0, s) := x in let '(ip0, s0) := span is_digit s in num_val neg0 ip0 (match s0 with _ :: fp0 => fp0 | [] => [] end)) = num_val neg ip []).
  { intros x ->. rewrite span_all_nil by auto. reflexivity. }
  apply E. destruct Hs as [[-> ->]|[-> ->]]; try reflexivity. cbn [app].
  destruct ip as [|i ip]; [congruence|]. cbn [app]. cbn [forallb] in Hd. apply andb_prop in Hd as [Hd _]. apply digit_ge in Hd.
  destruct (N.eqb_spec i 43); [lia|]. destruct (N.eqb_spec i 45); [lia|]. reflexivity.
Qed.

Lemma run_num pre s caps :
  match match_num s with
  | Some (v, r) => exists w, hd_error (run r_num (mkm pre s caps)) = Some (mkm (rev w ++ pre) r caps) /\ s = w ++ r /\ w <> [] /\ num_text w = v
  | None => hd_error (run r_num (mkm pre s caps)) = None
  end.
Proof.
  unfold r_num. match goal with |- context [run (RAlt ?a ?b) ?m] => change (run (RAlt a b) m) with (run a m ++ run b m) end.
  rewrite hd_app. unfold match_num.
  match goal with |- context [hd_error (run (RSeq (ROpt (RChr ?f)) ?b) ?m)] => pose proof (run_dec pre s caps _ eq_refl) as D end.
  pose proof (run_int pre s caps) as I.
  destruct (match_dec s) as [[[[neg ip] fp] r]|].
  - destruct D as (sg & E & Es & Hs & Hn & Hd). rewrite E. exists (sg ++ ip ++ 46%N :: fp). repeat split; auto.
    + destruct Hs as [[-> _]|[[-> _]|[-> _]]]; try discriminate. destruct ip; discriminate.
    + now apply num_text_dec.
  - rewrite D. destruct (match_int s) as [[[neg ip] r]|]; [|exact I].
    destruct I as (sg & E & Es & Hs & Hn & Hd). rewrite E. exists (sg ++ ip). repeat split; auto.
    + destruct Hs as [[-> _]|[-> _]]; try discriminate. destruct ip; [congruence|discriminate].
    + now apply num_text_int.
Qed.

(** ** Quoted strings *)
Definition r_qch : re := RAlt (RChr (fun c => negb (34 =? c)%N)) (RSeq (RBehind (N.eqb 92)) (r_char 34)).
Definition r_qend : re := RSeq (r_char 34) (RAlt (RLook (N.eqb 41)) (RLook is_space)).
Lemma run_qch prev pre s caps :
  run r_qch (mkm (prev :: pre) s caps) =
  match s with
  | c :: s' => if N.eqb c dquote then (if N.eqb prev bslash then [mkm (c :: prev :: pre) s' caps] else []) else [mkm (c :: prev :: pre) s' caps]
  | [] => []
  end.
Proof.
  unfold r_qch.
  match goal with |- run (RAlt ?a ?b) ?m = _ => change (run (RAlt a b) m) with (run a m ++ run b m) end.
  rewrite run_seq, run_chr. cbn [run m_rest m_pre m_caps]. unfold dquote, bslash. rewrite (N.eqb_sym 92 prev).
  destruct s as [|c s]; [destruct (N.eqb prev 92); reflexivity|]. rewrite (N.eqb_sym 34 c).
  destruct (N.eqb c 34) eqn:E; cbn [negb app]; destruct (N.eqb prev 92); cbn [flat_map]; rewrite ?app_nil_r; unfold r_char; rewrite ?run_chr; cbn [m_rest m_pre m_caps];
    rewrite ?(N.eqb_sym 34 c), ?E; reflexivity.
Qed.
Lemma run_qend pre s caps :
  hd_error (run r_qend (mkm pre s caps)) =
  match s with c :: s' => if N.eqb c dquote && sq_end s' then Some (mkm (c :: pre) s' caps) else None | [] => None end.
Proof.
  unfold r_qend. rewrite run_seq. unfold r_char. rewrite run_chr. cbn [m_rest m_pre m_caps]. destruct s as [|c s]; [reflexivity|].
  rewrite (N.eqb_sym 34 c). unfold dquote. destruct (N.eqb c 34); [|reflexivity]. cbn [flat_map andb]. rewrite app_nil_r. cbn [run m_rest].
  unfold sq_end. destruct s as [|d s]; [reflexivity|]. unfold rpar. rewrite (N.eqb_sym 41 d). destruct (N.eqb d 41), (is_space d); reflexivity.
Qed.
Lemma run_sq_loop : forall n prev pre s caps, length s <= n ->
  hd_error (flat_map (run r_qend) (star true (run r_qch) n (mkm (prev :: pre) s caps))) =
  match match_sq prev s with
  | Some (b, r) => Some (mkm (rev (b ++ [dquote]) ++ prev :: pre) r caps)
  | None => None
  end /\ match match_sq prev s with Some (b, r) => s = b ++ dquote :: r | None => True end.
Proof.
  induction n as [|n IH]; intros prev pre s caps Hn.
  - destruct s; [|cbn in Hn; lia]. cbn [star flat_map]. rewrite app_nil_r, run_qend. cbn. auto.
  - cbn [star]. rewrite flat_map_app, hd_app. cbn [flat_map]. rewrite app_nil_r, run_qend, run_qch.
    destruct s as [|c s]; [cbn; auto|]. cbn [match_sq]. cbn in Hn.
    destruct (IH c (prev :: pre) s caps) as [I1 I2]; [lia|].
    destruct (N.eqb_spec c dquote) as [->|Nq]; cbn [andb].
    + destruct (N.eqb prev bslash); cbn [filter flat_map].
      * unfold advances. cbn [m_rest length]. rewrite (proj2 (Nat.ltb_lt _ _)) by lia. cbn [flat_map]. rewrite app_nil_r, I1.
        destruct (match_sq dquote s) as [[b r]|].
        -- split; [|now rewrite I2 at 1]. cbn [app rev]. do 2 f_equal. rewrite <- !app_assoc. reflexivity.
        -- destruct (sq_end s); auto.
      * cbn [hd_error]. destruct (sq_end s); auto.
    + cbn [filter flat_map]. unfold advances. cbn [m_rest length]. rewrite (proj2 (Nat.ltb_lt _ _)) by lia. cbn [flat_map]. rewrite app_nil_r, I1.
      destruct (match_sq c s) as [[b r]|]; [|auto]. split; [|now rewrite I2 at 1]. cbn [app rev]. do 2 f_equal. rewrite <- !app_assoc. reflexivity.
Qed.
Lemma run_sq pre c s caps :
  match (if N.eqb c dquote then match_sq c s else None) with
  | Some (b, r) => hd_error (run r_sq (mkm pre (c :: s) caps)) = Some (mkm (rev (dquote :: b ++ [dquote]) ++ pre) r caps) /\ c :: s = (dquote :: b ++ [dquote]) ++ r
  | None => hd_error (run r_sq (mkm pre (c :: s) caps)) = None
  end.
Proof.
  unfold r_sq. rewrite run_seq. change (run (r_char 34) (mkm pre (c :: s) caps)) with (run (RChr (N.eqb 34)) (mkm pre (c :: s) caps)). rewrite run_chr. cbn [m_rest m_pre m_caps]. rewrite (N.eqb_sym 34 c).
  change (N.eqb c 34) with (N.eqb c dquote). destruct (N.eqb_spec c dquote) as [->|]; [|reflexivity]. cbn [flat_map]. rewrite app_nil_r, run_seq, run_star. cbn [m_rest].
  destruct (run_sq_loop (length s) dquote pre s caps (le_n _)) as [L1 L2]. unfold r_qch, r_qend in L1.
  rewrite L1. destruct (match_sq dquote s) as [[b r]|]; [|reflexivity]. split.
  - cbn [rev]. do 2 f_equal. rewrite <- app_assoc. reflexivity.
  - rewrite L2 at 1. cbn [app]. rewrite <- app_assoc. reflexivity.
Qed.
Lemma inner_quoted b : inner (dquote :: b ++ [dquote]) = b.
Proof. unfold inner. cbn [tl]. apply removelast_last. Qed.

(** ** Words *)
Lemma run_word pre s caps :
  hd_error (run r_s (mkm pre s caps)) =
  match fst (span word_char s) with
  | [] => None
  | w => Some (mkm (rev w ++ pre) (snd (span word_char s)) caps)
  end.
Proof.
  unfold r_s. rewrite run_greedy_plus. cbn [m_rest].
  change (fun c : N => negb ((c =? 40) || (c =? 94) || (c =? 41) || is_space c)%N) with word_char.
  destruct (prefix_len word_char s) as [|n] eqn:En.
  - unfold prefix_len in En. destruct (fst (span word_char s)); [reflexivity|discriminate].
  - rewrite seq_S, rev_app_distr. cbn [rev app map hd_error Nat.add].
    pose proof (adv_span word_char (mkm pre s caps)) as A. cbn [m_rest m_pre m_caps] in A. rewrite <- En, A.
    destruct (fst (span word_char s)) eqn:F; [|reflexivity]. unfold prefix_len in En. rewrite F in En. discriminate.
Qed.

(** ** The whole pattern *)
Definition r_terms : re :=
  RAlt (RGroup 1 (r_char 40)) (RAlt (RGroup 2 (r_char 41)) (RAlt (RGroup 3 r_num) (RAlt (RGroup 4 r_sq) (RGroup 5 r_s)))).
Lemma hd_map {A B} (f : A -> B) l : hd_error (map f l) = option_map f (hd_error l).
Proof. now destruct l. Qed.
Lemma hd_none {A} (l : list A) : hd_error l = None -> l = [].
Proof. now destruct l. Qed.
Lemma hd_group n a m : hd_error (run (RGroup n a) m) = option_map (fun m' => mkm (m_pre m') (m_rest m') ((n, consumed m m') :: m_caps m')) (hd_error (run a m)).
Proof. change (run (RGroup n a) m) with (map (fun m' => mkm (m_pre m') (m_rest m') ((n, consumed m m') :: m_caps m')) (run a m)). apply hd_map. Qed.
Lemma run_terms pre c s : is_space c = false ->
  match fst (lex1 c s) with
  | Some t => exists w n, hd_error (run r_terms (mkm pre (c :: s) [])) = Some (mkm (rev w ++ pre) (snd (lex1 c s)) [(n, w)])
                /\ c :: s = w ++ snd (lex1 c s) /\ w <> [] /\ (forall p, term_tok (mkm p (snd (lex1 c s)) [(n, w)]) = Some t)
  | None => hd_error (run r_terms (mkm pre (c :: s) [])) = None /\ snd (lex1 c s) = s
  end.
Proof.
  intros Hc. unfold r_terms.
  repeat match goal with |- context [run (RAlt ?a ?b) ?m] => change (run (RAlt a b) m) with (run a m ++ run b m) end.
  rewrite !hd_app, !hd_group. unfold r_char. rewrite !run_chr. cbn [m_rest m_pre m_caps]. unfold lex1. rewrite Hc.
  rewrite (N.eqb_sym 40 c), (N.eqb_sym 41 c). change 40%N with lpar. change 41%N with rpar.
  destruct (N.eqb_spec c lpar) as [->|]; cbn [hd_error option_map fst snd].
  { exists [lpar], 1%nat. split; [|split; [reflexivity|split; [discriminate|reflexivity]]]. cbn [rev app m_pre m_rest m_caps]. do 4 f_equal. exact (taken_app [lpar] s). }
  destruct (N.eqb_spec c rpar) as [->|]; cbn [hd_error option_map fst snd].
  { exists [rpar], 2%nat. split; [|split; [reflexivity|split; [discriminate|reflexivity]]]. cbn [rev app m_pre m_rest m_caps]. do 4 f_equal. exact (taken_app [rpar] s). }
  pose proof (run_num pre (c :: s) []) as RN. destruct (match_num (c :: s)) as [[v r]|].
  { destruct RN as (w & E & Es & Hw & Hv). rewrite E. cbn [option_map fst snd m_pre m_rest m_caps]. exists w, 3%nat. split; [|split; [auto|split; [auto|]]].
    - do 4 f_equal. unfold consumed. cbn [m_rest]. rewrite Es. apply (taken_app w r).
    - intros p. unfold term_tok, term_value, group. cbn [map m_caps cap Nat.eqb filter snd]. destruct w as [|x w]; [congruence|]. now rewrite Hv. }
  rewrite RN. cbn [option_map].
  pose proof (run_sq pre c s []) as RQ. destruct (if N.eqb c dquote then match_sq c s else None) as [[b r]|].
  { destruct RQ as [E Es]. rewrite E. cbn [option_map fst snd m_pre m_rest m_caps]. exists (dquote :: b ++ [dquote]), 4%nat. split; [|split; [auto|split; [discriminate|]]].
    - do 4 f_equal. unfold consumed. cbn [m_rest]. rewrite Es. apply (taken_app (dquote :: b ++ [dquote]) r).
    - intros p. unfold term_tok, term_value, group. cbn [map m_caps cap Nat.eqb filter snd]. rewrite inner_quoted. reflexivity. }
  rewrite RQ, run_word. cbn [option_map].
  pose proof (span_app word_char (c :: s)) as SA. destruct (span word_char (c :: s)) as [w r]. cbn [fst snd] in *. destruct w as [|x w]; [split; reflexivity|].
  cbn [option_map fst snd m_pre m_rest m_caps]. exists (x :: w), 5%nat. split; [|split; [auto|split; [discriminate|reflexivity]]].
  do 4 f_equal. unfold consumed. cbn [m_rest]. rewrite <- SA. apply (taken_app (x :: w) r).
Qed.

Lemma stops_terms : stops is_space r_terms.
Proof.
  intros pre c s caps Hc. apply hd_none. unfold r_terms.
  repeat match goal with |- context [run (RAlt ?a ?b) ?m] => change (run (RAlt a b) m) with (run a m ++ run b m) end.
  rewrite !hd_app, !hd_group. unfold r_char. rewrite !run_chr. cbn [m_rest m_pre m_caps].
  assert (D : is_digit c = false).
  { destruct (is_digit c) eqn:E; [|reflexivity]. exfalso. revert Hc E. unfold is_space, is_digit, digit_val.
    intros Hc E. repeat (apply orb_prop in Hc as [Hc|Hc]);
      try (apply N.eqb_eq in Hc; subst c; vm_compute in E; discriminate);
      apply andb_prop in Hc as [H1 H2]; apply N.leb_le in H1, H2;
      destruct (digit_in nd_zeros c) eqn:F; try discriminate; clear E.
    - pose proof (digit_in_bound _ _ _ F eq_refl). lia.
    - pose proof (digit_in_bound _ _ _ F eq_refl). lia.
    - revert F. assert (K : forall k, (k <= 10)%N -> digit_in nd_zeros (8192 + k)%N = None).
      { intros k Hk. do 11 (destruct (N.eq_dec k 0) as [->|?]; [reflexivity|];
          destruct (N.eq_dec k 1) as [->|?]; [reflexivity|]; destruct (N.eq_dec k 2) as [->|?]; [reflexivity|];
          destruct (N.eq_dec k 3) as [->|?]; [reflexivity|]; destruct (N.eq_dec k 4) as [->|?]; [reflexivity|];
          destruct (N.eq_dec k 5) as [->|?]; [reflexivity|]; destruct (N.eq_dec k 6) as [->|?]; [reflexivity|];
          destruct (N.eq_dec k 7) as [->|?]; [reflexivity|]; destruct (N.eq_dec k 8) as [->|?]; [reflexivity|];
          destruct (N.eq_dec k 9) as [->|?]; [reflexivity|]; destruct (N.eq_dec k 10) as [->|?]; [reflexivity|]). lia. }
      replace c with (8192 + (c - 8192))%N by lia. rewrite K by lia. discriminate. }
  assert (Q : forall d, N.eqb d c = true -> is_space d = false -> False) by (intros d Hd Hs; apply N.eqb_eq in Hd; subst; congruence).
  destruct (N.eqb 40 c) eqn:E1; [destruct (Q 40%N E1 eq_refl)|]. destruct (N.eqb 41 c) eqn:E2; [destruct (Q 41%N E2 eq_refl)|]. cbn [hd_error option_map].
  pose proof (run_num pre (c :: s) caps) as RN. destruct (match_num (c :: s)) as [[v r]|] eqn:M.
  { exfalso. unfold match_num, match_dec, match_int in M.
    assert (c <> 43%N /\ c <> 45%N) as [N1 N2] by (split; intros ->; discriminate).
    destruct (N.eqb_spec c 43); [congruence|]. destruct (N.eqb_spec c 45); [congruence|]. cbn [span] in M. rewrite D in M. discriminate. }
  rewrite RN. cbn [option_map]. pose proof (run_sq pre c s caps) as RQ.
  destruct (N.eqb_spec c dquote) as [->|]; [discriminate|]. rewrite RQ, run_word. cbn [option_map span].
  assert (W : word_char c = false) by (unfold word_char; rewrite Hc, !orb_true_r; reflexivity). rewrite W. reflexivity.
Qed.

Lemma run_term_regex pre s :
  run term_regex (mkm pre s []) = run r_terms (mkm (rev (fst (span is_space s)) ++ pre) (snd (span is_space s)) []).
Proof. apply (run_star_stop is_space r_terms (mkm pre s []) stops_terms). Qed.
Lemma run_term_space pre c s : is_space c = true -> run term_regex (mkm pre (c :: s) []) = run term_regex (mkm (c :: pre) s []).
Proof.
  intros H. rewrite !run_term_regex. cbn [span]. rewrite H. destruct (span is_space s) as [a b]. cbn [fst snd rev]. now rewrite <- app_assoc.
Qed.
Lemma run_term_end pre : run term_regex (mkm pre [] []) = [].
Proof. reflexivity. Qed.

(** every match moves on *)
Lemma term_advances pre s m : hd_error (run term_regex (mkm pre s [])) = Some m -> length (m_rest m) < length s.
Proof.
  rewrite run_term_regex. pose proof (span_len is_space s) as L. pose proof (span_not is_space s) as NS. destruct (span is_space s) as [a [|c b]]; cbn [fst snd] in *.
  { discriminate. }
  intros H. pose proof (run_terms (rev a ++ pre) c b (NS c b eq_refl)) as R. destruct (fst (lex1 c b)).
  - destruct R as (w & n & E & _). rewrite E in H. injection H as <-. cbn [m_rest]. pose proof (lex1_len c b). cbn in L. lia.
  - destruct R as [E _]. congruence.
Qed.

Lemma finditer_unfold n pre c s :
  finditer (S n) term_regex pre (c :: s) =
  match hd_error (run term_regex (mkm pre (c :: s) [])) with
  | Some m => m :: finditer n term_regex (m_pre m) (m_rest m)
  | None => finditer n term_regex (c :: pre) s
  end.
Proof.
  cbn [finditer]. pose proof (term_advances pre (c :: s)) as A. destruct (run term_regex (mkm pre (c :: s) [])) as [|m l]; [reflexivity|]. cbn [hd_error].
  unfold advances. cbn [m_rest]. rewrite (proj2 (Nat.ltb_lt _ _)) by (apply A; reflexivity). reflexivity.
Qed.
Lemma finditer_nil n pre : finditer n term_regex pre [] = [].
Proof. destruct n; reflexivity. Qed.

Lemma finditer_lex : forall k n s, length s <= k -> length s < n -> forall pre,
  map term_tok (finditer n term_regex pre s) = map Some (lex s).
Proof.
  induction k as [|k IH]; intros n s Hk Hn pre.
  { destruct s; [|cbn in Hk; lia]. now rewrite finditer_nil. }
  destruct s as [|c s]; [now rewrite finditer_nil|]. destruct n as [|n]; [lia|]. cbn in Hk, Hn. rewrite lex_cons.
  destruct (is_space c) eqn:Hc.
  - assert (E : lex1 c s = (None, s)) by (unfold lex1; now rewrite Hc). rewrite E. cbn [fst snd ocons].
    rewrite finditer_unfold, run_term_space by assumption. destruct (hd_error (run term_regex (mkm (c :: pre) s []))) as [m|] eqn:R.
    + rewrite <- (IH (S n) s) with (pre := c :: pre) by lia.
      destruct s as [|d s]; [discriminate|]. rewrite finditer_unfold, R. cbn [map].
      pose proof (term_advances _ _ _ R) as A. cbn in A. reflexivity.
    + apply IH; lia.
  - pose proof (run_terms pre c s Hc) as R. rewrite finditer_unfold, run_term_regex. cbn [span]. rewrite Hc. cbn [fst snd rev app].
    destruct (fst (lex1 c s)) as [t|].
    + destruct R as (w & k' & E & Es & Hw & Ht). rewrite E. cbn [map m_pre m_rest ocons]. rewrite Ht. f_equal.
      apply IH; pose proof (lex1_len c s); lia.
    + destruct R as [E Es]. rewrite E, Es. cbn [ocons]. apply IH; lia.
Qed.
Lemma tokeniser s : map term_tok (re_finditer term_regex s) = map Some (lex s).
Proof. apply (finditer_lex (length s)); lia. Qed.
Lemma foldM_terms : forall ms ts st, map term_tok ms = map Some ts ->
  foldM (fun st m => match term_tok m with Some t => pstep st t | None => Err EIndex end) st ms = foldM pstep st ts.
Proof.
  induction ms as [|m ms IH]; intros [|t ts] st H; try discriminate; [reflexivity|]. cbn [map] in H. injection H as H1 H2.
  cbn [foldM]. rewrite H1. destruct (pstep st t); [|reflexivity]. cbn [bind]. now apply IH.
Qed.
Lemma parser_re s : parse_sexp_re s = parse_sexp s.
Proof. unfold parse_sexp_re, parse_sexp, parse_toks. now rewrite (foldM_terms _ _ _ (tokeniser s)). Qed.
