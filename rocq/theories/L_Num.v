(** Printing and reading numbers. *)
From Verif Require Import PyBase PyNum PyStr Sexpr S_Leaf L_Lex L_Tok.
From Coq Require Import ZifyBool ZifyNat ZifyN.
Local Open Scope Z_scope.

(** ** Decimal digits *)

Lemma ascii_digit_val c : ascii_digit c = true -> digit_val c = Some (Z.of_N c - 48).
Proof.
  unfold ascii_digit. intros H. apply andb_prop in H as [H1 H2].
  apply N.leb_le in H1. apply N.leb_le in H2.
  unfold digit_val, nd_zeros. cbn [digit_in].
  replace (N.leb 48 c && N.ltb c (48 + 10))%bool with true by lia.
  f_equal. lia.
Qed.
Lemma ascii_digit_is c : ascii_digit c = true -> is_digit c = true.
Proof. intros H. unfold is_digit. now rewrite ascii_digit_val. Qed.
Lemma ascii_digit_word c : ascii_digit c = true -> word_char c = true.
Proof. intros H. now apply is_digit_word, ascii_digit_is. Qed.

Lemma digit_char_ascii d : 0 <= d < 10 -> ascii_digit (digit_char d) = true.
Proof. unfold ascii_digit, digit_char. intros H. lia. Qed.
Lemma digit_char_val d : 0 <= d < 10 -> digit_val (digit_char d) = Some d.
Proof.
  intros H. rewrite ascii_digit_val by now apply digit_char_ascii.
  unfold digit_char. f_equal. lia.
Qed.

Lemma digits_val_app a b :
  digits_val (a ++ b) = digits_val a * 10 ^ Z.of_nat (length b) + digits_val b.
Proof.
  unfold digits_val. rewrite fold_left_app.
  set (f := fun x c => _). generalize (fold_left f a 0) as x.
  assert (G : forall x y, fold_left f b (x + y) = x * 10 ^ Z.of_nat (length b) + fold_left f b y).
  { induction b as [|c b IH]; intros x y; cbn [fold_left length].
    - change (Z.of_nat 0) with 0. lia.
    - replace (f (x + y) c) with (10 * x + f y c) by (unfold f; lia).
      rewrite IH. rewrite Nat2Z.inj_succ, Z.pow_succ_r by lia. lia. }
  intros x. specialize (G x 0). now rewrite Z.add_0_r in G.
Qed.

Lemma digits_aux_spec fuel : forall z, 0 <= z -> (z < 10 \/ Z.log2 z < Z.of_nat fuel) -> (0 < fuel)%nat ->
  digits_val (digits_aux fuel z) = z /\ forallb ascii_digit (digits_aux fuel z) = true
  /\ digits_aux fuel z <> [].
Proof.
  induction fuel as [|fuel IH]; intros z Hz Hf Hp; [lia|].
  cbn [digits_aux]. destruct (Z.ltb_spec z 10) as [Hlt|Hge].
  - cbn [forallb]. rewrite digit_char_ascii by lia. split; [|split; [reflexivity|discriminate]].
    unfold digits_val. cbn [fold_left]. rewrite digit_char_val by lia. lia.
  - assert (Hdiv : 0 <= z / 10) by (apply Z.div_pos; lia).
    assert (Hm : 0 <= z mod 10 < 10) by (apply Z.mod_pos_bound; lia).
    assert (Hl : Z.log2 z < Z.of_nat (S fuel)) by lia.
    assert (Hlog : Z.log2 (z / 10) < Z.of_nat fuel).
    { assert (z / 10 <= z / 2) by (apply Z.div_le_compat_l; lia).
      assert (H2 : Z.log2 (z / 10) <= Z.log2 (z / 2)) by now apply Z.log2_le_mono.
      change 2 with (2 ^ 1) in H2 at 1. rewrite <- Z.shiftr_div_pow2, Z.log2_shiftr in H2 by lia.
      assert (Z.log2 8 <= Z.log2 z) by (apply Z.log2_le_mono; lia).
      change (Z.log2 8) with 3 in *. lia. }
    assert (Hf0 : (0 < fuel)%nat).
    { assert (Z.log2 8 <= Z.log2 z) by (apply Z.log2_le_mono; lia).
      change (Z.log2 8) with 3 in *. lia. }
    destruct (IH (z / 10)) as (E1 & E2 & E3); [lia|right; lia|lia|].
    split; [|split].
    + rewrite digits_val_app, E1. unfold digits_val. cbn [fold_left length].
      rewrite digit_char_val by lia. change (Z.of_nat 1) with 1. rewrite Z.pow_1_r.
      pose proof (Z.div_mod z 10). lia.
    + rewrite forallb_app, E2. cbn [forallb andb]. now rewrite digit_char_ascii.
    + intros E. apply app_eq_nil in E as [_ E]. discriminate.
Qed.

Lemma digits_spec z : 0 <= z ->
  digits_val (digits z) = z /\ forallb ascii_digit (digits z) = true /\ digits z <> [].
Proof.
  intros Hz. unfold digits. apply digits_aux_spec; [assumption| |lia].
  right. pose proof (Z.log2_nonneg z). lia.
Qed.

Lemma forallb_imp {A} (f g : A -> bool) l :
  (forall x, f x = true -> g x = true) -> forallb f l = true -> forallb g l = true.
Proof. intros H. rewrite !forallb_forall. auto. Qed.

Lemma zeros_digit n : forallb ascii_digit (zeros n) = true.
Proof. unfold zeros. induction (Z.to_nat n); cbn; auto. Qed.
Lemma zeros_val n : digits_val (zeros n) = 0.
Proof.
  unfold zeros, digits_val. induction (Z.to_nat n) as [|k IH]; [reflexivity|].
  cbn [repeat fold_left]. replace (10 * 0 + _) with 0 by reflexivity. exact IH.
Qed.
Lemma zeros_len n : 0 <= n -> Z.of_nat (length (zeros n)) = n.
Proof. intros H. unfold zeros. rewrite repeat_length. lia. Qed.

(** ** Rounding depends only on the value *)
Definition Mag (p q k : Z) : Prop :=
  forall N, 0 <= N -> 0 <= N + k -> q * 2 ^ (N + k) <= p * 2 ^ N < q * 2 ^ (N + k + 1).

Lemma pow2_pos n : 0 <= n -> 0 < 2 ^ n.
Proof. intros. apply Z.pow_pos_nonneg; lia. Qed.

Lemma Mag_unique p q k k' : 0 < q -> Mag p q k -> Mag p q k' -> k = k'.
Proof.
  intros Hq H H'. 
  assert (W : forall a b, Mag p q a -> Mag p q b -> ~ a < b).
  { intros a b Ha Hb Hlt. set (N := Z.abs a + Z.abs b).
    specialize (Ha N ltac:(lia) ltac:(lia)). specialize (Hb N ltac:(lia) ltac:(lia)).
    assert (2 ^ (N + a + 1) <= 2 ^ (N + b)) by (apply Z.pow_le_mono_r; lia). nia. }
  pose proof (W k k' H H'). pose proof (W k' k H' H). lia.
Qed.

Lemma Mag_one p q k N :
  0 < q -> 0 <= N -> 0 <= N + k -> q * 2 ^ (N + k) <= p * 2 ^ N < q * 2 ^ (N + k + 1) -> Mag p q k.
Proof.
  intros Hq HN HNk H M HM HMk.
  assert (E : forall A B, 0 <= A -> 0 <= A + k -> 0 <= B -> 0 <= B + k -> A <= B ->
     (q * 2 ^ (A + k) <= p * 2 ^ A < q * 2 ^ (A + k + 1) <->
      q * 2 ^ (B + k) <= p * 2 ^ B < q * 2 ^ (B + k + 1))).
  { intros A B HA HAk HB HBk HAB.
    pose proof (pow2_pos (B - A) ltac:(lia)) as Hp.
    assert (E1 : 2 ^ (B + k) = 2 ^ (A + k) * 2 ^ (B - A)) by (rewrite <- Z.pow_add_r by lia; f_equal; lia).
    assert (E2 : 2 ^ B = 2 ^ A * 2 ^ (B - A)) by (rewrite <- Z.pow_add_r by lia; f_equal; lia).
    assert (E3 : 2 ^ (B + k + 1) = 2 ^ (A + k + 1) * 2 ^ (B - A)) by (rewrite <- Z.pow_add_r by lia; f_equal; lia).
    rewrite E1, E2, E3, !Z.mul_assoc. set (c := 2 ^ (B - A)) in *. clearbody c.
    split; intros [H1 H2]; split.
    - apply Z.mul_le_mono_nonneg_r; lia.
    - apply Z.mul_lt_mono_pos_r; lia.
    - eapply Z.mul_le_mono_pos_r; eassumption.
    - eapply Z.mul_lt_mono_pos_r; eassumption. }
  destruct (Z.le_gt_cases N M) as [Hle|Hgt].
  - apply (E N M); auto.
  - apply (E M N); auto; lia.
Qed.

Lemma mag2_spec p q : 0 < p -> 0 < q -> Mag p q (mag2 p q).
Proof.
  intros Hp Hq. unfold mag2, scale2. set (k := Z.log2 p - Z.log2 q).
  pose proof (Z.log2_spec p Hp) as Lp. pose proof (Z.log2_spec q Hq) as Lq.
  pose proof (Z.log2_nonneg p) as Np. pose proof (Z.log2_nonneg q) as Nq.
  rewrite Z.pow_succ_r in Lp, Lq by assumption.
  set (N := Z.log2 q).
  assert (HN : 0 <= N) by exact Nq. assert (HNk : N + k = Z.log2 p) by (unfold N, k; lia).
  (* q * 2^(N+k) vs p * 2^N *)
  assert (U : p * 2 ^ N < q * 2 ^ (N + k + 1)).
  { rewrite HNk, Z.pow_add_r, Z.pow_1_r by lia. fold N in Lq. nia. }
  assert (D : q * 2 ^ (N + k) < 2 * (p * 2 ^ N)).
  { rewrite HNk. fold N in Lq. pose proof (pow2_pos (Z.log2 p) Np) as P1. pose proof (pow2_pos N HN) as P2.
    clearbody k. clear U. set (x := 2 ^ Z.log2 p) in *. set (y := 2 ^ N) in *. clearbody x y.
    assert (q * x < 2 * y * x) by (apply Z.mul_lt_mono_pos_r; lia).
    assert (2 * y * x <= 2 * y * p) by (apply Z.mul_le_mono_nonneg_l; lia). lia. }
  set (ab := if 0 <=? - k then _ else _).
  assert (T : (snd ab <=? fst ab) = (q * 2 ^ (N + k) <=? p * 2 ^ N)).
  { unfold ab. destruct (Z.leb_spec 0 (- k)) as [Hk|Hk]; cbn [fst snd].
    - assert (E1 : 2 ^ N = 2 ^ (N + k) * 2 ^ (- k)) by (rewrite <- Z.pow_add_r by lia; f_equal; lia).
      rewrite E1.
      pose proof (pow2_pos (N + k) ltac:(lia)).
      destruct (Z.leb_spec q (p * 2 ^ (- k))), (Z.leb_spec (q * 2 ^ (N + k)) (p * (2 ^ (N + k) * 2 ^ (- k))));
        [reflexivity| | |reflexivity]; exfalso; nia.
    - replace (- - k) with k by lia. rewrite Z.pow_add_r by lia.
      pose proof (pow2_pos N ltac:(lia)).
      destruct (Z.leb_spec (q * 2 ^ k) p), (Z.leb_spec (q * (2 ^ N * 2 ^ k)) (p * 2 ^ N));
        [reflexivity| | |reflexivity]; exfalso; nia. }
  destruct ab as [a b]; cbn [fst snd] in T. rewrite T. clear T.
  destruct (Z.leb_spec (q * 2 ^ (N + k)) (p * 2 ^ N)) as [Hle|Hgt].
  - apply (Mag_one p q k N); lia.
  - apply (Mag_one p q (k - 1) (N + 1)); [lia|lia|lia|].
    replace (N + 1 + (k - 1)) with (N + k) by lia.
    rewrite (Z.pow_add_r 2 N 1), Z.pow_1_r by lia.
    rewrite (Z.pow_add_r 2 (N + k) 1), Z.pow_1_r by lia. lia.
Qed.

Lemma mag2_scale p q c : 0 < p -> 0 < q -> 0 < c -> mag2 (p * c) (q * c) = mag2 p q.
Proof.
  intros Hp Hq Hc. apply (Mag_unique p q); [assumption| |now apply mag2_spec].
  intros N HN HNk. pose proof (mag2_spec (p * c) (q * c) ltac:(nia) ltac:(nia) N HN HNk) as H.
  set (k := mag2 (p * c) (q * c)) in *. nia.
Qed.

Lemma rne_scale a b c : 0 < b -> 0 < c -> rne (a * c) (b * c) = rne a b.
Proof.
  intros Hb Hc. unfold rne.
  rewrite Z.div_mul_cancel_r by lia. rewrite Z.mul_mod_distr_r by lia.
  set (r := a mod b). 
  assert (E1 : (2 * (r * c) <? b * c) = (2 * r <? b)).
  { destruct (Z.ltb_spec (2 * r) b), (Z.ltb_spec (2 * (r * c)) (b * c)); [reflexivity| | |reflexivity]; exfalso; nia. }
  assert (E2 : (b * c <? 2 * (r * c)) = (b <? 2 * r)).
  { destruct (Z.ltb_spec b (2 * r)), (Z.ltb_spec (b * c) (2 * (r * c))); [reflexivity| | |reflexivity]; exfalso; nia. }
  now rewrite E1, E2.
Qed.

Lemma scale2_scale p q c k : scale2 (p * c) (q * c) k = (fst (scale2 p q k) * c, snd (scale2 p q k) * c).
Proof. unfold scale2. destruct (0 <=? k); cbn [fst snd]; f_equal; ring. Qed.

Lemma scale2_snd_pos p q k : 0 < q -> 0 < snd (scale2 p q k).
Proof.
  unfold scale2. destruct (Z.leb_spec 0 k); cbn [snd]; [auto|].
  pose proof (pow2_pos (- k) ltac:(lia)). nia.
Qed.

Lemma round_pos_scale neg p q c : 0 < p -> 0 < q -> 0 < c ->
  round_pos neg (p * c) (q * c) = round_pos neg p q.
Proof.
  intros Hp Hq Hc. unfold round_pos. rewrite mag2_scale by assumption.
  set (e := Z.max _ _). rewrite scale2_scale.
  pose proof (scale2_snd_pos p q (- e) Hq). destruct (scale2 p q (- e)) as [a b]; cbn [fst snd] in *.
  rewrite rne_scale by assumption. reflexivity.
Qed.

Lemma pow10_pos n : 0 <= n -> 0 < 10 ^ n.
Proof. intros. apply Z.pow_pos_nonneg; lia. Qed.

(** moving a factor 10^j between mantissa and exponent does not change the double *)
Lemma dec_to_dbl_shift neg d k j : 0 <= d -> 0 <= j ->
  dec_to_dbl neg (d * 10 ^ j) k = dec_to_dbl neg d (k + j).
Proof.
  intros Hd Hj. unfold dec_to_dbl.
  pose proof (pow10_pos j Hj) as Pj.
  destruct (Z.eqb_spec d 0) as [->|Hd0]; [reflexivity|].
  destruct (Z.eqb_spec (d * 10 ^ j) 0) as [E|_]; [nia|].
  destruct (Z.leb_spec 0 k) as [Hk|Hk].
  - destruct (Z.leb_spec 0 (k + j)); [|lia].
    f_equal. rewrite Z.pow_add_r by lia. ring.
  - destruct (Z.leb_spec 0 (k + j)) as [Hkj|Hkj].
    + replace j with ((k + j) + (- k)) at 1 by lia. rewrite Z.pow_add_r by lia.
      rewrite Z.mul_assoc. rewrite <- (Z.mul_1_l (10 ^ (- k))) at 2.
      pose proof (pow10_pos (k + j) Hkj). pose proof (pow10_pos (- k) ltac:(lia)).
      apply round_pos_scale; nia.
    + replace (- k) with (- (k + j) + j) by lia. rewrite (Z.pow_add_r 10 _ j) by lia.
      apply round_pos_scale; [lia|apply pow10_pos; lia|assumption].
Qed.

(** ** Canonical doubles are read exactly *)
Lemma round_pos_neg neg p q :
  round_pos neg p q = match round_pos false p q with DFin _ m e => DFin neg m e | DInf _ => DInf neg end.
Proof.
  unfold round_pos. destruct (scale2 _ _ _) as [a b].
  destruct (rne a b =? two53); destruct (emax <? _); reflexivity.
Qed.
Lemma dec_to_dbl_neg neg d k :
  dec_to_dbl neg d k = match dec_to_dbl false d k with DFin _ m e => DFin neg m e | DInf _ => DInf neg end.
Proof.
  unfold dec_to_dbl. destruct (d =? 0); [reflexivity|].
  destruct (0 <=? k); apply round_pos_neg.
Qed.

Lemma rne_exact n d : 0 < d -> rne (n * d) d = n.
Proof.
  intros Hd. unfold rne. rewrite Z.mod_mul, Z.div_mul by lia.
  destruct (Z.ltb_spec (2 * 0) d); [reflexivity|lia].
Qed.

Lemma Mag_pow2 m e : 0 < m ->
  Mag (fst (scale2 m 1 e)) (snd (scale2 m 1 e)) (Z.log2 m + e).
Proof.
  intros Hm. pose proof (Z.log2_spec m Hm) as L. pose proof (Z.log2_nonneg m) as Nn.
  unfold Z.succ in L. 
  unfold scale2. destruct (Z.leb_spec 0 e); cbn [fst snd].
  - apply (Mag_one _ _ _ 0); [lia..|]. rewrite Z.add_0_l.
    rewrite Z.pow_0_r. replace (Z.log2 m + e + 1) with (Z.log2 m + 1 + e) by lia.
    rewrite !(Z.pow_add_r 2 _ e) by lia. pose proof (pow2_pos e ltac:(lia)). nia.
  - rewrite Z.mul_1_l. apply (Mag_one _ _ _ (- e)); [apply pow2_pos; lia|lia|lia|].
    replace (- e + (Z.log2 m + e)) with (Z.log2 m) by lia.
    pose proof (pow2_pos (- e) ltac:(lia)). nia.
Qed.

Lemma round_pos_exact neg m e :
  canon (DFin neg m e) = true -> 0 < m ->
  round_pos neg (fst (scale2 m 1 e)) (snd (scale2 m 1 e)) = DFin neg m e.
Proof.
  intros Hc Hm. unfold canon in Hc.
  assert (Hb : m < two53 /\ emin <= e <= emax /\ (two52 <= m \/ e = emin)) by lia. clear Hc.
  destruct Hb as (Hm3 & He & Hn).
  assert (Hmag : mag2 (fst (scale2 m 1 e)) (snd (scale2 m 1 e)) = Z.log2 m + e).
  { apply (Mag_unique (fst (scale2 m 1 e)) (snd (scale2 m 1 e))).
    - apply scale2_snd_pos. lia.
    - apply mag2_spec; [|apply scale2_snd_pos; lia].
      unfold scale2. destruct (Z.leb_spec 0 e); cbn [fst]; [|assumption].
      pose proof (pow2_pos e ltac:(lia)). nia.
    - now apply Mag_pow2. }
  assert (Hlog : Z.log2 m <= 52).
  { assert (Z.log2 m < 53); [|lia]. apply Z.log2_lt_pow2; [lia|].
    change (2 ^ 53) with two53. lia. }
  assert (He2 : Z.max (mag2 (fst (scale2 m 1 e)) (snd (scale2 m 1 e)) - 52) emin = e).
  { rewrite Hmag. destruct Hn as [Hn|Hn]; [|lia].
    assert (52 <= Z.log2 m); [|lia].
    change 52 with (Z.log2 two52). now apply Z.log2_le_mono. }
  unfold round_pos. rewrite He2.
  assert (Hs : exists d, 0 < d /\ scale2 (fst (scale2 m 1 e)) (snd (scale2 m 1 e)) (- e) = (m * d, d)).
  { unfold scale2. destruct (Z.leb_spec 0 e) as [H|H]; cbn [fst snd].
    - destruct (Z.leb_spec 0 (- e)).
      + assert (e = 0) as -> by lia. exists 1. split; [lia|].
        change (2 ^ - 0) with 1. change (2 ^ 0) with 1. f_equal; ring.
      + exists (2 ^ e). split; [apply pow2_pos; lia|]. replace (- - e) with e by lia. f_equal; ring.
    - destruct (Z.leb_spec 0 (- e)); [|lia].
      exists (2 ^ (- e)). split; [apply pow2_pos; lia|]. f_equal; ring. }
  destruct Hs as (d & Hd & ->). rewrite rne_exact by assumption.
  destruct (Z.eqb_spec m two53); [lia|].
  destruct (Z.ltb_spec emax e); [lia|reflexivity].
Qed.

(** the fallback of [repr_dec] is exact *)
Lemma repr_exact_reads m e : canon (DFin false m e) = true -> 0 < m ->
  (let '(d, k) := if 0 <=? e then (m * 2 ^ e, 0) else (m * 5 ^ (- e), e) in
   0 < d /\ dec_to_dbl false d k = DFin false m e).
Proof.
  intros Hc Hm. pose proof (round_pos_exact false m e Hc Hm) as R. unfold scale2 in R.
  destruct (Z.leb_spec 0 e) as [H|H]; cbn [fst snd] in R.
  - pose proof (pow2_pos e H). split; [nia|]. unfold dec_to_dbl.
    destruct (Z.eqb_spec (m * 2 ^ e) 0); [nia|]. change (0 <=? 0) with true. cbv iota.
    rewrite Z.pow_0_r, Z.mul_1_r. exact R.
  - assert (0 < 5 ^ (- e)) by (apply Z.pow_pos_nonneg; lia). split; [nia|]. unfold dec_to_dbl.
    destruct (Z.eqb_spec (m * 5 ^ (- e)) 0); [nia|].
    destruct (Z.leb_spec 0 e); [lia|].
    replace (10 ^ (- e)) with (2 ^ (- e) * 5 ^ (- e)).
    2:{ rewrite <- Z.pow_mul_l. reflexivity. }
    rewrite round_pos_scale; [|assumption|apply pow2_pos; lia|assumption].
    rewrite Z.mul_1_l in R. exact R.
Qed.

Lemma dbl_same_eq f g : dbl_same f g = true -> f = g.
Proof.
  destruct f as [a m e|a], g as [b n k|b]; cbn; try discriminate.
  - intros H. apply andb_prop in H as [H H3]. apply andb_prop in H as [H1 H2].
    apply eqb_prop in H1. apply Z.eqb_eq in H2. apply Z.eqb_eq in H3. now subst.
  - intros H. apply eqb_prop in H. now subst.
Qed.

Lemma repr_try_reads m e n d k : 0 < m ->
  repr_try m e n = Some (d, k) -> 0 < d /\ dec_to_dbl false d k = DFin false m e.
Proof.
  intros Hm. unfold repr_try. destruct (dbl_ratio m e) as [p q] eqn:Er.
  assert (Hp : 0 < p /\ 0 < q).
  { unfold dbl_ratio, scale2 in Er. destruct (Z.leb_spec 0 e); pose proof (f_equal fst Er) as Ep; pose proof (f_equal snd Er) as Eq; cbn [fst snd] in Ep, Eq; subst p q.
    - pose proof (pow2_pos e ltac:(lia)). split; [|lia]. now apply Z.mul_pos_pos.
    - pose proof (pow2_pos (- e) ltac:(lia)). split; [lia|]. now rewrite Z.mul_1_l. }
  set (k0 := dexp p q - n).
  set (ab := if 0 <=? k0 then _ else _).
  assert (Hab : 0 < fst ab /\ 0 < snd ab).
  { unfold ab. destruct (Z.leb_spec 0 k0); cbn [fst snd].
    - pose proof (pow10_pos k0 ltac:(lia)). split; [lia|]. apply Z.mul_pos_pos; lia.
    - pose proof (pow10_pos (- k0) ltac:(lia)). split; [|lia]. apply Z.mul_pos_pos; lia. }
  destruct ab as [a b]; cbn [fst snd] in Hab.
  assert (Hlo : 0 <= a / b) by (apply Z.div_pos; lia).
  set (lo := a / b) in *. cbv zeta.
  assert (G : forall x, 0 <= x -> dbl_same (dec_to_dbl false x k0) (DFin false m e) = true ->
     0 < x /\ dec_to_dbl false x k0 = DFin false m e).
  { intros x Hx H. apply dbl_same_eq in H. split; [|assumption].
    destruct (Z.eq_dec x 0) as [->|]; [|lia]. unfold dec_to_dbl in H. cbn in H.
    unfold dzero in H. injection H as H1 H2. lia. }
  destruct (dbl_same (dec_to_dbl false lo k0) _) eqn:E1;
    destruct (dbl_same (dec_to_dbl false (lo + 1) k0) _) eqn:E2; cbn [andb].
  - destruct (2 * (a mod b) <=? b); intros [= <- <-]; apply G; auto; lia.
  - intros [= <- <-]; apply G; auto.
  - intros [= <- <-]; apply G; auto; lia.
  - discriminate.
Qed.

Lemma repr_dec_reads m e : canon (DFin false m e) = true -> 0 < m ->
  let '(d, k) := repr_dec m e in 0 < d /\ dec_to_dbl false d k = DFin false m e.
Proof.
  intros Hc Hm. unfold repr_dec.
  assert (G : forall fuel n d k, repr_search fuel m e n = Some (d, k) ->
     0 < d /\ dec_to_dbl false d k = DFin false m e).
  { induction fuel as [|fuel IH]; intros n d k; [discriminate|]. cbn [repr_search].
    destruct (repr_try m e n) as [[d' k']|] eqn:E.
    - intros [= <- <-]. eapply repr_try_reads; eauto.
    - apply IH. }
  destruct (repr_search 17 m e 1) as [[d k]|] eqn:E.
  - eapply G; eauto.
  - apply repr_exact_reads; assumption.
Qed.

Lemma strip10_reads fuel : forall d k d' k',
  0 < d -> strip10 fuel d k = (d', k') -> 0 < d' /\ dec_to_dbl false d' k' = dec_to_dbl false d k.
Proof.
  induction fuel as [|fuel IH]; intros d k d' k' Hd; cbn [strip10].
  - intros [= <- <-]. auto.
  - destruct (Z.eqb_spec (d mod 10) 0) as [E|E].
    + intros H. assert (Hd10 : d = d / 10 * 10 ^ 1).
      { rewrite Z.pow_1_r. pose proof (Z.div_mod d 10). lia. }
      assert (Hpos : 0 < d / 10) by (pose proof (Z.div_mod d 10); lia).
      apply IH in H as [H1 H2]; [|assumption]. split; [assumption|].
      rewrite H2. rewrite Hd10 at 2. rewrite dec_to_dbl_shift by lia. reflexivity.
    + intros [= <- <-]. auto.
Qed.

(** ** Number words *)
Lemma span_digits_all s : forallb ascii_digit s = true -> span is_digit s = (s, []).
Proof. intros H. apply span_all_nil. revert H. apply forallb_imp, ascii_digit_is. Qed.
Lemma span_digits_dot s r : forallb ascii_digit s = true -> span is_digit (s ++ 46%N :: r) = (s, 46%N :: r).
Proof. intros H. apply span_all; [|reflexivity]. revert H. apply forallb_imp, ascii_digit_is. Qed.

Lemma sign_any_digits neg c s : ascii_digit c = true ->
  sign_any (sgn_str neg ++ c :: s) = (neg, c :: s).
Proof.
  intros H. destruct neg; cbn [sgn_str app sign_any].
  - reflexivity.
  - destruct (N.eqb_spec c 43) as [->|]; [discriminate|].
    destruct (N.eqb_spec c 45) as [->|]; [discriminate|]. reflexivity.
Qed.
Lemma sign_minus_digits neg c s : ascii_digit c = true ->
  sign_minus (sgn_str neg ++ c :: s) = (neg, c :: s).
Proof.
  intros H. destruct neg; cbn [sgn_str app sign_minus].
  - reflexivity.
  - destruct (N.eqb_spec c 45) as [->|]; [discriminate|]. reflexivity.
Qed.

Lemma wnum_int neg ds : forallb ascii_digit ds = true -> ds <> [] ->
  wnum (sgn_str neg ++ ds) = Some (num_val neg ds []).
Proof.
  intros Hd Hn. destruct ds as [|c ds]; [contradiction|].
  assert (Hc : ascii_digit c = true) by (cbn [forallb] in Hd; now apply andb_prop in Hd).
  unfold wnum, wdec, wint. rewrite sign_any_digits, sign_minus_digits by assumption.
  rewrite (span_digits_all _ Hd). reflexivity.
Qed.

Lemma wnum_dec neg ip fp :
  forallb ascii_digit ip = true -> forallb ascii_digit fp = true -> ip <> [] -> fp <> [] ->
  wnum (sgn_str neg ++ ip ++ 46%N :: fp) = Some (num_val neg ip fp).
Proof.
  intros Hi Hf Ni Nf. destruct ip as [|c ip]; [contradiction|].
  assert (Hc : ascii_digit c = true) by (cbn [forallb] in Hi; now apply andb_prop in Hi).
  unfold wnum, wdec. 
  change ((c :: ip) ++ 46%N :: fp) with (c :: (ip ++ 46%N :: fp)).
  rewrite sign_any_digits by assumption.
  change (c :: (ip ++ 46%N :: fp)) with ((c :: ip) ++ 46%N :: fp).
  rewrite (span_digits_dot _ _ Hi). cbv iota beta. change (N.eqb 46 46) with true. cbv iota.
  rewrite (span_digits_all _ Hf). destruct fp; [contradiction|reflexivity].
Qed.

Lemma num_word_chars neg ip fp :
  forallb ascii_digit ip = true -> forallb ascii_digit fp = true ->
  forallb word_char (sgn_str neg ++ ip ++ 46%N :: fp) = true.
Proof.
  intros Hi Hf. rewrite !forallb_app. cbn [forallb].
  rewrite (forallb_imp _ _ _ ascii_digit_word Hi), (forallb_imp _ _ _ ascii_digit_word Hf).
  now destruct neg.
Qed.

(** ** Integers *)
Lemma int_reads z : 0 <= z <= two53 -> forall neg,
  let f := dec_to_dbl neg z 0 in is_integer f = true /\ to_int f = if neg then - z else z.
Proof.
  intros Hz neg. cbv zeta. unfold dec_to_dbl. destruct (Z.eqb_spec z 0) as [->|Hz0].
  { destruct neg; split; reflexivity. }
  change (0 <=? 0) with true. cbv iota. rewrite Z.pow_0_r, Z.mul_1_r.
  destruct (Z.eq_dec z two53) as [->|Hne]; [destruct neg; split; vm_compute; reflexivity|].
  (* z = (z * 2^(52 - log2 z)) * 2^(log2 z - 52), canonical *)
  set (l := Z.log2 z). assert (Hl : 0 <= l <= 52).
  { split; [apply Z.log2_nonneg|]. assert (l < 53); [|lia].
    apply Z.log2_lt_pow2; [lia|]. change (2 ^ 53) with two53. lia. }
  pose proof (Z.log2_spec z ltac:(lia)) as Ls. fold l in Ls.
  set (j := 52 - l). assert (Hj : 0 <= j <= 52) by (unfold j; lia).
  pose proof (pow2_pos j ltac:(lia)) as Pj.
  assert (Hm : two52 <= z * 2 ^ j < two53).
  { split.
    - change two52 with (2 ^ 52). replace 52 with (l + j) by (unfold j; lia).
      rewrite Z.pow_add_r by lia. nia.
    - change two53 with (2 ^ 53). replace 53 with (Z.succ l + j) by (unfold j; lia).
      rewrite Z.pow_add_r by lia. nia. }
  assert (Hc : canon (DFin neg (z * 2 ^ j) (- j)) = true).
  { unfold canon, emin, emax. lia. }
  pose proof (round_pos_exact neg (z * 2 ^ j) (- j) Hc ltac:(nia)) as R.
  assert (E : round_pos neg z 1 = DFin neg (z * 2 ^ j) (- j)).
  { rewrite <- R. unfold scale2. destruct (Z.leb_spec 0 (- j)) as [H|H]; cbn [fst snd].
    - assert (j = 0) as -> by lia. f_equal. cbn. lia.
    - replace (- - j) with j by lia. rewrite round_pos_scale; [reflexivity|lia..]. }
  rewrite E. unfold is_integer, to_int. destruct (Z.leb_spec 0 (- j)) as [H|H].
  - assert (j = 0) as -> by lia. split; [reflexivity|]. cbn. rewrite !Z.mul_1_r. reflexivity.
  - replace (- - j) with j by lia. rewrite Z.mod_mul, Z.div_mul by lia. split; reflexivity.
Qed.

Lemma int_ok_small z : Z.abs z <= two53 -> int_ok z = true.
Proof.
  intros H. unfold int_ok. destruct (int_reads (Z.abs z) ltac:(lia) (z <? 0)) as [R1 R2].
  destruct (dec_to_dbl (z <? 0) (Z.abs z) 0); [|discriminate].
  rewrite R2. destruct (Z.ltb_spec z 0); lia.
Qed.

Lemma rne_one n : rne n 1 = n.
Proof. rewrite <- (Z.mul_1_r n) at 1. apply rne_exact. lia. Qed.

Lemma mag2_one p : 0 < p -> mag2 p 1 = Z.log2 p.
Proof.
  intros Hp. apply (Mag_unique p 1); [lia|apply mag2_spec; lia|].
  pose proof (Z.log2_spec p Hp) as L. pose proof (Z.log2_nonneg p).
  apply (Mag_one _ _ _ 0); [lia..|]. rewrite Z.add_0_l, Z.pow_0_r. unfold Z.succ in L. lia.
Qed.

Lemma dec_int_integer neg a : 0 <= a ->
  match dec_to_dbl neg a 0 with DInf _ => True | f => is_integer f = true end.
Proof.
  intros Ha. unfold dec_to_dbl. destruct (Z.eqb_spec a 0) as [->|Ha0]; [reflexivity|].
  change (0 <=? 0) with true. cbv iota. rewrite Z.pow_0_r, Z.mul_1_r.
  unfold round_pos. rewrite mag2_one by lia.
  pose proof (Z.log2_nonneg a) as Nl. pose proof (Z.log2_spec a ltac:(lia)) as L.
  set (e := Z.max _ _). destruct (Z.leb_spec 0 e) as [He|He].
  - destruct (scale2 a 1 (- e)) as [x y]. set (m := rne x y).
    destruct (m =? two53); cbv iota beta;
      (destruct (emax <? _); [exact I|]); cbn [is_integer];
      (destruct (Z.leb_spec 0 (e + 1)) || idtac); try reflexivity; try lia;
      destruct (Z.leb_spec 0 e); try reflexivity; lia.
  - assert (He2 : e = Z.log2 a - 52) by (unfold e, emin in *; lia).
    unfold scale2. destruct (Z.leb_spec 0 (- e)); [|lia]. rewrite rne_one.
    assert (Hm : a * 2 ^ (- e) < two53).
    { change two53 with (2 ^ 53). replace 53 with (Z.succ (Z.log2 a) + - e) by lia.
      rewrite Z.pow_add_r by lia. pose proof (pow2_pos (- e) ltac:(lia)). nia. }
    destruct (Z.eqb_spec (a * 2 ^ (- e)) two53); [lia|].
    destruct (emax <? e); [exact I|]. cbn [is_integer].
    destruct (Z.leb_spec 0 e); [lia|]. rewrite Z.mod_mul; [reflexivity|].
    pose proof (pow2_pos (- e) ltac:(lia)). lia.
Qed.

Lemma int_str_wnum z : int_ok z = true ->
  wnum (int_str z) = Some (VInt z) /\ forallb word_char (int_str z) = true.
Proof.
  unfold int_ok. intros H.
  set (neg := z <? 0) in *. set (a := Z.abs z) in *.
  assert (E : int_str z = sgn_str neg ++ digits a).
  { unfold int_str, neg, a. destruct (Z.ltb_spec z 0); cbn [sgn_str app]; do 2 f_equal; lia. }
  rewrite E. destruct (digits_spec a) as (E1 & E2 & E3); [lia|]. split.
  - rewrite wnum_int by assumption. unfold num_val, read_float.
    rewrite app_nil_r, E1. change (- Z.of_nat (length [])) with 0.
    pose proof (dec_int_integer neg a) as I.
    destruct (dec_to_dbl neg a 0) as [n m e|n]; [|discriminate].
    rewrite I by lia. apply Z.eqb_eq in H. now rewrite H.
  - rewrite forallb_app, (forallb_imp _ _ _ ascii_digit_word E2). now destruct neg.
Qed.

(** ** Floats *)
Lemma firstn_forallb {A} (f : A -> bool) n l : forallb f l = true -> forallb f (firstn n l) = true.
Proof. intros H. rewrite <- (firstn_skipn n l), forallb_app in H. now apply andb_prop in H. Qed.
Lemma skipn_forallb {A} (f : A -> bool) n l : forallb f l = true -> forallb f (skipn n l) = true.
Proof. intros H. rewrite <- (firstn_skipn n l), forallb_app in H. now apply andb_prop in H. Qed.

Lemma dec_str_reads neg d k : 0 < d ->
  (let decpt := Z.of_nat (length (digits d)) + k in (-4 <? decpt) && (decpt <=? 16) = true) ->
  exists ip fp, sgn_str neg ++ dec_str d k = sgn_str neg ++ ip ++ 46%N :: fp /\
    forallb ascii_digit ip = true /\ forallb ascii_digit fp = true /\ ip <> [] /\ fp <> [] /\
    read_float neg ip fp = dec_to_dbl neg d k.
Proof.
  intros Hd Hr. cbv zeta in Hr. unfold dec_str.
  destruct (digits_spec d) as (E1 & E2 & E3); [lia|].
  set (ds := digits d) in *. set (n := Z.of_nat (length ds)) in *.
  assert (Hn : 0 < n) by (unfold n; destruct ds; [contradiction|cbn [length]; lia]).
  rewrite Hr. clear Hr. set (decpt := n + k).
  destruct (Z.leb_spec decpt 0) as [Hp|Hp].
  - exists [48%N], (zeros (- decpt) ++ ds). repeat split.
    + rewrite forallb_app, E2, zeros_digit. reflexivity.
    + discriminate.
    + intros E. apply app_eq_nil in E as [_ E]. contradiction.
    + unfold read_float. cbn [app].
      change (48%N :: zeros (- decpt) ++ ds) with (zeros 1 ++ (zeros (- decpt) ++ ds)).
      rewrite digits_val_app, zeros_val, digits_val_app, zeros_val, E1.
      rewrite app_length, Nat2Z.inj_add, zeros_len by lia. fold n. unfold decpt.
      f_equal; lia.
  - destruct (Z.leb_spec n decpt) as [Hq|Hq].
    + exists (ds ++ zeros (decpt - n)), [48%N]. repeat split.
      * now rewrite <- app_assoc.
      * rewrite forallb_app, E2, zeros_digit. reflexivity.
      * intros E. apply app_eq_nil in E as [E _]. contradiction.
      * discriminate.
      * unfold read_float. change [48%N] with (zeros 1) at 1.
        rewrite !digits_val_app, !zeros_val, E1, zeros_len by lia.
        change (Z.of_nat (length (zeros 1))) with 1. change (Z.of_nat (length [48%N])) with 1.
        rewrite !Z.add_0_r, <- Z.mul_assoc, <- Z.pow_add_r by lia.
        rewrite dec_to_dbl_shift by (unfold decpt; lia). f_equal. unfold decpt. lia.
    + set (cut := Z.to_nat decpt).
      assert (Hcut : (0 < cut < length ds)%nat) by (unfold cut, n in *; lia).
      exists (firstn cut ds), (skipn cut ds). repeat split.
      * now apply firstn_forallb.
      * now apply skipn_forallb.
      * intros E. apply (f_equal (@length N)) in E. rewrite firstn_length in E. cbn [length] in E. lia.
      * intros E. apply (f_equal (@length N)) in E. rewrite skipn_length in E. cbn [length] in E. lia.
      * unfold read_float. rewrite firstn_skipn, E1, skipn_length. f_equal. unfold cut, n, decpt in *. lia.
Qed.

Definition norm_float (f : dbl) : val := if is_integer f then VInt (to_int f) else VFloat f.

Lemma float_str_wnum f : canon f = true -> positional f = true ->
  wnum (float_str f) = Some (norm_float f) /\ forallb word_char (float_str f) = true.
Proof.
  destruct f as [neg m e|neg]; [|discriminate]. intros Hc Hp.
  unfold positional in Hp. unfold float_str.
  destruct (Z.eqb_spec m 0) as [->|Hm].
  { assert (e = emin) as ->.
    { unfold canon in Hc. unfold two52 in Hc. lia. }
    destruct neg; split; vm_compute; reflexivity. }
  assert (Hm0 : 0 < m) by (unfold canon in Hc; lia).
  assert (Hcf : canon (DFin false m e) = true) by exact Hc.
  pose proof (repr_dec_reads m e Hcf Hm0) as R. destruct (repr_dec m e) as [d k].
  destruct R as [Hd R]. destruct (strip10 400 d k) as [d' k'] eqn:Es.
  destruct (strip10_reads _ _ _ _ _ Hd Es) as [Hd' R'].
  destruct (dec_str_reads neg d' k' Hd' Hp) as (ip & fp & E & Hi & Hf & Ni & Nf & Hread).
  rewrite E. split; [|now apply num_word_chars].
  rewrite wnum_dec by assumption. unfold num_val. rewrite Hread.
  rewrite dec_to_dbl_neg, R', R. reflexivity.
Qed.

(** Exponent notation (and inf) is not a number for the tokeniser. *)
Lemma wdec_chars w n i f : wdec w = Some (n, i, f) -> forall c, In c w -> is_digit c = true \/ c = 43%N \/ c = 45%N \/ c = 46%N.
Proof.
  unfold wdec. intros H c Hin.
  assert (Hs : exists w1, snd (sign_any w) = w1 /\ (In c w1 \/ c = 43%N \/ c = 45%N)).
  { eexists. split; [reflexivity|]. destruct w as [|x w]; [contradiction|]. cbn [sign_any].
    destruct (N.eqb_spec x 43); [cbn in *; intuition congruence|].
    destruct (N.eqb_spec x 45); cbn in *; intuition congruence. }
  destruct Hs as (w1 & E1 & Hc). destruct (sign_any w) as [neg w1']; cbn [snd] in E1. subst w1'.
  destruct Hc as [Hc|Hc]; [|tauto].
  assert (Hd : forall s x, In x (fst (span is_digit s)) -> is_digit x = true).
  { induction s as [|y s IH]; cbn [span]; [contradiction|]. intros x.
    destruct (is_digit y) eqn:Ey; [|contradiction]. specialize (IH x).
    destruct (span is_digit s); cbn in *. intros [<-|]; auto. }
  pose proof (span_app is_digit w1) as A1. pose proof (Hd w1) as D1.
  destruct (span is_digit w1) as [ip w2]; cbn [fst snd] in *.
  destruct ip as [|i0 ip]; [discriminate|]. destruct w2 as [|d w2]; [discriminate|].
  destruct (N.eqb_spec d 46); [|discriminate].
  pose proof (span_app is_digit w2) as A2. pose proof (Hd w2) as D2.
  destruct (span is_digit w2) as [fp w3]; cbn [fst snd] in *.
  destruct fp as [|f0 fp]; [discriminate|]. destruct w3; [|discriminate].
  rewrite app_nil_r in A2. rewrite <- A1 in Hc. apply in_app_or in Hc as [Hc|Hc]; [auto|].
  destruct Hc as [<-|Hc]; [tauto|]. rewrite <- A2 in Hc. auto.
Qed.
Lemma wint_chars w n i : wint w = Some (n, i) -> forall c, In c w -> is_digit c = true \/ c = 45%N.
Proof.
  unfold wint. intros H c Hin.
  assert (Hs : exists w1, snd (sign_minus w) = w1 /\ (In c w1 \/ c = 45%N)).
  { eexists. split; [reflexivity|]. destruct w as [|x w]; [contradiction|]. cbn [sign_minus].
    destruct (N.eqb_spec x 45); cbn in *; intuition congruence. }
  destruct Hs as (w1 & E1 & Hc). destruct (sign_minus w) as [neg w1']; cbn [snd] in E1. subst w1'.
  destruct Hc as [Hc|Hc]; [|tauto].
  assert (Hd : forall s x, In x (fst (span is_digit s)) -> is_digit x = true).
  { induction s as [|y s IH]; cbn [span]; [contradiction|]. intros x.
    destruct (is_digit y) eqn:Ey; [|contradiction]. specialize (IH x).
    destruct (span is_digit s); cbn in *. intros [<-|]; auto. }
  pose proof (span_app is_digit w1) as A1. pose proof (Hd w1) as D1.
  destruct (span is_digit w1) as [ip w2]; cbn [fst snd] in *.
  destruct ip as [|i0 ip]; [discriminate|]. destruct w2 as [|d w2]; [|discriminate].
  rewrite app_nil_r in A1. subst. auto.
Qed.

Lemma wnum_none w c : In c w -> is_digit c = false -> c <> 43%N -> c <> 45%N -> c <> 46%N -> wnum w = None.
Proof.
  intros Hin Hd H1 H2 H3. unfold wnum.
  destruct (wdec w) as [[[n i] f]|] eqn:E.
  { destruct (wdec_chars _ _ _ _ E c Hin) as [|[|[|]]]; congruence. }
  destruct (wint w) as [[n i]|] eqn:E2; [|reflexivity].
  destruct (wint_chars _ _ _ E2 c Hin) as [|]; congruence.
Qed.

Lemma exp_word neg mant (b : bool) tail c0 mr :
  mant = c0 :: mr -> ascii_digit c0 = true -> forallb word_char mant = true ->
  forallb word_char tail = true ->
  wordb (sgn_str neg ++ mant ++ [101%N; if b then 45%N else 43%N] ++ tail) = true.
Proof.
  intros Emr Hc0 Hmant Ht.
  set (w := sgn_str neg ++ mant ++ [101%N; if b then 45%N else 43%N] ++ tail).
  assert (Hw : forallb word_char w = true).
  { unfold w. rewrite !forallb_app. rewrite Hmant, Ht. destruct neg, b; reflexivity. }
  assert (Hin : In 101%N w).
  { unfold w. apply in_or_app. right. apply in_or_app. right. apply in_or_app. left. now left. }
  assert (Hn : wnum w = None) by (apply (wnum_none w 101%N); [assumption|reflexivity|discriminate..]).
  unfold wordb. assert (Hq : exists h t, w = h :: t /\ N.eqb h dquote = false).
  { unfold w. destruct neg; cbn [sgn_str app]; [do 2 eexists; split; reflexivity|].
    rewrite Emr. cbn [app]. do 2 eexists; split; [reflexivity|].
    unfold ascii_digit in Hc0. unfold dquote. lia. }
  destruct Hq as (h & t & Ew & Hh). rewrite Ew in *. rewrite Hh, Hw, Hn. reflexivity.
Qed.

Lemma float_str_exp f : canon f = true -> positional f = false -> wordb (float_str f) = true.
Proof.
  destruct f as [neg m e|neg]; [|discriminate]. intros Hc Hp.
  unfold positional in Hp. unfold float_str.
  destruct (Z.eqb_spec m 0) as [->|Hm]; [discriminate|].
  assert (Hm0 : 0 < m) by (unfold canon in Hc; lia).
  assert (Hcf : canon (DFin false m e) = true) by exact Hc.
  pose proof (repr_dec_reads m e Hcf Hm0) as R. destruct (repr_dec m e) as [d k].
  destruct R as [Hd R]. destruct (strip10 400 d k) as [d' k'] eqn:Es.
  destruct (strip10_reads _ _ _ _ _ Hd Es) as [Hd' R'].
  unfold dec_str. destruct (digits_spec d') as (E1 & E2 & E3); [lia|].
  set (ds := digits d') in *. rewrite Hp. cbv zeta.
  destruct (digits_spec (Z.abs (Z.of_nat (length ds) + k' - 1))) as (F1 & F2 & F3); [lia|].
  set (x := Z.of_nat (length ds) + k' - 1) in *.
  set (ax := digits (Z.abs x)) in *.
  clearbody ds ax.
  set (tail := if Z.of_nat (length ax) <? 2 then 48%N :: ax else ax).
  assert (Ht : forallb word_char tail = true).
  { unfold tail. pose proof (forallb_imp _ _ _ ascii_digit_word F2) as Hax.
    destruct (Z.of_nat (length ax) <? 2); [|exact Hax]. cbn [forallb]. rewrite Hax. reflexivity. }
  destruct ds as [|c0 ds]; [contradiction|].
  pose proof (forallb_imp _ _ _ ascii_digit_word E2) as Hds.
  assert (Hc0 : ascii_digit c0 = true) by (cbn [forallb] in E2; apply andb_prop in E2; exact (proj1 E2)).
  set (mant := match c0 :: ds with c :: _ :: _ => c :: 46%N :: tl (c0 :: ds) | _ => c0 :: ds end).
  assert (Hmant : forallb word_char mant = true /\ exists r, mant = c0 :: r).
  { unfold mant. destruct ds as [|c1 ds]; [split; [exact Hds|eauto]|].
    split; [|eauto]. cbn [forallb tl] in *. apply andb_prop in Hds as [-> Hds]. now rewrite Hds. }
  destruct Hmant as [Hmant [mr Emr]].
  apply (exp_word neg mant (x <? 0) tail c0 mr); assumption.
Qed.

(** ** Normalisation *)
Lemma to_int_ok f : canon f = true -> is_integer f = true -> int_ok (to_int f) = true.
Proof.
  destruct f as [neg m e|]; [|discriminate]. intros Hc Hi.
  destruct (Z.eq_dec m 0) as [->|Hm].
  { cbn [to_int]. destruct (0 <=? e); rewrite ?Z.mul_0_l, ?Z.div_0_l by
      (pose proof (pow2_pos (- e)); lia); destruct neg; reflexivity. }
  assert (Hm0 : 0 < m) by (unfold canon in Hc; lia).
  assert (E : exists a, 0 < a /\ to_int (DFin neg m e) = (if neg then - a else a)
            /\ forall n, round_pos n a 1 = DFin n m e).
  { assert (R : forall n, round_pos n (fst (scale2 m 1 e)) (snd (scale2 m 1 e)) = DFin n m e)
      by (intros n; apply round_pos_exact; [exact Hc|assumption]).
    unfold is_integer in Hi. unfold to_int, scale2 in *. destruct (Z.leb_spec 0 e) as [He|He]; cbn [fst snd] in R.
    - exists (m * 2 ^ e). pose proof (pow2_pos e He). split; [nia|]. split; [reflexivity|exact R].
    - pose proof (pow2_pos (- e) ltac:(lia)) as P. set (c := 2 ^ (- e)) in *.
      apply Z.eqb_eq in Hi. pose proof (Z.div_mod m c ltac:(lia)) as D. rewrite Hi, Z.add_0_r in D.
      exists (m / c). assert (0 < m / c) by nia. split; [assumption|]. split; [reflexivity|].
      intros n. rewrite <- (R n). rewrite D at 2. rewrite (Z.mul_comm c). symmetry. apply round_pos_scale; lia. }
  destruct E as (a & Ha & Et & R). unfold int_ok. rewrite Et.
  unfold dec_to_dbl. destruct (Z.eqb_spec (Z.abs (if neg then - a else a)) 0); [destruct neg; lia|].
  change (0 <=? 0) with true. cbv iota. rewrite Z.pow_0_r, Z.mul_1_r.
  replace (Z.abs (if neg then - a else a)) with a by (destruct neg; lia).
  replace ((if neg then - a else a) <? 0) with neg by (destruct neg; lia).
  rewrite R, Et. apply Z.eqb_refl.
Qed.

Lemma numb_nrm v : numb v = true -> numb (nrm v) = true.
Proof.
  destruct v; cbn [nrm]; auto. intros H. destruct (is_integer f) eqn:E; [|exact H].
  cbn [numb] in *. apply andb_prop in H as [H _]. now apply to_int_ok.
Qed.
Lemma nrm_idem v : nrm (nrm v) = nrm v.
Proof. destruct v; cbn [nrm]; auto. destruct (is_integer f) eqn:E; cbn [nrm]; [reflexivity|]. now rewrite E. Qed.
Lemma nrm_none v : is_none (nrm v) = is_none v.
Proof. destruct v; cbn [nrm]; auto. now destruct (is_integer f). Qed.
Lemma nrm_txt v : txtb v = true -> nrm v = v.
Proof. now destruct v. Qed.
Lemma nrm_word v : wordv v = true -> nrm v = v.
Proof. now destruct v. Qed.
Lemma nrm_str s : nrm (VStr s) = VStr s. Proof. reflexivity. Qed.

(** [nrm v == v] in Python. *)
Lemma nrm_py_eq v : canon (match v with VFloat f => f | _ => DFin false 0 emin end) = true ->
  match v with VList _ => True | _ => py_eqb (nrm v) v = true end.
Proof.
  intros Hc. destruct v; cbn [nrm]; auto.
  - cbn. now destruct b.
  - cbn. apply Z.eqb_refl.
  - destruct (is_integer f) eqn:E.
    + cbn [py_eqb]. destruct f as [n m e|]; [|discriminate]. cbn [is_integer to_int dbl_eq_Z] in *.
      destruct (Z.leb_spec 0 e).
      * destruct n; [rewrite Z.mul_opp_l|]; apply Z.eqb_refl.
      * pose proof (pow2_pos (- e) ltac:(lia)) as P. apply Z.eqb_eq in E.
        pose proof (Z.div_mod m (2 ^ (- e)) ltac:(lia)) as D. rewrite E, Z.add_0_r in D.
        apply Z.eqb_eq. destruct n; nia.
    + cbn [py_eqb]. destruct f as [n m e|n]; cbn [dbl_eqb].
      * destruct (Z.leb_spec e e); [|lia]. rewrite Z.sub_diag, Z.pow_0_r, Z.mul_1_r. apply Z.eqb_refl.
      * now destruct n.
  - cbn. induction s; cbn; [reflexivity|]. unfold str_eqb; fold str_eqb. rewrite N.eqb_refl. exact IHs.
Qed.
