(** Numbers with a fixed number of decimal places. *)
From Verif Require Import PyBase PyNum PyStr Sexpr S_Leaf S_Tree S_Fix L_Lex L_Tok L_Num L_Seq L_Tac.
Local Open Scope Z_scope.

Lemma rne_nonneg n d : 0 <= n -> 0 < d -> 0 <= rne n d.
Proof.
  intros Hn Hd. unfold rne. pose proof (Z.div_pos n d Hn Hd).
  repeat match goal with |- context [if ?b then _ else _] => destruct b end; lia.
Qed.
Lemma round_pos_nonneg neg p q n m e : 0 < p -> 0 < q -> round_pos neg p q = DFin n m e -> 0 <= m.
Proof.
  intros Hp Hq. unfold round_pos. set (k := Z.max _ _).
  assert (N : 0 <= fst (scale2 p q (- k)) /\ 0 < snd (scale2 p q (- k))).
  { split; [|now apply scale2_snd_pos]. unfold scale2. destruct (Z.leb_spec 0 (- k)); cbn [fst]; [|lia].
    pose proof (pow2_pos (- k)). nia. }
  destruct (scale2 p q (- k)) as [a b]. cbn [fst snd] in N. pose proof (rne_nonneg a b ltac:(lia) ltac:(lia)).
  destruct (rne a b =? two53); destruct (emax <? _); intros [= ]; subst; unfold two52; lia.
Qed.
Lemma dec_to_dbl_nonneg neg d k n m e : 0 <= d -> dec_to_dbl neg d k = DFin n m e -> 0 <= m.
Proof.
  intros Hd. unfold dec_to_dbl. destruct (Z.eqb_spec d 0).
  - unfold dzero. intros [= ]. lia.
  - destruct (Z.leb_spec 0 k); apply round_pos_nonneg; try lia; try (pose proof (pow10_pos k); nia); try (apply pow10_pos; lia).
Qed.
Lemma float_of_nonneg v n m e : finite v = true -> float_of v = DFin n m e -> 0 <= m.
Proof.
  destruct v; try discriminate; cbn [finite float_of]; intros H E.
  - eapply dec_to_dbl_nonneg; [|exact E]. lia.
  - subst. unfold canon in H. lia.
Qed.

Lemma fixed_str_reads neg p q prec : 0 < prec -> 0 <= p -> 0 < q ->
  wnum (fixed_str neg p q prec) = Some (nrm (VFloat (dec_to_dbl neg (rne (p * 10 ^ prec) q) (- prec))))
  /\ forallb word_char (fixed_str neg p q prec) = true.
Proof.
  intros Hp Hn Hq. unfold fixed_str. set (r := rne _ _).
  assert (Hr : 0 <= r) by (apply rne_nonneg; [pose proof (pow10_pos prec); nia|lia]).
  destruct (digits_spec r Hr) as (E1 & E2 & E3).
  set (ds := zeros (prec + 1 - Z.of_nat (length (digits r))) ++ digits r).
  assert (D : forallb ascii_digit ds = true) by (unfold ds; now rewrite forallb_app, zeros_digit, E2).
  assert (V : digits_val ds = r) by (unfold ds; rewrite digits_val_app, zeros_val, E1; lia).
  assert (L : prec + 1 <= Z.of_nat (length ds)).
  { unfold ds. rewrite app_length, Nat2Z.inj_add. destruct (Z.leb_spec 0 (prec + 1 - Z.of_nat (length (digits r)))).
    - rewrite zeros_len by assumption. lia.
    - lia. }
  destruct (Z.eqb_spec prec 0); [lia|]. set (cut := (length ds - Z.to_nat prec)%nat).
  assert (C : (0 < cut < length ds)%nat) by (unfold cut; lia).
  assert (N1 : firstn cut ds <> []) by (intros E; apply (f_equal (@length N)) in E; rewrite firstn_length in E; cbn [length] in E; lia).
  assert (N2 : skipn cut ds <> []) by (intros E; apply (f_equal (@length N)) in E; rewrite skipn_length in E; cbn [length] in E; lia).
  split.
  - rewrite wnum_dec; [|now apply firstn_forallb|now apply skipn_forallb|assumption..].
    unfold num_val, read_float. rewrite firstn_skipn, V, skipn_length.
    replace (- Z.of_nat (length ds - cut)) with (- prec) by (unfold cut; lia). reflexivity.
  - apply num_word_chars; [now apply firstn_forallb|now apply skipn_forallb].
Qed.

Lemma scale2_pos m e : 0 <= m -> 0 <= fst (dbl_ratio m e) /\ 0 < snd (dbl_ratio m e).
Proof.
  intros H. unfold dbl_ratio. split; [|apply scale2_snd_pos; lia]. unfold scale2. destruct (Z.leb_spec 0 e); cbn [fst]; [|assumption].
  pose proof (pow2_pos e). nia.
Qed.

(** whatever the number, what is read is [fixed_val] *)
Lemma Seq_fixed prec v : 0 < prec -> finite v = true ->
  exists s, fmt_fixed prec v = Ok s /\ Seq KC s KN (flat (fixed_val prec v)).
Proof.
  intros Hp H. pose proof (fun n m e => float_of_nonneg v n m e H) as P.
  assert (E : exists n m e, float_of v = DFin n m e /\ fmt_fixed prec v = let '(p, q) := dbl_ratio m e in Ok (fixed_str n p q prec)).
  { destruct v; try discriminate; cbn [finite float_of fmt_fixed] in *.
    - unfold int_ok in H. destruct (dec_to_dbl _ _ 0) as [n m e|]; [|discriminate]. now exists n, m, e.
    - destruct f as [n m e|]; [|discriminate]. now exists n, m, e. }
  destruct E as (n & m & e & E & F). pose proof (scale2_pos m e (P _ _ _ E)) as Q.
  unfold fixed_val. rewrite E, F. destruct (dbl_ratio m e) as [p q]. cbn [fst snd] in Q.
  eexists. split; [reflexivity|]. destruct (fixed_str_reads n p q prec Hp ltac:(lia) ltac:(lia)) as [W C].
  intros rest Hr. split; [reflexivity|]. rewrite flat_leaf by (now rewrite nrm_leaf). now apply lex_num.
Qed.
Lemma num_same_eq a b : num_same a b = true -> a = b.
Proof.
  destruct a, b; try discriminate; cbn; intros H; [apply Z.eqb_eq in H; now subst|apply dbl_same_eq in H; now subst].
Qed.
Lemma numb_finite v : numb v = true -> finite v = true.
Proof. destruct v; try discriminate; cbn; auto. intros H. now apply andb_prop in H. Qed.
Lemma fixb_numb prec v : fixb prec v = true -> numb v = true.
Proof. unfold fixb. intros H. now apply andb_prop in H. Qed.
Lemma Seq_fixb prec v : 0 < prec -> fixb prec v = true -> exists s, fmt_fixed prec v = Ok s /\ Seq KC s KN (flat (nrm v)).
Proof.
  unfold fixb. intros Hp H. apply andb_prop in H as [H1 H2]. apply num_same_eq in H2. rewrite <- H2.
  apply Seq_fixed; [assumption|now apply numb_finite].
Qed.

(** an int survives any number of places *)
Lemma fixed_int prec z : 0 <= prec -> int_ok z = true -> fixed_val prec (VInt z) = VInt z.
Proof.
  intros Hp H. unfold fixed_val, float_of. unfold int_ok in H.
  pose proof (dec_int_integer (z <? 0) (Z.abs z) ltac:(lia)) as I.
  pose proof (fun n m e => dec_to_dbl_nonneg (z <? 0) (Z.abs z) 0 n m e ltac:(lia)) as P.
  destruct (dec_to_dbl (z <? 0) (Z.abs z) 0) as [n m e|] eqn:E; [|discriminate].
  assert (Hn : n = (z <? 0)).
  { rewrite dec_to_dbl_neg in E. destruct (dec_to_dbl false _ 0); now inversion E. }
  specialize (P _ _ _ eq_refl). apply Z.eqb_eq in H.
  assert (R : rne (fst (dbl_ratio m e) * 10 ^ prec) (snd (dbl_ratio m e)) = Z.abs z * 10 ^ prec).
  { unfold dbl_ratio, scale2. cbn [is_integer to_int] in *. destruct (Z.leb_spec 0 e); cbn [fst snd].
    - rewrite rne_one. f_equal. pose proof (pow2_pos e). destruct n; nia.
    - rewrite Z.mul_1_l. pose proof (pow2_pos (- e) ltac:(lia)) as Q. set (c := 2 ^ (- e)) in *.
      apply Z.eqb_eq in I. pose proof (Z.div_mod m c ltac:(lia)) as D. rewrite I, Z.add_0_r in D.
      assert (0 <= m / c) by (apply Z.div_pos; lia).
      replace (m * 10 ^ prec) with (Z.abs z * 10 ^ prec * c) by (destruct n; nia). now apply rne_exact. }
  destruct (dbl_ratio m e) as [p q]. cbn [fst snd] in R. rewrite R, dec_to_dbl_shift by lia.
  replace (- prec + prec) with 0 by lia. subst n. rewrite E. unfold nrm. rewrite I. now rewrite H.
Qed.
Lemma fixb_nrm prec v : 0 <= prec -> fixb prec v = true -> fixb prec (nrm v) = true.
Proof.
  intros Hp. unfold fixb. intros H. apply andb_prop in H as [H1 H2]. rewrite (numb_nrm v H1), nrm_idem. cbn [andb].
  destruct v; try discriminate; [exact H2|]. unfold nrm in *. destruct (is_integer f) eqn:I; [|exact H2].
  change (canon f && positional f = true) in H1. apply andb_prop in H1 as [H1 _]. rewrite fixed_int; [apply Z.eqb_refl|assumption|now apply to_int_ok].
Qed.
Lemma optb_fixb_nrm prec v : 0 <= prec -> optb (fixb prec) v = true -> optb (fixb prec) (nrm v) = true.
Proof. intros H. apply optb_nrm. intros. now apply fixb_nrm. Qed.
Lemma optb_fixb_numb prec v : optb (fixb prec) v = true -> optb numb v = true.
Proof. unfold optb. destruct (is_none v); cbn; auto. apply fixb_numb. Qed.
(* [assumption] would compare the predicates by computation *)
Ltac okn_more ::=
  lazymatch goal with
  | |- fixb ?p (nrm ?v) = true => match goal with H : fixb p v = true |- _ => exact (fixb_nrm p v ltac:(discriminate) H) end
  | |- optb (fixb ?p) (nrm ?v) = true => match goal with H : optb (fixb p) v = true |- _ => exact (optb_fixb_nrm p v ltac:(discriminate) H) end
  end.
Global Arguments fixb : simpl never. Global Arguments fixed_val : simpl never.
Global Opaque fixb fixed_val.
