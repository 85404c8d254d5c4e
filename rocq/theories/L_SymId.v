(** Setting and reading the library identifier of a symbol (symbol.py:220-291). *)
From Verif Require Import PyBase PyNum PyStr PyRe Sexpr S_Leaf M_Common M_Sym S_Id S_Sym L_Lex L_Num L_Re L_Id.
Local Open Scope Z_scope.

(** ** Decimal notation *)
Lemma digits_aux_small fuel z : (0 < fuel)%nat -> 0 <= z < 10 -> digits_aux fuel z = [digit_char z].
Proof. intros Hf Hz. destruct fuel; [lia|]. cbn [digits_aux]. now rewrite (proj2 (Z.ltb_lt z 10)) by lia. Qed.
Lemma digits_aux_fuel f1 f2 z : 0 <= z -> Z.log2 z < Z.of_nat f1 -> Z.log2 z < Z.of_nat f2 -> digits_aux f1 z = digits_aux f2 z.
Proof.
  revert f2 z. induction f1 as [|f1 IH]; intros f2 z Hz H1 H2; [pose proof (Z.log2_nonneg z); lia|].
  destruct f2 as [|f2]; [pose proof (Z.log2_nonneg z); lia|]. cbn [digits_aux].
  destruct (Z.ltb_spec z 10); [reflexivity|]. f_equal.
  assert (Z.log2 (z / 10) < Z.log2 z).
  { assert (z / 10 <= z / 2) by (apply Z.div_le_compat_l; lia).
    assert (L : Z.log2 (z / 10) <= Z.log2 (z / 2)) by now apply Z.log2_le_mono.
    change 2 with (2 ^ 1) in L at 1. rewrite <- Z.shiftr_div_pow2, Z.log2_shiftr in L by lia.
    assert (Z.log2 8 <= Z.log2 z) by (apply Z.log2_le_mono; lia). change (Z.log2 8) with 3 in *. lia. }
  apply IH; [apply Z.div_pos; lia|lia|lia].
Qed.
Lemma digits_snoc a d : 0 < a -> 0 <= d < 10 -> digits (10 * a + d) = digits a ++ [digit_char d].
Proof.
  intros Ha Hd. unfold digits at 1.
  assert (E1 : (10 * a + d) / 10 = a) by (symmetry; apply (Z.div_unique_pos _ 10 a d); lia).
  assert (E2 : (10 * a + d) mod 10 = d) by (symmetry; apply (Z.mod_unique_pos _ 10 a d); lia).
  cbn [digits_aux]. rewrite (proj2 (Z.ltb_ge (10 * a + d) 10)) by lia. rewrite E1, E2. f_equal. unfold digits.
  assert (L : Z.log2 a < Z.log2 (10 * a + d)).
  { assert (Z.log2 (2 * a) <= Z.log2 (10 * a + d)) by (apply Z.log2_le_mono; lia). rewrite Z.log2_double in *; lia. }
  pose proof (Z.log2_nonneg a). apply digits_aux_fuel; lia.
Qed.
Lemma digit_char_inv c : ascii_digit c = true -> exists d, 0 <= d < 10 /\ c = digit_char d /\ digit_val c = Some d /\ (c <> 48%N -> 0 < d).
Proof.
  intros H. exists (Z.of_N c - 48). rewrite (ascii_digit_val c H). unfold ascii_digit in H. apply andb_prop in H as [H1 H2].
  apply N.leb_le in H1, H2. unfold digit_char. repeat split; try lia.
Qed.
Lemma digits_val_pos c u : ascii_digit c = true -> c <> 48%N -> forallb ascii_digit u = true -> 0 < digits_val (c :: u).
Proof.
  intros Hc Hn. destruct (digit_char_inv c Hc) as (d & Hd & _ & Ev & Hp). specialize (Hp Hn).
  change (c :: u) with ([c] ++ u). rewrite digits_val_app. unfold digits_val at 1. cbn [fold_left]. rewrite Ev.
  intros Hu. assert (0 <= digits_val u).
  { clear - Hu. induction u as [|x u IH] using rev_ind; [now cbn|]. rewrite digits_val_app.
    rewrite forallb_app in Hu. apply andb_prop in Hu as [H1 H2]. cbn in H2. rewrite andb_true_r in H2.
    destruct (digit_char_inv x H2) as (e & He & _ & Ee & _). unfold digits_val at 2. cbn [fold_left length]. rewrite Ee.
    specialize (IH H1). change (Z.of_nat 1) with 1. lia. }
  assert (0 < 10 ^ Z.of_nat (length u)) by (apply Z.pow_pos_nonneg; lia). nia.
Qed.
Lemma decimal_digits u : decimal u = true -> digits (digits_val u) = u.
Proof.
  unfold decimal. intros H. apply andb_prop in H as [H1 H2]. revert H1 H2.
  induction u as [|x u IH] using rev_ind; [discriminate|]. intros H1 H2. rewrite forallb_app in H1.
  apply andb_prop in H1 as [H1 Hx]. cbn in Hx. rewrite andb_true_r in Hx.
  destruct (digit_char_inv x Hx) as (d & Hd & -> & Ev & _).
  rewrite digits_val_app. change (Z.of_nat (length [digit_char d])) with 1. rewrite Z.pow_1_r.
  replace (digits_val [digit_char d]) with d by (unfold digits_val; cbn [fold_left]; rewrite Ev; lia).
  destruct u as [|c u].
  - cbn [app]. change (digits_val []) with 0. rewrite Z.mul_0_l, Z.add_0_l. unfold digits. apply digits_aux_small; lia.
  - assert (Hc : c <> 48%N).
    { cbn [app] in H2. destruct (u ++ [digit_char d]) eqn:E; [now destruct u|]. intros ->. discriminate. }
    assert (Hpos : 0 < digits_val (c :: u)).
    { cbn in H1. apply andb_prop in H1 as [Hc1 Hu]. now apply digits_val_pos. }
    rewrite Z.mul_comm, digits_snoc by assumption. f_equal. apply IH; [assumption|].
    destruct u; [reflexivity|]. now apply negb_true_iff, N.eqb_neq.
Qed.
Lemma digits_canonical u : u <> [] -> digits (digits_val u) = u -> decimal u = true.
Proof.
  intros Hu E. unfold decimal. destruct (Z.le_gt_cases 0 (digits_val u)) as [Hz|Hz].
  - destruct (digits_spec (digits_val u) Hz) as (_ & H2 & _). rewrite E in H2. rewrite H2. cbn [andb].
    destruct u as [|c [|d u]]; [congruence|reflexivity|]. apply negb_true_iff, N.eqb_neq. intros ->.
    assert (K : digits_val (48%N :: d :: u) = digits_val (d :: u)) by reflexivity.
    rewrite K in E. assert (L : forall v, 0 <= digits_val v -> v <> [] -> (length (digits (digits_val v)) <= length v)%nat).
    { clear. intros v Hv Hn. assert (G : forall z n, (0 < n)%nat -> 0 <= z < 10 ^ Z.of_nat n -> (length (digits z) <= n)%nat).
      { clear. intros z n Hn. revert z. induction n as [|n IH]; intros z Hz; [lia|].
        destruct (Z.ltb_spec z 10).
        - unfold digits. rewrite digits_aux_small by lia. cbn. lia.
        - pose proof (Z.div_mod z 10 ltac:(lia)) as D. pose proof (Z.mod_pos_bound z 10 ltac:(lia)).
          rewrite D. rewrite digits_snoc by lia. rewrite app_length. cbn [length].
          assert (Hn0 : (0 < n)%nat).
          { destruct n; [|lia]. change (10 ^ Z.of_nat 1) with 10 in Hz. lia. }
          specialize (IH Hn0 (z / 10)). rewrite Nat2Z.inj_succ, Z.pow_succ_r in Hz by lia. lia. }
      apply G; [destruct v; [congruence|cbn; lia]|]. split; [assumption|]. clear.
      induction v as [|x v IH] using rev_ind; [now cbn|]. rewrite digits_val_app, app_length.
      cbn [length]. change (Z.of_nat 1) with 1. replace (length v + 1)%nat with (S (length v)) by lia.
      rewrite Nat2Z.inj_succ, Z.pow_succ_r by lia. unfold digits_val at 2. cbn [fold_left].
      assert (match digit_val x with Some d => d | None => 0 end < 10); [|lia].
      { destruct (digit_val x) as [q|] eqn:Q; [|lia]. unfold digit_val in Q. clear IH. revert Q.
        generalize nd_zeros as l. induction l as [|z l IHl]; cbn [digit_in]; [discriminate|].
        destruct ((z <=? x) && (x <? z + 10))%N eqn:B; [|exact IHl]. apply andb_prop in B as [B1 B2].
        apply N.leb_le in B1. apply N.ltb_lt in B2. intros Q. injection Q as <-. lia. } }
    specialize (L (d :: u)). rewrite <- K in L at 1. rewrite E in L. cbn [length] in L. specialize (L Hz). 
    assert (S (S (length u)) <= S (length u))%nat by (apply L; discriminate). lia.
  - exfalso. assert (0 <= digits_val u); [|lia]. clear. induction u as [|x v IH] using rev_ind; [now cbn|].
    rewrite digits_val_app. unfold digits_val at 2. cbn [fold_left length]. change (Z.of_nat 1) with 1.
    assert (0 <= match digit_val x with Some d => d | None => 0 end); [|lia].
    destruct (digit_val x) as [q|] eqn:Q; [|lia]. unfold digit_val in Q. clear IH. revert Q.
    generalize nd_zeros as l. induction l as [|z l IHl]; cbn [digit_in]; [discriminate|].
    destruct ((z <=? x) && (x <? z + 10))%N eqn:B; [|exact IHl]. apply andb_prop in B as [B1 B2].
    apply N.leb_le in B1. apply N.ltb_lt in B2. intros Q. injection Q as <-. lia.
Qed.

(** ** The setter *)
Definition upd_id (o : Symbol) (nick entry unit style : val) : Symbol :=
  o <| sy_libraryNickname := nick |> <| sy_entryName := entry |> <| sy_unitId := unit |> <| sy_styleId := style |>
    <| sy_units := map (fun u => u <| sy_entryName := entry |>) (sy_units o) |>.
Lemma set_nick s n e t o : nick_form s n e t -> Symbol_set_libId (VStr s) o = Ok (upd_id o (VStr n) (VStr e) VNone VNone).
Proof.
  intros F. destruct (nick_complete _ _ _ _ F) as (m & M & G1 & G2). unfold Symbol_set_libId. cbn [as_text bind].
  rewrite M, G1, G2. reflexivity.
Qed.
Lemma set_unit s e u v t o : (forall n e t, ~ nick_form s n e t) -> unit_form s e u v t ->
  Symbol_set_libId (VStr s) o = Ok (upd_id o VNone (VStr e) (VInt (digits_val u)) (VInt (digits_val v))).
Proof.
  intros N F. apply nick_none in N. destruct (unit_complete _ _ _ _ _ F) as (m & M & G1 & G2 & G3).
  unfold Symbol_set_libId. cbn [as_text bind]. rewrite N, M, G1, G2, G3. reflexivity.
Qed.
Lemma set_plain s o : (forall n e t, ~ nick_form s n e t) -> (forall e u v t, ~ unit_form s e u v t) ->
  Symbol_set_libId (VStr s) o = Ok (upd_id o VNone (VStr s) VNone VNone).
Proof.
  intros N U. apply nick_none in N. apply unit_none in U. unfold Symbol_set_libId. cbn [as_text bind]. rewrite N, U. reflexivity.
Qed.
Lemma set_cases s : (exists n e t, nick_form s n e t)
  \/ ((forall n e t, ~ nick_form s n e t) /\ exists e u v t, unit_form s e u v t)
  \/ ((forall n e t, ~ nick_form s n e t) /\ (forall e u v t, ~ unit_form s e u v t)).
Proof.
  destruct (re_match re_nick s) as [m|] eqn:M; [left; destruct (nick_sound _ _ M); eauto|].
  pose proof (proj1 (nick_none s) M) as N. clear M. right. destruct (re_match re_unit s) as [m|] eqn:M2.
  - left. split; [assumption|]. destruct (unit_sound _ _ M2). eauto.
  - right. split; [assumption|]. now apply (proj1 (unit_none s)).
Qed.

Lemma int_str_val u : int_str (digits_val u) = digits (digits_val u).
Proof.
  unfold int_str. replace (digits_val u <? 0) with false; [reflexivity|]. symmetry. apply Z.ltb_ge.
  induction u as [|x v IH] using rev_ind; [now cbn|].
  rewrite digits_val_app. unfold digits_val at 2. cbn [fold_left length]. change (Z.of_nat 1) with 1.
  assert (0 <= match digit_val x with Some d => d | None => 0 end); [|lia].
  destruct (digit_val x) as [q|] eqn:Q; [|lia]. unfold digit_val in Q. clear IH. revert Q.
  generalize nd_zeros as l. induction l as [|z l IHl]; cbn [digit_in]; [discriminate|].
  destruct ((z <=? x) && (x <? z + 10))%N; [|exact IHl]. intros Q. injection Q as <-. lia.
Qed.
Lemma digits_inj a b c d e : a ++ $"_" ++ b ++ $"_" ++ c = a ++ $"_" ++ d ++ $"_" ++ e ->
  forallb is_digit b = true -> forallb is_digit d = true -> b = d /\ c = e.
Proof.
  intros E Hb Hd. apply app_inv_head in E. change ($"_" ++ ?r) with (95%N :: r) in E. injection E as E.
  now apply (pref_unique is_digit) in E.
Qed.
Lemma digits_are u : forallb is_digit (digits (digits_val u)) = true.
Proof.
  assert (H : 0 <= digits_val u).
  { destruct (Z.le_gt_cases 0 (digits_val u)); [assumption|]. pose proof (int_str_val u) as E. unfold int_str in E.
    rewrite (proj2 (Z.ltb_lt _ _)) in E by assumption. exfalso.
    assert (K : digits (digits_val u) = [digit_char (digits_val u)]).
    { unfold digits. cbn [digits_aux]. now rewrite (proj2 (Z.ltb_lt _ _)) by lia. }
    rewrite K in E. destruct (digits_spec (- digits_val u)) as (_ & _ & N); [lia|].
    destruct (digits (- digits_val u)); [congruence|discriminate]. }
  destruct (digits_spec _ H) as (_ & D & _). revert D. apply forallb_imp. exact ascii_digit_is.
Qed.

Lemma set_get s o : exists o', Symbol_set_libId (VStr s) o = Ok o' /\ (Symbol_libId o' = s <-> ~ lossy s).
Proof.
  destruct (set_cases s) as [(n & e & t & F)|[[N (e & u & v & t & F)]|[N U]]].
  - eexists. split; [apply (set_nick _ _ _ _ o F)|]. pose proof F as (E & Hn & He & On & Oe & C & Ft).
    unfold Symbol_libId, upd_id. cbn. destruct n as [|c n]; [congruence|]. split.
    + intros E2 [(n' & e' & F')|[N _]]; [|exact (N _ _ _ F)].
      destruct (nick_unique _ _ _ _ _ _ _ F F') as (<- & <- & ->). rewrite E in E2. cbn [app] in E2. injection E2 as E2.
      apply app_inv_head in E2. change ($":" ++ ?r) with (58%N :: r) in E2. injection E2 as E2.
      rewrite <- (app_nil_r e) in E2 at 1. apply app_inv_head in E2. discriminate.
    + intros L. rewrite E. destruct Ft as [->| ->]; [now rewrite app_nil_r|]. destruct L. left. eauto.
  - eexists. split; [apply (set_unit _ _ _ _ _ o N F)|]. pose proof F as (E & He & Oe & Hu & Du & Hv & Dv & Ft).
    unfold Symbol_libId, upd_id. cbn. rewrite !int_str_val. split.
    + intros E2 [(n' & e' & F')|[_ (e' & u' & v' & t' & F' & B)]]; [exact (N _ _ _ F')|].
      destruct (unit_unique _ _ _ _ _ _ _ _ _ F F') as (<- & <- & <- & <-). rewrite E in E2.
      apply (digits_inj e) in E2; [|apply digits_are|assumption]. destruct E2 as [E2 E3].
      assert (T : t = []).
      { destruct Ft as [->| ->]; [reflexivity|]. exfalso. pose proof (digits_are v) as D. rewrite E3, forallb_app in D.
        cbn in D. now rewrite andb_false_r in D. }
      subst t. rewrite app_nil_r in E3. apply digits_canonical in E2, E3; [|assumption..].
      destruct B as [B|[B|B]]; [discriminate|congruence|congruence].
    + intros L. assert (T : t = [] /\ decimal u = true /\ decimal v = true).
      { destruct (decimal u) eqn:D1, (decimal v) eqn:D2, Ft as [->| ->]; auto; destruct L; right; split; try assumption; exists e, u, v; eauto 8. }
      destruct T as (-> & D1 & D2). rewrite !decimal_digits by assumption. now rewrite E, app_nil_r.
  - eexists. split; [apply (set_plain _ o N U)|]. cbn. rewrite app_nil_r. split; [|reflexivity]. intros _ [(n' & e' & F')|[_ (e' & u' & v' & t' & F' & B)]].
    + exact (N _ _ _ F').
    + exact (U _ _ _ _ F').
Qed.

(** ** Reading the identifier written for a printable symbol *)
Lemma sym_id_libId o : id_ok (sy_libraryNickname o) (sy_entryName o) (sy_unitId o) (sy_styleId o) = true ->
  Symbol_libId o = sym_id (sy_libraryNickname o) (sy_entryName o) (sy_unitId o) (sy_styleId o).
Proof.
  unfold id_ok, Symbol_libId, sym_id. destruct (sy_libraryNickname o) as [| | | |n|], (sy_entryName o) as [| | | |e|]; try discriminate;
    destruct (sy_unitId o), (sy_styleId o); try discriminate; cbn [is_none negb andb truthy fmt].
  - intros _. apply app_nil_r.
  - reflexivity.
  - intros H. destruct n; [discriminate|reflexivity].
Qed.
Lemma oneline_no_nl e t : oneline (e ++ t) = true -> final t -> t = [].
Proof. rewrite oneline_app. intros H [->| ->]; [reflexivity|]. apply andb_prop in H as [_ H]. discriminate. Qed.
Lemma inner_colon_no s : oneline s = true -> inner_colon s = false -> forall n e t, ~ nick_form s n e t.
Proof.
  intros Ho Hc n e t (E & Hn & He & On & Oe & C & F). subst s. unfold inner_colon in Hc.
  destruct n as [|c n]; [congruence|]. cbn [app tl] in Hc.
  destruct (e ++ t) as [|x r] eqn:Er; [apply app_eq_nil in Er as [-> _]; congruence|].
  change ($":" ++ ?r) with ([58%N] ++ r) in Hc. rewrite removelast_app in Hc by discriminate.
  rewrite existsb_app in Hc. cbn in Hc. rewrite orb_true_r in Hc. discriminate.
Qed.
Lemma unit_shape_no s : oneline s = true -> unit_shape s = false -> forall e u v t, ~ unit_form s e u v t.
Proof.
  intros Ho Hc e u v t (E & He & Oe & Hu & Du & Hv & Dv & F).
  assert (t = []).
  { apply (oneline_no_nl (e ++ $"_" ++ u ++ $"_" ++ v)); [|assumption]. rewrite <- !app_assoc. now rewrite <- E. }
  subst t. rewrite app_nil_r in E. subst s. unfold unit_shape in Hc.
  rewrite !rev_app_distr in Hc. change (rev $"_") with [95%N] in Hc. rewrite <- !app_assoc in Hc. cbn [app] in Hc.
  rewrite (span_all is_digit (rev v)) in Hc; [|now apply forallb_rev|reflexivity].
  destruct (rev v) eqn:Ev; [apply (f_equal (@rev N)) in Ev; rewrite rev_involutive in Ev; now subst|].
  rewrite (span_all is_digit (rev u)) in Hc; [|now apply forallb_rev|reflexivity].
  destruct (rev u) eqn:Eu; [apply (f_equal (@rev N)) in Eu; rewrite rev_involutive in Eu; now subst|].
  destruct (rev e) eqn:Ee; [apply (f_equal (@rev N)) in Ee; rewrite rev_involutive in Ee; now subst|].
  discriminate.
Qed.
Lemma int_str_digits z : 0 <= z -> digits_val (int_str z) = z /\ forallb is_digit (int_str z) = true /\ int_str z <> [].
Proof.
  intros H. unfold int_str. rewrite (proj2 (Z.ltb_ge _ _)) by assumption. destruct (digits_spec z H) as (H1 & H2 & H3).
  repeat split; [assumption| |assumption]. revert H2. apply forallb_imp. exact ascii_digit_is.
Qed.
Lemma nonempty_ne s : nonempty s = true -> s <> [].
Proof. now destruct s. Qed.
Lemma id_read a b c d o : id_ok a b c d = true -> Symbol_set_libId (VStr (sym_id a b c d)) o = Ok (upd_id o a b c d).
Proof.
  intros H. unfold id_ok in H. destruct a as [| | | |n|], b as [| | | |e|]; try discriminate H;
    destruct c as [| |u| | |], d as [| |v| | |]; try discriminate H; cbn [sym_id];
    repeat match goal with H : _ && _ = true |- _ => apply andb_prop in H; destruct H | H : negb _ = true |- _ => apply negb_true_iff in H end.
  - apply set_plain; [now apply inner_colon_no|now apply unit_shape_no].
  - apply Z.leb_le in H0, H1. destruct (int_str_digits u H1) as (U1 & U2 & U3), (int_str_digits v H0) as (V1 & V2 & V3).
    rewrite (set_unit _ e (int_str u) (int_str v) []), U1, V1; [reflexivity| |].
    + apply inner_colon_no.
      * rewrite !oneline_app, H3, (digits_oneline _ U2), (digits_oneline _ V2). reflexivity.
      * unfold inner_colon. destruct e as [|x e]; [discriminate|]. cbn [app tl] in *.
        assert (K : forall l, forallb is_digit l = true -> existsb (N.eqb 58) l = false).
        { clear. intros l Hl. induction l as [|x l IH]; [reflexivity|]. cbn [forallb existsb] in *. apply andb_prop in Hl as [Hx Hl].
          rewrite IH by assumption. destruct (N.eqb_spec 58 x) as [<-|]; [discriminate Hx|reflexivity]. }
        assert (Hx : existsb (N.eqb 58) (e ++ $"_" ++ int_str u ++ $"_" ++ int_str v) = false).
        { rewrite !existsb_app, H2, (K _ U2), (K _ V2). reflexivity. }
        clear - Hx. revert Hx. generalize (e ++ $"_" ++ int_str u ++ $"_" ++ int_str v) as l.
        induction l as [|y l IH]; [reflexivity|]. cbn [existsb]. intros Hl. apply orb_false_elim in Hl as [Hy Hl].
        cbn [removelast]. destruct l as [|z l]; [reflexivity|]. cbn [existsb]. rewrite Hy. cbn [orb]. now apply IH.
    + unfold unit_form. rewrite app_nil_r. repeat split; try assumption; [now apply nonempty_ne|now left].
  - apply (set_nick _ n e []). unfold nick_form. rewrite app_nil_r.
    repeat split; try assumption; try (now apply nonempty_ne). now left.
Qed.
Lemma set_other o s : is_text s = false -> Symbol_set_libId s o = Err EType.
Proof. now destruct s. Qed.
Lemma set_units s o o' : Symbol_set_libId (VStr s) o = Ok o' ->
  o' = upd_id o (sy_libraryNickname o') (sy_entryName o') (sy_unitId o') (sy_styleId o').
Proof.
  destruct (set_cases s) as [(n & e & t & F)|[[N (e & u & v & t & F)]|[N U]]].
  - rewrite (set_nick _ _ _ _ o F). intros E. injection E as <-. reflexivity.
  - rewrite (set_unit _ _ _ _ _ o N F). intros E. injection E as <-. reflexivity.
  - rewrite (set_plain _ o N U). intros E. injection E as <-. reflexivity.
Qed.

(** ** The identifiers of new symbols *)
Lemma split_first (f : N -> bool) l : existsb f l = true -> exists a x b, l = a ++ x :: b /\ f x = true /\ existsb f a = false.
Proof.
  induction l as [|y l IH]; cbn [existsb]; [discriminate|]. destruct (f y) eqn:E.
  - intros _. exists [], y, l. auto.
  - intros H. destruct (IH H) as (a & x & b & -> & Hx & Ha). exists (y :: a), x, b. cbn [existsb]. rewrite E. auto.
Qed.
Lemma removelast_snoc {A} (l : list A) x : removelast (l ++ [x]) = l.
Proof. rewrite removelast_app by discriminate. apply app_nil_r. Qed.
Lemma inner_colon_nick s : oneline s = true -> inner_colon s = true -> exists n e, nick_form s n e [].
Proof.
  unfold inner_colon. destruct s as [|c r]; [discriminate|]. cbn [tl]. intros Ho H.
  destruct (split_first _ _ H) as (a & x & b & E & Hx & Ha). apply N.eqb_eq in Hx. subst x.
  destruct r as [|y r] using rev_ind; [discriminate|]. rewrite removelast_snoc in E. subst r. clear IHr.
  exists (c :: a), (b ++ [y]). unfold nick_form. rewrite app_nil_r. cbn [app] in Ho |- *. rewrite <- app_assoc in Ho |- *. cbn [app] in Ho |- *.
  unfold oneline in *. cbn [forallb] in Ho |- *. rewrite forallb_app in Ho. cbn [forallb] in Ho.
  apply andb_prop in Ho as [H1 H2]. apply andb_prop in H2 as [H2 H3]. apply andb_prop in H3 as [_ H3].
  repeat split; try congruence; try assumption; try now left.
  - now destruct b.
  - now rewrite H1, H2.
Qed.
Lemma span_spec f s : s = fst (span f s) ++ snd (span f s) /\ forallb f (fst (span f s)) = true.
Proof.
  induction s as [|c s [IH1 IH2]]; [now split|]. cbn [span]. destruct (f c) eqn:E; [|now split].
  destruct (span f s) as [a b]. cbn [fst snd app forallb] in *. rewrite E. split; [now f_equal|assumption].
Qed.
Lemma unit_shape_unit s : oneline s = true -> unit_shape s = true -> exists e u v, unit_form s e u v [].
Proof.
  unfold unit_shape. intros Ho H. destruct (span_spec is_digit (rev s)) as [E1 D1]. destruct (span is_digit (rev s)) as [v [|c r]]; cbn [fst snd] in *; [now destruct v|].
  destruct v as [|v0 v]; [discriminate|]. apply andb_prop in H as [Hc H]. apply N.eqb_eq in Hc. subst c.
  destruct (span_spec is_digit r) as [E2 D2]. destruct (span is_digit r) as [u [|d [|x e]]]; cbn [fst snd] in *; [now destruct u..|].
  destruct u as [|u0 u]; [discriminate|]. apply N.eqb_eq in H. subst d r.
  apply (f_equal (@rev N)) in E1. rewrite rev_involutive in E1.
  rewrite rev_app_distr in E1. cbn [rev] in E1. rewrite rev_app_distr in E1. cbn [rev] in E1. rewrite <- !app_assoc in E1. cbn [app] in E1.
  exists (rev (x :: e)), (rev (u0 :: u)), (rev (v0 :: v)). unfold unit_form. rewrite app_nil_r. cbn [rev].
  assert (N : forall (l : str) y, l ++ [y] <> []) by (intros [|] ?; discriminate).
  change (rev v ++ [v0]) with (rev (v0 :: v)). change (rev u ++ [u0]) with (rev (u0 :: u)).
  repeat split; try apply N; try (now apply forallb_rev); try now left.
  - rewrite E1. cbn [rev]. rewrite <- !app_assoc. reflexivity.
  - rewrite E1 in Ho. unfold oneline in *. rewrite !forallb_app in *. cbn [forallb] in *.
    repeat (apply andb_prop in Ho as [? Ho]). rewrite H. cbn. now rewrite H0.
Qed.
Lemma quotable_tail a b : b <> [] -> quotableb (a ++ b) = quotableb b.
Proof.
  intros H. unfold quotableb. f_equal. f_equal. induction a as [|x a IH]; [reflexivity|]. cbn [app last].
  destruct (a ++ b) eqn:E; [|assumption]. apply app_eq_nil in E as [_ ->]. congruence.
Qed.
Lemma ne_nonempty s : s <> [] -> nonempty s = true.
Proof. now destruct s. Qed.
Lemma set_id_ok s o o' : oneline s = true -> quotableb s = true -> Symbol_set_libId (VStr s) o = Ok o' ->
  id_ok (sy_libraryNickname o') (sy_entryName o') (sy_unitId o') (sy_styleId o') = true.
Proof.
  intros Ho Hq. destruct (set_cases s) as [(n & e & t & F)|[[N (e & u & v & t & F)]|[N U]]].
  - rewrite (set_nick _ _ _ _ o F). intros E. injection E as <-. cbn. destruct F as (E & Hn & He & On & Oe & C & Ft).
    assert (t = []).
    { apply (oneline_no_nl (n ++ $":" ++ e)); [|assumption]. rewrite <- !app_assoc. now rewrite <- E. }
    subst t. rewrite app_nil_r in E. subst s. rewrite app_assoc, quotable_tail in Hq by assumption.
    now rewrite On, Oe, C, Hq, !ne_nonempty.
  - rewrite (set_unit _ _ _ _ _ o N F). intros E. injection E as <-. cbn. pose proof F as (E & He & Oe & Hu & Du & Hv & Dv & Ft).
    rewrite Oe, ne_nonempty by assumption.
    assert (C : existsb (N.eqb 58) (tl e) = false).
    { destruct (existsb (N.eqb 58) (tl e)) eqn:C; [|reflexivity]. exfalso.
      destruct (inner_colon_nick s Ho) as (n & e' & F'); [|exact (N _ _ _ F')].
      rewrite E. unfold inner_colon. destruct e as [|x e]; [congruence|]. cbn [app tl] in *.
      rewrite removelast_app by discriminate. now rewrite existsb_app, C. }
    rewrite C. assert (P : forall w, (0 <=? digits_val w) = true).
    { intros w. pose proof (int_str_val w) as E1. pose proof (digits_are w) as D. rewrite <- E1 in D. unfold int_str in D.
      destruct (Z.ltb_spec (digits_val w) 0); [|now apply Z.leb_le]. cbn in D. discriminate D. }
    now rewrite !P.
  - rewrite (set_plain _ o N U). intros E. injection E as <-. cbn. rewrite Ho, Hq.
    destruct (inner_colon s) eqn:C; [destruct (inner_colon_nick s Ho C) as (n & e & F); destruct (N _ _ _ F)|].
    destruct (unit_shape s) eqn:C2; [destruct (unit_shape_unit s Ho C2) as (e & u & v & F); destruct (U _ _ _ _ F)|]. reflexivity.
Qed.
Lemma not_lossy s : oneline s = true -> (forall e u v t, unit_form s e u v t -> decimal u = true /\ decimal v = true) -> ~ lossy s.
Proof.
  intros Ho H [(n & e & F)|[_ (e & u & v & t & F & B)]].
  - destruct F as (E & _). rewrite E in Ho. unfold oneline in Ho. rewrite !forallb_app in Ho. cbn in Ho. now rewrite !andb_false_r in Ho.
  - destruct (H _ _ _ _ F) as [H1 H2]. rewrite H1, H2 in B. destruct B as [->|[B|B]]; try discriminate.
    destruct F as (E & _). rewrite E in Ho. unfold oneline in Ho. rewrite !forallb_app in Ho. cbn in Ho. now rewrite !andb_false_r in Ho.
Qed.
Lemma set_rename s o o' : Symbol_set_libId (VStr s) o = Ok o' ->
  length (sy_units o') = length (sy_units o)
  /\ (forall i u u', nth_error (sy_units o) i = Some u -> nth_error (sy_units o') i = Some u' ->
        sy_entryName u' = sy_entryName o' /\ u' <| sy_entryName := sy_entryName u |> = u)
  /\ o' <| sy_libraryNickname := sy_libraryNickname o |> <| sy_entryName := sy_entryName o |> <| sy_unitId := sy_unitId o |>
        <| sy_styleId := sy_styleId o |> <| sy_units := sy_units o |> = o.
Proof.
  intros H. apply set_units in H. rewrite H. cbn [upd_id]. destruct o; unfold upd_id; cbn. repeat split.
  - apply map_length.
  - rewrite nth_error_map, H0 in H1. cbn in H1. injection H1 as <-. destruct u. reflexivity.
  - rewrite nth_error_map, H0 in H1. cbn in H1. injection H1 as <-. destruct u. reflexivity.
Qed.
