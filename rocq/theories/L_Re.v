(** Lemmas about the regular expression matcher and the identifier patterns of symbol.py. *)
From Verif Require Import PyBase PyNum PyStr PyRe Sexpr L_Lex.
Local Open Scope nat_scope.

(** ** Lazy repetition of a character class: all prefixes, shortest first *)
Definition adv (k : nat) (m : mstate) : mstate :=
  mkm (rev (firstn k (m_rest m)) ++ m_pre m) (skipn k (m_rest m)) (m_caps m).
Lemma adv0 m : adv 0 m = m.
Proof. now destruct m. Qed.
Lemma advS k c s pre caps : adv (S k) (mkm pre (c :: s) caps) = adv k (mkm (c :: pre) s caps).
Proof. unfold adv. cbn. now rewrite <- app_assoc. Qed.
Definition prefix_len (p : N -> bool) (s : str) : nat := length (fst (span p s)).
Lemma prefix_len_cons p c s : prefix_len p (c :: s) = if p c then S (prefix_len p s) else 0.
Proof. unfold prefix_len. cbn [span]. destruct (p c); [|reflexivity]. now destruct (span p s). Qed.

Lemma star_lazy p : forall n m, length (m_rest m) <= n ->
  star false (run (RChr p)) n m = map (fun k => adv k m) (seq 0 (S (prefix_len p (m_rest m)))).
Proof.
  induction n as [|n IH]; intros [pre s caps] Hn; cbn [m_rest] in *.
  - destruct s; [|cbn in Hn; lia]. cbn. now rewrite adv0.
  - cbn [star run m_rest]. destruct s as [|c s]; cbn [filter flat_map].
    + cbn. now rewrite adv0.
    + rewrite prefix_len_cons. destruct (p c); cbn [filter flat_map].
      * unfold advances at 1. cbn [m_rest length]. rewrite (proj2 (Nat.ltb_lt _ _)) by lia. cbn [flat_map].
        rewrite IH by (cbn in *; lia). rewrite app_nil_r. cbn [m_rest].
        change (seq 0 (S (S (prefix_len p s)))) with (0 :: seq 1 (S (prefix_len p s))).
        rewrite <- (seq_shift (S (prefix_len p s)) 0), map_cons, map_map, adv0. f_equal.
        apply map_ext. intros k. now rewrite advS.
      * cbn. now rewrite adv0.
Qed.
Lemma run_seq a b m : run (RSeq a b) m = flat_map (run b) (run a m).
Proof. reflexivity. Qed.
Lemma run_star g a m : run (RStar g a) m = star g (run a) (length (m_rest m)) m.
Proof. reflexivity. Qed.
Lemma run_chr p m : run (RChr p) m = match m_rest m with c :: s => if p c then [mkm (c :: m_pre m) s (m_caps m)] else [] | [] => [] end.
Proof. reflexivity. Qed.
Lemma run_lazy_plus p m :
  run (RPlus false (RChr p)) m = map (fun k => adv k m) (seq 1 (prefix_len p (m_rest m))).
Proof.
  destruct m as [pre s caps]. unfold RPlus. rewrite run_seq, run_chr. cbn [m_rest m_pre m_caps]. destruct s as [|c s]; [reflexivity|].
  rewrite prefix_len_cons. destruct (p c); [|reflexivity]. cbn [flat_map]. rewrite app_nil_r.
  rewrite run_star, star_lazy by reflexivity. cbn [m_rest]. rewrite <- seq_shift, map_map. apply map_ext. intros. now rewrite advS.
Qed.
Lemma prefix_len_le p s : prefix_len p s <= length s.
Proof. induction s as [|c s IH]; [now cbn|]. rewrite prefix_len_cons. destruct (p c); cbn; lia. Qed.
Lemma prefix_len_all p s k : k <= prefix_len p s -> forallb p (firstn k s) = true.
Proof.
  revert k. induction s as [|c s IH]; intros k Hk; [now destruct k|]. rewrite prefix_len_cons in Hk.
  destruct k; [reflexivity|]. cbn. destruct (p c); [|lia]. cbn. apply IH. lia.
Qed.
Lemma prefix_len_app p a s : forallb p a = true -> length a <= prefix_len p (a ++ s).
Proof.
  induction a as [|c a IH]; cbn [forallb app length]; [lia|]. intros H. apply andb_prop in H as [H1 H2].
  rewrite prefix_len_cons, H1. specialize (IH H2). lia.
Qed.

Lemma run_group_plus n p m :
  run (RGroup n (RPlus false (RChr p))) m
  = map (fun k => mkm (rev (firstn k (m_rest m)) ++ m_pre m) (skipn k (m_rest m)) ((n, firstn k (m_rest m)) :: m_caps m))
        (seq 1 (prefix_len p (m_rest m))).
Proof.
  assert (E : run (RGroup n (RPlus false (RChr p))) m =
     map (fun m' => mkm (m_pre m') (m_rest m') ((n, consumed m m') :: m_caps m')) (run (RPlus false (RChr p)) m)) by reflexivity.
  rewrite E, run_lazy_plus, map_map. apply map_ext_in. intros k Hk. apply in_seq in Hk.
  pose proof (prefix_len_le p (m_rest m)). unfold consumed, adv. cbn [m_pre m_rest m_caps].
  rewrite skipn_length. replace (length (m_rest m) - (length (m_rest m) - k)) with k by lia. reflexivity.
Qed.

Lemma flat_map_head {A B} (f : A -> list B) l y r : flat_map f l = y :: r ->
  exists l1 x l2 r', l = l1 ++ x :: l2 /\ (forall z, In z l1 -> f z = []) /\ f x = y :: r'.
Proof.
  induction l as [|a l IH]; cbn [flat_map]; [discriminate|]. destruct (f a) as [|b fa] eqn:E; cbn [app].
  - intros H. destruct (IH H) as (l1 & x & l2 & r' & -> & H1 & H2). exists (a :: l1), x, l2, r'.
    repeat split; [|assumption]. intros z [->|Hz]; auto.
  - intros H. injection H as -> _. exists [], a, l, fa. repeat split; [|assumption]. intros z [].
Qed.
Lemma flat_map_nonempty {A B} (f : A -> list B) l x : In x l -> f x <> [] -> flat_map f l <> [].
Proof.
  induction l as [|a l IH]; cbn [flat_map In]; [tauto|]. intros [->|H] Hx.
  - destruct (f x); [congruence|discriminate].
  - destruct (f a); [auto|discriminate].
Qed.
Lemma flat_map_map2 {A B C} (f : B -> list C) (g : A -> B) l : flat_map f (map g l) = flat_map (fun x => f (g x)) l.
Proof. induction l as [|x l IH]; cbn [map flat_map]; [reflexivity|]. now rewrite IH. Qed.
Lemma seq_split a n l1 x l2 : seq a n = l1 ++ x :: l2 -> a <= x < a + n /\ forall k, a <= k < x -> In k l1.
Proof.
  revert a l1. induction n as [|n IH]; intros a l1 H; cbn [seq] in H; [now destruct l1|].
  destruct l1 as [|b l1]; cbn [app] in H.
  - injection H as <- _. split; [lia|]. intros; lia.
  - injection H as <- H. destruct (IH _ _ H) as [H1 H2]. split; [lia|]. intros k Hk.
    destruct (Nat.eq_dec k a); [now left|right; apply H2; lia].
Qed.
Lemma split_at {A} k (s : list A) c r : skipn k s = c :: r -> s = firstn k s ++ c :: r.
Proof. intros E. now rewrite <- E, firstn_skipn. Qed.
