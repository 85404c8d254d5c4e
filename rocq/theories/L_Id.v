(** The patterns of symbol.py match exactly the identifiers of the two shapes. *)
From Verif Require Import PyBase PyNum PyStr PyRe Sexpr M_Common M_Sym S_Id L_Re.
Local Open Scope nat_scope.

Definition dotp : N -> bool := fun c => negb (N.eqb c 10).
Lemma eol_final m : run REol m <> [] -> final (m_rest m).
Proof.
  cbn [run]. destruct (m_rest m) as [|c [|d s]]; [left; reflexivity| |].
  - destruct (N.eqb_spec c 10) as [->|]; [right; reflexivity|congruence].
  - destruct (N.eqb c 10); congruence.
Qed.
Lemma eol_run m : final (m_rest m) -> run REol m = [m].
Proof. cbn [run]. intros [->| ->]; reflexivity. Qed.
Lemma char_run c m : run (r_char c) m = match m_rest m with x :: s => if N.eqb c x then [mkm (x :: m_pre m) s (m_caps m)] else [] | [] => [] end.
Proof. reflexivity. Qed.

Lemma firstn_nonempty {A} k (s : list A) p : 1 <= k <= length s -> firstn k s = p -> p <> [].
Proof. intros H <- E. apply (f_equal (@length A)) in E. rewrite firstn_length in E. cbn in E. lia. Qed.

(* the part behind the colon *)
Definition re_nick2 : re := RSeq (RGroup 2 (RPlus false r_dot)) REol.
Lemma nick2_run m : run re_nick2 m = flat_map (fun k => run REol (mkm (rev (firstn k (m_rest m)) ++ m_pre m) (skipn k (m_rest m))
     ((2, firstn k (m_rest m)) :: m_caps m))) (seq 1 (prefix_len dotp (m_rest m))).
Proof. unfold re_nick2. change (run (RSeq ?a ?b) m) with (flat_map (run b) (run a m)).
  unfold r_dot. rewrite run_group_plus, flat_map_map2. reflexivity. Qed.
Lemma nick2_sound m m' r : run re_nick2 m = m' :: r ->
  exists e t, m_rest m = e ++ t /\ e <> [] /\ oneline e = true /\ final t /\ m_caps m' = (2, e) :: m_caps m.
Proof.
  rewrite nick2_run. intros H. apply flat_map_head in H as (l1 & k & l2 & r' & Hs & _ & Hk).
  apply seq_split in Hs as [Hk1 _]. pose proof (prefix_len_le dotp (m_rest m)).
  assert (F : final (skipn k (m_rest m))).
  { apply (eol_final (mkm (rev (firstn k (m_rest m)) ++ m_pre m) (skipn k (m_rest m)) ((2, firstn k (m_rest m)) :: m_caps m))).
    rewrite Hk. discriminate. }
  rewrite eol_run in Hk by exact F. injection Hk as <- _.
  exists (firstn k (m_rest m)), (skipn k (m_rest m)). rewrite firstn_skipn. repeat split; [|apply (prefix_len_all dotp); lia|exact F].
  eapply (firstn_nonempty k); [|reflexivity]. lia.
Qed.
Lemma nick2_complete m e t : m_rest m = e ++ t -> e <> [] -> oneline e = true -> final t -> run re_nick2 m <> [].
Proof.
  intros E He Ho Ht. rewrite nick2_run. apply (flat_map_nonempty _ _ (length e)).
  - apply in_seq. destruct e; [congruence|]. split; [cbn; lia|]. rewrite E. pose proof (prefix_len_app dotp (n :: e) t Ho). lia.
  - rewrite E. rewrite skipn_app, skipn_all, Nat.sub_diag. cbn [skipn app].
    rewrite eol_run by exact Ht. discriminate.
Qed.

Lemma nick_run s : run re_nick (mkm [] s []) =
  flat_map (fun k => flat_map (run re_nick2) (run (r_char 58) (mkm (rev (firstn k s) ++ []) (skipn k s) [(1, firstn k s)])))
    (seq 1 (prefix_len dotp s)).
Proof.
  unfold re_nick. change (run (RSeq RBol ?b) (mkm [] s [])) with (run b (mkm [] s []) ++ []). rewrite app_nil_r.
  change (run (RSeq ?a ?b) (mkm [] s [])) with (flat_map (run b) (run a (mkm [] s []))).
  unfold r_dot. rewrite run_group_plus, flat_map_map2. reflexivity.
Qed.
Lemma nick_step_sound s k m r :
  flat_map (run re_nick2) (run (r_char 58) (mkm (rev (firstn k s) ++ []) (skipn k s) [(1, firstn k s)])) = m :: r ->
  exists e t, skipn k s = 58%N :: e ++ t /\ e <> [] /\ oneline e = true /\ final t /\ m_caps m = [(2, e); (1, firstn k s)].
Proof.
  rewrite char_run. cbn [m_rest m_pre m_caps]. destruct (skipn k s) as [|x w]; [discriminate|].
  destruct (N.eqb_spec 58 x) as [<-|]; [|discriminate]. cbn [flat_map]. rewrite app_nil_r. intros H.
  apply nick2_sound in H as (e & t & E & H1 & H2 & H3 & H4). cbn [m_rest m_caps] in *. subst w. eauto 8.
Qed.
Lemma nick_step_complete s k e t : skipn k s = 58%N :: e ++ t -> e <> [] -> oneline e = true -> final t ->
  flat_map (run re_nick2) (run (r_char 58) (mkm (rev (firstn k s) ++ []) (skipn k s) [(1, firstn k s)])) <> [].
Proof.
  intros E H1 H2 H3. rewrite char_run. cbn [m_rest m_pre m_caps]. rewrite E, N.eqb_refl. cbn [flat_map]. rewrite app_nil_r.
  eapply nick2_complete; eauto. reflexivity.
Qed.

Lemma oneline_app a b : oneline (a ++ b) = oneline a && oneline b.
Proof. apply forallb_app. Qed.
Lemma existsb_split (p : N -> bool) l : existsb p l = true -> exists a c b, l = a ++ c :: b /\ p c = true.
Proof.
  intros H. apply existsb_exists in H as (c & Hc & Hp). apply in_split in Hc as (a & b & ->). eauto.
Qed.

Lemma nick_sound s m : re_match re_nick s = Some m -> exists t, nick_form s (group 1 m) (group 2 m) t.
Proof.
  unfold re_match. rewrite nick_run. destruct (flat_map _ _) as [|m' r] eqn:H; [discriminate|]. intros E. injection E as ->.
  apply flat_map_head in H as (l1 & k & l2 & r' & Hs & Hmin & Hk).
  apply seq_split in Hs as [Hk1 Hin]. pose proof (prefix_len_le dotp s) as Hle.
  destruct (nick_step_sound _ _ _ _ Hk) as (e & t & E1 & H1 & H2 & H3 & E2). unfold group. rewrite E2. cbn [cap Nat.eqb].
  exists t. pose proof (split_at _ _ _ _ E1) as Es. unfold nick_form.
  assert (Hn : oneline (firstn k s) = true) by (apply (prefix_len_all dotp); lia).
  repeat split; [exact Es| |assumption|assumption|assumption| |assumption].
  - eapply (firstn_nonempty k); [|reflexivity]. lia.
  - destruct (existsb (N.eqb 58) (tl (firstn k s))) eqn:Ec; [|reflexivity]. exfalso.
    apply existsb_split in Ec as (a & c & b & Ec & Hc). apply N.eqb_eq in Hc. subst c.
    destruct (firstn k s) as [|x n] eqn:En; [now destruct a|]. cbn [tl] in Ec. subst n.
    assert (Lk : length (x :: a ++ 58%N :: b) = k) by (rewrite <- En, firstn_length; lia).
    assert (Sk : skipn (S (length a)) s = 58%N :: (b ++ 58%N :: e) ++ t).
    { rewrite Es. cbn [app skipn]. rewrite <- !app_assoc, skipn_app, skipn_all, Nat.sub_diag. cbn [skipn app]. now rewrite <- ?app_assoc. }
    rewrite app_comm_cons, !oneline_app in Hn. cbn in Hn. apply andb_prop in Hn as [_ Hn].
    refine (nick_step_complete s (S (length a)) (b ++ 58%N :: e) t Sk _ _ H3 (Hmin _ (Hin _ _))).
    + destruct b; discriminate.
    + unfold oneline in *. rewrite forallb_app, Hn. exact H2.
    + rewrite <- Lk. cbn [length]. rewrite app_length. cbn. lia.
Qed.
Lemma final_split a b t t' : oneline a = true -> oneline b = true -> final t -> final t' -> a ++ t = b ++ t' -> a = b /\ t = t'.
Proof.
  intros Ha Hb Ht Ht' E.
  assert (K : forall x, oneline (x ++ nl) = false) by (intros; rewrite oneline_app; cbn; apply andb_false_r).
  destruct Ht as [->| ->], Ht' as [->| ->]; rewrite ?app_nil_r in E.
  - auto.
  - subst a. now rewrite K in Ha.
  - subst b. now rewrite K in Hb.
  - apply app_inv_tail in E. auto.
Qed.
Lemma app_split {A} (a b c d : list A) : a ++ b = c ++ d ->
  exists x, (a = c ++ x /\ d = x ++ b) \/ (c = a ++ x /\ b = x ++ d).
Proof.
  revert c. induction a as [|y a IH]; intros c H; cbn in H.
  - exists c. right. split; [reflexivity|exact H].
  - destruct c as [|z c]; cbn in H.
    + exists (y :: a). left. split; [reflexivity|]. now rewrite <- H.
    + injection H as -> H. destruct (IH _ H) as (x & [[-> ->]|[-> ->]]); exists x; [left|right]; auto.
Qed.
Lemma nick_unique s n e t n' e' t' : nick_form s n e t -> nick_form s n' e' t' -> n = n' /\ e = e' /\ t = t'.
Proof.
  intros (E & Hn & He & On & Oe & C & F) (E' & Hn' & He' & On' & Oe' & C' & F'). rewrite E in E'.
  assert (K : forall a x b c, a <> [] -> existsb (N.eqb 58) (tl (a ++ x)) = false -> 58%N :: b = x ++ 58%N :: c -> x = []).
  { intros a x b c Ha Hc Hx. destruct x as [|y x]; [reflexivity|]. injection Hx as <- _.
    destruct a as [|z a]; [congruence|]. cbn [tl app] in Hc. rewrite existsb_app in Hc. cbn in Hc.
    now rewrite orb_true_r in Hc. }
  assert (En : n = n').
  { destruct (app_split _ _ _ _ E') as (x & [[-> Hx]|[-> Hx]]).
    - change ($":" ++ ?r) with (58%N :: r) in Hx. rewrite (K _ _ _ _ Hn' C Hx). now rewrite app_nil_r.
    - change ($":" ++ ?r) with (58%N :: r) in Hx. rewrite (K _ _ _ _ Hn C' Hx). now rewrite app_nil_r. }
  subst n'. split; [reflexivity|]. apply app_inv_head in E'. change ($":" ++ ?r) with (58%N :: r) in E'.
  injection E' as E'. now apply final_split.
Qed.
Lemma nick_complete s n e t : nick_form s n e t -> exists m, re_match re_nick s = Some m /\ group 1 m = n /\ group 2 m = e.
Proof.
  intros F. destruct (re_match re_nick s) as [m|] eqn:M.
  - exists m. split; [reflexivity|]. destruct (nick_sound _ _ M) as [t' F']. destruct (nick_unique _ _ _ _ _ _ _ F F') as (-> & -> & _). auto.
  - exfalso. destruct F as (E & Hn & He & On & Oe & C & F). unfold re_match in M.
    destruct (run re_nick (mkm [] s [])) as [|? ?] eqn:R; [|discriminate]. clear M.
    rewrite nick_run in R. revert R. apply (flat_map_nonempty _ _ (length n)).
    + apply in_seq. destruct n; [congruence|]. split; [cbn; lia|]. rewrite E.
      pose proof (prefix_len_app dotp (n :: n0) ($":" ++ e ++ t) On). lia.
    + apply (nick_step_complete s (length n) e t); [|assumption..]. subst s. now rewrite skipn_app, skipn_all, Nat.sub_diag.
Qed.
Lemma nick_none s : re_match re_nick s = None <-> forall n e t, ~ nick_form s n e t.
Proof.
  split.
  - intros H n e t F. destruct (nick_complete _ _ _ _ F) as (m & E & _). congruence.
  - intros H. destruct (re_match re_nick s) eqn:E; [|reflexivity]. destruct (nick_sound _ _ E) as [t F]. destruct (H _ _ _ F).
Qed.

(** ** entry_unit_style *)
Definition re_u3 : re := RSeq (RGroup 3 (RPlus false (RChr is_digit))) REol.
Definition re_u2 : re := RSeq (RGroup 2 (RPlus false (RChr is_digit))) (RSeq (r_char 95) re_u3).
Definition re_u1 : re := RSeq (RGroup 1 (RPlus false r_dot)) (RSeq (r_char 95) re_u2).
Lemma group_seq_run n p b m : run (RSeq (RGroup n (RPlus false (RChr p))) b) m =
  flat_map (fun k => run b (mkm (rev (firstn k (m_rest m)) ++ m_pre m) (skipn k (m_rest m)) ((n, firstn k (m_rest m)) :: m_caps m)))
    (seq 1 (prefix_len p (m_rest m))).
Proof. change (run (RSeq ?a ?b) m) with (flat_map (run b) (run a m)). rewrite run_group_plus, flat_map_map2. reflexivity. Qed.
(* one group followed by something *)
Lemma group_sound n p b m m' : In m' (run (RSeq (RGroup n (RPlus false (RChr p))) b) m) ->
  exists g r pre, m_rest m = g ++ r /\ g <> [] /\ forallb p g = true /\ In m' (run b (mkm pre r ((n, g) :: m_caps m))).
Proof.
  rewrite group_seq_run. intros H. apply in_flat_map in H as (k & Hk & H). apply in_seq in Hk.
  pose proof (prefix_len_le p (m_rest m)).
  exists (firstn k (m_rest m)), (skipn k (m_rest m)), (rev (firstn k (m_rest m)) ++ m_pre m).
  rewrite firstn_skipn. repeat split; [|apply prefix_len_all; lia|exact H].
  eapply (firstn_nonempty k); [|reflexivity]. lia.
Qed.
Lemma group_complete n p b m g r : m_rest m = g ++ r -> g <> [] -> forallb p g = true ->
  (forall pre, run b (mkm pre r ((n, g) :: m_caps m)) <> []) -> run (RSeq (RGroup n (RPlus false (RChr p))) b) m <> [].
Proof.
  intros E Hg Hp Hb. rewrite group_seq_run. apply (flat_map_nonempty _ _ (length g)).
  - apply in_seq. destruct g; [congruence|]. split; [cbn; lia|]. rewrite E. pose proof (prefix_len_app p (n0 :: g) r Hp). lia.
  - rewrite E, skipn_app, skipn_all, firstn_app, firstn_all, Nat.sub_diag. cbn [skipn firstn app]. rewrite app_nil_r. apply Hb.
Qed.
Lemma char_sound c b m m' : In m' (run (RSeq (r_char c) b) m) -> exists r pre, m_rest m = c :: r /\ In m' (run b (mkm pre r (m_caps m))).
Proof.
  change (run (RSeq (r_char c) b) m) with (flat_map (run b) (run (r_char c) m)). rewrite char_run.
  destruct (m_rest m) as [|x s]; [intros []|]. destruct (N.eqb_spec c x) as [<-|]; [|intros []].
  cbn [flat_map]. rewrite app_nil_r. eauto.
Qed.
Lemma char_complete c b m r : m_rest m = c :: r -> (forall pre, run b (mkm pre r (m_caps m)) <> []) -> run (RSeq (r_char c) b) m <> [].
Proof.
  intros E H. change (run (RSeq (r_char c) b) m) with (flat_map (run b) (run (r_char c) m)). rewrite char_run, E, N.eqb_refl.
  cbn [flat_map]. rewrite app_nil_r. apply H.
Qed.
Lemma unit_run s : run re_unit (mkm [] s []) = run re_u1 (mkm [] s []).
Proof. unfold re_unit. change (run (RSeq RBol ?b) (mkm [] s [])) with (run b (mkm [] s []) ++ []). apply app_nil_r. Qed.

Lemma unit_sound s m : re_match re_unit s = Some m -> exists t, unit_form s (group 1 m) (group 2 m) (group 3 m) t.
Proof.
  unfold re_match. rewrite unit_run. destruct (run re_u1 (mkm [] s [])) as [|m' r] eqn:H; [discriminate|]. intros E. injection E as ->.
  assert (I : In m (run re_u1 (mkm [] s []))) by (rewrite H; now left). clear H. unfold re_u1, r_dot in I.
  apply group_sound in I as (e & r1 & p1 & E1 & He & Oe & I). cbn [m_rest m_caps] in *.
  apply char_sound in I as (r2 & p2 & E2 & I). cbn [m_rest m_caps] in *. unfold re_u2 in I.
  apply group_sound in I as (u & r3 & p3 & E3 & Hu & Ou & I). cbn [m_rest m_caps] in *.
  apply char_sound in I as (r4 & p4 & E4 & I). cbn [m_rest m_caps] in *. unfold re_u3 in I.
  apply group_sound in I as (v & r5 & p5 & E5 & Hv & Ov & I). cbn [m_rest m_caps] in *.
  assert (F : final r5).
  { match type of I with In _ (run REol ?x) => apply (eol_final x); destruct (run REol x); [destruct I|discriminate] end. }
  rewrite eol_run in I by exact F. destruct I as [<-|[]]. subst. exists r5. unfold group, unit_form. cbn [m_caps cap Nat.eqb].
  repeat split; assumption.
Qed.
Lemma digit_us : is_digit 95 = false. Proof. reflexivity. Qed.
Lemma digit_nl : is_digit 10 = false. Proof. reflexivity. Qed.
Lemma pref_unique (p : N -> bool) a b c x y : forallb p a = true -> forallb p b = true -> p c = false ->
  a ++ c :: x = b ++ c :: y -> a = b /\ x = y.
Proof.
  intros Ha Hb Hc. revert b Hb. induction a as [|z a IH]; intros b Hb E.
  - destruct b as [|w b]; [injection E as <-; auto|]. injection E as -> _. cbn in Hb. now rewrite Hc in Hb.
  - destruct b as [|w b]; cbn in E; injection E as -> E.
    + cbn in Ha. now rewrite Hc in Ha.
    + cbn in Ha, Hb. apply andb_prop in Ha as [_ Ha], Hb as [_ Hb]. destruct (IH Ha b Hb E) as [-> ->]. auto.
Qed.
Lemma forallb_rev {A} (p : A -> bool) l : forallb p l = true -> forallb p (rev l) = true.
Proof.
  intros H. apply forallb_forall. intros x Hx. apply in_rev in Hx. revert x Hx. now apply forallb_forall.
Qed.
Lemma digits_oneline u : forallb is_digit u = true -> oneline u = true.
Proof.
  intros H. apply forallb_forall. intros c Hc. rewrite forallb_forall in H. specialize (H _ Hc).
  destruct (N.eqb_spec c 10) as [->|]; [discriminate|reflexivity].
Qed.
Lemma unit_unique s e u v t e' u' v' t' : unit_form s e u v t -> unit_form s e' u' v' t' -> e = e' /\ u = u' /\ v = v' /\ t = t'.
Proof.
  intros (E & He & Oe & Hu & Du & Hv & Dv & F) (E' & He' & Oe' & Hu' & Du' & Hv' & Dv' & F'). rewrite E in E'.
  change ($"_") with [95%N] in E'.
  assert (L : forall e u v, oneline e = true -> forallb is_digit u = true -> forallb is_digit v = true -> oneline (e ++ [95%N] ++ u ++ [95%N] ++ v) = true).
  { intros a b c Ha Hb Hc. rewrite !oneline_app, Ha, (digits_oneline b), (digits_oneline c) by assumption. reflexivity. }
  rewrite !app_assoc in E'. rewrite <- !(app_assoc _ _ [95%N]), <- !(app_assoc _ _ v), <- !(app_assoc _ _ v') in E'.
  assert (E2 : (e ++ [95%N] ++ u ++ [95%N] ++ v) ++ t = (e' ++ [95%N] ++ u' ++ [95%N] ++ v') ++ t')
    by (rewrite <- ?app_assoc in *; exact E').
  apply final_split in E2 as [E3 ->]; [|now apply L..|assumption|assumption]. clear E'.
  apply (f_equal (@rev N)) in E3. rewrite !rev_app_distr in E3. cbn [rev app] in E3. rewrite <- !app_assoc in E3. cbn [app] in E3.
  apply (pref_unique is_digit) in E3 as [E4 E3]; [|now apply forallb_rev..|reflexivity].
  apply (pref_unique is_digit) in E3 as [E5 E3]; [|now apply forallb_rev..|reflexivity].
  apply (f_equal (@rev N)) in E3, E4, E5. rewrite !rev_involutive in *. auto.
Qed.
Lemma unit_complete s e u v t : unit_form s e u v t ->
  exists m, re_match re_unit s = Some m /\ group 1 m = e /\ group 2 m = u /\ group 3 m = v.
Proof.
  intros F. destruct (re_match re_unit s) as [m|] eqn:M.
  - exists m. split; [reflexivity|]. destruct (unit_sound _ _ M) as [t' F'].
    destruct (unit_unique _ _ _ _ _ _ _ _ _ F F') as (-> & -> & -> & _). auto.
  - exfalso. destruct F as (E & He & Oe & Hu & Du & Hv & Dv & F). unfold re_match in M. rewrite unit_run in M.
    destruct (run re_u1 (mkm [] s [])) as [|? ?] eqn:R; [|discriminate]. clear M. revert R. unfold re_u1, r_dot.
    apply (group_complete _ _ _ _ e ($"_" ++ u ++ $"_" ++ v ++ t)); [exact E|assumption..|]. intros p1.
    apply (char_complete _ _ _ (u ++ $"_" ++ v ++ t)); [reflexivity|]. intros p2. unfold re_u2.
    apply (group_complete _ _ _ _ u ($"_" ++ v ++ t)); [reflexivity|assumption..|]. intros p3.
    apply (char_complete _ _ _ (v ++ t)); [reflexivity|]. intros p4. unfold re_u3.
    apply (group_complete _ _ _ _ v t); [reflexivity|assumption..|]. intros p5. rewrite eol_run by exact F. discriminate.
Qed.
Lemma unit_none s : re_match re_unit s = None <-> forall e u v t, ~ unit_form s e u v t.
Proof.
  split.
  - intros H e u v t F. destruct (unit_complete _ _ _ _ _ F) as (m & E & _). congruence.
  - intros H. destruct (re_match re_unit s) eqn:E; [|reflexivity]. destruct (unit_sound _ _ E) as [t F]. destruct (H _ _ _ _ F).
Qed.
Global Opaque re_nick re_unit re_match.
