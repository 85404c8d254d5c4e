(** Dictionaries: Python's [==] is an equivalence on hashable values, and assignments one after the other. *)
From Verif Require Import PyBase PyNum PyStr Sexpr S_Leaf S_Tree S_Reader S_Gather L_Lex L_Seq L_Tac L_Keep L_Swap L_Gather.

(** ** [==] on hashable values *)
(** a number as a mantissa and an exponent of two *)
Definition numval (v : val) : option (Z * Z) :=
  match v with
  | VBool b => Some ((if b then 1 else 0), 0)%Z
  | VInt z => Some (z, 0)%Z
  | VFloat (DFin n m e) => Some ((if n then Z.opp m else m), e)
  | _ => None
  end.
Definition scaled (K : Z) (p : Z * Z) : Z := (fst p * 2 ^ (snd p + K))%Z.
Definition sim (p q : Z * Z) : Prop := exists K, (0 <= snd p + K /\ 0 <= snd q + K)%Z /\ scaled K p = scaled K q.
Lemma scaled_up p K J : (0 <= snd p + K)%Z -> (0 <= J)%Z -> scaled (K + J) p = (scaled K p * 2 ^ J)%Z.
Proof. intros H1 H2. unfold scaled. rewrite Z.add_assoc, Z.pow_add_r by lia. ring. Qed.
Lemma sim_all p q K : (0 <= snd p + K)%Z -> (0 <= snd q + K)%Z -> sim p q -> scaled K p = scaled K q.
Proof.
  intros H1 H2 (L & [H3 H4] & E).
  set (J := (Z.abs K + Z.abs L)%Z).
  assert (F : scaled (L + (J + K - L)) p = scaled (L + (J + K - L)) q).
  { rewrite (scaled_up p L), (scaled_up q L) by lia. now rewrite E. }
  replace (L + (J + K - L))%Z with (K + J)%Z in F by lia. rewrite (scaled_up p K), (scaled_up q K) in F by lia.
  apply Z.mul_cancel_r in F; [exact F|]. apply Z.pow_nonzero; lia.
Qed.
Lemma sim_refl p : sim p p.
Proof. exists (Z.abs (snd p)). split; [lia|reflexivity]. Qed.
Lemma sim_sym p q : sim p q -> sim q p.
Proof. intros (K & [H1 H2] & E). exists K. split; [lia|now symmetry]. Qed.
Lemma sim_trans p q r : sim p q -> sim q r -> sim p r.
Proof.
  intros H1 H2. set (K := (Z.abs (snd p) + Z.abs (snd q) + Z.abs (snd r))%Z). exists K.
  assert (scaled K p = scaled K q) by (apply sim_all; [lia|lia|exact H1]).
  assert (scaled K q = scaled K r) by (apply sim_all; [lia|lia|exact H2]). split; [lia|congruence].
Qed.
Lemma dbl_eqb_sim f g a b : numval (VFloat f) = Some a -> numval (VFloat g) = Some b -> dbl_eqb f g = true <-> sim a b.
Proof.
  destruct f as [n m e|]; [|discriminate]. destruct g as [n' m' k|]; [|discriminate]. cbn [numval]. intros [= <-] [= <-].
  cbn [dbl_eqb]. set (x := if n then (- m)%Z else m). set (y := if n' then (- m')%Z else m').
  destruct (Z.leb_spec e k).
  - rewrite Z.eqb_eq. split.
    + intros E. exists (- e)%Z. cbn [fst snd]. split; [lia|]. unfold scaled. cbn [fst snd]. replace (e + - e)%Z with 0%Z by lia.
      replace (k + - e)%Z with (k - e)%Z by lia. rewrite E. cbn. lia.
    + intros S. apply (sim_all _ _ (- e)) in S; cbn [snd]; try lia. unfold scaled in S. cbn [fst snd] in S.
      replace (e + - e)%Z with 0%Z in S by lia. replace (k + - e)%Z with (k - e)%Z in S by lia. cbn in S. lia.
  - rewrite Z.eqb_eq. split.
    + intros E. exists (- k)%Z. cbn [fst snd]. split; [lia|]. unfold scaled. cbn [fst snd]. replace (k + - k)%Z with 0%Z by lia.
      replace (e + - k)%Z with (e - k)%Z by lia. rewrite E. cbn. lia.
    + intros S. apply (sim_all _ _ (- k)) in S; cbn [snd]; try lia. unfold scaled in S. cbn [fst snd] in S.
      replace (k + - k)%Z with 0%Z in S by lia. replace (e + - k)%Z with (e - k)%Z in S by lia. cbn in S. lia.
Qed.
Lemma dbl_eq_Z_sim f z a : numval (VFloat f) = Some a -> dbl_eq_Z f z = true <-> sim a (z, 0%Z).
Proof.
  destruct f as [n m e|]; [|discriminate]. cbn [numval]. intros [= <-]. cbn [dbl_eq_Z]. set (x := if n then (- m)%Z else m).
  destruct (Z.leb_spec 0 e).
  - rewrite Z.eqb_eq. split.
    + intros E. exists 0%Z. cbn [fst snd]. split; [lia|]. unfold scaled. cbn [fst snd]. rewrite Z.add_0_r, E. cbn. lia.
    + intros S. apply (sim_all _ _ 0) in S; cbn [snd]; try lia. unfold scaled in S. cbn [fst snd] in S. rewrite Z.add_0_r in S. cbn in S. lia.
  - rewrite Z.eqb_eq. split.
    + intros E. exists (- e)%Z. cbn [fst snd]. split; [lia|]. unfold scaled. cbn [fst snd]. replace (e + - e)%Z with 0%Z by lia.
      rewrite E. cbn. lia.
    + intros S. apply (sim_all _ _ (- e)) in S; cbn [snd]; try lia. unfold scaled in S. cbn [fst snd] in S.
      replace (e + - e)%Z with 0%Z in S by lia. cbn in S. lia.
Qed.
Lemma int_sim x y : Z.eqb x y = true <-> sim (x, 0%Z) (y, 0%Z).
Proof.
  rewrite Z.eqb_eq. split; [intros ->; apply sim_refl|]. intros S. apply (sim_all _ _ 0) in S; cbn [snd]; try lia. unfold scaled in S. cbn in S. lia.
Qed.
(** [==] is similarity on numbers and equality on everything else *)
Lemma py_eqb_spec a b : is_list a = false -> py_eqb a b = true <->
  match numval a, numval b with Some p, Some q => sim p q | None, None => a = b | _, _ => False end.
Proof.
  intros H. destruct a as [|x|x|[n m e|n]|s|l]; [| | | | | |discriminate H]; destruct b as [|y|y|[n' m' e'|n']|t|l']; lazy beta iota delta [py_eqb numval];
    try (split; [discriminate|now intros []]); try (split; discriminate); try tauto.
  all: first
    [ apply int_sim | rewrite int_sim; split; apply sim_sym | apply dbl_eq_Z_sim; reflexivity
    | etransitivity; [apply dbl_eq_Z_sim; reflexivity|]; split; apply sim_sym | apply dbl_eqb_sim; reflexivity | idtac ].
  - destruct x, y; cbn; (split; intros S); try reflexivity; try discriminate S; try apply sim_refl; apply int_sim in S; discriminate S.
  - cbn [dbl_eqb]. rewrite Bool.eqb_true_iff. split; [now intros ->|now intros [= ->]].
  - split; [intros E; apply str_eqb_eq in E; now subst|intros [= ->]; apply str_eqb_refl].
Qed.
Lemma py_eqb_leaf a b : is_list a = false -> py_eqb a b = true -> is_list b = false.
Proof. destruct a, b; intros H E; try reflexivity; try discriminate H; try discriminate E. Qed.
Lemma py_eqb_sym a b : is_list a = false -> py_eqb a b = true -> py_eqb b a = true.
Proof.
  intros H E. pose proof (py_eqb_leaf _ _ H E) as Hb. apply (py_eqb_spec a b H) in E. apply (py_eqb_spec b a Hb).
  destruct (numval a), (numval b); try contradiction; [now apply sim_sym|now symmetry].
Qed.
Lemma py_eqb_trans a b c : is_list a = false -> py_eqb a b = true -> py_eqb b c = true -> py_eqb a c = true.
Proof.
  intros H E F. pose proof (py_eqb_leaf _ _ H E) as Hb. apply (py_eqb_spec a b H) in E. apply (py_eqb_spec b c Hb) in F. apply (py_eqb_spec a c H).
  destruct (numval a), (numval b), (numval c); try contradiction; [eapply sim_trans; eassumption|congruence].
Qed.
Lemma py_eqb_same a : is_list a = false -> py_eqb a a = true.
Proof. intros H. apply (py_eqb_spec a a H). destruct (numval a); [apply sim_refl|reflexivity]. Qed.

(** ** Assignments one after the other *)
Definition leaf_keys {T} (l : list (val * T)) : Prop := Forall (fun kv => is_list (fst kv) = false) l.
Lemma first_keys_snoc {T} (l : list (val * T)) k v : forall seen,
  first_keys seen (l ++ [(k, v)]) = first_keys seen l ++ (if existsb (key_is k) (seen ++ l) then [] else [k]).
Proof.
  induction l as [|x l IH]; intros seen; cbn [app first_keys fst].
  - rewrite !app_nil_r. reflexivity.
  - rewrite IH, <- !app_assoc. reflexivity.
Qed.
Lemma values_of_snoc {T} k (l : list (val * T)) kv : values_of k (l ++ [kv]) = (if key_is k kv then [snd kv] else []) ++ values_of k l.
Proof. unfold values_of. rewrite filter_app, map_app, rev_app_distr. cbn [filter]. now destruct (key_is k kv). Qed.
(* what holds of the dictionary made so far *)
Record made {T} (l d : list (val * T)) : Prop := {
  md_keys : map fst d = first_keys [] l;
  md_vals : forall k v, In (k, v) d -> exists older, values_of k l = v :: older;
  md_leaf : leaf_keys d;
  md_cover : forall kv, In kv l -> existsb (fun k => py_eqb k (fst kv)) (map fst d) = true;
  md_apart : ForallOrdPairs (fun a b => py_eqb a b = false) (map fst d) }.
Fixpoint put {T} (d : list (val * T)) (k : val) (v : T) : list (val * T) :=
  match d with
  | [] => [(k, v)]
  | (k', v') :: d' => if py_eqb k' k then (k', v) :: d' else (k', v') :: put d' k v
  end.
Lemma put_new {T} (d : list (val * T)) k v : existsb (fun k' => py_eqb k' k) (map fst d) = false -> put d k v = d ++ [(k, v)].
Proof.
  induction d as [|[k' v'] d IH]; cbn [map existsb fst put app]; [reflexivity|]. intros E. apply orb_false_elim in E as [E1 E2].
  rewrite E1. now rewrite IH.
Qed.
Lemma put_old {T} (d : list (val * T)) k v : existsb (fun k' => py_eqb k' k) (map fst d) = true ->
  exists a k' v' b, d = a ++ (k', v') :: b /\ put d k v = a ++ (k', v) :: b /\ py_eqb k' k = true.
Proof.
  induction d as [|[k1 v1] d IH]; cbn [map existsb fst put]; [discriminate|]. destruct (py_eqb k1 k) eqn:E.
  - intros _. now exists [], k1, v1, d.
  - cbn [orb]. intros H. destruct (IH H) as (a & k' & v' & b & -> & -> & F). now exists ((k1, v1) :: a), k', v', b.
Qed.
Lemma ordpairs_mid {A} (R : A -> A -> Prop) a x b : ForallOrdPairs R (a ++ x :: b) -> (forall y, In y a -> R y x) /\ (forall y, In y b -> R x y).
Proof.
  induction a as [|z a IH]; cbn [app]; intros H; inversion H as [|? ? F G]; subst.
  - split; [intros ? []|]. intros y I. rewrite Forall_forall in F. now apply F.
  - destruct (IH G) as [H1 H2]. split; [|exact H2]. intros y [<-|I]; [|now apply H1]. rewrite Forall_forall in F. apply F. apply in_or_app. right. now left.
Qed.
Lemma made_nil {T} : made (T := T) [] [].
Proof. constructor; cbn; try constructor; try contradiction. Qed.
Lemma existsb_first {T} (l : list (val * T)) d k : is_list k = false -> leaf_keys l -> made l d ->
  existsb (key_is k) l = existsb (fun k' => py_eqb k' k) (map fst d).
Proof.
  intros Hk Hl M. apply eq_true_iff_eq. rewrite !existsb_exists. split.
  - intros (kv & I & E). pose proof (md_cover _ _ M kv I) as C. apply existsb_exists in C as (k' & I' & E').
    exists k'. split; [exact I'|]. eapply py_eqb_trans; [|exact E'|exact E].
    apply in_map_iff in I' as ([k1 v1] & <- & I'). pose proof (md_leaf _ _ M) as F. unfold leaf_keys in F. rewrite Forall_forall in F. exact (F _ I').
  - intros (k' & I & E). apply in_map_iff in I as ([k1 v1] & Ek & I). cbn [fst] in Ek. subst k1.
    destruct (md_vals _ _ M _ _ I) as (older & V). unfold values_of in V.
    assert (J : In v1 (map snd (filter (key_is k') l))). { apply in_rev. rewrite V. now left. }
    apply in_map_iff in J as ([k2 v2] & _ & J). apply filter_In in J as [J1 J2]. exists (k2, v2). split; [exact J1|].
    unfold key_is in *. cbn [fst] in *. unfold leaf_keys in Hl. rewrite Forall_forall in Hl.
    eapply py_eqb_trans; [exact (Hl _ J1)|exact J2|exact E].
Qed.
Lemma made_snoc {T} (l d : list (val * T)) k v : is_list k = false -> leaf_keys l -> made l d -> made (l ++ [(k, v)]) (put d k v).
Proof.
  intros Hk Hl M. pose proof (existsb_first l d k Hk Hl M) as X. destruct M as [M1 M2 M3 M4 M5].
  destruct (existsb (fun k' => py_eqb k' k) (map fst d)) eqn:E.
  - destruct (put_old d k v E) as (a & k' & v' & b & D & P & F). rewrite P.
    assert (Mf : map fst (a ++ (k', v) :: b) = map fst d) by (rewrite D, !map_app; reflexivity).
    assert (Hk' : is_list k' = false). { rewrite D in M3. unfold leaf_keys in M3. rewrite Forall_forall in M3. apply (M3 (k', v')). apply in_or_app. right. now left. }
    constructor.
    + rewrite Mf, M1, (first_keys_snoc l k v []). cbn [app]. rewrite X. now rewrite app_nil_r.
    + intros k0 v0 I. rewrite values_of_snoc. unfold key_is at 1. cbn [fst snd]. apply in_app_or in I as [I|[I|I]].
      * assert (N : py_eqb k k0 = false).
        { rewrite D, map_app in M5. cbn [map fst] in M5. apply ordpairs_mid in M5 as [H1 _].
          specialize (H1 k0 (in_map fst _ _ I)). cbn in H1. destruct (py_eqb k k0) eqn:G; [|reflexivity].
          assert (is_list k0 = false). { exact (py_eqb_leaf _ _ Hk G). }
          rewrite (py_eqb_trans k0 k k') in H1; [discriminate H1|assumption|now apply py_eqb_sym|now apply py_eqb_sym]. }
        rewrite N. cbn [app]. apply M2. rewrite D. apply in_or_app. now left.
      * injection I as <- <-. rewrite (py_eqb_sym k' k Hk' F). cbn [app]. eexists. reflexivity.
      * assert (N : py_eqb k k0 = false).
        { rewrite D, map_app in M5. cbn [map fst] in M5. apply ordpairs_mid in M5 as [_ H1].
          specialize (H1 k0 (in_map fst _ _ I)). destruct (py_eqb k k0) eqn:G; [|reflexivity].
          rewrite (py_eqb_trans k' k k0) in H1; [discriminate H1|exact Hk'|exact F|exact G]. }
        rewrite N. cbn [app]. apply M2. rewrite D. apply in_or_app. right. now right.
    + unfold leaf_keys in *. rewrite D in M3. apply Forall_app in M3 as [Ha Hb]. apply Forall_app. split; [exact Ha|].
      inversion Hb; subst. constructor; assumption.
    + rewrite Mf. intros kv I. apply in_app_or in I as [I|[<-|[]]]; [now apply M4|]. exact E.
    + now rewrite Mf.
  - rewrite (put_new d k v E). constructor.
    + rewrite map_app, M1, (first_keys_snoc l k v []). cbn [app]. now rewrite X.
    + intros k0 v0 I. rewrite values_of_snoc. unfold key_is at 1. cbn [fst snd]. apply in_app_or in I as [I|[I|[]]].
      * assert (N : py_eqb k k0 = false).
        { destruct (py_eqb k k0) eqn:G; [|reflexivity]. rewrite <- E. symmetry. apply existsb_exists. exists k0. split; [now apply (in_map fst) in I|].
          now apply py_eqb_sym. }
        rewrite N. cbn [app]. now apply M2.
      * injection I as <- <-. rewrite (py_eqb_same k Hk). cbn [app]. eexists. reflexivity.
    + unfold leaf_keys in *. apply Forall_app. split; [exact M3|]. constructor; [exact Hk|constructor].
    + intros kv I. rewrite map_app, existsb_app. apply orb_true_iff. apply in_app_or in I as [I|[<-|[]]].
      * left. now apply M4.
      * right. cbn [map existsb fst]. now rewrite (py_eqb_same k Hk).
    + rewrite map_app. cbn [map fst]. clear - M5 E. induction (map fst d) as [|x xs IH]; cbn [app].
      * constructor; constructor.
      * cbn [existsb] in E. apply orb_false_elim in E as [E1 E2]. inversion M5; subst. constructor; [|now apply IH].
        apply Forall_app. split; [assumption|]. constructor; [exact E1|constructor].
Qed.
Lemma dict_put_put d k v : dict_put d k v = put d k v.
Proof. induction d as [|[k' v'] d IH]; cbn [dict_put put]; [reflexivity|]. now rewrite IH. Qed.

(** ** Reading loops that assign *)
Definition Puts {A} (p : A -> list (val * val)) (r : res (val * val)) (o : A) (m : res A) : Prop :=
  forall o', m = Ok o' -> exists k v, r = Ok (k, v) /\ is_list k = false /\ p o' = put (p o) k v.
Lemma Puts_seq_l {A} (p : A -> list (val * val)) r o m k : Puts p r o m -> (forall o1, Keep p o1 (k o1)) -> Puts p r o (bind m k).
Proof.
  intros H K o' E. apply bind_inv in E as (o1 & E1 & E2). destruct (H _ E1) as (a & b & -> & L & E). exists a, b.
  split; [reflexivity|]. split; [exact L|]. now rewrite (K _ _ E2).
Qed.
Lemma Puts_seq_r {A} (p : A -> list (val * val)) r o m k : Keep p o m -> (forall o1, Puts p r o1 (k o1)) -> Puts p r o (bind m k).
Proof.
  intros H K o' E. apply bind_inv in E as (o1 & E1 & E2). destruct (K _ _ E2) as (a & b & -> & L & E). exists a, b.
  split; [reflexivity|]. split; [exact L|]. now rewrite E, (H _ E1).
Qed.
Lemma Puts_fold {A} (p : A -> list (val * val)) (st : A -> val -> res A) keys f items :
  (forall o x, headed keys x = false -> Keep p o (st o x)) ->
  (forall o x, headed keys x = true -> Puts p (f x) o (st o x)) ->
  forall o o' l0, foldM st o items = Ok o' -> leaf_keys l0 -> made l0 (p o) ->
  exists l, mapM f (filter (headed keys) items) = Ok l /\ made (l0 ++ l) (p o').
Proof.
  intros K G. induction items as [|x items IH]; intros o o' l0 H L M.
  - injection H as <-. exists []. split; [reflexivity|]. now rewrite app_nil_r.
  - change (foldM st o (x :: items)) with (bind (st o x) (fun o => foldM st o items)) in H. apply bind_inv in H as (o1 & H1 & H2). cbn [filter].
    destruct (headed keys x) eqn:E.
    + destruct (G o x E _ H1) as (k & v & F & Lk & P). destruct (IH o1 o' (l0 ++ [(k, v)]) H2) as (l & F2 & M2).
      * apply Forall_app. split; [exact L|]. constructor; [exact Lk|constructor].
      * rewrite P. now apply made_snoc.
      * exists ((k, v) :: l). cbn [mapM]. rewrite F. cbn [bind]. rewrite F2. split; [reflexivity|]. now rewrite <- app_assoc in M2.
    + apply (IH o1 o' l0 H2 L). now rewrite (K _ _ E _ H1).
Qed.
Lemma collects_dict_of {A} (from : val -> res A) npos keys f (p : A -> list (val * val)) :
  (forall items o, from (VList items) = Ok o -> exists st o0, foldM st o0 (skipn npos items) = Ok o /\ p o0 = []
    /\ (forall o x, headed keys x = false -> Keep p o (st o x)) /\ (forall o x, headed keys x = true -> Puts p (f x) o (st o x))) ->
  collects_dict from npos keys f p.
Proof.
  intros H items o E. destruct (H items o E) as (st & o0 & E1 & P & K & G).
  destruct (Puts_fold p st keys f _ K G o0 o [] E1) as (l & F & M); [constructor|rewrite P; exact made_nil|].
  exists l. split; [exact F|]. split; [exact (md_keys _ _ M)|exact (md_vals _ _ M)].
Qed.
Ltac puts_step :=
  lazymatch goal with
  | |- Puts _ _ _ (bind (at_ _ _) _) => cbn [at_ nth_error bind]
  | |- Puts _ _ _ (if ?b then _ else _) => let v := eval vm_compute in b in change b with v; cbv iota
  | |- Puts _ _ _ (bind (on ?b _ _) _) =>
      let v := eval vm_compute in b in change b with v;
      lazymatch v with
      | true => cbn [on]; first [ apply Puts_seq_r; [solve [gkeep] | intros ?] | apply Puts_seq_l; [cbv beta | intros ?; solve [gkeep]] ]
      | false => cbn [on bind]
      end
  end; cbv beta.
Ltac puts_item X_step :=
  let o := fresh "o" in let x := fresh "x" in let H := fresh "H" in let h := fresh "h" in let args := fresh "args" in intros o x H;
  destruct x as [| | | | |[|h args]]; try discriminate H; cbn [headed existsb] in H;
  apply orb_prop in H as [H|H]; [|discriminate H]; apply is_str_eq in H; subst h;
  unfold X_step; repeat puts_step.
