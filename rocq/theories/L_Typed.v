(** Proofs for C51: what is read from an expression with values of the right kinds.
    [sat P m]: if [m] returns, it returns an object with [P]. *)
From Coq Require Import String.
From Verif Require Import PyBase PyNum PyStr Sexpr S_Leaf S_Tree S_Fix M_Common M_Brd M_Sch S_Common S_Footprint S_Sch S_Accept L_Accept L_Dict L_Tac S_Typed.

Definition sat {A} (P : A -> Prop) (m : res A) : Prop := forall a, m = Ok a -> P a.
Lemma sat_ok {A} (P : A -> Prop) a : P a -> sat P (Ok a).
Proof. intros H b E. injection E as <-. exact H. Qed.
Lemma sat_err {A} (P : A -> Prop) e : sat P (Err e).
Proof. intros b E. discriminate E. Qed.
Lemma sat_bind {A B} (Q : A -> Prop) (P : B -> Prop) m k : sat Q m -> (forall a, Q a -> sat P (k a)) -> sat P (bind m k).
Proof. intros H K b E. destruct m as [a|e]; [|discriminate E]. exact (K a (H a eq_refl) b E). Qed.
Lemma sat_assoc {A B C} (P : C -> Prop) (m : res A) (k : A -> res B) (f : B -> res C) :
  sat P (bind m (fun a => bind (k a) f)) -> sat P (bind (bind m k) f).
Proof. now destruct m. Qed.
Lemma sat_on {A} (P : A -> Prop) b f o : (b = true -> sat P (f o)) -> P o -> sat P (on b f o).
Proof. intros H K. destruct b; [now apply H|now apply sat_ok]. Qed.
Lemma sat_off {A} (P : A -> Prop) b (f : A -> res A) (k : A -> res A) o : b = false -> sat P (k o) -> sat P (bind (on b f o) k).
Proof. intros -> H. exact H. Qed.
Lemma sat_row {A} (P : A -> Prop) b f o k : P o -> (b = true -> sat P (f o)) -> (forall o, P o -> sat P (k o)) -> sat P (bind (on b f o) k).
Proof. intros H F K. apply (sat_bind P); [now apply sat_on|exact K]. Qed.
Lemma sat_fold {A} (P : A -> Prop) (T : val -> bool) step : (forall o x, P o -> T x = true -> sat P (step o x)) ->
  forall l o, P o -> forallb T l = true -> sat P (foldM step o l).
Proof.
  intros H l. induction l as [|x l IH]; intros o Ho Hl; [now apply sat_ok|].
  cbn [forallb] in Hl. apply andb_prop in Hl as [Hx Hl]. cbn [foldM].
  apply (sat_bind P); [now apply H|]. intros o' Ho'. now apply IH.
Qed.
Lemma sat_mapM {B} (T : val -> bool) (P : B -> bool) f : (forall x, T x = true -> sat (fun y => P y = true) (f x)) ->
  forall l, forallb T l = true -> sat (fun r => forallb P r = true) (mapM f l).
Proof.
  intros H l. induction l as [|x l IH]; intros Hl; [now apply sat_ok|].
  cbn [forallb] in Hl. apply andb_prop in Hl as [Hx Hl]. cbn [mapM].
  apply (sat_bind (fun y => P y = true)); [now apply H|]. intros y Hy.
  apply (sat_bind (fun r => forallb P r = true)); [now apply IH|]. intros r Hr.
  apply sat_ok. cbn [forallb]. now rewrite Hy, Hr.
Qed.
Lemma sat_at n K v : at_place n K v = true -> sat (fun x => K x = true) (v@n).
Proof.
  intros H x E. destruct v as [| | | | |l]; try discriminate H. cbn [at_place at_] in H, E.
  destruct (nth_error l n); [|discriminate E]. injection E as ->. exact H.
Qed.
Lemma sat_any {A} (m : res A) : sat (fun _ => True) m.
Proof. now intros a _. Qed.
Lemma sat_eq {A} (a : A) : sat (fun x => x = a) (Ok a).
Proof. now apply sat_ok. Qed.
Lemma sat_img {A B} (Q : A -> Prop) m (g : A -> B) : sat Q m -> sat (fun y => exists a, y = g a /\ Q a) (bind m (fun a => Ok (g a))).
Proof. intros H. apply (sat_bind Q); [exact H|]. intros a Ha. apply sat_ok. now exists a. Qed.
Lemma sat_set {R T} (p : R -> T) {S : Setter p} (Q : T -> Prop) m o : sat Q m -> sat (fun o' => exists x, o' = set p (fun _ => x) o /\ Q x) (setf p m o).
Proof. intros H. apply (sat_bind Q); [exact H|]. intros a Ha. apply sat_ok. now exists a. Qed.
Lemma sat_setf {R T} (p : R -> T) {S : Setter p} (Q : T -> Prop) (P : R -> Prop) m o :
  sat Q m -> (forall x, Q x -> P (set p (fun _ => x) o)) -> sat P (setf p m o).
Proof. intros H K. apply (sat_bind Q); [exact H|]. intros a Ha. apply sat_ok. now apply K. Qed.
Lemma sat_addf {R T} (p : R -> list T) {S : Setter p} (Q : T -> Prop) (P : R -> Prop) m o :
  sat Q m -> (forall x, Q x -> P (set p (fun l => l ++ [x]) o)) -> sat P (addf p m o).
Proof. intros H K. apply (sat_bind Q); [exact H|]. intros a Ha. apply sat_ok. now apply K. Qed.
Lemma sat_extf {R T} (p : R -> list T) {S : Setter p} (Q : list T -> Prop) (P : R -> Prop) m o :
  sat Q m -> (forall x, Q x -> P (set p (fun l => l ++ x) o)) -> sat P (extf p m o).
Proof. intros H K. apply (sat_bind Q); [exact H|]. intros a Ha. apply sat_ok. now apply K. Qed.
Lemma sat_weak {A} (Q P : A -> Prop) m : (forall a, Q a -> P a) -> sat Q m -> sat P m.
Proof. intros H K a E. apply H, K, E. Qed.

Lemma and_keep a b a' b' : (a = true -> a' = true) -> (b = true -> b' = true) -> a && b = true -> a' && b' = true.
Proof. destruct a, b; cbn; intros H K E; try discriminate E. now rewrite H, K. Qed.
Lemma optb_i K v : K v = true -> optb K v = true.
Proof. intros H. unfold optb. rewrite H. apply Bool.orb_true_r. Qed.
(** a value of the kind, or missing *)
Definition orv (K : val -> bool) (v : val) : bool := negb (given v) || K v.
Lemma orv_i K v : K v = true -> orv K v = true.
Proof. intros H. unfold orv. rewrite H. apply Bool.orb_true_r. Qed.
Lemma orv_e K v : orv K v = true -> given v = true -> K v = true.
Proof. unfold orv. intros H E. now rewrite E in H. Qed.
Lemma snoc_i {A} (K : A -> bool) l x : forallb K l = true -> K x = true -> forallb K (l ++ [x]) = true.
Proof. intros H E. rewrite forallb_app, H. cbn. now rewrite E. Qed.
Lemma ext_i {A} (K : A -> bool) l x : forallb K l = true -> forallb K x = true -> forallb K (l ++ x) = true.
Proof. intros H E. now rewrite forallb_app, H. Qed.
Lemma opt_e {A} (W K : A -> bool) o : optok (fun x => implb (W x) (K x)) o = true -> optok W o = true -> optok K o = true.
Proof. destruct o as [x|]; [|reflexivity]. unfold optok. destruct (W x); cbn; [auto|discriminate]. Qed.
Lemma all_e {A} (W K : A -> bool) o : forallb (fun x => implb (W x) (K x)) o = true -> forallb W o = true -> forallb K o = true.
Proof.
  induction o as [|x o IH]; [reflexivity|]. cbn [forallb]. intros H E.
  apply andb_prop in H as [H1 H2], E as [E1 E2]. rewrite E1 in H1. cbn in H1. now rewrite H1, IH.
Qed.
Lemma one_e {A} (W K : A -> bool) o : implb (W o) (K o) = true -> W o = true -> K o = true.
Proof. intros H E. now rewrite E in H. Qed.
Lemma some_e {A} (K : A -> bool) o : optok K o = true -> negb (no_object o) = true -> some_ok K o = true.
Proof. destruct o as [x|]; [|discriminate]. intros H _. exact H. Qed.
Lemma implb_i a b : (a = true -> b = true) -> implb a b = true.
Proof. destruct a; [auto|reflexivity]. Qed.
Lemma if_true (b c : bool) : (if b then c else true) = true -> b = true -> c = true.
Proof. now intros H ->. Qed.

(** [xy], [xya] and [xyau] *)
Lemma num_str v k : numb v = true -> (v =s k) = false.
Proof. now destruct v. Qed.
Lemma str_no_list h l k : (VList (h :: l) =s k) = false.
Proof. reflexivity. Qed.
Ltac bools := repeat match goal with
  | H : andb _ _ = true |- _ => apply andb_prop in H; destruct H
  | H : negb ?b = true |- _ => apply Bool.negb_true_iff in H end.
Lemma locked_t (P : Position -> Prop) l o : forallb (fun x => negb (x =s "unlocked")) l = true -> P o ->
  sat P (foldM (fun o item => on (item =s "unlocked") (setf po_unlocked (Ok true)) o) o l).
Proof.
  intros H Ho. refine (sat_fold P _ _ _ l o Ho H). intros o' x Ho' Hx. apply sat_on; [|exact Ho'].
  intros E. rewrite E in Hx. discriminate Hx.
Qed.
Lemma xy_t v : xy v = true -> sat (fun p => pos2_ok p = true) (Position_from v).
Proof.
  destruct v as [| | | | |[|h [|x [|y [|z l]]]]]; try discriminate. unfold xy. intros H. bools. apply locked_t.
  - cbn [forallb]. rewrite (num_str x), (num_str y) by assumption. match goal with H : (h =s _) = false |- _ => now rewrite H end.
  - unfold pos2_ok, Position_ok. cbn. repeat match goal with H : numb _ = true |- _ => rewrite H; clear H end. reflexivity.
Qed.
Lemma xy_t3 v : xy v = true -> sat (fun p => pos3_ok p = true) (Position_from v).
Proof.
  intros H. eapply sat_weak; [|now apply xy_t]. cbv beta. intros p. unfold pos2_ok, pos3_ok. intros E. bools.
  match goal with E : Position_ok p = true |- _ => rewrite E end. match goal with E : po_unlocked p = false |- _ => now rewrite E end.
Qed.
Lemma xya_t v : xya v = true -> sat (fun p => pos3_ok p = true) (Position_from v).
Proof.
  destruct v as [| | | | |[|h [|x [|y [|z [|u l]]]]]]; try discriminate; [now apply xy_t3|].
  unfold xya. intros H. bools. unfold Position_from. cbn [length Nat.ltb Nat.leb setf at_ nth_error bind on]. cbv zeta.
  cbn [bind]. rewrite (num_str z) by assumption. cbn [negb on bind]. apply locked_t.
  - cbn [forallb]. rewrite (num_str x), (num_str y), (num_str z) by assumption. match goal with H : (h =s _) = false |- _ => now rewrite H end.
  - unfold pos3_ok, Position_ok, optb. cbn. repeat match goal with H : numb _ = true |- _ => rewrite H; clear H end. now rewrite Bool.orb_true_r.
Qed.
Lemma xyau_t v : xyau v = true -> sat (fun p => pos4_ok p = true) (Position_from v).
Proof.
  intros H a E. assert (K : exists h x y l, v = VList (h :: x :: y :: l) /\ numb x = true /\ numb y = true
    /\ match l with z :: _ => (numb z || (z =s "unlocked")) = true | [] => True end).
  { destruct v as [| | | | |[|h [|x [|y [|z [|u [|w l]]]]]]]; try discriminate H; cbn [xyau xy] in H; bools;
      [exists h, x, y, [] | exists h, x, y, [z] | exists h, x, y, [z; u]]; repeat split; trivial.
    match goal with K : numb z = true |- _ => now rewrite K end. }
  destruct K as (h & x & y & l & -> & Hx & Hy & Hz). revert a E. change (sat (fun p => pos4_ok p = true) (Position_from (VList (h :: x :: y :: l)))).
  unfold Position_from. cbn [length Nat.ltb Nat.leb].
  set (P := fun p => pos4_ok p = true). eapply sat_bind; [apply sat_set; exact (sat_at 1 numb (VList (h :: x :: y :: l)) Hx)|]. intros ? (x' & -> & Hx').
  eapply sat_bind; [apply sat_set; exact (sat_at 2 numb (VList (h :: x :: y :: l)) Hy)|]. intros ? (y' & -> & Hy').
  apply (sat_bind P).
  - destruct l as [|z l]; cbn [length Nat.leb].
    + apply sat_ok. unfold P, pos4_ok, Position_ok. cbn. now rewrite Hx', Hy'.
    + apply sat_on; [intros _; cbn [at_ nth_error bind]; apply sat_on; [intros Hn|]|].
      * apply sat_ok. unfold P, pos4_ok, Position_ok, optb. cbn. rewrite Hx', Hy'. cbn.
        destruct (z =s "unlocked"); [discriminate Hn|]. rewrite Bool.orb_false_r in Hz. rewrite Hz. apply Bool.orb_true_r.
      * unfold P, pos4_ok, Position_ok. cbn. now rewrite Hx', Hy'.
      * unfold P, pos4_ok, Position_ok. cbn. now rewrite Hx', Hy'.
  - intros o Ho. apply (sat_fold P always); [|exact Ho|apply always_all].
    intros o' z Ho' _. apply sat_on; [intros _|exact Ho']. apply sat_ok. exact Ho'.
Qed.

Lemma named_at T v : named T v = true -> sat (fun x => T x = true) (v@2).
Proof. intros H x E. destruct v as [| | | | |[|a [|b [|c l]]]]; try discriminate. injection E as <-. exact H. Qed.
Lemma keys_fst d d' : map fst d = map fst d' -> dict_keys_ok d = dict_keys_ok d'.
Proof.
  revert d'. induction d as [|[k v] d IH]; intros [|[k' v'] d']; try discriminate; [reflexivity|].
  cbn [map fst]. intros E. injection E as -> E. cbn [dict_keys_ok]. rewrite (IH _ E). f_equal.
  clear IH. revert d' E. induction d as [|[k v0] d IH]; intros [|[k2 v2] d']; try discriminate; [reflexivity|].
  cbn [map fst forallb]. intros E. injection E as -> E. now rewrite (IH _ E).
Qed.
Lemma put_cases d k v : (map fst (dict_put d k v) = map fst d /\ existsb (fun kv => py_eqb (fst kv) k) d = true)
  \/ (dict_put d k v = d ++ [(k, v)] /\ existsb (fun kv => py_eqb (fst kv) k) d = false).
Proof.
  induction d as [|[a b] d IH]; [now right|]. cbn [dict_put existsb fst map]. destruct (py_eqb a k) eqn:E; [now left|].
  destruct IH as [[H F]|[H F]]; [left|right]; cbn [map fst app]; rewrite H; auto.
Qed.
Lemma keys_snoc d k v : dict_keys_ok d = true -> existsb (fun kv => py_eqb (fst kv) k) d = false -> dict_keys_ok (d ++ [(k, v)]) = true.
Proof.
  induction d as [|[a b] d IH]; [reflexivity|]. cbn [dict_keys_ok app existsb fst]. intros H E.
  apply andb_prop in H as [H1 H2]. apply Bool.orb_false_iff in E as [E1 E2].
  rewrite forallb_app, H1, (IH H2 E2). cbn. now rewrite E1.
Qed.
Lemma norm_fst d d' : map fst d = map fst d' -> map fst (dict_norm d) = map fst (dict_norm d').
Proof. intros H. unfold dict_norm. rewrite !map_map. cbn. rewrite <- !(map_map fst nrm), H. reflexivity. Qed.
Lemma atomb_leaf v : atomb v = true -> is_list v = false.
Proof. now destruct v. Qed.
Lemma nrm_leaf v : is_list v = false -> is_list (nrm v) = false.
Proof. destruct v; try reflexivity; try discriminate. unfold nrm. now destruct (is_integer _). Qed.
Lemma py_eqb_nrm2 a k : is_list a = false -> is_list k = false -> py_eqb a k = false -> py_eqb (nrm a) (nrm k) = false.
Proof.
  intros A K H. destruct (py_eqb (nrm a) (nrm k)) eqn:E; [|reflexivity]. rewrite <- H. symmetry.
  eapply py_eqb_trans; [exact A|apply py_eqb_nrm|]. eapply py_eqb_trans; [now apply nrm_leaf|exact E|].
  apply py_eqb_sym; [exact K|apply py_eqb_nrm].
Qed.
Lemma put_all (P : val * val -> bool) d k v : (forall a b, P (a, b) = true -> P (a, v) = true) -> P (k, v) = true -> forallb P d = true -> forallb P (dict_put d k v) = true.
Proof.
  intros Q H. induction d as [|[a b] d IH]; cbn [dict_put forallb]; [now rewrite H|].
  intros E. apply andb_prop in E as [E1 E2]. destruct (py_eqb a k); cbn [forallb]; [now rewrite (Q _ _ E1), E2|now rewrite E1, IH].
Qed.
Lemma dict_put_ok d k v : dict_ok d = true -> atomb k = true -> txtb v = true -> dict_ok (dict_put d k v) = true.
Proof.
  intros D K V. unfold dict_ok in *. apply andb_prop in D as [D D3]. apply andb_prop in D as [D1 D2].
  apply andb_true_intro; split; [apply andb_true_intro; split|].
  - apply put_all; [|cbn; now rewrite K|exact D1]. cbn. intros a b H. apply andb_prop in H as [H _]. now rewrite H.
  - destruct (put_cases d k v) as [[H F]|[H F]]; [now rewrite (keys_fst _ _ H)|rewrite H; now apply keys_snoc].
  - destruct (put_cases d k v) as [[H F]|[H F]]; [now rewrite (keys_fst _ _ (norm_fst _ _ H))|rewrite H].
    unfold dict_norm in *. rewrite map_app. apply keys_snoc; [exact D3|]. cbn [fst]. clear - D1 F K. induction d as [|[a b] d IH]; [reflexivity|].
    cbn [map existsb fst forallb] in *. apply andb_prop in D1 as [A D1]. apply andb_prop in A as [A _]. apply Bool.orb_false_iff in F as [F1 F2].
    rewrite (IH D1 F2). rewrite py_eqb_nrm2; [reflexivity|now apply atomb_leaf..|exact F1].
Qed.
Lemma dict_set_t d k v : dict_ok d = true -> atomb k = true -> txtb v = true -> sat (fun d => dict_ok d = true) (dict_set d k v).
Proof. intros D K V. unfold dict_set. rewrite (atomb_leaf _ K). apply sat_ok. now apply dict_put_ok. Qed.
Lemma put_keys d k v : dict_keys_ok d = true -> dict_keys_ok (dict_put d k v) = true.
Proof. intros D. destruct (put_cases d k v) as [[H F]|[H F]]; [now rewrite (keys_fst _ _ H)|rewrite H; now apply keys_snoc]. Qed.
Lemma two_dict (K V : val -> bool) d k v : forallb (fun kv => K (fst kv) && V (snd kv)) d && dict_keys_ok d = true -> K k = true -> V v = true ->
  sat (fun d => forallb (fun kv => K (fst kv) && V (snd kv)) d && dict_keys_ok d = true) (dict_set d k v).
Proof.
  intros D Hk Hv. unfold dict_set. destruct (is_list k); [apply sat_err|]. apply sat_ok. apply andb_prop in D as [D1 D2].
  apply andb_true_intro; split; [|now apply put_keys]. apply put_all; [|cbn; now rewrite Hk|exact D1].
  cbn. intros a b H. apply andb_prop in H as [H _]. now rewrite H.
Qed.
Lemma text_dict_t d k v : text_dict_ok d = true -> txtb k = true -> txtb v = true -> sat (fun d => text_dict_ok d = true) (dict_set d k v).
Proof. exact (two_dict txtb txtb d k v). Qed.
Lemma pin_dict_t d k v : pin_dict_ok d = true -> txtb k = true -> wordv v = true -> sat (fun d => pin_dict_ok d = true) (dict_set d k v).
Proof. exact (two_dict txtb wordv d k v). Qed.

Create HintDb typd discriminated.
#[export] Hint Constants Opaque : typd.
#[export] Hint Resolve xy_t xya_t xyau_t : typd.

Ltac chg_more := fail.
Ltac chg I :=
  first
    [ assumption
    | refine (optb_i _ _ _); assumption
    | refine (orv_i _ _ _); assumption
    | refine (snoc_i _ _ _ I _); assumption
    | refine (ext_i _ _ _ I _); assumption
    | reflexivity
    | refine (optb_i _ _ _); unfold enumb; cbn [existsb]; rewrite ?Bool.orb_false_r, ?Bool.orb_assoc; assumption
    | match goal with H : ?x = ?v |- _ => is_var x; subst x; reflexivity end
    | unfold enumb; cbn [existsb]; rewrite ?Bool.orb_false_r, ?Bool.orb_assoc; assumption
    | chg_more ].
Ltac keep I :=
  lazymatch goal with
  | |- andb _ _ = true => revert I; apply and_keep; intros I; keep I
  | _ => first [exact I | chg I]
  end.
Ltac start :=
  lazymatch goal with
  | |- andb _ _ = true => apply andb_true_intro; split; start
  | |- _ ?x = true => first [assumption | let y := eval hnf in x in is_var y; chg (@eq_refl bool true) | exact (@eq_refl bool true) | chg (@eq_refl bool true)]
  | _ => exact (@eq_refl bool true)
  end.
Ltac ex_intros := cbv beta in *; repeat match goal with
  | H : exists _, _ |- _ => destruct H
  | H : _ /\ _ |- _ => destruct H
  end; subst.
Ltac leaf_more := fail.
Ltac leaf_first := fail.
Ltac leaf :=
  first [leaf_first |
  lazymatch goal with
  | |- sat _ (at_ ?v ?n) =>
      first [match goal with H : at_place n ?K v = true |- _ => exact (sat_at n K v H) end
            | lazymatch n with 2 => match goal with H : named ?K v = true |- _ => exact (named_at K v H) end end | apply sat_any]
  | |- sat _ (Ok _) => apply sat_eq
  | |- sat _ (is_true _) => apply sat_any
  | |- sat _ (bind (from_ (VList _) _) _) => cbn [from_ skipn bind]; leaf
  | |- sat _ (from_ (VList _) _) => cbn [from_ skipn]; leaf
  | |- sat _ (bind _ (fun x => Ok (@?g x))) => eapply sat_img; leaf
  | |- sat _ (bind _ _) => eapply sat_bind; [leaf | intros ? ?; ex_intros; leaf]
  | |- sat _ (mapM _ _) => eapply sat_mapM; [|eassumption]; intros ? ?; leaf
  | _ => first [solve [eauto 2 with typd nocore] | leaf_more]
  end].
Ltac set_dict I :=
  let J := fresh in pose proof I as J; match type of J with ?f _ = true => unfold f in J end;
  repeat match goal with H : andb _ _ = true |- _ => apply andb_prop in H; destruct H end; first [eapply dict_set_t; eassumption | eapply text_dict_t; eassumption | eapply pin_dict_t; eassumption].
Ltac same_type P o := match type of P with ?A -> Prop => match type of o with A => idtac end end.
Ltac fin_inv inv I := cbv beta; unfold inv in *; keep I.
Ltac br_more inv I := fail.
(** [inv]: the invariant; [o] has it by [I] *)
Ltac br inv I :=
  cbv beta;
  lazymatch goal with
  | |- sat _ (setf _ (dict_set _ _ _) _) => eapply sat_setf; [set_dict I | intros ? ?; ex_intros; fin_inv inv I]
  | |- sat _ (setf _ _ _) => eapply sat_setf; [leaf | intros ? ?; ex_intros; fin_inv inv I]
  | |- sat ?P (bind (len_ (VList ?l)) ?k) => change (sat P (k (length l))); cbn [length Nat.eqb]; br inv I
  | |- sat _ (addf _ _ _) => eapply sat_addf; [leaf | intros ? ?; ex_intros; fin_inv inv I]
  | |- sat _ (extf _ _ _) => eapply sat_extf; [leaf | intros ? ?; ex_intros; fin_inv inv I]
  | |- sat _ (Ok _) => apply sat_ok; fin_inv inv I
  | |- sat _ (Err _) => apply sat_err
  | |- sat _ (on _ _ _) => apply sat_on; [intros ?; br inv I | exact I]
  | |- sat _ (if ?b then _ else _) => destruct b eqn:?; br inv I
  | |- sat ?P (bind (setf _ _ _) _) => apply (sat_bind P); [br inv I | clear I; intros ? I; br inv I]
  | |- sat ?P (bind (on _ _ _) _) => apply (sat_bind P); [br inv I | clear I; intros ? I; br inv I]
  | |- sat _ (bind (dict_set _ _ _) _) => eapply sat_bind; [set_dict I | intros ? ?; ex_intros; br inv I]
  | |- sat _ (bind _ _) => eapply sat_bind; [leaf | intros ? ?; ex_intros; br inv I]
  | _ => br_more inv I
  end.
Ltac look_more := idtac.
(** in a branch for the head: look up what the table says *)
Ltac look1 E := repeat match goal with
  | H : (if ?b then ?c else true) = true |- _ => lazymatch type of E with b = true => apply (fun H => if_true _ _ H E) in H end
  end; unfold both in *; repeat match goal with H : andb _ _ = true |- _ => apply andb_prop in H; destruct H end;
  repeat match goal with H : behind _ _ (VList _) = true |- _ => cbn [behind skipn] in H end; try discriminate; look_more.
Ltac look E :=
  lazymatch type of E with
  | orb _ _ = true => let E' := fresh in pose proof E as E'; apply Bool.orb_prop in E; destruct E as [E|E]; look E
  | _ => look1 E
  end.
Ltac tchain inv I :=
  cbv beta;
  lazymatch goal with
  | |- sat ?P (bind (at_ (VList (?h :: ?l)) 0) ?k) => change (sat P (k h)); tchain inv I
  | |- sat ?P (bind (at_ (VStr (?c :: ?s)) 0) ?k) => change (sat P (k (VStr [c]))); tchain inv I
  | |- sat ?P (bind (at_ (VStr []) 0) ?k) => apply sat_err
  | |- sat ?P (bind (at_ (VStr ?s) 0) ?k) => is_var s; destruct s; tchain inv I
  | |- sat ?P (bind (at_ _ 0) ?k) => apply sat_err
  | |- sat _ (bind (on (is_str (VStr [_]) _) _ _) _) => apply sat_off; [apply char_no; discriminate | tchain inv I]
  | |- sat _ (bind (on (orb (is_str (VStr [_]) _) _) _ _) _) => apply sat_off; [rewrite !char_no by discriminate; reflexivity | tchain inv I]
  | |- sat _ (if negb (is_list _) then _ else _) => cbn [is_list negb]; tchain inv I
  | |- sat _ (if negb (is_list _) && _ then _ else _) => cbn [is_list negb andb]; tchain inv I
  | |- sat _ (if ?b then _ else _) => destruct b eqn:?; tchain inv I
  | |- sat _ (bind (on (negb (is_list (VList _))) _ _) _) => apply sat_off; [reflexivity | tchain inv I]
  | |- sat ?P (bind (on _ _ _) _) =>
      let E := fresh "E" in
      apply sat_row; [exact I | intros E; look E; solve [br inv I] | clear I; intros ? I; tchain inv I]
  | |- sat _ (on _ _ _) => let E := fresh "E" in apply sat_on; [intros E; look E; solve [br inv I] | exact I]
  | |- sat _ (Ok _) => apply sat_ok; exact I
  | |- sat _ (Err _) => apply sat_err
  | _ => br inv I
  end.
Ltac split_rows R := cbn [forallb fst snd] in R; repeat match goal with H : andb _ _ = true |- _ => apply andb_prop in H; destruct H end.
(** one step *)
Ltac tstep stp inv :=
  let o := fresh "o" in let x := fresh "x" in let I := fresh "I" in let R := fresh "R" in
  intros o x I R; stp; unfold lists, texts, strict in R; destruct x as [| | | |s|l];
  [try discriminate R; tchain inv I | try discriminate R; tchain inv I | try discriminate R; tchain inv I | try discriminate R; tchain inv I
  | first [ tchain inv I | destruct s as [|c s]; [first [discriminate R | tchain inv I]|]; tchain inv I ]
  | unfold rows in R; destruct l as [|h l]; [discriminate R|]; split_rows R; tchain inv I ].

Lemma item_head (T : val -> bool) h l : T h = true -> forallb T l = true -> forallb T (h :: l) = true.
Proof. intros H K. cbn [forallb]. now rewrite H. Qed.
Ltac all_items :=
  cbn [skipn]; first [eassumption | refine (item_head _ _ _ _ _);
    [ first [reflexivity | match goal with E : (?h =s _) = true |- _ => apply is_str_true in E; subst h; reflexivity end
            | match goal with E : orb _ _ = true |- _ => apply Bool.orb_prop in E; destruct E as [E|E]; apply is_str_true in E; subst; reflexivity end ]
    | cbn [skipn]; eassumption ]].
Ltac tf inv stl :=
  cbv beta zeta;
  lazymatch goal with
  | |- sat _ (bind (bind _ _) _) => apply sat_assoc; tf inv stl
  | |- sat ?P (bind (Ok ?a) ?k) => change (sat P (k a)); tf inv stl
  | |- sat ?P (bind (need_list (VList ?a)) ?k) => change (sat P (k a)); tf inv stl
  | |- sat ?P (bind (need_head _ _) ?k) => unfold need_head; tf inv stl
  | |- sat ?P (bind (at_ (VList (?h :: ?l)) 0) ?k) => change (sat P (k h)); tf inv stl
  | |- sat _ (bind (setf _ _ _) _) => eapply sat_bind; [apply sat_set; leaf | cbv beta; intros ? ?; ex_intros; tf inv stl]
  | |- sat _ (setf _ _ _) => eapply sat_setf; [leaf | cbv beta; intros ? ?; ex_intros; unfold inv; start]
  | |- sat _ (foldM _ _ _) => refine (sat_fold _ _ _ stl _ _ _ _); [cbv beta; unfold inv; start | all_items]
  | |- sat _ (Ok _) => apply sat_ok; unfold inv; start
  | |- sat _ (Err _) => apply sat_err
  | |- sat _ (if negb ?b then _ else _) => destruct b eqn:?; cbn [negb andb]; tf inv stl
  | |- sat _ (if negb ?a && negb ?b then _ else _) => destruct a eqn:?, b eqn:?; cbn [negb andb]; tf inv stl
  | |- sat _ (if ?b then _ else _) => destruct b eqn:?; tf inv stl
  | |- sat _ (bind (if ?b then _ else _) _) => destruct b eqn:?; cbn [bind]; tf inv stl
  | |- sat _ (bind (at_ _ _) _) => eapply sat_bind; [leaf | cbv beta; intros ? ?; ex_intros; tf inv stl]
  end.
Ltac tfrom frm inv stl :=
  let v := fresh "v" in let H := fresh "H" in
  intros v H; frm H; unfold both, expr in H; bools; destruct v as [| | | | |l]; try discriminate; destruct l as [|h l]; [try discriminate|];
  bools; tf inv stl.
(** from the invariant to the object *)
Ltac clause :=
  first [ assumption
        | match goal with H : orv ?K ?v = true, G : given ?v = true |- ?K ?v = true => exact (orv_e K v H G) end
        | match goal with H : _ ?x = true, G : _ ?x = true |- _ ?x = true => first [exact (opt_e _ _ x H G) | exact (all_e _ _ x H G) | exact (one_e _ _ x H G) ] end
        | match goal with H : optok ?K ?x = true, G : negb (no_object ?x) = true |- some_ok ?K ?x = true => exact (some_e _ x H G) end ].
Ltac done_tac := bools_keep; repeat (lazymatch goal with |- andb _ _ = true => apply andb_true_intro; split end); clause
with bools_keep := repeat match goal with H : andb _ _ = true |- _ => apply andb_prop in H; destruct H end.
Ltac to_ok lem := let v := fresh in let H := fresh in let o := fresh "o" in let I := fresh "I" in
  intros v H; eapply sat_weak; [|exact (lem v H)]; intros o I; cbv beta in *.
(** readers of a fixed number of values *)
Ltac tsmall typ frm inv :=
  let v := fresh "v" in let H := fresh "H" in
  intros v H; destruct v as [| | | | |l]; try discriminate H;
  do 6 (try (destruct l as [|? l]; try discriminate H)); unfold typ in H; bools;
  unfold frm, need_head, need_list, setf; cbn [bind at_ nth_error length Nat.ltb Nat.leb Nat.eqb negb orb on is_list from_ skipn]; cbv zeta;
  repeat match goal with
  | |- sat _ (if ?b then _ else _) => destruct b
  | |- sat _ (bind (if ?b then _ else _) _) => destruct b; cbn [bind at_ nth_error length Nat.ltb Nat.leb Nat.eqb negb orb on is_list from_ skipn]
  | |- sat _ (Err _) => apply sat_err
  end;
  apply sat_ok; unfold inv; start.
Ltac tstep0 stp inv :=
  let o := fresh "o" in let x := fresh "x" in let I := fresh "I" in let R := fresh "R" in intros o x I R; stp; tchain inv I.

(** with the round trips *)
Lemma kept_ok {A to from ok norm same typed} : @roundtrips A to from ok norm same ->
  (forall v, typed v = true -> sat (fun o => ok o = true) (from v)) -> kept to from typed (fun _ => true) same.
Proof.
  intros R T v o Hv E _ i n. pose proof (T v Hv o E) as K. destruct (R o K) as (W & S & N & I). exists (norm o).
  split; [apply W|]. split; [exact S|]. destruct (R _ N) as (W' & _). rewrite W'. now rewrite I.
Qed.
Lemma kept_then {A to from ok norm same typed whole} : @roundtrips A to from ok norm same ->
  (forall v, typed v = true -> sat (fun o => implb (whole o) (ok o) = true) (from v)) -> kept to from typed whole same.
Proof.
  intros R T v o Hv E Hw i n. pose proof (T v Hv o E) as K. cbv beta in K. rewrite Hw in K. destruct (R o K) as (W & S & N & I). exists (norm o).
  split; [apply W|]. split; [exact S|]. destruct (R _ N) as (W' & _). rewrite W'. now rewrite I.
Qed.
Lemma kept_empty {A to from ok norm same typed empty} : @roundtrips A to from (fun o => ok o && negb (empty o)) norm same ->
  (forall v, typed v = true -> sat (fun o => ok o = true) (from v)) -> kept to from typed (fun o => negb (empty o)) same.
Proof.
  intros R T v o Hv E Hw i n. pose proof (T v Hv o E) as K. cbv beta in K. assert (K' : ok o && negb (empty o) = true) by now rewrite K.
  destruct (R o K') as (W & S & N & I). exists (norm o).
  split; [apply W|]. split; [exact S|]. destruct (R _ N) as (W' & _). rewrite W'. now rewrite I.
Qed.
