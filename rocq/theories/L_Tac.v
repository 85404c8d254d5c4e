(** Tactics that prove the two halves of the round trip for one class:
    [wr] - the written text reads as the tree; [rd] - the reader maps the tree to the object. *)
From Verif Require Import PyBase PyNum PyStr Sexpr S_Leaf S_Tree M_Common S_Common L_Lex L_Tok L_Num L_Seq.

Global Arguments numb : simpl never. Global Arguments atomb : simpl never. Global Arguments wordv : simpl never.
Global Arguments txtb : simpl never. Global Arguments rawtxtb : simpl never. Global Arguments word0v : simpl never. Global Arguments plainv : simpl never.
Global Arguments enumb : simpl never. Global Arguments optb : simpl never. Global Arguments optok : simpl never.
Global Arguments flat : simpl never. Global Arguments flats : simpl never. Global Arguments nrm : simpl never.
Global Arguments node : simpl never. Global Arguments optn : simpl never. Global Arguments optw : simpl never.
Global Arguments optl : simpl never. Global Arguments optv : simpl never. Global Arguments optyn : simpl never. Global Arguments opto : simpl never.
Global Arguments is_none : simpl never. Global Arguments xy_tree : simpl never. Global Arguments at_tree : simpl never.
Global Arguments at3_tree : simpl never. Global Arguments Position_norm : simpl never. Global Arguments fdec : simpl never.
Global Arguments pos2_ok : simpl never. Global Arguments pos3_ok : simpl never. Global Arguments pos4_ok : simpl never.

Create HintDb wr. Create HintDb rd. Create HintDb okn. Create HintDb idem. Create HintDb hd.
Create HintDb okk.

(** ** Facts *)
Lemma optok_spec {A} (P : A -> bool) o x : optok P o = true -> o = Some x -> P x = true.
Proof. intros H ->. exact H. Qed.
Lemma forallb_spec {A} (P : A -> bool) l x : forallb P l = true -> In x l -> P x = true.
Proof. intros H. rewrite forallb_forall in H. auto. Qed.
Lemma negb_true b : negb b = true -> b = false.
Proof. now destruct b. Qed.
Lemma is_str_eq v s : is_str v s = true -> v = VStr (lit s).
Proof.
  destruct v; try discriminate. unfold is_str. generalize (lit s) as t. intros t H. f_equal.
  revert t H. induction s0 as [|c u IH]; intros [|d t]; try discriminate; [reflexivity|].
  unfold str_eqb; fold str_eqb. intros H. apply andb_prop in H as [H1 H2].
  apply N.eqb_eq in H1. subst. f_equal. now apply IH.
Qed.
Lemma str_eqb_refl s : str_eqb s s = true.
Proof. induction s as [|c s IH]; [reflexivity|]. unfold str_eqb; fold str_eqb. now rewrite N.eqb_refl, IH. Qed.
Lemma str_eqb_eq s t : str_eqb s t = true -> s = t.
Proof.
  revert t. induction s as [|c u IH]; intros [|d t]; try discriminate; [reflexivity|].
  unfold str_eqb; fold str_eqb. intros H. apply andb_prop in H as [H1 H2].
  apply N.eqb_eq in H1. subst. f_equal. now apply IH.
Qed.
Lemma enumb_word l v : enumb l v = true -> forallb (fun s => wordb (lit s)) l = true -> wordv v = true.
Proof.
  unfold enumb. induction l as [|s l IH]; cbn [existsb forallb]; [discriminate|].
  intros H Hl. apply andb_prop in Hl as [Hs Hl]. apply orb_prop in H as [H|H]; [|auto].
  apply is_str_eq in H as ->. exact Hs.
Qed.
Lemma optb_wordv l v : optb (enumb l) v = true -> forallb (fun s => wordb (lit s)) l = true -> optb wordv v = true.
Proof.
  unfold optb. destruct (is_none v); [reflexivity|]. cbn [orb]. apply enumb_word.
Qed.
Lemma numb_nstr v s : numb v = true -> is_str v s = false.
Proof. now destruct v. Qed.
Lemma numb_nnone v : numb v = true -> is_none v = false.
Proof. now destruct v. Qed.
Lemma is_none_eq v : is_none v = true -> v = VNone.
Proof. now destruct v. Qed.

Lemma char_nstr c s : Nat.leb 2 (String.length s) = true -> is_str (VStr [c]) s = false.
Proof.
  destruct s as [|a [|b s]]; try discriminate. intros _. unfold is_str, lit, str_eqb.
  destruct (N.eqb c (Ascii.N_of_ascii a)); reflexivity.
Qed.

Ltac andbs :=
  repeat match goal with
  | H : (_ && _)%bool = true |- _ => apply andb_prop in H; destruct H
  | H : negb _ = true |- _ => apply negb_true in H
  end.

Ltac okunf := unfold pos2_ok, pos3_ok, pos4_ok, Position_ok, dict_ok in *.

Ltac facts0 := andbs;
  repeat match goal with
  | H : optb (enumb ?l) ?v = true |- _ =>
      lazymatch goal with
      | _ : optb wordv v = true |- _ => fail
      | _ => pose proof (optb_wordv l v H ltac:(vm_compute; reflexivity))
      end
  | H : enumb ?l ?v = true |- _ =>
      lazymatch goal with
      | _ : wordv v = true |- _ => fail
      | _ => pose proof (enumb_word l v H ltac:(vm_compute; reflexivity))
      end
  end.

Ltac facts := okunf; facts0.

(** facts about the element of a list / an optional object *)
Ltac elem_facts :=
  repeat match goal with
  | H : forallb ?P ?l = true, Hx : In ?x ?l |- _ =>
      apply (fun h => forallb_spec P l x h Hx) in H; cbv beta in H
  | H : optok ?P ?o = true, Hx : ?o = Some ?x |- _ =>
      pose proof (optok_spec P o x H Hx); clear Hx; cbv beta in *
  end.

(** ** Writers *)
Lemma Wr_match {A} (o : option A) (f : A -> res str) m (t : A -> list tok) t0 :
  (forall x, o = Some x -> Wr (f x) (t x)) -> (o = None -> Wr m t0) ->
  Wr (match o with Some x => f x | None => m end) (match o with Some x => t x | None => t0 end).
Proof. intros H1 H2. destruct o; auto. Qed.
Lemma bind_assoc {A B C} (m : res A) (f : A -> res B) (g : B -> res C) :
  bind (bind m f) g = bind m (fun x => bind (f x) g).
Proof. now destruct m. Qed.
Lemma Seq_match {A} (o : option A) (f : A -> str) m k k1 k2 (t : A -> list tok) t0 :
  (forall x, o = Some x -> Seq k (f x) k1 (t x)) -> (o = None -> Seq k m k2 t0) ->
  Seq k (match o with Some x => f x | None => m end) (kmax k1 k2) (match o with Some x => t x | None => t0 end).
Proof.
  intros H1 H2. unfold kmax. destruct o.
  - eapply Seq_weaken; [|apply H1; reflexivity]. destruct k1, k2; reflexivity.
  - eapply Seq_weaken; [|apply H2; reflexivity]. destruct k1, k2; reflexivity.
Qed.
Lemma Seq_nil_toks t : Seq KC [] KC t -> t = [].
Proof.
  intros H. destruct (H [] eq_refl) as [_ E]. cbn [app] in E. rewrite lex_nil, app_nil_r in E. auto.
Qed.
Lemma Wr_space j t : Seq KC j KC t -> Wr (match j with [] => Ok [] | _ => Ok ($" " ++ j) end) t.
Proof.
  intros H. destruct j as [|c j].
  - rewrite (Seq_nil_toks t H). apply Wr_nil.
  - apply Wr_ok. apply (Seq_app KC $" " KC [] (c :: j) KC t); [|exact H]. apply Seq_lit; reflexivity.
Qed.

Lemma lex_word0 w rest :
  match w with [] => false | c :: _ => negb (N.eqb c dquote) && forallb word_char w end = true ->
  word_end rest = true -> num_end rest = false -> lex (w ++ rest) = TA (VStr w) :: lex rest.
Proof.
  intros Hw Hr Hn. destruct rest as [|c r]; [discriminate|].
  pose proof (word_end_nonword c r Hr) as Hc.
  destruct w as [|x w]; [discriminate|]. apply andb_prop in Hw as [Hq Hw].
  pose proof (match_num_word x w c r Hw Hc) as Hm.
  change ((x :: w) ++ c :: r) with (x :: (w ++ c :: r)) in *.
  rewrite lex_cons. unfold lex1.
  pose proof Hw as Hw2. cbn [forallb] in Hw2. apply andb_prop in Hw2 as [Hx _].
  destruct (word_char_facts x Hx) as (-> & -> & -> & _).
  rewrite Hm, Hn. destruct (N.eqb x dquote); [discriminate|].
  pose proof (span_all word_char (x :: w) c r Hw Hc) as Hs.
  change ((x :: w) ++ c :: r) with (x :: (w ++ c :: r)) in Hs. rewrite Hs. reflexivity.
Qed.
Lemma Seq_word0 v s k ts : word0v v = true -> Seq KC s k ts -> Seq KC (fmt v ++ nl ++ s) k (flat v ++ ts).
Proof.
  intros H Hs rest Hr. split; [reflexivity|]. destruct v; try discriminate. cbn [fmt flat]. rewrite <- !app_assoc.
  rewrite lex_word0; [|exact H|reflexivity|reflexivity]. destruct (Hs rest Hr) as [_ E].
  change (nl ++ s ++ rest) with (10%N :: s ++ rest). rewrite lex_space by reflexivity.
  rewrite E. reflexivity.
Qed.
Lemma Seq_word0_end v : word0v v = true -> Seq KC (fmt v ++ nl) KC (flat v).
Proof.
  intros H. replace (fmt v ++ nl) with (fmt v ++ nl ++ []) by now rewrite app_nil_r.
  rewrite <- (app_nil_r (flat v)). apply Seq_word0; [assumption|apply Seq_nil].
Qed.

Ltac leaf_fact v P :=
  first [ match goal with H : P v = true |- _ => exact H end
        | match goal with H : optb P v = true, N : is_none v = false |- _ => exact (optb_spec P v H N) end ].

Ltac seq_fmt v :=
  first [ eapply Seq_num; leaf_fact v numb
        | eapply Seq_word; leaf_fact v wordv
        | eapply Seq_atom; leaf_fact v atomb ].

Ltac is_lit s :=
  lazymatch s with
  | lit _ => idtac
  | nl => idtac
  end.

Ltac seq_lit :=
  lazymatch goal with
  | |- Seq ?k ?s _ _ =>
      let r := eval vm_compute in (lrun s) in
      lazymatch r with
      | Some (?t, ?k2) => refine (Seq_lit k s k2 t _ _); [vm_compute; reflexivity | vm_compute; reflexivity]
      end
  end.

(* further shapes of text, see the L_ files *)
Ltac seq_more := fail.
Ltac seq_go :=
  lazymatch goal with
  | |- Seq _ (fmt ?v ++ nl ++ _) _ _ =>
      first [ eapply Seq_word0; [leaf_fact v word0v | seq_go]
            | eapply Seq_app; [seq_fmt v | seq_go] ]
  | |- Seq _ (fmt ?v ++ nl) _ _ =>
      first [ eapply Seq_word0_end; leaf_fact v word0v
            | eapply Seq_app; [seq_fmt v | seq_go] ]
  | |- Seq _ (_ ++ _) _ _ => eapply Seq_app; [seq_go | seq_go]
  | |- Seq _ [] _ _ => eapply Seq_nil
  | |- Seq _ (spaces _) _ _ => eapply Seq_spaces
  | |- Seq _ (eol _) _ _ => eapply Seq_eol; vm_compute; reflexivity
  | |- Seq _ (fmt ?v) _ _ => seq_fmt v
  | |- Seq _ (quoted ?v) _ _ => eapply Seq_quoted; leaf_fact v txtb
  | |- Seq _ (rawq ?v) _ _ => eapply Seq_rawq; leaf_fact v rawtxtb
  | |- Seq _ (dequote ?v) _ _ => eapply Seq_dequote; leaf_fact v plainv
  | |- Seq _ (angle_str _) _ _ => unfold angle_str; seq_go
  | |- Seq _ (match ?o with Some x => @?f x | None => ?m end) _ _ =>
      let x := fresh "x" in let Hx := fresh "Hx" in
      eapply (Seq_match o f m); [intros x Hx; seq_go | intros Hx; seq_go]
  | |- Seq _ (if ?b then _ else _) _ _ =>
      let H := fresh "B" in eapply Seq_if; intros H; [seq_go | seq_go]
  | |- Seq _ ?s _ _ =>
      first [ is_var s; eassumption
            | is_lit s; seq_lit
            | solve [eauto 2 with wr]
            | seq_more ]
  end.

(* results of conditionals computed by [kmax] *)
Ltac wr_go :=
  cbv beta zeta;
  lazymatch goal with
  | |- Wr (bind (bind _ _) _) _ => rewrite bind_assoc; wr_go
  | |- Wr (bind (Ok _) _) _ => cbn [bind]; wr_go
  | |- Wr (bind _ _) _ =>
      let s := fresh "s" in let Hs := fresh "Hs" in
      eapply Wr_bind; [wr_go | intros s Hs; wr_go]
  | |- Wr (Ok _) _ => eapply Wr_ok; seq_top
  | |- Wr (concatM _ _) _ =>
      let x := fresh "x" in let Hx := fresh "Hx" in
      eapply Wr_concatM; intros x Hx; elem_facts; facts; wr_go
  | |- Wr (opt_str _ _) _ =>
      let x := fresh "x" in let Hx := fresh "Hx" in
      eapply Wr_opt; intros x Hx; elem_facts; facts; wr_go
  | |- Wr (match ?o with Some x => @?f x | None => ?m end) _ =>
      let x := fresh "x" in let Hx := fresh "Hx" in
      eapply (Wr_match o f m); [intros x Hx; elem_facts; facts; wr_go | intros Hx; wr_go]
  | |- Wr (match ?j with [] => _ | _ :: _ => _ end) _ => eapply Wr_space; eassumption
  | |- Wr (if ?b then _ else _) _ =>
      let H := fresh "B" in eapply Wr_if; intros H; wr_go
  | |- Wr _ _ => eapply Wr_eq; [solve [eauto 3 with wr okk] | reflexivity]
  end
with seq_top :=
  lazymatch goal with
  | |- Seq KC ?s KC ?ts => eapply (Seq_weaken KC s _ KC ts); [|seq_go]; vm_compute; reflexivity
  end.

(** ** Token equations *)
Lemma flat_map_map {A B C} (f : B -> list C) (g : A -> B) l : flat_map f (map g l) = flat_map (fun x => f (g x)) l.
Proof. induction l as [|x l IH]; cbn [map flat_map]; [reflexivity|]. now rewrite IH. Qed.
Lemma flat_map_ext2 {A B} (f g : A -> list B) l : (forall x, f x = g x) -> flat_map f l = flat_map g l.
Proof. intros H. induction l as [|x l IH]; cbn [flat_map]; [reflexivity|]. now rewrite H, IH. Qed.
Lemma flats_nil : flats [] = []. Proof. reflexivity. Qed.
Lemma flats_cons x l : flats (x :: l) = flat x ++ flats l. Proof. reflexivity. Qed.
Lemma flat_str s : flat (VStr s) = [TA (VStr s)]. Proof. reflexivity. Qed.
Lemma flat_nrm_str v : wordv v = true -> flat (nrm v) = flat v.
Proof. now destruct v. Qed.

Lemma flats_flat_map l : flats l = flat_map flat l.
Proof. induction l as [|x l IH]; [reflexivity|]. rewrite flats_cons, IH. reflexivity. Qed.

Lemma flat_xy k p : flat (xy_tree k (Position_norm p)) =
  TL :: TA (VStr (lit k)) :: flat (nrm (po_X p)) ++ flat (nrm (po_Y p)) ++ [TR].
Proof. unfold xy_tree. rewrite flat_node, !flats_cons, flats_nil, app_nil_r, <- app_assoc. reflexivity. Qed.
Lemma flat_at3 k p : flat (at3_tree k (Position_norm p)) =
  TL :: TA (VStr (lit k)) :: flat (nrm (po_X p)) ++ flat (nrm (po_Y p)) ++ flats (optv (nrm (po_angle p))) ++ [TR].
Proof. unfold at3_tree. rewrite flat_node, !flats_app, !flats_cons, flats_nil, app_nil_r, <- !app_assoc. reflexivity. Qed.
Lemma flat_at k p : flat (at_tree k (Position_norm p)) =
  TL :: TA (VStr (lit k)) :: flat (nrm (po_X p)) ++ flat (nrm (po_Y p)) ++ flats (optv (nrm (po_angle p)))
    ++ flats (optw "unlocked" (po_unlocked p)) ++ [TR].
Proof. unfold at_tree. rewrite flat_node, !flats_app, !flats_cons, flats_nil, app_nil_r, <- !app_assoc. reflexivity. Qed.

Ltac tnorm :=
  repeat progress (cbn [app map option_map fst snd];
    rewrite ?flat_xy, ?flat_at3, ?flat_at, ?flat_node, ?flat_list, ?flats_app, ?flats_cons, ?flats_nil, ?flat_str, ?flats_map, ?flat_map_map, ?nrm_none,
      ?app_nil_r, <- ?app_assoc).

Ltac tseg :=
  unfold optn, optw, optl, optv, optyn, opto, dict_norm; tnorm;
  first [ reflexivity
        | lazymatch goal with
          | |- flat_map _ _ = flat_map _ _ => apply flat_map_ext2; intros; tpeel
          | |- flat_map _ _ = flats ?l => rewrite (flats_flat_map l); apply flat_map_ext2; intros; tpeel
          | |- (if ?b then _ else _) = _ => destruct b; tpeel
          | |- _ = flats (if ?b then _ else _) => destruct b; tpeel
          | |- (match ?o with _ => _ end) = _ => destruct o; cbn [option_map]; tpeel
          end ]
with tpeel := tnorm; tpeel_on
with tpeel_on :=
  lazymatch goal with
  | |- ?x :: _ = ?y :: _ => apply (f_equal2 (@cons tok)); [reflexivity | tpeel_on]
  | |- _ ++ _ = _ ++ _ => apply (f_equal2 (@app tok)); [tseg | tpeel_on]
  | |- (if ?b then _ else _) ++ _ = _ :: _ => destruct b; tpeel
  | |- _ = _ => tseg
  end.

Tactic Notation "wr" reference(X_to) reference(X_ok) reference(X_tree) reference(X_norm) :=
  let H := fresh "Hok" in
  intros H; unfold X_ok in H; facts; eapply Wr_eq; [unfold X_to; wr_go | unfold X_tree, X_norm; cbn; tpeel].

(** ** Normal forms *)
Ltac idem_tac := idtac.
Lemma map_idem {A} (f : A -> A) l : (forall x, f (f x) = f x) -> map f (map f l) = map f l.
Proof. intros H. rewrite map_map. apply map_ext. exact H. Qed.
Lemma option_map_idem {A} (f : A -> A) o : (forall x, f (f x) = f x) -> option_map f (option_map f o) = option_map f o.
Proof. intros H. destruct o; cbn; [now rewrite H|reflexivity]. Qed.
#[export] Hint Rewrite nrm_idem : idem.
Tactic Notation "idem" reference(X_norm) :=
  unfold X_norm; cbn;
  repeat match goal with
  | |- context [map ?f (map ?f ?l)] => rewrite (map_idem f l) by (intros; autorewrite with idem; reflexivity)
  | |- context [option_map ?f (option_map ?f ?l)] =>
      rewrite (option_map_idem f l) by (intros; autorewrite with idem; reflexivity)
  end; autorewrite with idem; reflexivity.

Lemma optb_nrm (P : val -> bool) v : (P v = true -> P (nrm v) = true) -> optb P v = true -> optb P (nrm v) = true.
Proof. unfold optb. rewrite nrm_none. destruct (is_none v); auto. Qed.
Lemma optb_numb_nrm v : optb numb v = true -> optb numb (nrm v) = true.
Proof. apply optb_nrm, numb_nrm. Qed.
Lemma optb_atomb_nrm v : optb atomb v = true -> optb atomb (nrm v) = true.
Proof. apply optb_nrm, atomb_nrm. Qed.
Lemma forallb_map_ok {A} (P : A -> bool) (f : A -> A) l :
  (forall x, P x = true -> P (f x) = true) -> forallb P l = true -> forallb P (map f l) = true.
Proof.
  intros H. induction l as [|x l IH]; cbn [forallb map]; [auto|]. intros E.
  apply andb_prop in E as [E1 E2]. now rewrite H, IH.
Qed.
Lemma optok_map_ok {A} (P : A -> bool) (f : A -> A) o :
  (forall x, P x = true -> P (f x) = true) -> optok P o = true -> optok P (option_map f o) = true.
Proof. intros H. destruct o; unfold optok; cbn; auto. Qed.
#[export] Hint Resolve numb_nrm atomb_nrm optb_numb_nrm optb_atomb_nrm forallb_map_ok optok_map_ok : okn.
(* further leaves, see L_Fix *)
Ltac okn_more := fail.
Tactic Notation "okn" reference(X_ok) reference(X_norm) :=
  let H := fresh "Hok" in
  intros H; unfold X_ok in H; andbs; unfold X_ok, X_norm; cbn;
  repeat match goal with |- (_ && _)%bool = true => apply andb_true_intro; split end; rewrite ?nrm_none, ?map_length; try (lazymatch goal with |- negb _ = true => apply negb_true_iff end); first [okn_more | eauto 4 with okn].

(** ** Equality *)
Lemma dbl_eqb_refl f : dbl_eqb f f = true.
Proof.
  destruct f as [n m e|n]; cbn; [|now destruct n]. rewrite Z.leb_refl, Z.sub_diag, Z.pow_0_r, Z.mul_1_r. apply Z.eqb_refl.
Qed.
Lemma py_eqb_refl v : py_eqb v v = true.
Proof.
  induction v as [v Hv|l IH] using val_ind2.
  - destruct v; try discriminate; cbn; [reflexivity|now destruct b|apply Z.eqb_refl|apply dbl_eqb_refl|apply str_eqb_refl].
  - cbn. induction l as [|x l IHl]; [reflexivity|]. inversion IH; subst. rewrite H1. now apply IHl.
Qed.
Lemma py_eqb_nrm v : py_eqb v (nrm v) = true.
Proof.
  destruct v; try apply py_eqb_refl. unfold nrm. destruct (is_integer f) eqn:E; [|apply py_eqb_refl].
  cbn [py_eqb]. destruct f as [n m e|]; [|discriminate]. cbn [is_integer to_int dbl_eq_Z] in *.
  destruct (Z.leb_spec 0 e).
  - destruct n; [rewrite Z.mul_opp_l|]; apply Z.eqb_refl.
  - assert (P : (0 < 2 ^ (- e))%Z) by (apply Z.pow_pos_nonneg; lia). apply Z.eqb_eq in E.
    pose proof (Z.div_mod m (2 ^ (- e)) ltac:(lia)) as D. rewrite E, Z.add_0_r in D.
    apply Z.eqb_eq. destruct n; nia.
Qed.
Lemma leqb_refl {A} (f : A -> A -> bool) l : (forall x, f x x = true) -> leqb f l l = true.
Proof. intros H. induction l as [|x l IH]; [reflexivity|]. cbn. now rewrite H, IH. Qed.
Lemma oeqb_refl {A} (f : A -> A -> bool) o : (forall x, f x x = true) -> oeqb f o o = true.
Proof. intros H. destruct o; [apply H|reflexivity]. Qed.
Lemma leqb_map {A} (f : A -> A -> bool) (g : A -> A) l : (forall x, f x (g x) = true) -> leqb f l (map g l) = true.
Proof. intros H. induction l as [|x l IH]; [reflexivity|]. cbn. now rewrite H, IH. Qed.
Lemma oeqb_map {A} (f : A -> A -> bool) (g : A -> A) o : (forall x, f x (g x) = true) -> oeqb f o (option_map g o) = true.
Proof. intros H. destruct o; [apply H|reflexivity]. Qed.
Lemma kveqb_refl x : kveqb x x = true.
Proof. unfold kveqb. now rewrite !py_eqb_refl. Qed.
Lemma kveqb_norm d : leqb kveqb d (dict_norm d) = true.
Proof.
  induction d as [|[k v] d IH]; [reflexivity|]. cbn [dict_norm map leqb fst snd]. unfold kveqb at 1. cbn [fst snd].
  rewrite py_eqb_nrm, py_eqb_refl. exact IH.
Qed.
Lemma beqb_refl b : Bool.eqb b b = true.
Proof. now destruct b. Qed.
Create HintDb same.
#[export] Hint Resolve py_eqb_refl py_eqb_nrm leqb_refl oeqb_refl leqb_map oeqb_map kveqb_refl kveqb_norm beqb_refl : same.
Global Arguments py_eqb : simpl never.
Tactic Notation "same" reference(X_eqb) reference(X_norm) :=
  unfold X_eqb, X_norm; cbn;
  repeat match goal with |- (_ && _)%bool = true => apply andb_true_intro; split end; eauto 3 with same.
Lemma rt_of {A} (to : A -> nat -> bool -> res str) from ok tree norm eqb :
  (forall o i n, ok o = true -> Wr (to o i n) (flat (tree (norm o)))) ->
  (forall o, ok o = true -> from (tree o) = Ok o) ->
  (forall o, eqb o (norm o) = true) -> (forall o, ok o = true -> ok (norm o) = true) ->
  (forall o, norm (norm o) = norm o) -> roundtrips to from ok norm eqb.
Proof.
  intros Hw Hr Hs Hn Hi o Ho. repeat split; auto. intros i n. unfold write_read.
  destruct (Hw o i n Ho) as (s & -> & Hseq). cbn [bind]. rewrite (parse_seq s _ Hseq). cbn [bind]. apply Hr. auto.
Qed.

Lemma fmt_of {A} (to : A -> nat -> bool -> res str) from ok norm tree :
  (forall o i n, ok o = true -> Wr (to o i n) (flat (tree (norm o)))) ->
  (forall o, ok o = true -> from (tree o) = Ok o) -> conforms to from ok norm tree.
Proof.
  intros Hw Hr o Ho. split; [|now apply Hr]. intros i n. destruct (Hw o i n Ho) as (s & E & Hseq).
  exists s. repeat split; [assumption| |now apply parse_seq].
  destruct (Hseq [] eq_refl) as [_ L]. now rewrite lex_nil, !app_nil_r in L.
Qed.

(** ** Readers *)
Lemma fold_cons {A B} (step : A -> B -> res A) a x l a' r :
  step a x = Ok a' -> foldM step a' l = r -> foldM step a (x :: l) = r.
Proof. intros H1 H2. cbn [foldM]. now rewrite H1. Qed.
Lemma fold_seg {A B} (step : A -> B -> res A) a s l a' r :
  foldM step a s = Ok a' -> foldM step a' l = r -> foldM step a (s ++ l) = r.
Proof. intros H1 H2. rewrite foldM_app, H1. exact H2. Qed.
Lemma foldM_cons {A B} (step : A -> B -> res A) a x l : foldM step a (x :: l) = let! a' := step a x in foldM step a' l.
Proof. reflexivity. Qed.
Lemma fold_one {A B} (step : A -> B -> res A) a x a' : step a x = Ok a' -> foldM step a [x] = Ok a'.
Proof. intros H. cbn [foldM]. now rewrite H. Qed.
Lemma fold_if {A B} (step : A -> B -> res A) a (b : bool) l1 l2 a' :
  (b = true -> foldM step a l1 = Ok a') -> (b = false -> foldM step a l2 = Ok a') ->
  foldM step a (if b then l1 else l2) = Ok a'.
Proof. destruct b; auto. Qed.
Lemma fold_map {R A} (mk : list A -> R) step (t : A -> val) l : forall acc,
  (forall acc x, In x l -> step (mk acc) (t x) = Ok (mk (acc ++ [x]))) ->
  foldM step (mk acc) (map t l) = Ok (mk (acc ++ l)).
Proof.
  induction l as [|x l IH]; intros acc H; cbn [map foldM]; [now rewrite app_nil_r|].
  rewrite H by (now left). cbn [bind]. rewrite IH by (intros; apply H; now right).
  now rewrite <- app_assoc.
Qed.
Lemma mapM_rd {A} (f : val -> res A) (t : A -> val) l :
  (forall x, In x l -> f (t x) = Ok x) -> mapM f (map t l) = Ok l.
Proof.
  induction l as [|x l IH]; intros H; cbn [map mapM]; [reflexivity|].
  rewrite H by (now left). cbn [bind]. rewrite IH by (intros; apply H; now right). reflexivity.
Qed.

(* current object with the attributes that the segment mentions taken from the target *)
Ltac merge cur tgt seg :=
  lazymatch cur with
  | ?f ?a =>
    lazymatch tgt with
    | ?g ?b =>
        let h := merge f g seg in
        let useb := match constr:(Set) with
                    | _ => let v := lazymatch b with Some ?x => x | _ ?x => x | _ => b end in
                           let _ := match constr:(Set) with _ => is_var v end in
                           lazymatch seg with context [v] => constr:(true) end
                    | _ => constr:(false)
                    end in
        lazymatch useb with true => constr:(h b) | false => constr:(h a) end
    end
  | ?c => c
  end.



Ltac red_step :=
  lazy beta iota zeta delta -[foldM mapM app map optn optw optl optv optyn opto fdec py_eqb dict_set dict_put nrm
     numb atomb wordv txtb is_none xy_tree at_tree at3_tree].
Ltac red_in R :=
  lazy beta iota zeta delta -[foldM mapM app map optn optw optl optv optyn opto fdec py_eqb dict_set dict_put nrm
     numb atomb wordv txtb is_none xy_tree at_tree at3_tree] in R.

(* rewrite tests on symbolic leaves *)
Ltac leaf_tests :=
  repeat match goal with
  | H : numb ?v = true |- context [is_str ?v ?s] => rewrite (numb_nstr v s H)
  | H : numb ?v = true |- context [is_list ?v] => rewrite (numb_leaf v H)
  | H : atomb ?v = true |- context [is_list ?v] => rewrite (atomb_leaf v H)
  | H : wordv ?v = true |- context [is_list ?v] => rewrite (wordv_leaf v H)
  | H : txtb ?v = true |- context [is_list ?v] => rewrite (txtb_leaf v H)
  | H : is_str ?v ?s = _ |- context [is_str ?v ?s] => rewrite H
  end.
(* a keyword item: one case per keyword *)
Ltac enum_cases H v :=
  unfold enumb, existsb in H;
  repeat (apply orb_prop in H; destruct H as [H|H]); [..|discriminate H]; apply is_str_eq in H; subst v.

(** a type that is a union of classes *)
Definition IsUnion (T : Type) : Prop := True.
Create HintDb union.
(* the item is the tree of a member of a union: one case per class *)
Ltac union_cases x :=
  lazymatch x with
  | ?t ?u =>
      is_var u; let T := type of u in
      assert_succeeds (assert (IsUnion T) by (solve [eauto 1 with union]));
      match goal with H : ?ok u = true |- _ => unfold ok in H; unfold t; destruct u; cbv beta iota in H |- *; try discriminate H end
  end.

(* the item is the tree of a sub-object: expose its head, remember what its reader returns *)
Ltac sub_tree x :=
  lazymatch x with
  | VList _ => idtac
  | node _ _ => idtac
  | VStr _ => idtac
  | ?t ?y =>
      let R := fresh "R" in let E := fresh "E" in let l := fresh "l" in
      eassert (R : _ x = Ok y) by (solve [eauto 3 with rd okk]);
      eassert (E : exists l, x = _ l) by (solve [eauto 1 with hd]);
      destruct E as [l E]; rewrite E in R |- *; clear E; red_in R
  | _ => idtac
  end.

Ltac ev_more :=
  repeat (first
    [ match goal with R : ?a = Ok _ |- context [?a] => rewrite R end
    | rewrite mapM_rd by (intros; elem_facts; facts0; solve [eauto 3 with rd okk]) ]; red_step).

(* [let o := f x in ..] applied to the item: the item is the argument of [at_] *)
Ltac ev_sub :=
  try match goal with |- context [at_ ?x 0] => sub_tree x end;
  try match goal with |- context [optw ?k ?b] => is_var b; destruct b; cbv beta iota delta [optw] end;
  try match goal with |- context [optv ?v] => is_var v; let B := fresh "B" in unfold optv; destruct (is_none v) eqn:B; [apply is_none_eq in B; subst v|]; cbn [app] end;
  leaf_tests; red_step; ev_more; reflexivity.
Ltac ev st X_step :=
  match goal with
  | Hst : st = X_step |- st _ ?x = _ =>
      rewrite Hst; lazymatch X_step with ?f _ => unfold f | _ => unfold X_step end;
      try (is_var x; match goal with H : enumb _ x = true |- _ => enum_cases H x end);
      try union_cases x;
      ev_sub
  end.

Ltac rd_one st X_step := apply fold_one; ev st X_step.
Ltac opt_facts :=
  repeat match goal with
  | H : optb ?P ?v = true, B : is_none ?v = false |- _ => apply (optb_spec P v) in H; [|exact B]
  | H : optok ?P (Some ?x) = true |- _ => change (P x = true) in H
  end; facts0.
Lemma Justify_empty_eq j : Justify_empty j = true -> j = Justify_default.
Proof.
  unfold Justify_empty. intros H. andbs. destruct j as [a b c]. cbn in *. apply is_none_eq in H, H1. now subst.
Qed.
Lemma length_eqb0 {A} (l : list A) : Nat.eqb (length l) 0 = true -> l = [].
Proof. now destruct l. Qed.
(* further ways to write nothing, see the L_ files *)
Ltac rd_nil_more := idtac.
Ltac rd_nil :=
  rd_nil_more;
  try match goal with B : Justify_empty ?v = true |- _ => is_var v; apply Justify_empty_eq in B; subst v end;
  repeat match goal with B : is_none ?v = true |- _ => is_var v; apply is_none_eq in B; subst v end;
  repeat match goal with B : Nat.eqb (length ?l) 0 = true |- _ => is_var l; apply length_eqb0 in B; subst l end;
  reflexivity.
(* further shapes of segments, see the L_ files *)
Ltac rd_more st X_step := fail.
Ltac rd_seg st X_step :=
  first [ match goal with F : (forall _, _) |- foldM st _ _ = _ => solve [apply F] end | rd_more st X_step |
  lazymatch goal with
  | |- foldM st _ (map ?t ?l) = Ok ?new =>
      let p := eval pattern l in new in
      lazymatch p with
      | ?mk _ => refine (fold_map mk st t l [] _); let H := fresh "I" in intros ? ? H; elem_facts; facts0; cbv beta; ev st X_step
      end
  | |- foldM st _ (opto ?t ?o) = _ =>
      destruct o; cbv beta iota delta [opto]; [opt_facts; rd_one st X_step | reflexivity]
  | |- foldM st _ (optyn _ ?o) = _ =>
      destruct o as [[|]|]; cbv beta iota delta [optyn]; [rd_one st X_step | rd_one st X_step | reflexivity]
  | |- foldM st _ (optn _ _) = _ =>
      let B := fresh "B" in unfold optn; apply fold_if; intros B; [rd_nil | opt_facts; rd_one st X_step]
  | |- foldM st _ (optv _) = _ =>
      let B := fresh "B" in unfold optv; apply fold_if; intros B; [rd_nil | opt_facts; rd_one st X_step]
  | |- foldM st _ (optw _ ?b) = _ => destruct b; [rd_one st X_step | reflexivity]
  | |- foldM st _ (optl _ ?b) = _ => destruct b; [rd_one st X_step | reflexivity]
  | |- foldM st _ (if ?b then _ else _) = _ =>
      let B := fresh "B" in apply fold_if; intros B; try (is_var b; subst b); opt_facts;
      first [rd_nil | rd_loop st X_step]
  end ]
with rd_loop st X_step :=
  cbn [app];
  lazymatch goal with
  | |- foldM st ?cur [] = Ok ?tgt => reflexivity
  | |- foldM st _ [_] = Ok _ => rd_one st X_step
  | |- foldM st ?cur (?x :: ?l) = Ok ?tgt =>
      let new := merge cur tgt x in
      apply (fold_cons st cur x l new); [ev st X_step | rd_loop st X_step]
  | |- foldM st ?cur (?s ++ ?l) = Ok ?tgt =>
      let new := merge cur tgt s in
      apply (fold_seg st cur s l new); [rd_seg st X_step | rd_loop st X_step]
  | |- foldM st _ _ = _ => rd_seg st X_step
  end.
(* [rd_start]: up to the loop *)
Ltac rd_post X_step :=
  cbn [app];
  let st := fresh "st" in let Hst := fresh "Hst" in
  remember X_step as st eqn:Hst; cbn;
  repeat match goal with |- context [@app val ?a ?b] => let K := fresh "K" in remember (@app val a b) as K end;
  red_step;
  repeat match goal with H : ?K = @app val _ _ |- _ => is_var K; subst K end.
(* attributes with a fixed value *)
Ltac fixed_subst :=
  repeat match goal with
  | B : is_none ?v = true |- _ => is_var v; apply is_none_eq in B; subst v
  | B : is_str ?v _ = true |- _ => is_var v; apply is_str_eq in B; subst v
  | B : ?v = false |- _ => is_var v; subst v
  end.
Tactic Notation "rd_start" reference(X_ok) reference(X_from) reference(X_tree) constr(X_step) :=
  let H := fresh "Hok" in
  intros H;
  match goal with |- _ = Ok ?o => destruct o end;
  unfold X_ok in H; cbn in H; facts0; fixed_subst; unfold X_from, X_tree; rd_post X_step.
Tactic Notation "rd" reference(X_ok) reference(X_from) reference(X_tree) constr(X_step) :=
  let H := fresh "Hok" in
  intros H;
  match goal with |- _ = Ok ?o => destruct o end;
  unfold X_ok in H; cbn in H; facts0; fixed_subst; unfold X_from, X_tree; rd_post X_step;
  match goal with Hst : ?st = X_step |- _ => rd_loop st X_step end.

(** ** Unexpected input *)
Ltac refuse X_from :=
  unfold refuses, X_from, need_head, need_list; repeat split;
  [ intros e H; destruct e; try discriminate H; reflexivity
  | eexists; reflexivity
  | intros h l H; cbn [existsb] in H;
    repeat (apply orb_false_elim in H; let E := fresh "E" in destruct H as [E H]);
    cbn [bind at_ nth_error];
    repeat match goal with E : is_str h _ = false |- _ => rewrite E; clear E end;
    cbn [negb orb andb];
    repeat match goal with |- (if ?b then _ else _) = _ => destruct b end; reflexivity ].

Lemma fold_same {A B} (st : A -> B -> res A) x l1 l2 :
  (forall o, foldM st o l1 = foldM st o l2) -> forall o, foldM st o (x :: l1) = foldM st o (x :: l2).
Proof. intros H o. cbn [foldM]. destruct (st o x); [apply H|reflexivity]. Qed.
Lemma fold_ignore {A B} (st : A -> B -> res A) x : (forall o, st o x = Ok o) ->
  forall a b o, foldM st o (a ++ x :: b) = foldM st o (a ++ b).
Proof. intros H a b o. rewrite !foldM_app. destruct (foldM st o a); [|reflexivity]. cbn [bind foldM]. now rewrite H. Qed.

Lemma on_skip {A R} (b : bool) (f : A -> res A) o (k : A -> res R) r : b = false -> k o = r -> bind (on b f o) k = r.
Proof. intros -> E. exact E. Qed.
(* tests that fail: the object stays as it is *)
Ltac skip_ons :=
  repeat (apply on_skip; [solve [repeat match goal with E : is_str _ _ = false |- _ => rewrite E end; reflexivity]|cbv beta]).
Ltac kill_arg H before := destruct before as [|? before]; [exfalso; cbn [length] in H; lia|].
Ltac ign_core X_step U :=
  cbn [app skipn];
  repeat match goal with
  | |- bind (if ?b then _ else _) _ = _ => destruct b; cbn [bind]; try reflexivity
  | |- bind ?m _ = bind ?m _ => destruct m; cbn [bind]; [|reflexivity]
  | |- (if ?b then _ else _) = (if ?b then _ else _) => destruct b; try reflexivity
  end;
  repeat (apply fold_same; intros ?);
  first [ reflexivity | apply (fold_ignore X_step); exact U ].
Ltac ign_args n H before :=
  lazymatch n with
  | O => idtac
  | S ?m => kill_arg H before; ign_args m H before
  end.
Ltac ign X_from X_step n :=
  let h := fresh "h" in let before := fresh "before" in let u := fresh "u" in let args := fresh "args" in
  let after := fresh "after" in let H := fresh "H" in let Hu := fresh "Hu" in let U := fresh "U" in
  unfold ignores; intros h before u args after H Hu;
  cbn [existsb] in Hu; repeat (apply orb_false_elim in Hu; let E := fresh "E" in destruct Hu as [E Hu]);
  assert (U : forall o, X_step o (VList (u :: args)) = Ok o);
  [ let o := fresh "o" in intros o; unfold X_step; cbn [is_list is_text negb orb andb at_ nth_error bind]; skip_ons;
    cbn [is_list is_text negb orb andb on at_ nth_error bind];
    repeat match goal with E : is_str u _ = false |- _ => rewrite E; clear E end; reflexivity |];
  clear - U H; ign_args n H before;
  unfold X_from, need_head, need_list; cbn [app at_ nth_error bind length skipn Nat.ltb Nat.leb];
  ign_core X_step U.

(* what two results of a step have in common *)
Ltac res_cases :=
  repeat match goal with
  | H : context [match ?m with _ => _ end] |- _ =>
      lazymatch m with context [match _ with _ => _ end] => fail | _ => destruct m; try discriminate H end
  | |- context [match ?m with _ => _ end] =>
      lazymatch m with context [match _ with _ => _ end] => fail | _ => destruct m; try reflexivity end
  end.
Lemma fold_wins {A B} (st : A -> B -> res A) x y : (forall o o1, st o x = Ok o1 -> st o1 y = st o y) ->
  forall a b o o', foldM st o (a ++ x :: y :: b) = Ok o' -> foldM st o (a ++ y :: b) = Ok o'.
Proof.
  intros H a b o o'. rewrite !foldM_app. destruct (foldM st o a) as [o1|]; [|discriminate]. cbn [bind foldM].
  destruct (st o1 x) as [o2|] eqn:E; [|discriminate]. cbn [bind]. now rewrite (H _ _ E).
Qed.
Lemma fold_imp {A B} (st : A -> B -> res A) x l1 l2 o' :
  (forall o, foldM st o l1 = Ok o' -> foldM st o l2 = Ok o') -> forall o, foldM st o (x :: l1) = Ok o' -> foldM st o (x :: l2) = Ok o'.
Proof. intros H o. cbn [foldM]. destruct (st o x); [apply H|discriminate]. Qed.
Lemma Ok_inj {A} (a b : A) : Ok a = Ok b -> a = b.
Proof. now intros [= ]. Qed.
Ltac wins X_from X_step n :=
  let h := fresh "h" in let before := fresh "before" in let k := fresh "k" in let args1 := fresh "args1" in
  let args2 := fresh "args2" in let after := fresh "after" in let o := fresh "o" in let H := fresh "H" in
  let Hk := fresh "Hk" in let U := fresh "U" in
  unfold last_wins; intros h before k args1 args2 after o H Hk;
  assert (U : forall o o1, X_step o (node k args1) = Ok o1 -> X_step o1 (node k args2) = X_step o (node k args2));
  [ clear - Hk; let o1 := fresh "o1" in let E := fresh "E" in
    intros [] o1; cbn [In] in Hk;
    repeat (destruct Hk as [Hk|Hk]; [subst k; unfold X_step; red_step; intros E; res_cases; first [apply Ok_inj in E; subst o1 | inversion E; subst]; red_step; res_cases; solve [reflexivity]|]);
    destruct Hk |];
  clear - U H; ign_args n H before;
  unfold X_from, need_head, need_list; cbn [app at_ nth_error bind length skipn Nat.ltb Nat.leb];
  repeat match goal with
  | |- bind (if ?b then _ else _) _ = _ -> _ => destruct b; cbn [bind]; try discriminate
  | |- bind ?m _ = _ -> bind ?m _ = _ => destruct m; cbn [bind]; [|discriminate]
  | |- (if ?b then _ else _) = _ -> (if ?b then _ else _) = _ => destruct b; try discriminate
  end;
  repeat (refine (fold_imp _ _ _ _ _ _ _); intros ?);
  refine (fold_wins X_step _ _ U _ _ _ _).

Global Arguments foldM : simpl never.
