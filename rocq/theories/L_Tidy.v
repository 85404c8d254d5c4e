(** Proofs for C50: an abstract scanner that knows the indentation only relative to that of the object *)
From Coq Require Import String Ascii.
From Verif Require Import PyBase PyNum PyStr Sexpr S_Leaf S_Tree M_Common S_Common L_Lex L_Tok L_Num L_Seq L_Tac S_Tidy.

Inductive ctx := ABol | ALine (m : nat) | AGap | AGapL (m : nat) | AOpen | AItem (w : bool) | ASome | AQuote | AEsc.
Definition astate : Type := nat * ctx.
Definition aopening (j : nat) (c : N) : option astate :=
  if (c =? 40)%N then Some (S j, AOpen) else if (c =? 34)%N then Some (j, AQuote) else Some (j, AItem false).
Definition astep (s : astate) (c : N) : option astate :=
  let (j, a) := s in
  match a with
  | ABol => if (c =? 10)%N then Some (j, ABol) else None
  | ALine m =>
      if (c =? 32)%N then Some (j, ALine (S m))
      else if (c =? 10)%N then None
      else if (c =? 41)%N then match j with S j' => if Nat.eqb m (2 * j') then Some (j', AItem true) else None | 0 => None end
      else if Nat.eqb m (2 * j) then aopening j c else None
  | AGap => if (c =? 32)%N || (c =? 10)%N || (c =? 41)%N then None else aopening j c
  | AGapL m => if (c =? 32)%N || (c =? 10)%N || (c =? 41)%N then None else if Nat.eqb m (2 * j) then aopening j c else None
  | AOpen => if (c =? 32)%N || (c =? 10)%N || (c =? 40)%N || (c =? 41)%N || (c =? 34)%N then None else Some (j, AItem false)
  | AItem w =>
      if (c =? 32)%N then Some (j, AGap)
      else if (c =? 10)%N then Some (j, ABol)
      else if (c =? 41)%N then match j with S j' => Some (j', AItem true) | 0 => None end
      else if (c =? 40)%N || w then None
      else Some (j, AItem false)
  | ASome =>
      if (c =? 32)%N then Some (j, AGap)
      else if (c =? 10)%N then Some (j, ABol)
      else if (c =? 41)%N then match j with S j' => Some (j', AItem true) | 0 => None end
      else None
  | AQuote => if (c =? 34)%N then Some (j, AItem true) else if (c =? 92)%N then Some (j, AEsc) else Some (j, AQuote)
  | AEsc => if (c =? 92)%N then Some (j, AEsc) else Some (j, AQuote)
  end.
Fixpoint arun (s : astate) (t : list N) : option astate :=
  match t with [] => Some s | c :: t' => match astep s c with Some s' => arun s' t' | None => None end end.

Definition rep (i : nat) (a : ctx) (p : place) : Prop :=
  match a with
  | ABol => p = Start 0 | ALine m => p = Start (i + m) | AGap => p = Gap | AGapL m => p = Gap \/ p = Start (i + m) | AOpen => p = Open
  | AItem w => p = Item w | ASome => exists w, p = Item w | AQuote => p = Quote | AEsc => p = Escape
  end.
Definition Tid (i : nat) (s : astate) (t : str) (s' : astate) : Prop :=
  forall base d p, base + 2 * d = i -> rep i (snd s) p ->
  exists p', scans base (d + fst s, p) t = Some (d + fst s', p') /\ rep i (snd s') p'.

Lemma scans_app b s t u : scans b s (t ++ u) = match scans b s t with Some s' => scans b s' u | None => None end.
Proof. revert s. induction t as [|c t IH]; intros s; [reflexivity|]. cbn [app scans]. destruct (scan b s c); auto. Qed.
Lemma Tid_app i s t s1 u s2 : Tid i s t s1 -> Tid i s1 u s2 -> Tid i s (t ++ u) s2.
Proof.
  intros H K base d p E R. destruct (H base d p E R) as (q & E1 & R1). destruct (K base d q E R1) as (r & E2 & R2).
  exists r. split; [|exact R2]. now rewrite scans_app, E1.
Qed.
Lemma Tid_nil i s : Tid i s [] s.
Proof. intros base d p E R. now exists p. Qed.
Lemma Tid_step i s c s' : astep s c = Some s' -> Tid i s [c] s'.
Proof.
  destruct s as [j a]. intros H base d p E R. cbn [fst snd] in *. cbn [scans].
  destruct a; cbn [rep] in R; try match type of R with exists _, _ => destruct R as [w R] | _ \/ _ => destruct R as [R|R] end; subst p; cbn [astep] in H; cbn [scan];
    repeat match type of H with
    | (if ?b then _ else _) = _ => let B := fresh "B" in destruct b eqn:B; try discriminate H
    | match ?j with 0 => _ | _ => _ end = _ => destruct j; try discriminate H
    end; unfold aopening, opening in *;
    repeat match type of H with
    | (if ?b then _ else _) = _ => let B := fresh "B" in destruct b eqn:B; try discriminate H
    end;
    repeat match goal with B : (_ || _)%bool = false |- _ => apply Bool.orb_false_iff in B; destruct B end;
    try (injection H as <-); cbn [fst snd rep];
    repeat match goal with B : (c =? _)%N = false |- _ => rewrite B end; cbn [orb];
    try (eexists; split; [reflexivity|reflexivity]);
    try (rewrite !Nat.add_succ_r; eexists; split; [reflexivity|cbn [rep]; first [reflexivity | f_equal; lia]]).
  all: repeat match goal with B : (_ =? _)%N = true |- _ => apply N.eqb_eq in B; subst c end.
  all: repeat match goal with B : Nat.eqb _ _ = true |- _ => apply Nat.eqb_eq in B end.
  all: rewrite ?Nat.add_succ_r.
  all: try (rewrite (proj2 (Nat.eqb_eq (i + _) (base + 2 * (d + _)))) by lia).
  all: repeat match goal with B : (_ =? _)%N = false |- _ => rewrite B end; cbn [orb].
  all: try (eexists; split; reflexivity).
Qed.
Lemma Tid_lit i s t s' : arun s t = Some s' -> Tid i s t s'.
Proof.
  revert s. induction t as [|c t IH]; intros s H.
  - injection H as <-. apply Tid_nil.
  - cbn [arun] in H. destruct (astep s c) as [s1|] eqn:E; [|discriminate H].
    exact (Tid_app i s [c] s1 t s' (Tid_step i s c s1 E) (IH s1 H)).
Qed.
Lemma scans_spaces b d k n : scans b (d, Start k) (spaces n) = Some (d, Start (n + k)).
Proof. revert k. induction n as [|n IH]; intros k; [reflexivity|]. cbn [spaces repeat scans scan]. change (repeat 32%N n) with (spaces n). rewrite N.eqb_refl, IH. now rewrite Nat.add_succ_r. Qed.
Lemma Tid_spaces i j k m : k = i + m -> Tid i (j, ABol) (spaces k) (j, ALine m).
Proof. intros -> base d p E R. cbn in *. subst p. rewrite scans_spaces, Nat.add_0_r. eexists; split; reflexivity. Qed.

(** weakening *)
Definition below (a b : ctx) : bool :=
  match a, b with
  | AItem _, ASome | ASome, ASome | ABol, ABol | AGap, AGap | AOpen, AOpen => true
  | AItem v, AItem w => Bool.eqb v w
  | ALine m, ALine n | ALine m, AGapL n | AGapL m, AGapL n => Nat.eqb m n
  | AGap, AGapL _ => true
  | _, _ => false
  end.
Lemma below_rep i a b p : below a b = true -> rep i a p -> rep i b p.
Proof.
  destruct a, b; cbn; try discriminate; auto; intros H R.
  - apply Nat.eqb_eq in H. now subst.
  - apply Nat.eqb_eq in H. subst. now right.
  - apply Nat.eqb_eq in H. now subst.
  - apply (Bool.eqb_prop w w0) in H. now subst.
  - subst p. now exists w.
Qed.
Lemma Tid_weaken i s t j a b : Tid i s t (j, a) -> below a b = true -> Tid i s t (j, b).
Proof. intros H B base d p E R. destruct (H base d p E R) as (q & E1 & R1). exists q. split; [exact E1|]. exact (below_rep i a b q B R1). Qed.
Lemma Tid_from i j a b t s : below a b = true -> Tid i (j, b) t s -> Tid i (j, a) t s.
Proof. intros B H base d p E R. exact (H base d p E (below_rep i a b p B R)). Qed.
Definition joint (a b : ctx) : ctx := if below a b then b else if below b a then a else match a, b with AGap, ALine m | ALine m, AGap => AGapL m | _, _ => ASome end.
Definition joined (a b c : ctx) : Prop := (a = c \/ below a c = true) /\ (b = c \/ below b c = true).
Lemma joined_refl a : joined a a a. Proof. split; now left. Qed.
Lemma joined_below a b c : below a c && below b c = true -> joined a b c.
Proof. intros H. apply andb_prop in H as [H1 H2]. split; now right. Qed.
Lemma Tid_weaken' i s t j a b : Tid i s t (j, a) -> a = b \/ below a b = true -> Tid i s t (j, b).
Proof. intros H [<-|B]; [exact H|exact (Tid_weaken i s t j a b H B)]. Qed.
Lemma Tid_if i s (c : bool) t u j a b r :
  (c = true -> Tid i s t (j, a)) -> (c = false -> Tid i s u (j, b)) -> joined a b r -> Tid i s (if c then t else u) (j, r).
Proof. intros H K [E1 E2]. destruct c; [exact (Tid_weaken' i s t j a _ (H eq_refl) E1)|exact (Tid_weaken' i s u j b _ (K eq_refl) E2)]. Qed.
Lemma Tid_match {A} i s (o : option A) t u j a b r :
  (forall x, o = Some x -> Tid i s (t x) (j, a)) -> (o = None -> Tid i s u (j, b)) -> joined a b r ->
  Tid i s (match o with Some x => t x | None => u end) (j, r).
Proof. intros H K [E1 E2]. destruct o; [exact (Tid_weaken' i s _ j a _ (H _ eq_refl) E1)|exact (Tid_weaken' i s u j b _ (K eq_refl) E2)]. Qed.
Definition fin (n : bool) : ctx := if n then ABol else AItem true.
Lemma Tid_eol i j n : Tid i (j, AItem true) (eol n) (j, fin n).
Proof. destruct n; [now apply Tid_lit|apply Tid_nil]. Qed.

(** what a loop keeps *)
Definition inv (a : ctx) : ctx := match a with AItem _ => ASome | _ => a end.
Lemma Tid_each {A} i (f : A -> str) l j a b : (forall x, In x l -> Tid i (j, inv a) (f x) (j, b)) -> below a (inv a) = true -> below b (inv a) = true ->
  Tid i (j, a) (flat_map f l) (j, inv a).
Proof.
  intros H B1 B2. apply (Tid_from i j a (inv a)); [exact B1|]. clear B1. induction l as [|x l IH]; [apply Tid_nil|]. cbn [flat_map].
  apply Tid_app with (j, inv a); [exact (Tid_weaken i _ _ j b _ (H x (or_introl eq_refl)) B2)|]. apply IH. intros y Hy. apply H. now right.
Qed.

(** texts of sub-objects *)
Definition WT (i : nat) (s : astate) (m : res str) (s' : astate) : Prop := forall t, m = Ok t -> Tid i s t s'.
Lemma WT_use i s m s' t : WT i s m s' -> m = Ok t -> Tid i s t s'.
Proof. auto. Qed.
Lemma WT_ok i s t s' : Tid i s t s' -> WT i s (Ok t) s'.
Proof. intros H u E. now injection E as <-. Qed.
Lemma WT_err i s e s' : WT i s (Err e) s'.
Proof. intros u E. discriminate E. Qed.
Lemma WT_bind {A} i s (m : res A) k s' : (forall x, m = Ok x -> WT i s (k x) s') -> WT i s (bind m k) s'.
Proof. intros H t E. destruct m as [x|]; [|discriminate E]. exact (H x eq_refl t E). Qed.
Lemma WT_if i s (c : bool) t u j a b r :
  (c = true -> WT i s t (j, a)) -> (c = false -> WT i s u (j, b)) -> joined a b r -> WT i s (if c then t else u) (j, r).
Proof. intros H K [E1 E2] t' F. destruct c; [exact (Tid_weaken' i s _ j a _ (H eq_refl _ F) E1)|exact (Tid_weaken' i s _ j b _ (K eq_refl _ F) E2)]. Qed.
Lemma WT_if_err i s (c : bool) e u r : (c = false -> WT i s u r) -> WT i s (if c then Err e else u) r.
Proof. intros H t F. destruct c; [discriminate F|now apply H]. Qed.
Lemma WT_match {A} i s (o : option A) (t : A -> res str) u j a b r :
  (forall x, o = Some x -> WT i s (t x) (j, a)) -> (o = None -> WT i s u (j, b)) -> joined a b r ->
  WT i s (match o with Some x => t x | None => u end) (j, r).
Proof. intros H K [E1 E2] t' F. destruct o; [exact (Tid_weaken' i s _ j a _ (H _ eq_refl _ F) E1)|exact (Tid_weaken' i s _ j b _ (K eq_refl _ F) E2)]. Qed.
Lemma WT_opt {A} i (o : option A) (t : A -> res str) j a b r :
  (forall x, o = Some x -> WT i (j, a) (t x) (j, b)) -> joined b a r -> WT i (j, a) (opt_str o t) (j, r).
Proof. intros H E. unfold opt_str. eapply WT_match; [exact H|intros _; apply WT_ok, Tid_nil|exact E]. Qed.
Lemma WT_each {A} i (f : A -> res str) l j a b : (forall x, In x l -> WT i (j, inv a) (f x) (j, b)) -> below a (inv a) = true -> below b (inv a) = true ->
  WT i (j, a) (concatM f l) (j, inv a).
Proof.
  intros H B1 B2 t E. apply (Tid_from i j a (inv a)); [exact B1|]. clear B1. revert t E. induction l as [|x l IH]; intros t E; [injection E as <-; apply Tid_nil|]. cbn [concatM] in E.
  destruct (f x) as [u|] eqn:F; [|discriminate E]. cbn [bind] in E. destruct (concatM f l) as [v|] eqn:G; [|discriminate E]. injection E as <-.
  apply Tid_app with (j, inv a); [exact (Tid_weaken i _ _ j b _ (H x (or_introl eq_refl) u F) B2)|]. apply IH; [|reflexivity]. intros y Hy. apply H. now right.
Qed.
Lemma WT_each1 {A} i (f : A -> res str) l j a b : l <> [] ->
  (forall x, In x l -> WT i (j, a) (f x) (j, b)) -> (forall x, In x l -> WT i (j, b) (f x) (j, b)) -> WT i (j, a) (concatM f l) (j, b).
Proof.
  intros N H K t E. destruct l as [|x l]; [congruence|]. cbn [concatM] in E.
  destruct (f x) as [u|] eqn:F; [|discriminate E]. cbn [bind] in E. destruct (concatM f l) as [v|] eqn:G; [|discriminate E]. injection E as <-.
  apply Tid_app with (j, b); [exact (H x (or_introl eq_refl) u F)|]. clear - K G. assert (K' : forall x, In x l -> WT i (j, b) (f x) (j, b)) by (intros y Hy; apply K; now right).
  clear K. revert v G. induction l as [|y l IH]; intros v E; [injection E as <-; apply Tid_nil|]. cbn [concatM] in E.
  destruct (f y) as [u|] eqn:F; [|discriminate E]. cbn [bind] in E. destruct (concatM f l) as [w|] eqn:G; [|discriminate E]. injection E as <-.
  apply Tid_app with (j, b); [exact (K' y (or_introl eq_refl) u F)|]. apply IH; [|reflexivity]. intros z Hz. apply K'. now right.
Qed.
Definition TyL {A} (to : A -> nat -> bool -> res str) (ok : A -> bool) : Prop :=
  forall o i n, ok o = true -> WT i (0, ABol) (to o i n) (0, fin n).
Definition TyI {A} (to : A -> nat -> bool -> res str) (ok : A -> bool) : Prop :=
  forall o k n t, ok o = true -> to o k n = Ok t -> exists r, t = spaces k ++ 40%N :: r /\ forall i j, Tid i (S j, AOpen) r (j, fin n).
Lemma TyI_gap {A} (to : A -> nat -> bool -> res str) ok : TyI to ok -> forall i j n x, ok x = true -> WT i (j, AGap) (to x 0 n) (j, fin n).
Proof.
  intros H i j n x O t E. destruct (H x 0 n t O E) as (r & -> & K). cbn [spaces repeat app].
  apply (Tid_app i _ [40%N] (S j, AOpen)); [now apply Tid_lit|apply K].
Qed.
Lemma TyI_line {A} (to : A -> nat -> bool -> res str) ok : TyI to ok -> forall i j m n x, ok x = true -> Nat.eqb m (2 * j) = true -> WT i (j, ALine m) (to x 0 n) (j, fin n).
Proof.
  intros H i j m n x O M t E. destruct (H x 0 n t O E) as (r & -> & K). cbn [spaces repeat app].
  apply (Tid_app i _ [40%N] (S j, AOpen)); [|apply K]. apply Tid_step. cbn [astep]. now rewrite M.
Qed.
Lemma TyI_gapl {A} (to : A -> nat -> bool -> res str) ok : TyI to ok -> forall i j m n x, ok x = true -> Nat.eqb m (2 * j) = true -> WT i (j, AGapL m) (to x 0 n) (j, fin n).
Proof.
  intros H i j m n x O M t E. destruct (H x 0 n t O E) as (r & -> & K). cbn [spaces repeat app].
  apply (Tid_app i _ [40%N] (S j, AOpen)); [|apply K]. apply Tid_step. cbn [astep]. now rewrite M.
Qed.
Lemma TyI_L {A} (to : A -> nat -> bool -> res str) ok : TyI to ok -> TyL to ok.
Proof.
  intros H o i n O t E. destruct (H o i n t O E) as (r & -> & K).
  apply Tid_app with (0, ALine 0); [apply Tid_spaces; lia|]. apply (Tid_app i _ [40%N] (1, AOpen)); [now apply Tid_lit|apply K].
Qed.
Lemma Tid_shift i k j n t : k = i + 2 * j -> Tid k (0, ABol) t (0, fin n) -> Tid i (j, ABol) t (j, fin n).
Proof.
  intros -> H base d p E R. cbn in *. subst p. destruct (H base (d + j) (Start 0) ltac:(lia) eq_refl) as (q & E1 & R1). cbn in E1. rewrite Nat.add_0_r in E1.
  exists q. split; [exact E1|]. destruct n; exact R1.
Qed.
Lemma TyL_sub {A} (to : A -> nat -> bool -> res str) ok : TyL to ok -> forall i j k n x, ok x = true -> k = i + 2 * j -> WT i (j, ABol) (to x k n) (j, fin n).
Proof. intros H i j k n x O K t E. exact (Tid_shift i k j n t K (H x k n O t E)). Qed.
Lemma TyL_tidies {A} (to : A -> nat -> bool -> res str) ok : TyL to ok -> tidies to ok.
Proof.
  intros H o i n t O E. destruct (H o i n O t E i 0 (Start 0) ltac:(lia) eq_refl) as (q & E1 & R1). cbn in E1. unfold tidy. rewrite E1.
  destruct n; cbn in R1; subst q; reflexivity.
Qed.

(** texts that always end the line *)
Definition TyN {A} (to : A -> nat -> bool -> res str) (ok : A -> bool) : Prop :=
  forall o i n, ok o = true -> WT i (0, ABol) (to o i n) (0, ABol).
Lemma TyN_sub {A} (to : A -> nat -> bool -> res str) ok : TyN to ok -> forall i j k n x, ok x = true -> k = i + 2 * j -> WT i (j, ABol) (to x k n) (j, ABol).
Proof. intros H i j k n x O K t E. exact (Tid_shift i k j true t K (H x k n O t E)). Qed.
Lemma TyN_tidies {A} (to : A -> nat -> bool -> res str) ok : TyN to ok -> tidies_line to ok.
Proof.
  intros H o i n t O E. destruct (H o i n O t E i 0 (Start 0) ltac:(lia) eq_refl) as (q & E1 & R1). cbn in E1. unfold tidy. rewrite E1. cbn in R1. now subst q.
Qed.
(** texts without indentation *)
Lemma Tid_bol0 j t s : Tid 0 (j, ALine 0) t s -> Tid 0 (j, ABol) t s.
Proof. exact (fun H => H). Qed.
Lemma Tid_tidy n t : Tid 0 (0, ABol) t (0, fin n) -> tidy 0 n t = true.
Proof.
  intros H. destruct (H 0 0 (Start 0) eq_refl eq_refl) as (q & E1 & R1). cbn in E1. unfold tidy. rewrite E1. destruct n; cbn in R1; subst q; reflexivity.
Qed.

(** ** Leaves *)
Lemma word_step i j c : word_char c = true -> Tid i (j, AItem false) [c] (j, AItem false).
Proof.
  intros H. apply Tid_step. destruct (word_char_facts c H) as (H1 & H2 & H3 & _). cbn [astep].
  unfold word_char in H. apply negb_true in H. apply Bool.orb_false_iff in H as [H Hs]. apply Bool.orb_false_iff in H as [H Hr]. apply Bool.orb_false_iff in H as [Hl _].
  change 40%N with lpar. change 41%N with rpar. rewrite Hl, Hr. cbn [orb].
  destruct (N.eqb_spec c 32) as [->|]; [discriminate Hs|]. destruct (N.eqb_spec c 10) as [->|]; [discriminate Hs|]. reflexivity.
Qed.
Lemma words_run i j w : forallb word_char w = true -> Tid i (j, AItem false) w (j, AItem false).
Proof.
  induction w as [|c w IH]; intros H; [apply Tid_nil|]. cbn [forallb] in H. apply andb_prop in H as [H1 H2].
  exact (Tid_app i _ [c] _ w _ (word_step i j c H1) (IH H2)).
Qed.
(** where a bare word may begin *)
Definition fresh (j : nat) (a : ctx) : bool := match a with AGap | AOpen => true | AItem w => negb w | ALine m | AGapL m => Nat.eqb m (2 * j) | _ => false end.
Lemma Tid_word i j a w : match w with [] => false | c :: _ => negb (N.eqb c dquote) && forallb word_char w end = true -> fresh j a = true -> Tid i (j, a) w (j, AItem false).
Proof.
  destruct w as [|c w]; [discriminate|]. intros H F. apply andb_prop in H as [Hq H]. cbn [forallb] in H. apply andb_prop in H as [H1 H2].
  apply negb_true in Hq.
  apply (Tid_app i _ [c] (j, AItem false) w); [|now apply words_run]. apply Tid_step.
  unfold word_char in H1. apply negb_true in H1. apply Bool.orb_false_iff in H1 as [H Hs]. apply Bool.orb_false_iff in H as [H Hr]. apply Bool.orb_false_iff in H as [Hl _].
  assert (N1 : (c =? 32)%N = false) by (destruct (N.eqb_spec c 32) as [->|]; [discriminate Hs|reflexivity]).
  assert (N2 : (c =? 10)%N = false) by (destruct (N.eqb_spec c 10) as [->|]; [discriminate Hs|reflexivity]).
  change lpar with 40%N in Hl. change rpar with 41%N in Hr. change dquote with 34%N in Hq.
  destruct a; cbn [fresh] in F; try discriminate F; cbn [astep]; unfold aopening; rewrite ?N1, ?N2, ?Hl, ?Hr, ?Hq, ?F; cbn [orb]; try reflexivity.
  now destruct w0.
Qed.
Lemma Tid_wordv i j a v : wordv v = true -> fresh j a = true -> Tid i (j, a) (fmt v) (j, AItem false).
Proof.
  intros H F. destruct v as [| | | |s|]; try discriminate H. cbn [fmt]. apply Tid_word; [|exact F]. unfold wordv, wordb in H.
  destruct s; [discriminate H|]. now apply andb_prop in H as [H _].
Qed.
Lemma Tid_word0v i j a v : word0v v = true -> fresh j a = true -> Tid i (j, a) (fmt v) (j, AItem false).
Proof. intros H F. destruct v as [| | | |s|]; try discriminate H. cbn [fmt]. now apply Tid_word. Qed.
Lemma wnum_first w v : wnum w = Some v -> forallb word_char w = true -> match w with [] => false | c :: _ => negb (N.eqb c dquote) && forallb word_char w end = true.
Proof.
  intros H W. destruct w as [|c w]; [discriminate H|]. rewrite W, andb_true_r. destruct (N.eqb_spec c dquote) as [->|]; [|reflexivity].
  now rewrite (wnum_none (dquote :: w) dquote) in H; [|left|..].
Qed.
Lemma Tid_numb i j a v : numb v = true -> fresh j a = true -> Tid i (j, a) (fmt v) (j, AItem false).
Proof.
  intros H F. apply Tid_word; [|exact F]. destruct v as [| |z|f| |]; try discriminate H; cbn [fmt repr_val].
  - destruct (int_str_wnum z H) as [E W]. exact (wnum_first _ _ E W).
  - unfold numb in H. apply andb_prop in H as [H1 H2]. destruct (float_str_wnum f H1 H2) as [E W]. exact (wnum_first _ _ E W).
Qed.
Lemma Tid_atomb i j a v : atomb v = true -> fresh j a = true -> Tid i (j, a) (fmt v) (j, AItem false).
Proof. unfold atomb. intros H. apply orb_prop in H as [H|H]; [now apply Tid_numb|now apply Tid_wordv]. Qed.
(** where a quote may begin *)
Definition freshq (j : nat) (a : ctx) : bool := match a with AGap => true | ALine m | AGapL m => Nat.eqb m (2 * j) | _ => false end.
(** the escaped text of a string that does not end in a backslash, then the quote *)
Lemma quote_run i j s : forall a, (a = AQuote \/ a = AEsc /\ s <> []) -> (s <> [] -> N.eqb (last s 0%N) bslash = false) ->
  Tid i (j, a) (replace1 dquote [bslash; dquote] s ++ [dquote]) (j, AItem true).
Proof.
  induction s as [|c s IH]; intros a Ha Hl.
  - destruct Ha as [->|[_ C]]; [now apply Tid_lit|congruence].
  - specialize (Hl ltac:(discriminate)). cbn [replace1].
    assert (L : s <> [] -> N.eqb (last s 0%N) bslash = false) by (intros N; destruct s; [congruence|exact Hl]).
    destruct (N.eqb_spec c dquote) as [->|C].
    + rewrite <- app_assoc. apply (Tid_app i _ [bslash; dquote] (j, AQuote)).
      * destruct Ha as [->|[-> _]]; now apply Tid_lit.
      * apply IH; auto.
    + destruct (N.eqb_spec c bslash) as [->|B].
      * assert (N : s <> []) by (intros ->; discriminate Hl).
        apply (Tid_app i _ [bslash] (j, AEsc)); [destruct Ha as [->|[-> _]]; now apply Tid_lit|]. apply IH; auto.
      * apply (Tid_app i _ [c] (j, AQuote)); [|apply IH; auto]. apply Tid_step. change dquote with 34%N in C. change bslash with 92%N in B.
        destruct Ha as [->|[-> _]]; cbn [astep]; rewrite ?(proj2 (N.eqb_neq c 34) C), (proj2 (N.eqb_neq c 92) B); reflexivity.
Qed.
Lemma Tid_quoted i j a v : txtb v = true -> freshq j a = true -> Tid i (j, a) (quoted v) (j, AItem true).
Proof.
  intros H F. destruct v as [| | | |s|]; try discriminate H. unfold quoted, dequote. cbn [fmt].
  apply (Tid_app i _ [dquote] (j, AQuote)).
  - apply Tid_step. destruct a; try discriminate F; cbn [astep freshq] in *; rewrite ?F; reflexivity.
  - apply quote_run; [now left|]. intros _. now apply negb_true in H.
Qed.
Lemma Tid_rawq i j a v : rawtxtb v = true -> freshq j a = true -> Tid i (j, a) (rawq v) (j, AItem true).
Proof. intros H F. rewrite (rawq_quoted v H). apply Tid_quoted; [|exact F]. destruct v; try discriminate H. cbn [rawtxtb txtb] in *. now apply andb_prop in H as [H _]. Qed.
(** ** Tactics *)
Lemma Ok_inj {A} (x y : A) : Ok x = Ok y -> x = y.
Proof. now intros [= ->]. Qed.
Create HintDb tyI discriminated. Create HintDb tyL discriminated. Create HintDb tyN discriminated.
Create HintDb okf discriminated. #[export] Hint Constants Opaque : okf.
#[export] Hint Constants Opaque : tyI tyL tyN. #[export] Hint Variables Opaque : tyI tyL tyN.
Lemma TyI_intro k n t s rest : t = spaces k ++ lit (String (Ascii.ascii_of_nat 40) s) ++ rest -> (forall i j, Tid i (S j, AOpen) (lit s ++ rest) (j, fin n)) ->
  exists r, t = spaces k ++ 40%N :: r /\ forall i j, Tid i (S j, AOpen) r (j, fin n).
Proof. intros -> H. exists (lit s ++ rest). split; [reflexivity|exact H]. Qed.
Lemma Tid_angle i j p : optb numb (po_angle p) = true -> Tid i (j, AItem false) (angle_str p) (j, AItem false).
Proof.
  intros H. unfold angle_str. destruct (is_none (po_angle p)) eqn:N; [apply Tid_nil|]. apply Tid_app with (j, AGap); [now apply Tid_lit|].
  apply Tid_numb; [exact (optb_spec numb _ H N)|reflexivity].
Qed.
Ltac ef :=
  repeat match goal with
  | H : forallb ?P ?l = true, Hx : In ?x ?l |- _ => apply (fun h => forallb_spec P l x h Hx) in H; cbv beta in H
  | H : optok ?P ?o = true, Hx : ?o = Some ?x |- _ => apply (fun h => optok_spec P o x h Hx) in H; cbv beta in H
  end.
Ltac td_lit :=
  lazymatch goal with
  | |- Tid ?i ?s ?t _ =>
      let r := eval vm_compute in (arun s t) in
      lazymatch r with Some ?r => refine (Tid_lit i s t r _); vm_compute; reflexivity end
  end.
Ltac td_fmt v :=
  first [ eapply Tid_numb; [leaf_fact v numb|reflexivity]
        | eapply Tid_wordv; [leaf_fact v wordv|reflexivity]
        | eapply Tid_atomb; [leaf_fact v atomb|reflexivity]
        | eapply Tid_word0v; [leaf_fact v word0v|reflexivity] ].
Ltac td_spaces :=
  lazymatch goal with
  | |- Tid ?i _ (spaces ?k) _ =>
      lazymatch k with
      | i => eapply (Tid_spaces i _ k 0); clear; lia
      | i + ?c => eapply (Tid_spaces i _ k c); clear; lia
      | i + ?c + ?d => let m := eval vm_compute in (c + d) in eapply (Tid_spaces i _ k m); clear; lia
      end
  end.
Ltac orbs := repeat match goal with H : (_ || _)%bool = false |- _ => apply Bool.orb_false_iff in H; destruct H end.
Ltac td_more := fail.
Ltac tw_more := fail.
Ltac tw_loop := fail.
Ltac joinit :=
  lazymatch goal with
  | |- joined ?a ?b _ =>
      first [ exact (joined_refl a)
            | let c := eval vm_compute in (joint a b) in refine (joined_below a b c _); vm_compute; reflexivity ]
  end.
(** compute the state *)
Ltac norm_st :=
  lazymatch goal with
  | |- Tid ?i ?s ?t ?r => let s' := eval cbv [fin inv] in s in change (Tid i s' t r)
  | |- WT ?i ?s ?t ?r => let s' := eval cbv [fin inv] in s in change (WT i s' t r)
  end.
Ltac contra :=
  match goal with
  | H : true = false |- _ => discriminate H
  | H : false = true |- _ => discriminate H
  | H : ?b = true, K : ?b = false |- _ => rewrite H in K; discriminate K
  | H : negb ?b = true, K : ?b = true |- _ => rewrite K in H; discriminate H
  | H : Some _ = None |- _ => discriminate H
  | H : ?f ?b = true, K : ?b = Some _ |- _ => rewrite K in H; discriminate H
  | H : ?f ?b = true, K : ?b = None |- _ => rewrite K in H; discriminate H
  | H : ?b = Some _, K : ?b = None |- _ => rewrite H in K; discriminate K
  end.
Ltac td_go :=
  lazymatch goal with
  | |- Tid _ _ (_ ++ _) _ => eapply Tid_app; [td_go | norm_st; td_go]
  | |- Tid _ _ [] _ => eapply Tid_nil
  | |- Tid _ _ (spaces _) _ => td_spaces
  | |- Tid _ _ (eol _) _ => eapply Tid_eol
  | |- Tid _ _ (fmt ?v) _ => td_fmt v
  | |- Tid _ _ (quoted ?v) _ => eapply Tid_quoted; [leaf_fact v txtb|reflexivity]
  | |- Tid _ _ (rawq ?v) _ => eapply Tid_rawq; [leaf_fact v rawtxtb|reflexivity]
  | |- Tid _ _ (angle_str _) _ => unfold angle_str; td_go
  | |- Tid _ _ (flat_map _ _) _ =>
      let x := fresh "x" in let Hx := fresh "Hx" in
      eapply Tid_each; [intros x Hx; ef; facts; norm_st; td_go | reflexivity | reflexivity]
  | |- Tid _ _ (match ?o with Some x => @?f x | None => ?m end) _ =>
      let x := fresh "x" in let Hx := fresh "Hx" in
      eapply (Tid_match _ _ o f m); [intros x Hx; ef; facts; cbv beta; first [contra | td_go] | intros Hx; first [contra | td_go] | joinit]
  | |- Tid _ _ (if ?b then _ else _) _ =>
      let H := fresh "B" in eapply Tid_if; [intros H; first [contra | facts; first [contra | td_go]] | intros H; first [contra | orbs; facts; first [contra | td_go]] | joinit]
  | |- Tid ?i ?st ?s ?r =>
      first [ is_var s; lazymatch goal with H : ?m = Ok s |- _ => refine (WT_use i st m r s _ H); clear H; tw_go end
            | is_lit s; td_lit
            | td_more ]
  end
with tw_go :=
  cbv beta zeta;
  lazymatch goal with
  | |- WT _ _ (bind (Ok _) _) _ => cbn [bind]; tw_go
  | |- WT _ _ (bind _ _) _ => first [tw_more | let s := fresh "s" in let Hs := fresh "Hs" in eapply WT_bind; intros s Hs; tw_go]
  | |- WT _ _ (Ok _) _ => eapply WT_ok; td_go
  | |- WT _ _ (Err _) _ => eapply WT_err
  | |- WT _ _ (concatM _ _) _ =>
      let x := fresh "x" in let Hx := fresh "Hx" in
      first [tw_loop | eapply WT_each; [intros x Hx; ef; facts; norm_st; tw_go | reflexivity | reflexivity]]
  | |- WT _ _ (opt_str _ _) _ =>
      let x := fresh "x" in let Hx := fresh "Hx" in
      eapply WT_opt; [intros x Hx; first [contra | ef; facts; tw_go] | joinit]
  | |- WT _ _ (match ?o with Some x => @?f x | None => ?m end) _ =>
      let x := fresh "x" in let Hx := fresh "Hx" in
      eapply (WT_match _ _ o f m); [intros x Hx; first [contra | ef; facts; first [contra | tw_go]] | intros Hx; first [contra | tw_go] | joinit]
  | |- WT _ _ (if ?b then Err _ else _) _ =>
      let H := fresh "B" in eapply WT_if_err; intros H; orbs; facts; first [contra | tw_go]
  | |- WT _ _ (if ?b then _ else _) _ =>
      let H := fresh "B" in eapply WT_if; [intros H; first [contra | facts; first [contra | tw_go]] | intros H; first [contra | orbs; facts; first [contra | tw_go]] | joinit]
  | |- WT _ (_, AGap) _ _ => first [eapply TyI_gap; [solve [eauto 1 with tyI]|first [eassumption | solve [eauto 2 with okf] | solve [eauto 3 with okk]]] | tw_more]
  | |- WT _ (_, ALine _) _ _ => first [eapply TyI_line; [solve [eauto 1 with tyI]|first [eassumption | solve [eauto 2 with okf] | solve [eauto 3 with okk]]|reflexivity] | tw_more]
  | |- WT _ (_, AGapL _) _ _ => first [eapply TyI_gapl; [solve [eauto 1 with tyI]|first [eassumption | solve [eauto 2 with okf] | solve [eauto 3 with okk]]|reflexivity] | tw_more]
  | |- WT _ (_, ABol) _ _ => first [eapply TyL_sub; [solve [eauto 1 with tyL]|first [eassumption | solve [eauto 2 with okf] | solve [eauto 3 with okk]]|clear; lia]
      | eapply TyN_sub; [solve [eauto 1 with tyN]|first [eassumption | solve [eauto 2 with okf] | solve [eauto 3 with okk]]|clear; lia] | tw_more]
  | |- WT _ _ _ _ => tw_more
  end.
Ltac peel E :=
  cbv beta zeta in E;
  lazymatch type of E with
  | bind (Ok _) _ = Ok _ => cbn [bind] in E; peel E
  | bind ?m ?k = Ok _ =>
      let s := fresh "s" in let Hs := fresh "Hs" in
      destruct m as [s|] eqn:Hs; [cbn [bind] in E; peel E|discriminate E]
  | (if ?b then _ else _) = Ok _ => let B := fresh "B" in destruct b eqn:B; first [contra | orbs; facts; first [contra | peel E]]
  | Ok _ = Ok _ => apply Ok_inj in E
  | Err _ = Ok _ => discriminate E
  end.
Tactic Notation "tyi" tactic3(U) reference(X_to) :=
  let o := fresh "o" in let k := fresh "k" in let n := fresh "n" in let t := fresh "t" in let H := fresh "Hok" in let E := fresh "E" in
  intros o k n t H E; U; facts; unfold X_to in E; peel E;
  (eapply TyI_intro; [symmetry; exact E|]; clear E; let i := fresh "i" in let j := fresh "j" in intros i j; td_go).
Tactic Notation "tyl" tactic3(U) reference(X_to) :=
  let o := fresh "o" in let i := fresh "i" in let n := fresh "n" in let t := fresh "t" in let H := fresh "Hok" in let E := fresh "E" in
  intros o i n H t E; U; facts; unfold X_to in E; peel E;
  (rewrite <- E; clear E; td_go).
Tactic Notation "tyn" tactic3(U) reference(X_to) :=
  let o := fresh "o" in let i := fresh "i" in let n := fresh "n" in let t := fresh "t" in let H := fresh "Hok" in let E := fresh "E" in
  intros o i n H t E; U; facts; unfold X_to in E; peel E;
  (rewrite <- E; clear E; td_go).
