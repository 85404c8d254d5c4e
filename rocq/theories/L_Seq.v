(** Proof framework for the writers: fragments of written text and the tokens they read as. *)
From Verif Require Import PyBase PyNum PyStr Sexpr S_Leaf S_Tree L_Lex L_Tok L_Num.
From Coq Require Import Lia.

(** What the text behind a fragment must begin with. *)
Inductive kind := KC | KW | KQ | KN.
Definition req (k : kind) (rest : str) : bool :=
  match k with
  | KC => true
  | KW => word_end rest
  | KQ => sq_end rest
  | KN => num_end rest
  end.
Definition krank (k : kind) : nat := match k with KC => 0 | KW => 1 | KQ => 2 | KN => 3 end.
Definition kle (a b : kind) : bool := Nat.leb (krank a) (krank b).
Definition kmax (a b : kind) : kind := if kle a b then b else a.

Lemma num_sq rest : num_end rest = true -> sq_end rest = true.
Proof.
  destruct rest as [|c r]; [discriminate|]. cbn. destruct (N.eqb_spec c 32) as [->|]; [reflexivity|].
  cbn. now intros ->.
Qed.
Lemma sq_word rest : sq_end rest = true -> word_end rest = true.
Proof.
  destruct rest as [|c r]; [discriminate|]. cbn. destruct (N.eqb c rpar); cbn; [intros; apply orb_true_r|].
  now intros ->.
Qed.
Lemma req_mono a b rest : kle a b = true -> req b rest = true -> req a rest = true.
Proof. destruct a, b; cbn; auto using num_sq, sq_word; discriminate. Qed.

(** The fragment [s] reads as the tokens [ts]. [k] is what the fragment before it needs to
    be followed by, [k'] what this one needs. *)
Definition Seq (k : kind) (s : str) (k' : kind) (ts : list tok) : Prop :=
  forall rest, req k' rest = true ->
    req k (s ++ rest) = true /\ lex (s ++ rest) = ts ++ lex rest.

Lemma Seq_app k a k1 t1 b k2 t2 :
  Seq k a k1 t1 -> Seq k1 b k2 t2 -> Seq k (a ++ b) k2 (t1 ++ t2).
Proof.
  intros Ha Hb rest Hr. destruct (Hb rest Hr) as [H1 H2]. destruct (Ha (b ++ rest) H1) as [H3 H4].
  rewrite <- !app_assoc. split; [assumption|]. now rewrite H4, H2.
Qed.
Lemma Seq_nil k : Seq k [] k [].
Proof. intros rest H. split; [assumption|reflexivity]. Qed.
Lemma Seq_weaken k s k1 k2 ts : kle k1 k2 = true -> Seq k s k1 ts -> Seq k s k2 ts.
Proof. intros Hk H rest Hr. apply H. eapply req_mono; eassumption. Qed.
Lemma Seq_start k k0 s k1 ts : kle k0 k = true -> Seq k s k1 ts -> Seq k0 s k1 ts.
Proof. intros Hk H rest Hr. destruct (H rest Hr). split; [eapply req_mono; eassumption|assumption]. Qed.

Lemma Seq_if k (b : bool) s1 s2 k1 k2 t1 t2 :
  (b = true -> Seq k s1 k1 t1) -> (b = false -> Seq k s2 k2 t2) ->
  Seq k (if b then s1 else s2) (kmax k1 k2) (if b then t1 else t2).
Proof.
  intros H1 H2. unfold kmax. destruct b.
  - eapply Seq_weaken; [|apply H1; reflexivity]. destruct k1, k2; reflexivity.
  - eapply Seq_weaken; [|apply H2; reflexivity]. destruct k1, k2; reflexivity.
Qed.

Lemma Seq_spaces k n : Seq k (spaces n) k [].
Proof.
  intros rest H. split.
  - destruct n; [exact H|]. destruct k; reflexivity.
  - cbn [app]. apply lex_spaces. unfold spaces. induction n; [reflexivity|exact IHn].
Qed.
Lemma Seq_eol k b : kle k KQ = true -> Seq k (eol b) k [].
Proof.
  intros Hk rest H. destruct b; cbn [eol]; [|split; [exact H|reflexivity]].
  split; [destruct k; [reflexivity..|discriminate]|]. now apply (lex_spaces nl).
Qed.

(** ** Literal text *)
Fixpoint lrunf (fuel : nat) (s : str) : option (list tok * kind) :=
  match fuel with
  | O => None
  | S fuel' =>
      match s with
      | [] => Some ([], KC)
      | c :: s' =>
          let emit t r := match lrunf fuel' r with Some (ts, k) => Some (t :: ts, k) | None => None end in
          if is_space c then lrunf fuel' s'
          else if N.eqb c lpar then emit TL s'
          else if N.eqb c rpar then emit TR s'
          else
            let '(w, r) := span word_char s in
            match r with
            | [] => if wordb w then Some ([TA (VStr w)], KW)
                    else match wnum w with Some v => Some ([TA v], KN) | None => None end
            | _ => if wordb w then (if word_end r then emit (TA (VStr w)) r else None)
                   else match wnum w with
                        | Some v => if num_end r then emit (TA v) r else None
                        | None => None
                        end
            end
      end
  end.
Definition lrun (s : str) : option (list tok * kind) := lrunf (S (length s)) s.

Lemma req_app k c s rest : req k (c :: s) = req k ((c :: s) ++ rest).
Proof. now destruct k. Qed.

Lemma span_forallb f s : forallb f (fst (span f s)) = true.
Proof.
  induction s as [|c s IH]; cbn [span]; [reflexivity|]. destruct (f c) eqn:E; [|reflexivity].
  destruct (span f s); cbn [fst forallb] in *. now rewrite E.
Qed.

Lemma lrunf_sound fuel : forall s ts k, lrunf fuel s = Some (ts, k) ->
  forall rest, req k rest = true -> lex (s ++ rest) = ts ++ lex rest.
Proof.
  induction fuel as [|fuel IH]; intros s ts k H rest Hr; [discriminate|].
  cbn [lrunf] in H. destruct s as [|c s']; [injection H as <- <-; reflexivity|].
  assert (Emit : forall t r, match lrunf fuel r with Some (ts, k) => Some (t :: ts, k) | None => None end
            = Some (ts, k) -> exists ts', ts = t :: ts' /\ lex (r ++ rest) = ts' ++ lex rest).
  { intros t r E. destruct (lrunf fuel r) as [[ts' k']|] eqn:E2; [|discriminate].
    injection E as <- <-. exists ts'. split; [reflexivity|]. eapply IH; eassumption. }
  destruct (is_space c) eqn:Es.
  { cbn [app]. rewrite lex_space by assumption. eapply IH; eassumption. }
  destruct (N.eqb_spec c lpar) as [->|Hl].
  { destruct (Emit _ _ H) as (ts' & -> & E). cbn [app]. rewrite lex_lpar, E. reflexivity. }
  destruct (N.eqb_spec c rpar) as [->|Hrp].
  { destruct (Emit _ _ H) as (ts' & -> & E). cbn [app]. rewrite lex_rpar, E. reflexivity. }
  pose proof (span_app word_char (c :: s')) as Sp. pose proof (span_forallb word_char (c :: s')) as Sf.
  destruct (span word_char (c :: s')) as [w r]. cbn [fst snd] in Sp, Sf. rewrite <- Sp.
  destruct r as [|d r].
  - rewrite app_nil_r. destruct (wordb w) eqn:Ew.
    + injection H as <- <-. now apply lex_word.
    + destruct (wnum w) as [v|] eqn:En; [|discriminate]. injection H as <- <-. now apply lex_num.
  - rewrite <- app_assoc. destruct (wordb w) eqn:Ew.
    + destruct (word_end (d :: r)) eqn:Ee; [|discriminate].
      destruct (Emit _ _ H) as (ts' & -> & E). rewrite lex_word; [now rewrite E|assumption|exact Ee].
    + destruct (wnum w) as [v|] eqn:En; [|discriminate]. destruct (num_end (d :: r)) eqn:Ee; [|discriminate].
      destruct (Emit _ _ H) as (ts' & -> & E). rewrite (lex_num w v); [now rewrite E|assumption..|exact Ee].
Qed.

Definition start (k : kind) (s : str) : bool := match s with [] => false | _ => req k s end.

Lemma Seq_lit k s k' ts : lrun s = Some (ts, k') -> start k s = true -> Seq k s k' ts.
Proof.
  intros H Hs rest Hr. split.
  - destruct s as [|c s]; [discriminate|]. now rewrite <- req_app.
  - eapply lrunf_sound; eassumption.
Qed.

(** ** Leaves *)
Lemma flat_leaf v : is_list v = false -> flat v = [TA v].
Proof. now destruct v. Qed.
Lemma numb_leaf v : numb v = true -> is_list v = false.
Proof. now destruct v. Qed.
Lemma atomb_leaf v : atomb v = true -> is_list v = false.
Proof. now destruct v. Qed.
Lemma wordv_leaf v : wordv v = true -> is_list v = false.
Proof. now destruct v. Qed.
Lemma txtb_leaf v : txtb v = true -> is_list v = false.
Proof. now destruct v. Qed.
Lemma nrm_leaf v : is_list (nrm v) = is_list v.
Proof. destruct v; try reflexivity. cbn [nrm]. now destruct (is_integer f). Qed.
Lemma atomb_nrm v : atomb v = true -> atomb (nrm v) = true.
Proof.
  unfold atomb. intros H. apply orb_prop in H as [H|H].
  - now rewrite (numb_nrm v H).
  - rewrite (nrm_word v H), H. apply orb_true_r.
Qed.

Lemma numb_lex v rest : numb v = true -> num_end rest = true -> lex (fmt v ++ rest) = TA (nrm v) :: lex rest.
Proof.
  intros H Hr. destruct v; try discriminate.
  - cbn [numb] in H. destruct (int_str_wnum z H) as [E1 E2]. cbn [fmt repr_val nrm].
    now apply lex_num.
  - cbn [numb] in H. apply andb_prop in H as [H1 H2].
    destruct (float_str_wnum f H1 H2) as [E1 E2]. cbn [fmt repr_val nrm].
    now apply lex_num.
Qed.
Lemma Seq_num v : numb v = true -> Seq KC (fmt v) KN (flat (nrm v)).
Proof.
  intros H rest Hr. split; [reflexivity|]. rewrite flat_leaf by (rewrite nrm_leaf; now apply numb_leaf).
  now apply numb_lex.
Qed.
Lemma Seq_word v : wordv v = true -> Seq KC (fmt v) KW (flat v).
Proof.
  intros H rest Hr. split; [reflexivity|]. destruct v; try discriminate. cbn [flat fmt]. now apply lex_word.
Qed.
Lemma Seq_atom v : atomb v = true -> Seq KC (fmt v) KN (flat (nrm v)).
Proof.
  unfold atomb. intros H. apply orb_prop in H as [H|H]; [now apply Seq_num|].
  rewrite nrm_word by assumption. eapply Seq_weaken; [|apply Seq_word; assumption]. reflexivity.
Qed.
Lemma Seq_quoted v : txtb v = true -> Seq KC (quoted v) KQ (flat v).
Proof.
  intros H rest Hr. split; [reflexivity|]. destruct v; try discriminate. cbn [flat].
  now rewrite lex_quoted.
Qed.
Lemma rawq_quoted v : rawtxtb v = true -> rawq v = quoted v.
Proof.
  destruct v; try discriminate. cbn [rawtxtb]. intros H. apply andb_prop in H as [_ H].
  unfold rawq, quoted, dequote. cbn [fmt]. do 2 f_equal.
  induction s as [|c s IH]; [reflexivity|]. cbn [existsb] in H. cbn [replace1].
  rewrite N.eqb_sym. destruct (N.eqb dquote c); [discriminate|]. cbn [orb app] in *. now rewrite <- IH.
Qed.
Lemma plain_word v : plainv v = true -> wordv v = true.
Proof. destruct v; try discriminate. cbn. intros H. now apply andb_prop in H. Qed.
Lemma plain_dequote v : plainv v = true -> dequote v = fmt v.
Proof.
  destruct v; try discriminate. cbn [plainv]. intros H. apply andb_prop in H as [_ H].
  unfold dequote. cbn [fmt].
  induction s as [|c s IH]; [reflexivity|]. cbn [existsb] in H. cbn [replace1].
  rewrite N.eqb_sym. destruct (N.eqb dquote c); [discriminate|]. cbn [orb app] in *. now rewrite IH.
Qed.
Lemma Seq_dequote v : plainv v = true -> Seq KC (dequote v) KW (flat v).
Proof. intros H. rewrite plain_dequote by assumption. now apply Seq_word, plain_word. Qed.
Lemma rawtxtb_txtb v : rawtxtb v = true -> txtb v = true.
Proof. destruct v; try discriminate. cbn. intros H. now apply andb_prop in H. Qed.
Lemma Seq_rawq v : rawtxtb v = true -> Seq KC (rawq v) KQ (flat v).
Proof. intros H. rewrite rawq_quoted by assumption. now apply Seq_quoted, rawtxtb_txtb. Qed.

Lemma optb_spec f v : optb f v = true -> is_none v = false -> f v = true.
Proof. unfold optb. now destruct (is_none v). Qed.

(** ** Writers *)
Definition Wr (m : res str) (ts : list tok) : Prop := exists s, m = Ok s /\ Seq KC s KC ts.

Lemma Wr_ok s ts : Seq KC s KC ts -> Wr (Ok s) ts.
Proof. intros H. exists s. now split. Qed.
Lemma Wr_bind m ts k ts' :
  Wr m ts -> (forall s, Seq KC s KC ts -> Wr (k s) ts') -> Wr (bind m k) ts'.
Proof. intros (s & -> & H) Hk. now apply Hk. Qed.
Lemma Wr_eq m ts ts' : Wr m ts -> ts = ts' -> Wr m ts'.
Proof. now intros H <-. Qed.
Lemma Wr_nil : Wr (Ok []) [].
Proof. apply Wr_ok, Seq_nil. Qed.
Lemma Wr_if (b : bool) m1 m2 t1 t2 :
  (b = true -> Wr m1 t1) -> (b = false -> Wr m2 t2) -> Wr (if b then m1 else m2) (if b then t1 else t2).
Proof. destruct b; auto. Qed.
Lemma Wr_concatM {A} (f : A -> res str) (t : A -> list tok) l :
  (forall x, In x l -> Wr (f x) (t x)) -> Wr (concatM f l) (flat_map t l).
Proof.
  induction l as [|x l IH]; cbn [concatM flat_map]; intros H; [apply Wr_nil|].
  apply (Wr_bind _ (t x)); [apply H; now left|]. intros s Hs.
  apply (Wr_bind _ (flat_map t l)); [apply IH; intros; apply H; now right|]. intros r Hr.
  apply Wr_ok. eapply Seq_app; eassumption.
Qed.
Lemma Wr_opt {A} (o : option A) (f : A -> res str) (t : A -> list tok) :
  (forall x, o = Some x -> Wr (f x) (t x)) ->
  Wr (opt_str o f) (match o with Some x => t x | None => [] end).
Proof. intros H. destruct o as [x|]; cbn [opt_str]; [now apply H|apply Wr_nil]. Qed.

(** ** Tokens of trees *)
Lemma flats_app a b : flats (a ++ b) = flats a ++ flats b.
Proof. induction a as [|x a IH]; cbn [flats app]; [reflexivity|]. now rewrite IH, app_assoc. Qed.
Lemma flat_list l : flat (VList l) = TL :: flats l ++ [TR].
Proof.
  cbn [flat]. f_equal. induction l as [|x l IH]; cbn [flats app]; [reflexivity|].
  now rewrite IH, app_assoc.
Qed.
Lemma flat_node k l : flat (node k l) = TL :: TA (VStr (lit k)) :: flats l ++ [TR].
Proof. unfold node. now rewrite flat_list. Qed.
Lemma flats_map {A} (t : A -> val) l : flats (map t l) = flat_map (fun x => flat (t x)) l.
Proof. induction l as [|x l IH]; cbn [map flats flat_map]; [reflexivity|]. now rewrite IH. Qed.
Lemma flats_if (b : bool) l1 l2 : flats (if b then l1 else l2) = if b then flats l1 else flats l2.
Proof. now destruct b. Qed.
Lemma flats_optn k v : flats (optn k v) = if is_none v then [] else TL :: TA (VStr (lit k)) :: flat v ++ [TR].
Proof. unfold optn. rewrite flats_if. destruct (is_none v); [reflexivity|]. cbn [flats]. rewrite flat_node. cbn [flats]. now rewrite !app_nil_r. Qed.
Lemma flats_opto {A} (t : A -> val) o : flats (opto t o) = match o with Some x => flat (t x) | None => [] end.
Proof. destruct o; cbn [opto flats]; [now rewrite app_nil_r|reflexivity]. Qed.

(** ** The parser on the tokens of a tree *)
Lemma foldM_app {A B} (step : A -> B -> res A) a l1 l2 :
  foldM step a (l1 ++ l2) = let! a' := foldM step a l1 in foldM step a' l2.
Proof.
  revert a. induction l1 as [|x l1 IH]; intros a; cbn [foldM app bind]; [reflexivity|].
  destruct (step a x); cbn [bind]; auto.
Qed.

(* induction principle with the elements of lists *)
Lemma val_ind2 (P : val -> Prop) :
  (forall v, is_list v = false -> P v) -> (forall l, Forall P l -> P (VList l)) -> forall v, P v.
Proof.
  intros H1 H2. fix F 1. intros v. destruct v; try (apply H1; reflexivity).
  apply H2. induction l as [|x l IH]; constructor; [apply F|apply IH].
Qed.

Lemma pstep_flat v : forall stack out rest,
  foldM pstep (stack, out) (flat v ++ rest) = foldM pstep (stack, out ++ [v]) rest.
Proof.
  induction v as [v Hv|l IH] using val_ind2; intros stack out rest.
  - now rewrite flat_leaf.
  - rewrite flat_list. cbn [app foldM pstep bind].
    assert (E : forall l, Forall (fun v => forall stack out rest,
        foldM pstep (stack, out) (flat v ++ rest) = foldM pstep (stack, out ++ [v]) rest) l ->
        forall acc r, foldM pstep (out :: stack, acc) (flats l ++ r) = foldM pstep (out :: stack, acc ++ l) r).
    { clear. induction l as [|x l IH]; intros H acc r; cbn [flats app]; [now rewrite app_nil_r|].
      inversion H; subst. rewrite <- app_assoc, H2, IH by assumption. now rewrite <- app_assoc. }
    rewrite <- app_assoc, E by assumption. reflexivity.
Qed.

Lemma parse_flat v : parse_toks (flat v) = Ok v.
Proof.
  unfold parse_toks. rewrite <- (app_nil_r (flat v)), pstep_flat. reflexivity.
Qed.

Lemma parse_seq s v : Seq KC s KC (flat v) -> parse_sexp s = Ok v.
Proof.
  intros H. destruct (H [] eq_refl) as [_ E]. rewrite lex_nil, !app_nil_r in E.
  unfold parse_sexp. rewrite E. apply parse_flat.
Qed.

(** A written text followed by anything is read back as the object it came from. *)
Lemma parse_seq_rest s v rest : Seq KC s KC (flat v) ->
  parse_sexp (s ++ rest) = let! p := foldM pstep ([], [v]) (lex rest) in
    match fst p with _ :: _ => Err EAssertion | [] => match snd p with [] => Err EIndex | x :: _ => Ok x end end.
Proof.
  intros H. destruct (H rest eq_refl) as [_ E]. unfold parse_sexp. rewrite E.
  unfold parse_toks. rewrite pstep_flat. cbn [app].
  destruct (foldM pstep ([], [v]) (lex rest)) as [[st o]|]; reflexivity.
Qed.
