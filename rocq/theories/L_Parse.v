(** Proofs about the tokeniser and parser on whole documents. *)
From Verif Require Import PyBase PyNum PyStr Sexpr S_Leaf S_Tree S_Parse L_Lex L_Tok L_Num L_Seq.

(** ** Outcomes *)
Lemma opens_app a b : opens (a ++ b) = opens a + opens b.
Proof. unfold opens. now rewrite filter_app, app_length. Qed.
Lemma closes_app a b : closes (a ++ b) = closes a + closes b.
Proof. unfold closes. now rewrite filter_app, app_length. Qed.

(* invariant of the parser loop *)
Lemma pfold_inv ts : forall stack out,
  match foldM pstep (stack, out) ts with
  | Ok (stack', out') =>
      (forall p q, ts = p ++ q -> closes p <= opens p + length stack) /\
      length stack' + closes ts = length stack + opens ts
  | Err e => e = EAssertion /\ exists p q, ts = p ++ q /\ closes p > opens p + length stack
  end.
Proof.
  induction ts as [|t ts IH]; intros stack out; cbn [foldM].
  - split; [|reflexivity]. intros p q E. destruct p; [cbn; lia|discriminate].
  - destruct t as [| |v]; cbn [pstep bind].
    + specialize (IH (out :: stack) []). destruct (foldM pstep (out :: stack, []) ts) as [[st o]|e].
      * destruct IH as [H1 H2]. split.
        { intros p q E. destruct p as [|x p]; [cbn; lia|]. injection E as <- E.
          specialize (H1 p q E). cbn [length] in H1. unfold opens, closes in *. cbn [filter length]. lia. }
        { cbn [length] in H2. unfold opens, closes in *. cbn [filter length]. lia. }
      * destruct IH as [-> (p & q & -> & H)]. split; [reflexivity|].
        exists (TL :: p), q. split; [reflexivity|]. unfold opens, closes in *. cbn [filter length] in *. lia.
    + destruct stack as [|prev stack].
      * cbn [bind]. split; [reflexivity|]. exists [TR], ts. split; [reflexivity|]. cbn. lia.
      * cbn [bind]. specialize (IH stack (prev ++ [VList out])).
        destruct (foldM pstep (stack, prev ++ [VList out]) ts) as [[st o]|e].
        { destruct IH as [H1 H2]. split.
          { intros p q E. destruct p as [|x p]; [cbn; lia|]. injection E as <- E.
            specialize (H1 p q E). unfold opens, closes in *. cbn [filter length]. lia. }
          { unfold opens, closes in *. cbn [filter length]. lia. } }
        { destruct IH as [-> (p & q & -> & H)]. split; [reflexivity|].
          exists (TR :: p), q. split; [reflexivity|]. unfold opens, closes in *. cbn [filter length] in *. lia. }
    + specialize (IH stack (out ++ [v])). destruct (foldM pstep (stack, out ++ [v]) ts) as [[st o]|e].
      * destruct IH as [H1 H2]. split.
        { intros p q E. destruct p as [|x p]; [cbn; lia|]. injection E as <- E.
          specialize (H1 p q E). unfold opens, closes in *. cbn [filter length]. lia. }
        { unfold opens, closes in *. cbn [filter length]. lia. }
      * destruct IH as [-> (p & q & -> & H)]. split; [reflexivity|].
        exists (TA v :: p), q. split; [reflexivity|]. unfold opens, closes in *. cbn [filter length] in *. lia.
Qed.

(* if the parser ends at the outermost level it has something to return *)
Lemma pfold_out ts stack out out' : ts <> [] -> foldM pstep (stack, out) ts = Ok ([], out') -> out' <> [].
Proof.
  intros Hne. destruct (exists_last Hne) as (ts' & t & ->). rewrite foldM_app.
  destruct (foldM pstep (stack, out) ts') as [[st o]|]; cbn [bind foldM]; [|discriminate].
  destruct t as [| |v]; cbn [pstep bind]; [discriminate| |].
  - destruct st; cbn [bind]; [discriminate|]. intros [= _ <-]. now destruct l.
  - intros [= _ <-]. now destruct o.
Qed.

Lemma parse_toks_spec ts :
  (~ balanced ts /\ parse_toks ts = Err EAssertion) \/
  (balanced ts /\ ts = [] /\ parse_toks ts = Err EIndex) \/
  (balanced ts /\ ts <> [] /\ exists v, parse_toks ts = Ok v).
Proof.
  destruct ts as [|t0 ts0].
  { right. left. split; [|split; reflexivity]. split; [reflexivity|].
    intros p q E. destruct p; [cbn; lia|discriminate]. }
  set (ts := t0 :: ts0). assert (Hne : ts <> []) by discriminate. clearbody ts. clear t0 ts0.
  unfold parse_toks. pose proof (pfold_inv ts [] []) as H. pose proof (pfold_out ts [] []) as O.
  destruct (foldM pstep ([], []) ts) as [[st o]|e]; cbn [bind].
  - destruct H as [H1 H2]. cbn [length] in *. destruct st as [|x st].
    + right. assert (B : balanced ts).
      { split; [cbn in H2; lia|]. intros p q E. specialize (H1 p q E). lia. }
      right. specialize (O o Hne eq_refl). split; [exact B|]. split; [exact Hne|].
      destruct o; [contradiction|]. eauto.
    + left. split; [|reflexivity]. intros [B _]. cbn [length] in H2. lia.
  - destruct H as [-> (p & q & E & H)]. left. split; [|reflexivity].
    intros [_ B]. specialize (B p q E). cbn [length] in H. lia.
Qed.

Lemma parse_assertion s : parse_sexp s = Err EAssertion <-> ~ balanced (lex s).
Proof.
  unfold parse_sexp. destruct (parse_toks_spec (lex s)) as [[B E]|[(B & N & E)|(B & N & v & E)]];
    rewrite E; split; intros; try tauto; try discriminate; congruence.
Qed.
Lemma parse_index s : parse_sexp s = Err EIndex <-> balanced (lex s) /\ lex s = [].
Proof.
  unfold parse_sexp. destruct (parse_toks_spec (lex s)) as [[B E]|[(B & N & E)|(B & N & v & E)]];
    rewrite E; split; intros; try tauto; try discriminate; destruct H; congruence.
Qed.
Lemma parse_value s : (exists v, parse_sexp s = Ok v) <-> balanced (lex s) /\ lex s <> [].
Proof.
  unfold parse_sexp. destruct (parse_toks_spec (lex s)) as [[B E]|[(B & N & E)|(B & N & v & E)]];
    rewrite E; (split; [intros [w Hw]; try discriminate; tauto|]); intros [H1 H2]; try tauto; try congruence.
  eauto.
Qed.
Lemma parse_outcomes s :
  (exists v, parse_sexp s = Ok v) \/ parse_sexp s = Err EAssertion \/ parse_sexp s = Err EIndex.
Proof.
  unfold parse_sexp. destruct (parse_toks_spec (lex s)) as [[B E]|[(B & N & E)|(B & N & v & E)]]; eauto.
Qed.

(** ** Documents *)
Definition piece_tok (p : piece) : tok :=
  match p with
  | POpen => TL | PClose => TR
  | PWord w => TA (VStr w) | PNum v => TA (nrm v) | PText s => TA (VStr s)
  end.
Definition piece_kind (p : piece) : kind :=
  match p with POpen | PClose => KC | PWord _ => KW | PNum _ => KN | PText _ => KQ end.

Lemma Seq_piece p : piece_ok p = true -> Seq KC (piece_text p) (piece_kind p) [piece_tok p].
Proof.
  destruct p; cbn [piece_ok piece_text piece_kind piece_tok]; intros H.
  - apply Seq_lit; reflexivity.
  - apply Seq_lit; reflexivity.
  - exact (Seq_word (VStr w) H).
  - rewrite <- flat_leaf by (rewrite nrm_leaf; now apply numb_leaf). now apply Seq_num.
  - exact (Seq_quoted (VStr s) H).
Qed.

Lemma gap_req p w rest next :
  white w = true -> gap_ok p w next = true ->
  match next with
  | Some POpen => exists r, rest = lpar :: r
  | Some PClose => exists r, rest = rpar :: r
  | _ => True
  end -> req (piece_kind p) (w ++ rest) = true.
Proof.
  intros Hw Hg Hn. destruct p as [| |pw|pv|ps]; cbn [piece_kind gap_ok] in *; [reflexivity..| | |].
  - destruct w as [|c w0].
    + destruct next as [[]|]; try discriminate; destruct Hn as [r ->]; reflexivity.
    + cbn [white forallb] in Hw. apply andb_prop in Hw as [Hc _]. cbn. now rewrite Hc.
  - destruct w as [|c w0].
    + destruct next as [[]|]; try discriminate; destruct Hn as [r ->]; reflexivity.
    + cbn. now rewrite Hg.
  - destruct w as [|c w0].
    + destruct next as [[]|]; try discriminate; destruct Hn as [r ->]; reflexivity.
    + cbn [white forallb] in Hw. apply andb_prop in Hw as [Hc _]. cbn. rewrite Hc. apply orb_true_r.
Qed.

Lemma lex_render d rest : doc_ok d = true ->
  lex (render d ++ rest) = map piece_tok (map fst d) ++ lex rest.
Proof.
  induction d as [|[p w] d IH]; cbn [render doc_ok map fst app]; intros H; [reflexivity|].
  apply andb_prop in H as [H Hd]. apply andb_prop in H as [H Hg]. apply andb_prop in H as [Hp Hw].
  rewrite <- !app_assoc. destruct (Seq_piece p Hp (w ++ render d ++ rest)) as [_ E].
  { eapply gap_req; [assumption|eassumption|]. destruct d as [|[q w'] d]; cbn [next_of]; [exact I|].
    destruct q; try exact I; eexists; reflexivity. }
  rewrite E, lex_spaces, IH by assumption. reflexivity.
Qed.

Lemma layout_irrelevant d1 d2 w1 w2 rest :
  doc_ok d1 = true -> doc_ok d2 = true -> white w1 = true -> white w2 = true ->
  map fst d1 = map fst d2 -> parse_sexp (w1 ++ render d1 ++ rest) = parse_sexp (w2 ++ render d2 ++ rest).
Proof.
  intros H1 H2 W1 W2 E. unfold parse_sexp. rewrite (lex_spaces w1), (lex_spaces w2), (lex_render d1), (lex_render d2) by assumption.
  exact (f_equal (fun l => parse_toks (map piece_tok l ++ lex rest)) E).
Qed.

Scheme spells_mind := Induction for spells Sort Prop
  with spells_all_mind := Induction for spells_all Sort Prop.

Lemma spells_toks : forall v ps, spells v ps -> forallb piece_ok ps = true -> map piece_tok ps = flat v.
Proof.
  apply (spells_mind (fun v ps _ => forallb piece_ok ps = true -> map piece_tok ps = flat v)
           (fun l ps _ => forallb piece_ok ps = true -> map piece_tok ps = flats l)).
  - reflexivity.
  - reflexivity.
  - intros v Hv Hok. cbn [forallb piece_ok] in Hok. rewrite andb_true_r in Hok. cbn [map piece_tok].
    rewrite Hv. symmetry. now apply flat_leaf, numb_leaf.
  - intros l ps _ IH Hok. cbn [forallb piece_ok] in Hok. rewrite forallb_app in Hok.
    apply andb_prop in Hok as [_ Hok]. apply andb_prop in Hok as [Hok _].
    cbn [map piece_tok]. rewrite map_app, IH, flat_list by assumption. reflexivity.
  - reflexivity.
  - intros v ps l qs _ IH1 _ IH2 Hok. rewrite forallb_app in Hok. apply andb_prop in Hok as [H1 H2].
    rewrite map_app, IH1, IH2 by assumption. reflexivity.
Qed.

Lemma doc_pieces_ok d : doc_ok d = true -> forallb piece_ok (map fst d) = true.
Proof.
  induction d as [|[p w] d IH]; cbn [doc_ok map forallb fst]; intros H; [reflexivity|].
  apply andb_prop in H as [H Hd]. apply andb_prop in H as [H _]. apply andb_prop in H as [Hp _].
  now rewrite Hp, IH.
Qed.

Lemma lex_spelled v d rest : doc_ok d = true -> spells v (map fst d) ->
  lex (render d ++ rest) = flat v ++ lex rest.
Proof.
  intros Hd Hs. rewrite lex_render by assumption. f_equal.
  apply spells_toks; [assumption|]. now apply doc_pieces_ok.
Qed.

Lemma parse_spelled v d w : doc_ok d = true -> spells v (map fst d) -> white w = true ->
  parse_sexp (w ++ render d) = Ok v.
Proof.
  intros Hd Hs Hw. unfold parse_sexp. rewrite (lex_spaces w) by assumption.
  rewrite <- (app_nil_r (render d)), (lex_spelled v) by assumption.
  rewrite lex_nil, app_nil_r. apply parse_flat.
Qed.

(** ** First expression *)
Lemma pfold_bottom ts : forall stack out x,
  match foldM pstep (stack, out) ts with
  | Ok (stack', out') => (exists r, last (out :: stack) [] = x :: r) -> exists r, last (out' :: stack') [] = x :: r
  | Err _ => True
  end.
Proof.
  induction ts as [|t ts IH]; intros stack out x; cbn [foldM]; [auto|].
  destruct t as [| |v]; cbn [pstep bind].
  - specialize (IH (out :: stack) [] x). destruct (foldM _ _ _) as [[st o]|]; [|exact I].
    intros H. apply IH. exact H.
  - destruct stack as [|prev stack]; cbn [bind]; [exact I|].
    specialize (IH stack (prev ++ [VList out]) x). destruct (foldM _ _ _) as [[st o]|]; [|exact I].
    intros H. apply IH. destruct stack as [|y stack]; [|exact H]. cbn in *. destruct H as [r ->].
    cbn. eauto.
  - specialize (IH stack (out ++ [v]) x). destruct (foldM _ _ _) as [[st o]|]; [|exact I].
    intros H. apply IH. destruct stack as [|y stack]; [|exact H]. cbn in *. destruct H as [r ->].
    cbn. eauto.
Qed.

Lemma first_counts v ts : balanced ts -> parse_toks (flat v ++ ts) = Ok v.
Proof.
  intros B. unfold parse_toks. rewrite pstep_flat. cbn [app].
  pose proof (pfold_inv ts [] [v]) as H. pose proof (pfold_bottom ts [] [v] v) as O.
  destruct (foldM pstep ([], [v]) ts) as [[st o]|e]; cbn [bind].
  - destruct H as [_ H]. destruct B as [B _]. cbn [length] in H.
    destruct st as [|x st]; [|cbn [length] in H; lia].
    destruct O as [r O]; [cbn; eauto|]. cbn in O. now rewrite O.
  - destruct H as [_ (p & q & E & H)]. destruct B as [_ B]. specialize (B p q E). cbn [length] in H. lia.
Qed.

Lemma parse_first v d w rest : doc_ok d = true -> spells v (map fst d) -> white w = true ->
  balanced (lex rest) -> parse_sexp (w ++ render d ++ rest) = Ok v.
Proof.
  intros Hd Hs Hw B. unfold parse_sexp. rewrite (lex_spaces w), (lex_spelled v) by assumption.
  now apply first_counts.
Qed.

(** ** Leaves in a document: [(key leaf)] *)
Lemma parse_leaf key s k v :
  wordb key = true -> Seq KC s k [TA v] -> kle k KN = true ->
  parse_sexp ($"(" ++ key ++ $" " ++ s ++ $")") = Ok (VList [VStr key; v]).
Proof.
  intros Hk Hs Hle. unfold parse_sexp.
  change ($"(" ++ key ++ $" " ++ s ++ $")") with (lpar :: key ++ 32%N :: s ++ [rpar]).
  rewrite lex_lpar, lex_word by (assumption || reflexivity).
  rewrite lex_space by reflexivity.
  destruct (Hs [rpar]) as [_ E]; [eapply req_mono; [exact Hle|reflexivity]|]. rewrite E.
  reflexivity.
Qed.
Lemma parse_text key s : wordb key = true -> quotableb s = true ->
  parse_sexp ($"(" ++ key ++ $" " ++ quoted (VStr s) ++ $")") = Ok (VList [VStr key; VStr s]).
Proof. intros Hk Hs. apply (parse_leaf _ _ KQ); [assumption| |reflexivity]. exact (Seq_quoted (VStr s) Hs). Qed.
Lemma parse_word key s : wordb key = true -> wordb s = true ->
  parse_sexp ($"(" ++ key ++ $" " ++ s ++ $")") = Ok (VList [VStr key; VStr s]).
Proof. intros Hk Hs. apply (parse_leaf _ _ KW); [assumption| |reflexivity]. exact (Seq_word (VStr s) Hs). Qed.
Lemma parse_num key v : wordb key = true -> numb v = true ->
  parse_sexp ($"(" ++ key ++ $" " ++ fmt v ++ $")") = Ok (VList [VStr key; nrm v]).
Proof.
  intros Hk Hs. apply (parse_leaf _ _ KN); [assumption| |reflexivity].
  rewrite <- flat_leaf by (rewrite nrm_leaf; now apply numb_leaf). now apply Seq_num.
Qed.
Lemma parse_expfloat key f : wordb key = true -> canon f = true -> positional f = false ->
  parse_sexp ($"(" ++ key ++ $" " ++ fmt (VFloat f) ++ $")") = Ok (VList [VStr key; VStr (float_str f)]).
Proof. intros Hk H1 H2. apply parse_word; [assumption|]. now apply float_str_exp. Qed.
Lemma parse_numword key w v : wordb key = true -> forallb word_char w = true -> wnum w = Some v ->
  parse_sexp ($"(" ++ key ++ $" " ++ w ++ $")") = Ok (VList [VStr key; v]).
Proof.
  intros Hk Hw Hn. apply (parse_leaf _ _ KN); [assumption| |reflexivity].
  intros rest Hr. split; [reflexivity|]. now apply lex_num.
Qed.

(** ** The caret *)
Lemma lex_word_caret w rest :
  w <> [] -> hd 0%N w <> dquote -> forallb word_char w = true ->
  lex (w ++ caret :: rest) = TA (VStr w) :: lex rest.
Proof.
  intros Hne Hq Hw. destruct w as [|x w]; [contradiction|]. cbn [hd] in Hq.
  assert (Hc : word_char caret = false) by reflexivity.
  pose proof (match_num_word x w caret rest Hw Hc) as Hm.
  change ((x :: w) ++ caret :: rest) with (x :: (w ++ caret :: rest)) in *.
  rewrite lex_cons. unfold lex1.
  pose proof Hw as Hw2. cbn [forallb] in Hw2. apply andb_prop in Hw2 as [Hx _].
  destruct (word_char_facts x Hx) as (-> & -> & -> & _).
  rewrite Hm. change (num_end (caret :: rest)) with false. cbv iota.
  apply N.eqb_neq in Hq. rewrite Hq.
  pose proof (span_all word_char (x :: w) caret rest Hw Hc) as Hs.
  change ((x :: w) ++ caret :: rest) with (x :: (w ++ caret :: rest)) in Hs. rewrite Hs.
  cbn [fst snd ocons]. now rewrite lex_caret.
Qed.
Lemma parse_caret key w1 w2 :
  wordb key = true -> w1 <> [] -> hd 0%N w1 <> dquote -> forallb word_char w1 = true -> wordb w2 = true ->
  parse_sexp ($"(" ++ key ++ $" " ++ w1 ++ $"^" ++ w2 ++ $")") = Ok (VList [VStr key; VStr w1; VStr w2]).
Proof.
  intros Hk H1 H2 H3 Hw2. unfold parse_sexp.
  change ($"(" ++ key ++ $" " ++ w1 ++ $"^" ++ w2 ++ $")")
    with (lpar :: key ++ 32%N :: w1 ++ caret :: w2 ++ [rpar]).
  rewrite lex_lpar, lex_word by (assumption || reflexivity).
  rewrite lex_space by reflexivity. rewrite lex_word_caret by assumption.
  rewrite lex_word by (assumption || reflexivity). reflexivity.
Qed.

(** ** Integers that a double cannot hold *)
Lemma parse_int_any key z f :
  wordb key = true -> dec_to_dbl (z <? 0)%Z (Z.abs z) 0 = f -> (forall n, f <> DInf n) ->
  parse_sexp ($"(" ++ key ++ $" " ++ fmt (VInt z) ++ $")") = Ok (VList [VStr key; VInt (to_int f)]).
Proof.
  intros Hk Ef Hf.
  assert (E : int_str z = sgn_str (z <? 0)%Z ++ digits (Z.abs z)).
  { unfold int_str. destruct (Z.ltb_spec z 0); cbn [sgn_str app]; do 2 f_equal; lia. }
  destruct (digits_spec (Z.abs z)) as (E1 & E2 & E3); [lia|].
  cbn [fmt repr_val]. rewrite E. apply parse_numword; [assumption| |].
  - rewrite forallb_app, (forallb_imp _ _ _ ascii_digit_word E2). now destruct (z <? 0)%Z.
  - rewrite wnum_int by assumption. unfold num_val, read_float. rewrite app_nil_r, E1.
    change (- Z.of_nat (length []))%Z with 0%Z. rewrite Ef.
    pose proof (dec_int_integer (z <? 0)%Z (Z.abs z)) as I. rewrite Ef in I.
    destruct f as [n m e|n]; [|now destruct (Hf n)]. rewrite I by lia. reflexivity.
Qed.

Local Open Scope Z_scope.
Lemma rne_nearest n d q : 0 <= n -> 0 < d -> Z.abs (n - rne n d * d) <= Z.abs (n - q * d).
Proof.
  intros Hn Hd. pose proof (Z.div_mod n d ltac:(lia)) as D. pose proof (Z.mod_pos_bound n d Hd) as B.
  unfold rne. set (k := n / d) in *. set (r := n mod d) in *. clearbody k r. subst n.
  assert (H : Z.abs (d * k + r - q * d) >= Z.min r (d - r)).
  { destruct (Z_le_gt_dec q k).
    - assert (q * d <= k * d) by nia. lia.
    - assert ((k + 1) * d <= q * d) by nia. lia. }
  destruct (Z.ltb_spec (2 * r) d); [replace (d * k + r - k * d) with r by lia; lia|].
  destruct (Z.ltb_spec d (2 * r)); [replace (d * k + r - (k + 1) * d) with (r - d) by lia; lia|].
  destruct (Z.even k); [replace (d * k + r - k * d) with r by lia|replace (d * k + r - (k + 1) * d) with (r - d) by lia]; lia.
Qed.

(* positive case: the rounded value is nearest among all canonical integral doubles *)
Lemma round_int_nearest a neg m e g : two53 < a -> dec_to_dbl neg a 0 = DFin neg m e ->
  canon g = true -> is_integer g = true ->
  0 <= e /\ Z.abs (a - m * 2 ^ e) <= Z.abs (a - to_int g).
Proof.
  intros Ha. unfold dec_to_dbl. destruct (Z.eqb_spec a 0); [unfold two53 in *; lia|].
  change (0 <=? 0) with true. cbv iota. rewrite Z.pow_0_r, Z.mul_1_r.
  assert (Ha0 : 0 < a) by (unfold two53 in *; lia).
  unfold round_pos. rewrite mag2_one by lia.
  pose proof (Z.log2_spec a Ha0) as L. set (l := Z.log2 a) in *.
  assert (Hl : 53 <= l). { apply Z.log2_le_pow2; [lia|]. change (2 ^ 53) with two53. lia. }
  set (e0 := Z.max (l - 52) emin). assert (He0 : e0 = l - 52) by (unfold e0, emin; lia).
  clearbody e0. unfold scale2. destruct (Z.leb_spec 0 (- e0)); [lia|].
  replace (- - e0) with e0 by lia. rewrite Z.mul_1_l.
  pose proof (pow2_pos e0 ltac:(lia)) as P. set (c := 2 ^ e0) in *.
  set (q := rne a c).
  assert (Enear : forall m e, (let '(m, e) := if q =? two53 then (two52, e0 + 1) else (q, e0) in
     if emax <? e then DInf neg else DFin neg m e) = DFin neg m e -> m * 2 ^ e = q * c /\ 0 <= e).
  { intros m' e'. destruct (Z.eqb_spec q two53) as [Eq|]; destruct (emax <? _); try discriminate; intros [= <- <-].
    - rewrite Eq. unfold c. rewrite Z.pow_add_r by lia. change (2 ^ 1) with 2. change two53 with (2 * two52). lia.
    - split; [reflexivity|lia]. }
  intros E. apply Enear in E as [E He]. intros Hc Hi. split; [exact He|]. rewrite E.
  unfold q. destruct g as [ng mg eg|]; [|discriminate].
  assert (Hlow : two52 * c <= a).
  { change two52 with (2 ^ 52). unfold c. rewrite <- Z.pow_add_r by lia. replace (52 + e0) with l by lia. lia. }
  assert (Hmg : 0 <= mg < two53) by (unfold canon in Hc; lia).
  destruct ng.
  - (* negative: further away than 2^l *)
    assert (to_int (DFin true mg eg) <= 0).
    { unfold to_int. destruct (Z.leb_spec 0 eg).
      - pose proof (pow2_pos eg ltac:(lia)). nia.
      - pose proof (pow2_pos (- eg) ltac:(lia)). pose proof (Z.div_pos mg (2 ^ (- eg)) ltac:(lia) ltac:(lia)). lia. }
    pose proof (rne_nearest a c two52 ltac:(lia) P). assert (0 <= two52 * c) by (unfold two52; lia). lia.
  - destruct (Z_le_gt_dec e0 eg) as [Hge|Hlt].
    + unfold to_int. destruct (Z.leb_spec 0 eg); [|lia].
      replace (mg * 2 ^ eg) with (mg * 2 ^ (eg - e0) * c).
      2:{ unfold c. rewrite <- Z.mul_assoc, <- Z.pow_add_r by lia. do 2 f_equal. lia. }
      apply rne_nearest; lia.
    + pose proof (rne_nearest a c two52 ltac:(lia) P).
      assert (to_int (DFin false mg eg) <= two52 * c); [|lia].
      unfold to_int. destruct (Z.leb_spec 0 eg) as [Heg|Heg].
      * assert (2 ^ (eg + 1) <= c) by (unfold c; apply Z.pow_le_mono_r; lia).
        rewrite Z.pow_add_r in * by lia. change (2 ^ 1) with 2 in *.
        pose proof (pow2_pos eg Heg). change two53 with (2 * two52) in *. unfold two52 in *. nia.
      * pose proof (pow2_pos (- eg) ltac:(lia)).
        assert (mg / 2 ^ (- eg) <= mg) by (apply Z.div_le_upper_bound; nia).
        assert (2 <= c). { unfold c. change 2 with (2 ^ 1) at 1. apply Z.pow_le_mono_r; lia. }
        change two53 with (2 * two52) in *. unfold two52 in *. nia.
Qed.

Lemma int_nearest z f g : (forall n, f <> DInf n) -> dec_to_dbl (z <? 0) (Z.abs z) 0 = f ->
  canon g = true -> is_integer g = true -> Z.abs (z - to_int f) <= Z.abs (z - to_int g).
Proof.
  intros Hf E Hc Hi. destruct (Z_le_gt_dec (Z.abs z) two53) as [Hs|Hb].
  - pose proof (int_ok_small z Hs) as I. unfold int_ok in I. rewrite E in I.
    destruct f as [n m e|n]; [|now destruct (Hf n)]. apply Z.eqb_eq in I. lia.
  - assert (En : exists m e, f = DFin (z <? 0) m e).
    { unfold dec_to_dbl in E. rewrite <- E. destruct (_ =? 0); [unfold dzero; eauto|].
      assert (R : forall n p q, (exists m e, round_pos n p q = DFin n m e) \/ round_pos n p q = DInf n).
      { intros n p q. unfold round_pos. set (e := Z.max _ _). destruct (scale2 p q (- e)) as [x y].
        destruct (rne x y =? two53); (destruct (emax <? _); [right; reflexivity|left; eauto]). }
      change (0 <=? 0) with true in *. cbv iota in *.
      destruct (R (z <? 0) (Z.abs z * 10 ^ 0) 1) as [(m & e & Er)|Er]; [eauto|].
      rewrite Er in E. now destruct (Hf (z <? 0)). }
    destruct En as (m & e & ->).
    assert (Hopp : exists g', canon g' = true /\ is_integer g' = true /\ to_int g' = - to_int g).
    { destruct g as [n m' e'|]; [|discriminate]. exists (DFin (negb n) m' e'). split; [exact Hc|]. split; [exact Hi|].
      cbn [to_int]. destruct n; cbn [negb]; lia. }
    destruct Hopp as (g' & Hc' & Hi' & Ho).
    destruct (Z.ltb_spec z 0) as [Hn|Hp].
    + destruct (round_int_nearest (Z.abs z) true m e g' ltac:(lia) E Hc' Hi') as [He H].
      cbn [to_int]. destruct (Z.leb_spec 0 e); [|lia]. lia.
    + destruct (round_int_nearest (Z.abs z) false m e g ltac:(lia) E Hc Hi) as [He H].
      cbn [to_int]. destruct (Z.leb_spec 0 e); [|lia]. lia.
Qed.
