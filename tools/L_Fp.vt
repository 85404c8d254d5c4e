(** Round trip lemmas for items/fpitems.py. *)
From Verif Require Import PyBase PyNum PyStr Sexpr S_Leaf S_Tree M_Common S_Common M_Fp S_Fp L_Lex L_Tok L_Num L_Seq L_Tac L_Common.

(** ** Width or stroke *)
Lemma width_wr w s : optb numb w = true -> optok Stroke_ok s = true -> width_ok w s = true ->
  Wr (width_str w s) (flats (width_tree (nrm w) (option_map Stroke_norm s))).
Proof.
  intros Hw Hs H. unfold width_str, width_tree, width_ok in *. destruct s as [s|]; cbn [no_object negb option_map] in *.
  - destruct (is_none w) eqn:N; [|discriminate]. change (Stroke_ok s = true) in Hs. eapply Wr_eq; [wr_go|tpeel].
  - destruct (is_none w) eqn:N; [discriminate|]. opt_facts. eapply Wr_eq; [wr_go|tpeel].
Qed.
#[export] Hint Resolve width_wr : wr.
Lemma width_okn w s : width_ok w s = true -> width_ok (nrm w) (option_map Stroke_norm s) = true.
Proof. unfold width_ok. rewrite nrm_none. now destruct s. Qed.
#[export] Hint Resolve width_okn : okn.
Lemma width_none w s : width_ok w (Some s) = true -> w = VNone.
Proof. unfold width_ok. cbn. destruct w; try discriminate. reflexivity. Qed.
Lemma width_some w : width_ok w None = true -> is_none w = false.
Proof. unfold width_ok. cbn. now destruct (is_none w). Qed.
Ltac width_facts :=
  match goal with
  | H : width_ok ?w (Some _) = true |- _ => is_var w; apply width_none in H; subst w
  | H : width_ok _ None = true |- _ => apply width_some in H
  end.
Ltac rd_more st X_step ::=
  lazymatch goal with
  | |- foldM st _ (width_tree _ ?s) = _ =>
      destruct s; cbv beta iota delta [width_tree]; width_facts; opt_facts; rd_one st X_step
  end.
Global Arguments width_ok : simpl never. Global Arguments width_tree : simpl never.

@rt FpText fp_text npos=2
@rt FpLine fp_line
@rt FpRect fp_rect
@rt FpCircle fp_circle
@rt FpArc fp_arc
Lemma FpPoly_wr o i n : FpPoly_ok o = true -> Wr (FpPoly_to o i n) (flat (FpPoly_tree (FpPoly_norm o))).
Proof.
  intros H. unfold FpPoly_ok in H. facts. unfold FpPoly_to. match goal with E : Nat.eqb _ _ = _ |- _ => rewrite E end.
  eapply Wr_eq; [wr_go|unfold FpPoly_tree, FpPoly_norm; cbn; tpeel].
Qed.
#[export] Hint Resolve FpPoly_wr : wr.
@rt FpPoly fp_poly noto
Lemma FpCurve_wr o i n : FpCurve_ok o = true -> Wr (FpCurve_to o i n) (flat (FpCurve_tree (FpCurve_norm o))).
Proof.
  intros H. unfold FpCurve_ok in H. facts. unfold FpCurve_to. match goal with E : Nat.eqb _ _ = _ |- _ => rewrite E end.
  eapply Wr_eq; [wr_go|unfold FpCurve_tree, FpCurve_norm; cbn; tpeel].
Qed.
#[export] Hint Resolve FpCurve_wr : wr.
@rt FpCurve fp_curve noto

(** ** Text boxes *)
Lemma dbl_eq_Z_fun f z w : dbl_eq_Z f z = true -> dbl_eq_Z f w = Z.eqb z w.
Proof.
  destruct f as [n m e|]; [|discriminate]. cbn. destruct (Z.leb_spec 0 e) as [L|L].
  - intros H. apply Z.eqb_eq in H. now rewrite H.
  - intros H. apply Z.eqb_eq in H. rewrite H.
    assert (P : (0 < 2 ^ (- e))%Z) by (apply Z.pow_pos_nonneg; lia).
    destruct (Z.eqb_spec z w) as [->|N]; [apply Z.eqb_refl|]. apply Z.eqb_neq. intros C. apply N.
    apply Z.mul_reg_r in C; lia.
Qed.
Lemma right_angle_nrm v : right_angle (nrm v) = right_angle v.
Proof.
  destruct v; try reflexivity. pose proof (py_eqb_nrm (VFloat f)) as H. unfold nrm in *. destruct (is_integer f); [|reflexivity].
  cbn [right_angle]. change (dbl_eq_Z f (to_int f) = true) in H. cbn [existsb]. now rewrite !(dbl_eq_Z_fun f _ _ H).
Qed.
Lemma dbl_eqb_int f m e z : (e <= 0)%Z -> (m = z * 2 ^ (- e))%Z -> dbl_eqb f (DFin false m e) = dbl_eq_Z f z.
Proof.
  intros He ->. destruct f as [n a b|]; [|reflexivity]. cbn. set (s := if n then (- a)%Z else a). clearbody s. clear n a.
  destruct (Z.leb_spec b e) as [L|L], (Z.leb_spec 0 b) as [L2|L2]; try lia.
  - assert (b = 0 /\ e = 0)%Z as [-> ->] by lia. rewrite !Z.mul_1_r. reflexivity.
  - replace (z * 2 ^ (- e) * 2 ^ (e - b))%Z with (z * 2 ^ (- b))%Z; [reflexivity|].
    rewrite <- Z.mul_assoc, <- Z.pow_add_r by lia. do 2 f_equal. lia.
  - replace (s * 2 ^ (b - e))%Z with (s * 2 ^ b * 2 ^ (- e))%Z.
    2:{ rewrite <- Z.mul_assoc, <- Z.pow_add_r by lia. do 2 f_equal. }
    assert (P : (0 < 2 ^ (- e))%Z) by (apply Z.pow_pos_nonneg; lia).
    destruct (Z.eqb_spec (s * 2 ^ b) z) as [->|N]; [apply Z.eqb_refl|]. apply Z.eqb_neq. intros C. apply N.
    apply Z.mul_reg_r in C; lia.
  - replace (z * 2 ^ (- e))%Z with (z * 2 ^ (- b) * 2 ^ (b - e))%Z.
    2:{ rewrite <- Z.mul_assoc, <- Z.pow_add_r by lia. do 2 f_equal. lia. }
    assert (P : (0 < 2 ^ (b - e))%Z) by (apply Z.pow_pos_nonneg; lia).
    destruct (Z.eqb_spec s (z * 2 ^ (- b))) as [->|N]; [apply Z.eqb_refl|]. apply Z.eqb_neq. intros C. apply N.
    apply Z.mul_reg_r in C; lia.
Qed.
Lemma cardinal_right v : numb v = true -> cardinal v = right_angle v.
Proof.
  intros H. unfold cardinal. destruct v; try discriminate; cbn [existsb right_angle]; unfold py_eqb, fdec.
  - rewrite (dbl_eq_Z_fun _ 0), (dbl_eq_Z_fun _ 90), (dbl_eq_Z_fun _ 180), (dbl_eq_Z_fun _ 270) by (vm_compute; reflexivity).
    rewrite (Z.eqb_sym z 0), (Z.eqb_sym z 90), (Z.eqb_sym z 180), (Z.eqb_sym z 270). reflexivity.
  - rewrite <- (dbl_eqb_int f 0 (-1074) 0), <- (dbl_eqb_int f (90 * 2 ^ 46) (-46) 90), <- (dbl_eqb_int f (180 * 2 ^ 45) (-45) 180),
      <- (dbl_eqb_int f (270 * 2 ^ 44) (-44) 270) by (lia || reflexivity).
    vm_compute (dec_to_dbl _ _ _). reflexivity.
Qed.
(** the checks of the writer *)
Lemma text_box_checks an pts st en : optb numb an = true -> text_box_ok an pts st en = true ->
  negb (is_none an) && negb (cardinal an) && negb (Nat.eqb (length pts) 4) = false
  /\ (is_none an || cardinal an) && (no_object st || no_object en) = false
  /\ (pts = [] \/ exists a b c d, pts = [a; b; c; d]).
Proof.
  intros Ha H. unfold text_box_ok in H. andbs. cbn [existsb] in H. rewrite orb_false_r in H.
  assert (E : is_none an || cardinal an = is_none an || right_angle an).
  { unfold optb in Ha. destruct (is_none an); [reflexivity|]. cbn [orb] in *. now apply cardinal_right. }
  rewrite <- negb_orb, E. repeat split.
  - destruct (is_none an || right_angle an); [reflexivity|]. rewrite H0. reflexivity.
  - destruct (is_none an || right_angle an); [|reflexivity]. andbs. now rewrite H0, H1.
  - destruct pts as [|a [|b [|c [|d [|]]]]]; try discriminate H; [now left|right]. now exists a, b, c, d.
Qed.
Lemma text_box_okn an pts st en : text_box_ok an pts st en = true ->
  text_box_ok (nrm an) (map Position_norm pts) (option_map Position_norm st) (option_map Position_norm en) = true.
Proof. unfold text_box_ok. rewrite map_length, nrm_none, right_angle_nrm. destruct st, en; auto. Qed.
#[export] Hint Resolve text_box_okn : okn.
Global Arguments text_box_ok : simpl never.

Lemma FpTextBox_wr o i n : FpTextBox_ok o = true -> Wr (FpTextBox_to o i n) (flat (FpTextBox_tree (FpTextBox_norm o))).
Proof.
  intros H. destruct o as [lk tx st en pts an ly ts ef sk rc]. unfold FpTextBox_ok in H.
  cbn [fb_locked fb_text fb_start fb_end fb_pts fb_angle fb_layer fb_tstamp fb_effects fb_stroke fb_renderCache] in H. facts0.
  match goal with Ha : optb numb an = true, T : text_box_ok _ _ _ _ = true |- _ => destruct (text_box_checks _ _ _ _ Ha T) as (C1 & C2 & C3) end.
  unfold FpTextBox_to, FpTextBox_tree, FpTextBox_norm.
  cbn [fb_locked fb_text fb_start fb_end fb_pts fb_angle fb_layer fb_tstamp fb_effects fb_stroke fb_renderCache].
  rewrite C1, C2. destruct C3 as [->|(a & b & c & d & ->)]; cbn [length Nat.eqb map forallb] in *; facts;
    (eapply Wr_eq; [wr_go|cbn [length Nat.eqb]; tpeel]).
Qed.
#[export] Hint Resolve FpTextBox_wr : wr.
Lemma FpTextBox_rd o : FpTextBox_ok o = true -> FpTextBox_from (FpTextBox_tree o) = Ok o.
Proof.
  intros H. destruct o as [lk tx st en pts an ly ts ef sk rc]. unfold FpTextBox_ok in H. cbn in H. facts0.
  unfold FpTextBox_from, FpTextBox_tree. cbn [fb_locked fb_text fb_start fb_end fb_pts fb_angle fb_layer fb_tstamp fb_effects fb_stroke fb_renderCache].
  destruct lk.
  - assert (E : forall l, text_box_locked (node "fp_text_box" (optw "locked" true ++ [tx] ++ l)) = Ok true).
    { intros l. unfold text_box_locked, optw, node. cbn. change (VStr $"locked" =s "locked") with true. cbv iota. now rewrite (txtb_leaf tx). }
    rewrite E. clear E. unfold optw; cbv iota; cbn [app].
    rd_post FpTextBox_step. match goal with Hst : ?st = FpTextBox_step |- _ => rd_loop st FpTextBox_step end.
  - assert (E : text_box_locked (node "fp_text_box" (optw "locked" false ++ [tx]
      ++ (if Nat.eqb (length pts) 0 then [] else [node "pts" (map (xy_tree "xy") pts)])
      ++ opto (xy_tree "start") st ++ opto (xy_tree "end") en ++ optn "angle" an
      ++ [node "layer" [ly]] ++ optn "tstamp" ts ++ opto Effects_tree ef
      ++ opto Stroke_tree sk ++ opto RenderCache_tree rc)) = Ok false).
    { unfold text_box_locked, optw, node. cbn [app at_ nth_error bind]. destruct (tx =s "locked"); [|reflexivity].
      unfold opto, optn. destruct (Nat.eqb (length pts) 0), st, en, (is_none an); reflexivity. }
    rewrite E. clear E. unfold optw; cbv iota; cbn [app].
    rd_post FpTextBox_step. match goal with Hst : ?st = FpTextBox_step |- _ => rd_loop st FpTextBox_step end.
Qed.
#[export] Hint Resolve FpTextBox_rd : rd.
Lemma FpTextBox_ref : refuses FpTextBox_from ["fp_text_box"%string].
Proof.
  unfold refuses, FpTextBox_from. repeat split.
  - intros e He. destruct e; try discriminate He; reflexivity.
  - eexists. reflexivity.
  - intros h l H. cbn [existsb] in H. apply orb_false_elim in H as [H _]. cbn [need_list bind].
    destruct (Nat.ltb (length (h :: l)) 2); [reflexivity|]. cbn [at_ nth_error bind]. now rewrite H.
Qed.
Lemma FpTextBox_ign : ignores FpTextBox_from 2 ["start"%string; "end"%string; "pts"%string; "angle"%string; "layer"%string; "tstamp"%string; "effects"%string; "stroke"%string; "render_cache"%string].
Proof.
  intros h before u args after H Hu. cbn [existsb] in Hu.
  repeat (apply orb_false_elim in Hu; let E := fresh "E" in destruct Hu as [E Hu]).
  assert (U : forall o, FpTextBox_step o (VList (u :: args)) = Ok o).
  { intros o. unfold FpTextBox_step. cbn [at_ nth_error bind].
    repeat match goal with E : is_str u _ = false |- _ => rewrite E; clear E end. reflexivity. }
  clear - U H. do 2 kill_arg H before.
  unfold FpTextBox_from, text_box_locked, need_list. cbn [app at_ nth_error bind length Nat.ltb Nat.leb].
  destruct (h =s "fp_text_box"); [|reflexivity]. cbn [negb].
  destruct (v =s "locked"); cbn [bind]; [destruct (is_list v0)|]; cbn [negb skipn bind nth_error];
    repeat (apply fold_same; intros ?); apply (fold_ignore FpTextBox_step); exact U.
Qed.
Lemma FpTextBox_win : last_wins FpTextBox_from 2 ["start"%string; "end"%string; "angle"%string; "layer"%string; "tstamp"%string; "effects"%string; "stroke"%string; "render_cache"%string].
Proof.
  intros h before k args1 args2 after o H Hk.
  assert (U : forall o o1, FpTextBox_step o (node k args1) = Ok o1 -> FpTextBox_step o1 (node k args2) = FpTextBox_step o (node k args2)).
  { clear - Hk. intros [] o1. cbn [In] in Hk.
    repeat (destruct Hk as [Hk|Hk]; [subst k; unfold FpTextBox_step; red_step; intros E; res_cases; inversion E; subst; red_step; res_cases; solve [reflexivity]|]).
    destruct Hk. }
  clear - U H. do 2 kill_arg H before.
  unfold FpTextBox_from, text_box_locked, need_list. cbn [app at_ nth_error bind length Nat.ltb Nat.leb].
  destruct (h =s "fp_text_box"); [|discriminate]. cbn [negb].
  destruct (v =s "locked"); cbn [bind]; [destruct (is_list v0)|]; cbn [negb skipn bind nth_error];
    repeat (refine (fold_imp _ _ _ _ _ _ _); intros ?); refine (fold_wins FpTextBox_step _ _ U _ _ _ _).
Qed.
@rt FpTextBox fp_text_box npos=2 noto nord manref manign manwins

(** ** What is lost *)
Local Transparent FpLine_to FpRect_to FpRect_ok FpRect_from FpRect_norm FpPoly_to FpCurve_to FpTextBox_to FpTextBox_ok.
Lemma rt_as {A} (to : A -> nat -> bool -> res str) from ok norm same o o' i n :
  roundtrips to from ok norm same -> to o i n = to o' i n -> ok o' = true -> write_read to from o i n = Ok (norm o').
Proof. intros R E H. unfold write_read. rewrite E. exact (proj1 (R o' H) i n). Qed.
Lemma FpLine_locked o i n : FpLine_ok (o <| fl_locked := false |>) = true ->
  write_read FpLine_to FpLine_from o i n = Ok (FpLine_norm (o <| fl_locked := false |>)).
Proof. intros H. now apply (rt_as _ _ _ _ _ o _ i n FpLine_rt). Qed.
Lemma FpRect_both o i n : FpRect_ok (o <| fr_stroke := None |>) = true ->
  write_read FpRect_to FpRect_from o i n = Ok (FpRect_norm (o <| fr_stroke := None |>)).
Proof.
  intros H. apply (rt_as _ _ _ _ _ o _ i n FpRect_rt); [|exact H].
  destruct o. unfold FpRect_ok, width_ok in H. cbn in H. andbs. unfold FpRect_to, width_str. cbn.
  destruct (is_none fr_width); [discriminate|reflexivity].
Qed.
(** neither width nor stroke *)
Definition FpRect_bare (o : FpRect) : val :=
  node "fp_rect" ([xy_tree "start" (fr_start o); xy_tree "end" (fr_end o); node "layer" [fr_layer o]]
    ++ optn "fill" (fr_fill o) ++ optw "locked" (fr_locked o) ++ optn "tstamp" (fr_tstamp o)).
Lemma FpRect_neither o i n :
  is_none (fr_width o) = true -> fr_stroke o = None -> FpRect_ok (o <| fr_width := fdec 12 (-2) |>) = true ->
  write_read FpRect_to FpRect_from o i n = Ok (FpRect_norm (o <| fr_width := fdec 12 (-2) |>)).
Proof.
  intros Hw Hs H. assert (W : Wr (FpRect_to o i n) (flat (FpRect_bare (FpRect_norm o)))).
  { unfold FpRect_ok in H. cbn in H. facts. eapply Wr_eq.
    - unfold FpRect_to, width_str. rewrite Hw, Hs. wr_go.
    - unfold FpRect_bare, FpRect_norm. cbn. tpeel. }
  destruct W as (s & E & W). unfold write_read. rewrite E. cbn [bind]. rewrite (parse_seq s _ W). cbn [bind]. clear W E s.
  apply FpRect_okn in H. destruct o as [st en ly w sk fl lk ts]. cbn in Hw, Hs. apply is_none_eq in Hw. subst w sk.
  cbv [FpRect_norm set] in *. cbn in *. change (nrm (fdec 12 (-2))) with (fdec 12 (-2)) in *.
  revert H. generalize (Position_norm st) (Position_norm en). clear st en. intros st en H.
  unfold FpRect_ok in H. cbn in H. facts0. unfold FpRect_from, FpRect_bare. rd_post FpRect_step.
  match goal with Hst : ?st = FpRect_step |- _ => rd_loop st FpRect_step end.
Qed.
Lemma parse_blank i n : parse_sexp (spaces i ++ eol n) = Err EIndex.
Proof.
  assert (S : Seq KC (spaces i ++ eol n) KC []).
  { eapply (Seq_app KC (spaces i) KC [] (eol n) KC []); [apply Seq_spaces|now apply Seq_eol]. }
  destruct (S [] eq_refl) as [_ L]. rewrite lex_nil, !app_nil_r in L. unfold parse_sexp. now rewrite L.
Qed.
Lemma FpPoly_empty o i n : fp_coordinates o = [] -> write_read FpPoly_to FpPoly_from o i n = Err EIndex.
Proof. intros H. unfold write_read, FpPoly_to. rewrite H. cbn [length Nat.eqb bind]. now rewrite parse_blank. Qed.
Lemma FpCurve_empty o i n : fv_coordinates o = [] -> write_read FpCurve_to FpCurve_from o i n = Err EIndex.
Proof. intros H. unfold write_read, FpCurve_to. rewrite H. cbn [length Nat.eqb bind]. now rewrite parse_blank. Qed.
Lemma text_box_checks_neg an (pts : list Position) (st en : option Position) : optb numb an = true ->
  (if is_none an || right_angle an then st = None \/ en = None else length pts <> 4) ->
  negb (is_none an) && negb (cardinal an) && negb (Nat.eqb (length pts) 4) = true
  \/ (is_none an || cardinal an) && (no_object st || no_object en) = true.
Proof.
  intros Ha H.
  assert (E : is_none an || cardinal an = is_none an || right_angle an).
  { unfold optb in Ha. destruct (is_none an); [reflexivity|]. cbn [orb] in *. now apply cardinal_right. }
  rewrite <- negb_orb, E. destruct (is_none an || right_angle an).
  - right. destruct H as [-> | ->]; [reflexivity|]. cbn. apply orb_true_r.
  - left. apply Nat.eqb_neq in H. now rewrite H.
Qed.
Lemma FpTextBox_refused o i n : optb numb (fb_angle o) = true ->
  (if is_none (fb_angle o) || right_angle (fb_angle o) then fb_start o = None \/ fb_end o = None else length (fb_pts o) <> 4) ->
  FpTextBox_to o i n = Err EException.
Proof.
  intros Ha H. unfold FpTextBox_to. destruct (text_box_checks_neg _ _ _ _ Ha H) as [->| ->]; [reflexivity|].
  now match goal with |- (if ?b then _ else _) = _ => destruct b end.
Qed.
Lemma FpTextBox_pts o i n : length (fb_pts o) <> 4 -> FpTextBox_ok (o <| fb_pts := [] |>) = true ->
  write_read FpTextBox_to FpTextBox_from o i n = Ok (FpTextBox_norm (o <| fb_pts := [] |>)).
Proof.
  intros N H. apply (rt_as _ _ _ _ _ o _ i n FpTextBox_rt); [|exact H].
  destruct o as [lk tx st en pts an ly ts ef sk rc]. unfold FpTextBox_ok, text_box_ok in H. cbn in H, N. andbs.
  destruct (is_none an || right_angle an) eqn:R; [|discriminate].
  assert (E : is_none an || cardinal an = true).
  { match goal with Ha : optb numb an = true |- _ => unfold optb in Ha; destruct (is_none an); [reflexivity|]; cbn [orb] in *; now rewrite cardinal_right end. }
  unfold FpTextBox_to. cbn [fb_locked fb_text fb_start fb_end fb_pts fb_angle fb_layer fb_tstamp fb_effects fb_stroke fb_renderCache set].
  rewrite <- negb_orb, E. cbn [negb andb]. destruct pts as [|a [|b [|c [|d [|e pts]]]]]; try reflexivity. now contradiction N.
Qed.
