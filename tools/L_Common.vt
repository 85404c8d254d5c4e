(** Round trip lemmas for the classes of items/common.py. *)
From Verif Require Import PyBase PyNum PyStr Sexpr S_Leaf S_Tree M_Common S_Common L_Lex L_Tok L_Num L_Seq L_Tac.

Lemma Position_idem o : Position_norm (Position_norm o) = Position_norm o.
Proof. unfold Position_norm. cbn. now rewrite !nrm_idem. Qed.
#[export] Hint Rewrite Position_idem : idem.
Lemma Position_same o : Position_eqb o (Position_norm o) = true.
Proof. same Position_eqb Position_norm. Qed.
#[export] Hint Resolve Position_same : same.
Lemma pos4_okn o : pos4_ok o = true -> pos4_ok (Position_norm o) = true.
Proof. unfold pos4_ok. okn Position_ok Position_norm. Qed.
Lemma pos3_okn o : pos3_ok o = true -> pos3_ok (Position_norm o) = true.
Proof.
  unfold pos3_ok. intros H. apply andb_prop in H as [H H1]. pose proof (pos4_okn o H) as E.
  unfold pos4_ok in E. rewrite E. exact H1.
Qed.
Lemma pos2_okn o : pos2_ok o = true -> pos2_ok (Position_norm o) = true.
Proof.
  unfold pos2_ok. intros H. apply andb_prop in H as [H H1]. apply andb_prop in H as [H H2].
  pose proof (pos4_okn o H) as E. unfold pos4_ok in E. rewrite E. unfold Position_norm. cbn.
  rewrite nrm_none, H2. exact H1.
Qed.
#[export] Hint Resolve pos2_okn pos3_okn pos4_okn : okn.

#[local] Arguments foldM : simpl nomatch.
Lemma pos4_rd k p : is_str (VStr (lit k)) "unlocked" = false -> pos4_ok p = true -> Position_from (at_tree k p) = Ok p.
Proof.
  intros Hk H. destruct p as [x y a u]. facts. cbn in *.
  unfold Position_from, at_tree, node, optv, optw. cbn [app po_X po_Y po_angle po_unlocked].
  destruct (is_none a) eqn:Ha; [apply is_none_eq in Ha; subst a|apply optb_spec in H0; [|assumption]];
    destruct u; cbn; rewrite Hk, ?(numb_nstr x), ?(numb_nstr y), ?(numb_nstr a) by assumption; cbn;
    rewrite ?(numb_nstr x), ?(numb_nstr y), ?(numb_nstr a) by assumption; reflexivity.
Qed.
#[local] Arguments foldM : simpl never.
Lemma pos3_rd k p : is_str (VStr (lit k)) "unlocked" = false -> pos3_ok p = true -> Position_from (at3_tree k p) = Ok p.
Proof.
  intros Hk H. rewrite <- (pos4_rd k p Hk); [|unfold pos4_ok, pos3_ok in *; andbs; assumption].
  unfold at3_tree, at_tree. unfold pos3_ok in H. andbs. rewrite H0. unfold optw. now rewrite app_nil_r.
Qed.
Lemma pos2_rd k p : is_str (VStr (lit k)) "unlocked" = false -> pos2_ok p = true -> Position_from (xy_tree k p) = Ok p.
Proof.
  intros Hk H. rewrite <- (pos3_rd k p Hk); [|unfold pos3_ok, pos2_ok in *; andbs; rewrite H, H0; reflexivity].
  unfold at3_tree, xy_tree. unfold pos2_ok in H. andbs. unfold optv. rewrite H1. reflexivity.
Qed.
#[export] Hint Resolve pos2_rd pos3_rd pos4_rd : rd.
#[export] Hint Extern 1 (is_str (VStr (lit _)) _ = false) => reflexivity : rd.
Lemma xy_hd k p : exists l, xy_tree k p = node k l. Proof. eexists. reflexivity. Qed.
Lemma at3_hd k p : exists l, at3_tree k p = node k l. Proof. eexists. reflexivity. Qed.
Lemma at_hd k p : exists l, at_tree k p = node k l. Proof. eexists. reflexivity. Qed.
#[export] Hint Resolve xy_hd at3_hd at_hd : hd.
Global Opaque Position_from.

Lemma Coordinate_rd o : Coordinate_ok o = true -> Coordinate_from (Coordinate_tree o) = Ok o.
Proof. intros _. destruct o. reflexivity. Qed.
#[export] Hint Resolve Coordinate_rd : rd.
@rt Coordinate xyz nord

Lemma ColorRGBA_rd o : ColorRGBA_ok o = true -> ColorRGBA_from (ColorRGBA_tree o) = Ok o.
Proof. intros H. unfold ColorRGBA_ok in H. andbs. destruct o. cbn in *. apply is_none_eq in H0. subst. reflexivity. Qed.
#[export] Hint Resolve ColorRGBA_rd : rd.
Lemma ColorRGBA_wr o i n : ColorRGBA_ok o = true -> Wr (ColorRGBA_to o i n) (flat (ColorRGBA_tree (ColorRGBA_norm o))).
Proof.
  intros H. unfold ColorRGBA_ok in H. facts. apply is_none_eq in H0.
  eapply Wr_eq; [unfold ColorRGBA_to, ColorRGBA_alpha; rewrite H0; cbn [bind]; wr_go|].
  unfold ColorRGBA_tree, ColorRGBA_norm; cbn; tpeel.
Qed.
#[export] Hint Resolve ColorRGBA_wr : wr.
@rt ColorRGBA color nord noto

@rt Stroke stroke npos=1
@rt Font font

Lemma Justify_wr o i n : Justify_ok o = true ->
  Wr (Justify_to o i n) (if Justify_empty o then [] else flat (Justify_tree o)).
Proof.
  intros H. unfold Justify_ok in H. facts. eapply Wr_eq; [unfold Justify_to; wr_go|].
  unfold Justify_empty, Justify_tree.
  destruct (is_none (ju_horizontally o) && is_none (ju_vertically o) && negb (ju_mirror o)); tpeel.
Qed.
#[export] Hint Resolve Justify_wr : wr.
Lemma Justify_norm_id o : Justify_norm o = o.
Proof. now destruct o. Qed.
Lemma Justify_wr1 o i n : Justify_ok1 o = true -> Wr (Justify_to o i n) (flat (Justify_tree (Justify_norm o))).
Proof.
  unfold Justify_ok1. intros H. apply andb_prop in H as [H H1]. eapply Wr_eq; [now apply Justify_wr|].
  rewrite Justify_norm_id. now destruct (Justify_empty o).
Qed.
@rt Justify justify noto nort noopq
Lemma Justify_rt1 : roundtrips Justify_to Justify_from Justify_ok1 Justify_norm Justify_eqb.
Proof.
  apply (rt_of _ _ _ Justify_tree); [exact Justify_wr1| |exact Justify_same| |exact Justify_idem].
  - unfold Justify_ok1. intros o H. apply andb_prop in H as [H _]. now apply Justify_rd.
  - intros o. now rewrite Justify_norm_id.
Qed.
Global Opaque Justify_from Justify_tree Justify_to Justify_norm Justify_ok Justify_eqb.

Lemma Effects_wr o i n : Effects_ok o = true -> Wr (Effects_to o i n) (flat (Effects_tree (Effects_norm o))).
Proof.
  intros H. unfold Effects_ok in H. facts. eapply Wr_eq; [unfold Effects_to; wr_go|].
  unfold Effects_tree, Effects_norm. cbn. rewrite Justify_norm_id. tpeel.
Qed.
#[export] Hint Resolve Effects_wr : wr.
@rt Effects effects noto

@rt Net net rdrefl
@rt Group group npos=1
@rt Fill fill
@rt Image image
@rt Property property npos=2

Lemma PageSettings_wr o i n : PageSettings_ok o = true -> Wr (PageSettings_to o i n) (flat (PageSettings_tree (PageSettings_norm o))).
Proof.
  intros H. unfold PageSettings_ok in H. andbs. unfold PageSettings_to, PageSettings_tree, PageSettings_norm.
  cbn [pg_paperSize pg_width pg_height pg_portrait].
  destruct (pg_paperSize o =s "User"); andbs.
  - rewrite (numb_nnone (pg_width o)), (numb_nnone (pg_height o)) by assumption.
    eapply Wr_eq; [cbn [orb bind]; wr_go|]. tpeel.
  - eapply Wr_eq; [cbn [bind]; wr_go|]. tpeel.
Qed.
#[export] Hint Resolve PageSettings_wr : wr.
Lemma PageSettings_okn o : PageSettings_ok o = true -> PageSettings_ok (PageSettings_norm o) = true.
Proof.
  intros H. unfold PageSettings_ok in *. cbn. destruct (pg_paperSize o =s "User"); andbs; rewrite ?nrm_none;
    repeat match goal with |- (_ && _)%bool = true => apply andb_true_intro; split end;
    try (apply negb_true_iff); eauto 3 with okn.
Qed.
#[export] Hint Resolve PageSettings_okn : okn.
Lemma PageSettings_rd o : PageSettings_ok o = true -> PageSettings_from (PageSettings_tree o) = Ok o.
Proof.
  intros H. unfold PageSettings_ok in H. andbs. destruct o as [p w h b]. cbn in *.
  unfold PageSettings_from, PageSettings_tree. cbn.
  destruct (p =s "User") eqn:E; andbs.
  - change (need_head "paper" (node "paper" (p :: ([w; h] ++ optw "portrait" b))))
      with (Ok (VStr $"paper" :: p :: ([w; h] ++ optw "portrait" b))).
    cbn [bind]. unfold setf. unfold node. cbn. rewrite E. cbn.
    do 4 (eapply fold_cons; [unfold PageSettings_step; leaf_tests; reflexivity|]). destruct b; reflexivity.
  - repeat match goal with H : is_none _ = true |- _ => apply is_none_eq in H; subst end.
    change (need_head "paper" (node "paper" (p :: ([] ++ optw "portrait" b))))
      with (Ok (VStr $"paper" :: p :: ([] ++ optw "portrait" b))).
    cbn [bind]. unfold setf. unfold node. cbn. rewrite E. cbn.
    do 2 (eapply fold_cons; [unfold PageSettings_step; leaf_tests; reflexivity|]). destruct b; reflexivity.
Qed.
#[export] Hint Resolve PageSettings_rd : rd.
@rt PageSettings paper npos=1 noto nookn nord

#[local] Arguments foldM : simpl nomatch.
Lemma dict_put_new d k v : forallb (fun kv => negb (py_eqb (fst kv) k)) d = true -> dict_put d k v = d ++ [(k, v)].
Proof.
  induction d as [|[k' v'] d IH]; cbn [forallb dict_put app fst]; [reflexivity|]. intros H. andbs.
  rewrite H. now rewrite IH.
Qed.
Lemma dict_keys_mid d1 k v d2 : dict_keys_ok (d1 ++ (k, v) :: d2) = true ->
  forallb (fun kv => negb (py_eqb (fst kv) k)) d1 = true.
Proof.
  induction d1 as [|[k' v'] d IH]; cbn [app dict_keys_ok forallb fst]; [reflexivity|]. intros H.
  apply andb_prop in H as [H1 H2]. rewrite IH by assumption. rewrite forallb_app in H1.
  apply andb_prop in H1 as [_ H1]. cbn [forallb fst] in H1. apply andb_prop in H1 as [-> _]. reflexivity.
Qed.
(** a loop that enters the items of a dictionary one by one *)
Lemma fold_dict {R} (mk : list (val * val) -> R) step (t : val * val -> val) d :
  forallb (fun kv => atomb (fst kv) && txtb (snd kv)) d = true ->
  (forall acc kv, In kv d -> is_list (fst kv) = false -> step (mk acc) (t kv) = Ok (mk (dict_put acc (fst kv) (snd kv)))) ->
  forall acc, dict_keys_ok (acc ++ d) = true -> foldM step (mk acc) (map t d) = Ok (mk (acc ++ d)).
Proof.
  induction d as [|[k v] d IH]; intros Hd Hs acc Ha; cbn [map foldM]; [now rewrite app_nil_r|].
  cbn [forallb fst snd] in Hd. andbs.
  rewrite Hs; [|now left|now apply atomb_leaf]. cbn [bind fst snd].
  rewrite dict_put_new by (eapply dict_keys_mid; exact Ha).
  rewrite IH; [now rewrite <- app_assoc|assumption| |now rewrite <- app_assoc].
  intros acc' kv Hin. apply Hs. now right.
Qed.
#[local] Arguments foldM : simpl never.
Lemma dict_norm_idem d : dict_norm (dict_norm d) = dict_norm d.
Proof.
  unfold dict_norm. rewrite map_map. apply map_ext. intros [k v]. cbn [fst snd]. now rewrite nrm_idem.
Qed.
#[export] Hint Rewrite dict_norm_idem : idem.
Lemma dict_okn d : dict_ok d = true -> dict_ok (dict_norm d) = true.
Proof.
  unfold dict_ok. intros H. apply andb_prop in H as [H1 H2]. apply andb_prop in H1 as [H1 H3].
  rewrite dict_norm_idem, H2, !andb_true_r. clear H2 H3. induction d as [|[k v] d IH]; [reflexivity|]. cbn [forallb dict_norm map fst snd] in *. andbs.
  rewrite atomb_nrm by assumption. fold (dict_norm d). cbn [andb]. apply andb_true_intro. split; [assumption|now apply IH].
Qed.
#[export] Hint Resolve dict_okn : okn.
Global Arguments dict_ok : simpl never. Global Arguments dict_norm : simpl never. 

Lemma TitleBlock_rd o : TitleBlock_ok o = true -> TitleBlock_from (TitleBlock_tree o) = Ok o.
Proof.
  rd_start TitleBlock_ok TitleBlock_from TitleBlock_tree TitleBlock_step.
  unfold dict_ok in *. andbs.
  assert (F : forall a b c d, foldM st (mkTitleBlock a b c d []) (map (fun kv => node "comment" [fst kv; snd kv]) tb_comments)
     = Ok (mkTitleBlock a b c d tb_comments)).
  { intros. refine (fold_dict (fun z => mkTitleBlock a b c d z) st _ tb_comments _ _ [] _); [assumption| |assumption].
    intros acc [k v] _ Hk. cbn [fst snd] in *. subst st. unfold TitleBlock_step. red_step. unfold dict_set. rewrite Hk. reflexivity. }
  rd_loop st TitleBlock_step.
Qed.
#[export] Hint Resolve TitleBlock_rd : rd.
@rt TitleBlock title_block nord

Lemma RenderCachePolygon_pts_wr sp l : forallb pos2_ok l = true -> forall j,
  Seq KC (RenderCachePolygon_pts (spaces sp) j l) KC (flat_map (fun p => flat (xy_tree "xy" (Position_norm p))) l).
Proof.
  induction l as [|p l IH]; intros H j; cbn [RenderCachePolygon_pts flat_map]; [apply Seq_nil|].
  cbn [forallb] in H. facts. specialize (IH ltac:(assumption) (S j)).
  replace (flat (xy_tree "xy" (Position_norm p)) ++ flat_map (fun p => flat (xy_tree "xy" (Position_norm p))) l)
    with ([TL; TA (VStr $"xy")] ++ flat (nrm (po_X p)) ++ flat (nrm (po_Y p)) ++ [TR]
       ++ flat_map (fun p => flat (xy_tree "xy" (Position_norm p))) l) by (rewrite flat_xy; tpeel).
  change ([TL; TA (VStr $"xy")] ++ ?r) with ([] ++ [] ++ [] ++ [TL; TA (VStr $"xy")] ++ r).
  destruct (Nat.eqb (Nat.modulo j 4) 0); (eapply Seq_app; [first [apply (Seq_lit KC nl KC []); reflexivity | apply Seq_nil]|]);
  (eapply Seq_app; [apply Seq_spaces|]); (eapply Seq_app; [apply Seq_lit; reflexivity|]);
  (eapply Seq_app; [apply Seq_lit; reflexivity|]); (eapply Seq_app; [now apply Seq_num|]);
  change (flat (nrm (po_Y p)) ++ ?r) with ([] ++ flat (nrm (po_Y p)) ++ r);
  (eapply Seq_app; [apply Seq_lit; reflexivity|]); (eapply Seq_app; [now apply Seq_num|]);
  (eapply Seq_app; [apply Seq_lit; reflexivity|]); exact IH.
Qed.
Lemma RenderCachePolygon_wr o i n : RenderCachePolygon_ok o = true ->
  Wr (RenderCachePolygon_to o i n) (flat (RenderCachePolygon_tree (RenderCachePolygon_norm o))).
Proof.
  intros H. unfold RenderCachePolygon_ok in H. pose proof (RenderCachePolygon_pts_wr i (rp_pts o) H 0) as P.
  eapply Wr_eq; [unfold RenderCachePolygon_to; cbv zeta; apply Wr_ok|].
  - assert (Q : Seq KW (RenderCachePolygon_pts (spaces i) 0 (rp_pts o) ++ nl) KC
       (flat_map (fun p => flat (xy_tree "xy" (Position_norm p))) (rp_pts o) ++ [])).
    { intros rest Hr. split.
      - destruct (rp_pts o); reflexivity.
      - refine (proj2 (Seq_app KC _ _ _ _ KC _ P _ rest Hr)). now apply Seq_lit. }
    rewrite (app_assoc (RenderCachePolygon_pts (spaces i) 0 (rp_pts o))).
    revert Q. generalize (RenderCachePolygon_pts (spaces i) 0 (rp_pts o) ++ nl). intros z Q. seq_top.
  - unfold RenderCachePolygon_tree, RenderCachePolygon_norm. cbn. tpeel.
Qed.
#[export] Hint Resolve RenderCachePolygon_wr : wr.
@rt RenderCachePolygon polygon noto

Lemma word0_str v : word0v v = true -> exists c w, v = VStr (c :: w).
Proof. destruct v as [| | | |[|c w]|]; try discriminate. eauto. Qed.
Lemma txt_str v : txtb v = true -> (v =s "") = false -> exists c w, v = VStr (c :: w).
Proof. destruct v as [| | | |[|c w]|]; try discriminate. eauto. Qed.
Lemma RenderCache_skip o c w : RenderCache_step o (VStr (c :: w)) = Ok o.
Proof.
  unfold RenderCache_step. cbn [at_ nth_error bind]. replace (VStr [c] =s "polygon") with false; [reflexivity|].
  unfold is_str. change ($"polygon") with (112%N :: $"olygon"). unfold str_eqb.
  destruct (N.eqb c 112); reflexivity.
Qed.
Lemma RenderCache_rd o : RenderCache_ok o = true -> RenderCache_from (RenderCache_tree o) = Ok o.
Proof.
  rd_start RenderCache_ok RenderCache_from RenderCache_tree RenderCache_step.
  destruct (txt_str rc_text) as (c & w & ->); [assumption..|]. destruct (word0_str rc_id) as (d & x & ->); [assumption|].
  subst st. do 3 (eapply fold_cons; [apply RenderCache_skip|]).
  remember RenderCache_step as st eqn:Hst. rd_loop st RenderCache_step.
Qed.
#[export] Hint Resolve RenderCache_rd : rd.
@rt RenderCache render_cache npos=2 nord
