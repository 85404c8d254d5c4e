(** Proofs about work sheets. *)
From Verif Require Import PyBase PyNum PyStr Sexpr S_Leaf S_Tree M_Common S_Common M_Wks S_Wks
  L_Lex L_Tok L_Num L_Seq L_Parse L_Tac L_Common L_Fp L_Pad L_Footprint.

Lemma WksFontSize_rd o : WksFontSize_ok o = true -> WksFontSize_from (WksFontSize_tree o) = Ok o.
Proof. intros _. destruct o. reflexivity. Qed.
#[export] Hint Resolve WksFontSize_rd : rd.
@rt WksFontSize size nord
Lemma TextSize_rd o : TextSize_ok o = true -> TextSize_from (TextSize_tree o) = Ok o.
Proof. intros _. destruct o. reflexivity. Qed.
#[export] Hint Resolve TextSize_rd : rd.
@rt TextSize textsize nord
@rt Setup setup
@rt WksPosition at noto nord nohd nort noref noopq
Lemma wpos_rd k p : WksPosition_ok p = true -> WksPosition_from (wpos_tree k p) = Ok p.
Proof.
  intros H. destruct p as [x y c]. unfold WksPosition_from, wpos_tree, optv. cbn. destruct (is_none c) eqn:B; [|reflexivity].
  apply is_none_eq in B. subst. reflexivity.
Qed.
#[export] Hint Resolve wpos_rd : rd.
Lemma wpos_hd k p : exists l, wpos_tree k p = node k l.
Proof. eexists. reflexivity. Qed.
#[export] Hint Resolve wpos_hd : hd.
Ltac wks X_to X_ok X_tree X_norm :=
  let H := fresh in intros H; unfold X_ok in H; facts;
  repeat match goal with P : WksPosition_ok _ = true |- _ => unfold WksPosition_ok in P; facts end;
  unfold X_to, wks_pos; eapply Wr_eq; [wr_go|unfold X_tree, X_norm, wpos_tree, WksPosition_norm; cbn; tpeel].
Lemma Line_wr o i n : Line_ok o = true -> Wr (Line_to o i n) (flat (Line_tree (Line_norm o))).
Proof. wks Line_to Line_ok Line_tree Line_norm. Qed.
#[export] Hint Resolve Line_wr : wr.
Lemma Rect_wr o i n : Rect_ok o = true -> Wr (Rect_to o i n) (flat (Rect_tree (Rect_norm o))).
Proof. wks Rect_to Rect_ok Rect_tree Rect_norm. Qed.
#[export] Hint Resolve Rect_wr : wr.
Lemma Bitmap_wr o i n : Bitmap_ok o = true -> Wr (Bitmap_to o i n) (flat (Bitmap_tree (Bitmap_norm o))).
Proof. wks Bitmap_to Bitmap_ok Bitmap_tree Bitmap_norm. Qed.
#[export] Hint Resolve Bitmap_wr : wr.
Global Opaque wpos_tree WksPosition_from WksPosition_norm WksPosition_ok WksPosition_eqb.
@rt Line line noto
@rt Rect rect noto
#[local] Transparent WksFontSize_to.
Lemma WksFont_to_eq o i n : WksFont_to o i n =
  (let! size := opt_str (wf_size o) (fun z => let! s := WksFontSize_to z 0 false in Ok ($" " ++ s)) in
   if WksFont_empty o then Ok [] else
   Ok (spaces i ++ $"(font" ++ (if is_none (wf_linewidth o) then [] else $" (linewidth " ++ fmt (wf_linewidth o) ++ $")") ++ size
       ++ (if wf_bold o then $" bold" else []) ++ (if wf_italic o then $" italic" else []) ++ $")" ++ eol n)).
Proof.
  unfold WksFont_to, WksFont_empty. destruct o as [w z b c]. cbn [wf_linewidth wf_size wf_bold wf_italic].
  destruct (is_none w), z as [z|], b, c; reflexivity.
Qed.
#[local] Opaque WksFontSize_to.
Lemma WksFont_wr o i n : WksFont_ok o = true -> Wr (WksFont_to o i n) (if WksFont_empty o then [] else flat (WksFont_tree (WksFont_norm o))).
Proof.
  intros H. unfold WksFont_ok in H. facts. rewrite WksFont_to_eq.
  assert (L : forall z, wf_size o = Some z -> WksFontSize_ok z = true) by (intros z E; rewrite E in *; assumption).
  destruct (wf_size o) as [z|] eqn:Ez; [specialize (L _ eq_refl)|clear L]; cbn [opt_str bind];
    (eapply Wr_eq; [wr_go|]); (destruct (WksFont_empty o); [reflexivity|]); unfold WksFont_tree, WksFont_norm; rewrite Ez; cbn; unfold opto; cbn [app]; tpeel.
Qed.
#[export] Hint Resolve WksFont_wr : wr.
Lemma WksFont_wr1 o i n : WksFont_ok1 o = true -> Wr (WksFont_to o i n) (flat (WksFont_tree (WksFont_norm o))).
Proof.
  unfold WksFont_ok1. intros H. apply andb_prop in H as [H H1]. eapply Wr_eq; [now apply WksFont_wr|]. now destruct (WksFont_empty o).
Qed.
@rt WksFont font noto nort noopq
Lemma WksFont_empty_norm o : WksFont_empty (WksFont_norm o) = WksFont_empty o.
Proof. destruct o as [w [z|] b c]; unfold WksFont_empty, WksFont_norm; cbn; rewrite ?nrm_none; reflexivity. Qed.
Lemma WksFont_rt1 : roundtrips WksFont_to WksFont_from WksFont_ok1 WksFont_norm WksFont_eqb.
Proof.
  apply (rt_of _ _ _ WksFont_tree); [exact WksFont_wr1| |exact WksFont_same| |exact WksFont_idem].
  - unfold WksFont_ok1. intros o H. apply andb_prop in H as [H _]. now apply WksFont_rd.
  - unfold WksFont_ok1. intros o H. apply andb_prop in H as [H H1]. rewrite WksFont_empty_norm, H1, WksFont_okn by exact H. reflexivity.
Qed.
Lemma WksFont_fmt1 : conforms WksFont_to WksFont_from WksFont_ok1 WksFont_norm WksFont_tree.
Proof.
  apply (fmt_of _ _ _ _ _ WksFont_wr1). unfold WksFont_ok1. intros o H. apply andb_prop in H as [H _]. now apply WksFont_rd.
Qed.
Lemma WksFont_empty_eq o : WksFont_empty o = true -> o = WksFont_default.
Proof.
  unfold WksFont_empty. intros H. andbs. destruct o as [a [z|] b c]; cbn in *; try discriminate. apply is_none_eq in H. destruct b, c; try discriminate. now subst.
Qed.
Global Opaque WksFont_from WksFont_tree WksFont_to WksFont_norm WksFont_ok WksFont_eqb WksFont_empty.
Lemma TbText_wr o i n : TbText_ok o = true -> Wr (TbText_to o i n) (flat (TbText_tree (TbText_norm o))).
Proof.
  #[local] Transparent wpos_tree WksPosition_ok WksPosition_norm.
  intros H; unfold TbText_ok in H; facts.
  repeat match goal with P : WksPosition_ok _ = true |- _ => unfold WksPosition_ok in P; facts end;
  assert (J : forall j, tt_justify o = Some j -> Wr (Justify_to j 0 false) (flat (Justify_tree (Justify_norm j)))).
  { intros j E. rewrite E in *. now apply Justify_wr1. }
  unfold TbText_to, wks_pos. destruct (tt_justify o) as [j|] eqn:Ej; [specialize (J _ eq_refl)|clear J]; cbn [opt_str bind];
    (eapply Wr_eq; [wr_go|]); unfold TbText_tree, TbText_norm, wpos_tree, WksPosition_norm; rewrite Ej; cbn; rewrite WksFont_empty_norm; unfold opto; cbn [app]; tpeel.
Qed.
#[export] Hint Resolve TbText_wr : wr.
#[local] Opaque wpos_tree WksPosition_ok WksPosition_norm.
Ltac rd_nil_more ::= try match goal with B : WksFont_empty ?v = true |- _ => is_var v; apply WksFont_empty_eq in B; subst v end.
@rt TbText tbtext npos=1 noto
Lemma Bitmap_fold l : forall acc, foldM Bitmap_data acc (map (fun d => node "data" [d]) l) = Ok (acc ++ l).
Proof.
  induction l as [|x l IH]; intros acc; cbn [map]; [cbn; now rewrite app_nil_r|].
  rewrite foldM_cons. change (Bitmap_data acc (node "data" [x])) with (Ok (acc ++ [x])). cbn [bind]. rewrite IH, <- app_assoc. reflexivity. Qed.
Global Opaque Bitmap_data.
Lemma Bitmap_rd o : Bitmap_ok o = true -> Bitmap_from (Bitmap_tree o) = Ok o.
Proof.
  rd_start Bitmap_ok Bitmap_from Bitmap_tree Bitmap_step.
  match goal with H : forallb rawtxtb ?l = true |- _ => pose proof (Bitmap_fold l []) as F end. red_in F.
  match goal with Hst : ?st = Bitmap_step |- _ => rd_loop st Bitmap_step end.
Qed.
#[export] Hint Resolve Bitmap_rd : rd.
@rt Bitmap bitmap noto nord
Lemma Polygon_never o : Polygon_ok o = true -> False.
Proof. unfold Polygon_ok. rewrite andb_false_r. discriminate. Qed.
Lemma Polygon_wr o i n : Polygon_ok o = true -> Wr (Polygon_to o i n) (flat (Polygon_tree (Polygon_norm o))).
Proof. intros H. now apply Polygon_never in H. Qed.
Lemma Polygon_rd o : Polygon_ok o = true -> Polygon_from (Polygon_tree o) = Ok o.
Proof. intros H. now apply Polygon_never in H. Qed.
Lemma Polygon_okn o : Polygon_ok o = true -> Polygon_ok (Polygon_norm o) = true.
Proof. intros H. now apply Polygon_never in H. Qed.
#[export] Hint Resolve Polygon_wr : wr.
#[export] Hint Resolve Polygon_okn : okn.
#[export] Hint Resolve Polygon_rd : rd.
@rt Polygon polygon noto nookn nord nort noref noign nowins
@urt WkItem
@rt WorkSheet kicad_wks

(** ** A new work sheet *)
#[local] Transparent WorkSheet_to.
Lemma WorkSheet_version o i n : wk_version o = VStr $"20211014" -> WorkSheet_to o i n = WorkSheet_to (o <| wk_version := VInt 20211014 |>) i n.
Proof. intros E. destruct o. cbn in E. subst. reflexivity. Qed.
#[local] Opaque WorkSheet_to.
Lemma WorkSheet_version_rt o i n : wk_version o = VStr $"20211014" -> WorkSheet_ok (o <| wk_version := VInt 20211014 |>) = true ->
  write_read WorkSheet_to WorkSheet_from o i n = Ok (WorkSheet_norm (o <| wk_version := VInt 20211014 |>)).
Proof. intros E H. apply (rt_as _ _ _ _ _ o _ i n WorkSheet_rt); [|exact H]. now apply WorkSheet_version. Qed.
#[local] Transparent WorkSheet_ok Setup_ok TextSize_ok.
Lemma WorkSheet_new_ok : WorkSheet_ok (WorkSheet_create_new <| wk_version := VInt 20211014 |>) = true.
Proof. vm_compute. reflexivity. Qed.
#[local] Opaque WorkSheet_ok Setup_ok TextSize_ok.
Lemma WorkSheet_new_rt i n : exists o', write_read WorkSheet_to WorkSheet_from WorkSheet_create_new i n = Ok o'
  /\ WorkSheet_eqb (WorkSheet_create_new <| wk_version := VInt 20211014 |>) o' = true.
Proof. eexists. split; [apply WorkSheet_version_rt; [reflexivity|exact WorkSheet_new_ok]|apply WorkSheet_same]. Qed.
(** ** Polygons *)
#[local] Transparent WorkSheet_from WorkSheet_to Polygon_from Polygon_to.
Lemma WorkSheet_polygon before args after : exists e, WorkSheet_from (node "kicad_wks" (before ++ node "polygon" args :: after)) = Err e.
Proof. unfold WorkSheet_from, need_head, need_list; cbn [bind at_ nth_error skipn]. apply (fold_fails _ _ ENotImplemented). reflexivity. Qed.
Lemma concatM_fails {A} (f : A -> res str) x e l : f x = Err e -> In x l -> exists e', concatM f l = Err e'.
Proof.
  intros H. induction l as [|y l IH]; intros Hl; [destruct Hl|]. cbn [concatM]. destruct Hl as [<-|Hl].
  - rewrite H. eexists. reflexivity.
  - destruct (IH Hl) as [e' E]. destruct (f y); [cbn [bind]; rewrite E|]; eexists; reflexivity.
Qed.
Lemma WorkSheet_polygon_to o p i n : In (WkItem_Polygon p) (wk_drawingObjects o) -> exists e, WorkSheet_to o i n = Err e.
Proof.
  intros H. unfold WorkSheet_to. destruct (Setup_to (wk_setup o) (i + 2) true); [|eexists; reflexivity]. cbn [bind].
  destruct (concatM_fails (fun x => WkItem_to x (i + 2) true) (WkItem_Polygon p) ENotImplemented _ eq_refl H) as [e E]. rewrite E. eexists. reflexivity.
Qed.
#[local] Opaque WorkSheet_from WorkSheet_to Polygon_from Polygon_to.
(** ** An empty justification *)
#[local] Transparent TbText_to TbText_tree TbText_norm TbText_ok WksPosition_ok wpos_tree WksPosition_norm Justify_to.
Lemma TbText_justify_wr o i n : TbText_ok (o <| tt_justify := None |>) = true -> tt_justify o = Some Justify_default ->
  Wr (TbText_to o i n) (flat (TbText_tree (TbText_norm (o <| tt_justify := None |>)))).
Proof.
  intros H J. destruct o as [a1 a2 a3 a4 a5 a6 a7 a8 a9 b1 b2 b3 b4 b5]. cbn in J. subst a7. unfold TbText_ok in H; cbn in H; facts.
  repeat match goal with P : WksPosition_ok _ = true |- _ => unfold WksPosition_ok in P; facts end;
  unfold TbText_to, wks_pos. cbn [tt_text tt_name tt_position tt_option tt_rotate tt_font tt_justify tt_maxlen tt_maxheight tt_repeat tt_incrx tt_incry tt_incrlabel tt_comment].
  change (opt_str (Some Justify_default) (fun j => let! s := Justify_to j 0 false in Ok ($" " ++ s))) with (@Ok str $" "). cbn [bind].
  eapply Wr_eq; [wr_go|]. unfold TbText_tree, TbText_norm, wpos_tree, WksPosition_norm; cbn; rewrite WksFont_empty_norm; unfold opto; cbn [app]; tpeel.
Qed.
#[local] Opaque TbText_to TbText_tree TbText_norm TbText_ok WksPosition_ok wpos_tree WksPosition_norm Justify_to.
Lemma TbText_justify o i n : TbText_ok (o <| tt_justify := None |>) = true -> tt_justify o = Some Justify_default ->
  write_read TbText_to TbText_from o i n = Ok (TbText_norm (o <| tt_justify := None |>)).
Proof.
  intros H J. pose proof (TbText_justify_wr o i n H J) as W.
  rewrite (wr_read _ TbText_from _ _ _ _ W). apply TbText_rd. now apply TbText_okn.
Qed.
#[local] Transparent WksPosition_from.
Lemma WksPosition_shape exp o : WksPosition_from exp = Ok o -> exists h x y rest, exp = VList (h :: x :: y :: rest).
Proof.
  unfold WksPosition_from, need_list. destruct exp as [| | | | |l]; try discriminate. cbn [bind]. destruct l as [|h [|x [|y r]]]; try discriminate.
  intros _. repeat eexists.
Qed.
