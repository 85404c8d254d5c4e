(** Proofs about work sheets. *)
From Verif Require Import PyBase PyNum PyStr Sexpr S_Leaf S_Tree M_Common S_Common M_Wks S_Wks
  L_Lex L_Tok L_Num L_Seq L_Parse L_Tac L_Common L_Fp L_Pad L_Footprint.

Lemma WksFontSize_rd o : WksFontSize_ok o = true -> WksFontSize_from (WksFontSize_tree o) = Ok o.
Proof. intros _. destruct o. reflexivity. Qed.
#[export] Hint Resolve WksFontSize_rd : rd.
Lemma WksFontSize_wr o i n : WksFontSize_ok o = true -> Wr (WksFontSize_to o i n) (flat (WksFontSize_tree (WksFontSize_norm o))).
Proof. wr WksFontSize_to WksFontSize_ok WksFontSize_tree WksFontSize_norm. Qed.
#[export] Hint Resolve WksFontSize_wr : wr.
Lemma WksFontSize_idem o : WksFontSize_norm (WksFontSize_norm o) = WksFontSize_norm o.
Proof. idem WksFontSize_norm. Qed.
#[export] Hint Rewrite WksFontSize_idem : idem.
Lemma WksFontSize_okn o : WksFontSize_ok o = true -> WksFontSize_ok (WksFontSize_norm o) = true.
Proof. okn WksFontSize_ok WksFontSize_norm. Qed.
#[export] Hint Resolve WksFontSize_okn : okn.
Lemma WksFontSize_hd o : exists l, WksFontSize_tree o = node "size" l.
Proof. eexists. reflexivity. Qed.
#[export] Hint Resolve WksFontSize_hd : hd.
Lemma WksFontSize_same o : WksFontSize_eqb o (WksFontSize_norm o) = true.
Proof. same WksFontSize_eqb WksFontSize_norm. Qed.
#[export] Hint Resolve WksFontSize_same : same.
Lemma WksFontSize_rt : roundtrips WksFontSize_to WksFontSize_from WksFontSize_ok WksFontSize_norm WksFontSize_eqb.
Proof. exact (rt_of _ _ _ WksFontSize_tree _ _ WksFontSize_wr WksFontSize_rd WksFontSize_same WksFontSize_okn WksFontSize_idem). Qed.
Lemma WksFontSize_fmt : conforms WksFontSize_to WksFontSize_from WksFontSize_ok WksFontSize_norm WksFontSize_tree.
Proof. exact (fmt_of _ _ _ _ _ WksFontSize_wr WksFontSize_rd). Qed.
Lemma WksFontSize_ref : refuses WksFontSize_from ["size"%string].
Proof. refuse WksFontSize_from. Qed.
Global Opaque WksFontSize_from WksFontSize_tree WksFontSize_to WksFontSize_norm WksFontSize_ok WksFontSize_eqb.

Lemma TextSize_rd o : TextSize_ok o = true -> TextSize_from (TextSize_tree o) = Ok o.
Proof. intros _. destruct o. reflexivity. Qed.
#[export] Hint Resolve TextSize_rd : rd.
Lemma TextSize_wr o i n : TextSize_ok o = true -> Wr (TextSize_to o i n) (flat (TextSize_tree (TextSize_norm o))).
Proof. wr TextSize_to TextSize_ok TextSize_tree TextSize_norm. Qed.
#[export] Hint Resolve TextSize_wr : wr.
Lemma TextSize_idem o : TextSize_norm (TextSize_norm o) = TextSize_norm o.
Proof. idem TextSize_norm. Qed.
#[export] Hint Rewrite TextSize_idem : idem.
Lemma TextSize_okn o : TextSize_ok o = true -> TextSize_ok (TextSize_norm o) = true.
Proof. okn TextSize_ok TextSize_norm. Qed.
#[export] Hint Resolve TextSize_okn : okn.
Lemma TextSize_hd o : exists l, TextSize_tree o = node "textsize" l.
Proof. eexists. reflexivity. Qed.
#[export] Hint Resolve TextSize_hd : hd.
Lemma TextSize_same o : TextSize_eqb o (TextSize_norm o) = true.
Proof. same TextSize_eqb TextSize_norm. Qed.
#[export] Hint Resolve TextSize_same : same.
Lemma TextSize_rt : roundtrips TextSize_to TextSize_from TextSize_ok TextSize_norm TextSize_eqb.
Proof. exact (rt_of _ _ _ TextSize_tree _ _ TextSize_wr TextSize_rd TextSize_same TextSize_okn TextSize_idem). Qed.
Lemma TextSize_fmt : conforms TextSize_to TextSize_from TextSize_ok TextSize_norm TextSize_tree.
Proof. exact (fmt_of _ _ _ _ _ TextSize_wr TextSize_rd). Qed.
Lemma TextSize_ref : refuses TextSize_from ["textsize"%string].
Proof. refuse TextSize_from. Qed.
Global Opaque TextSize_from TextSize_tree TextSize_to TextSize_norm TextSize_ok TextSize_eqb.

Lemma Setup_wr o i n : Setup_ok o = true -> Wr (Setup_to o i n) (flat (Setup_tree (Setup_norm o))).
Proof. wr Setup_to Setup_ok Setup_tree Setup_norm. Qed.
#[export] Hint Resolve Setup_wr : wr.
Lemma Setup_idem o : Setup_norm (Setup_norm o) = Setup_norm o.
Proof. idem Setup_norm. Qed.
#[export] Hint Rewrite Setup_idem : idem.
Lemma Setup_okn o : Setup_ok o = true -> Setup_ok (Setup_norm o) = true.
Proof. okn Setup_ok Setup_norm. Qed.
#[export] Hint Resolve Setup_okn : okn.
Lemma Setup_hd o : exists l, Setup_tree o = node "setup" l.
Proof. eexists. reflexivity. Qed.
#[export] Hint Resolve Setup_hd : hd.
Lemma Setup_rd o : Setup_ok o = true -> Setup_from (Setup_tree o) = Ok o.
Proof. rd Setup_ok Setup_from Setup_tree Setup_step. Qed.
#[export] Hint Resolve Setup_rd : rd.
Lemma Setup_same o : Setup_eqb o (Setup_norm o) = true.
Proof. same Setup_eqb Setup_norm. Qed.
#[export] Hint Resolve Setup_same : same.
Lemma Setup_rt : roundtrips Setup_to Setup_from Setup_ok Setup_norm Setup_eqb.
Proof. exact (rt_of _ _ _ Setup_tree _ _ Setup_wr Setup_rd Setup_same Setup_okn Setup_idem). Qed.
Lemma Setup_fmt : conforms Setup_to Setup_from Setup_ok Setup_norm Setup_tree.
Proof. exact (fmt_of _ _ _ _ _ Setup_wr Setup_rd). Qed.
Lemma Setup_ref : refuses Setup_from ["setup"%string].
Proof. refuse Setup_from. Qed.
Lemma Setup_ign : ignores Setup_from 0 ["textsize"%string; "linewidth"%string; "textlinewidth"%string; "left_margin"%string; "right_margin"%string; "top_margin"%string; "bottom_margin"%string].
Proof. ign Setup_from Setup_step O. Qed.
Lemma Setup_win : last_wins Setup_from 0 ["textsize"%string; "linewidth"%string; "textlinewidth"%string; "left_margin"%string; "right_margin"%string; "top_margin"%string; "bottom_margin"%string].
Proof. wins Setup_from Setup_step O. Qed.
Global Opaque Setup_from Setup_tree Setup_to Setup_norm Setup_ok Setup_eqb.

Lemma WksPosition_idem o : WksPosition_norm (WksPosition_norm o) = WksPosition_norm o.
Proof. idem WksPosition_norm. Qed.
#[export] Hint Rewrite WksPosition_idem : idem.
Lemma WksPosition_okn o : WksPosition_ok o = true -> WksPosition_ok (WksPosition_norm o) = true.
Proof. okn WksPosition_ok WksPosition_norm. Qed.
#[export] Hint Resolve WksPosition_okn : okn.
Lemma WksPosition_same o : WksPosition_eqb o (WksPosition_norm o) = true.
Proof. same WksPosition_eqb WksPosition_norm. Qed.
#[export] Hint Resolve WksPosition_same : same.

Lemma wpos_rd k p : WksPosition_ok p = true -> WksPosition_from (wpos_tree k p) = Ok p.
Proof.
  intros H. destruct p as [x y c]. unfold WksPosition_from, wpos_tree, optv. cbn. destruct (is_none c) eqn:B; [|reflexivity].
  apply is_none_eq in B. subst. reflexivity.
Qed.
#[export] Hint Resolve wpos_rd : rd.
Lemma wpos_hd k p : exists l, wpos_tree k p = node k l.
Proof. eexists. reflexivity. Qed.
#[export] Hint Resolve wpos_hd : hd.
Ltac wks X_to X_ok X_tree X_norm :=
  let H := fresh in intros H; unfold X_ok in H; facts;
  repeat match goal with P : WksPosition_ok _ = true |- _ => unfold WksPosition_ok in P; facts end;
  unfold X_to, wks_pos; eapply Wr_eq; [wr_go|unfold X_tree, X_norm, wpos_tree, WksPosition_norm; cbn; tpeel].
Lemma Line_wr o i n : Line_ok o = true -> Wr (Line_to o i n) (flat (Line_tree (Line_norm o))).
Proof. wks Line_to Line_ok Line_tree Line_norm. Qed.
#[export] Hint Resolve Line_wr : wr.
Lemma Rect_wr o i n : Rect_ok o = true -> Wr (Rect_to o i n) (flat (Rect_tree (Rect_norm o))).
Proof. wks Rect_to Rect_ok Rect_tree Rect_norm. Qed.
#[export] Hint Resolve Rect_wr : wr.
Lemma Bitmap_wr o i n : Bitmap_ok o = true -> Wr (Bitmap_to o i n) (flat (Bitmap_tree (Bitmap_norm o))).
Proof. wks Bitmap_to Bitmap_ok Bitmap_tree Bitmap_norm. Qed.
#[export] Hint Resolve Bitmap_wr : wr.
Global Opaque wpos_tree WksPosition_from WksPosition_norm WksPosition_ok WksPosition_eqb.
Lemma Line_idem o : Line_norm (Line_norm o) = Line_norm o.
Proof. idem Line_norm. Qed.
#[export] Hint Rewrite Line_idem : idem.
Lemma Line_okn o : Line_ok o = true -> Line_ok (Line_norm o) = true.
Proof. okn Line_ok Line_norm. Qed.
#[export] Hint Resolve Line_okn : okn.
Lemma Line_hd o : exists l, Line_tree o = node "line" l.
Proof. eexists. reflexivity. Qed.
#[export] Hint Resolve Line_hd : hd.
Lemma Line_rd o : Line_ok o = true -> Line_from (Line_tree o) = Ok o.
Proof. rd Line_ok Line_from Line_tree Line_step. Qed.
#[export] Hint Resolve Line_rd : rd.
Lemma Line_same o : Line_eqb o (Line_norm o) = true.
Proof. same Line_eqb Line_norm. Qed.
#[export] Hint Resolve Line_same : same.
Lemma Line_rt : roundtrips Line_to Line_from Line_ok Line_norm Line_eqb.
Proof. exact (rt_of _ _ _ Line_tree _ _ Line_wr Line_rd Line_same Line_okn Line_idem). Qed.
Lemma Line_fmt : conforms Line_to Line_from Line_ok Line_norm Line_tree.
Proof. exact (fmt_of _ _ _ _ _ Line_wr Line_rd). Qed.
Lemma Line_ref : refuses Line_from ["line"%string].
Proof. refuse Line_from. Qed.
Lemma Line_ign : ignores Line_from 0 ["name"%string; "start"%string; "end"%string; "option"%string; "linewidth"%string; "repeat"%string; "incrx"%string; "incry"%string; "comment"%string].
Proof. ign Line_from Line_step O. Qed.
Lemma Line_win : last_wins Line_from 0 ["name"%string; "start"%string; "end"%string; "option"%string; "linewidth"%string; "repeat"%string; "incrx"%string; "incry"%string; "comment"%string].
Proof. wins Line_from Line_step O. Qed.
Global Opaque Line_from Line_tree Line_to Line_norm Line_ok Line_eqb.

Lemma Rect_idem o : Rect_norm (Rect_norm o) = Rect_norm o.
Proof. idem Rect_norm. Qed.
#[export] Hint Rewrite Rect_idem : idem.
Lemma Rect_okn o : Rect_ok o = true -> Rect_ok (Rect_norm o) = true.
Proof. okn Rect_ok Rect_norm. Qed.
#[export] Hint Resolve Rect_okn : okn.
Lemma Rect_hd o : exists l, Rect_tree o = node "rect" l.
Proof. eexists. reflexivity. Qed.
#[export] Hint Resolve Rect_hd : hd.
Lemma Rect_rd o : Rect_ok o = true -> Rect_from (Rect_tree o) = Ok o.
Proof. rd Rect_ok Rect_from Rect_tree Rect_step. Qed.
#[export] Hint Resolve Rect_rd : rd.
Lemma Rect_same o : Rect_eqb o (Rect_norm o) = true.
Proof. same Rect_eqb Rect_norm. Qed.
#[export] Hint Resolve Rect_same : same.
Lemma Rect_rt : roundtrips Rect_to Rect_from Rect_ok Rect_norm Rect_eqb.
Proof. exact (rt_of _ _ _ Rect_tree _ _ Rect_wr Rect_rd Rect_same Rect_okn Rect_idem). Qed.
Lemma Rect_fmt : conforms Rect_to Rect_from Rect_ok Rect_norm Rect_tree.
Proof. exact (fmt_of _ _ _ _ _ Rect_wr Rect_rd). Qed.
Lemma Rect_ref : refuses Rect_from ["rect"%string].
Proof. refuse Rect_from. Qed.
Lemma Rect_ign : ignores Rect_from 0 ["name"%string; "start"%string; "end"%string; "option"%string; "linewidth"%string; "repeat"%string; "incrx"%string; "incry"%string; "comment"%string].
Proof. ign Rect_from Rect_step O. Qed.
Lemma Rect_win : last_wins Rect_from 0 ["name"%string; "start"%string; "end"%string; "option"%string; "linewidth"%string; "repeat"%string; "incrx"%string; "incry"%string; "comment"%string].
Proof. wins Rect_from Rect_step O. Qed.
Global Opaque Rect_from Rect_tree Rect_to Rect_norm Rect_ok Rect_eqb.

#[local] Transparent WksFontSize_to.
Lemma WksFont_to_eq o i n : WksFont_to o i n =
  (let! size := opt_str (wf_size o) (fun z => let! s := WksFontSize_to z 0 false in Ok ($" " ++ s)) in
   if WksFont_empty o then Ok [] else
   Ok (spaces i ++ $"(font" ++ (if is_none (wf_linewidth o) then [] else $" (linewidth " ++ fmt (wf_linewidth o) ++ $")") ++ size
       ++ (if wf_bold o then $" bold" else []) ++ (if wf_italic o then $" italic" else []) ++ $")" ++ eol n)).
Proof.
  unfold WksFont_to, WksFont_empty. destruct o as [w z b c]. cbn [wf_linewidth wf_size wf_bold wf_italic].
  destruct (is_none w), z as [z|], b, c; reflexivity.
Qed.
#[local] Opaque WksFontSize_to.
Lemma WksFont_wr o i n : WksFont_ok o = true -> Wr (WksFont_to o i n) (if WksFont_empty o then [] else flat (WksFont_tree (WksFont_norm o))).
Proof.
  intros H. unfold WksFont_ok in H. facts. rewrite WksFont_to_eq.
  assert (L : forall z, wf_size o = Some z -> WksFontSize_ok z = true) by (intros z E; rewrite E in *; assumption).
  destruct (wf_size o) as [z|] eqn:Ez; [specialize (L _ eq_refl)|clear L]; cbn [opt_str bind];
    (eapply Wr_eq; [wr_go|]); (destruct (WksFont_empty o); [reflexivity|]); unfold WksFont_tree, WksFont_norm; rewrite Ez; cbn; unfold opto; cbn [app]; tpeel.
Qed.
#[export] Hint Resolve WksFont_wr : wr.
Lemma WksFont_wr1 o i n : WksFont_ok1 o = true -> Wr (WksFont_to o i n) (flat (WksFont_tree (WksFont_norm o))).
Proof.
  unfold WksFont_ok1. intros H. apply andb_prop in H as [H H1]. eapply Wr_eq; [now apply WksFont_wr|]. now destruct (WksFont_empty o).
Qed.
Lemma WksFont_idem o : WksFont_norm (WksFont_norm o) = WksFont_norm o.
Proof. idem WksFont_norm. Qed.
#[export] Hint Rewrite WksFont_idem : idem.
Lemma WksFont_okn o : WksFont_ok o = true -> WksFont_ok (WksFont_norm o) = true.
Proof. okn WksFont_ok WksFont_norm. Qed.
#[export] Hint Resolve WksFont_okn : okn.
Lemma WksFont_hd o : exists l, WksFont_tree o = node "font" l.
Proof. eexists. reflexivity. Qed.
#[export] Hint Resolve WksFont_hd : hd.
Lemma WksFont_rd o : WksFont_ok o = true -> WksFont_from (WksFont_tree o) = Ok o.
Proof. rd WksFont_ok WksFont_from WksFont_tree WksFont_step. Qed.
#[export] Hint Resolve WksFont_rd : rd.
Lemma WksFont_same o : WksFont_eqb o (WksFont_norm o) = true.
Proof. same WksFont_eqb WksFont_norm. Qed.
#[export] Hint Resolve WksFont_same : same.
Lemma WksFont_ref : refuses WksFont_from ["font"%string].
Proof. refuse WksFont_from. Qed.
Lemma WksFont_ign : ignores WksFont_from 0 ["linewidth"%string; "size"%string].
Proof. ign WksFont_from WksFont_step O. Qed.
Lemma WksFont_win : last_wins WksFont_from 0 ["linewidth"%string; "size"%string].
Proof. wins WksFont_from WksFont_step O. Qed.

Lemma WksFont_empty_norm o : WksFont_empty (WksFont_norm o) = WksFont_empty o.
Proof. destruct o as [w [z|] b c]; unfold WksFont_empty, WksFont_norm; cbn; rewrite ?nrm_none; reflexivity. Qed.
Lemma WksFont_rt1 : roundtrips WksFont_to WksFont_from WksFont_ok1 WksFont_norm WksFont_eqb.
Proof.
  apply (rt_of _ _ _ WksFont_tree); [exact WksFont_wr1| |exact WksFont_same| |exact WksFont_idem].
  - unfold WksFont_ok1. intros o H. apply andb_prop in H as [H _]. now apply WksFont_rd.
  - unfold WksFont_ok1. intros o H. apply andb_prop in H as [H H1]. rewrite WksFont_empty_norm, H1, WksFont_okn by exact H. reflexivity.
Qed.
Lemma WksFont_fmt1 : conforms WksFont_to WksFont_from WksFont_ok1 WksFont_norm WksFont_tree.
Proof.
  apply (fmt_of _ _ _ _ _ WksFont_wr1). unfold WksFont_ok1. intros o H. apply andb_prop in H as [H _]. now apply WksFont_rd.
Qed.
Lemma WksFont_empty_eq o : WksFont_empty o = true -> o = WksFont_default.
Proof.
  unfold WksFont_empty. intros H. andbs. destruct o as [a [z|] b c]; cbn in *; try discriminate. apply is_none_eq in H. destruct b, c; try discriminate. now subst.
Qed.
Global Opaque WksFont_from WksFont_tree WksFont_to WksFont_norm WksFont_ok WksFont_eqb WksFont_empty.
Lemma TbText_wr o i n : TbText_ok o = true -> Wr (TbText_to o i n) (flat (TbText_tree (TbText_norm o))).
Proof.
  #[local] Transparent wpos_tree WksPosition_ok WksPosition_norm.
  intros H; unfold TbText_ok in H; facts.
  repeat match goal with P : WksPosition_ok _ = true |- _ => unfold WksPosition_ok in P; facts end;
  assert (J : forall j, tt_justify o = Some j -> Wr (Justify_to j 0 false) (flat (Justify_tree (Justify_norm j)))).
  { intros j E. rewrite E in *. now apply Justify_wr1. }
  unfold TbText_to, wks_pos. destruct (tt_justify o) as [j|] eqn:Ej; [specialize (J _ eq_refl)|clear J]; cbn [opt_str bind];
    (eapply Wr_eq; [wr_go|]); unfold TbText_tree, TbText_norm, wpos_tree, WksPosition_norm; rewrite Ej; cbn; rewrite WksFont_empty_norm; unfold opto; cbn [app]; tpeel.
Qed.
#[export] Hint Resolve TbText_wr : wr.
#[local] Opaque wpos_tree WksPosition_ok WksPosition_norm.
Ltac rd_nil_more ::= try match goal with B : WksFont_empty ?v = true |- _ => is_var v; apply WksFont_empty_eq in B; subst v end.
Lemma TbText_idem o : TbText_norm (TbText_norm o) = TbText_norm o.
Proof. idem TbText_norm. Qed.
#[export] Hint Rewrite TbText_idem : idem.
Lemma TbText_okn o : TbText_ok o = true -> TbText_ok (TbText_norm o) = true.
Proof. okn TbText_ok TbText_norm. Qed.
#[export] Hint Resolve TbText_okn : okn.
Lemma TbText_hd o : exists l, TbText_tree o = node "tbtext" l.
Proof. eexists. reflexivity. Qed.
#[export] Hint Resolve TbText_hd : hd.
Lemma TbText_rd o : TbText_ok o = true -> TbText_from (TbText_tree o) = Ok o.
Proof. rd TbText_ok TbText_from TbText_tree TbText_step. Qed.
#[export] Hint Resolve TbText_rd : rd.
Lemma TbText_same o : TbText_eqb o (TbText_norm o) = true.
Proof. same TbText_eqb TbText_norm. Qed.
#[export] Hint Resolve TbText_same : same.
Lemma TbText_rt : roundtrips TbText_to TbText_from TbText_ok TbText_norm TbText_eqb.
Proof. exact (rt_of _ _ _ TbText_tree _ _ TbText_wr TbText_rd TbText_same TbText_okn TbText_idem). Qed.
Lemma TbText_fmt : conforms TbText_to TbText_from TbText_ok TbText_norm TbText_tree.
Proof. exact (fmt_of _ _ _ _ _ TbText_wr TbText_rd). Qed.
Lemma TbText_ref : refuses TbText_from ["tbtext"%string].
Proof. refuse TbText_from. Qed.
Lemma TbText_ign : ignores TbText_from 1 ["name"%string; "pos"%string; "option"%string; "rotate"%string; "font"%string; "justify"%string; "maxlen"%string; "maxheight"%string; "repeat"%string; "incrx"%string; "incry"%string; "incrlabel"%string; "comment"%string].
Proof. ign TbText_from TbText_step (S O). Qed.
Lemma TbText_win : last_wins TbText_from 1 ["name"%string; "pos"%string; "option"%string; "rotate"%string; "font"%string; "justify"%string; "maxlen"%string; "maxheight"%string; "repeat"%string; "incrx"%string; "incry"%string; "incrlabel"%string; "comment"%string].
Proof. wins TbText_from TbText_step (S O). Qed.
Global Opaque TbText_from TbText_tree TbText_to TbText_norm TbText_ok TbText_eqb.

Lemma Bitmap_fold l : forall acc, foldM Bitmap_data acc (map (fun d => node "data" [d]) l) = Ok (acc ++ l).
Proof.
  induction l as [|x l IH]; intros acc; cbn [map]; [cbn; now rewrite app_nil_r|].
  rewrite foldM_cons. change (Bitmap_data acc (node "data" [x])) with (Ok (acc ++ [x])). cbn [bind]. rewrite IH, <- app_assoc. reflexivity. Qed.
Global Opaque Bitmap_data.
Lemma Bitmap_rd o : Bitmap_ok o = true -> Bitmap_from (Bitmap_tree o) = Ok o.
Proof.
  rd_start Bitmap_ok Bitmap_from Bitmap_tree Bitmap_step.
  match goal with H : forallb rawtxtb ?l = true |- _ => pose proof (Bitmap_fold l []) as F end. red_in F.
  match goal with Hst : ?st = Bitmap_step |- _ => rd_loop st Bitmap_step end.
Qed.
#[export] Hint Resolve Bitmap_rd : rd.
Lemma Bitmap_idem o : Bitmap_norm (Bitmap_norm o) = Bitmap_norm o.
Proof. idem Bitmap_norm. Qed.
#[export] Hint Rewrite Bitmap_idem : idem.
Lemma Bitmap_okn o : Bitmap_ok o = true -> Bitmap_ok (Bitmap_norm o) = true.
Proof. okn Bitmap_ok Bitmap_norm. Qed.
#[export] Hint Resolve Bitmap_okn : okn.
Lemma Bitmap_hd o : exists l, Bitmap_tree o = node "bitmap" l.
Proof. eexists. reflexivity. Qed.
#[export] Hint Resolve Bitmap_hd : hd.
Lemma Bitmap_same o : Bitmap_eqb o (Bitmap_norm o) = true.
Proof. same Bitmap_eqb Bitmap_norm. Qed.
#[export] Hint Resolve Bitmap_same : same.
Lemma Bitmap_rt : roundtrips Bitmap_to Bitmap_from Bitmap_ok Bitmap_norm Bitmap_eqb.
Proof. exact (rt_of _ _ _ Bitmap_tree _ _ Bitmap_wr Bitmap_rd Bitmap_same Bitmap_okn Bitmap_idem). Qed.
Lemma Bitmap_fmt : conforms Bitmap_to Bitmap_from Bitmap_ok Bitmap_norm Bitmap_tree.
Proof. exact (fmt_of _ _ _ _ _ Bitmap_wr Bitmap_rd). Qed.
Lemma Bitmap_ref : refuses Bitmap_from ["bitmap"%string].
Proof. refuse Bitmap_from. Qed.
Lemma Bitmap_ign : ignores Bitmap_from 0 ["name"%string; "pos"%string; "option"%string; "scale"%string; "repeat"%string; "incrx"%string; "incry"%string; "comment"%string; "pngdata"%string].
Proof. ign Bitmap_from Bitmap_step O. Qed.
Lemma Bitmap_win : last_wins Bitmap_from 0 ["name"%string; "pos"%string; "option"%string; "scale"%string; "repeat"%string; "incrx"%string; "incry"%string; "comment"%string].
Proof. wins Bitmap_from Bitmap_step O. Qed.
Global Opaque Bitmap_from Bitmap_tree Bitmap_to Bitmap_norm Bitmap_ok Bitmap_eqb.

Lemma Polygon_never o : Polygon_ok o = true -> False.
Proof. unfold Polygon_ok. rewrite andb_false_r. discriminate. Qed.
Lemma Polygon_wr o i n : Polygon_ok o = true -> Wr (Polygon_to o i n) (flat (Polygon_tree (Polygon_norm o))).
Proof. intros H. now apply Polygon_never in H. Qed.
Lemma Polygon_rd o : Polygon_ok o = true -> Polygon_from (Polygon_tree o) = Ok o.
Proof. intros H. now apply Polygon_never in H. Qed.
Lemma Polygon_okn o : Polygon_ok o = true -> Polygon_ok (Polygon_norm o) = true.
Proof. intros H. now apply Polygon_never in H. Qed.
#[export] Hint Resolve Polygon_wr : wr.
#[export] Hint Resolve Polygon_okn : okn.
#[export] Hint Resolve Polygon_rd : rd.
Lemma Polygon_idem o : Polygon_norm (Polygon_norm o) = Polygon_norm o.
Proof. idem Polygon_norm. Qed.
#[export] Hint Rewrite Polygon_idem : idem.
Lemma Polygon_hd o : exists l, Polygon_tree o = node "polygon" l.
Proof. eexists. reflexivity. Qed.
#[export] Hint Resolve Polygon_hd : hd.
Lemma Polygon_same o : Polygon_eqb o (Polygon_norm o) = true.
Proof. same Polygon_eqb Polygon_norm. Qed.
#[export] Hint Resolve Polygon_same : same.
Global Opaque Polygon_from Polygon_tree Polygon_to Polygon_norm Polygon_ok Polygon_eqb.

#[export] Hint Extern 1 (IsUnion WkItem) => exact I : union.
Lemma WkItem_wr o i n : WkItem_ok o = true -> Wr (WkItem_to o i n) (flat (WkItem_tree (WkItem_norm o))).
Proof. destruct o; cbn [WkItem_to WkItem_ok WkItem_tree WkItem_norm]; try discriminate; eauto 2 with wr. Qed.
#[export] Hint Resolve WkItem_wr : wr.
Lemma WkItem_idem o : WkItem_norm (WkItem_norm o) = WkItem_norm o.
Proof. destruct o; cbn [WkItem_norm]; autorewrite with idem; reflexivity. Qed.
#[export] Hint Rewrite WkItem_idem : idem.
Lemma WkItem_okn o : WkItem_ok o = true -> WkItem_ok (WkItem_norm o) = true.
Proof. destruct o; cbn [WkItem_norm WkItem_ok]; try discriminate; eauto 2 with okn. Qed.
#[export] Hint Resolve WkItem_okn : okn.
Lemma WkItem_same o : WkItem_eqb o (WkItem_norm o) = true.
Proof. destruct o; cbn [WkItem_norm WkItem_eqb]; eauto 2 with same. Qed.
#[export] Hint Resolve WkItem_same : same.
Global Arguments WkItem_tree : simpl never. Global Arguments WkItem_norm : simpl never. Global Arguments WkItem_ok : simpl never.
Global Arguments WkItem_to : simpl never. Global Arguments WkItem_eqb : simpl never.

Lemma WorkSheet_wr o i n : WorkSheet_ok o = true -> Wr (WorkSheet_to o i n) (flat (WorkSheet_tree (WorkSheet_norm o))).
Proof. wr WorkSheet_to WorkSheet_ok WorkSheet_tree WorkSheet_norm. Qed.
#[export] Hint Resolve WorkSheet_wr : wr.
Lemma WorkSheet_idem o : WorkSheet_norm (WorkSheet_norm o) = WorkSheet_norm o.
Proof. idem WorkSheet_norm. Qed.
#[export] Hint Rewrite WorkSheet_idem : idem.
Lemma WorkSheet_okn o : WorkSheet_ok o = true -> WorkSheet_ok (WorkSheet_norm o) = true.
Proof. okn WorkSheet_ok WorkSheet_norm. Qed.
#[export] Hint Resolve WorkSheet_okn : okn.
Lemma WorkSheet_hd o : exists l, WorkSheet_tree o = node "kicad_wks" l.
Proof. eexists. reflexivity. Qed.
#[export] Hint Resolve WorkSheet_hd : hd.
Lemma WorkSheet_rd o : WorkSheet_ok o = true -> WorkSheet_from (WorkSheet_tree o) = Ok o.
Proof. rd WorkSheet_ok WorkSheet_from WorkSheet_tree WorkSheet_step. Qed.
#[export] Hint Resolve WorkSheet_rd : rd.
Lemma WorkSheet_same o : WorkSheet_eqb o (WorkSheet_norm o) = true.
Proof. same WorkSheet_eqb WorkSheet_norm. Qed.
#[export] Hint Resolve WorkSheet_same : same.
Lemma WorkSheet_rt : roundtrips WorkSheet_to WorkSheet_from WorkSheet_ok WorkSheet_norm WorkSheet_eqb.
Proof. exact (rt_of _ _ _ WorkSheet_tree _ _ WorkSheet_wr WorkSheet_rd WorkSheet_same WorkSheet_okn WorkSheet_idem). Qed.
Lemma WorkSheet_fmt : conforms WorkSheet_to WorkSheet_from WorkSheet_ok WorkSheet_norm WorkSheet_tree.
Proof. exact (fmt_of _ _ _ _ _ WorkSheet_wr WorkSheet_rd). Qed.
Lemma WorkSheet_ref : refuses WorkSheet_from ["kicad_wks"%string].
Proof. refuse WorkSheet_from. Qed.
Lemma WorkSheet_ign : ignores WorkSheet_from 0 ["version"%string; "generator"%string; "setup"%string; "rect"%string; "line"%string; "polygon"%string; "tbtext"%string; "bitmap"%string].
Proof. ign WorkSheet_from WorkSheet_step O. Qed.
Lemma WorkSheet_win : last_wins WorkSheet_from 0 ["version"%string; "generator"%string; "setup"%string].
Proof. wins WorkSheet_from WorkSheet_step O. Qed.
Global Opaque WorkSheet_from WorkSheet_tree WorkSheet_to WorkSheet_norm WorkSheet_ok WorkSheet_eqb.


(** ** A new work sheet *)
#[local] Transparent WorkSheet_to.
Lemma WorkSheet_version o i n : wk_version o = VStr $"20211014" -> WorkSheet_to o i n = WorkSheet_to (o <| wk_version := VInt 20211014 |>) i n.
Proof. intros E. destruct o. cbn in E. subst. reflexivity. Qed.
#[local] Opaque WorkSheet_to.
Lemma WorkSheet_version_rt o i n : wk_version o = VStr $"20211014" -> WorkSheet_ok (o <| wk_version := VInt 20211014 |>) = true ->
  write_read WorkSheet_to WorkSheet_from o i n = Ok (WorkSheet_norm (o <| wk_version := VInt 20211014 |>)).
Proof. intros E H. apply (rt_as _ _ _ _ _ o _ i n WorkSheet_rt); [|exact H]. now apply WorkSheet_version. Qed.
#[local] Transparent WorkSheet_ok Setup_ok TextSize_ok.
Lemma WorkSheet_new_ok : WorkSheet_ok (WorkSheet_create_new <| wk_version := VInt 20211014 |>) = true.
Proof. vm_compute. reflexivity. Qed.
#[local] Opaque WorkSheet_ok Setup_ok TextSize_ok.
Lemma WorkSheet_new_rt i n : exists o', write_read WorkSheet_to WorkSheet_from WorkSheet_create_new i n = Ok o'
  /\ WorkSheet_eqb (WorkSheet_create_new <| wk_version := VInt 20211014 |>) o' = true.
Proof. eexists. split; [apply WorkSheet_version_rt; [reflexivity|exact WorkSheet_new_ok]|apply WorkSheet_same]. Qed.
(** ** Polygons *)
#[local] Transparent WorkSheet_from WorkSheet_to Polygon_from Polygon_to.
Lemma WorkSheet_polygon before args after : exists e, WorkSheet_from (node "kicad_wks" (before ++ node "polygon" args :: after)) = Err e.
Proof. unfold WorkSheet_from, need_head, need_list; cbn [bind at_ nth_error skipn]. apply (fold_fails _ _ ENotImplemented). reflexivity. Qed.
Lemma concatM_fails {A} (f : A -> res str) x e l : f x = Err e -> In x l -> exists e', concatM f l = Err e'.
Proof.
  intros H. induction l as [|y l IH]; intros Hl; [destruct Hl|]. cbn [concatM]. destruct Hl as [<-|Hl].
  - rewrite H. eexists. reflexivity.
  - destruct (IH Hl) as [e' E]. destruct (f y); [cbn [bind]; rewrite E|]; eexists; reflexivity.
Qed.
Lemma WorkSheet_polygon_to o p i n : In (WkItem_Polygon p) (wk_drawingObjects o) -> exists e, WorkSheet_to o i n = Err e.
Proof.
  intros H. unfold WorkSheet_to. destruct (Setup_to (wk_setup o) (i + 2) true); [|eexists; reflexivity]. cbn [bind].
  destruct (concatM_fails (fun x => WkItem_to x (i + 2) true) (WkItem_Polygon p) ENotImplemented _ eq_refl H) as [e E]. rewrite E. eexists. reflexivity.
Qed.
#[local] Opaque WorkSheet_from WorkSheet_to Polygon_from Polygon_to.
(** ** An empty justification *)
#[local] Transparent TbText_to TbText_tree TbText_norm TbText_ok WksPosition_ok wpos_tree WksPosition_norm Justify_to.
Lemma TbText_justify_wr o i n : TbText_ok (o <| tt_justify := None |>) = true -> tt_justify o = Some Justify_default ->
  Wr (TbText_to o i n) (flat (TbText_tree (TbText_norm (o <| tt_justify := None |>)))).
Proof.
  intros H J. destruct o as [a1 a2 a3 a4 a5 a6 a7 a8 a9 b1 b2 b3 b4 b5]. cbn in J. subst a7. unfold TbText_ok in H; cbn in H; facts.
  repeat match goal with P : WksPosition_ok _ = true |- _ => unfold WksPosition_ok in P; facts end;
  unfold TbText_to, wks_pos. cbn [tt_text tt_name tt_position tt_option tt_rotate tt_font tt_justify tt_maxlen tt_maxheight tt_repeat tt_incrx tt_incry tt_incrlabel tt_comment].
  change (opt_str (Some Justify_default) (fun j => let! s := Justify_to j 0 false in Ok ($" " ++ s))) with (@Ok str $" "). cbn [bind].
  eapply Wr_eq; [wr_go|]. unfold TbText_tree, TbText_norm, wpos_tree, WksPosition_norm; cbn; rewrite WksFont_empty_norm; unfold opto; cbn [app]; tpeel.
Qed.
#[local] Opaque TbText_to TbText_tree TbText_norm TbText_ok WksPosition_ok wpos_tree WksPosition_norm Justify_to.
Lemma TbText_justify o i n : TbText_ok (o <| tt_justify := None |>) = true -> tt_justify o = Some Justify_default ->
  write_read TbText_to TbText_from o i n = Ok (TbText_norm (o <| tt_justify := None |>)).
Proof.
  intros H J. pose proof (TbText_justify_wr o i n H J) as W.
  rewrite (wr_read _ TbText_from _ _ _ _ W). apply TbText_rd. now apply TbText_okn.
Qed.
#[local] Transparent WksPosition_from.
Lemma WksPosition_shape exp o : WksPosition_from exp = Ok o -> exists h x y rest, exp = VList (h :: x :: y :: rest).
Proof.
  unfold WksPosition_from, need_list. destruct exp as [| | | | |l]; try discriminate. cbn [bind]. destruct l as [|h [|x [|y r]]]; try discriminate.
  intros _. repeat eexists.
Qed.
