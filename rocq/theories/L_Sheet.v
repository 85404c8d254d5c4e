(** Proofs about hierarchical sheets (items/schitems.py:1338-1465). *)
From Verif Require Import PyBase PyNum PyStr PyRe Sexpr S_Leaf S_Tree S_Id S_Fix M_Common S_Common M_Sym S_Sym M_Footprint S_Footprint M_Sch S_Sch
  L_Lex L_Tok L_Num L_Seq L_Parse L_Tac L_Common L_Fp L_Gr L_Zone L_Pad L_Dim L_Fix L_Sch.

#[local] Transparent ColorRGBA_to ColorRGBA_from ColorRGBA_tree ColorRGBA_norm.
Lemma fill4_wr c i n : fill4_ok c = true -> Wr (ColorRGBA_to c i n) (flat (ColorRGBA_tree (ColorRGBA_norm c))).
Proof.
  intros H. unfold fill4_ok in H. andbs. destruct (ca_precision c) as [| |p| | |] eqn:P; try discriminate.
  match goal with E : Z.eqb p 4 = true |- _ => apply Z.eqb_eq in E; subst p end.
  destruct (Seq_fixb 4 (ca_A c)) as (s & Es & Hs); [reflexivity|assumption|].
  unfold ColorRGBA_to, ColorRGBA_alpha. rewrite P. change (4 <? 0)%Z with false. cbv iota. rewrite Es. cbn [bind].
  eapply Wr_eq; [wr_go|unfold ColorRGBA_tree, ColorRGBA_norm; cbn; tpeel].
Qed.
#[export] Hint Resolve fill4_wr : wr.
Lemma fill4_okn c : fill4_ok c = true -> fill4_ok (ColorRGBA_norm c) = true.
Proof.
  intros H. unfold fill4_ok in *. andbs. destruct c as [r g b a p]. cbn [ColorRGBA_norm ca_R ca_G ca_B ca_A ca_precision] in *.
  rewrite !numb_nrm, (fixb_nrm 4) by first [assumption|discriminate]. assumption.
Qed.
#[export] Hint Resolve fill4_okn : okn.
Lemma fill4_rd c : fill4_ok c = true -> (let! c := ColorRGBA_from (ColorRGBA_tree c) in Ok (c <| ca_precision := VInt 4 |>)) = Ok c.
Proof.
  intros H. unfold fill4_ok in *. andbs. destruct c as [r g b a p]. cbn [ca_R ca_G ca_B ca_A ca_precision] in *.
  destruct p as [| |p| | |]; try discriminate. match goal with E : Z.eqb p 4 = true |- _ => apply Z.eqb_eq in E; subst p end. reflexivity.
Qed.
#[local] Opaque ColorRGBA_to ColorRGBA_from ColorRGBA_tree ColorRGBA_norm.
(** whatever the colour is written as *)
Lemma HierarchicalSheet_wr_fill o c i n : HierarchicalSheet_ok (o <| hs_fill := c |>) = true -> Wr (ColorRGBA_to (hs_fill o) 0 false) (flat (ColorRGBA_tree (ColorRGBA_norm c))) ->
  Wr (HierarchicalSheet_to o i n) (flat (HierarchicalSheet_tree (HierarchicalSheet_norm (o <| hs_fill := c |>)))).
Proof.
  intros H (s & Es & Hs). unfold HierarchicalSheet_ok in H. cbn in H. facts. unfold HierarchicalSheet_to. rewrite Es. cbn [bind].
  eapply Wr_eq; [wr_go|unfold HierarchicalSheet_tree, HierarchicalSheet_norm; cbn; rewrite ?if_nil, map_length; tpeel].
Qed.
Lemma sheet_fill_self o : o <| hs_fill := hs_fill o |> = o.
Proof. now destruct o. Qed.
Lemma HierarchicalSheet_wr o i n : HierarchicalSheet_ok o = true -> Wr (HierarchicalSheet_to o i n) (flat (HierarchicalSheet_tree (HierarchicalSheet_norm o))).
Proof.
  intros H. pose proof (HierarchicalSheet_wr_fill o (hs_fill o) i n) as W. rewrite sheet_fill_self in W. apply (W H). apply fill4_wr.
  unfold HierarchicalSheet_ok in H. andbs. assumption.
Qed.
#[export] Hint Resolve HierarchicalSheet_wr : wr.
#[local] Transparent Property_tree.
Lemma Property_at0 p : at_ (Property_tree p) 0 = Ok (VStr $"property").
Proof. reflexivity. Qed.
Lemma Property_at1 p : at_ (Property_tree p) 1 = Ok (pr_key p).
Proof. reflexivity. Qed.
#[local] Opaque Property_tree.
Lemma sheet_prop p o : Property_ok p = true -> HierarchicalSheet_property (Property_tree p) o =
  Ok (if name_key (pr_key p) then o <| hs_sheetName := p |> else if file_key (pr_key p) then o <| hs_fileName := p |>
      else o <| hs_properties := hs_properties o ++ [p] |>).
Proof.
  intros H. unfold HierarchicalSheet_property. rewrite (Property_rd p H), Property_at1. cbn [bind].
  unfold name_key, file_key. destruct (_ || _); [reflexivity|]. destruct (_ || _); reflexivity.
Qed.
Lemma sheet_prop_name p o : Property_ok p = true -> name_key (pr_key p) = true -> HierarchicalSheet_property (Property_tree p) o = Ok (o <| hs_sheetName := p |>).
Proof. intros H K. now rewrite (sheet_prop p o H), K. Qed.
Lemma key_excl v : file_key v = true -> name_key v = false.
Proof. unfold file_key, name_key. intros H. apply orb_prop in H as [H|H]; apply is_str_eq in H; subst v; reflexivity. Qed.
Lemma sheet_prop_file p o : Property_ok p = true -> file_key (pr_key p) = true -> HierarchicalSheet_property (Property_tree p) o = Ok (o <| hs_fileName := p |>).
Proof. intros H K. now rewrite (sheet_prop p o H), (key_excl _ K), K. Qed.
Lemma sheet_prop_other p o : Property_ok p = true -> other_key p = true -> HierarchicalSheet_property (Property_tree p) o = Ok (o <| hs_properties := hs_properties o ++ [p] |>).
Proof.
  intros H K. rewrite (sheet_prop p o H). unfold other_key in K. apply negb_true_iff, orb_false_elim in K as [-> ->]. reflexivity.
Qed.
Global Opaque HierarchicalSheet_property.
Ltac ev_sub ::=
  first [
    solve [match goal with |- context [at_ (Property_tree ?p) 0] =>
      rewrite (Property_at0 p); red_step; first [rewrite sheet_prop_other by assumption | rewrite sheet_prop_file by assumption | rewrite sheet_prop_name by assumption]; red_step; reflexivity end]
  | try match goal with |- context [at_ ?x 0] => sub_tree x end;
    leaf_tests; red_step; ev_more; try match goal with E : mkColorRGBA _ _ _ _ _ = _ |- _ => red_in E; rewrite E end; reflexivity ].
#[local] Transparent ColorRGBA_from ColorRGBA_tree.
Lemma fill4_from c : ColorRGBA_from (ColorRGBA_tree c) = Ok (mkColorRGBA (ca_R c) (ca_G c) (ca_B c) (ca_A c) VNone).
Proof. reflexivity. Qed.
#[local] Opaque ColorRGBA_from ColorRGBA_tree.
Lemma fill4_eta c : fill4_ok c = true -> mkColorRGBA (ca_R c) (ca_G c) (ca_B c) (ca_A c) (VInt 4) = c.
Proof.
  intros H. unfold fill4_ok in *. andbs. destruct c as [r g b a p]. cbn [ca_R ca_G ca_B ca_A ca_precision] in *.
  destruct p as [| |p| | |]; try discriminate. match goal with E : Z.eqb p 4 = true |- _ => apply Z.eqb_eq in E; subst p end. reflexivity.
Qed.
Lemma HierarchicalSheet_rd o : HierarchicalSheet_ok o = true -> HierarchicalSheet_from (HierarchicalSheet_tree o) = Ok o.
Proof.
  intros H. destruct o as [p w h f s c u sn fn ps pi is]. unfold HierarchicalSheet_ok in H. cbn in H. facts0.
  pose proof (fill4_from c) as R. pose proof (fill4_eta c ltac:(assumption)) as E.
  match goal with K : sheet_keys_ok _ _ _ = true |- _ => unfold sheet_keys_ok in K; andbs end.
  unfold HierarchicalSheet_from, HierarchicalSheet_tree. rd_post HierarchicalSheet_step.
  rd_loop st HierarchicalSheet_step.
Qed.
#[export] Hint Resolve HierarchicalSheet_rd : rd.
#[local] Transparent Property_norm.
Lemma Property_key_norm p : pr_key (Property_norm p) = pr_key p.
Proof. reflexivity. Qed.
#[local] Opaque Property_norm.
Lemma sheet_keys_okn a b l : sheet_keys_ok a b l = true -> sheet_keys_ok (Property_norm a) (Property_norm b) (map Property_norm l) = true.
Proof.
  unfold sheet_keys_ok. rewrite !Property_key_norm. intros H. andbs. rewrite H, H1. cbn [andb].
  apply forallb_map_ok; [|assumption]. intros x. unfold other_key. now rewrite Property_key_norm.
Qed.
#[export] Hint Resolve sheet_keys_okn : okn.
Lemma HierarchicalSheet_idem o : HierarchicalSheet_norm (HierarchicalSheet_norm o) = HierarchicalSheet_norm o.
Proof. idem HierarchicalSheet_norm. Qed.
#[export] Hint Rewrite HierarchicalSheet_idem : idem.
Lemma HierarchicalSheet_okn o : HierarchicalSheet_ok o = true -> HierarchicalSheet_ok (HierarchicalSheet_norm o) = true.
Proof. okn HierarchicalSheet_ok HierarchicalSheet_norm. Qed.
#[export] Hint Resolve HierarchicalSheet_okn : okn.
Lemma HierarchicalSheet_hd o : exists l, HierarchicalSheet_tree o = node "sheet" l.
Proof. eexists. reflexivity. Qed.
#[export] Hint Resolve HierarchicalSheet_hd : hd.
Lemma HierarchicalSheet_same o : HierarchicalSheet_eqb o (HierarchicalSheet_norm o) = true.
Proof. same HierarchicalSheet_eqb HierarchicalSheet_norm. Qed.
#[export] Hint Resolve HierarchicalSheet_same : same.
Lemma HierarchicalSheet_rt : roundtrips HierarchicalSheet_to HierarchicalSheet_from HierarchicalSheet_ok HierarchicalSheet_norm HierarchicalSheet_eqb.
Proof. exact (rt_of _ _ _ HierarchicalSheet_tree _ _ HierarchicalSheet_wr HierarchicalSheet_rd HierarchicalSheet_same HierarchicalSheet_okn HierarchicalSheet_idem). Qed.
Lemma HierarchicalSheet_fmt : conforms HierarchicalSheet_to HierarchicalSheet_from HierarchicalSheet_ok HierarchicalSheet_norm HierarchicalSheet_tree.
Proof. exact (fmt_of _ _ _ _ _ HierarchicalSheet_wr HierarchicalSheet_rd). Qed.
Lemma HierarchicalSheet_ref : refuses HierarchicalSheet_from ["sheet"%string].
Proof. refuse HierarchicalSheet_from. Qed.
Lemma HierarchicalSheet_ign : ignores HierarchicalSheet_from 0 ["fields_autoplaced"%string; "at"%string; "stroke"%string; "size"%string; "fill"%string; "uuid"%string; "property"%string; "pin"%string; "instances"%string].
Proof. ign HierarchicalSheet_from HierarchicalSheet_step O. Qed.
Lemma HierarchicalSheet_win : last_wins HierarchicalSheet_from 0 ["fields_autoplaced"%string; "at"%string; "stroke"%string; "fill"%string; "uuid"%string].
Proof. wins HierarchicalSheet_from HierarchicalSheet_step O. Qed.
Global Opaque HierarchicalSheet_from HierarchicalSheet_tree HierarchicalSheet_to HierarchicalSheet_norm HierarchicalSheet_ok HierarchicalSheet_eqb.


#[local] Transparent ColorRGBA_to ColorRGBA_tree ColorRGBA_norm ColorRGBA_ok HierarchicalSheet_ok.
Lemma ok_fill o c : HierarchicalSheet_ok (o <| hs_fill := c |>) = true -> fill4_ok c = true.
Proof. intros H. unfold HierarchicalSheet_ok in H. andbs. assumption. Qed.
#[local] Opaque HierarchicalSheet_ok.
Lemma fill4_num c : fill4_ok c = true -> ColorRGBA_ok (c <| ca_precision := VNone |>) = true.
Proof.
  unfold fill4_ok, ColorRGBA_ok. intros H. andbs. destruct c as [r g b a p]. cbn in *.
  repeat match goal with E : ?x = true |- context [?x] => rewrite E end. cbn [andb]. rewrite (fixb_numb 4) by assumption. reflexivity.
Qed.
#[local] Opaque ColorRGBA_ok.
(** without a precision *)
Lemma Sheet_no_precision o i n : ca_precision (hs_fill o) = VNone -> HierarchicalSheet_ok (o <| hs_fill := hs_fill o <| ca_precision := VInt 4 |> |>) = true ->
  write_read HierarchicalSheet_to HierarchicalSheet_from o i n = Ok (HierarchicalSheet_norm (o <| hs_fill := hs_fill o <| ca_precision := VInt 4 |> |>)).
Proof.
  intros P H. assert (W : Wr (ColorRGBA_to (hs_fill o) 0 false) (flat (ColorRGBA_tree (ColorRGBA_norm (hs_fill o <| ca_precision := VInt 4 |>)))));
    [|rewrite (wr_read _ _ _ _ _ _ (HierarchicalSheet_wr_fill o _ i n H W)); apply HierarchicalSheet_rd, HierarchicalSheet_okn, H].
  pose proof (fill4_num _ (ok_fill _ _ H)) as F. pose proof (ColorRGBA_wr _ 0 false F) as W.
  destruct (hs_fill o) as [r g b a p]. cbn in *. subst p. exact W.
Qed.
#[local] Transparent fixed_val.
Lemma fixed_nrm prec v : finite v = true -> nrm (fixed_val prec v) = fixed_val prec v.
Proof.
  intros H. unfold fixed_val. destruct (float_of v) as [? m e|] eqn:F; [destruct (dbl_ratio m e); apply nrm_idem|].
  destruct v; try discriminate; cbn in *; [reflexivity|subst; discriminate].
Qed.
#[local] Opaque fixed_val.
(** alpha with more than four decimals *)
Lemma fill4_cut c i n : numb (ca_R c) = true -> numb (ca_G c) = true -> numb (ca_B c) = true -> finite (ca_A c) = true -> ca_precision c = VInt 4 ->
  Wr (ColorRGBA_to c i n) (flat (ColorRGBA_tree (ColorRGBA_norm (c <| ca_A := fixed_val 4 (ca_A c) |>)))).
Proof.
  intros Hr Hg Hb Ha P. destruct (Seq_fixed 4 (ca_A c)) as (s & Es & Hs); [reflexivity|assumption|].
  unfold ColorRGBA_to, ColorRGBA_alpha. rewrite P. change (4 <? 0)%Z with false. cbv iota. rewrite Es. cbn [bind].
  pose proof (fixed_nrm 4 (ca_A c) Ha) as N.
  rewrite <- N in Hs.
  eapply Wr_eq; [wr_go|unfold ColorRGBA_tree, ColorRGBA_norm; cbn; tpeel].
Qed.
Lemma Sheet_alpha o i n : let c := hs_fill o <| ca_A := fixed_val 4 (ca_A (hs_fill o)) |> in
  finite (ca_A (hs_fill o)) = true -> HierarchicalSheet_ok (o <| hs_fill := c |>) = true ->
  write_read HierarchicalSheet_to HierarchicalSheet_from o i n = Ok (HierarchicalSheet_norm (o <| hs_fill := c |>)).
Proof.
  intros c F H. assert (W : Wr (ColorRGBA_to (hs_fill o) 0 false) (flat (ColorRGBA_tree (ColorRGBA_norm c))));
    [|rewrite (wr_read _ _ _ _ _ _ (HierarchicalSheet_wr_fill o _ i n H W)); apply HierarchicalSheet_rd, HierarchicalSheet_okn, H].
  apply ok_fill in H. unfold fill4_ok in H. subst c. destruct (hs_fill o) as [r g b a p]. cbn in *. andbs.
  destruct p as [| |p| | |]; try discriminate. match goal with E : Z.eqb p 4 = true |- _ => apply Z.eqb_eq in E; subst p end.
  now apply (fill4_cut (mkColorRGBA r g b a (VInt 4))).
Qed.
#[local] Transparent HierarchicalSheet_eqb HierarchicalSheet_norm ColorRGBA_eqb.
Lemma Sheet_precision_ne o : ca_precision (hs_fill o) = VNone -> HierarchicalSheet_eqb o (HierarchicalSheet_norm (o <| hs_fill := hs_fill o <| ca_precision := VInt 4 |> |>)) = false.
Proof.
  intros P. unfold HierarchicalSheet_eqb. cbn [HierarchicalSheet_norm hs_fill].
  match goal with |- context [ColorRGBA_eqb ?a ?b] => assert (E : ColorRGBA_eqb a b = false) end.
  { unfold ColorRGBA_eqb, ColorRGBA_norm. cbn. rewrite P. cbn [py_eqb]. now rewrite !andb_false_r. }
  rewrite E, !andb_false_r. reflexivity.
Qed.
