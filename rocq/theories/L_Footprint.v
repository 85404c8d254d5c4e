(** Round trip lemmas for footprint.py: the footprint itself. *)
From Verif Require Import PyBase PyNum PyStr PyRe Sexpr S_Leaf S_Tree S_Id M_Common S_Common M_Sym S_Sym M_Fp S_Fp M_Gr S_Gr M_Zone S_Zone M_Footprint S_Footprint
  L_Lex L_Tok L_Num L_Seq L_Tac L_Common L_Sym L_Id L_SymId L_Fp L_Gr L_Zone L_Pad.

#[export] Hint Extern 1 (IsUnion FpItem) => exact I : union.
Lemma FpItem_wr o i n : FpItem_ok o = true -> Wr (FpItem_to o i n) (flat (FpItem_tree (FpItem_norm o))).
Proof. destruct o; cbn [FpItem_to FpItem_ok FpItem_tree FpItem_norm]; try discriminate; eauto 2 with wr. Qed.
#[export] Hint Resolve FpItem_wr : wr.
Lemma FpItem_idem o : FpItem_norm (FpItem_norm o) = FpItem_norm o.
Proof. destruct o; cbn [FpItem_norm]; autorewrite with idem; reflexivity. Qed.
#[export] Hint Rewrite FpItem_idem : idem.
Lemma FpItem_okn o : FpItem_ok o = true -> FpItem_ok (FpItem_norm o) = true.
Proof. destruct o; cbn [FpItem_norm FpItem_ok]; try discriminate; eauto 2 with okn. Qed.
#[export] Hint Resolve FpItem_okn : okn.
Lemma FpItem_same o : FpItem_eqb o (FpItem_norm o) = true.
Proof. destruct o; cbn [FpItem_norm FpItem_eqb]; eauto 2 with same. Qed.
#[export] Hint Resolve FpItem_same : same.
Global Arguments FpItem_tree : simpl never. Global Arguments FpItem_norm : simpl never. Global Arguments FpItem_ok : simpl never.
Global Arguments FpItem_to : simpl never. Global Arguments FpItem_eqb : simpl never.

(** the identifier *)
Lemma fp_id_text n e o : fd_libraryNickname o = n -> fd_entryName o = e -> fp_id_ok n e = true -> Footprint_libId o = fp_id n e.
Proof.
  unfold Footprint_libId. intros -> ->. destruct n as [| | | |n|], e as [| | | |e|]; try discriminate; intros H; [reflexivity|].
  cbn in H. andbs. destruct n; [discriminate|]. reflexivity.
Qed.
Lemma fp_id_quotable n e : fp_id_ok n e = true -> txtb (VStr (fp_id n e)) = true.
Proof.
  destruct n as [| | | |n|], e as [| | | |e|]; try discriminate; cbn [fp_id_ok fp_id txtb]; intros H; unfold txtb; andbs; [assumption|].
  rewrite app_assoc, quotable_tail; [assumption|]. now destruct e.
Qed.
Lemma set_nick s n e t o : nick_form s n e t ->
  Footprint_set_libId (VStr s) o = o <| fd_libraryNickname := VStr n |> <| fd_entryName := VStr e |>.
Proof. intros F. unfold Footprint_set_libId. cbn [fmt]. now destruct (nick_complete _ _ _ _ F) as (m & -> & -> & ->). Qed.
Lemma set_entry s o : (forall n e t, ~ nick_form s n e t) ->
  Footprint_set_libId (VStr s) o = o <| fd_libraryNickname := VNone |> <| fd_entryName := VStr s |>.
Proof. intros F. unfold Footprint_set_libId. cbn [fmt]. now rewrite (proj2 (nick_none s) F). Qed.
Lemma fp_id_read n e o : fp_id_ok n e = true ->
  Footprint_set_libId (VStr (fp_id n e)) o = o <| fd_libraryNickname := n |> <| fd_entryName := e |>.
Proof.
  destruct n as [| | | |n|], e as [| | | |e|]; try discriminate; cbn [fp_id_ok fp_id]; intros H; andbs.
  - apply set_entry. now apply inner_colon_no.
  - apply (set_nick _ n e []). repeat split; auto; try (now left); rewrite ?app_nil_r; try reflexivity; [now destruct n|now destruct e].
Qed.
Global Opaque Footprint_set_libId.
(** a dictionary of texts *)
Lemma fold_text_dict {R} (mk : list (val * val) -> R) step (t : val * val -> val) d :
  text_dict_ok d = true ->
  (forall acc kv, In kv d -> is_list (fst kv) = false -> step (mk acc) (t kv) = Ok (mk (dict_put acc (fst kv) (snd kv)))) ->
  foldM step (mk []) (map t d) = Ok (mk d).
Proof.
  unfold text_dict_ok. intros H Hs. apply andb_prop in H as [H1 H2].
  enough (G : forall acc, dict_keys_ok (acc ++ d) = true -> foldM step (mk acc) (map t d) = Ok (mk (acc ++ d))) by (now apply G).
  clear H2. induction d as [|[k v] d IH]; intros acc Ha; [now rewrite app_nil_r|]. cbn [map]. rewrite foldM_cons.
  cbn [forallb fst snd] in H1. andbs.
  rewrite Hs; [|now left|now apply txtb_leaf]. cbn [bind fst snd].
  rewrite dict_put_new by (eapply dict_keys_mid; exact Ha).
  rewrite IH; [now rewrite <- app_assoc|assumption| |now rewrite <- app_assoc].
  intros acc' kv Hin. apply Hs. now right.
Qed.
Lemma Footprint_wr_layer b o i n : Footprint_ok o = true -> Wr (Footprint_to_layer b o i n) (flat (Footprint_tree (Footprint_norm o))).
Proof.
  intros H. unfold Footprint_ok in H. unfold Footprint_to_layer. facts.
  match goal with Hid : fp_id_ok _ _ = true |- _ => rewrite (fp_id_text _ _ o eq_refl eq_refl Hid); pose proof (fp_id_quotable _ _ Hid) end.
  assert (P : text_dict_ok (fd_properties o) = true) by assumption. unfold text_dict_ok in P.
  destruct (fd_position o) as [p|] eqn:EP; opt_facts; facts; destruct b; (eapply Wr_eq; [wr_go|]); unfold Footprint_tree, Footprint_norm; cbn; rewrite EP, ?map_length, ?Attributes_norm_id; unfold opto; cbn [option_map]; tpeel.
Qed.
Lemma Footprint_wr o i n : Footprint_ok o = true -> Wr (Footprint_to o i n) (flat (Footprint_tree (Footprint_norm o))).
Proof. apply Footprint_wr_layer. Qed.
#[export] Hint Resolve Footprint_wr Footprint_wr_layer : wr.
Ltac rd_nil_more ::=
  try match goal with B : Attributes_empty ?v = true |- _ => is_var v; apply Attributes_empty_eq in B; subst v end.
Ltac rd_more st X_step ::=
  lazymatch goal with
  | H : text_dict_ok ?d = true |- foldM st _ (map ?t ?d) = Ok ?new =>
      let p := eval pattern d in new in
      lazymatch p with
      | ?mk _ =>
          let Hst := fresh in let Hk := fresh "Hk" in
          refine (fold_text_dict mk st t d H _); intros ? [? ?] _ Hk; cbn [fst snd] in *; cbv beta;
          match goal with E : st = X_step |- _ => rewrite E end; unfold X_step; red_step; unfold dict_set; rewrite Hk; reflexivity
      end
  end.
Lemma Footprint_from_node now id l : Footprint_from now (node "footprint" (id :: l)) = foldM Footprint_step (Footprint_set_libId id (Footprint_default now)) l.
Proof. reflexivity. Qed.
Lemma Footprint_rd now o : Footprint_ok o = true -> Footprint_from now (Footprint_tree o) = Ok o.
Proof.
  intros H. destruct o. unfold Footprint_ok in H. cbn in H. facts0. fixed_subst. unfold Footprint_tree.
  etransitivity; [exact (Footprint_from_node now _ _)|].
  rewrite fp_id_read by assumption.
  rd_post Footprint_step.
  rd_loop st Footprint_step.
Qed.
#[export] Hint Resolve Footprint_rd : rd.
Lemma Footprint_idem o : Footprint_norm (Footprint_norm o) = Footprint_norm o.
Proof. idem Footprint_norm. Qed.
#[export] Hint Rewrite Footprint_idem : idem.
Lemma Footprint_okn o : Footprint_ok o = true -> Footprint_ok (Footprint_norm o) = true.
Proof. okn Footprint_ok Footprint_norm. Qed.
#[export] Hint Resolve Footprint_okn : okn.
Lemma Footprint_hd o : exists l, Footprint_tree o = node "footprint" l.
Proof. eexists. reflexivity. Qed.
#[export] Hint Resolve Footprint_hd : hd.
Lemma Footprint_same o : Footprint_eqb o (Footprint_norm o) = true.
Proof. same Footprint_eqb Footprint_norm. Qed.
#[export] Hint Resolve Footprint_same : same.
Lemma Footprint_rt now : roundtrips Footprint_to (Footprint_from now) Footprint_ok Footprint_norm Footprint_eqb.
Proof. exact (rt_of _ _ _ Footprint_tree _ _ Footprint_wr (Footprint_rd now) Footprint_same Footprint_okn Footprint_idem). Qed.
Lemma Footprint_fmt now : conforms Footprint_to (Footprint_from now) Footprint_ok Footprint_norm Footprint_tree.
Proof. exact (fmt_of _ _ _ _ _ Footprint_wr (Footprint_rd now)). Qed.
Lemma Footprint_ref now : refuses (Footprint_from now) ["module"%string; "footprint"%string].
Proof. refuse Footprint_from. Qed.
Lemma Footprint_ign now : ignores (Footprint_from now) 1 ["version"%string; "generator"%string; "layer"%string; "tedit"%string; "tstamp"%string; "descr"%string; "tags"%string; "path"%string; "at"%string; "autoplace_cost90"%string; "autoplace_cost180"%string; "solder_mask_margin"%string; "solder_paste_margin"%string; "solder_paste_ratio"%string; "clearance"%string; "zone_connect"%string; "thermal_width"%string; "thermal_gap"%string; "attr"%string; "model"%string; "fp_text"%string; "fp_text_box"%string; "fp_line"%string; "fp_rect"%string; "fp_circle"%string; "fp_arc"%string; "fp_poly"%string; "fp_curve"%string; "image"%string; "pad"%string; "zone"%string; "property"%string; "group"%string; "private_layers"%string; "net_tie_pad_groups"%string; "dimension"%string].
Proof. ign Footprint_from Footprint_step (S O). Qed.
Lemma Footprint_win now : last_wins (Footprint_from now) 1 ["version"%string; "generator"%string; "layer"%string; "tedit"%string; "tstamp"%string; "descr"%string; "tags"%string; "path"%string; "at"%string; "autoplace_cost90"%string; "autoplace_cost180"%string; "solder_mask_margin"%string; "solder_paste_margin"%string; "solder_paste_ratio"%string; "clearance"%string; "zone_connect"%string; "thermal_width"%string; "thermal_gap"%string; "attr"%string].
Proof. wins Footprint_from Footprint_step (S O). Qed.
Global Opaque Footprint_from Footprint_tree Footprint_to Footprint_norm Footprint_ok Footprint_eqb.


(** ** The identifier *)
#[local] Transparent Footprint_set_libId Footprint_to Footprint_from Footprint_ok Footprint_norm.
Lemma fp_set_nick v n e t o : nick_form (fmt v) n e t ->
  Footprint_set_libId v o = o <| fd_libraryNickname := VStr n |> <| fd_entryName := VStr e |>.
Proof. intros F. unfold Footprint_set_libId. now destruct (nick_complete _ _ _ _ F) as (m & -> & -> & ->). Qed.
Lemma fp_set_entry v o : (forall n e t, ~ nick_form (fmt v) n e t) ->
  Footprint_set_libId v o = o <| fd_libraryNickname := VNone |> <| fd_entryName := v |>.
Proof. intros F. unfold Footprint_set_libId. now rewrite (proj2 (nick_none (fmt v)) F). Qed.
Lemma nick_dec s : (exists n e t, nick_form s n e t) \/ (forall n e t, ~ nick_form s n e t).
Proof.
  destruct (re_match re_nick s) as [m|] eqn:E.
  - left. destruct (nick_sound _ _ E) as [t F]. eauto.
  - right. now apply nick_none.
Qed.
Lemma fp_get_nick o n e : n <> [] -> Footprint_libId (o <| fd_libraryNickname := VStr n |> <| fd_entryName := VStr e |>) = n ++ $":" ++ e.
Proof. intros H. destruct n; [congruence|]. reflexivity. Qed.
Lemma fp_set_get v o : Footprint_libId (Footprint_set_libId v o) = fmt v <-> forall n e, ~ nick_form (fmt v) n e nl.
Proof.
  destruct (nick_dec (fmt v)) as [(n & e & t & F)|N].
  - rewrite (fp_set_nick _ _ _ _ o F). pose proof F as (E & Hn & He & On & Oe & C & Ft). rewrite fp_get_nick by assumption. split.
    + intros G n' e' F'. destruct (nick_unique _ _ _ _ _ _ _ F F') as (<- & <- & ->). rewrite <- G in E.
      apply (f_equal (@length N)) in E. rewrite !app_length in E. cbn in E. lia.
    + intros G. destruct Ft as [->| ->]; [|destruct (G _ _ F)]. rewrite E, app_nil_r. reflexivity.
  - rewrite (fp_set_entry _ o N). split; [intros _ n e; apply N|]. intros _. destruct o. reflexivity.
Qed.
Lemma fp_set_lossy v n e o : nick_form (fmt v) n e nl -> Footprint_libId (Footprint_set_libId v o) = n ++ $":" ++ e.
Proof. intros F. rewrite (fp_set_nick _ _ _ _ o F). destruct F as (_ & Hn & _). now apply fp_get_nick. Qed.
Lemma fp_set_id_ok s o : oneline s = true -> quotableb s = true ->
  fp_id_ok (fd_libraryNickname (Footprint_set_libId (VStr s) o)) (fd_entryName (Footprint_set_libId (VStr s) o)) = true.
Proof.
  intros Ho Hq. destruct (nick_dec s) as [(n & e & t & F)|N].
  - rewrite (fp_set_nick (VStr s) _ _ _ o F). pose proof F as (E & Hn & He & On & Oe & C & Ft).
    change (fp_id_ok (VStr n) (VStr e) = true). cbn [fp_id_ok]. rewrite On, Oe, C.
    assert (t = []) by (destruct Ft as [->| ->]; [reflexivity|]; rewrite E, !oneline_app in Ho; cbn in Ho; rewrite !andb_false_r in Ho; discriminate).
    subst t. rewrite app_nil_r in E. rewrite E, app_assoc, quotable_tail in Hq by assumption. rewrite Hq.
    destruct n; [congruence|]. destruct e; [congruence|]. reflexivity.
  - rewrite (fp_set_entry (VStr s) o N). change (fp_id_ok VNone (VStr s) = true). cbn [fp_id_ok]. rewrite Ho, Hq, andb_true_r. cbn [andb].
    destruct (inner_colon s) eqn:C; [|reflexivity]. destruct (inner_colon_nick s Ho C) as (n & e & F). destruct (N _ _ _ F).
Qed.

(** ** Reading *)
Lemma Footprint_module now l : Footprint_from now (node "module" l) = Footprint_from now (node "footprint" l).
Proof. reflexivity. Qed.
Lemma fold_fails {A B} (st : A -> B -> res A) x e : (forall o, st o x = Err e) -> forall a b o, exists e', foldM st o (a ++ x :: b) = Err e'.
Proof.
  intros H a b o. rewrite foldM_app. destruct (foldM st o a) as [o'|e']; [|eexists; reflexivity]. cbn [bind]. rewrite foldM_cons, H. eexists. reflexivity.
Qed.
Lemma Footprint_dimension now h id before args after : exists e,
  Footprint_from now (VList (h :: id :: before ++ node "dimension" args :: after)) = Err e.
Proof.
  unfold Footprint_from. cbn [need_list bind at_ nth_error skipn]. destruct (negb (is_str h "module") && negb (is_str h "footprint"))%bool; [eexists; reflexivity|].
  apply (fold_fails _ _ ENotImplemented). intros o. reflexivity.
Qed.
(** ** A new footprint *)
#[local] Transparent FpText_ok Effects_ok Font_ok Justify_ok Attributes_ok.
Lemma fp_set_only v o : exists n e, Footprint_set_libId v o = o <| fd_libraryNickname := n |> <| fd_entryName := e |>.
Proof.
  destruct (nick_dec (fmt v)) as [(n & e & t & F)|N]; [rewrite (fp_set_nick _ _ _ _ o F)|rewrite (fp_set_entry _ o N)]; eauto.
Qed.
Lemma FpText_new_ok t w l y : wordb t = true -> txtb w = true -> quotableb l = true ->
  numb y = true -> FpText_ok (Footprint_new_text t w l y) = true.
Proof.
  intros Ht Hw Hl Hy. unfold FpText_ok, Footprint_new_text. cbn. unfold pos4_ok, Position_ok. cbn. rewrite Hw, Hy.
  unfold wordv, txtb. rewrite Ht, Hl. vm_compute. reflexivity.
Qed.
#[local] Opaque FpText_ok Footprint_new_text.
Lemma Footprint_new now s value type reference : wordv now = true -> oneline s = true -> quotableb s = true ->
  txtb value = true -> txtb reference = true -> enumb ["smd"; "through_hole"; "other"]%string type = true ->
  exists o, Footprint_create_new now (VStr s) value type reference = Ok o
    /\ Footprint_libId o = s /\ fd_version o = VStr $"20211014" /\ fx_type (fd_attributes o) = (if type =s "other" then VNone else type)
    /\ length (fd_graphicItems o) = 3 /\ fd_pads o = []
    /\ Footprint_ok (o <| fd_version := VInt 20211014 |>) = true.
Proof.
  intros Hn Ho Hq Hv Hr Ht. unfold Footprint_create_new.
  set (base := Footprint_default now <| fd_version := VStr $"20211014" |> <| fd_generator := VStr $"kiutils" |>).
  assert (G : Footprint_libId (Footprint_set_libId (VStr s) base) = s).
  { apply (fp_set_get (VStr s)). intros n e (E & _). cbn [fmt] in E. rewrite E, !oneline_app in Ho. cbn in Ho. rewrite !andb_false_r in Ho. discriminate. }
  pose proof (fp_set_id_ok s base Ho Hq) as Hid. destruct (fp_set_only (VStr s) base) as (n & e & E). cbv zeta. rewrite E in G, Hid |- *. clear E.
  unfold base in *. cbn [fd_libraryNickname fd_entryName] in Hid.
  assert (A : atomb now = true) by (unfold atomb; now rewrite Hn, orb_true_r).
  enum_cases Ht type;
  repeat match goal with |- context [is_str (VStr ?a) ?b] => let r := eval vm_compute in (is_str (VStr a) b) in change (is_str (VStr a) b) with r end;
  cbn [negb orb]; (eexists; split; [reflexivity|]);
  (split; [exact G|]); repeat (split; [reflexivity|]); unfold Footprint_ok; cbn; rewrite A; unfold FpItem_ok;
  rewrite !FpText_new_ok by (first [reflexivity|assumption]); change (fp_id_ok n e = true) in Hid; rewrite Hid; vm_compute; reflexivity.
Qed.
Lemma fmt_version : fmt (VStr $"20211014") = fmt (VInt 20211014).
Proof. vm_compute. reflexivity. Qed.
Lemma Footprint_version_rt now o i n : fd_version o = VStr $"20211014" -> Footprint_ok (o <| fd_version := VInt 20211014 |>) = true ->
  write_read Footprint_to (Footprint_from now) o i n = Ok (Footprint_norm (o <| fd_version := VInt 20211014 |>)).
Proof.
  intros E H. apply (rt_as _ _ _ _ _ o _ i n (Footprint_rt now)); [|exact H]. destruct o. cbn in E. subst. reflexivity.
Qed.
Lemma Footprint_new_rt now now' s value type reference : wordv now = true -> oneline s = true -> quotableb s = true ->
  txtb value = true -> txtb reference = true -> enumb ["smd"; "through_hole"; "other"]%string type = true ->
  exists o, Footprint_create_new now (VStr s) value type reference = Ok o
    /\ Footprint_libId o = s /\ fd_version o = VStr $"20211014" /\ fx_type (fd_attributes o) = (if type =s "other" then VNone else type)
    /\ length (fd_graphicItems o) = 3 /\ fd_pads o = []
    /\ forall i n, exists o', write_read Footprint_to (Footprint_from now') o i n = Ok o'
         /\ Footprint_eqb (o <| fd_version := VInt 20211014 |>) o' = true.
Proof.
  intros Hn Ho Hq Hv Hr Ht. destruct (Footprint_new now s value type reference Hn Ho Hq Hv Hr Ht) as (o & E & H1 & H2 & H3 & H4 & H5 & H6).
  exists o. repeat split; try assumption. intros i n. eexists. split; [now apply Footprint_version_rt|]. apply Footprint_same.
Qed.
Lemma Footprint_type_ref now id value type reference : enumb ["smd"; "through_hole"; "other"]%string type = false ->
  Footprint_create_new now id value type reference = Err EException.
Proof.
  unfold enumb, Footprint_create_new. cbn [existsb]. rewrite orb_false_r, <- orb_assoc. intros ->. reflexivity.
Qed.
(** a tedit of digits only *)
Lemma Footprint_tedit_digits now o z i n : fd_tedit o = VStr (fmt (VInt z)) -> Footprint_ok (o <| fd_tedit := VInt z |>) = true ->
  write_read Footprint_to (Footprint_from now) o i n = Ok (Footprint_norm (o <| fd_tedit := VInt z |>)).
Proof.
  intros E H. apply (rt_as _ _ _ _ _ o _ i n (Footprint_rt now)); [|exact H]. destruct o. cbn in E. subst. reflexivity.
Qed.
(** no name at all *)
Lemma Footprint_no_name now o i n : fd_libraryNickname o = VNone -> fd_entryName o = VNone ->
  Footprint_ok (o <| fd_entryName := VStr $"None" |>) = true ->
  write_read Footprint_to (Footprint_from now) o i n = Ok (Footprint_norm (o <| fd_entryName := VStr $"None" |>)).
Proof.
  intros E1 E2 H. apply (rt_as _ _ _ _ _ o _ i n (Footprint_rt now)); [|exact H]. destruct o. cbn in E1, E2. subst. reflexivity.
Qed.
(** the layer on the first line or on the second *)
Lemma Footprint_layer_line now o i n b : Footprint_ok o = true ->
  write_read (Footprint_to_layer b) (Footprint_from now) o i n = Ok (Footprint_norm o).
Proof.
  intros H. rewrite (wr_read _ _ _ i n (Footprint_tree (Footprint_norm o))); [|now apply Footprint_wr_layer].
  apply Footprint_rd. now apply Footprint_okn.
Qed.
#[local] Opaque Footprint_from.
Lemma fp_oneline s o : oneline s = true -> Footprint_libId (Footprint_set_libId (VStr s) o) = s.
Proof.
  intros H. apply (fp_set_get (VStr s)). intros n e (E & _). cbn [fmt] in E. rewrite E, !oneline_app in H. cbn in H. rewrite !andb_false_r in H. discriminate.
Qed.
Lemma fp_get_set o o1 : fp_id_ok (fd_libraryNickname o) (fd_entryName o) = true ->
  Footprint_set_libId (VStr (Footprint_libId o)) o1 = o1 <| fd_libraryNickname := fd_libraryNickname o |> <| fd_entryName := fd_entryName o |>.
Proof. intros H. rewrite (fp_id_text _ _ o eq_refl eq_refl H). now apply fp_id_read. Qed.
