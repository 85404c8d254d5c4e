(** Proofs about the classes of items/schitems.py. *)
From Verif Require Import PyBase PyNum PyStr PyRe Sexpr S_Leaf S_Tree S_Id S_Fix M_Common S_Common M_Sym S_Sym M_Footprint S_Footprint M_Sch S_Sch
  L_Lex L_Tok L_Num L_Seq L_Parse L_Tac L_Common L_Fp L_Gr L_Zone L_Id L_SymId L_Symbol L_Pad L_Footprint L_Dim L_Fix L_Board.

@rt NoConnect no_connect
@rt BusEntry bus_entry
(** points on one line, each after a blank *)
Lemma sch_pts_line l : forallb pos2_ok l = true -> exists s, sch_pts l = Ok s /\ Seq KW s KW (flats (map (xy_tree "xy") (map Position_norm l))).
Proof.
  intros H. destruct l as [|p l]; [exists []; split; [reflexivity|]; exact (Seq_nil KW)|].
  destruct (xy_line (p :: l) H eq_refl) as (s & Es & _ & Hs). exists s. split; [exact Es|].
  eapply Seq_weaken; [|apply (Seq_start KQ KW); [reflexivity|exact Hs]]. reflexivity.
Qed.
Lemma PolyLine_wr o i n : PolyLine_ok o = true -> Wr (PolyLine_to o i n) (flat (PolyLine_tree (PolyLine_norm o))).
Proof.
  intros H. unfold PolyLine_ok in H. facts. unfold PolyLine_to.
  destruct (sch_pts_line (pl_points o)) as (s & Es & Hs); [assumption|]. rewrite Es. cbn [bind].
  eapply Wr_eq; [wr_go|unfold PolyLine_tree, PolyLine_norm; cbn; tpeel].
Qed.
#[export] Hint Resolve PolyLine_wr : wr.
@rt PolyLine polyline noto
Lemma Connection_wr o i n : Connection_ok o = true -> Wr (Connection_to o i n) (flat (Connection_tree (Connection_norm o))).
Proof.
  intros H. unfold Connection_ok in H. facts. unfold Connection_to.
  destruct (sch_pts_line (cx_points o)) as (s & Es & Hs); [assumption|]. rewrite Es. cbn [bind].
  eapply Wr_eq; [wr_go|unfold Connection_tree, Connection_norm; cbn; tpeel].
Qed.
#[export] Hint Resolve Connection_wr : wr.
Lemma Connection_rd o : Connection_ok o = true -> Connection_from (Connection_tree o) = Ok o.
Proof.
  intros H. destruct o as [t l s u]. unfold Connection_ok in H. cbn in H. andbs.
  enum_cases H t; unfold Connection_from, Connection_tree; rd_post Connection_step;
    match goal with Hst : ?st = Connection_step |- _ => rd_loop st Connection_step end.
Qed.
#[export] Hint Resolve Connection_rd : rd.
@rt Connection wire noto nord nohd heads=wire,bus
Lemma Seq_quoted_join l : forallb txtb l = true -> Seq KC (quoted_join l) KQ (flats l).
Proof.
  induction l as [|x l IH]; intros H; [rewrite flats_nil; eapply Seq_weaken; [|apply Seq_nil]; reflexivity|].
  cbn [forallb] in H. andbs. rewrite flats_cons. destruct l as [|y l].
  - cbn [quoted_join]. rewrite flats_nil, app_nil_r. now apply Seq_quoted.
  - change (quoted_join (x :: y :: l)) with (quoted x ++ $" " ++ quoted_join (y :: l)).
    eapply Seq_app; [now apply Seq_quoted|]. eapply (Seq_app KQ $" " KC []); [now apply Seq_lit|]. exact (IH H0).
Qed.
Global Arguments quoted_join : simpl never.
#[export] Hint Resolve Seq_quoted_join : wr.
@rt BusAlias bus_alias rdrefl noign nowins
Lemma Text_wr o i n : Text_ok o = true -> Wr (Text_to o i n) (flat (Text_tree (Text_norm o))).
Proof.
  intros H. unfold Text_ok in H. facts. unfold Text_to.
  assert (E : exists k, len_ (tx_text o) = Ok k) by (destruct (tx_text o); try discriminate; eexists; reflexivity).
  destruct E as [k ->]. cbn [bind]. destruct (Nat.leb 50 k); (eapply Wr_eq; [wr_go|unfold Text_tree, Text_norm; cbn; tpeel]).
Qed.
#[export] Hint Resolve Text_wr : wr.
@rt Text text npos=1 noto
@rt TextBox text_box npos=1
@rt LocalLabel label npos=1
@rt GlobalLabel global_label npos=1
@rt HierarchicalLabel hierarchical_label npos=1
@rt SymbolProjectPath path npos=1
@rt SymbolProjectInstance project npos=1
@rt HierarchicalPin pin npos=2
@rt HierarchicalSheetProjectPath path npos=1
@rt HierarchicalSheetProjectInstance project npos=1
@rt HierarchicalSheetInstance path npos=1
@rt SymbolInstance path npos=1
@rt Rectangle rectangle
@rt SchArc arc
@rt Circle circle

Lemma JColor_idem c : JColor_norm (JColor_norm c) = JColor_norm c.
Proof. destruct c; cbn; [now rewrite ColorRGBA_idem|reflexivity]. Qed.
#[export] Hint Rewrite JColor_idem : idem.
Lemma JColor_okn c : JColor_ok c = true -> JColor_ok (JColor_norm c) = true.
Proof. destruct c; cbn; [apply ColorRGBA_okn|discriminate]. Qed.
#[export] Hint Resolve JColor_okn : okn.
Lemma JColor_same c : JColor_eqb c (JColor_norm c) = true.
Proof. destruct c; cbn; [apply ColorRGBA_same|apply py_eqb_refl]. Qed.
#[export] Hint Resolve JColor_same : same.
(** any number as diameter; only the default comes back *)
Lemma Junction_wr_d o i n : Junction_ok (o <| jn_diameter := VInt 0 |>) = true -> numb (jn_diameter o) = true ->
  Wr (Junction_to o i n) (flat (Junction_tree (Junction_norm o <| jn_diameter := nrm (jn_diameter o) |>))).
Proof.
  intros H N. unfold Junction_ok in H. cbn in H. facts. unfold Junction_to.
  destruct (jn_color o) as [c|v] eqn:C; [|discriminate]. cbn [JColor_ok] in *.
  eapply Wr_eq; [wr_go|]. unfold Junction_tree, Junction_norm; cbn. rewrite C. cbn [JColor_norm JColor_tree]. tpeel.
Qed.
Lemma Junction_zero o : Junction_ok o = true -> o <| jn_diameter := VInt 0 |> = o /\ jn_diameter o = VInt 0.
Proof.
  intros H. unfold Junction_ok in H. andbs. destruct o as [p d c u]. cbn in *.
  assert (d = VInt 0) as -> by (destruct d as [| |[]| | |]; first [reflexivity|discriminate]). split; reflexivity.
Qed.
Lemma Junction_wr o i n : Junction_ok o = true -> Wr (Junction_to o i n) (flat (Junction_tree (Junction_norm o))).
Proof.
  intros H. destruct (Junction_zero o H) as [E D]. pose proof (Junction_wr_d o i n) as W. rewrite E, D in W. specialize (W H eq_refl).
  eapply Wr_eq; [exact W|]. unfold Junction_norm. cbn. now rewrite D.
Qed.
#[export] Hint Resolve Junction_wr : wr.
Lemma Junction_rd_d o d0 : Junction_ok o = true -> Junction_from (Junction_tree (o <| jn_diameter := d0 |>)) = Ok o.
Proof.
  intros H. destruct o as [p d c u]. unfold Junction_ok in H. cbn in H. andbs.
  destruct d as [| |[]| | |]; try discriminate. destruct c as [c|]; [|discriminate]. cbn [JColor_ok] in *. unfold Junction_tree; cbn -[xy_tree optn node]; cbn [jn_position jn_diameter jn_color jn_uuid JColor_tree].
  pose proof (pos2_rd "at"%string p eq_refl ltac:(assumption)) as P. pose proof (ColorRGBA_rd c ltac:(assumption)) as C. destruct (ColorRGBA_hd c) as [cl Ec].
  rewrite Ec in *. unfold xy_tree, node in P. red_in P. red_in C.
  unfold Junction_from. rd_post Junction_step. clear Ec.
  match goal with Hst : ?st = Junction_step |- _ =>
    assert (S : forall o x, st o x = Junction_step o x) by (now rewrite Hst); clear Hst; unfold xy_tree, node;
    do 4 (rewrite foldM_cons, S; unfold Junction_step; red_step; rewrite ?P, ?C; cbn [bind]);
    unfold optn, node; destruct (is_none u) eqn:U; [apply is_none_eq in U; subst u; reflexivity|];
    rewrite foldM_cons, S; unfold Junction_step; red_step; reflexivity end.
Qed.
Lemma Junction_rd o : Junction_ok o = true -> Junction_from (Junction_tree o) = Ok o.
Proof. intros H. pose proof (Junction_rd_d o (VInt 0) H) as R. now rewrite (proj1 (Junction_zero o H)) in R. Qed.
#[export] Hint Resolve Junction_rd : rd.
#[local] Transparent BusAlias_from.
Lemma BusAlias_shape exp o : BusAlias_from exp = Ok o -> exists members, exp = node "bus_alias" [ba_name o; node "members" members] /\ ba_members o = members.
Proof.
  unfold BusAlias_from, need_head, need_list. destruct exp as [| | | | |l]; try discriminate. cbn [bind].
  destruct l as [|h [|a [|m [|x l]]]]; cbn [bind at_ nth_error length Nat.eqb negb]; try discriminate;
    (destruct (is_str h "bus_alias") eqn:H; cbn [negb bind]; [|discriminate]); try discriminate.
  destruct m as [| | | | |m]; cbn [negb is_list]; try discriminate. destruct m as [|k m]; cbn [at_ nth_error bind]; [discriminate|].
  destruct (is_str k "members") eqn:K; cbn [negb]; [|discriminate]. intros E. inversion E; subst. exists m.
  apply is_str_eq in H, K. subst. split; reflexivity.
Qed.
#[local] Opaque BusAlias_from.
@rt Junction junction noto nord
Lemma Junction_diameter o i n : Junction_ok (o <| jn_diameter := VInt 0 |>) = true -> numb (jn_diameter o) = true ->
  write_read Junction_to Junction_from o i n = Ok (Junction_norm (o <| jn_diameter := VInt 0 |>)).
Proof.
  intros H N. rewrite (wr_read _ _ _ _ _ _ (Junction_wr_d o i n H N)). apply Junction_okn in H.
  rewrite <- (Junction_rd_d _ (nrm (jn_diameter o)) H). reflexivity.
Qed.
#[local] Transparent Junction_from Junction_to.
Lemma Junction_last l d : Junction_from (node "junction" (l ++ [node "diameter" [d]]))
  = (let! o := Junction_from (node "junction" l) in Ok (o <| jn_color := JColor_val d |>)).
Proof.
  unfold Junction_from, need_head, need_list, node; cbn [app at_ nth_error bind length skipn Nat.ltb Nat.leb].
  change (is_str (VStr (lit "junction")) "junction") with true; cbn [negb bind].
  change (VStr (lit "junction") :: l ++ ?x) with ((VStr (lit "junction") :: l) ++ x). rewrite foldM_app.
  destruct (foldM _ _ _) as [o|]; [|reflexivity]. cbn [bind]. now destruct o.
Qed.
Lemma Junction_unwritable o d i n : Junction_to (o <| jn_color := JColor_val d |>) i n = Err EAttribute.
Proof. reflexivity. Qed.
#[local] Opaque Junction_from Junction_to.

Lemma NetclassFlag_wr o i n : NetclassFlag_ok o = true -> Wr (NetclassFlag_to o i n) (flat (NetclassFlag_tree (NetclassFlag_norm o))).
Proof.
  intros H. unfold NetclassFlag_ok in H. facts. unfold NetclassFlag_to.
  destruct (nf_position o) as [p|] eqn:P; [|discriminate]. destruct (nf_effects o) as [e|] eqn:E; [|discriminate]. cbn [some_ok] in *. facts.
  eapply Wr_eq; [wr_go|]. unfold NetclassFlag_tree, NetclassFlag_norm; cbn. rewrite P, E. unfold opto; cbn [option_map]. tpeel.
Qed.
#[export] Hint Resolve NetclassFlag_wr : wr.
Lemma NetclassFlag_okn o : NetclassFlag_ok o = true -> NetclassFlag_ok (NetclassFlag_norm o) = true.
Proof.
  intros H. destruct o as [t l s p e q u f]. destruct p as [p|]; [|unfold NetclassFlag_ok in H; cbn in H; andbs; discriminate].
  destruct e as [e|]; [|unfold NetclassFlag_ok in H; cbn in H; andbs; discriminate]. revert H. okn NetclassFlag_ok NetclassFlag_norm.
Qed.
#[export] Hint Resolve NetclassFlag_okn : okn.
Lemma NetclassFlag_rd o : NetclassFlag_ok o = true -> NetclassFlag_from (NetclassFlag_tree o) = Ok o.
Proof.
  intros H. destruct o as [t l s p e q u f]. destruct p as [p|]; [|unfold NetclassFlag_ok in H; cbn in H; andbs; discriminate].
  destruct e as [e|]; [|unfold NetclassFlag_ok in H; cbn in H; andbs; discriminate]. revert H.
  unfold opto. rd NetclassFlag_ok NetclassFlag_from NetclassFlag_tree NetclassFlag_step.
Qed.
#[export] Hint Resolve NetclassFlag_rd : rd.
@rt NetclassFlag netclass_flag noto nookn nord npos=1
#[local] Transparent NetclassFlag_to.
Lemma NetclassFlag_unwritable o i n : nf_effects o = None -> NetclassFlag_to o i n = Err EAttribute.
Proof. intros E. unfold NetclassFlag_to. now rewrite E. Qed.
#[local] Opaque NetclassFlag_to.

(** ** Symbols *)
Lemma ss_id_text n e o : ss_libraryNickname o = n -> ss_entryName o = e -> fp_id_ok n e = true -> SchematicSymbol_libId o = fp_id n e.
Proof.
  unfold SchematicSymbol_libId. intros -> ->. destruct n as [| | | |n|], e as [| | | |e|]; try discriminate; intros H; [reflexivity|].
  cbn in H. andbs. destruct n; [discriminate|]. reflexivity.
Qed.
Lemma ss_set_nick s n e t o : nick_form s n e t ->
  SchematicSymbol_set_libId (VStr s) o = Ok (o <| ss_libraryNickname := VStr n |> <| ss_entryName := VStr e |>).
Proof. intros F. unfold SchematicSymbol_set_libId. cbn [as_text bind]. now destruct (nick_complete _ _ _ _ F) as (m & -> & -> & ->). Qed.
Lemma ss_set_entry s o : (forall n e t, ~ nick_form s n e t) ->
  SchematicSymbol_set_libId (VStr s) o = Ok (o <| ss_libraryNickname := VNone |> <| ss_entryName := VStr s |>).
Proof. intros F. unfold SchematicSymbol_set_libId. cbn [as_text bind]. now rewrite (proj2 (nick_none s) F). Qed.
Lemma ss_id_read n e o : fp_id_ok n e = true ->
  SchematicSymbol_set_libId (VStr (fp_id n e)) o = Ok (o <| ss_libraryNickname := n |> <| ss_entryName := e |>).
Proof.
  destruct n as [| | | |n|], e as [| | | |e|]; try discriminate; cbn [fp_id_ok fp_id]; intros H; andbs.
  - apply ss_set_entry. now apply inner_colon_no.
  - apply (ss_set_nick _ n e []). repeat split; auto; try (now left); rewrite ?app_nil_r; try reflexivity; [now destruct n|now destruct e].
Qed.
Global Opaque SchematicSymbol_set_libId.
Lemma SchematicSymbol_wr o i n : SchematicSymbol_ok o = true -> Wr (SchematicSymbol_to o i n) (flat (SchematicSymbol_tree (SchematicSymbol_norm o))).
Proof.
  intros H. unfold SchematicSymbol_ok in H. facts. unfold SchematicSymbol_to.
  assert (P : pin_dict_ok (ss_pins o) = true) by assumption. unfold pin_dict_ok in P. facts.
  match goal with Hid : fp_id_ok _ _ = true |- _ => rewrite (ss_id_text _ _ o eq_refl eq_refl Hid); pose proof (fp_id_quotable _ _ Hid) end.
  assert (U : truthy (ss_uuid o) = false \/ truthy (ss_uuid o) = true /\ wordv (ss_uuid o) = true)
    by (destruct (ss_uuid o) as [| | | |[|c s]|]; try discriminate; [left; reflexivity|right; split; [reflexivity|assumption]]).
  destruct U as [T|[T W]]; rewrite T; cbv iota;
  (eapply Wr_eq; [wr_go|unfold SchematicSymbol_tree, SchematicSymbol_norm; cbn; rewrite T, ?if_nil, map_length; tpeel]).
Qed.
#[export] Hint Resolve SchematicSymbol_wr : wr.
Lemma fold_pin_dict {R} (mk : list (val * val) -> R) step (t : val * val -> val) d :
  pin_dict_ok d = true ->
  (forall acc kv, In kv d -> is_list (fst kv) = false -> step (mk acc) (t kv) = Ok (mk (dict_put acc (fst kv) (snd kv)))) ->
  foldM step (mk []) (map t d) = Ok (mk d).
Proof.
  unfold pin_dict_ok. intros H Hs. apply andb_prop in H as [H1 H2].
  enough (G : forall acc, dict_keys_ok (acc ++ d) = true -> foldM step (mk acc) (map t d) = Ok (mk (acc ++ d))) by (now apply G).
  clear H2. induction d as [|[k v] d IH]; intros acc Ha; [now rewrite app_nil_r|]. cbn [map]. rewrite foldM_cons.
  cbn [forallb fst snd] in H1. andbs.
  rewrite Hs; [|now left|now apply txtb_leaf]. cbn [bind fst snd].
  rewrite dict_put_new by (eapply dict_keys_mid; exact Ha).
  rewrite IH; [now rewrite <- app_assoc|assumption| |now rewrite <- app_assoc].
  intros acc' kv Hin. apply Hs. now right.
Qed.
Ltac rd_more st X_step ::=
  lazymatch goal with
  | H : pin_dict_ok ?d = true |- foldM st _ (map ?t ?d) = Ok ?new =>
      let p := eval pattern d in new in
      lazymatch p with
      | ?mk _ =>
          let Hst := fresh in let Hk := fresh "Hk" in
          refine (fold_pin_dict mk st t d H _); intros ? [? ?] _ Hk; cbn [fst snd] in *; cbv beta;
          match goal with E : st = X_step |- _ => rewrite E end; unfold X_step; red_step; unfold dict_set; rewrite Hk; reflexivity
      end
  end.
Ltac ev_sub ::=
  try match goal with |- context [at_ ?x 0] => sub_tree x end;
  try match goal with |- context [if ?b then $"yes" else $"no"] => is_var b; destruct b end;
  try match goal with |- context [optv ?v] => is_var v; let B := fresh "B" in unfold optv; destruct (is_none v) eqn:B; [apply is_none_eq in B; subst v|]; cbn [app] end;
  leaf_tests; red_step; try (rewrite ss_id_read by assumption; red_step); ev_more; reflexivity.
#[local] Opaque fp_id.
Lemma uuid0_eq v : uuid0_ok v = true -> truthy v = false -> v = VStr [].
Proof. destruct v as [| | | |[|]|]; try discriminate. reflexivity. Qed.
Lemma SchematicSymbol_rd o : SchematicSymbol_ok o = true -> SchematicSymbol_from (SchematicSymbol_tree o) = Ok o.
Proof.
  intros H. destruct o as [a b c d e f g h x j k l m y]. unfold SchematicSymbol_ok in H. cbn in H. facts0. fixed_subst. unfold SchematicSymbol_from, SchematicSymbol_tree. 
  cbn [ss_libraryNickname ss_entryName ss_libName ss_position ss_unit ss_inBom ss_onBoard ss_dnp ss_fieldsAutoplaced ss_uuid ss_properties ss_pins ss_mirror ss_instances].
  assert (F : forall st, st = SchematicSymbol_step -> forall b c d e f g h x k l m y, foldM st (mkSchematicSymbol a b c d e f g h x (VStr []) k l m y)
            (if truthy j then [node "uuid" [j]] else [])
          = Ok (mkSchematicSymbol a b c d e f g h x j k l m y)).
  { intros. subst st. destruct (truthy j) eqn:T; [|apply uuid0_eq in T; [subst; reflexivity|assumption]]. apply fold_one. reflexivity. }
  generalize dependent (truthy j). intros tj F.
  rd_post SchematicSymbol_step. specialize (F _ eq_refl).
  rd_loop st SchematicSymbol_step.
Qed.
#[export] Hint Resolve SchematicSymbol_rd : rd.
@rt SchematicSymbol symbol noto nord
#[local] Transparent SchematicSymbol_to.
Lemma ss_uuid_none o i n : ss_uuid o = VNone -> SchematicSymbol_to o i n = SchematicSymbol_to (o <| ss_uuid := VStr [] |>) i n.
Proof. intros E. destruct o. cbn in E. subst. reflexivity. Qed.
#[local] Opaque SchematicSymbol_to.
Lemma SchematicSymbol_uuid o i n : ss_uuid o = VNone -> SchematicSymbol_ok (o <| ss_uuid := VStr [] |>) = true ->
  write_read SchematicSymbol_to SchematicSymbol_from o i n = Ok (SchematicSymbol_norm (o <| ss_uuid := VStr [] |>)).
Proof. intros E H. apply (rt_as _ _ _ _ _ o _ i n SchematicSymbol_rt); [|exact H]. now apply ss_uuid_none. Qed.
