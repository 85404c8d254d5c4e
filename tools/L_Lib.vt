(** Round trip lemmas for libraries.py and dru.py. *)
From Verif Require Import PyBase PyNum PyStr Sexpr S_Leaf S_Tree M_Common S_Common M_Lib S_Lib L_Lex L_Tok L_Num L_Seq L_Tac L_Common.

@rt Library lib

Lemma LibTable_rd o : LibTable_ok o = true -> LibTable_from (LibTable_tree o) = Ok o.
Proof.
  intros H. destruct o as [t l p]. unfold LibTable_ok in H. cbn in H. andbs. apply is_none_eq in H0. subst p.
  enum_cases H t; unfold LibTable_from, LibTable_tree; rd_post LibTable_step;
    match goal with Hst : ?st = LibTable_step |- _ => rd_loop st LibTable_step end.
Qed.
#[export] Hint Resolve LibTable_rd : rd.
@rt LibTable sym_lib_table heads=fp_lib_table,sym_lib_table nohd nord

(** [' '.join] of bare words *)
Lemma join_words l : forallb wordv l = true ->
  exists s, py_join $" " l = Ok s /\ (l <> [] -> Seq KC s KW (flats l)).
Proof.
  unfold py_join. induction l as [|v l IH]; cbn [mapM forallb]; intros H; [eexists; split; [reflexivity|congruence]|].
  andbs. destruct (IH H0) as (s & E & Hs). destruct v; try discriminate. cbn [as_text bind].
  destruct (mapM as_text l) as [ts|] eqn:Em; [|discriminate]. cbn [bind] in *. injection E as <-.
  eexists. split; [reflexivity|]. intros _. destruct l as [|w l].
  - cbn [mapM] in Em. injection Em as <-. cbn [join]. rewrite flats_cons, flats_nil, app_nil_r. now apply (Seq_word (VStr s0)).
  - destruct ts as [|t ts]; [cbn [mapM] in Em; destruct (as_text w); [|discriminate]; cbn [bind] in Em; destruct (mapM as_text l); discriminate|].
    change (join $" " (s0 :: t :: ts)) with (s0 ++ $" " ++ join $" " (t :: ts)).
    rewrite flats_cons. apply (Seq_app KC s0 KW); [now apply (Seq_word (VStr s0))|].
    apply (Seq_app KW $" " KC []); [apply Seq_lit; reflexivity|]. apply Hs. discriminate.
Qed.
Lemma Constraint_elements_wr l : forallb wordv l = true ->
  exists s, (if Nat.ltb 0 (length l) then let! j := py_join $" " l in Ok ($" " ++ j) else Ok []) = Ok s
            /\ Seq KW s KW (flats l).
Proof.
  intros H. destruct (join_words l H) as (s & E & Hs). destruct l as [|v l].
  - eexists. split; [reflexivity|]. apply Seq_nil.
  - cbn [length Nat.ltb Nat.leb]. rewrite E. eexists. split; [reflexivity|].
    apply (Seq_app KW $" " KC []); [apply Seq_lit; reflexivity|]. apply Hs. discriminate.
Qed.
Lemma Constraint_wr o i n : Constraint_ok o = true -> Wr (Constraint_to o i n) (flat (Constraint_tree (Constraint_norm o))).
Proof.
  intros H. unfold Constraint_ok in H. facts. destruct (Constraint_elements_wr _ H0) as (s & E & Hs).
  eapply Wr_eq; [unfold Constraint_to; rewrite E; cbn [bind]; wr_go|]. unfold Constraint_tree, Constraint_norm. cbn. tpeel.
Qed.
#[export] Hint Resolve Constraint_wr : wr.
Lemma Constraint_word o v : wordv v = true -> Constraint_step o v = Ok (o <| cn_elements := cn_elements o ++ [v] |>).
Proof.
  destruct v as [| | | |[|c w]|]; try discriminate. intros _. unfold Constraint_step.
  cbn [is_list negb on addf bind at_ nth_error].
  rewrite !char_nstr by reflexivity.
  reflexivity.
Qed.
#[local] Arguments foldM : simpl nomatch.
Lemma Constraint_words l : forallb wordv l = true -> forall t a b c e,
  foldM Constraint_step (mkConstraint t a b c e) l = Ok (mkConstraint t a b c (e ++ l)).
Proof.
  induction l as [|v l IH]; intros H t a b c e; cbn [foldM]; [now rewrite app_nil_r|]. cbn [forallb] in H. andbs.
  rewrite Constraint_word by assumption. cbn [bind].
  etransitivity; [exact (IH H0 t a b c (e ++ [v]))|]. now rewrite <- app_assoc.
Qed.
#[local] Arguments foldM : simpl never.
Lemma Constraint_rd o : Constraint_ok o = true -> Constraint_from (Constraint_tree o) = Ok o.
Proof.
  rd_start Constraint_ok Constraint_from Constraint_tree Constraint_step.
  assert (F : forall t a b c, foldM st (mkConstraint t a b c []) cn_elements = Ok (mkConstraint t a b c cn_elements)).
  { intros. subst st. now apply (Constraint_words cn_elements). }
  rd_loop st Constraint_step.
Qed.
#[export] Hint Resolve Constraint_rd : rd.
@rt Constraint constraint npos=1 noto nord

@rt Rule rule npos=1

Lemma DesignRules_wr o i n : DesignRules_ok o = true -> Wr (DesignRules_file o i n) (flat (DesignRules_tree (DesignRules_norm o))).
Proof.
  intros H. unfold DesignRules_ok in H. facts.
  eapply Wr_eq; [unfold DesignRules_file, DesignRules_to, dru_wrap; wr_go|].
  unfold DesignRules_tree, DesignRules_norm; cbn [dr_version dr_rules].
  destruct (dr_rules o) as [|r l]; cbn [length Nat.ltb Nat.leb flat_map map]; tpeel.
Qed.
#[export] Hint Resolve DesignRules_wr : wr.
Lemma DesignRules_rd o : DesignRules_ok o = true -> DesignRules_from (DesignRules_tree o) = Ok o.
Proof. rd DesignRules_ok DesignRules_from DesignRules_tree DesignRules_step. Qed.
Lemma DesignRules_ref : (forall e, is_list e = false -> DesignRules_from e = Err EException)
  /\ (forall x l, is_list x = false -> DesignRules_from (VList (x :: l)) = Err EException)
  /\ (forall h m l, (h =s "version") = false -> DesignRules_from (VList (VList (h :: m) :: l)) = Err EException).
Proof.
  unfold DesignRules_from, need_list. repeat split.
  - now destruct e.
  - intros x l H. cbn [bind at_ nth_error]. now destruct x.
  - intros h m l H. cbn [bind at_ nth_error]. now rewrite H.
Qed.
@rt DesignRules version noto nord nohd nort noref noign nowins
Lemma DesignRules_rt : roundtrips DesignRules_file DesignRules_from DesignRules_ok DesignRules_norm DesignRules_eqb.
Proof. exact (rt_of _ _ _ DesignRules_tree _ _ DesignRules_wr DesignRules_rd DesignRules_same DesignRules_okn DesignRules_idem). Qed.
Lemma DesignRules_fmt : conforms DesignRules_file DesignRules_from DesignRules_ok DesignRules_norm DesignRules_tree.
Proof. exact (fmt_of _ _ _ _ _ DesignRules_wr DesignRules_rd). Qed.

Lemma LibTable_new : forall b indent newline,
  let o := LibTable_create_new (VStr (if b : bool then $"fp_lib_table" else $"sym_lib_table")) in
  lt_libs o = [] /\ write_read LibTable_to LibTable_from o indent newline = Ok o.
Proof.
  intros b i n. split; [reflexivity|].
  destruct (LibTable_rt (LibTable_create_new (VStr (if b then $"fp_lib_table" else $"sym_lib_table")))) as [H _];
    [destruct b; vm_compute; reflexivity|]. cbv zeta. rewrite H. destruct b; vm_compute; reflexivity.
Qed.
Lemma DesignRules_new : forall indent newline,
  dr_rules DesignRules_create_new = [] /\ dr_version DesignRules_create_new = VInt 1 /\
  write_read DesignRules_file DesignRules_from DesignRules_create_new indent newline = Ok DesignRules_create_new.
Proof.
  intros i n. repeat split. destruct (DesignRules_rt DesignRules_create_new) as [H _]; [vm_compute; reflexivity|].
  rewrite H. vm_compute. reflexivity.
Qed.
