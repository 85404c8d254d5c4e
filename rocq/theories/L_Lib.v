(** Round trip lemmas for libraries.py and dru.py. *)
From Verif Require Import PyBase PyNum PyStr Sexpr S_Leaf S_Tree M_Common S_Common M_Lib S_Lib L_Lex L_Tok L_Num L_Seq L_Tac L_Common.

Lemma Library_wr o i n : Library_ok o = true -> Wr (Library_to o i n) (flat (Library_tree (Library_norm o))).
Proof. wr Library_to Library_ok Library_tree Library_norm. Qed.
#[export] Hint Resolve Library_wr : wr.
Lemma Library_idem o : Library_norm (Library_norm o) = Library_norm o.
Proof. idem Library_norm. Qed.
#[export] Hint Rewrite Library_idem : idem.
Lemma Library_okn o : Library_ok o = true -> Library_ok (Library_norm o) = true.
Proof. okn Library_ok Library_norm. Qed.
#[export] Hint Resolve Library_okn : okn.
Lemma Library_hd o : exists l, Library_tree o = node "lib" l.
Proof. eexists. reflexivity. Qed.
#[export] Hint Resolve Library_hd : hd.
Lemma Library_rd o : Library_ok o = true -> Library_from (Library_tree o) = Ok o.
Proof. rd Library_ok Library_from Library_tree Library_step. Qed.
#[export] Hint Resolve Library_rd : rd.
Lemma Library_same o : Library_eqb o (Library_norm o) = true.
Proof. same Library_eqb Library_norm. Qed.
#[export] Hint Resolve Library_same : same.
Lemma Library_rt : roundtrips Library_to Library_from Library_ok Library_norm Library_eqb.
Proof. exact (rt_of _ _ _ Library_tree _ _ Library_wr Library_rd Library_same Library_okn Library_idem). Qed.
Lemma Library_fmt : conforms Library_to Library_from Library_ok Library_norm Library_tree.
Proof. exact (fmt_of _ _ _ _ _ Library_wr Library_rd). Qed.
Lemma Library_ref : refuses Library_from ["lib"%string].
Proof. refuse Library_from. Qed.
Lemma Library_ign : ignores Library_from 0 ["name"%string; "type"%string; "uri"%string; "options"%string; "descr"%string; "disabled"%string].
Proof. ign Library_from Library_step O. Qed.
Lemma Library_win : last_wins Library_from 0 ["name"%string; "type"%string; "uri"%string; "options"%string; "descr"%string; "disabled"%string].
Proof. wins Library_from Library_step O. Qed.
Global Opaque Library_from Library_tree Library_to Library_norm Library_ok Library_eqb.


Lemma LibTable_rd o : LibTable_ok o = true -> LibTable_from (LibTable_tree o) = Ok o.
Proof.
  intros H. destruct o as [t l p]. unfold LibTable_ok in H. cbn in H. andbs. apply is_none_eq in H0. subst p.
  enum_cases H t; unfold LibTable_from, LibTable_tree; rd_post LibTable_step;
    match goal with Hst : ?st = LibTable_step |- _ => rd_loop st LibTable_step end.
Qed.
#[export] Hint Resolve LibTable_rd : rd.
Lemma LibTable_wr o i n : LibTable_ok o = true -> Wr (LibTable_to o i n) (flat (LibTable_tree (LibTable_norm o))).
Proof. wr LibTable_to LibTable_ok LibTable_tree LibTable_norm. Qed.
#[export] Hint Resolve LibTable_wr : wr.
Lemma LibTable_idem o : LibTable_norm (LibTable_norm o) = LibTable_norm o.
Proof. idem LibTable_norm. Qed.
#[export] Hint Rewrite LibTable_idem : idem.
Lemma LibTable_okn o : LibTable_ok o = true -> LibTable_ok (LibTable_norm o) = true.
Proof. okn LibTable_ok LibTable_norm. Qed.
#[export] Hint Resolve LibTable_okn : okn.
Lemma LibTable_same o : LibTable_eqb o (LibTable_norm o) = true.
Proof. same LibTable_eqb LibTable_norm. Qed.
#[export] Hint Resolve LibTable_same : same.
Lemma LibTable_rt : roundtrips LibTable_to LibTable_from LibTable_ok LibTable_norm LibTable_eqb.
Proof. exact (rt_of _ _ _ LibTable_tree _ _ LibTable_wr LibTable_rd LibTable_same LibTable_okn LibTable_idem). Qed.
Lemma LibTable_fmt : conforms LibTable_to LibTable_from LibTable_ok LibTable_norm LibTable_tree.
Proof. exact (fmt_of _ _ _ _ _ LibTable_wr LibTable_rd). Qed.
Lemma LibTable_ref : refuses LibTable_from ["fp_lib_table"%string; "sym_lib_table"%string].
Proof. refuse LibTable_from. Qed.
Lemma LibTable_ign : ignores LibTable_from 0 ["lib"%string].
Proof. ign LibTable_from LibTable_step O. Qed.
Global Opaque LibTable_from LibTable_tree LibTable_to LibTable_norm LibTable_ok LibTable_eqb.


(** [' '.join] of bare words *)
Lemma join_words l : forallb wordv l = true ->
  exists s, py_join $" " l = Ok s /\ (l <> [] -> Seq KC s KW (flats l)).
Proof.
  unfold py_join. induction l as [|v l IH]; cbn [mapM forallb]; intros H; [eexists; split; [reflexivity|congruence]|].
  andbs. destruct (IH H0) as (s & E & Hs). destruct v; try discriminate. cbn [as_text bind].
  destruct (mapM as_text l) as [ts|] eqn:Em; [|discriminate]. cbn [bind] in *. injection E as <-.
  eexists. split; [reflexivity|]. intros _. destruct l as [|w l].
  - cbn [mapM] in Em. injection Em as <-. cbn [join]. rewrite flats_cons, flats_nil, app_nil_r. now apply (Seq_word (VStr s0)).
  - destruct ts as [|t ts]; [cbn [mapM] in Em; destruct (as_text w); [|discriminate]; cbn [bind] in Em; destruct (mapM as_text l); discriminate|].
    change (join $" " (s0 :: t :: ts)) with (s0 ++ $" " ++ join $" " (t :: ts)).
    rewrite flats_cons. apply (Seq_app KC s0 KW); [now apply (Seq_word (VStr s0))|].
    apply (Seq_app KW $" " KC []); [apply Seq_lit; reflexivity|]. apply Hs. discriminate.
Qed.
Lemma Constraint_elements_wr l : forallb wordv l = true ->
  exists s, (if Nat.ltb 0 (length l) then let! j := py_join $" " l in Ok ($" " ++ j) else Ok []) = Ok s
            /\ Seq KW s KW (flats l).
Proof.
  intros H. destruct (join_words l H) as (s & E & Hs). destruct l as [|v l].
  - eexists. split; [reflexivity|]. apply Seq_nil.
  - cbn [length Nat.ltb Nat.leb]. rewrite E. eexists. split; [reflexivity|].
    apply (Seq_app KW $" " KC []); [apply Seq_lit; reflexivity|]. apply Hs. discriminate.
Qed.
Lemma Constraint_wr o i n : Constraint_ok o = true -> Wr (Constraint_to o i n) (flat (Constraint_tree (Constraint_norm o))).
Proof.
  intros H. unfold Constraint_ok in H. facts. destruct (Constraint_elements_wr _ H0) as (s & E & Hs).
  eapply Wr_eq; [unfold Constraint_to; rewrite E; cbn [bind]; wr_go|]. unfold Constraint_tree, Constraint_norm. cbn. tpeel.
Qed.
#[export] Hint Resolve Constraint_wr : wr.
Lemma Constraint_word o v : wordv v = true -> Constraint_step o v = Ok (o <| cn_elements := cn_elements o ++ [v] |>).
Proof.
  destruct v as [| | | |[|c w]|]; try discriminate. intros _. unfold Constraint_step.
  cbn [is_list negb on addf bind at_ nth_error].
  rewrite !char_nstr by reflexivity.
  reflexivity.
Qed.
#[local] Arguments foldM : simpl nomatch.
Lemma Constraint_words l : forallb wordv l = true -> forall t a b c e,
  foldM Constraint_step (mkConstraint t a b c e) l = Ok (mkConstraint t a b c (e ++ l)).
Proof.
  induction l as [|v l IH]; intros H t a b c e; cbn [foldM]; [now rewrite app_nil_r|]. cbn [forallb] in H. andbs.
  rewrite Constraint_word by assumption. cbn [bind].
  etransitivity; [exact (IH H0 t a b c (e ++ [v]))|]. now rewrite <- app_assoc.
Qed.
#[local] Arguments foldM : simpl never.
Lemma Constraint_rd o : Constraint_ok o = true -> Constraint_from (Constraint_tree o) = Ok o.
Proof.
  rd_start Constraint_ok Constraint_from Constraint_tree Constraint_step.
  assert (F : forall t a b c, foldM st (mkConstraint t a b c []) cn_elements = Ok (mkConstraint t a b c cn_elements)).
  { intros. subst st. now apply (Constraint_words cn_elements). }
  rd_loop st Constraint_step.
Qed.
#[export] Hint Resolve Constraint_rd : rd.
Lemma Constraint_idem o : Constraint_norm (Constraint_norm o) = Constraint_norm o.
Proof. idem Constraint_norm. Qed.
#[export] Hint Rewrite Constraint_idem : idem.
Lemma Constraint_okn o : Constraint_ok o = true -> Constraint_ok (Constraint_norm o) = true.
Proof. okn Constraint_ok Constraint_norm. Qed.
#[export] Hint Resolve Constraint_okn : okn.
Lemma Constraint_hd o : exists l, Constraint_tree o = node "constraint" l.
Proof. eexists. reflexivity. Qed.
#[export] Hint Resolve Constraint_hd : hd.
Lemma Constraint_same o : Constraint_eqb o (Constraint_norm o) = true.
Proof. same Constraint_eqb Constraint_norm. Qed.
#[export] Hint Resolve Constraint_same : same.
Lemma Constraint_rt : roundtrips Constraint_to Constraint_from Constraint_ok Constraint_norm Constraint_eqb.
Proof. exact (rt_of _ _ _ Constraint_tree _ _ Constraint_wr Constraint_rd Constraint_same Constraint_okn Constraint_idem). Qed.
Lemma Constraint_fmt : conforms Constraint_to Constraint_from Constraint_ok Constraint_norm Constraint_tree.
Proof. exact (fmt_of _ _ _ _ _ Constraint_wr Constraint_rd). Qed.
Lemma Constraint_ref : refuses Constraint_from ["constraint"%string].
Proof. refuse Constraint_from. Qed.
Lemma Constraint_ign : ignores Constraint_from 1 ["min"%string; "opt"%string; "max"%string].
Proof. ign Constraint_from Constraint_step (S O). Qed.
Lemma Constraint_win : last_wins Constraint_from 1 ["min"%string; "opt"%string; "max"%string].
Proof. wins Constraint_from Constraint_step (S O). Qed.
Global Opaque Constraint_from Constraint_tree Constraint_to Constraint_norm Constraint_ok Constraint_eqb.


Lemma Rule_wr o i n : Rule_ok o = true -> Wr (Rule_to o i n) (flat (Rule_tree (Rule_norm o))).
Proof. wr Rule_to Rule_ok Rule_tree Rule_norm. Qed.
#[export] Hint Resolve Rule_wr : wr.
Lemma Rule_idem o : Rule_norm (Rule_norm o) = Rule_norm o.
Proof. idem Rule_norm. Qed.
#[export] Hint Rewrite Rule_idem : idem.
Lemma Rule_okn o : Rule_ok o = true -> Rule_ok (Rule_norm o) = true.
Proof. okn Rule_ok Rule_norm. Qed.
#[export] Hint Resolve Rule_okn : okn.
Lemma Rule_hd o : exists l, Rule_tree o = node "rule" l.
Proof. eexists. reflexivity. Qed.
#[export] Hint Resolve Rule_hd : hd.
Lemma Rule_rd o : Rule_ok o = true -> Rule_from (Rule_tree o) = Ok o.
Proof. rd Rule_ok Rule_from Rule_tree Rule_step. Qed.
#[export] Hint Resolve Rule_rd : rd.
Lemma Rule_same o : Rule_eqb o (Rule_norm o) = true.
Proof. same Rule_eqb Rule_norm. Qed.
#[export] Hint Resolve Rule_same : same.
Lemma Rule_rt : roundtrips Rule_to Rule_from Rule_ok Rule_norm Rule_eqb.
Proof. exact (rt_of _ _ _ Rule_tree _ _ Rule_wr Rule_rd Rule_same Rule_okn Rule_idem). Qed.
Lemma Rule_fmt : conforms Rule_to Rule_from Rule_ok Rule_norm Rule_tree.
Proof. exact (fmt_of _ _ _ _ _ Rule_wr Rule_rd). Qed.
Lemma Rule_ref : refuses Rule_from ["rule"%string].
Proof. refuse Rule_from. Qed.
Lemma Rule_ign : ignores Rule_from 1 ["constraint"%string; "condition"%string; "layer"%string; "severity"%string].
Proof. ign Rule_from Rule_step (S O). Qed.
Lemma Rule_win : last_wins Rule_from 1 ["condition"%string; "layer"%string; "severity"%string].
Proof. wins Rule_from Rule_step (S O). Qed.
Global Opaque Rule_from Rule_tree Rule_to Rule_norm Rule_ok Rule_eqb.


Lemma DesignRules_wr o i n : DesignRules_ok o = true -> Wr (DesignRules_file o i n) (flat (DesignRules_tree (DesignRules_norm o))).
Proof.
  intros H. unfold DesignRules_ok in H. facts.
  eapply Wr_eq; [unfold DesignRules_file, DesignRules_to, dru_wrap; wr_go|].
  unfold DesignRules_tree, DesignRules_norm; cbn [dr_version dr_rules].
  destruct (dr_rules o) as [|r l]; cbn [length Nat.ltb Nat.leb flat_map map]; tpeel.
Qed.
#[export] Hint Resolve DesignRules_wr : wr.
Lemma DesignRules_rd o : DesignRules_ok o = true -> DesignRules_from (DesignRules_tree o) = Ok o.
Proof. rd DesignRules_ok DesignRules_from DesignRules_tree DesignRules_step. Qed.
Lemma DesignRules_ref : (forall e, is_list e = false -> DesignRules_from e = Err EException)
  /\ (forall x l, is_list x = false -> DesignRules_from (VList (x :: l)) = Err EException)
  /\ (forall h m l, (h =s "version") = false -> DesignRules_from (VList (VList (h :: m) :: l)) = Err EException).
Proof.
  unfold DesignRules_from, need_list. repeat split.
  - now destruct e.
  - intros x l H. cbn [bind at_ nth_error]. now destruct x.
  - intros h m l H. cbn [bind at_ nth_error]. now rewrite H.
Qed.
Lemma DesignRules_idem o : DesignRules_norm (DesignRules_norm o) = DesignRules_norm o.
Proof. idem DesignRules_norm. Qed.
#[export] Hint Rewrite DesignRules_idem : idem.
Lemma DesignRules_okn o : DesignRules_ok o = true -> DesignRules_ok (DesignRules_norm o) = true.
Proof. okn DesignRules_ok DesignRules_norm. Qed.
#[export] Hint Resolve DesignRules_okn : okn.
Lemma DesignRules_same o : DesignRules_eqb o (DesignRules_norm o) = true.
Proof. same DesignRules_eqb DesignRules_norm. Qed.
#[export] Hint Resolve DesignRules_same : same.
Global Opaque DesignRules_from DesignRules_tree DesignRules_to DesignRules_norm DesignRules_ok DesignRules_eqb.

Lemma DesignRules_rt : roundtrips DesignRules_file DesignRules_from DesignRules_ok DesignRules_norm DesignRules_eqb.
Proof. exact (rt_of _ _ _ DesignRules_tree _ _ DesignRules_wr DesignRules_rd DesignRules_same DesignRules_okn DesignRules_idem). Qed.
Lemma DesignRules_fmt : conforms DesignRules_file DesignRules_from DesignRules_ok DesignRules_norm DesignRules_tree.
Proof. exact (fmt_of _ _ _ _ _ DesignRules_wr DesignRules_rd). Qed.

Lemma LibTable_new : forall b indent newline,
  let o := LibTable_create_new (VStr (if b : bool then $"fp_lib_table" else $"sym_lib_table")) in
  lt_libs o = [] /\ write_read LibTable_to LibTable_from o indent newline = Ok o.
Proof.
  intros b i n. split; [reflexivity|].
  destruct (LibTable_rt (LibTable_create_new (VStr (if b then $"fp_lib_table" else $"sym_lib_table")))) as [H _];
    [destruct b; vm_compute; reflexivity|]. cbv zeta. rewrite H. destruct b; vm_compute; reflexivity.
Qed.
Lemma DesignRules_new : forall indent newline,
  dr_rules DesignRules_create_new = [] /\ dr_version DesignRules_create_new = VInt 1 /\
  write_read DesignRules_file DesignRules_from DesignRules_create_new indent newline = Ok DesignRules_create_new.
Proof.
  intros i n. repeat split. destruct (DesignRules_rt DesignRules_create_new) as [H _]; [vm_compute; reflexivity|].
  rewrite H. vm_compute. reflexivity.
Qed.
