(** Proofs about schematics. *)
From Verif Require Import PyBase PyNum PyStr Sexpr S_Leaf S_Tree S_Fix M_Common S_Common M_Sym S_Sym M_Sch S_Sch M_Schematic S_Schematic
  L_Lex L_Tok L_Num L_Seq L_Parse L_Tac L_Common L_Fp L_Gr L_Zone L_Pad L_Footprint L_Dim L_Fix L_Plot L_Board L_Sym L_Symbol L_Sch L_Sheet.

#[local] Transparent Connection_tree Connection_ok.
Lemma Connection_head o : Connection_ok o = true -> exists l, Connection_tree o = node "wire" l \/ Connection_tree o = node "bus" l.
Proof.
  intros H. destruct o as [t l s u]. unfold Connection_ok in H. cbn in H. andbs. unfold Connection_tree. eexists.
  enum_cases H t; [left|right]; reflexivity.
Qed.
#[local] Opaque Connection_tree Connection_ok.
#[export] Hint Extern 1 (IsUnion ScLine) => exact I : union.
Lemma ScLine_wr o i n : ScLine_ok o = true -> Wr (ScLine_to o i n) (flat (ScLine_tree (ScLine_norm o))).
Proof. destruct o; cbn [ScLine_to ScLine_ok ScLine_tree ScLine_norm]; try discriminate; eauto 2 with wr. Qed.
#[export] Hint Resolve ScLine_wr : wr.
Lemma ScLine_idem o : ScLine_norm (ScLine_norm o) = ScLine_norm o.
Proof. destruct o; cbn [ScLine_norm]; autorewrite with idem; reflexivity. Qed.
#[export] Hint Rewrite ScLine_idem : idem.
Lemma ScLine_okn o : ScLine_ok o = true -> ScLine_ok (ScLine_norm o) = true.
Proof. destruct o; cbn [ScLine_norm ScLine_ok]; try discriminate; eauto 2 with okn. Qed.
#[export] Hint Resolve ScLine_okn : okn.
Lemma ScLine_same o : ScLine_eqb o (ScLine_norm o) = true.
Proof. destruct o; cbn [ScLine_norm ScLine_eqb]; eauto 2 with same. Qed.
#[export] Hint Resolve ScLine_same : same.
Global Arguments ScLine_tree : simpl never. Global Arguments ScLine_norm : simpl never. Global Arguments ScLine_ok : simpl never.
Global Arguments ScLine_to : simpl never. Global Arguments ScLine_eqb : simpl never.

#[export] Hint Extern 1 (IsUnion ScShape) => exact I : union.
Lemma ScShape_wr o i n : ScShape_ok o = true -> Wr (ScShape_to o i n) (flat (ScShape_tree (ScShape_norm o))).
Proof. destruct o; cbn [ScShape_to ScShape_ok ScShape_tree ScShape_norm]; try discriminate; eauto 2 with wr. Qed.
#[export] Hint Resolve ScShape_wr : wr.
Lemma ScShape_idem o : ScShape_norm (ScShape_norm o) = ScShape_norm o.
Proof. destruct o; cbn [ScShape_norm]; autorewrite with idem; reflexivity. Qed.
#[export] Hint Rewrite ScShape_idem : idem.
Lemma ScShape_okn o : ScShape_ok o = true -> ScShape_ok (ScShape_norm o) = true.
Proof. destruct o; cbn [ScShape_norm ScShape_ok]; try discriminate; eauto 2 with okn. Qed.
#[export] Hint Resolve ScShape_okn : okn.
Lemma ScShape_same o : ScShape_eqb o (ScShape_norm o) = true.
Proof. destruct o; cbn [ScShape_norm ScShape_eqb]; eauto 2 with same. Qed.
#[export] Hint Resolve ScShape_same : same.
Global Arguments ScShape_tree : simpl never. Global Arguments ScShape_norm : simpl never. Global Arguments ScShape_ok : simpl never.
Global Arguments ScShape_to : simpl never. Global Arguments ScShape_eqb : simpl never.

Lemma Schematic_wr o i n : Schematic_ok o = true -> Wr (Schematic_to o i n) (flat (Schematic_tree (Schematic_norm o))).
Proof.
  intros H. unfold Schematic_ok in H. unfold Schematic_to, section. facts.
  destruct (Wr_lines (fun x => Symbol_to x (i + 4) true) (fun x => flat (Symbol_tree (Symbol_norm x))) (sc_libSymbols o)) as (s & E & S).
  { intros x Hx. elem_facts. eauto 2 with wr. }
  cbv beta zeta. rewrite E. clear E. cbn [bind]. destruct (Nat.eqb (length (sc_libSymbols o)) 0) eqn:B; [clear S|specialize (S eq_refl)];
    (eapply Wr_eq; [wr_go|]); unfold Schematic_tree, Schematic_norm; cbn; rewrite !if_nil, !map_length.
  - apply Nat.eqb_eq, length_zero_iff_nil in B. rewrite B. cbn [map]. tpeel.
  - tpeel.
Qed.
#[export] Hint Resolve Schematic_wr : wr.
Lemma Schematic_ScLine o x : ScLine_ok x = true -> Schematic_step o (ScLine_tree x) = Ok (o <| sc_graphicalItems := sc_graphicalItems o ++ [x] |>).
Proof.
  intros H. destruct o, x as [c|c]; unfold ScLine_ok in H; cbv beta iota in H; unfold ScLine_tree.
  - pose proof (Connection_rd _ H) as R. destruct (Connection_head _ H) as (? & [E|E]); rewrite E in R |- *; red_in R; unfold Schematic_step; red_step; ev_more; reflexivity.
  - pose proof (PolyLine_rd _ H) as R. destruct (PolyLine_hd c) as (? & E); rewrite E in R |- *; red_in R; unfold Schematic_step; red_step; ev_more; reflexivity.
Qed.
Ltac rd_more st X_step ::=
  lazymatch goal with
  | |- foldM st _ (map ScLine_tree ?l) = Ok ?new =>
      let p := eval pattern l in new in
      lazymatch p with
      | ?mk _ =>
          refine (fold_map mk st ScLine_tree l [] _); let H := fresh "I" in let x := fresh "x" in intros ? x H; elem_facts;
          match goal with Hst : st = X_step |- _ => rewrite Hst end; apply Schematic_ScLine; assumption
      end
  end.
Lemma Schematic_rd o : Schematic_ok o = true -> Schematic_from (Schematic_tree o) = Ok o.
Proof. rd Schematic_ok Schematic_from Schematic_tree Schematic_step. Qed.
#[export] Hint Resolve Schematic_rd : rd.
Lemma Schematic_idem o : Schematic_norm (Schematic_norm o) = Schematic_norm o.
Proof. idem Schematic_norm. Qed.
#[export] Hint Rewrite Schematic_idem : idem.
Lemma Schematic_okn o : Schematic_ok o = true -> Schematic_ok (Schematic_norm o) = true.
Proof. okn Schematic_ok Schematic_norm. Qed.
#[export] Hint Resolve Schematic_okn : okn.
Lemma Schematic_hd o : exists l, Schematic_tree o = node "kicad_sch" l.
Proof. eexists. reflexivity. Qed.
#[export] Hint Resolve Schematic_hd : hd.
Lemma Schematic_same o : Schematic_eqb o (Schematic_norm o) = true.
Proof. same Schematic_eqb Schematic_norm. Qed.
#[export] Hint Resolve Schematic_same : same.
Lemma Schematic_rt : roundtrips Schematic_to Schematic_from Schematic_ok Schematic_norm Schematic_eqb.
Proof. exact (rt_of _ _ _ Schematic_tree _ _ Schematic_wr Schematic_rd Schematic_same Schematic_okn Schematic_idem). Qed.
Lemma Schematic_fmt : conforms Schematic_to Schematic_from Schematic_ok Schematic_norm Schematic_tree.
Proof. exact (fmt_of _ _ _ _ _ Schematic_wr Schematic_rd). Qed.
Lemma Schematic_ref : refuses Schematic_from ["kicad_sch"%string].
Proof. refuse Schematic_from. Qed.
Lemma Schematic_ign : ignores Schematic_from 0 ["version"%string; "generator"%string; "uuid"%string; "paper"%string; "title_block"%string; "lib_symbols"%string; "junction"%string; "no_connect"%string; "bus_entry"%string; "bus_alias"%string; "wire"%string; "bus"%string; "polyline"%string; "arc"%string; "circle"%string; "rectangle"%string; "image"%string; "text"%string; "text_box"%string; "label"%string; "global_label"%string; "hierarchical_label"%string; "netclass_flag"%string; "symbol"%string; "sheet"%string; "sheet_instances"%string; "symbol_instances"%string].
Proof. ign Schematic_from Schematic_step O. Qed.
Lemma Schematic_win : last_wins Schematic_from 0 ["version"%string; "generator"%string; "uuid"%string; "paper"%string; "title_block"%string].
Proof. wins Schematic_from Schematic_step O. Qed.
Global Opaque Schematic_from Schematic_tree Schematic_to Schematic_norm Schematic_ok Schematic_eqb.


(** ** A new schematic *)
#[local] Transparent Schematic_to.
Lemma Schematic_version o i n : sc_version o = VStr $"20211014" -> Schematic_to o i n = Schematic_to (o <| sc_version := VInt 20211014 |>) i n.
Proof. intros E. destruct o. cbn in E. subst. reflexivity. Qed.
#[local] Opaque Schematic_to.
Lemma Schematic_version_rt o i n : sc_version o = VStr $"20211014" -> Schematic_ok (o <| sc_version := VInt 20211014 |>) = true ->
  write_read Schematic_to Schematic_from o i n = Ok (Schematic_norm (o <| sc_version := VInt 20211014 |>)).
Proof. intros E H. apply (rt_as _ _ _ _ _ o _ i n Schematic_rt); [|exact H]. now apply Schematic_version. Qed.
#[local] Transparent Schematic_ok.
Lemma Schematic_new_ok : Schematic_ok (Schematic_create_new <| sc_version := VInt 20211014 |>) = true.
Proof. vm_compute. reflexivity. Qed.
#[local] Opaque Schematic_ok.
Lemma Schematic_new_rt i n : exists o', write_read Schematic_to Schematic_from Schematic_create_new i n = Ok o'
  /\ Schematic_eqb (Schematic_create_new <| sc_version := VInt 20211014 |>) o' = true.
Proof. eexists. split; [apply Schematic_version_rt; [reflexivity|exact Schematic_new_ok]|apply Schematic_same]. Qed.
