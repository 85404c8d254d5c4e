(** Proofs about schematics. *)
From Verif Require Import PyBase PyNum PyStr Sexpr S_Leaf S_Tree S_Fix M_Common S_Common M_Sym S_Sym M_Sch S_Sch M_Schematic S_Schematic
  L_Lex L_Tok L_Num L_Seq L_Parse L_Tac L_Common L_Fp L_Gr L_Zone L_Pad L_Footprint L_Dim L_Fix L_Plot L_Board L_Sym L_Symbol L_Sch L_Sheet.

#[local] Transparent Connection_tree Connection_ok.
Lemma Connection_head o : Connection_ok o = true -> exists l, Connection_tree o = node "wire" l \/ Connection_tree o = node "bus" l.
Proof.
  intros H. destruct o as [t l s u]. unfold Connection_ok in H. cbn in H. andbs. unfold Connection_tree. eexists.
  enum_cases H t; [left|right]; reflexivity.
Qed.
#[local] Opaque Connection_tree Connection_ok.
@urt ScLine
@urt ScShape
Lemma Schematic_wr o i n : Schematic_ok o = true -> Wr (Schematic_to o i n) (flat (Schematic_tree (Schematic_norm o))).
Proof.
  intros H. unfold Schematic_ok in H. unfold Schematic_to, section. facts.
  destruct (Wr_lines (fun x => Symbol_to x (i + 4) true) (fun x => flat (Symbol_tree (Symbol_norm x))) (sc_libSymbols o)) as (s & E & S).
  { intros x Hx. elem_facts. eauto 2 with wr. }
  cbv beta zeta. rewrite E. clear E. cbn [bind]. destruct (Nat.eqb (length (sc_libSymbols o)) 0) eqn:B; [clear S|specialize (S eq_refl)];
    (eapply Wr_eq; [wr_go|]); unfold Schematic_tree, Schematic_norm; cbn; rewrite !if_nil, !map_length.
  - apply Nat.eqb_eq, length_zero_iff_nil in B. rewrite B. cbn [map]. tpeel.
  - tpeel.
Qed.
#[export] Hint Resolve Schematic_wr : wr.
Lemma Schematic_ScLine o x : ScLine_ok x = true -> Schematic_step o (ScLine_tree x) = Ok (o <| sc_graphicalItems := sc_graphicalItems o ++ [x] |>).
Proof.
  intros H. destruct o, x as [c|c]; unfold ScLine_ok in H; cbv beta iota in H; unfold ScLine_tree.
  - pose proof (Connection_rd _ H) as R. destruct (Connection_head _ H) as (? & [E|E]); rewrite E in R |- *; red_in R; unfold Schematic_step; red_step; ev_more; reflexivity.
  - pose proof (PolyLine_rd _ H) as R. destruct (PolyLine_hd c) as (? & E); rewrite E in R |- *; red_in R; unfold Schematic_step; red_step; ev_more; reflexivity.
Qed.
Ltac rd_more st X_step ::=
  lazymatch goal with
  | |- foldM st _ (map ScLine_tree ?l) = Ok ?new =>
      let p := eval pattern l in new in
      lazymatch p with
      | ?mk _ =>
          refine (fold_map mk st ScLine_tree l [] _); let H := fresh "I" in let x := fresh "x" in intros ? x H; elem_facts;
          match goal with Hst : st = X_step |- _ => rewrite Hst end; apply Schematic_ScLine; assumption
      end
  end.
Lemma Schematic_rd o : Schematic_ok o = true -> Schematic_from (Schematic_tree o) = Ok o.
Proof. rd Schematic_ok Schematic_from Schematic_tree Schematic_step. Qed.
#[export] Hint Resolve Schematic_rd : rd.
@rt Schematic kicad_sch noto nord

(** ** A new schematic *)
#[local] Transparent Schematic_to.
Lemma Schematic_version o i n : sc_version o = VStr $"20211014" -> Schematic_to o i n = Schematic_to (o <| sc_version := VInt 20211014 |>) i n.
Proof. intros E. destruct o. cbn in E. subst. reflexivity. Qed.
#[local] Opaque Schematic_to.
Lemma Schematic_version_rt o i n : sc_version o = VStr $"20211014" -> Schematic_ok (o <| sc_version := VInt 20211014 |>) = true ->
  write_read Schematic_to Schematic_from o i n = Ok (Schematic_norm (o <| sc_version := VInt 20211014 |>)).
Proof. intros E H. apply (rt_as _ _ _ _ _ o _ i n Schematic_rt); [|exact H]. now apply Schematic_version. Qed.
#[local] Transparent Schematic_ok.
Lemma Schematic_new_ok : Schematic_ok (Schematic_create_new <| sc_version := VInt 20211014 |>) = true.
Proof. vm_compute. reflexivity. Qed.
#[local] Opaque Schematic_ok.
Lemma Schematic_new_rt i n : exists o', write_read Schematic_to Schematic_from Schematic_create_new i n = Ok o'
  /\ Schematic_eqb (Schematic_create_new <| sc_version := VInt 20211014 |>) o' = true.
Proof. eexists. split; [apply Schematic_version_rt; [reflexivity|exact Schematic_new_ok]|apply Schematic_same]. Qed.
