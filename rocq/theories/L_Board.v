(** Proofs about boards. *)
From Verif Require Import PyBase PyNum PyStr Sexpr S_Leaf S_Tree S_Fix M_Common S_Common M_Gr S_Gr M_Zone S_Zone M_Footprint S_Footprint M_Dim S_Dim M_Brd S_Brd M_Board S_Board
  L_Lex L_Tok L_Num L_Seq L_Parse L_Tac L_Common L_Fp L_Gr L_Zone L_Pad L_Footprint L_Dim L_Fix L_Brd L_Plot.

#[export] Hint Extern 1 (IsUnion BdItem) => exact I : union.
Lemma BdItem_wr o i n : BdItem_ok o = true -> Wr (BdItem_to o i n) (flat (BdItem_tree (BdItem_norm o))).
Proof. destruct o; cbn [BdItem_to BdItem_ok BdItem_tree BdItem_norm]; try discriminate; eauto 2 with wr. Qed.
#[export] Hint Resolve BdItem_wr : wr.
Lemma BdItem_idem o : BdItem_norm (BdItem_norm o) = BdItem_norm o.
Proof. destruct o; cbn [BdItem_norm]; autorewrite with idem; reflexivity. Qed.
#[export] Hint Rewrite BdItem_idem : idem.
Lemma BdItem_okn o : BdItem_ok o = true -> BdItem_ok (BdItem_norm o) = true.
Proof. destruct o; cbn [BdItem_norm BdItem_ok]; try discriminate; eauto 2 with okn. Qed.
#[export] Hint Resolve BdItem_okn : okn.
Lemma BdItem_same o : BdItem_eqb o (BdItem_norm o) = true.
Proof. destruct o; cbn [BdItem_norm BdItem_eqb]; eauto 2 with same. Qed.
#[export] Hint Resolve BdItem_same : same.
Global Arguments BdItem_tree : simpl never. Global Arguments BdItem_norm : simpl never. Global Arguments BdItem_ok : simpl never.
Global Arguments BdItem_to : simpl never. Global Arguments BdItem_eqb : simpl never.

#[export] Hint Extern 1 (IsUnion TrItem) => exact I : union.
Lemma TrItem_wr o i n : TrItem_ok o = true -> Wr (TrItem_to o i n) (flat (TrItem_tree (TrItem_norm o))).
Proof. destruct o; cbn [TrItem_to TrItem_ok TrItem_tree TrItem_norm]; try discriminate; eauto 2 with wr. Qed.
#[export] Hint Resolve TrItem_wr : wr.
Lemma TrItem_idem o : TrItem_norm (TrItem_norm o) = TrItem_norm o.
Proof. destruct o; cbn [TrItem_norm]; autorewrite with idem; reflexivity. Qed.
#[export] Hint Rewrite TrItem_idem : idem.
Lemma TrItem_okn o : TrItem_ok o = true -> TrItem_ok (TrItem_norm o) = true.
Proof. destruct o; cbn [TrItem_norm TrItem_ok]; try discriminate; eauto 2 with okn. Qed.
#[export] Hint Resolve TrItem_okn : okn.
Lemma TrItem_same o : TrItem_eqb o (TrItem_norm o) = true.
Proof. destruct o; cbn [TrItem_norm TrItem_eqb]; eauto 2 with same. Qed.
#[export] Hint Resolve TrItem_same : same.
Global Arguments TrItem_tree : simpl never. Global Arguments TrItem_norm : simpl never. Global Arguments TrItem_ok : simpl never.
Global Arguments TrItem_to : simpl never. Global Arguments TrItem_eqb : simpl never.

Lemma BdItem_wr_write o i n : BdItem_ok o = true -> Wr (BdItem_write o i n) (flat (BdItem_tree (BdItem_norm o))).
Proof. intros H. destruct o; try exact (BdItem_wr _ i n H). now apply GrPoly_wr_pts. Qed.
#[export] Hint Resolve BdItem_wr_write : wr.
Global Opaque BdItem_write.
Lemma if_nil {A} (b : bool) : (if b then [] else []) = @nil A.
Proof. now destruct b. Qed.
Lemma flat_map_nil {A B} (f : A -> list B) l : flat_map (fun x => f x ++ []) l = flat_map f l.
Proof. apply flat_map_ext. intros. apply app_nil_r. Qed.
Lemma Board_wr o i n : Board_ok o = true -> Wr (Board_to o i n) (flat (Board_tree (Board_norm o))).
Proof.
  intros H. unfold Board_ok in H. unfold Board_to. facts.
  assert (P : text_dict_ok (bd_properties o) = true) by assumption. unfold text_dict_ok in P. facts.
  eapply Wr_eq; [wr_go|]. unfold Board_tree, Board_norm; cbn. rewrite !if_nil, (flat_map_nil (fun x => flat (Footprint_tree (Footprint_norm x)))). tpeel.
Qed.
#[export] Hint Resolve Board_wr : wr.
Ltac rd_more st X_step ::=
  lazymatch goal with
  | H : text_dict_ok ?d = true |- foldM st _ (map ?t ?d) = Ok ?new =>
      let p := eval pattern d in new in
      lazymatch p with
      | ?mk _ =>
          let Hst := fresh in let Hk := fresh "Hk" in
          refine (fold_text_dict mk st t d H _); intros ? [? ?] _ Hk; cbn [fst snd] in *; cbv beta;
          match goal with E : st = X_step |- _ => rewrite E end; unfold Board_step; red_step; unfold dict_set; rewrite Hk; reflexivity
      end
  end.
#[local] Remove Hints Footprint_rd : rd.
Lemma Board_rd now o : Board_ok o = true -> Board_from now (Board_tree o) = Ok o.
Proof. pose proof (Footprint_rd now). rd Board_ok Board_from Board_tree (Board_step now). Qed.
#[export] Hint Resolve Board_rd : rd.
Lemma Board_idem o : Board_norm (Board_norm o) = Board_norm o.
Proof. idem Board_norm. Qed.
#[export] Hint Rewrite Board_idem : idem.
Lemma Board_okn o : Board_ok o = true -> Board_ok (Board_norm o) = true.
Proof. okn Board_ok Board_norm. Qed.
#[export] Hint Resolve Board_okn : okn.
Lemma Board_hd o : exists l, Board_tree o = node "kicad_pcb" l.
Proof. eexists. reflexivity. Qed.
#[export] Hint Resolve Board_hd : hd.
Lemma Board_same o : Board_eqb o (Board_norm o) = true.
Proof. same Board_eqb Board_norm. Qed.
#[export] Hint Resolve Board_same : same.
Lemma Board_rt now : roundtrips Board_to (Board_from now) Board_ok Board_norm Board_eqb.
Proof. exact (rt_of _ _ _ Board_tree _ _ Board_wr (Board_rd now) Board_same Board_okn Board_idem). Qed.
Lemma Board_fmt now : conforms Board_to (Board_from now) Board_ok Board_norm Board_tree.
Proof. exact (fmt_of _ _ _ _ _ Board_wr (Board_rd now)). Qed.
Lemma Board_ref now : refuses (Board_from now) ["kicad_pcb"%string].
Proof. refuse Board_from. Qed.
Global Opaque Board_from Board_tree Board_to Board_norm Board_ok Board_eqb.


#[local] Transparent Board_from Board_to.
Lemma Board_ign now : ignores (Board_from now) 0 ["version"; "generator"; "general"; "paper"; "title_block"; "layers"; "setup"; "property"; "net"; "footprint"; "gr_text"; "gr_text_box"; "gr_line"; "gr_rect"; "gr_circle"; "gr_arc"; "gr_poly"; "gr_curve"; "image"; "dimension"; "target"; "segment"; "arc"; "via"; "zone"; "group"]%string.
Proof.
  unfold ignores; intros h before u args after _ Hu.
  cbn [existsb] in Hu; repeat (apply orb_false_elim in Hu; let E := fresh "E" in destruct Hu as [E Hu]).
  assert (U : forall o, Board_step now o (VList (u :: args)) = Ok o).
  { intros o. unfold Board_step. cbn [at_ nth_error bind]. skip_ons. reflexivity. }
  clear - U. unfold Board_from, need_head, need_list; cbn [app at_ nth_error bind length skipn Nat.ltb Nat.leb].
  ign_core (Board_step now) U.
Qed.
Lemma Board_win now : last_wins (Board_from now) 0 ["version"; "generator"; "general"; "paper"; "title_block"; "setup"]%string.
Proof.
  unfold last_wins; intros h before k args1 args2 after o _ Hk.
  assert (U : forall o o1, Board_step now o (node k args1) = Ok o1 -> Board_step now o1 (node k args2) = Board_step now o (node k args2)).
  { clear - Hk. intros [] o1; cbn [In] in Hk;
    repeat (destruct Hk as [Hk|Hk]; [subst k; unfold Board_step; red_step; intros E; res_cases; first [apply Ok_inj in E; subst o1 | inversion E; subst]; red_step; res_cases; solve [reflexivity]|]);
    destruct Hk. }
  clear - U. unfold Board_from, need_head, need_list; cbn [app at_ nth_error bind length skipn Nat.ltb Nat.leb].
  destruct (is_str h "kicad_pcb"); cbn [negb bind]; [|discriminate].
  refine (fold_imp _ _ _ _ _ _ _); intros ?. refine (fold_wins (Board_step now) _ _ U _ _ _ _).
Qed.
(** ** A new board *)
Lemma Board_version o i n : bd_version o = VStr $"20211014" -> Board_to o i n = Board_to (o <| bd_version := VInt 20211014 |>) i n.
Proof. intros E. destruct o. cbn in E. subst. reflexivity. Qed.
#[local] Opaque Board_to Board_from.
Lemma Board_version_rt now o i n : bd_version o = VStr $"20211014" -> Board_ok (o <| bd_version := VInt 20211014 |>) = true ->
  write_read Board_to (Board_from now) o i n = Ok (Board_norm (o <| bd_version := VInt 20211014 |>)).
Proof. intros E H. apply (rt_as _ _ _ _ _ o _ i n (Board_rt now)); [|exact H]. now apply Board_version. Qed.
#[local] Transparent Board_ok.
Lemma Board_new_ok : Board_ok (Board_create_new <| bd_version := VInt 20211014 |>) = true.
Proof. vm_compute. reflexivity. Qed.
#[local] Opaque Board_ok.
Lemma Board_new_rt now i n : exists o', write_read Board_to (Board_from now) Board_create_new i n = Ok o'
  /\ Board_eqb (Board_create_new <| bd_version := VInt 20211014 |>) o' = true.
Proof. eexists. split; [apply Board_version_rt; [reflexivity|exact Board_new_ok]|apply Board_same]. Qed.
