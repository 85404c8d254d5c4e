(** Dictionary attributes: proofs. *)
From Verif Require Import PyBase PyNum PyStr PyRe Sexpr S_Leaf S_Tree S_Reader S_Gather L_Tac L_Keep L_Swap L_Gather L_Dict M_Common M_Footprint M_Board M_Sch.

Ltac dict_leaf :=
  match goal with |- Puts _ (pair_of (VList (_ :: ?args))) _ _ =>
    let o' := fresh "o'" in let E := fresh "E" in intros o' E;
    let k := fresh "k" in let v := fresh "v" in destruct args as [|k [|v args]]; try discriminate E;
    cbn [at_ nth_error bind] in E; unfold setf, dict_set in E;
    let L := fresh "L" in destruct (is_list k) eqn:L; [discriminate E|]; cbn [bind] in E; injection E as <-;
    exists k, v; rewrite dict_put_put; repeat split; exact L
  end.
Lemma TitleBlock_dict : collects_dict TitleBlock_from 0 ["comment"%string] pair_of tb_comments.
Proof.
  apply collects_dict_of. intros items o H. unfold TitleBlock_from in H. apply bind_inv in H as (l & E & H). apply need_head_in in E. injection E as <-.
  exists TitleBlock_step, TitleBlock_default. split; [exact H|]. split; [reflexivity|]. split; [intros ? ? ?; solve [gkeep]|].
  puts_item TitleBlock_step. dict_leaf.
Qed.
Lemma Board_dict now : collects_dict (Board_from now) 0 ["property"%string] pair_of bd_properties.
Proof.
  apply collects_dict_of. intros items o H. unfold Board_from in H. apply bind_inv in H as (l & E & H). apply need_head_in in E. injection E as <-.
  exists (Board_step now), Board_default. split; [exact H|]. split; [reflexivity|]. split; [intros ? ? ?; solve [gkeep]|].
  puts_item Board_step. dict_leaf.
Qed.
Lemma Footprint_dict now : collects_dict (Footprint_from now) 2 ["property"%string] pair_of fd_properties.
Proof.
  apply collects_dict_of. intros items o H. unfold Footprint_from in H. apply bind_inv in H as (l & E & H). apply need_list_in in E. injection E as <-.
  apply bind_inv in H as (h & _ & H). destruct (negb (is_str h "module") && negb (is_str h "footprint")); [discriminate H|].
  apply bind_inv in H as (id & _ & H).
  exists Footprint_step. eexists. split; [exact H|]. split; [unfold Footprint_set_libId; destruct (re_match _ _); reflexivity|].
  split; [intros ? ? ?; solve [gkeep]|]. puts_item Footprint_step. dict_leaf.
Qed.
Lemma SchematicSymbol_dict : collects_dict SchematicSymbol_from 1 ["pin"%string] pair_in ss_pins.
Proof.
  apply collects_dict_of. intros items o H. unfold SchematicSymbol_from in H. apply bind_inv in H as (l & E & H). apply need_head_in in E. injection E as <-.
  exists SchematicSymbol_step, SchematicSymbol_default. split; [exact H|]. split; [reflexivity|]. split; [intros ? ? ?; solve [gkeep]|].
  puts_item SchematicSymbol_step.
  intros o' E. destruct args as [|k [|u args]]; try discriminate E. cbn [at_ nth_error bind] in E.
  destruct u as [| | | |s|u]; try discriminate E.
  - destruct s as [|a [|c s]]; try discriminate E. cbn [at_ nth_error bind] in E. unfold dict_set in E. destruct (is_list k) eqn:L; [discriminate E|].
    cbn [bind] in E. injection E as <-. exists k, (VStr [c]). rewrite dict_put_put. repeat split. exact L.
  - destruct u as [|a [|c u]]; try discriminate E. cbn [at_ nth_error bind] in E. unfold dict_set in E. destruct (is_list k) eqn:L; [discriminate E|].
    cbn [bind] in E. injection E as <-. exists k, c. rewrite dict_put_put. repeat split. exact L.
Qed.
