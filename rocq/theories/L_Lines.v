(** Proofs for C46. *)
From Verif Require Import PyBase PyNum PyStr Sexpr S_Leaf S_Tree M_Common M_Lib M_Sym M_Footprint M_Board M_Schematic M_Wks L_Lex L_Seq M_File S_File L_File S_Lines.

Lemma breaks_read s t : breaks s t -> universal_newlines t = s.
Proof.
  induction 1 as [|c s t N1 N2 H IH|s t H IH|s t H IH|s t Hd H IH]; cbn [universal_newlines]; [reflexivity| | | |].
  - rewrite (proj2 (N.eqb_neq c 13) N2). now rewrite IH.
  - change (N.eqb 10 13) with false. cbv iota. now rewrite IH.
  - change (N.eqb 13 13) with true. cbv iota. change (N.eqb 10 10) with true. cbv iota. now rewrite IH.
  - change (N.eqb 13 13) with true. cbv iota. destruct t as [|d t]; [now rewrite <- IH|].
    destruct (N.eqb_spec d 10) as [->|]; [now destruct Hd|]. now rewrite IH.
Qed.
Lemma load_text {A} (from_file : world -> option codec -> str -> fres A) wrap from remember :
  (forall w encoding p, from_file w encoding p = load_with (fun s => let! e := parse_sexp (wrap s) in from e) remember w encoding p) ->
  loads_text from_file wrap from remember.
Proof.
  intros H w e p b s t F R D B. rewrite H. unfold load_with, isfile, read_text, codec_of. rewrite F, R. cbn [negb]. rewrite D. cbn [fbind].
  rewrite (breaks_read s t B). split; [intros x ->; reflexivity|]. intros v ->. cbn [bind]. split; intros x ->; reflexivity.
Qed.
Lemma save_text {A E} (enc_of : E -> option codec) (to_file : world -> A -> option str -> E -> world * fres unit) self_path text :
  (forall w o f e, to_file w o f e = save_with enc_of self_path text w o f e) -> saves_text enc_of to_file text.
Proof.
  intros H w o p e s b W T C. rewrite H. unfold save_with, target, write_text. rewrite W, T. cbn [negb].
  change (codec_of (put_file w p []) (enc_of e)) with (match enc_of e with Some c => c | None => w_platform w end). rewrite C.
  eexists. split; [reflexivity|]. split; [apply put_same|].
  exact (only_trans _ _ _ _ (put_only w p []) (put_only (put_file w p []) p b)).
Qed.
Lemma LibTable_lines : loads_text LibTable_from_file (fun s => s) LibTable_from (fun p o => o <| lt_filePath := VStr p |>).
Proof. apply load_text. exact (LibTable_load). Qed.
Lemma LibTable_puts : saves_text (fun e => e) LibTable_to_file (fun o => LibTable_to o 0 true).
Proof. eapply save_text. exact LibTable_save. Qed.
Lemma WorkSheet_lines : loads_text WorkSheet_from_file (fun s => s) WorkSheet_from (fun p o => o <| wk_filePath := VStr p |>).
Proof. apply load_text. exact (WorkSheet_load). Qed.
Lemma WorkSheet_puts : saves_text (fun _ => None) (fun w o f (_ : unit) => WorkSheet_to_file w o f) (fun o => WorkSheet_to o 0 true).
Proof. eapply save_text. exact WorkSheet_save. Qed.
Lemma Board_lines : forall now, loads_text (Board_from_file now) (fun s => s) (Board_from now) (fun p o => o <| bd_filePath := VStr p |>).
Proof. intros now. apply load_text. exact (Board_load now). Qed.
Lemma Board_puts : saves_text (fun e => e) Board_to_file (fun o => Board_to o 0 true).
Proof. eapply save_text. exact Board_save. Qed.
Lemma SymbolLib_lines : loads_text SymbolLib_from_file (fun s => s) SymbolLib_from (fun p o => o <| sj_filePath := VStr p |>).
Proof. apply load_text. exact (SymbolLib_load). Qed.
Lemma SymbolLib_puts : saves_text (fun e => e) SymbolLib_to_file (fun o => SymbolLib_to o 0 true).
Proof. eapply save_text. exact SymbolLib_save. Qed.
Lemma Schematic_lines : loads_text Schematic_from_file (fun s => s) Schematic_from (fun p o => o <| sc_filePath := VStr p |>).
Proof. apply load_text. exact (Schematic_load). Qed.
Lemma Schematic_puts : saves_text (fun e => e) Schematic_to_file (fun o => Schematic_to o 0 true).
Proof. eapply save_text. exact Schematic_save. Qed.
Lemma DesignRules_lines : loads_text DesignRules_from_file (fun s => $"(" ++ s ++ $")") DesignRules_from (fun p o => o <| dr_filePath := VStr p |>).
Proof. apply load_text. exact (DesignRules_load). Qed.
Lemma DesignRules_puts : saves_text (fun e => e) DesignRules_to_file (fun o => DesignRules_to o 0 false).
Proof. eapply save_text. exact DesignRules_save. Qed.
Lemma Footprint_lines : forall now, loads_text (Footprint_from_file now) (fun s => s) (Footprint_from now) (fun _ o => o).
Proof. intros now. apply load_text. exact (Footprint_load now). Qed.
Lemma Footprint_puts : saves_text (fun e => e) Footprint_to_file (fun o => Footprint_to o 0 true).
Proof. eapply save_text. exact Footprint_save. Qed.
