(** Proofs about saving and loading. *)
From Verif Require Import PyBase PyNum PyStr Sexpr S_Leaf S_Tree M_Common S_Common M_Lib S_Lib M_Sym S_Sym M_Footprint S_Footprint M_Board S_Board M_Schematic S_Schematic M_Wks S_Wks
  L_Lex L_Seq L_Tac L_Keep L_Lib L_Symbol L_Footprint L_Fp L_Board L_Schematic L_Wks M_File S_File.
From Coq Require Import Lia ZArith.

Lemma universal_newlines_id s : no_cr s = true -> universal_newlines s = s.
Proof.
  induction s as [|c r IH]; [reflexivity|]. cbn [no_cr forallb universal_newlines]. intros H. apply andb_prop in H as [H1 H2].
  destruct (N.eqb c 13); [discriminate|]. f_equal. now apply IH.
Qed.

(** ** The operating system *)
Lemma put_same w p b : w_files (put_file w p b) p = Some b.
Proof. unfold put_file, set. cbn. now rewrite str_eqb_refl. Qed.
Lemma put_only w p b : only_changes p w (put_file w p b).
Proof.
  unfold only_changes, put_file, set. cbn. repeat split. intros q Hq. destruct (str_eqb q p) eqn:E; [|reflexivity].
  apply str_eqb_eq in E. contradiction.
Qed.
Lemma only_refl p w : only_changes p w w.
Proof. repeat split. Qed.
Lemma only_trans p w1 w2 w3 : only_changes p w1 w2 -> only_changes p w2 w3 -> only_changes p w1 w3.
Proof. intros (A1 & B1 & C1 & D1) (A2 & B2 & C2 & D2). repeat split; try congruence. intros q Hq. now rewrite A2, A1. Qed.
Lemma write_only w e p t : only_changes p w (fst (write_text w e p t)).
Proof.
  unfold write_text. destruct (w_writable w p); cbn [negb fst]; [|apply only_refl].
  destruct t as [s|]; [|apply put_only]. destruct (encode _ s); [|apply put_only].
  eapply only_trans; apply put_only.
Qed.
Lemma write_codec w e p b : codec_of (put_file w p b) e = codec_of w e.
Proof. reflexivity. Qed.

Section Class.
Context {A N : Type} (enc_of : N -> option codec).
Variable to_file : world -> A -> option str -> N -> world * fres unit.
Variable from_file : world -> option codec -> str -> fres A.
Variable self_path : A -> val.
Variable text : A -> res str.
Variable rd : str -> res A.
Variable fin : str -> A -> A.
Definition load_with (w : world) (encoding : option codec) (p : str) : fres A :=
  if negb (isfile w p) then FErr (FPy EException) else
  letf t := read_text w encoding p in letf o := lift (rd t) in FOk (fin p o).
Definition save_with (w : world) (o : A) (filepath : option str) (encoding : N) : world * fres unit :=
  match target filepath (self_path o) with
  | FErr e => (w, FErr e)
  | FOk p => write_text w (enc_of encoding) p (text o)
  end.
Section Load.
Hypothesis Hfrom : forall w encoding p, from_file w encoding p = load_with w encoding p.
Lemma load_needs : load_needs_file from_file.
Proof.
  repeat split; intros w e p; rewrite Hfrom; unfold load_with, isfile, read_text.
  - now intros ->.
  - intros b -> ->. reflexivity.
  - intros b -> -> ->. reflexivity.
Qed.
End Load.
Section Save.
Hypothesis Hto : forall w o f e, to_file w o f e = save_with w o f e.
Lemma save_touches : touches_target to_file self_path.
Proof.
  repeat split.
  1-4: rewrite Hto; unfold save_with, target; apply write_only.
  - intros w o p e E. rewrite !Hto. unfold save_with, target. now rewrite E.
  - intros w o e E. rewrite !Hto. unfold save_with, target. now rewrite E.
  - intros w o p e E. rewrite !Hto. unfold save_with, target, write_text. now rewrite E.
Qed.
Lemma save_kills : save_destroys enc_of to_file text.
Proof.
  intros w o p e W. split; intros; rewrite Hto; unfold save_with, target, write_text; rewrite W; cbn [negb].
  - rewrite H. eexists. split; [reflexivity|apply put_same].
  - rewrite H, write_codec, H0. eexists. split; [reflexivity|apply put_same].
Qed.
Lemma save_load ok same at_path expected :
  (forall w encoding p, from_file w encoding p = load_with w encoding p) ->
  (forall o, ok o = true -> (forall p, same (at_path o p) (expected o p) = true) /\ exists s o', text o = Ok s /\ rd s = Ok o' /\ forall p, fin p o' = expected o p) ->
  saves_and_loads enc_of to_file from_file text ok same at_path expected.
Proof.
  intros Hfrom H w e p o enc Hok C W R. subst enc. destruct (H o Hok) as (E & s & o' & T & D & F). split; [apply E|].
  exists s. split; [exact T|]. intros b NC B. rewrite Hto. unfold save_with, target, write_text. rewrite W, T. cbn [negb].
  rewrite write_codec, B. eexists. split; [reflexivity|]. split; [eapply only_trans; apply put_only|]. split; [apply put_same|].
  rewrite Hfrom. unfold load_with, isfile, read_text. rewrite put_same. cbn [negb].
  change (w_readable (put_file (put_file w p []) p b) p) with (w_readable w p). rewrite R. cbn [negb].
  rewrite !write_codec. rewrite (C _ _ B). cbn [fbind]. rewrite (universal_newlines_id s NC), D. cbn [lift fbind]. now rewrite F.
Qed.
Hypothesis Hpath : forall w encoding p o, from_file w encoding p = FOk o -> self_path o = VStr p.
Lemma save_remembers : remembers_path to_file from_file self_path.
Proof.
  intros w e p o ops L. apply Hpath in L. revert w o L. induction ops as [|op ops IH]; intros w o L H.
  - exists w, o. split; [reflexivity|]. split; [exact L|]. split; [|reflexivity]. intros w' e'. now apply save_touches.
  - inversion H as [|x y H1 H2]; subst. destruct op as [e1 p1|f|f e1]; [contradiction| |].
    + cbn [keeps_path] in H1. destruct (IH w (f o)) as (w' & o' & E & P & Q & R); [now rewrite H1|exact H2|].
      exists w', o'. cbn [frun fold_left frun1 option_map]. repeat split; assumption.
    + destruct (IH (fst (to_file w o f e1)) o L H2) as (w' & o' & E & P & Q & R).
      exists w', o'. cbn [frun fold_left frun1]. repeat split; try assumption.
      intros q Hq. cbn [flat_map] in Hq. rewrite R by (intros IN; apply Hq; apply in_or_app; now right).
      assert (T : q <> match f with Some p1 => p1 | None => p end).
      { intros ->. apply Hq. destruct f; cbn [targets app]; now left. }
      destruct f as [p1|]; [now apply save_touches|].
      destruct save_touches as (S1 & S2 & _). rewrite (S2 w o p e1 L). now apply S1.
Qed.
End Save.
End Class.

Lemma load_eq {A} (w : world) p (t : fres str) (from : val -> res A) (wrap : str -> str) (fin : A -> A) :
  (if negb (isfile w p) then FErr (FPy EException) else
   letf text := t in letf exp := lift (parse_sexp (wrap text)) in letf o := lift (from exp) in FOk (fin o))
  = (if negb (isfile w p) then FErr (FPy EException) else
     letf text := t in letf o := lift (let! e := parse_sexp (wrap text) in from e) in FOk (fin o)).
Proof. destruct (negb _); [reflexivity|]. destruct t as [s|]; [|reflexivity]. cbn [fbind]. now destruct (parse_sexp (wrap s)). Qed.
Lemma rt_text {A} (to : A -> nat -> bool -> res str) from ok norm same o i n :
  roundtrips to from ok norm same -> ok o = true -> exists s, to o i n = Ok s /\ (let! e := parse_sexp s in from e) = Ok (norm o).
Proof.
  intros R H. destruct (R o H) as (W & _). specialize (W i n). unfold write_read in W. destruct (to o i n) as [s|]; [|discriminate].
  exists s. split; [reflexivity|exact W].
Qed.
Ltac and_eq := repeat match goal with |- andb _ _ = andb _ _ => apply f_equal2 end; try reflexivity.

(** ** LibTable *)
#[local] Transparent LibTable_to LibTable_eqb LibTable_norm.
Lemma LibTable_to_path o v i n : LibTable_to o i n = LibTable_to (o <| lt_filePath := v |>) i n.
Proof. destruct o. reflexivity. Qed.
Lemma LibTable_eqb_path a b v : py_eqb v v = true -> LibTable_eqb (a <| lt_filePath := v |>) (b <| lt_filePath := v |>) = LibTable_eqb (a <| lt_filePath := VNone |>) (b <| lt_filePath := VNone |>).
Proof. intros E. destruct a, b. unfold LibTable_eqb. and_eq. exact E. Qed.
Lemma LibTable_load : forall w encoding p, LibTable_from_file w encoding p = load_with (fun s => let! e := parse_sexp (s) in LibTable_from e) (fun p o => o <| lt_filePath := VStr p |>) w encoding p.
Proof. intros. unfold load_with, LibTable_from_file. apply load_eq with (wrap := fun s => s) (fin := fun o => o <| lt_filePath := VStr p |>). Qed.
Lemma LibTable_save : forall w o f e, LibTable_to_file w o f e = save_with (fun e => e) lt_filePath (fun o => LibTable_to o 0 true) w o f e.
Proof. reflexivity. Qed.
Lemma LibTable_file : saves_and_loads (fun e => e) LibTable_to_file LibTable_from_file (fun o => LibTable_to o 0 true) (fun o => LibTable_ok (o <| lt_filePath := VNone |>)) LibTable_eqb (fun o p => o <| lt_filePath := VStr p |>) (fun o p => LibTable_norm o <| lt_filePath := VStr p |>).
Proof.
  eapply save_load; [exact LibTable_save|exact LibTable_load|]. intros o H. split.
  - intros p. destruct (LibTable_rt _ H) as (_ & S & _). rewrite <- S. apply LibTable_eqb_path. apply (py_eqb_refl (VStr p)).
  - destruct (rt_text _ _ _ _ _ (o <| lt_filePath := VNone |>) 0 true LibTable_rt H) as (s & T & D).
    exists s. eexists. split; [etransitivity; [|exact T]; apply LibTable_to_path|]. split; [exact D|]. reflexivity.
Qed.
Lemma LibTable_touch : touches_target LibTable_to_file lt_filePath.
Proof. eapply save_touches. exact LibTable_save. Qed.
Lemma LibTable_kill : save_destroys (fun e => e) LibTable_to_file (fun o => LibTable_to o 0 true).
Proof. eapply save_kills. exact LibTable_save. Qed.
Lemma LibTable_path w encoding p o : LibTable_from_file w encoding p = FOk o -> lt_filePath o = VStr p.
Proof. rewrite LibTable_load. unfold load_with. destruct (negb _); [discriminate|]. destruct (read_text _ _ _); [|discriminate]. cbn [fbind]. destruct (lift _); [|discriminate]. cbn [fbind]. intros [= <-]. reflexivity. Qed.
Lemma LibTable_rem : remembers_path LibTable_to_file LibTable_from_file lt_filePath.
Proof. eapply save_remembers; [exact LibTable_save|exact LibTable_path]. Qed.
Lemma LibTable_need : load_needs_file LibTable_from_file.
Proof. eapply load_needs. exact LibTable_load. Qed.
(** ** WorkSheet *)
#[local] Transparent WorkSheet_to WorkSheet_eqb WorkSheet_norm.
Lemma WorkSheet_to_path o v i n : WorkSheet_to o i n = WorkSheet_to (o <| wk_filePath := v |>) i n.
Proof. destruct o. reflexivity. Qed.
Lemma WorkSheet_eqb_path a b v : py_eqb v v = true -> WorkSheet_eqb (a <| wk_filePath := v |>) (b <| wk_filePath := v |>) = WorkSheet_eqb (a <| wk_filePath := VNone |>) (b <| wk_filePath := VNone |>).
Proof. intros E. destruct a, b. unfold WorkSheet_eqb. and_eq. exact E. Qed.
Lemma WorkSheet_load : forall w encoding p, WorkSheet_from_file w encoding p = load_with (fun s => let! e := parse_sexp (s) in WorkSheet_from e) (fun p o => o <| wk_filePath := VStr p |>) w encoding p.
Proof. intros. unfold load_with, WorkSheet_from_file. apply load_eq with (wrap := fun s => s) (fin := fun o => o <| wk_filePath := VStr p |>). Qed.
Lemma WorkSheet_save : forall w o f e, (fun w o f (_ : unit) => WorkSheet_to_file w o f) w o f e = save_with (fun _ => None) wk_filePath (fun o => WorkSheet_to o 0 true) w o f e.
Proof. reflexivity. Qed.
Lemma WorkSheet_file : saves_and_loads (fun _ => None) (fun w o f (_ : unit) => WorkSheet_to_file w o f) WorkSheet_from_file (fun o => WorkSheet_to o 0 true) (fun o => WorkSheet_ok (o <| wk_filePath := VNone |>)) WorkSheet_eqb (fun o p => o <| wk_filePath := VStr p |>) (fun o p => WorkSheet_norm o <| wk_filePath := VStr p |>).
Proof.
  eapply save_load; [exact WorkSheet_save|exact WorkSheet_load|]. intros o H. split.
  - intros p. destruct (WorkSheet_rt _ H) as (_ & S & _). rewrite <- S. apply WorkSheet_eqb_path. apply (py_eqb_refl (VStr p)).
  - destruct (rt_text _ _ _ _ _ (o <| wk_filePath := VNone |>) 0 true WorkSheet_rt H) as (s & T & D).
    exists s. eexists. split; [etransitivity; [|exact T]; apply WorkSheet_to_path|]. split; [exact D|]. reflexivity.
Qed.
Lemma WorkSheet_touch : touches_target (fun w o f (_ : unit) => WorkSheet_to_file w o f) wk_filePath.
Proof. eapply save_touches. exact WorkSheet_save. Qed.
Lemma WorkSheet_kill : save_destroys (fun _ => None) (fun w o f (_ : unit) => WorkSheet_to_file w o f) (fun o => WorkSheet_to o 0 true).
Proof. eapply save_kills. exact WorkSheet_save. Qed.
Lemma WorkSheet_path w encoding p o : WorkSheet_from_file w encoding p = FOk o -> wk_filePath o = VStr p.
Proof. rewrite WorkSheet_load. unfold load_with. destruct (negb _); [discriminate|]. destruct (read_text _ _ _); [|discriminate]. cbn [fbind]. destruct (lift _); [|discriminate]. cbn [fbind]. intros [= <-]. reflexivity. Qed.
Lemma WorkSheet_rem : remembers_path (fun w o f (_ : unit) => WorkSheet_to_file w o f) WorkSheet_from_file wk_filePath.
Proof. eapply save_remembers; [exact WorkSheet_save|exact WorkSheet_path]. Qed.
Lemma WorkSheet_need : load_needs_file WorkSheet_from_file.
Proof. eapply load_needs. exact WorkSheet_load. Qed.
(** ** Board *)
#[local] Transparent Board_to Board_eqb Board_norm.
Lemma Board_to_path o v i n : Board_to o i n = Board_to (o <| bd_filePath := v |>) i n.
Proof. destruct o. reflexivity. Qed.
Lemma Board_eqb_path a b v : py_eqb v v = true -> Board_eqb (a <| bd_filePath := v |>) (b <| bd_filePath := v |>) = Board_eqb (a <| bd_filePath := VNone |>) (b <| bd_filePath := VNone |>).
Proof. intros E. destruct a, b. unfold Board_eqb. and_eq. exact E. Qed.
Lemma Board_load now : forall w encoding p, (Board_from_file now) w encoding p = load_with (fun s => let! e := parse_sexp (s) in (Board_from now) e) (fun p o => o <| bd_filePath := VStr p |>) w encoding p.
Proof. intros. unfold load_with, Board_from_file. apply load_eq with (wrap := fun s => s) (fin := fun o => o <| bd_filePath := VStr p |>). Qed.
Lemma Board_save : forall w o f e, Board_to_file w o f e = save_with (fun e => e) bd_filePath (fun o => Board_to o 0 true) w o f e.
Proof. reflexivity. Qed.
Lemma Board_file now : saves_and_loads (fun e => e) Board_to_file (Board_from_file now) (fun o => Board_to o 0 true) (fun o => Board_ok (o <| bd_filePath := VNone |>)) Board_eqb (fun o p => o <| bd_filePath := VStr p |>) (fun o p => Board_norm o <| bd_filePath := VStr p |>).
Proof.
  eapply save_load; [exact Board_save|exact (Board_load now)|]. intros o H. split.
  - intros p. destruct ((Board_rt now) _ H) as (_ & S & _). rewrite <- S. apply Board_eqb_path. apply (py_eqb_refl (VStr p)).
  - destruct (rt_text _ _ _ _ _ (o <| bd_filePath := VNone |>) 0 true (Board_rt now) H) as (s & T & D).
    exists s. eexists. split; [etransitivity; [|exact T]; apply Board_to_path|]. split; [exact D|]. reflexivity.
Qed.
Lemma Board_touch : touches_target Board_to_file bd_filePath.
Proof. eapply save_touches. exact Board_save. Qed.
Lemma Board_kill : save_destroys (fun e => e) Board_to_file (fun o => Board_to o 0 true).
Proof. eapply save_kills. exact Board_save. Qed.
Lemma Board_path now w encoding p o : (Board_from_file now) w encoding p = FOk o -> bd_filePath o = VStr p.
Proof. rewrite Board_load. unfold load_with. destruct (negb _); [discriminate|]. destruct (read_text _ _ _); [|discriminate]. cbn [fbind]. destruct (lift _); [|discriminate]. cbn [fbind]. intros [= <-]. reflexivity. Qed.
Lemma Board_rem now : remembers_path Board_to_file (Board_from_file now) bd_filePath.
Proof. eapply save_remembers; [exact Board_save|exact (Board_path now)]. Qed.
Lemma Board_need now : load_needs_file (Board_from_file now).
Proof. eapply load_needs. exact (Board_load now). Qed.
(** ** SymbolLib *)
#[local] Transparent SymbolLib_to SymbolLib_eqb SymbolLib_norm.
Lemma SymbolLib_to_path o v i n : SymbolLib_to o i n = SymbolLib_to (o <| sj_filePath := v |>) i n.
Proof. destruct o. reflexivity. Qed.
Lemma SymbolLib_eqb_path a b v : py_eqb v v = true -> SymbolLib_eqb (a <| sj_filePath := v |>) (b <| sj_filePath := v |>) = SymbolLib_eqb (a <| sj_filePath := VNone |>) (b <| sj_filePath := VNone |>).
Proof. intros E. destruct a, b. unfold SymbolLib_eqb. and_eq. exact E. Qed.
Lemma SymbolLib_load : forall w encoding p, SymbolLib_from_file w encoding p = load_with (fun s => let! e := parse_sexp (s) in SymbolLib_from e) (fun p o => o <| sj_filePath := VStr p |>) w encoding p.
Proof. intros. unfold load_with, SymbolLib_from_file. apply load_eq with (wrap := fun s => s) (fin := fun o => o <| sj_filePath := VStr p |>). Qed.
Lemma SymbolLib_save : forall w o f e, SymbolLib_to_file w o f e = save_with (fun e => e) sj_filePath (fun o => SymbolLib_to o 0 true) w o f e.
Proof. reflexivity. Qed.
Lemma SymbolLib_file : saves_and_loads (fun e => e) SymbolLib_to_file SymbolLib_from_file (fun o => SymbolLib_to o 0 true) (fun o => SymbolLib_ok (o <| sj_filePath := VNone |>)) SymbolLib_eqb (fun o p => o <| sj_filePath := VStr p |>) (fun o p => SymbolLib_norm o <| sj_filePath := VStr p |>).
Proof.
  eapply save_load; [exact SymbolLib_save|exact SymbolLib_load|]. intros o H. split.
  - intros p. destruct (SymbolLib_rt _ H) as (_ & S & _). rewrite <- S. apply SymbolLib_eqb_path. apply (py_eqb_refl (VStr p)).
  - destruct (rt_text _ _ _ _ _ (o <| sj_filePath := VNone |>) 0 true SymbolLib_rt H) as (s & T & D).
    exists s. eexists. split; [etransitivity; [|exact T]; apply SymbolLib_to_path|]. split; [exact D|]. reflexivity.
Qed.
Lemma SymbolLib_touch : touches_target SymbolLib_to_file sj_filePath.
Proof. eapply save_touches. exact SymbolLib_save. Qed.
Lemma SymbolLib_kill : save_destroys (fun e => e) SymbolLib_to_file (fun o => SymbolLib_to o 0 true).
Proof. eapply save_kills. exact SymbolLib_save. Qed.
Lemma SymbolLib_path w encoding p o : SymbolLib_from_file w encoding p = FOk o -> sj_filePath o = VStr p.
Proof. rewrite SymbolLib_load. unfold load_with. destruct (negb _); [discriminate|]. destruct (read_text _ _ _); [|discriminate]. cbn [fbind]. destruct (lift _); [|discriminate]. cbn [fbind]. intros [= <-]. reflexivity. Qed.
Lemma SymbolLib_rem : remembers_path SymbolLib_to_file SymbolLib_from_file sj_filePath.
Proof. eapply save_remembers; [exact SymbolLib_save|exact SymbolLib_path]. Qed.
Lemma SymbolLib_need : load_needs_file SymbolLib_from_file.
Proof. eapply load_needs. exact SymbolLib_load. Qed.
(** ** Schematic *)
#[local] Transparent Schematic_to Schematic_eqb Schematic_norm.
Lemma Schematic_to_path o v i n : Schematic_to o i n = Schematic_to (o <| sc_filePath := v |>) i n.
Proof. destruct o. reflexivity. Qed.
Lemma Schematic_eqb_path a b v : py_eqb v v = true -> Schematic_eqb (a <| sc_filePath := v |>) (b <| sc_filePath := v |>) = Schematic_eqb (a <| sc_filePath := VNone |>) (b <| sc_filePath := VNone |>).
Proof. intros E. destruct a, b. unfold Schematic_eqb. and_eq. exact E. Qed.
Lemma Schematic_load : forall w encoding p, Schematic_from_file w encoding p = load_with (fun s => let! e := parse_sexp (s) in Schematic_from e) (fun p o => o <| sc_filePath := VStr p |>) w encoding p.
Proof. intros. unfold load_with, Schematic_from_file. apply load_eq with (wrap := fun s => s) (fin := fun o => o <| sc_filePath := VStr p |>). Qed.
Lemma Schematic_save : forall w o f e, Schematic_to_file w o f e = save_with (fun e => e) sc_filePath (fun o => Schematic_to o 0 true) w o f e.
Proof. reflexivity. Qed.
Lemma Schematic_file : saves_and_loads (fun e => e) Schematic_to_file Schematic_from_file (fun o => Schematic_to o 0 true) (fun o => Schematic_ok (o <| sc_filePath := VNone |>)) Schematic_eqb (fun o p => o <| sc_filePath := VStr p |>) (fun o p => Schematic_norm o <| sc_filePath := VStr p |>).
Proof.
  eapply save_load; [exact Schematic_save|exact Schematic_load|]. intros o H. split.
  - intros p. destruct (Schematic_rt _ H) as (_ & S & _). rewrite <- S. apply Schematic_eqb_path. apply (py_eqb_refl (VStr p)).
  - destruct (rt_text _ _ _ _ _ (o <| sc_filePath := VNone |>) 0 true Schematic_rt H) as (s & T & D).
    exists s. eexists. split; [etransitivity; [|exact T]; apply Schematic_to_path|]. split; [exact D|]. reflexivity.
Qed.
Lemma Schematic_touch : touches_target Schematic_to_file sc_filePath.
Proof. eapply save_touches. exact Schematic_save. Qed.
Lemma Schematic_kill : save_destroys (fun e => e) Schematic_to_file (fun o => Schematic_to o 0 true).
Proof. eapply save_kills. exact Schematic_save. Qed.
Lemma Schematic_path w encoding p o : Schematic_from_file w encoding p = FOk o -> sc_filePath o = VStr p.
Proof. rewrite Schematic_load. unfold load_with. destruct (negb _); [discriminate|]. destruct (read_text _ _ _); [|discriminate]. cbn [fbind]. destruct (lift _); [|discriminate]. cbn [fbind]. intros [= <-]. reflexivity. Qed.
Lemma Schematic_rem : remembers_path Schematic_to_file Schematic_from_file sc_filePath.
Proof. eapply save_remembers; [exact Schematic_save|exact Schematic_path]. Qed.
Lemma Schematic_need : load_needs_file Schematic_from_file.
Proof. eapply load_needs. exact Schematic_load. Qed.
(** ** DesignRules *)
#[local] Transparent DesignRules_to DesignRules_eqb DesignRules_norm.
Lemma DesignRules_to_path o v i n : DesignRules_to o i n = DesignRules_to (o <| dr_filePath := v |>) i n.
Proof. destruct o. reflexivity. Qed.
Lemma DesignRules_eqb_path a b v : py_eqb v v = true -> DesignRules_eqb (a <| dr_filePath := v |>) (b <| dr_filePath := v |>) = DesignRules_eqb (a <| dr_filePath := VNone |>) (b <| dr_filePath := VNone |>).
Proof. intros E. destruct a, b. unfold DesignRules_eqb. and_eq. exact E. Qed.
Lemma DesignRules_load : forall w encoding p, DesignRules_from_file w encoding p = load_with (fun s => let! e := parse_sexp (dru_wrap s) in DesignRules_from e) (fun p o => o <| dr_filePath := VStr p |>) w encoding p.
Proof. intros. unfold load_with, DesignRules_from_file. apply load_eq with (wrap := fun s => dru_wrap s) (fin := fun o => o <| dr_filePath := VStr p |>). Qed.
Lemma DesignRules_save : forall w o f e, DesignRules_to_file w o f e = save_with (fun e => e) dr_filePath (fun o => DesignRules_to o 0 false) w o f e.
Proof. reflexivity. Qed.
Lemma DesignRules_file : saves_and_loads (fun e => e) DesignRules_to_file DesignRules_from_file (fun o => DesignRules_to o 0 false) (fun o => DesignRules_ok (o <| dr_filePath := VNone |>)) DesignRules_eqb (fun o p => o <| dr_filePath := VStr p |>) (fun o p => DesignRules_norm o <| dr_filePath := VStr p |>).
Proof.
  eapply save_load; [exact DesignRules_save|exact DesignRules_load|]. intros o H. split.
  - intros p. destruct (DesignRules_rt _ H) as (_ & S & _). rewrite <- S. apply DesignRules_eqb_path. apply (py_eqb_refl (VStr p)).
  - destruct (rt_text DesignRules_file _ _ _ _ (o <| dr_filePath := VNone |>) 0 false DesignRules_rt H) as (s & T & D).
    unfold DesignRules_file in T. destruct (DesignRules_to (o <| dr_filePath := VNone |>) 0 false) as [s'|] eqn:T'; [|discriminate]. injection T as <-.
    exists s'. eexists. split; [first [reflexivity|etransitivity; [|exact T']; apply DesignRules_to_path]|]. split; [exact D|]. reflexivity.
Qed.
Lemma DesignRules_touch : touches_target DesignRules_to_file dr_filePath.
Proof. eapply save_touches. exact DesignRules_save. Qed.
Lemma DesignRules_kill : save_destroys (fun e => e) DesignRules_to_file (fun o => DesignRules_to o 0 false).
Proof. eapply save_kills. exact DesignRules_save. Qed.
Lemma DesignRules_path w encoding p o : DesignRules_from_file w encoding p = FOk o -> dr_filePath o = VStr p.
Proof. rewrite DesignRules_load. unfold load_with. destruct (negb _); [discriminate|]. destruct (read_text _ _ _); [|discriminate]. cbn [fbind]. destruct (lift _); [|discriminate]. cbn [fbind]. intros [= <-]. reflexivity. Qed.
Lemma DesignRules_rem : remembers_path DesignRules_to_file DesignRules_from_file dr_filePath.
Proof. eapply save_remembers; [exact DesignRules_save|exact DesignRules_path]. Qed.
Lemma DesignRules_need : load_needs_file DesignRules_from_file.
Proof. eapply load_needs. exact DesignRules_load. Qed.
(** ** Footprint *)
#[local] Transparent Footprint_to Footprint_eqb Footprint_norm.
Lemma Footprint_to_path o v i n : Footprint_to o i n = Footprint_to (o <| fd_filePath := v |>) i n.
Proof. destruct o. reflexivity. Qed.
Lemma Footprint_eqb_path a b v : py_eqb v v = true -> Footprint_eqb (a <| fd_filePath := v |>) (b <| fd_filePath := v |>) = Footprint_eqb (a <| fd_filePath := VNone |>) (b <| fd_filePath := VNone |>).
Proof. intros E. destruct a, b. unfold Footprint_eqb. and_eq. exact E. Qed.
Lemma Footprint_load now : forall w encoding p, (Footprint_from_file now) w encoding p = load_with (fun s => let! e := parse_sexp (s) in (Footprint_from now) e) (fun _ o => o) w encoding p.
Proof. intros. unfold load_with, Footprint_from_file. apply load_eq with (wrap := fun s => s) (fin := fun o => o). Qed.
Lemma Footprint_save : forall w o f e, Footprint_to_file w o f e = save_with (fun e => e) fd_filePath (fun o => Footprint_to o 0 true) w o f e.
Proof. reflexivity. Qed.
Lemma Footprint_file now : saves_and_loads (fun e => e) Footprint_to_file (Footprint_from_file now) (fun o => Footprint_to o 0 true) (fun o => Footprint_ok (o <| fd_filePath := VNone |>)) Footprint_eqb (fun o _ => o <| fd_filePath := VNone |>) (fun o _ => Footprint_norm o <| fd_filePath := VNone |>).
Proof.
  eapply save_load; [exact Footprint_save|exact (Footprint_load now)|]. intros o H. split.
  - intros p. destruct ((Footprint_rt now) _ H) as (_ & S & _). rewrite <- S. reflexivity.
  - destruct (rt_text _ _ _ _ _ (o <| fd_filePath := VNone |>) 0 true (Footprint_rt now) H) as (s & T & D).
    exists s. eexists. split; [etransitivity; [|exact T]; apply Footprint_to_path|]. split; [exact D|]. reflexivity.
Qed.
Lemma Footprint_touch : touches_target Footprint_to_file fd_filePath.
Proof. eapply save_touches. exact Footprint_save. Qed.
Lemma Footprint_kill : save_destroys (fun e => e) Footprint_to_file (fun o => Footprint_to o 0 true).
Proof. eapply save_kills. exact Footprint_save. Qed.
Lemma Footprint_need now : load_needs_file (Footprint_from_file now).
Proof. eapply load_needs. exact (Footprint_load now). Qed.

(** A footprint does not learn where it was loaded from. *)
#[local] Transparent Footprint_from Footprint_set_libId.
Lemma Footprint_from_path now exp o : Footprint_from now exp = Ok o -> fd_filePath o = VNone.
Proof.
  unfold Footprint_from. intros H. destruct (need_list exp) as [l|]; [|discriminate]. cbn [bind] in H.
  destruct (exp@0) as [h|]; [|discriminate]. cbn [bind] in H. destruct (_ && _); [discriminate|].
  destruct (exp@1) as [id|]; [|discriminate]. cbn [bind] in H.
  assert (K : Keep fd_filePath (Footprint_set_libId id (Footprint_default now)) (foldM Footprint_step (Footprint_set_libId id (Footprint_default now)) (skipn 2 l))).
  { apply Keep_fold. intros o1 x _. unfold Footprint_step, Footprint_item. keep. }
  rewrite (K _ H). unfold Footprint_set_libId. res_cases.
Qed.
Lemma Footprint_from_file_path now w encoding p o : Footprint_from_file now w encoding p = FOk o -> fd_filePath o = VNone.
Proof.
  rewrite Footprint_load. unfold load_with. destruct (negb _); [discriminate|]. destruct (read_text _ _ _); [|discriminate]. cbn [fbind].
  destruct (parse_sexp a) as [e|]; [|discriminate]. cbn [bind]. destruct (Footprint_from now e) as [o'|] eqn:E; [|discriminate].
  cbn [lift fbind]. intros [= <-]. exact (Footprint_from_path _ _ _ E).
Qed.

(** ** UTF-8 *)
Open Scope N_scope.
Ltac ntests :=
  repeat (match goal with
    | |- context [N.ltb ?a ?b] => first [replace (N.ltb a b) with true by (symmetry; apply N.ltb_lt; lia)|replace (N.ltb a b) with false by (symmetry; apply N.ltb_ge; lia)]
    | |- context [N.leb ?a ?b] => replace (N.leb a b) with true by (symmetry; apply N.leb_le; lia)
    end; cbn [andb negb]).
Ltac unsome H := match type of H with Some ?x = Some ?y => assert (y = x) by (exact (f_equal (fun o => match o with Some z => z | None => y end) (eq_sym H))); clear H; subst y end.
Lemma utf8_step c a r : utf8_char c = Some a -> utf8_decode (a ++ r) = option_map (cons c) (utf8_decode r).
Proof.
  intros H. pose proof H as H0. unfold utf8_char in H.
  pose proof (N.div_mod c 64 ltac:(lia)). pose proof (N.mod_lt c 64 ltac:(lia)).
  pose proof (N.div_mod (c / 64) 64 ltac:(lia)). pose proof (N.mod_lt (c / 64) 64 ltac:(lia)).
  pose proof (N.div_mod (c / 4096) 64 ltac:(lia)). pose proof (N.mod_lt (c / 4096) 64 ltac:(lia)).
  assert (D1 : c / 64 / 64 = c / 4096) by now rewrite N.div_div by lia.
  assert (D2 : c / 4096 / 64 = c / 262144) by now rewrite N.div_div by lia.
  rewrite D1, D2 in *.
  destruct (N.ltb_spec c 128).
  { unsome H. cbn [app utf8_decode]. destruct (N.ltb_spec c 128); [reflexivity|lia]. }
  destruct (N.ltb_spec c 2048).
  { unsome H. remember (192 + c / 64) as b0. remember (128 + c mod 64) as b1. cbn [app utf8_decode]. unfold cont. ntests.
    replace (64 * (b0 - 192) + (b1 - 128)) with c by lia. now rewrite H0. }
  destruct (N.ltb_spec c 65536).
  { destruct (_ && _); [discriminate|]. unsome H.
    remember (224 + c / 4096) as b0. remember (128 + (c / 64) mod 64) as b1. remember (128 + c mod 64) as b2. cbn [app utf8_decode]. unfold cont. ntests.
    replace (4096 * (b0 - 224) + 64 * (b1 - 128) + (b2 - 128)) with c by lia. now rewrite H0. }
  destruct (N.ltb_spec c 1114112); [|discriminate]. unsome H.
  remember (240 + c / 262144) as b0. remember (128 + (c / 4096) mod 64) as b1. remember (128 + (c / 64) mod 64) as b2. remember (128 + c mod 64) as b3.
  cbn [app utf8_decode]. unfold cont. ntests.
  replace (262144 * (b0 - 240) + 4096 * (b1 - 128) + 64 * (b2 - 128) + (b3 - 128)) with c by lia. now rewrite H0.
Qed.
Lemma utf8_faithful : faithful utf8.
Proof.
  intros s. cbn [utf8 encode decode]. induction s as [|c s IH]; intros b H; [injection H as <-; reflexivity|].
  cbn [utf8_encode] in H. destruct (utf8_char c) as [a|] eqn:E; [|discriminate]. destruct (utf8_encode s) as [b'|]; [|discriminate].
  injection H as <-. rewrite (utf8_step c a b' E), (IH b' eq_refl). reflexivity.
Qed.
