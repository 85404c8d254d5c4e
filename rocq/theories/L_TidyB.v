(** Proofs for C50: parts of the texts *)
From Coq Require Import String.
From Verif Require Import PyBase PyNum PyStr Sexpr S_Leaf S_Tree M_Common M_Lib M_Sym M_Fp M_Gr M_Zone M_Footprint M_Dim M_Brd M_Board M_Sch M_Schematic M_Wks.
From Verif Require Import S_Common S_Lib S_Sym S_Fp S_Gr S_Zone S_Footprint S_Dim S_Brd S_Board S_Sch S_Schematic S_Wks S_Fix L_Lex L_Tok L_Num L_Seq L_Tac L_Fix L_SymId S_Tidy L_Tidy.

Lemma WT_fixed i j a prec v : (0 < prec)%Z -> finite v = true -> fresh j a = true -> WT i (j, a) (fmt_fixed prec v) (j, AItem false).
Proof.
  intros Hp H F. pose proof (fun n m e => float_of_nonneg v n m e H) as P.
  assert (E : exists n m e, float_of v = DFin n m e /\ fmt_fixed prec v = let '(p, q) := dbl_ratio m e in Ok (fixed_str n p q prec)).
  { destruct v; try discriminate; cbn [finite float_of fmt_fixed] in *.
    - unfold int_ok in H. destruct (dec_to_dbl _ _ 0) as [n m e|]; [|discriminate]. now exists n, m, e.
    - destruct f as [n m e|]; [|discriminate]. now exists n, m, e. }
  destruct E as (n & m & e & E & G). pose proof (scale2_pos m e (P _ _ _ E)) as Q.
  rewrite G. destruct (dbl_ratio m e) as [p q]. cbn [fst snd] in Q. apply WT_ok.
  destruct (fixed_str_reads n p q prec Hp ltac:(lia) ltac:(lia)) as [W C]. apply Tid_word; [|exact F]. exact (wnum_first _ _ W C).
Qed.
Lemma WT_alpha i j o : numb (ca_A o) = true -> is_none (ca_precision o) = true -> WT i (j, AGap) (ColorRGBA_alpha o) (j, AItem false).
Proof.
  intros H N. unfold ColorRGBA_alpha. destruct (ca_precision o); try discriminate N. apply WT_ok, Tid_numb; [exact H|reflexivity].
Qed.
Lemma Symbol_ind2 (P : Symbol -> Prop) : (forall o, (forall u, In u (sy_units o) -> P u) -> P o) -> forall o, P o.
Proof.
  intros H. fix F 1. intros [a b c d e f g h i j k l m n p us]. apply H. cbn [sy_units].
  induction us as [|u us IH]; intros x I; [destruct I|]. destruct I as [E|I].
  - rewrite <- E. apply F.
  - exact (IH x I).
Qed.
Lemma last_app_ne {A} (l m : list A) d : m <> [] -> last (l ++ m) d = last m d.
Proof.
  intros H. induction l as [|x l IH]; [reflexivity|]. cbn [app last]. destruct (l ++ m) eqn:E; [|assumption].
  apply app_eq_nil in E as [_ ->]. congruence.
Qed.
Lemma last_digit s : forallb is_digit s = true -> s <> [] -> N.eqb (last s 0%N) bslash = false.
Proof.
  intros H N. destruct (exists_last N) as (l & x & ->). rewrite last_last. rewrite forallb_app in H.
  apply andb_prop in H as [_ H]. cbn in H. rewrite andb_true_r in H. destruct (N.eqb_spec x bslash) as [->|]; [|reflexivity].
  vm_compute in H. discriminate.
Qed.
Lemma sym_id_quotable a b c d : id_ok a b c d = true -> txtb (VStr (sym_id a b c d)) = true.
Proof.
  unfold id_ok, txtb, sym_id. destruct a as [| | | |n|], b as [| | | |e|]; try discriminate;
    destruct c, d; try discriminate; intros H; unfold quotableb in *; andbs.
  - match goal with H : N.eqb _ _ = false |- _ => now rewrite H end.
  - rewrite !app_assoc. edestruct int_str_digits as (_ & D & N); [apply Z.leb_le; match goal with H : (0 <=? z0)%Z = true |- _ => exact H end|]. rewrite last_app_ne by assumption.
    rewrite (last_digit _ D N). reflexivity.
  - rewrite app_assoc, last_app_ne by (now apply nonempty_ne). match goal with H : N.eqb _ _ = false |- _ => now rewrite H end.
Qed.
Lemma contains_wild s : contains $"*." s || contains $"&" s = wild_layer s.
Proof.
  unfold wild_layer. rewrite orb_comm. f_equal.
  - induction s as [|c s IH]; [reflexivity|].
    change (contains $"&" (c :: s)) with (N.eqb 38 c && true || contains $"&" s). now rewrite IH, andb_true_r.
  - induction s as [|c s IH]; [reflexivity|].
    change (contains $"*." (c :: s)) with (N.eqb 42 c && match s with [] => false | y :: _ => N.eqb 46 y && true end || contains $"*." s). rewrite IH.
    cbn [star_dot]. rewrite (N.eqb_sym 42 c). destruct s as [|d s]; [reflexivity|]. now rewrite andb_true_r, (N.eqb_sym 46 d).
Qed.
Lemma fp_id_quotable n e : fp_id_ok n e = true -> txtb (VStr (fp_id n e)) = true.
Proof.
  destruct n as [| | | |n|], e as [| | | |e|]; try discriminate; cbn [fp_id_ok fp_id txtb]; intros H; unfold txtb; andbs; [assumption|].
  rewrite app_assoc, quotable_tail; [assumption|]. now destruct e.
Qed.
Lemma fp_id_txt o : fp_id_ok (fd_libraryNickname o) (fd_entryName o) = true -> txtb (VStr (Footprint_libId o)) = true.
Proof.
  intros H. replace (Footprint_libId o) with (fp_id (fd_libraryNickname o) (fd_entryName o)); [now apply fp_id_quotable|]. unfold Footprint_libId.
  destruct (fd_libraryNickname o) as [| | | |n|], (fd_entryName o) as [| | | |e|]; try discriminate; [reflexivity|].
  cbn in H. andbs. destruct n; [discriminate|]. reflexivity.
Qed.
Lemma ss_id_txt o : fp_id_ok (ss_libraryNickname o) (ss_entryName o) = true -> txtb (VStr (SchematicSymbol_libId o)) = true.
Proof.
  intros H. replace (SchematicSymbol_libId o) with (fp_id (ss_libraryNickname o) (ss_entryName o)); [now apply fp_id_quotable|]. unfold SchematicSymbol_libId.
  destruct (ss_libraryNickname o) as [| | | |n|], (ss_entryName o) as [| | | |e|]; try discriminate; [reflexivity|].
  cbn in H. andbs. destruct n; [discriminate|]. reflexivity.
Qed.
Lemma sy_id_txt o : id_ok (sy_libraryNickname o) (sy_entryName o) (sy_unitId o) (sy_styleId o) = true -> txtb (VStr (Symbol_libId o)) = true.
Proof. intros H. rewrite (sym_id_libId o H). now apply sym_id_quotable. Qed.
Lemma Tid_dequote i j a v : plainv v = true -> fresh j a = true -> Tid i (j, a) (dequote v) (j, AItem false).
Proof. intros H F. rewrite (plain_dequote v H). apply Tid_wordv; [exact (plain_word v H)|exact F]. Qed.
(** a list of words, one blank between two of them *)
Lemma WT_join i j l : l <> [] -> forallb wordv l = true -> WT i (j, AGap) (py_join $" " l) (j, AItem false).
Proof.
  unfold py_join. intros N H t E. destruct (mapM as_text l) as [ts|] eqn:M; [|discriminate E]. apply Ok_inj in E. subst t.
  revert ts M N H. induction l as [|v l IH]; intros ts M N H; [congruence|]. cbn [mapM] in M. destruct (as_text v) as [s|] eqn:S; [|discriminate M]. cbn [bind] in M.
  destruct (mapM as_text l) as [us|] eqn:U; [|discriminate M]. apply Ok_inj in M. subst ts.
  cbn [forallb] in H. apply andb_prop in H as [H1 H2]. destruct v as [| | | |s'|]; try discriminate S. apply Ok_inj in S. subst s'.
  pose proof (Tid_wordv i j AGap (VStr s) H1 eq_refl) as T. cbn [fmt] in T.
  destruct us as [|u us]; [exact T|]. change (join $" " (s :: u :: us)) with (s ++ $" " ++ join $" " (u :: us)).
  apply Tid_app with (j, AItem false); [exact T|]. apply Tid_app with (j, AGap); [now apply Tid_lit|]. apply IH; [reflexivity| |exact H2]. destruct l; [discriminate U|discriminate].
Qed.
Lemma Tid_quoted_join i j l : l <> [] -> forallb txtb l = true -> Tid i (j, AGap) (quoted_join l) (j, AItem true).
Proof.
  induction l as [|x l IH]; intros N H; [congruence|]. cbn [forallb] in H. apply andb_prop in H as [H1 H2].
  pose proof (Tid_quoted i j AGap x H1 eq_refl) as T. destruct l as [|y l]; [exact T|].
  change (quoted_join (x :: y :: l)) with (quoted x ++ $" " ++ quoted_join (y :: l)).
  apply Tid_app with (j, AItem true); [exact T|]. apply Tid_app with (j, AGap); [now apply Tid_lit|]. now apply IH.
Qed.
Lemma length_ne {A} (l : list A) : Nat.eqb (length l) 0 = false -> l <> [].
Proof. now destruct l. Qed.
Lemma length_lt {A} (l : list A) : Nat.ltb 0 (length l) = true -> l <> [].
Proof. now destruct l. Qed.
Lemma Tid_quoted_list i j l : forallb txtb l = true -> forall a, below a ASome = true -> Tid i (j, a) (quoted_list l) (j, ASome).
Proof.
  intros H a Ha. apply (Tid_from i j a ASome); [exact Ha|]. unfold quoted_list. apply (Tid_each i _ l j ASome (AItem true)); [|reflexivity|reflexivity]. intros v Hv.
  apply Tid_app with (j, AGap); [now apply Tid_lit|]. apply Tid_quoted; [exact (forallb_spec _ _ _ H Hv)|reflexivity].
Qed.
Lemma WT_zone_layers i j l : forallb txtb l = true -> WT i (j, AItem true) (Zone_layer_token l) (j, AItem true).
Proof.
  intros H. assert (G : forall t, t = $" (layer" \/ t = $" (layers" -> Tid i (j, AItem true) (t ++ quoted_list l ++ $")") (j, AItem true)).
  { intros t Ht. apply Tid_app with (S j, AItem false); [destruct Ht as [-> | ->]; now apply Tid_lit|].
    apply Tid_app with (S j, ASome); [now apply Tid_quoted_list|]. now apply Tid_lit. }
  unfold Zone_layer_token. destruct l as [|v [|w l]]; [apply WT_err| |apply WT_ok, G; now right].
  destruct (_ && _); apply WT_ok, G; [now left|now right].
Qed.
Lemma WT_pad_layers i j l : forallb pad_layer_ok l = true -> WT i (j, AItem true) (Pad_layers_text l) (j, AItem true).
Proof.
  intros H t E. unfold Pad_layers_text in E. destruct (concatM Pad_layer_text l) as [u|] eqn:U; [|discriminate E]. apply Ok_inj in E. subst t.
  apply Tid_app with (S j, AItem false); [now apply Tid_lit|]. apply Tid_app with (S j, ASome); [|now apply Tid_lit].
  refine (WT_use i _ _ _ _ _ U).
  apply (WT_each i Pad_layer_text l (S j) (AItem false) ASome); [|reflexivity|reflexivity]. intros v Hv. pose proof (forallb_spec _ _ _ H Hv) as K.
  destruct v as [| | | |s|]; try discriminate K. unfold pad_layer_ok in K. unfold Pad_layer_text, py_in. cbn [bind]. rewrite contains_wild.
  destruct (wild_layer s); apply WT_ok; apply Tid_app with (S j, AGap); try (now apply Tid_lit).
  - apply (Tid_weaken i _ _ _ (AItem false)); [now apply Tid_wordv|reflexivity].
  - apply (Tid_weaken i _ _ _ (AItem true)); [now apply Tid_quoted|reflexivity].
Qed.
(** some optional parts on a line of their own, behind one blank each *)
Definition part (i : nat) (t : str) : Prop := t = [] \/ (forall a, a = ALine 1 \/ a = ASome -> Tid i (1, a) t (1, ASome)).
Lemma parts_line i l : Forall (part i) l -> (concat l <> [] -> Tid i (1, ALine 1) (concat l) (1, ASome)) /\ Tid i (1, ASome) (concat l) (1, ASome).
Proof.
  induction 1 as [|t l H _ [IH1 IH2]]; [split; [intros N; now destruct N|apply Tid_nil]|]. cbn [concat]. destruct H as [->|H].
  - cbn [app]. split; assumption.
  - split; [intros _|]; (apply Tid_app with (1, ASome); [apply H; auto|exact IH2]).
Qed.
Lemma part_if i (b : bool) t : (b = false -> Tid i (1, AGapL 2) t (1, AItem true)) -> part i (if b then [] else $" " ++ t).
Proof.
  intros H. destruct b; [now left|]. right. intros a [-> | ->]; apply Tid_app with (1, AGapL 2).
  - apply (Tid_weaken i _ _ _ (ALine 2)); [now apply Tid_lit|reflexivity].
  - apply (Tid_weaken i _ _ _ (AItem true) ASome); [apply H; reflexivity|reflexivity].
  - apply (Tid_weaken i _ _ _ AGap); [now apply Tid_lit|reflexivity].
  - apply (Tid_weaken i _ _ _ (AItem true) ASome); [apply H; reflexivity|reflexivity].
Qed.
Lemma Justify_fine_i o : Justify_ok o = true -> Justify_neat o = true -> Justify_fine o = true.
Proof. unfold Justify_fine. now intros -> ->. Qed.
#[export] Hint Resolve Justify_fine_i : okf.
Lemma Attributes_fine_i o : Attributes_ok o = true -> Attributes_neat o = true -> Attributes_fine o = true.
Proof. unfold Attributes_fine. now intros -> ->. Qed.
#[export] Hint Resolve Attributes_fine_i : okf.
Lemma WksFont_fine_i o : WksFont_ok o = true -> WksFont_neat o = true -> WksFont_fine o = true.
Proof. unfold WksFont_fine. now intros -> ->. Qed.
#[export] Hint Resolve WksFont_fine_i : okf.
Lemma FpText_fine_i o : FpText_ok o = true -> FpText_neat o = true -> FpText_fine o = true.
Proof. unfold FpText_fine. now intros -> ->. Qed.
#[export] Hint Resolve FpText_fine_i : okf.
Lemma FpTextBox_fine_i o : FpTextBox_ok o = true -> FpTextBox_neat o = true -> FpTextBox_fine o = true.
Proof. unfold FpTextBox_fine. now intros -> ->. Qed.
#[export] Hint Resolve FpTextBox_fine_i : okf.
Lemma GrText_fine_i o : GrText_ok o = true -> GrText_neat o = true -> GrText_fine o = true.
Proof. unfold GrText_fine. now intros -> ->. Qed.
#[export] Hint Resolve GrText_fine_i : okf.
Lemma GrTextBox_fine_i o : GrTextBox_ok o = true -> GrTextBox_neat o = true -> GrTextBox_fine o = true.
Proof. unfold GrTextBox_fine. now intros -> ->. Qed.
#[export] Hint Resolve GrTextBox_fine_i : okf.
Lemma Dimension_fine_i o : Dimension_ok o = true -> Dimension_neat o = true -> Dimension_fine o = true.
Proof. unfold Dimension_fine. now intros -> ->. Qed.
#[export] Hint Resolve Dimension_fine_i : okf.
Lemma FpItem_fine_i o : FpItem_ok o = true -> FpItem_neat o = true -> FpItem_fine o = true.
Proof. unfold FpItem_fine. now intros -> ->. Qed.
#[export] Hint Resolve FpItem_fine_i : okf.
Lemma PadPrimitive_fine_i o : PadPrimitive_ok o = true -> PadPrimitive_neat o = true -> PadPrimitive_fine o = true.
Proof. unfold PadPrimitive_fine. now intros -> ->. Qed.
#[export] Hint Resolve PadPrimitive_fine_i : okf.
Lemma BdItem_fine_i o : BdItem_ok o = true -> BdItem_neat o = true -> BdItem_fine o = true.
Proof. unfold BdItem_fine. now intros -> ->. Qed.
#[export] Hint Resolve BdItem_fine_i : okf.
Lemma Pad_fine_i o : Pad_ok o = true -> Pad_neat o = true -> Pad_fine o = true.
Proof. unfold Pad_fine. now intros -> ->. Qed.
#[export] Hint Resolve Pad_fine_i : okf.
Lemma Zone_fine_i o : Zone_ok o = true -> Zone_neat o = true -> Zone_fine o = true.
Proof. unfold Zone_fine. now intros -> ->. Qed.
#[export] Hint Resolve Zone_fine_i : okf.
Lemma Footprint_fine_i o : Footprint_ok o = true -> Footprint_neat o = true -> Footprint_fine o = true.
Proof. unfold Footprint_fine. now intros -> ->. Qed.
#[export] Hint Resolve Footprint_fine_i : okf.
Lemma Board_fine_i o : Board_ok o = true -> Board_neat o = true -> Board_fine o = true.
Proof. unfold Board_fine. now intros -> ->. Qed.
#[export] Hint Resolve Board_fine_i : okf.
Lemma Junction_fine_i o : Junction_ok o = true -> Junction_neat o = true -> Junction_fine o = true.
Proof. unfold Junction_fine. now intros -> ->. Qed.
#[export] Hint Resolve Junction_fine_i : okf.
Lemma Schematic_fine_i o : Schematic_ok o = true -> Schematic_neat o = true -> Schematic_fine o = true.
Proof. unfold Schematic_fine. now intros -> ->. Qed.
#[export] Hint Resolve Schematic_fine_i : okf.
Lemma Line_fine_i o : Line_ok o = true -> Line_neat o = true -> Line_fine o = true.
Proof. unfold Line_fine. now intros -> ->. Qed.
#[export] Hint Resolve Line_fine_i : okf.
Lemma Rect_fine_i o : Rect_ok o = true -> Rect_neat o = true -> Rect_fine o = true.
Proof. unfold Rect_fine. now intros -> ->. Qed.
#[export] Hint Resolve Rect_fine_i : okf.
Lemma TbText_fine_i o : TbText_ok o = true -> TbText_neat o = true -> TbText_fine o = true.
Proof. unfold TbText_fine. now intros -> ->. Qed.
#[export] Hint Resolve TbText_fine_i : okf.
Lemma BusAlias_fine_i o : BusAlias_ok o = true -> BusAlias_neat o = true -> BusAlias_fine o = true.
Proof. unfold BusAlias_fine. now intros -> ->. Qed.
#[export] Hint Resolve BusAlias_fine_i : okf.
Lemma Justify_ok1_fine o : Justify_ok1 o = true -> Justify_fine o = true.
Proof. exact (fun h => h). Qed.
#[export] Hint Resolve Justify_ok1_fine : okf.
Lemma Justify_ti : TyI Justify_to Justify_fine.
Proof. tyi (unfold Justify_fine, Justify_ok, Justify_neat in *) Justify_to. Qed.
#[export] Hint Resolve Justify_ti : tyI.
Lemma Justify_tl : TyL Justify_to Justify_fine.
Proof. exact (TyI_L _ _ Justify_ti). Qed.
Lemma WT_justify i j x : Justify_ok x = true ->
  WT i (j, AItem true) (let! s := Justify_to x 0 false in match s with [] => Ok [] | _ => Ok ($" " ++ s) end) (j, AItem true).
Proof.
  intros O t E. destruct (Justify_neat x) eqn:N.
  - pose proof (TyI_gap _ _ Justify_ti i j false x (Justify_fine_i x O N)) as H.
    destruct (Justify_to x 0 false) as [s|]; [|discriminate E]. cbn [bind] in E. destruct s as [|c s]; apply Ok_inj in E; subst t; [apply Tid_nil|].
    apply Tid_app with (j, AGap); [now apply Tid_lit|]. exact (H _ eq_refl).
  - unfold Justify_neat in N. apply Bool.negb_false_iff in N. unfold Justify_to in E. rewrite N in E. apply Ok_inj in E. subst t. apply Tid_nil.
Qed.
Lemma Attributes_ti : TyI Attributes_to Attributes_fine.
Proof. tyi (unfold Attributes_fine, Attributes_ok, Attributes_neat in *) Attributes_to. Qed.
#[export] Hint Resolve Attributes_ti : tyI.
Lemma Attributes_tl : TyL Attributes_to Attributes_fine.
Proof. exact (TyI_L _ _ Attributes_ti). Qed.
Lemma WT_attributes i j k x : Attributes_ok x = true -> k = i + 2 * j -> WT i (j, ABol) (Attributes_to x k true) (j, ABol).
Proof.
  intros O K. destruct (Attributes_neat x) eqn:N; [exact (TyL_sub _ _ Attributes_tl i j k true x (Attributes_fine_i x O N) K)|].
  intros t E. unfold Attributes_neat in N. apply Bool.negb_false_iff in N. unfold Attributes_to in E. rewrite N in E. apply Ok_inj in E. subst t. apply Tid_nil.
Qed.
