(** Round trip lemmas for Symbol and SymbolLib in symbol.py. *)
From Verif Require Import PyBase PyNum PyStr Sexpr S_Leaf S_Tree M_Common S_Common PyRe M_Sym S_Sym S_Id L_Lex L_Tok L_Num L_Seq L_Tac L_Common L_Sym L_Id L_SymId.

(** a symbol, given its units *)
Lemma Symbol_ind2 (P : Symbol -> Prop) : (forall o, (forall u, In u (sy_units o) -> P u) -> P o) -> forall o, P o.
Proof.
  intros H. fix F 1. intros [a b c d e f g h i j k l m n p us]. apply H. cbn [sy_units].
  induction us as [|u us IH]; intros x I; [destruct I|]. destruct I as [E|I].
  - rewrite <- E. apply F.
  - exact (IH x I).
Qed.
Lemma last_app_ne {A} (l m : list A) d : m <> [] -> last (l ++ m) d = last m d.
Proof.
  intros H. induction l as [|x l IH]; [reflexivity|]. cbn [app last]. destruct (l ++ m) eqn:E; [|assumption].
  apply app_eq_nil in E as [_ ->]. congruence.
Qed.
Lemma last_digit s : forallb is_digit s = true -> s <> [] -> N.eqb (last s 0%N) bslash = false.
Proof.
  intros H N. destruct (exists_last N) as (l & x & ->). rewrite last_last. rewrite forallb_app in H.
  apply andb_prop in H as [_ H]. cbn in H. rewrite andb_true_r in H. destruct (N.eqb_spec x bslash) as [->|]; [|reflexivity].
  vm_compute in H. discriminate.
Qed.
Lemma sym_id_quotable a b c d : id_ok a b c d = true -> txtb (VStr (sym_id a b c d)) = true.
Proof.
  unfold id_ok, txtb, sym_id. destruct a as [| | | |n|], b as [| | | |e|]; try discriminate;
    destruct c, d; try discriminate; intros H; unfold quotableb in *; andbs.
  - match goal with H : N.eqb _ _ = false |- _ => now rewrite H end.
  - rewrite !app_assoc. edestruct int_str_digits as (_ & D & N); [apply Z.leb_le; match goal with H : (0 <=? z0)%Z = true |- _ => exact H end|]. rewrite last_app_ne by assumption.
    rewrite (last_digit _ D N). reflexivity.
  - rewrite app_assoc, last_app_ne by (now apply nonempty_ne). match goal with H : N.eqb _ _ = false |- _ => now rewrite H end.
Qed.
Ltac sy_cbn :=
  cbn [sy_libraryNickname sy_entryName sy_unitId sy_styleId sy_extends sy_hidePinNumbers sy_pinNames sy_pinNamesHide
       sy_pinNamesOffset sy_inBom sy_onBoard sy_isPower sy_properties sy_graphicItems sy_pins sy_units
       Symbol_to Symbol_tree Symbol_norm Symbol_ok Symbol_eqb].
Ltac sy_cbn_in H :=
  cbn [sy_libraryNickname sy_entryName sy_unitId sy_styleId sy_extends sy_hidePinNumbers sy_pinNames sy_pinNamesHide
       sy_pinNamesOffset sy_inBom sy_onBoard sy_isPower sy_properties sy_graphicItems sy_pins sy_units
       Symbol_to Symbol_tree Symbol_norm Symbol_ok Symbol_eqb] in H.
Lemma Symbol_wr o : forall i n, Symbol_ok o = true -> Wr (Symbol_to o i n) (flat (Symbol_tree (Symbol_norm o))).
Proof.
  induction o as [o IH] using Symbol_ind2. intros i n H. destruct o as [a b c d e f g h x j k l m y p us].
  sy_cbn_in H. sy_cbn_in IH. facts. sy_cbn. unfold Symbol_libId. sy_cbn.
  match goal with Hid : id_ok a b c d = true |- _ =>
    pose proof (sym_id_libId (mkSymbol a b c d e f g h x j k l m y p us)) as E; sy_cbn_in E; unfold Symbol_libId in E; sy_cbn_in E;
    rewrite (E Hid); clear E; pose proof (sym_id_quotable _ _ _ _ Hid) end.
  generalize dependent (sym_id a b c d). intros t Ht.
  eapply Wr_eq; [wr_go|tpeel].
Qed.
#[export] Hint Resolve Symbol_wr : wr.
Lemma Symbol_idem o : Symbol_norm (Symbol_norm o) = Symbol_norm o.
Proof.
  induction o as [o IH] using Symbol_ind2. destruct o as [a b c d e f g h x j k l m y p us]. sy_cbn_in IH. sy_cbn.
  rewrite !map_idem by (intros; autorewrite with idem; reflexivity). autorewrite with idem. f_equal.
  rewrite map_map. apply map_ext_in. exact IH.
Qed.
#[export] Hint Rewrite Symbol_idem : idem.
Lemma forallb_map_in {A} (P : A -> bool) (f : A -> A) l :
  (forall x, In x l -> P x = true -> P (f x) = true) -> forallb P l = true -> forallb P (map f l) = true.
Proof.
  intros H. induction l as [|x l IH]; cbn [forallb map]; [auto|]. intros E.
  apply andb_prop in E as [E1 E2]. rewrite H, IH; auto; [|now left]. intros. apply H; [now right|assumption].
Qed.
Lemma Symbol_okn o : Symbol_ok o = true -> Symbol_ok (Symbol_norm o) = true.
Proof.
  induction o as [o IH] using Symbol_ind2. destruct o as [a b c d e f g h x j k l m y p us]. sy_cbn_in IH. sy_cbn.
  intros H. andbs. repeat match goal with |- (_ && _)%bool = true => apply andb_true_intro; split end; rewrite ?nrm_none;
    try (apply negb_true_iff); eauto 4 with okn. now apply forallb_map_in.
Qed.
#[export] Hint Resolve Symbol_okn : okn.
Lemma Symbol_hd o : exists l, Symbol_tree o = node "symbol" l.
Proof. destruct o. eexists. sy_cbn. reflexivity. Qed.
#[export] Hint Resolve Symbol_hd : hd.
Lemma leqb_map_in {A} (f : A -> A -> bool) (g : A -> A) l : (forall x, In x l -> f x (g x) = true) -> leqb f l (map g l) = true.
Proof.
  intros H. induction l as [|x l IH]; [reflexivity|]. cbn. rewrite H, IH by (try (now left); intros; apply H; now right). reflexivity.
Qed.
Lemma Symbol_same o : Symbol_eqb o (Symbol_norm o) = true.
Proof.
  induction o as [o IH] using Symbol_ind2. destruct o as [a b c d e f g h x j k l m y p us]. sy_cbn_in IH. sy_cbn.
  repeat match goal with |- (_ && _)%bool = true => apply andb_true_intro; split end; eauto 3 with same.
  now apply leqb_map_in.
Qed.
#[export] Hint Resolve Symbol_same : same.
Lemma Symbol_from_eq id items : Symbol_from (node "symbol" (VStr id :: items)) =
  let! o := Symbol_set_libId (VStr id) Symbol_default in foldM (Symbol_step Symbol_from) o items.
Proof. reflexivity. Qed.
Lemma Symbol_rd o : Symbol_ok o = true -> Symbol_from (Symbol_tree o) = Ok o.
Proof.
  induction o as [o IH] using Symbol_ind2. destruct o as [a b c d e f g h x j k l m y p us]. sy_cbn_in IH. sy_cbn.
  intros H. facts0. cbn [app]. rewrite Symbol_from_eq.
  match goal with Hid : id_ok a b c d = true |- _ => rewrite (id_read _ _ _ _ Symbol_default Hid) end. cbn [bind].
  remember Symbol_from as rec eqn:Hrec. clear Hrec.
  remember (Symbol_step rec) as st eqn:Hst.
  assert (D : upd_id Symbol_default a b c d = mkSymbol a b c d VNone false false false VNone None None false [] [] [] []) by reflexivity.
  rewrite D. clear D.
  assert (F : forall j k m y p us, foldM st (mkSymbol a b c d e f false false VNone j k l m y p us)
            (if g then [node "pin_names" (optn "offset" x ++ optw "hide" h)] else [])
          = Ok (mkSymbol a b c d e f g h x j k l m y p us)).
  { intros. subst st. clear IH. destruct g.
    - apply fold_one. unfold Symbol_step. cbn. destruct x, h; try discriminate; reflexivity.
    - cbn in *. andbs. fixed_subst. subst. reflexivity. }
  rd_loop st (Symbol_step rec).
Qed.
#[export] Hint Resolve Symbol_rd : rd.
Lemma Symbol_ref : refuses Symbol_from ["symbol"%string].
Proof.
  repeat split.
  - intros e H. now destruct e.
  - eexists. reflexivity.
  - intros h l H. cbn [existsb] in H. rewrite orb_false_r in H. cbn. now rewrite H.
Qed.
Lemma Symbol_from_eq2 h id items : Symbol_from (VList (h :: id :: items)) =
  if h =s "symbol" then let! o := Symbol_set_libId id Symbol_default in foldM (Symbol_step Symbol_from) o items else Err EException.
Proof. reflexivity. Qed.
Lemma Symbol_ign : ignores Symbol_from 1 ["extends"%string; "pin_numbers"%string; "pin_names"%string; "in_bom"%string; "on_board"%string; "power"%string; "symbol"%string; "property"%string; "pin"%string; "arc"%string; "circle"%string; "curve"%string; "polyline"%string; "rectangle"%string; "text"%string; "text_box"%string].
Proof.
  intros h before u args after H Hu. cbn [existsb] in Hu.
  repeat (apply orb_false_elim in Hu; let E := fresh "E" in destruct Hu as [E Hu]).
  assert (U : forall o, Symbol_step Symbol_from o (VList (u :: args)) = Ok o).
  { intros o. unfold Symbol_step. cbn [at_ nth_error bind].
    repeat match goal with E : is_str u _ = false |- _ => rewrite E; clear E end. reflexivity. }
  clear - U H. kill_arg H before. cbn [app]. rewrite !Symbol_from_eq2. destruct (h =s "symbol"); [|reflexivity].
  destruct Symbol_set_libId; [|reflexivity]. cbn [bind]. apply (fold_ignore (Symbol_step Symbol_from)). exact U.
Qed.
Lemma Symbol_win : last_wins Symbol_from 1 ["extends"%string; "in_bom"%string; "on_board"%string; "power"%string].
Proof.
  intros h before k args1 args2 after o H Hk.
  assert (U : forall o o1, Symbol_step Symbol_from o (node k args1) = Ok o1 ->
     Symbol_step Symbol_from o1 (node k args2) = Symbol_step Symbol_from o (node k args2)).
  { clear - Hk. generalize Symbol_from as rec. intros rec [] o1. cbn [In] in Hk.
    repeat (destruct Hk as [Hk|Hk]; [subst k; unfold Symbol_step; red_step; intros E; res_cases; inversion E; subst; red_step; res_cases; solve [reflexivity]|]).
    destruct Hk. }
  clear - U H. kill_arg H before. cbn [app]. rewrite !Symbol_from_eq2. destruct (h =s "symbol"); [|discriminate].
  destruct Symbol_set_libId; [|discriminate]. cbn [bind]. refine (fold_wins (Symbol_step Symbol_from) _ _ U _ _ _ _).
Qed.
#[local] Transparent Property_ok Effects_ok Font_ok Justify_ok.
Lemma new_property_ok k w i h : quotableb k = true -> txtb w = true -> numb (VInt i) = true -> Property_ok (Symbol_new_property k w i h) = true.
Proof.
  intros Hk Hw Hi. unfold Property_ok, Symbol_new_property. cbn.
  rewrite Hw. unfold txtb at 1. rewrite Hk. unfold optb at 1. rewrite Hi. destruct h; vm_compute; reflexivity.
Qed.
#[local] Opaque Property_ok Effects_ok Font_ok Justify_ok.
Lemma Symbol_new s r v f d : oneline s = true -> quotableb s = true -> txtb r = true -> txtb v = true -> txtb f = true -> txtb d = true ->
  exists o, Symbol_create_new (VStr s) r v f d = Ok o /\ Symbol_ok o = true
    /\ Symbol_set_libId (VStr s) (Symbol_default <| sy_inBom := Some true |> <| sy_onBoard := Some true |>) = Ok (o <| sy_properties := [] |>)
    /\ map pr_key (sy_properties o) = [VStr $"Reference"; VStr $"Value"; VStr $"Footprint"; VStr $"Datasheet"]
    /\ map pr_value (sy_properties o) = [r; v; f; d]
    /\ sy_graphicItems o = [] /\ sy_pins o = [] /\ sy_units o = [].
Proof.
  intros Ho Hq Hr Hv Hf Hd. unfold Symbol_create_new. cbv zeta.
  destruct (set_get s (Symbol_default <| sy_inBom := Some true |> <| sy_onBoard := Some true |>)) as (o1 & E & _).
  pose proof (set_id_ok _ _ _ Ho Hq E) as Hid. rewrite E. cbn [bind]. pose proof (set_units _ _ _ E) as Eu.
  eexists. split; [reflexivity|]. revert Hid Eu. clear E. destruct o1. cbn. intros Hid Eu. injection Eu as -> -> -> -> -> -> -> -> -> -> -> ->.
  split; [|cbn; auto 10]. cbn. rewrite Hid, andb_true_r.
  now rewrite !new_property_ok.
Qed.
Lemma Symbol_rt : roundtrips Symbol_to Symbol_from Symbol_ok Symbol_norm Symbol_eqb.
Proof. exact (rt_of _ _ _ Symbol_tree _ _ Symbol_wr Symbol_rd Symbol_same Symbol_okn Symbol_idem). Qed.
Lemma Symbol_fmt : conforms Symbol_to Symbol_from Symbol_ok Symbol_norm Symbol_tree.
Proof. exact (fmt_of _ _ _ _ _ Symbol_wr Symbol_rd). Qed.
Global Opaque Symbol_from Symbol_tree Symbol_to Symbol_norm Symbol_ok Symbol_eqb.

Lemma SymbolLib_wr o i n : SymbolLib_ok o = true -> Wr (SymbolLib_to o i n) (flat (SymbolLib_tree (SymbolLib_norm o))).
Proof. wr SymbolLib_to SymbolLib_ok SymbolLib_tree SymbolLib_norm. Qed.
#[export] Hint Resolve SymbolLib_wr : wr.
Lemma SymbolLib_idem o : SymbolLib_norm (SymbolLib_norm o) = SymbolLib_norm o.
Proof. idem SymbolLib_norm. Qed.
#[export] Hint Rewrite SymbolLib_idem : idem.
Lemma SymbolLib_okn o : SymbolLib_ok o = true -> SymbolLib_ok (SymbolLib_norm o) = true.
Proof. okn SymbolLib_ok SymbolLib_norm. Qed.
#[export] Hint Resolve SymbolLib_okn : okn.
Lemma SymbolLib_hd o : exists l, SymbolLib_tree o = node "kicad_symbol_lib" l.
Proof. eexists. reflexivity. Qed.
#[export] Hint Resolve SymbolLib_hd : hd.
Lemma SymbolLib_rd o : SymbolLib_ok o = true -> SymbolLib_from (SymbolLib_tree o) = Ok o.
Proof. rd SymbolLib_ok SymbolLib_from SymbolLib_tree SymbolLib_step. Qed.
#[export] Hint Resolve SymbolLib_rd : rd.
Lemma SymbolLib_same o : SymbolLib_eqb o (SymbolLib_norm o) = true.
Proof. same SymbolLib_eqb SymbolLib_norm. Qed.
#[export] Hint Resolve SymbolLib_same : same.
Lemma SymbolLib_rt : roundtrips SymbolLib_to SymbolLib_from SymbolLib_ok SymbolLib_norm SymbolLib_eqb.
Proof. exact (rt_of _ _ _ SymbolLib_tree _ _ SymbolLib_wr SymbolLib_rd SymbolLib_same SymbolLib_okn SymbolLib_idem). Qed.
Lemma SymbolLib_fmt : conforms SymbolLib_to SymbolLib_from SymbolLib_ok SymbolLib_norm SymbolLib_tree.
Proof. exact (fmt_of _ _ _ _ _ SymbolLib_wr SymbolLib_rd). Qed.
Lemma SymbolLib_ref : refuses SymbolLib_from ["kicad_symbol_lib"%string].
Proof. refuse SymbolLib_from. Qed.
Lemma SymbolLib_ign : ignores SymbolLib_from 0 ["version"%string; "generator"%string; "symbol"%string].
Proof. ign SymbolLib_from SymbolLib_step O. Qed.
Lemma SymbolLib_win : last_wins SymbolLib_from 0 ["version"%string; "generator"%string].
Proof. wins SymbolLib_from SymbolLib_step O. Qed.
Global Opaque SymbolLib_from SymbolLib_tree SymbolLib_to SymbolLib_norm SymbolLib_ok SymbolLib_eqb.

Lemma Symbol_new_rt s r v f d : oneline s = true -> quotableb s = true -> txtb r = true -> txtb v = true -> txtb f = true -> txtb d = true ->
  exists o, Symbol_create_new (VStr s) r v f d = Ok o /\ Symbol_ok o = true
    /\ map pr_key (sy_properties o) = [VStr $"Reference"; VStr $"Value"; VStr $"Footprint"; VStr $"Datasheet"]
    /\ map pr_value (sy_properties o) = [r; v; f; d]
    /\ sy_graphicItems o = [] /\ sy_pins o = [] /\ sy_units o = [] /\ (Symbol_libId o = s <-> ~ lossy s)
    /\ forall i n, exists o', write_read Symbol_to Symbol_from o i n = Ok o' /\ Symbol_eqb o o' = true.
Proof.
  intros Ho Hq Hr Hv Hf Hd. destruct (Symbol_new s r v f d Ho Hq Hr Hv Hf Hd) as (o & E & K & Es & H1 & H2 & H3 & H4 & H5).
  exists o. repeat split; try assumption.
  - destruct (set_get s (Symbol_default <| sy_inBom := Some true |> <| sy_onBoard := Some true |>)) as (o1 & E1 & G).
    rewrite Es in E1. injection E1 as <-. apply G.
  - destruct (set_get s (Symbol_default <| sy_inBom := Some true |> <| sy_onBoard := Some true |>)) as (o1 & E1 & G).
    rewrite Es in E1. injection E1 as <-. apply G.
  - intros i n. exists (Symbol_norm o). destruct (Symbol_rt o K) as (R & S & _). split; [apply R|exact S].
Qed.
