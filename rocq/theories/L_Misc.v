(** Positional expressions and the readers without the usual shape: proofs. *)
From Verif Require Import PyBase PyNum PyStr PyRe Sexpr S_Leaf S_Tree S_Reader L_Lex L_Seq L_Tac M_Common M_Lib M_Sym M_Brd M_Footprint M_Sch M_Wks.

(* the shape of a list that a positional reader accepts *)
Ltac tail_of l := lazymatch l with _ :: ?t => tail_of t | _ => l end.
Ltac shape n :=
  lazymatch n with
  | O => idtac
  | S ?m => match goal with E : context [VList ?l] |- _ => let t := tail_of l in destruct t as [|? t]; [try discriminate E | shape m] end
  end.
Ltac pos_fwd X_from n :=
  let E := fresh "E" in intros E;
  match type of E with ?r ?e = _ => destruct e as [| | | | |l]; try discriminate E end;
  shape n; unfold X_from, need_head, need_list in E; cbn [bind at_ nth_error length] in E.
Ltac heads E :=
  repeat match type of E with context [is_str ?h ?k] => let B := fresh "B" in destruct (is_str h k) eqn:B; cbn [bind negb] in E; [|discriminate E];
    apply is_str_eq in B; subst h end.

Lemma Coordinate_pos e o : Coordinate_from e = Ok o <-> exists x y z, e = node "xyz" [x; y; z] /\ o = mkCoordinate x y z.
Proof.
  split; [|intros (x & y & z & -> & ->); reflexivity].
  pos_fwd Coordinate_from 4%nat. destruct l; [|discriminate E]. cbn in E. heads E. injection E as <-. now exists v0, v1, v2.
Qed.
Lemma ColorRGBA_pos e o : ColorRGBA_from e = Ok o <-> exists r g b a, e = node "color" [r; g; b; a] /\ o = mkColorRGBA r g b a VNone.
Proof.
  split; [|intros (r & g & b & a & -> & ->); reflexivity].
  pos_fwd ColorRGBA_from 5%nat. destruct l; [|discriminate E]. cbn in E. heads E. injection E as <-. now exists v0, v1, v2, v3.
Qed.
Lemma TextSize_pos e o : TextSize_from e = Ok o <-> exists w h, e = node "textsize" [w; h] /\ o = mkTextSize w h.
Proof.
  split; [|intros (w & h & -> & ->); reflexivity].
  pos_fwd TextSize_from 3%nat. destruct l; [|discriminate E]. cbn in E. heads E. injection E as <-. now exists v0, v1.
Qed.
Lemma WksFontSize_pos e o : WksFontSize_from e = Ok o <-> exists w h, e = node "size" [w; h] /\ o = mkWksFontSize w h.
Proof.
  split; [|intros (w & h & -> & ->); reflexivity].
  pos_fwd WksFontSize_from 3%nat. destruct l; [|discriminate E]. cbn in E. heads E. injection E as <-. now exists v0, v1.
Qed.
Lemma LayerToken_pos e o : LayerToken_from e = Ok o <->
  exists n name type u, e = VList ([n; name; type] ++ u) /\ (length u <= 1)%nat
    /\ o = mkLayerToken n name type (match u with [] => VNone | x :: _ => x end).
Proof.
  split.
  - pos_fwd LayerToken_from 3%nat. destruct l as [|u [|w l]]; cbn in E; [| |discriminate E]; injection E as <-;
      [exists v, v0, v1, []|exists v, v0, v1, [u]]; repeat split; cbn; lia.
  - intros (n & m & t & u & -> & L & ->). destruct u as [|x [|y u]]; [reflexivity|reflexivity|cbn in L; lia].
Qed.
Lemma BusAlias_pos e o : BusAlias_from e = Ok o <-> exists name members, e = node "bus_alias" [name; node "members" members] /\ o = mkBusAlias name members.
Proof.
  split; [|intros (n & m & -> & ->); reflexivity].
  pos_fwd BusAlias_from 3%nat; heads E; try discriminate E. destruct l; [|discriminate E]. cbn in E.
  destruct v1 as [| | | | |m]; try discriminate E. destruct m as [|h m]; [discriminate E|]. cbn in E. heads E.
  cbn in E. injection E as <-. now exists v0, m.
Qed.
Lemma BusAlias_err e x : BusAlias_from e = Err x <->
  (x = EIndex /\ (e = VList [] \/ exists name, e = node "bus_alias" [name; VList []]))
  \/ (x = EException /\ e <> VList [] /\ (forall name, e <> node "bus_alias" [name; VList []])
     /\ forall name members, e <> node "bus_alias" [name; node "members" members]).
Proof.
  assert (D : (e = VList [] \/ exists name, e = node "bus_alias" [name; VList []]) \/ (exists name members, e = node "bus_alias" [name; node "members" members])
    \/ (BusAlias_from e = Err EException /\ e <> VList [] /\ (forall name, e <> node "bus_alias" [name; VList []])
       /\ forall name members, e <> node "bus_alias" [name; node "members" members])).
  { destruct e as [| | | | |l]. 1-5: (right; right; repeat split; [discriminate|discriminate|discriminate]).
    destruct l as [|h l]; [now left; left|]. destruct (is_str h "bus_alias") eqn:E.
    2:{ right; right. unfold BusAlias_from, need_head. cbn. rewrite E. repeat split; try discriminate; intros; intros [= -> _]; discriminate E. }
    apply is_str_eq in E. subst h.
    destruct l as [|n [|m [|y l]]]. 1,2,4: (right; right; repeat split; discriminate).
    destruct m as [| | | | |m]. 1-5: (right; right; repeat split; discriminate).
    destruct m as [|k m]; [left; right; now exists n|]. destruct (is_str k "members") eqn:E.
    - apply is_str_eq in E. subst k. right; left. now exists n, m.
    - right; right. unfold BusAlias_from, need_head. cbn. rewrite E. repeat split; try discriminate; intros; intros [= _ -> _]; discriminate E. }
  split.
  - intros H. destruct D as [D|[(n & m & ->)|(E & N)]]; [left|discriminate H|right].
    + split; [|assumption]. destruct D as [->|[n ->]]; [change (@Err BusAlias EIndex = Err x) in H|change (@Err BusAlias EIndex = Err x) in H]; congruence.
    + split; [congruence|assumption].
  - intros [[-> [->|[n ->]]]|[-> (N1 & N2 & N3)]]; [reflexivity|reflexivity|].
    destruct D as [[->|[n ->]]|[(n & m & ->)|(E & _)]]; [congruence|now destruct (N2 n)|now destruct (N3 n m)|assumption].
Qed.
Lemma Net_pos e o : Net_from e = Ok o <-> exists n name rest, e = node "net" ([n; name] ++ rest) /\ o = mkNet n name.
Proof.
  split; [|intros (n & m & r & -> & ->); reflexivity].
  pos_fwd Net_from 3%nat; heads E; try discriminate E. cbn in E. injection E as <-. now exists v0, v1, l.
Qed.
Lemma SymbolAlternativePin_pos e o : SymbolAlternativePin_from e = Ok o <->
  exists name type style rest, e = node "alternate" ([name; type; style] ++ rest) /\ o = mkSymbolAlternativePin name type style.
Proof.
  split; [|intros (n & m & s & r & -> & ->); reflexivity].
  pos_fwd SymbolAlternativePin_from 4%nat; heads E; try discriminate E. cbn in E. injection E as <-. now exists v0, v1, v2, l.
Qed.
Lemma WksPosition_pos e o : WksPosition_from e = Ok o <->
  exists h x y rest, e = VList ([h; x; y] ++ rest) /\ o = mkWksPosition x y (match rest with [] => VNone | c :: _ => c end).
Proof.
  split; [|intros (h & x & y & [|c r] & -> & ->); reflexivity].
  pos_fwd WksPosition_from 3%nat. destruct l as [|c l]; cbn in E; injection E as <-; [now exists v, v0, v1, []|now exists v, v0, v1, (c :: l)].
Qed.
Lemma fold_step {A B} (f : A -> B -> res A) o x l : foldM f o (x :: l) = bind (f o x) (fun o => foldM f o l).
Proof. reflexivity. Qed.
Lemma pos_unlocked l : forall o, foldM (fun o item => on (item =s "unlocked") (setf po_unlocked (Ok true)) o) o l
  = Ok (o <| po_unlocked := (po_unlocked o || existsb (fun x => x =s "unlocked") l)%bool |>).
Proof.
  induction l as [|x l IH]; intros [X Y a u].
  - cbn. now rewrite orb_false_r.
  - rewrite fold_step. cbn [existsb].
    destruct (x =s "unlocked"); cbn [on setf bind]; rewrite IH; cbn; [now rewrite orb_true_r|reflexivity].
Qed.
Lemma Position_pos e o : Position_from e = Ok o <->
  exists h x y rest, e = VList ([h; x; y] ++ rest)
    /\ o = mkPosition x y (match rest with [] => VNone | a :: _ => if a =s "unlocked" then VNone else a end)
             (existsb (fun x => x =s "unlocked") ([h; x; y] ++ rest)).
Proof.
  assert (A : forall h x y rest, Position_from (VList ([h; x; y] ++ rest)) = Ok (mkPosition x y (match rest with [] => VNone | a :: _ => if a =s "unlocked" then VNone else a end)
             (existsb (fun x => x =s "unlocked") ([h; x; y] ++ rest)))).
  { intros h x y rest. unfold Position_from. cbn [app length Nat.ltb Nat.leb at_ nth_error setf bind].
    destruct rest as [|a rest]; cbn [length Nat.leb on bind].
    - rewrite pos_unlocked. reflexivity.
    - destruct (a =s "unlocked") eqn:E; cbn [negb on setf bind]; rewrite pos_unlocked; reflexivity. }
  split; [|intros (h & x & y & r & -> & ->); apply A].
  intros E. destruct e as [| | | | |l]; try discriminate E. shape 3%nat.
  pose proof (A v v0 v1 l) as A'. cbn [app] in A'. rewrite A' in E. injection E as <-. now exists v, v0, v1, l.
Qed.
Lemma page_portrait l : forall o, foldM PageSettings_step o l = Ok (o <| pg_portrait := (pg_portrait o || existsb (fun x => x =s "portrait") l)%bool |>).
Proof.
  induction l as [|x l IH]; intros [s w h p].
  - cbn. now rewrite orb_false_r.
  - rewrite fold_step. cbn [existsb]. unfold PageSettings_step at 1.
    destruct (x =s "portrait"); cbn [on setf bind]; rewrite IH; cbn; [now rewrite orb_true_r|reflexivity].
Qed.
Lemma PageSettings_pos e o : PageSettings_from e = Ok o <->
  exists size rest, e = node "paper" (size :: rest)
    /\ (size =s "User" = true -> (2 <= length rest)%nat)
    /\ o = mkPageSettings size (if size =s "User" then nth 0 rest VNone else VNone) (if size =s "User" then nth 1 rest VNone else VNone)
             (existsb (fun x => x =s "portrait") (size :: rest)).
Proof.
  assert (A : forall size rest, (size =s "User" = true -> (2 <= length rest)%nat) ->
    PageSettings_from (node "paper" (size :: rest)) = Ok (mkPageSettings size (if size =s "User" then nth 0 rest VNone else VNone) (if size =s "User" then nth 1 rest VNone else VNone)
             (existsb (fun x => x =s "portrait") (size :: rest)))).
  { intros s r L. unfold PageSettings_from, need_head, need_list, node. cbn [bind at_ nth_error]. change (is_str (VStr (lit "paper")) "paper") with true.
    cbn [bind setf]. cbn. destruct (s =s "User") eqn:U.
    - specialize (L eq_refl). destruct r as [|a [|b r]]; [cbn in L; lia|cbn in L; lia|]. cbn [length Nat.ltb Nat.leb nth_error bind nth].
      cbn. rewrite page_portrait. reflexivity.
    - cbn [on bind]. rewrite page_portrait. reflexivity. }
  split; [|intros (s & r & -> & L & ->); now apply A].
  intros E. destruct e as [| | | | |l]; try discriminate E. destruct l as [|h l]; [discriminate E|].
  assert (B : h =s "paper" = true). { unfold PageSettings_from, need_head in E. cbn in E. destruct (h =s "paper"); [reflexivity|discriminate E]. }
  apply is_str_eq in B. subst h. destruct l as [|s l]; [discriminate E|].
  assert (L : s =s "User" = true -> (2 <= length l)%nat).
  { intros U. unfold PageSettings_from, need_head in E. cbn in E. rewrite U in E. cbn in E.
    destruct l as [|a [|b l]]; cbn; [discriminate E|discriminate E|lia]. }
  pose proof (A s l L) as A'. unfold node in A'. rewrite A' in E. injection E as <-. now exists s, l.
Qed.

(** ** Readers without the usual shape *)
Lemma Justify_ign : ignores Justify_from 0 [].
Proof. ign Justify_from Justify_step 0%nat. Qed.
Lemma Attributes_ign : ignores Attributes_from 1 [].
Proof.
  intros h b u a c L _. destruct b as [|x b]; [cbn in L; lia|]. unfold Attributes_from, need_head, need_list.
  cbn [app at_ nth_error bind]. destruct (is_str h "attr"); [|reflexivity]. cbn [bind].
  assert (N : forall l : list val, Nat.ltb 1 (length (h :: x :: l)) = true) by reflexivity. rewrite !N. cbn [on].
  match goal with |- bind ?m _ = bind ?m _ => destruct m; [cbn [bind]|reflexivity] end.
  apply fold_same. intros o. apply fold_same. intros o1. apply (fold_ignore Attributes_item). reflexivity.
Qed.
Lemma PageSettings_ign : ignores PageSettings_from 3 [].
Proof.
  intros h b u a c L _. destruct b as [|x [|y [|z b]]]; try (cbn in L; lia). unfold PageSettings_from, need_head, need_list.
  cbn [app at_ nth_error bind setf]. destruct (is_str h "paper"); [|reflexivity]. cbn [bind].
  assert (N : forall l : list val, Nat.ltb (length (h :: x :: y :: z :: l)) 4 = false) by (intros l; apply Nat.ltb_ge; cbn; lia). rewrite !N.
  match goal with |- bind ?m _ = bind ?m _ => destruct m; [cbn [bind]|reflexivity] end.
  do 4 (apply fold_same; intros ?). apply (fold_ignore PageSettings_step). reflexivity.
Qed.
Opaque Stroke_from Fill_from Position_from.
Lemma SyCurve_ref : refuses SyCurve_from ["curve"%string].
Proof. refuse SyCurve_from. Qed.
Lemma SyCurve_ign : ignores SyCurve_from 0 ["stroke"; "fill"; "pts"]%string.
Proof. ign SyCurve_from SyCurve_step 0%nat. Qed.
Lemma SyCurve_win : last_wins SyCurve_from 0 ["stroke"; "fill"]%string.
Proof. wins SyCurve_from SyCurve_step 0%nat. Qed.
Lemma DesignRules_ign : ignores DesignRules_from 0 ["version"; "rule"]%string.
Proof. ign DesignRules_from DesignRules_step 0%nat. Qed.
Lemma DesignRules_win : last_wins DesignRules_from 0 ["version"]%string.
Proof. wins DesignRules_from DesignRules_step 0%nat. Qed.
Lemma StackupLayer_ign : ignores StackupLayer_from 1 ["type"; "thickness"; "material"; "epsilon_r"; "loss_tangent"; "color"]%string.
Proof.
  intros h b u a c L Hu. destruct b as [|x b]; [cbn in L; lia|].
  cbn [existsb] in Hu. repeat (apply orb_false_elim in Hu; let E := fresh "E" in destruct Hu as [E Hu]).
  assert (U : forall s, StackupLayer_next s (VList (u :: a)) = Ok s).
  { intros [[t|] o]; cbn [StackupLayer_next is_list negb]; unfold StackupSubLayer_step, StackupLayer_own; cbn [at_ nth_error bind];
      repeat match goal with E : is_str u _ = false |- _ => rewrite E; clear E end; reflexivity. }
  unfold StackupLayer_from, need_head, need_list. cbn [app at_ nth_error bind skipn].
  destruct (is_str h "layer"); [|reflexivity]. cbn [bind setf].
  now rewrite (fold_ignore StackupLayer_next (VList (u :: a)) U).
Qed.
Lemma StackupLayer_win : last_wins StackupLayer_from 1 ["type"; "thickness"; "material"; "epsilon_r"; "loss_tangent"; "color"]%string.
Proof.
  intros h b k a1 a2 c o L Hk. destruct b as [|x b]; [cbn in L; lia|].
  assert (U : forall s s1, StackupLayer_next s (node k a1) = Ok s1 -> StackupLayer_next s1 (node k a2) = StackupLayer_next s (node k a2)).
  { clear - Hk. cbn [In] in Hk. intros [[[]|] []] s1; cbn [StackupLayer_next node is_list negb]; unfold node;
      repeat (destruct Hk as [Hk|Hk]; [subst k; unfold StackupSubLayer_step, StackupLayer_own; cbn [is_list negb]; red_step; intros E; res_cases;
        first [apply Ok_inj in E; subst s1 | inversion E; subst]; cbn [StackupLayer_next is_list negb]; unfold StackupSubLayer_step, StackupLayer_own; red_step; res_cases; solve [reflexivity]|]);
      destruct Hk. }
  unfold StackupLayer_from, need_head, need_list. cbn [app at_ nth_error bind skipn].
  destruct (is_str h "layer"); [|discriminate]. cbn [bind setf].
  match goal with |- bind ?m _ = _ -> _ => destruct m as [s|] eqn:E; [|discriminate] end.
  now rewrite (fold_wins StackupLayer_next _ _ U _ _ _ _ E).
Qed.
