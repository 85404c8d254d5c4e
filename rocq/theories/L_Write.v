(** Proofs for C47: which objects can be written *)
From Verif Require Import PyBase PyNum PyStr L_Num M_Common M_Lib M_Sym M_Fp M_Gr M_Zone M_Footprint M_Dim M_Brd M_Board M_Sch M_Schematic M_Wks S_Write.

(** is there a text? *)
Definition is_ok {A} (m : res A) : bool := match m with Ok _ => true | Err _ => false end.
Lemma is_ok_ex {A} (m : res A) : (exists s, m = Ok s) <-> is_ok m = true.
Proof. destruct m as [s|e]; split; intros H; [reflexivity|now exists s|destruct H; discriminate|discriminate]. Qed.
Lemma always {A} (m : res A) : is_ok m = true -> exists s, m = Ok s.
Proof. apply is_ok_ex. Qed.
Lemma when {A} (m : res A) b : is_ok m = b -> ((exists s, m = Ok s) <-> b = true).
Proof. intros <-. apply is_ok_ex. Qed.
Lemma ok_ok {A} (s : A) : is_ok (Ok s) = true. Proof. reflexivity. Qed.
Lemma ok_err {A} e : is_ok (@Err A e) = false. Proof. reflexivity. Qed.
Lemma ok_bind {A B} (m : res A) (k : A -> res B) a b : is_ok m = a -> (forall x, is_ok (k x) = b) -> is_ok (bind m k) = a && b.
Proof. intros <- H. destruct m; cbn; auto. Qed.
Lemma ok_bind1 {A B} (m : res A) (k : A -> res B) b : is_ok m = true -> (forall x, is_ok (k x) = b) -> is_ok (bind m k) = b.
Proof. intros E H. destruct m; cbn; auto. discriminate. Qed.
Lemma ok_bind2 {A B} (m : res A) (k : A -> res B) b : is_ok m = b -> (forall x, is_ok (k x) = true) -> is_ok (bind m k) = b.
Proof. intros <- H. destruct m; cbn; auto. Qed.
Lemma forallb_ext2 {A} (f g : A -> bool) l : (forall x, f x = g x) -> forallb f l = forallb g l.
Proof. intros H. induction l; cbn; congruence. Qed.
Lemma ok_concat {A} (f : A -> res str) g l : (forall x, is_ok (f x) = g x) -> is_ok (concatM f l) = forallb g l.
Proof. intros H. induction l as [|x l IH]; [reflexivity|]. cbn [concatM forallb]. rewrite <- H, <- IH. destruct (f x); cbn; auto. now destruct (concatM f l). Qed.
Lemma ok_concat1 {A} (f : A -> res str) l : (forall x, is_ok (f x) = true) -> is_ok (concatM f l) = true.
Proof. intros H. rewrite (ok_concat f (fun _ => true) l H). induction l; auto. Qed.
Lemma ok_map {A B} (f : A -> res B) g l : (forall x, is_ok (f x) = g x) -> is_ok (mapM f l) = forallb g l.
Proof. intros H. induction l as [|x l IH]; [reflexivity|]. cbn [mapM forallb]. rewrite <- H, <- IH. destruct (f x); cbn; auto. now destruct (mapM f l). Qed.
Lemma ok_opt {A} (o : option A) f g : (forall x, is_ok (f x) = g x) -> is_ok (opt_str o f) = if_set g o.
Proof. intros H. destruct o; cbn; auto. Qed.
Lemma ok_opt1 {A} (o : option A) f : (forall x, is_ok (f x) = true) -> is_ok (opt_str o f) = true.
Proof. intros H. destruct o; cbn; auto. Qed.
Lemma ok_if {A} (c : bool) (m k : res A) a b : is_ok m = a -> is_ok k = b -> is_ok (if c then m else k) = if c then a else b.
Proof. destruct c; auto. Qed.
Lemma ok_if1 {A} (c : bool) (m k : res A) a : is_ok m = a -> is_ok k = a -> is_ok (if c then m else k) = a.
Proof. destruct c; auto. Qed.
Lemma ok_if2 {A} (c : bool) (m k : res A) a : is_ok m = true -> is_ok k = a -> is_ok (if c then m else k) = c || a.
Proof. destruct c; auto. Qed.
Lemma ok_if3 {A} (c : bool) (m k : res A) a : is_ok m = a -> is_ok k = true -> is_ok (if c then m else k) = negb c || a.
Proof. destruct c; auto. Qed.
Lemma ok_if4 {A} (c : bool) (m k : res A) a : is_ok m = false -> is_ok k = a -> is_ok (if c then m else k) = negb c && a.
Proof. destruct c; auto. Qed.
Lemma ok_omatch {A B} (c : option A) (m : A -> res B) k g b : (forall x, is_ok (m x) = g x) -> is_ok k = b -> is_ok (match c with Some x => m x | None => k end) = match c with Some x => g x | None => b end.
Proof. destruct c; auto. Qed.
Lemma ok_omatch1 {A B} (c : option A) (m : A -> res B) k : (forall x, is_ok (m x) = true) -> is_ok k = true -> is_ok (match c with Some x => m x | None => k end) = true.
Proof. destruct c; auto. Qed.
Lemma ok_section {A} (f : A -> res str) g l : (forall x, is_ok (f x) = g x) -> is_ok (section f l) = forallb g l.
Proof. intros H. unfold section. destruct l as [|x l]; [reflexivity|]. cbn [length Nat.eqb].
  rewrite <- (ok_concat f g (x :: l) H). now destruct (concatM f (x :: l)). Qed.
Lemma ok_section1 {A} (f : A -> res str) l : (forall x, is_ok (f x) = true) -> is_ok (section f l) = true.
Proof. intros H. rewrite (ok_section f (fun _ => true) l H). induction l; auto. Qed.
Create HintDb okd.
Ltac okt := (* the value is true *)
  solve [ repeat lazymatch goal with
  | |- is_ok (Ok _) = true => reflexivity
  | |- is_ok (bind _ _) = true => apply ok_bind1; [|intros ?]
  | |- is_ok (concatM _ _) = true => apply ok_concat1; intros ?
  | |- is_ok (section _ _) = true => apply ok_section1; intros ?
  | |- is_ok (opt_str _ _) = true => apply ok_opt1; intros ?
  | |- is_ok (match ?c with _ => _ end) = true => destruct c
  | |- is_ok (let _ := _ in _) = true => cbv zeta
  | |- is_ok _ = true => solve [auto 1 with okd nocore]
  end ].
Ltac okc :=
  lazymatch goal with
  | |- is_ok (Ok _) = _ => apply ok_ok
  | |- is_ok (Err _) = _ => apply ok_err
  | |- is_ok (bind _ _) = _ => first [eapply ok_bind1; [okt|intros ?; okc] | eapply ok_bind2; [okc|intros ?; okt] | eapply ok_bind; [okc|intros ?; okc]]
  | |- is_ok (concatM _ _) = _ => first [eapply ok_concat1; intros ?; okt | eapply ok_concat; intros ?; okc]
  | |- is_ok (section _ _) = _ => first [eapply ok_section1; intros ?; okt | eapply ok_section; intros ?; okc]
  | |- is_ok (mapM _ _) = _ => eapply ok_map; intros ?; okc
  | |- is_ok (opt_str _ _) = _ => first [eapply ok_opt1; intros ?; okt | eapply ok_opt; intros ?; okc]
  | |- is_ok (let _ := _ in _) = _ => cbv zeta; okc
  | |- is_ok (match _ with _ => _ end) = _ => first [eapply ok_if4; [apply ok_err|okc] | okt | eapply ok_if2; [okt|okc] | eapply ok_if3; [okc|okt] | eapply ok_if; [okc|okc]
      | eapply ok_omatch; [intros ?; okc|okc] ]
  | |- is_ok _ = _ => first [solve [eauto 1 with okd nocore] | reflexivity]
  end.

(** ** Numbers with a fixed number of digits *)
Local Open Scope Z_scope.
Lemma dec_int_fits neg a : 0 <= a ->
  (match dec_to_dbl neg a 0 with DFin _ _ _ => true | DInf _ => false end) = (a <? 2 ^ 1024 - 2 ^ 970).
Proof.
  intros Ha. unfold dec_to_dbl. destruct (Z.eqb_spec a 0) as [->|Ha0]; [reflexivity|].
  change (0 <=? 0) with true. cbv iota. rewrite Z.pow_0_r, Z.mul_1_r.
  unfold round_pos. rewrite mag2_one by lia.
  pose proof (Z.log2_nonneg a) as Nl. pose proof (Z.log2_spec a ltac:(lia)) as L.
  set (l := Z.log2 a) in *. unfold emin, emax.
  assert (P970 : 0 < 2 ^ 970) by (apply pow2_pos; lia).
  assert (E971 : 2 ^ 971 = 2 * 2 ^ 970) by (rewrite <- Z.pow_succ_r by lia; reflexivity).
  assert (E1024 : 2 ^ 1024 = two53 * (2 * 2 ^ 970)).
  { rewrite <- E971. change two53 with (2 ^ 53). rewrite <- Z.pow_add_r by lia. reflexivity. }
  destruct (Z.lt_trichotomy l 1023) as [Hl|[Hl|Hl]].
  - assert (H : a < 2 ^ 1023). { apply Z.lt_le_trans with (2 ^ Z.succ l); [lia|]. apply Z.pow_le_mono_r; lia. }
    assert (E1023 : 2 ^ 1024 = 2 * 2 ^ 1023) by (rewrite <- Z.pow_succ_r by lia; reflexivity).
    assert (2 ^ 970 <= 2 ^ 1023) by (apply Z.pow_le_mono_r; lia).
    set (e := Z.max _ _). assert (e <= 970) by (unfold e; lia). destruct (scale2 a 1 (- e)) as [x y].
    destruct (rne x y =? two53); [destruct (Z.ltb_spec 971 (e + 1)); [lia|]|destruct (Z.ltb_spec 971 e); [lia|]];
    symmetry; apply Z.ltb_lt; lia.
  - rewrite Hl in L |- *. change (Z.max (1023 - 52) (-1074)) with 971. unfold scale2.
    change (0 <=? - (971)) with false. cbv iota. change (- - (971)) with 971. rewrite Z.mul_1_l.
    rewrite E971. set (b := 2 ^ 970) in *. change (Z.succ 1023) with 1024 in L. rewrite E1024 in L |- *.
    unfold rne. pose proof (Z.div_mod a (2 * b) ltac:(lia)) as D. pose proof (Z.mod_pos_bound a (2 * b) ltac:(lia)) as B.
    set (q := a / (2 * b)) in *. set (r := a mod (2 * b)) in *.
    assert (Hq : q <= two53 - 1). { assert (q < two53); [|lia]. apply Z.div_lt_upper_bound; lia. }
    destruct (Z.ltb_spec a (two53 * (2 * b) - b)) as [H|H].
    + assert (two53 - 1 <= q -> r < b) by (intros; nia).
      destruct (Z.ltb_spec (2 * r) (2 * b)).
      { destruct (Z.eqb_spec q two53); [lia|]. reflexivity. }
      assert (q < two53 - 1) by lia.
      destruct (Z.ltb_spec (2 * b) (2 * r)).
      { destruct (Z.eqb_spec (q + 1) two53); [lia|]. reflexivity. }
      destruct (Z.even q).
      { destruct (Z.eqb_spec q two53); [lia|]. reflexivity. }
      destruct (Z.eqb_spec (q + 1) two53); [lia|]. reflexivity.
    + assert (Q : q = two53 - 1) by nia. assert (R : b <= r) by nia.
      destruct (Z.ltb_spec (2 * r) (2 * b)); [lia|].
      destruct (Z.ltb_spec (2 * b) (2 * r)).
      { destruct (Z.eqb_spec (q + 1) two53); [|lia]. reflexivity. }
      rewrite Q at 1. change (Z.even (two53 - 1)) with false. cbv iota.
      destruct (Z.eqb_spec (q + 1) two53); [|lia]. reflexivity.
  - assert (H : 2 ^ 1024 <= a). { apply Z.le_trans with (2 ^ l); [|lia]. apply Z.pow_le_mono_r; lia. }
    set (e := Z.max _ _). assert (972 <= e) by (unfold e; lia). destruct (scale2 a 1 (- e)) as [x y].
    destruct (rne x y =? two53); [destruct (Z.ltb_spec 971 (e + 1)); [|lia]|destruct (Z.ltb_spec 971 e); [|lia]];
    symmetry; apply Z.ltb_ge; lia.
Qed.
Local Close Scope Z_scope.
Lemma ok_fixed p v : is_ok (fmt_fixed p v) = number v.
Proof.
  destruct v as [| |z|[n m e|n]| |]; cbn [fmt_fixed number]; try reflexivity.
  - rewrite <- (dec_int_fits (z <? 0)%Z) by apply Z.abs_nonneg.
    destruct (dec_to_dbl _ _ _) as [n m e|]; [|reflexivity]. now destruct (dbl_ratio m e).
  - now destruct (dbl_ratio m e).
Qed.
#[export] Hint Resolve ok_fixed : okd.
Lemma ok_none_fixed v : is_none v || number v = no_or_number v.
Proof. now destruct v. Qed.
Lemma ok_join s l : is_ok (py_join s l) = forallb is_text l.
Proof.
  unfold py_join. transitivity (is_ok (mapM as_text l)); [now destruct (mapM as_text l)|].
  apply ok_map. now intros [].
Qed.
#[export] Hint Resolve ok_join : okd.
Lemma ok_len v : is_ok (len_ v) = sized v.
Proof. now destruct v. Qed.
#[export] Hint Resolve ok_len : okd.
Lemma ok_pts l : is_ok (sch_pts l) = true.
Proof. unfold sch_pts. okt. Qed.
#[export] Hint Resolve ok_pts : okd.
Lemma ok_pad_layers l : is_ok (Pad_layers_text l) = forallb searchable l.
Proof.
  unfold Pad_layers_text. transitivity (is_ok (concatM Pad_layer_text l)); [now destruct (concatM Pad_layer_text l)|].
  apply ok_concat. intros [| | | |s|v]; try reflexivity; unfold Pad_layer_text; cbn [py_in bind]; now destruct (_ || _).
Qed.
#[export] Hint Resolve ok_pad_layers : okd.
Lemma ok_zone_layers l : is_ok (Zone_layer_token l) = match l with [] => false | _ => true end.
Proof. destruct l as [|x [|]]; cbn; try reflexivity. now destruct (_ && _). Qed.
#[export] Hint Resolve ok_zone_layers : okd.
(** ** Finishing: the computed condition is the stated one *)
Ltac okf := rewrite <- ?andb_assoc, ?andb_true_r; reflexivity.
Ltac okx := etransitivity; [cbv zeta beta; okc|okf].
