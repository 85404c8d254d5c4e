(** The frame of the written text. *)
From Verif Require Import PyBase PyNum PyStr S_Layout L_Keep.

(** [t newline] ends in a closing parenthesis and the line feed *)
Definition Tail (t : bool -> str) : Prop := exists b, forall n, t n = b ++ [41%N] ++ eol n.
Lemma Tail_app a t : Tail t -> Tail (fun n => a ++ t n).
Proof. intros [b H]. exists (a ++ b). intros n. now rewrite H, <- app_assoc. Qed.
Lemma Tail_lit a b : a = b ++ [41%N] -> Tail (fun n => a ++ eol n).
Proof. intros ->. exists b. intros n. now rewrite <- app_assoc. Qed.
Lemma Tail_if (c : bool) t u : Tail t -> Tail u -> Tail (fun n => if c then t n else u n).
Proof. destruct c; auto. Qed.
Lemma lay_end i lit lit' t : lit = [40%N] ++ lit' -> Tail t ->
  exists body, forall n, Ok (spaces i ++ lit ++ t n) = Ok (framed i n body).
Proof. intros -> [b H]. exists (lit' ++ b). intros n. rewrite H. unfold framed, spaces, eol, nl. f_equal. f_equal. cbn [app]. f_equal. now rewrite <- app_assoc. Qed.
Lemma lay_end2 i x r t : x = spaces i ++ [40%N] ++ r -> Tail t -> exists body, forall n, Ok (x ++ t n) = Ok (framed i n body).
Proof. intros -> [b H]. exists (r ++ b). intros n. rewrite H. unfold framed, spaces, eol, nl. f_equal. now rewrite <- !app_assoc. Qed.
Lemma lay_lines i lit lit' b : lit = [40%N] ++ lit' -> forall t, t = b ++ [41%N] ++ nl ->
  exists body, forall n : bool, Ok (spaces i ++ lit ++ t) = Ok (framed i true body).
Proof. intros -> t ->. exists (lit' ++ b). intros _. unfold framed, spaces, nl. f_equal. f_equal. cbn [app]. f_equal. now rewrite <- app_assoc. Qed.
Lemma cut_paren a : forall b, rev a = 41%N :: b -> a = rev b ++ [41%N].
Proof. intros b H. rewrite <- (rev_involutive a), H. reflexivity. Qed.
Ltac tail_in :=
  lazymatch goal with
  | |- Tail (fun n => ?a ++ eol n) => eapply Tail_lit; apply cut_paren; vm_compute; reflexivity
  | |- Tail (fun n => ?a ++ _) => apply (Tail_app a); tail_in
  | |- Tail (fun n => if ?c then _ else _) => apply (Tail_if c); tail_in
  end.
Ltac lay_steps :=
  repeat lazymatch goal with
  | |- Ok _ = Ok _ -> _ => intros _
  | |- Err _ = Ok _ -> _ => discriminate
  | |- bind (Ok _) _ = Ok _ -> _ => cbn [bind]
  | |- bind (Err _) _ = Ok _ -> _ => discriminate
  | |- bind (bind (Ok _) _) _ = Ok _ -> _ => cbn [bind]
  | |- bind (bind (Err _) _) _ = Ok _ -> _ => discriminate
  | |- bind (bind ?m _) _ = Ok _ -> _ => destruct m; cbn [bind]
  | |- bind (if ?b then _ else _) _ = Ok _ -> _ => destruct b; cbn [bind]
  | |- bind (match ?b with _ => _ end) _ = Ok _ -> _ => destruct b; cbn [bind]
  | |- bind ?m _ = Ok _ -> _ => destruct m; cbn [bind]
  | |- (if ?b then _ else _) = Ok _ -> _ => destruct b
  | |- (match ?b with _ => _ end) = Ok _ -> _ => destruct b
  end.
Ltac lay_final :=
  first [ intros ?; reflexivity
        | eapply lay_end; [vm_compute; reflexivity | tail_in]
        | eapply lay_end2; [cbv iota; apply f_equal; vm_compute; reflexivity | tail_in] ].
Ltac lay_in X_to := intros o indent n s; unfold X_to; cbv zeta; lay_steps; lay_final.
Ltac lay_coords := try (lazymatch goal with |- context [match ?c with [] => true | _ :: _ => false end] => destruct c end; cbn [Datatypes.length Nat.eqb]).
Lemma lines_last i lit lit' t : lit = [40%N] ++ lit' -> (exists b, t = b ++ [41%N] ++ nl) -> exists body, forall n : bool, Ok (spaces i ++ lit ++ t) = Ok (framed i true body).
Proof. intros H [b E]. exact (lay_lines i lit lit' b H t E). Qed.
Lemma lines_app a t : (exists b, t = b ++ [41%N] ++ nl) -> exists b, a ++ t = b ++ [41%N] ++ nl.
Proof. intros [b ->]. exists (a ++ b). now rewrite <- app_assoc. Qed.
Lemma lines_lit a b : a = b ++ [41%N] -> exists b, a ++ nl = b ++ [41%N] ++ nl.
Proof. intros ->. exists b. now rewrite <- app_assoc. Qed.
Ltac lay_lines_final :=
  first [ intros ?; reflexivity
        | eapply lines_last; [vm_compute; reflexivity | repeat first [eapply lines_lit; apply cut_paren; vm_compute; reflexivity | apply lines_app]] ].
Lemma lays_out_last {A} (to : A -> nat -> bool -> res str) : lays_out to -> forall o i s, to o i false = Ok s -> last s 0%N = 41%N.
Proof.
  intros H o i s E. destruct (H o i false s E) as [b F]. specialize (F false). rewrite E in F. injection F as ->.
  unfold framed. rewrite app_nil_r, !app_assoc. apply last_last.
Qed.
