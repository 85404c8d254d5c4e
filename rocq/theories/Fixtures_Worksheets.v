(** Fixtures of the unit tests in /repo/tests/test_worksheets.py: the model writes, byte by byte, the files the tests expect.
    Generated by tools/fixtures.py. *)
From Coq Require Import String.
From Verif Require Import PyBase PyNum PyStr Sexpr RecordSet M_Common M_Lib M_Sym M_Fp M_Gr M_Zone M_Footprint M_Dim M_Brd M_Board M_Sch M_Schematic M_Wks.

Fixpoint same (a b : str) : bool := match a, b with [], [] => true | x :: a', y :: b' => N.eqb x y && same a' b' | _, _ => false end.
Definition gives (m : res str) (t : str) : bool := match m with Ok s => same s t | Err _ => false end.
Definition nth_set {A} (k : nat) (f : A -> A) (l : list A) : list A := match skipn k l with x :: r => firstn k l ++ f x :: r | [] => l end.
Definition nth_try {A} (k : nat) (f : A -> res A) (l : list A) : res (list A) := match skipn k l with x :: r => let! y := f x in Ok (firstn k l ++ y :: r) | [] => Err EIndex end.
Definition read {A} (from : val -> res A) (t : str) : res A := let! v := parse_sexp t in from v.

Definition want_createNewWorksheet : str := concat [
$"(kicad_wks (version 20211014) (generator kiutils)" ++ nl;
$"  (setup (textsize 1.5 1.5)(linewidth 0.15)(textlinewidth 0.15)" ++ nl;
$"  (left_margin 10.0)(right_margin 10.0)(top_margin 10.0)(bottom_margin 10.0))" ++ nl;
$")" ++ nl].
Example fixture_createNewWorksheet : gives (let! o := (Ok WorkSheet_create_new) in (fun o => WorkSheet_to o 0 true) o) want_createNewWorksheet = true.
Proof. vm_compute. reflexivity. Qed.
