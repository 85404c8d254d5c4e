(** Fixtures of the unit tests in /repo/tests/test_misc.py: the model writes, byte by byte, the files the tests expect.
    Generated by tools/fixtures.py. *)
From Coq Require Import String.
From Verif Require Import PyBase PyNum PyStr Sexpr RecordSet M_Common M_Lib M_Sym M_Fp M_Gr M_Zone M_Footprint M_Dim M_Brd M_Board M_Sch M_Schematic M_Wks.

Fixpoint same (a b : str) : bool := match a, b with [], [] => true | x :: a', y :: b' => N.eqb x y && same a' b' | _, _ => false end.
Definition gives (m : res str) (t : str) : bool := match m with Ok s => same s t | Err _ => false end.
Definition nth_set {A} (k : nat) (f : A -> A) (l : list A) : list A := match skipn k l with x :: r => firstn k l ++ f x :: r | [] => l end.
Definition nth_try {A} (k : nat) (f : A -> res A) (l : list A) : res (list A) := match skipn k l with x :: r => let! y := f x in Ok (firstn k l ++ y :: r) | [] => Err EIndex end.
Definition read {A} (from : val -> res A) (t : str) : res A := let! v := parse_sexp t in from v.

Definition want_quotesAndBackslashInSexpr : str := concat [
$"(kicad_sch (version 20211123) (generator eeschema)" ++ nl;
$"" ++ nl;
$"  (uuid e63e39d7-6ac0-4ffd-8aa3-1841a4541b55)" ++ nl;
$"" ++ nl;
$"  (paper ""A4 \""quote\"" \\"")" ++ nl;
$"" ++ nl;
$"  (title_block" ++ nl;
$"    (title ""The title"")" ++ nl;
$"    (date ""19.02.2022"")" ++ nl;
$"    (rev ""A"")" ++ nl;
$"    (company ""The company"")" ++ nl;
$"    (comment 1 ""SomeLayer"")" ++ nl;
$"    (comment 2 ""Some \""quoted\"" Layer"")" ++ nl;
$"    (comment 3 ""Some Layer\\\"")" ++ nl;
$"    (comment 4 ""Some \""quoted\"" Layer\\\"")" ++ nl;
$"    (comment 5 ""\\\\\\\\\\\\\\""\\\\\\\\\\\"""")" ++ nl;
$"    (comment 6 ""|\\"")" ++ nl;
[32; 32; 32; 32; 40; 99; 111; 109; 109; 101; 110; 116; 32; 55; 32; 34; 33; 92; 34; 167; 36; 37; 38; 47; 40; 41; 61; 63; 96; 180; 43; 42; 126; 35; 39; 45; 95; 46; 58; 44; 59; 60; 62; 124; 34; 41]%N ++ nl;
$"  )" ++ nl;
$"" ++ nl;
$"  (lib_symbols" ++ nl;
$"    (symbol ""TEST""" ++ nl;
$"      (property ""Normal string without quotes"" ""abc"" (id 0) (at 0 9.525 0)" ++ nl;
$"        (effects (font (size 1.27 1.27)))" ++ nl;
$"      )" ++ nl;
$"      (property ""Normal string \""with\"" quotes"" "" "" (id 1) (at 0 9.525 0)" ++ nl;
$"        (effects (font (size 1.27 1.27)))" ++ nl;
$"      )" ++ nl;
$"      (property ""Normal string with \\backslashes\\"" ""\\"" (id 2) (at 0 9.525 0)" ++ nl;
$"        (effects (font (size 1.27 1.27)))" ++ nl;
$"      )" ++ nl;
$"      (property ""Normal string with \\backslashes\\ and \""quotes\"" ""\"""" (id 3) (at 0 9.525 0)" ++ nl;
$"        (effects (font (size 1.27 1.27)))" ++ nl;
$"      )" ++ nl;
$"      (property ""|\\"" ""\\""\"""" (id 4) (at 0 9.525 0)" ++ nl;
$"        (effects (font (size 1.27 1.27)))" ++ nl;
$"      )" ++ nl;
$"      (property ""\\\\\\\\\\\\\\""\\\\\\\\\\\"""" """" (id 5) (at 0 9.525 0)" ++ nl;
$"        (effects (font (size 1.27 1.27)))" ++ nl;
$"      )" ++ nl;
$"    )" ++ nl;
$"" ++ nl;
$"    (symbol ""TEST with \""quoted\"" strings """ ++ nl;
$"    )" ++ nl;
$"" ++ nl;
$"    (symbol ""TEST with \\backslashes\\""" ++ nl;
$"    )" ++ nl;
$"" ++ nl;
$"    (symbol ""TEST with \""quoted\"" strings and \\backslashes\\""" ++ nl;
$"    )" ++ nl;
$"" ++ nl;
$"    (symbol ""|\\""" ++ nl;
$"    )" ++ nl;
$"" ++ nl;
$"    (symbol ""\\\\\\\\\\""\\\\\""\\\\""\""\\\""" ++ nl;
$"    )" ++ nl;
$"" ++ nl;
[32; 32; 32; 32; 40; 115; 121; 109; 98; 111; 108; 32; 34; 33; 92; 34; 167; 36; 37; 38; 47; 40; 41; 61; 63; 96; 180; 43; 42; 126; 35; 39; 45; 95; 46; 58; 44; 59; 60; 62; 124; 34]%N ++ nl;
$"    )" ++ nl;
$"  )" ++ nl;
$")" ++ nl].
Example fixture_quotesAndBackslashInSexpr : gives (let! o := (read Schematic_from want_quotesAndBackslashInSexpr) in (fun o => Schematic_to o 0 true) o) want_quotesAndBackslashInSexpr = true.
Proof. vm_compute. reflexivity. Qed.
