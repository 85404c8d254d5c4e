(** Fixtures of the unit tests in /repo/tests/test_libtable.py: the model writes, byte by byte, the files the tests expect.
    Generated by tools/fixtures.py. *)
From Coq Require Import String.
From Verif Require Import PyBase PyNum PyStr Sexpr RecordSet M_Common M_Lib M_Sym M_Fp M_Gr M_Zone M_Footprint M_Dim M_Brd M_Board M_Sch M_Schematic M_Wks.

Fixpoint same (a b : str) : bool := match a, b with [], [] => true | x :: a', y :: b' => N.eqb x y && same a' b' | _, _ => false end.
Definition gives (m : res str) (t : str) : bool := match m with Ok s => same s t | Err _ => false end.
Definition nth_set {A} (k : nat) (f : A -> A) (l : list A) : list A := match skipn k l with x :: r => firstn k l ++ f x :: r | [] => l end.
Definition nth_try {A} (k : nat) (f : A -> res A) (l : list A) : res (list A) := match skipn k l with x :: r => let! y := f x in Ok (firstn k l ++ y :: r) | [] => Err EIndex end.
Definition read {A} (from : val -> res A) (t : str) : res A := let! v := parse_sexp t in from v.

Definition want_parseFpLibTable : str := concat [
$"(fp_lib_table" ++ nl;
$"  (lib (name ""vn-mcu-own-footprints"")(type ""KiCad"")(uri ""${KIPRJMOD}/vn-mcu-ownlibs/vn-mcu-own-footprints.pretty"")(options """")(descr """"))" ++ nl;
$"  (lib (name ""vn-mcu-footprints"")(type ""KiCad"")(uri ""${KIPRJMOD}/vn-mcu-librarys/vn-mcu-footprints.pretty"")(options """")(descr """")(disabled))" ++ nl;
$")" ++ nl].
Example fixture_parseFpLibTable : gives (let! o := (read LibTable_from want_parseFpLibTable) in (fun o => LibTable_to o 0 true) o) want_parseFpLibTable = true.
Proof. vm_compute. reflexivity. Qed.

Definition want_parseSymLibTable : str := concat [
$"(sym_lib_table" ++ nl;
$"  (lib (name ""vn-mcu-own"")(type ""KiCad"")(uri ""${KIPRJMOD}/vn-mcu-ownlibs/vn-mcu-own.kicad_sym"")(options """")(descr """")(disabled))" ++ nl;
$"  (lib (name ""vn-mcu-symbols"")(type ""KiCad"")(uri ""${KIPRJMOD}/vn-mcu-librarys/vn-mcu-symbols.kicad_sym"")(options """")(descr """"))" ++ nl;
$")" ++ nl].
Example fixture_parseSymLibTable : gives (let! o := (read LibTable_from want_parseSymLibTable) in (fun o => LibTable_to o 0 true) o) want_parseSymLibTable = true.
Proof. vm_compute. reflexivity. Qed.

Definition want_createNewLibTable : str := concat [
$"(sym_lib_table" ++ nl;
$")" ++ nl].
Example fixture_createNewLibTable : gives (let! o := (Ok (LibTable_create_new (VStr $"sym_lib_table"))) in (fun o => LibTable_to o 0 true) o) want_createNewLibTable = true.
Proof. vm_compute. reflexivity. Qed.

Definition want_addEmptyLibraryObjectToLibTable : str := concat [
$"(fp_lib_table" ++ nl;
$"  (lib (name """")(type ""KiCad"")(uri """")(options """")(descr """"))" ++ nl;
$")" ++ nl].
Example fixture_addEmptyLibraryObjectToLibTable : gives (let! o := (Ok (mkLibTable (VStr $"fp_lib_table") [Library_default] VNone)) in (fun o => LibTable_to o 0 true) o) want_addEmptyLibraryObjectToLibTable = true.
Proof. vm_compute. reflexivity. Qed.

Definition want_addLibraryObjectToLibTable : str := concat [
$"(fp_lib_table" ++ nl;
$"  (lib (name ""object1"")(type ""KiCad"")(uri ""${KIPRJMOD}/my/library.pretty"")(options ""Some options with \""quoted strings\"""")(descr ""Some description with \""quoted strings\"""")(disabled))" ++ nl;
$")" ++ nl].
Example fixture_addLibraryObjectToLibTable : gives (let! o := (Ok (mkLibTable (VStr $"fp_lib_table") [Library_default <| lb_name := VStr $"object1" |> <| lb_type := VStr $"KiCad" |> <| lb_uri := VStr $"${KIPRJMOD}/my/library.pretty" |> <| lb_options := VStr $"Some options with ""quoted strings""" |> <| lb_description := VStr $"Some description with ""quoted strings""" |> <| lb_active := false |>] VNone)) in (fun o => LibTable_to o 0 true) o) want_addLibraryObjectToLibTable = true.
Proof. vm_compute. reflexivity. Qed.
