(** Fixtures of the unit tests in /repo/tests/test_symbol.py: the model writes, byte by byte, the files the tests expect.
    Generated by tools/fixtures.py. *)
From Coq Require Import String.
From Verif Require Import PyBase PyNum PyStr Sexpr RecordSet M_Common M_Lib M_Sym M_Fp M_Gr M_Zone M_Footprint M_Dim M_Brd M_Board M_Sch M_Schematic M_Wks.

Fixpoint same (a b : str) : bool := match a, b with [], [] => true | x :: a', y :: b' => N.eqb x y && same a' b' | _, _ => false end.
Definition gives (m : res str) (t : str) : bool := match m with Ok s => same s t | Err _ => false end.
Definition nth_set {A} (k : nat) (f : A -> A) (l : list A) : list A := match skipn k l with x :: r => firstn k l ++ f x :: r | [] => l end.
Definition nth_try {A} (k : nat) (f : A -> res A) (l : list A) : res (list A) := match skipn k l with x :: r => let! y := f x in Ok (firstn k l ++ y :: r) | [] => Err EIndex end.
Definition read {A} (from : val -> res A) (t : str) : res A := let! v := parse_sexp t in from v.

Definition want_symbolDemorganUnits : str := concat [
$"(kicad_symbol_lib (version 20211014) (generator kicad_symbol_editor)" ++ nl;
$"  (symbol ""AD1853"" (power) (pin_numbers hide) (pin_names (offset 0.635)) (in_bom no) (on_board no)" ++ nl;
$"    (property ""Reference"" ""U"" (id 0) (at 0 9.525 0)" ++ nl;
$"      (effects (font (size 1.27 1.27)))" ++ nl;
$"    )" ++ nl;
$"    (property ""Value"" ""AD1853"" (id 1) (at 0 6.985 0)" ++ nl;
$"      (effects (font (size 1.27 1.27)))" ++ nl;
$"    )" ++ nl;
$"    (property ""Footprint"" ""Package_SO:SSOP-28_5.3x10.2mm_P0.65mm"" (id 2) (at 0.635 -12.7 0)" ++ nl;
$"      (effects (font (size 1.27 1.27)) hide)" ++ nl;
$"    )" ++ nl;
$"    (property ""Datasheet"" ""https://www.analog.com/media/en/technical-documentation/data-sheets/AD1853.pdf"" (id 3) (at 0 -14.605 0)" ++ nl;
$"      (effects (font (size 1.27 1.27)) hide)" ++ nl;
$"    )" ++ nl;
$"    (property ""ki_locked"" """" (id 4) (at 0 0 0)" ++ nl;
$"      (effects (font (size 1.27 1.27)))" ++ nl;
$"    )" ++ nl;
$"    (property ""ki_keywords"" ""audio dac 2ch 24bit 192kHz"" (id 5) (at 0 0 0)" ++ nl;
$"      (effects (font (size 1.27 1.27)) hide)" ++ nl;
$"    )" ++ nl;
$"    (property ""ki_description"" ""Stereo, 24-Bit, 192 kHz, Multibit Sigma-Delta DAC, SSOP-28"" (id 6) (at 0 0 0)" ++ nl;
$"      (effects (font (size 1.27 1.27)) hide)" ++ nl;
$"    )" ++ nl;
$"    (property ""ki_fp_filters"" ""SSOP*5.3x10.2mm*P0.65mm*"" (id 7) (at 0 0 0)" ++ nl;
$"      (effects (font (size 1.27 1.27)) hide)" ++ nl;
$"    )" ++ nl;
$"    (symbol ""AD1853_0_0""" ++ nl;
$"      (text ""NormalStuff"" (at 0 19.05 0)" ++ nl;
$"        (effects (font (size 1.27 1.27)))" ++ nl;
$"      )" ++ nl;
$"      (pin input line (at 13.335 13.97 0) (length 2.54)" ++ nl;
$"        (name ""NormalPin"" (effects (font (size 1.27 1.27))))" ++ nl;
$"        (number ""123"" (effects (font (size 1.27 1.27))))" ++ nl;
$"      )" ++ nl;
$"    )" ++ nl;
$"    (symbol ""AD1853_1_0""" ++ nl;
$"      (pin input line (at 10.795 24.13 0) (length 2.54)" ++ nl;
$"        (name ""UnitABothPin"" (effects (font (size 1.27 1.27))))" ++ nl;
$"        (number ""123"" (effects (font (size 1.27 1.27))))" ++ nl;
$"      )" ++ nl;
$"    )" ++ nl;
$"    (symbol ""AD1853_1_1""" ++ nl;
$"      (text ""Unit A, Normal"" (at -1.27 0.635 0)" ++ nl;
$"        (effects (font (size 1.27 1.27)))" ++ nl;
$"      )" ++ nl;
$"      (pin input line (at -17.78 17.78 0) (length 2.54)" ++ nl;
$"        (name ""MCLK"" (effects (font (size 1.27 1.27))))" ++ nl;
$"        (number ""2"" (effects (font (size 1.27 1.27))))" ++ nl;
$"      )" ++ nl;
$"    )" ++ nl;
$"    (symbol ""AD1853_1_2""" ++ nl;
$"      (text ""Unit A, DeMorgan"" (at 0.635 -0.635 0)" ++ nl;
$"        (effects (font (size 1.27 1.27)))" ++ nl;
$"      )" ++ nl;
$"      (pin input line (at -17.78 17.145 0) (length 2.54)" ++ nl;
$"        (name ""MCLK"" (effects (font (size 1.27 1.27))))" ++ nl;
$"        (number ""2"" (effects (font (size 1.27 1.27))))" ++ nl;
$"      )" ++ nl;
$"    )" ++ nl;
$"    (symbol ""AD1853_2_0""" ++ nl;
$"      (pin input line (at 13.335 22.86 0) (length 2.54)" ++ nl;
$"        (name ""UnitBBothPin"" (effects (font (size 1.27 1.27))))" ++ nl;
$"        (number ""123"" (effects (font (size 1.27 1.27))))" ++ nl;
$"      )" ++ nl;
$"    )" ++ nl;
$"    (symbol ""AD1853_2_1""" ++ nl;
$"      (text ""Unit B, Normal"" (at 0 1.27 0)" ++ nl;
$"        (effects (font (size 1.27 1.27)))" ++ nl;
$"      )" ++ nl;
$"      (pin input line (at -15.24 13.335 0) (length 2.54)" ++ nl;
$"        (name ""MCLK"" (effects (font (size 1.27 1.27))))" ++ nl;
$"        (number ""2"" (effects (font (size 1.27 1.27))))" ++ nl;
$"      )" ++ nl;
$"    )" ++ nl;
$"    (symbol ""AD1853_2_2""" ++ nl;
$"      (text ""Unit B, DeMorgan"" (at -1.905 0 0)" ++ nl;
$"        (effects (font (size 1.27 1.27)))" ++ nl;
$"      )" ++ nl;
$"      (pin input line (at -17.78 18.415 0) (length 2.54)" ++ nl;
$"        (name ""MCLK"" (effects (font (size 1.27 1.27))))" ++ nl;
$"        (number ""2"" (effects (font (size 1.27 1.27))))" ++ nl;
$"      )" ++ nl;
$"    )" ++ nl;
$"    (symbol ""AD1853_3_0""" ++ nl;
$"      (pin input line (at 15.24 21.59 0) (length 2.54)" ++ nl;
$"        (name ""UnitCBothPin"" (effects (font (size 1.27 1.27))))" ++ nl;
$"        (number ""123"" (effects (font (size 1.27 1.27))))" ++ nl;
$"      )" ++ nl;
$"    )" ++ nl;
$"    (symbol ""AD1853_3_1""" ++ nl;
$"      (text ""Unit C, Normal"" (at 0 1.27 0)" ++ nl;
$"        (effects (font (size 1.27 1.27)))" ++ nl;
$"      )" ++ nl;
$"      (pin input line (at -17.145 17.78 0) (length 2.54)" ++ nl;
$"        (name ""MCLK"" (effects (font (size 1.27 1.27))))" ++ nl;
$"        (number ""2"" (effects (font (size 1.27 1.27))))" ++ nl;
$"      )" ++ nl;
$"    )" ++ nl;
$"    (symbol ""AD1853_3_2""" ++ nl;
$"      (text ""Unit C, DeMorgan"" (at -0.635 0.635 0)" ++ nl;
$"        (effects (font (size 1.27 1.27)))" ++ nl;
$"      )" ++ nl;
$"      (pin input line (at -17.78 18.415 0) (length 2.54)" ++ nl;
$"        (name ""MCLK"" (effects (font (size 1.27 1.27))))" ++ nl;
$"        (number ""2"" (effects (font (size 1.27 1.27))))" ++ nl;
$"      )" ++ nl;
$"    )" ++ nl;
$"  )" ++ nl;
$")" ++ nl].
Example fixture_symbolDemorganUnits : gives (let! o := (read SymbolLib_from want_symbolDemorganUnits) in (fun o => SymbolLib_to o 0 true) o) want_symbolDemorganUnits = true.
Proof. vm_compute. reflexivity. Qed.

Definition want_symbolParameters : str := concat [
$"(kicad_symbol_lib (version 20211014) (generator kicad_symbol_editor)" ++ nl;
$"  (symbol ""test"" (power) (pin_names (offset 0.5334)) (in_bom no) (on_board no)" ++ nl;
$"    (property ""Reference"" ""U"" (id 0) (at 0 1.905 0)" ++ nl;
$"      (effects (font (size 1.27 1.27)))" ++ nl;
$"    )" ++ nl;
$"    (property ""Value"" ""test"" (id 1) (at 0 0 0)" ++ nl;
$"      (effects (font (size 1.27 1.27)))" ++ nl;
$"    )" ++ nl;
$"    (property ""Footprint"" """" (id 2) (at 0 0 0)" ++ nl;
$"      (effects (font (size 1.27 1.27)) hide)" ++ nl;
$"    )" ++ nl;
$"    (property ""Datasheet"" ""this test with \""quoted\"" string"" (id 3) (at 0 0 0)" ++ nl;
$"      (effects (font (size 1.27 1.27)) hide)" ++ nl;
$"    )" ++ nl;
$"    (property ""p1"" ""property with \""quoted\"" string"" (id 4) (at 0 0 0)" ++ nl;
$"      (effects (font (size 1.27 1.27)))" ++ nl;
$"    )" ++ nl;
$"    (property ""1"" ""2"" (id 5) (at 0 0 0)" ++ nl;
$"      (effects (font (size 1.2954 1.2954) italic) (justify left top))" ++ nl;
$"    )" ++ nl;
$"    (property ""2"" ""2"" (id 6) (at 0 0 0)" ++ nl;
$"      (effects (font (size 1.3208 1.3208) bold) (justify left))" ++ nl;
$"    )" ++ nl;
$"    (property ""3"" ""3"" (id 7) (at 0 0 0)" ++ nl;
$"      (effects (font (size 1.3462 1.3462) bold italic) (justify left bottom))" ++ nl;
$"    )" ++ nl;
$"    (property ""4"" ""4"" (id 8) (at 0 0 0)" ++ nl;
$"      (effects (font (size 1.3716 1.3716) italic) (justify top))" ++ nl;
$"    )" ++ nl;
$"    (property ""5"" ""5"" (id 9) (at 0 0 0)" ++ nl;
$"      (effects (font (size 1.397 1.397) bold))" ++ nl;
$"    )" ++ nl;
$"    (property ""6"" ""6"" (id 10) (at 0 0 0)" ++ nl;
$"      (effects (font (size 1.4224 1.4224) bold italic) (justify bottom))" ++ nl;
$"    )" ++ nl;
$"    (property ""7"" ""7"" (id 11) (at 0 0 0)" ++ nl;
$"      (effects (font (size 1.4478 1.4478) italic) (justify right top))" ++ nl;
$"    )" ++ nl;
$"    (property ""8"" ""8"" (id 12) (at 0 0 0)" ++ nl;
$"      (effects (font (size 1.4732 1.4732) bold) (justify right))" ++ nl;
$"    )" ++ nl;
$"    (property ""9"" ""9"" (id 13) (at 0 0 0)" ++ nl;
$"      (effects (font (size 1.4986 1.4986) bold italic) (justify right bottom))" ++ nl;
$"    )" ++ nl;
$"    (property ""ki_keywords"" ""test with \""quoted\"" string"" (id 14) (at 0 0 0)" ++ nl;
$"      (effects (font (size 1.27 1.27)) hide)" ++ nl;
$"    )" ++ nl;
$"    (property ""ki_description"" ""test with \""quoted\"" string"" (id 15) (at 0 0 0)" ++ nl;
$"      (effects (font (size 1.27 1.27)) hide)" ++ nl;
$"    )" ++ nl;
$"  )" ++ nl;
$")" ++ nl].
Example fixture_symbolParameters : gives (let! o := (read SymbolLib_from want_symbolParameters) in (fun o => SymbolLib_to o 0 true) o) want_symbolParameters = true.
Proof. vm_compute. reflexivity. Qed.

Definition want_symbolIdParser : str := concat [
$"(kicad_symbol_lib (version 20211014) (generator kiutils)" ++ nl;
$"  (symbol ""AD2023""" ++ nl;
$"    (symbol ""AD2023_0_0""" ++ nl;
$"    )" ++ nl;
$"  )" ++ nl;
$"  (symbol ""formula:R_0_2512""" ++ nl;
$"    (symbol ""R_0_2512_0_0""" ++ nl;
$"    )" ++ nl;
$"  )" ++ nl;
$"  (symbol ""Some_Library:R_0_2512""" ++ nl;
$"    (symbol ""R_0_2512_0_0""" ++ nl;
$"    )" ++ nl;
$"  )" ++ nl;
$")" ++ nl].
Example fixture_symbolIdParser : gives (let! o := (read SymbolLib_from want_symbolIdParser) in (fun o => SymbolLib_to o 0 true) o) want_symbolIdParser = true.
Proof. vm_compute. reflexivity. Qed.

Definition want_v7_rectangleAllVariants : str := concat [
$"(kicad_symbol_lib (version 20220914) (generator kicad_symbol_editor)" ++ nl;
$"  (symbol ""rect"" (in_bom yes) (on_board yes)" ++ nl;
$"    (property ""Reference"" ""U"" (id 0) (at 0 0 0)" ++ nl;
$"      (effects (font (size 1.27 1.27)))" ++ nl;
$"    )" ++ nl;
$"    (property ""Value"" """" (id 1) (at 0 0 0)" ++ nl;
$"      (effects (font (size 1.27 1.27)))" ++ nl;
$"    )" ++ nl;
$"    (property ""Footprint"" """" (id 2) (at 0 0 0)" ++ nl;
$"      (effects (font (size 1.27 1.27)) hide)" ++ nl;
$"    )" ++ nl;
$"    (property ""Datasheet"" """" (id 3) (at 0 0 0)" ++ nl;
$"      (effects (font (size 1.27 1.27)) hide)" ++ nl;
$"    )" ++ nl;
$"    (symbol ""rect_0_1""" ++ nl;
$"      (rectangle (start 0 -20.32) (end 8.89 -22.86)" ++ nl;
$"        (stroke (width 0) (type dash_dot_dot))" ++ nl;
$"        (fill (type none))" ++ nl;
$"      )" ++ nl;
$"      (rectangle (start 0 -16.51) (end 8.89 -19.05)" ++ nl;
$"        (stroke (width 0) (type dash_dot))" ++ nl;
$"        (fill (type none))" ++ nl;
$"      )" ++ nl;
$"      (rectangle (start 0 -12.7) (end 8.89 -15.24)" ++ nl;
$"        (stroke (width 0) (type dot))" ++ nl;
$"        (fill (type none))" ++ nl;
$"      )" ++ nl;
$"      (rectangle (start 0 -8.89) (end 8.89 -11.43)" ++ nl;
$"        (stroke (width 0) (type dash))" ++ nl;
$"        (fill (type none))" ++ nl;
$"      )" ++ nl;
$"      (rectangle (start 0 -5.08) (end 8.89 -7.62)" ++ nl;
$"        (stroke (width 0) (type solid))" ++ nl;
$"        (fill (type none))" ++ nl;
$"      )" ++ nl;
$"      (rectangle (start 0 -1.27) (end 8.89 -3.81)" ++ nl;
$"        (stroke (width 0) (type default))" ++ nl;
$"        (fill (type none))" ++ nl;
$"      )" ++ nl;
$"      (rectangle (start 10.16 -20.32) (end 19.05 -22.86)" ++ nl;
$"        (stroke (width 1) (type dash_dot_dot) (color 48 253 255 1))" ++ nl;
$"        (fill (type none))" ++ nl;
$"      )" ++ nl;
$"      (rectangle (start 10.16 -16.51) (end 19.05 -19.05)" ++ nl;
$"        (stroke (width 1) (type dash_dot) (color 53 73 255 1))" ++ nl;
$"        (fill (type none))" ++ nl;
$"      )" ++ nl;
$"      (rectangle (start 10.16 -12.7) (end 19.05 -15.24)" ++ nl;
$"        (stroke (width 1) (type dot) (color 255 156 20 1))" ++ nl;
$"        (fill (type none))" ++ nl;
$"      )" ++ nl;
$"      (rectangle (start 10.16 -8.89) (end 19.05 -11.43)" ++ nl;
$"        (stroke (width 1) (type dash) (color 182 21 255 1))" ++ nl;
$"        (fill (type none))" ++ nl;
$"      )" ++ nl;
$"      (rectangle (start 10.16 -5.08) (end 19.05 -7.62)" ++ nl;
$"        (stroke (width 1) (type solid) (color 255 19 235 1))" ++ nl;
$"        (fill (type none))" ++ nl;
$"      )" ++ nl;
$"      (rectangle (start 10.16 -1.27) (end 19.05 -3.81)" ++ nl;
$"        (stroke (width 1) (type default) (color 255 36 19 1))" ++ nl;
$"        (fill (type none))" ++ nl;
$"      )" ++ nl;
$"      (rectangle (start 20.32 -20.32) (end 29.21 -22.86)" ++ nl;
$"        (stroke (width 1) (type dash_dot_dot) (color 48 253 255 1))" ++ nl;
$"        (fill (type outline))" ++ nl;
$"      )" ++ nl;
$"      (rectangle private (start 40.64 -20.32) (end 49.53 -22.86)" ++ nl;
$"        (stroke (width 1) (type dash_dot_dot) (color 48 253 255 1))" ++ nl;
$"        (fill (type outline))" ++ nl;
$"      )" ++ nl;
$"      (rectangle (start 20.32 -16.51) (end 29.21 -19.05)" ++ nl;
$"        (stroke (width 1) (type dash_dot) (color 53 73 255 1))" ++ nl;
$"        (fill (type outline))" ++ nl;
$"      )" ++ nl;
$"      (rectangle private (start 40.64 -16.51) (end 49.53 -19.05)" ++ nl;
$"        (stroke (width 1) (type dash_dot) (color 53 73 255 1))" ++ nl;
$"        (fill (type outline))" ++ nl;
$"      )" ++ nl;
$"      (rectangle (start 20.32 -12.7) (end 29.21 -15.24)" ++ nl;
$"        (stroke (width 1) (type dot) (color 255 156 20 1))" ++ nl;
$"        (fill (type outline))" ++ nl;
$"      )" ++ nl;
$"      (rectangle private (start 40.64 -12.7) (end 49.53 -15.24)" ++ nl;
$"        (stroke (width 1) (type dot) (color 255 156 20 1))" ++ nl;
$"        (fill (type outline))" ++ nl;
$"      )" ++ nl;
$"      (rectangle (start 20.32 -8.89) (end 29.21 -11.43)" ++ nl;
$"        (stroke (width 1) (type dash) (color 182 21 255 1))" ++ nl;
$"        (fill (type outline))" ++ nl;
$"      )" ++ nl;
$"      (rectangle private (start 40.64 -8.89) (end 49.53 -11.43)" ++ nl;
$"        (stroke (width 1) (type dash) (color 182 21 255 1))" ++ nl;
$"        (fill (type outline))" ++ nl;
$"      )" ++ nl;
$"      (rectangle (start 20.32 -5.08) (end 29.21 -7.62)" ++ nl;
$"        (stroke (width 1) (type solid) (color 255 19 235 1))" ++ nl;
$"        (fill (type outline))" ++ nl;
$"      )" ++ nl;
$"      (rectangle private (start 40.64 -5.08) (end 49.53 -7.62)" ++ nl;
$"        (stroke (width 1) (type solid) (color 255 19 235 1))" ++ nl;
$"        (fill (type outline))" ++ nl;
$"      )" ++ nl;
$"      (rectangle (start 20.32 -1.27) (end 29.21 -3.81)" ++ nl;
$"        (stroke (width 1) (type default) (color 255 36 19 1))" ++ nl;
$"        (fill (type outline))" ++ nl;
$"      )" ++ nl;
$"      (rectangle private (start 40.64 -1.27) (end 49.53 -3.81)" ++ nl;
$"        (stroke (width 1) (type default) (color 255 36 19 1))" ++ nl;
$"        (fill (type outline))" ++ nl;
$"      )" ++ nl;
$"      (rectangle (start 30.48 -20.32) (end 39.37 -22.86)" ++ nl;
$"        (stroke (width 1) (type dash_dot_dot) (color 48 253 255 1))" ++ nl;
$"        (fill (type background))" ++ nl;
$"      )" ++ nl;
$"      (rectangle (start 30.48 -16.51) (end 39.37 -19.05)" ++ nl;
$"        (stroke (width 1) (type dash_dot) (color 53 73 255 1))" ++ nl;
$"        (fill (type background))" ++ nl;
$"      )" ++ nl;
$"      (rectangle (start 30.48 -12.7) (end 39.37 -15.24)" ++ nl;
$"        (stroke (width 1) (type dot) (color 255 156 20 1))" ++ nl;
$"        (fill (type background))" ++ nl;
$"      )" ++ nl;
$"      (rectangle (start 30.48 -8.89) (end 39.37 -11.43)" ++ nl;
$"        (stroke (width 1) (type dash) (color 182 21 255 1))" ++ nl;
$"        (fill (type background))" ++ nl;
$"      )" ++ nl;
$"      (rectangle (start 30.48 -5.08) (end 39.37 -7.62)" ++ nl;
$"        (stroke (width 1) (type solid) (color 255 19 235 1))" ++ nl;
$"        (fill (type background))" ++ nl;
$"      )" ++ nl;
$"      (rectangle (start 30.48 -1.27) (end 39.37 -3.81)" ++ nl;
$"        (stroke (width 1) (type default) (color 255 36 19 1))" ++ nl;
$"        (fill (type background))" ++ nl;
$"      )" ++ nl;
$"    )" ++ nl;
$"  )" ++ nl;
$")" ++ nl].
Example fixture_v7_rectangleAllVariants : gives (let! o := (read SymbolLib_from want_v7_rectangleAllVariants) in (fun o => SymbolLib_to o 0 true) o) want_v7_rectangleAllVariants = true.
Proof. vm_compute. reflexivity. Qed.

Definition want_v7_circleAllVariants : str := concat [
$"(kicad_symbol_lib (version 20220914) (generator kicad_symbol_editor)" ++ nl;
$"  (symbol ""circle"" (in_bom yes) (on_board yes)" ++ nl;
$"    (property ""Reference"" ""U"" (id 0) (at 0 0 0)" ++ nl;
$"      (effects (font (size 1.27 1.27)))" ++ nl;
$"    )" ++ nl;
$"    (property ""Value"" """" (id 1) (at 0 0 0)" ++ nl;
$"      (effects (font (size 1.27 1.27)))" ++ nl;
$"    )" ++ nl;
$"    (property ""Footprint"" """" (id 2) (at 0 0 0)" ++ nl;
$"      (effects (font (size 1.27 1.27)) hide)" ++ nl;
$"    )" ++ nl;
$"    (property ""Datasheet"" """" (id 3) (at 0 0 0)" ++ nl;
$"      (effects (font (size 1.27 1.27)) hide)" ++ nl;
$"    )" ++ nl;
$"    (symbol ""circle_0_1""" ++ nl;
$"      (circle (center 0 -21.59) (radius 1.27)" ++ nl;
$"        (stroke (width 0) (type dash_dot_dot))" ++ nl;
$"        (fill (type none))" ++ nl;
$"      )" ++ nl;
$"      (circle (center 0 -17.78) (radius 1.27)" ++ nl;
$"        (stroke (width 0) (type dash_dot))" ++ nl;
$"        (fill (type none))" ++ nl;
$"      )" ++ nl;
$"      (circle (center 0 -13.97) (radius 1.27)" ++ nl;
$"        (stroke (width 0) (type dot))" ++ nl;
$"        (fill (type none))" ++ nl;
$"      )" ++ nl;
$"      (circle (center 0 -10.16) (radius 1.27)" ++ nl;
$"        (stroke (width 0) (type dash))" ++ nl;
$"        (fill (type none))" ++ nl;
$"      )" ++ nl;
$"      (circle (center 0 -6.35) (radius 1.27)" ++ nl;
$"        (stroke (width 0) (type solid))" ++ nl;
$"        (fill (type none))" ++ nl;
$"      )" ++ nl;
$"      (circle (center 0 -2.54) (radius 1.27)" ++ nl;
$"        (stroke (width 0) (type default))" ++ nl;
$"        (fill (type none))" ++ nl;
$"      )" ++ nl;
$"      (circle (center 3.81 -21.59) (radius 1.27)" ++ nl;
$"        (stroke (width 1) (type dash_dot_dot) (color 121 112 255 1))" ++ nl;
$"        (fill (type none))" ++ nl;
$"      )" ++ nl;
$"      (circle private (center 15.24 -21.59) (radius 1.27)" ++ nl;
$"        (stroke (width 1) (type dash_dot_dot) (color 121 112 255 1))" ++ nl;
$"        (fill (type none))" ++ nl;
$"      )" ++ nl;
$"      (circle (center 3.81 -17.78) (radius 1.27)" ++ nl;
$"        (stroke (width 1) (type dash_dot) (color 255 174 21 1))" ++ nl;
$"        (fill (type none))" ++ nl;
$"      )" ++ nl;
$"      (circle private (center 15.24 -17.78) (radius 1.27)" ++ nl;
$"        (stroke (width 1) (type dash_dot) (color 255 174 21 1))" ++ nl;
$"        (fill (type none))" ++ nl;
$"      )" ++ nl;
$"      (circle (center 3.81 -13.97) (radius 1.27)" ++ nl;
$"        (stroke (width 1) (type dot) (color 255 64 66 1))" ++ nl;
$"        (fill (type none))" ++ nl;
$"      )" ++ nl;
$"      (circle private (center 15.24 -13.97) (radius 1.27)" ++ nl;
$"        (stroke (width 1) (type dot) (color 255 64 66 1))" ++ nl;
$"        (fill (type none))" ++ nl;
$"      )" ++ nl;
$"      (circle (center 3.81 -10.16) (radius 1.27)" ++ nl;
$"        (stroke (width 1) (type dash) (color 94 255 73 1))" ++ nl;
$"        (fill (type none))" ++ nl;
$"      )" ++ nl;
$"      (circle private (center 15.24 -10.16) (radius 1.27)" ++ nl;
$"        (stroke (width 1) (type dash) (color 94 255 73 1))" ++ nl;
$"        (fill (type none))" ++ nl;
$"      )" ++ nl;
$"      (circle (center 3.81 -6.35) (radius 1.27)" ++ nl;
$"        (stroke (width 1) (type solid) (color 255 242 67 1))" ++ nl;
$"        (fill (type none))" ++ nl;
$"      )" ++ nl;
$"      (circle private (center 15.24 -6.35) (radius 1.27)" ++ nl;
$"        (stroke (width 1) (type solid) (color 255 242 67 1))" ++ nl;
$"        (fill (type none))" ++ nl;
$"      )" ++ nl;
$"      (circle (center 3.81 -2.54) (radius 1.27)" ++ nl;
$"        (stroke (width 1) (type default) (color 189 255 31 1))" ++ nl;
$"        (fill (type none))" ++ nl;
$"      )" ++ nl;
$"      (circle private (center 15.24 -2.54) (radius 1.27)" ++ nl;
$"        (stroke (width 1) (type default) (color 189 255 31 1))" ++ nl;
$"        (fill (type none))" ++ nl;
$"      )" ++ nl;
$"      (circle (center 7.62 -21.59) (radius 1.27)" ++ nl;
$"        (stroke (width 1) (type dash_dot_dot) (color 121 112 255 1))" ++ nl;
$"        (fill (type outline))" ++ nl;
$"      )" ++ nl;
$"      (circle (center 7.62 -17.78) (radius 1.27)" ++ nl;
$"        (stroke (width 1) (type dash_dot) (color 255 174 21 1))" ++ nl;
$"        (fill (type outline))" ++ nl;
$"      )" ++ nl;
$"      (circle (center 7.62 -13.97) (radius 1.27)" ++ nl;
$"        (stroke (width 1) (type dot) (color 255 64 66 1))" ++ nl;
$"        (fill (type outline))" ++ nl;
$"      )" ++ nl;
$"      (circle (center 7.62 -10.16) (radius 1.27)" ++ nl;
$"        (stroke (width 1) (type dash) (color 94 255 73 1))" ++ nl;
$"        (fill (type outline))" ++ nl;
$"      )" ++ nl;
$"      (circle (center 7.62 -6.35) (radius 1.27)" ++ nl;
$"        (stroke (width 1) (type solid) (color 255 242 67 1))" ++ nl;
$"        (fill (type outline))" ++ nl;
$"      )" ++ nl;
$"      (circle (center 7.62 -2.54) (radius 1.27)" ++ nl;
$"        (stroke (width 1) (type default) (color 189 255 31 1))" ++ nl;
$"        (fill (type outline))" ++ nl;
$"      )" ++ nl;
$"      (circle (center 11.43 -21.59) (radius 1.27)" ++ nl;
$"        (stroke (width 1) (type dash_dot_dot) (color 121 112 255 1))" ++ nl;
$"        (fill (type background))" ++ nl;
$"      )" ++ nl;
$"      (circle (center 11.43 -17.78) (radius 1.27)" ++ nl;
$"        (stroke (width 1) (type dash_dot) (color 255 174 21 1))" ++ nl;
$"        (fill (type background))" ++ nl;
$"      )" ++ nl;
$"      (circle (center 11.43 -13.97) (radius 1.27)" ++ nl;
$"        (stroke (width 1) (type dot) (color 255 64 66 1))" ++ nl;
$"        (fill (type background))" ++ nl;
$"      )" ++ nl;
$"      (circle (center 11.43 -10.16) (radius 1.27)" ++ nl;
$"        (stroke (width 1) (type dash) (color 94 255 73 1))" ++ nl;
$"        (fill (type background))" ++ nl;
$"      )" ++ nl;
$"      (circle (center 11.43 -6.35) (radius 1.27)" ++ nl;
$"        (stroke (width 1) (type solid) (color 255 242 67 1))" ++ nl;
$"        (fill (type background))" ++ nl;
$"      )" ++ nl;
$"      (circle (center 11.43 -2.54) (radius 1.27)" ++ nl;
$"        (stroke (width 1) (type default) (color 189 255 31 1))" ++ nl;
$"        (fill (type background))" ++ nl;
$"      )" ++ nl;
$"    )" ++ nl;
$"  )" ++ nl;
$")" ++ nl].
Example fixture_v7_circleAllVariants : gives (let! o := (read SymbolLib_from want_v7_circleAllVariants) in (fun o => SymbolLib_to o 0 true) o) want_v7_circleAllVariants = true.
Proof. vm_compute. reflexivity. Qed.

Definition want_v7_arcAllVariants : str := concat [
$"(kicad_symbol_lib (version 20220914) (generator kicad_symbol_editor)" ++ nl;
$"  (symbol ""arc"" (in_bom yes) (on_board yes)" ++ nl;
$"    (property ""Reference"" ""U"" (id 0) (at 0 0 0)" ++ nl;
$"      (effects (font (size 1.27 1.27)))" ++ nl;
$"    )" ++ nl;
$"    (property ""Value"" """" (id 1) (at 0 0 0)" ++ nl;
$"      (effects (font (size 1.27 1.27)))" ++ nl;
$"    )" ++ nl;
$"    (property ""Footprint"" """" (id 2) (at 0 0 0)" ++ nl;
$"      (effects (font (size 1.27 1.27)) hide)" ++ nl;
$"    )" ++ nl;
$"    (property ""Datasheet"" """" (id 3) (at 0 0 0)" ++ nl;
$"      (effects (font (size 1.27 1.27)) hide)" ++ nl;
$"    )" ++ nl;
$"    (symbol ""arc_0_1""" ++ nl;
$"      (arc (start 1.27 -22.86) (mid 3.9641 -21.7441) (end 5.08 -19.05)" ++ nl;
$"        (stroke (width 0) (type dash_dot_dot))" ++ nl;
$"        (fill (type none))" ++ nl;
$"      )" ++ nl;
$"      (arc (start 1.27 -19.05) (mid 3.9641 -17.9341) (end 5.08 -15.24)" ++ nl;
$"        (stroke (width 0) (type dash_dot))" ++ nl;
$"        (fill (type none))" ++ nl;
$"      )" ++ nl;
$"      (arc (start 1.27 -15.24) (mid 3.9641 -14.1241) (end 5.08 -11.43)" ++ nl;
$"        (stroke (width 0) (type dot))" ++ nl;
$"        (fill (type none))" ++ nl;
$"      )" ++ nl;
$"      (arc (start 1.27 -11.43) (mid 3.9641 -10.3141) (end 5.08 -7.62)" ++ nl;
$"        (stroke (width 0) (type dash))" ++ nl;
$"        (fill (type none))" ++ nl;
$"      )" ++ nl;
$"      (arc (start 1.27 -7.62) (mid 3.9641 -6.5041) (end 5.08 -3.81)" ++ nl;
$"        (stroke (width 0) (type solid))" ++ nl;
$"        (fill (type none))" ++ nl;
$"      )" ++ nl;
$"      (arc (start 1.27 -3.81) (mid 3.9641 -2.6941) (end 5.08 0)" ++ nl;
$"        (stroke (width 0) (type default))" ++ nl;
$"        (fill (type none))" ++ nl;
$"      )" ++ nl;
$"      (arc (start 6.35 -22.86) (mid 9.0441 -21.7441) (end 10.16 -19.05)" ++ nl;
$"        (stroke (width 1) (type dash_dot_dot) (color 45 64 255 1))" ++ nl;
$"        (fill (type none))" ++ nl;
$"      )" ++ nl;
$"      (arc (start 6.35 -19.05) (mid 9.0441 -17.9341) (end 10.16 -15.24)" ++ nl;
$"        (stroke (width 1) (type dash_dot) (color 255 175 34 1))" ++ nl;
$"        (fill (type none))" ++ nl;
$"      )" ++ nl;
$"      (arc (start 6.35 -15.24) (mid 9.0441 -14.1241) (end 10.16 -11.43)" ++ nl;
$"        (stroke (width 1) (type dot) (color 172 32 255 1))" ++ nl;
$"        (fill (type none))" ++ nl;
$"      )" ++ nl;
$"      (arc (start 6.35 -11.43) (mid 9.0441 -10.3141) (end 10.16 -7.62)" ++ nl;
$"        (stroke (width 1) (type dash) (color 255 44 112 1))" ++ nl;
$"        (fill (type none))" ++ nl;
$"      )" ++ nl;
$"      (arc (start 6.35 -7.62) (mid 9.0441 -6.5041) (end 10.16 -3.81)" ++ nl;
$"        (stroke (width 1) (type solid) (color 255 128 19 1))" ++ nl;
$"        (fill (type none))" ++ nl;
$"      )" ++ nl;
$"      (arc (start 6.35 -3.81) (mid 9.0441 -2.6941) (end 10.16 0)" ++ nl;
$"        (stroke (width 1) (type default) (color 255 197 66 1))" ++ nl;
$"        (fill (type none))" ++ nl;
$"      )" ++ nl;
$"      (arc (start 11.43 -22.86) (mid 14.1241 -21.7441) (end 15.24 -19.05)" ++ nl;
$"        (stroke (width 1) (type dash_dot_dot) (color 45 64 255 1))" ++ nl;
$"        (fill (type outline))" ++ nl;
$"      )" ++ nl;
$"      (arc (start 11.43 -19.05) (mid 14.1241 -17.9341) (end 15.24 -15.24)" ++ nl;
$"        (stroke (width 1) (type dash_dot) (color 255 175 34 1))" ++ nl;
$"        (fill (type outline))" ++ nl;
$"      )" ++ nl;
$"      (arc (start 11.43 -15.24) (mid 14.1241 -14.1241) (end 15.24 -11.43)" ++ nl;
$"        (stroke (width 1) (type dot) (color 172 32 255 1))" ++ nl;
$"        (fill (type outline))" ++ nl;
$"      )" ++ nl;
$"      (arc (start 11.43 -11.43) (mid 14.1241 -10.3141) (end 15.24 -7.62)" ++ nl;
$"        (stroke (width 1) (type dash) (color 255 44 112 1))" ++ nl;
$"        (fill (type outline))" ++ nl;
$"      )" ++ nl;
$"      (arc (start 11.43 -7.62) (mid 14.1241 -6.5041) (end 15.24 -3.81)" ++ nl;
$"        (stroke (width 1) (type solid) (color 255 128 19 1))" ++ nl;
$"        (fill (type outline))" ++ nl;
$"      )" ++ nl;
$"      (arc (start 11.43 -3.81) (mid 14.1241 -2.6941) (end 15.24 0)" ++ nl;
$"        (stroke (width 1) (type default) (color 255 197 66 1))" ++ nl;
$"        (fill (type outline))" ++ nl;
$"      )" ++ nl;
$"      (arc (start 16.51 -22.86) (mid 19.2041 -21.7441) (end 20.32 -19.05)" ++ nl;
$"        (stroke (width -0.0001) (type dash_dot_dot) (color 45 64 255 1))" ++ nl;
$"        (fill (type outline))" ++ nl;
$"      )" ++ nl;
$"      (arc (start 16.51 -19.05) (mid 19.2041 -17.9341) (end 20.32 -15.24)" ++ nl;
$"        (stroke (width -0.0001) (type dash_dot) (color 255 175 34 1))" ++ nl;
$"        (fill (type outline))" ++ nl;
$"      )" ++ nl;
$"      (arc (start 16.51 -15.24) (mid 19.2041 -14.1241) (end 20.32 -11.43)" ++ nl;
$"        (stroke (width -0.0001) (type dot) (color 172 32 255 1))" ++ nl;
$"        (fill (type outline))" ++ nl;
$"      )" ++ nl;
$"      (arc (start 16.51 -11.43) (mid 19.2041 -10.3141) (end 20.32 -7.62)" ++ nl;
$"        (stroke (width -0.0001) (type dash) (color 255 44 112 1))" ++ nl;
$"        (fill (type outline))" ++ nl;
$"      )" ++ nl;
$"      (arc (start 16.51 -7.62) (mid 19.2041 -6.5041) (end 20.32 -3.81)" ++ nl;
$"        (stroke (width -0.0001) (type solid) (color 255 128 19 1))" ++ nl;
$"        (fill (type outline))" ++ nl;
$"      )" ++ nl;
$"      (arc private (start 21.59 -22.86) (mid 24.2841 -21.7441) (end 25.4 -19.05)" ++ nl;
$"        (stroke (width -0.0001) (type dash_dot_dot) (color 45 64 255 1))" ++ nl;
$"        (fill (type outline))" ++ nl;
$"      )" ++ nl;
$"      (arc (start 16.51 -3.81) (mid 19.2041 -2.6941) (end 20.32 0)" ++ nl;
$"        (stroke (width -0.0001) (type default) (color 255 197 66 1))" ++ nl;
$"        (fill (type outline))" ++ nl;
$"      )" ++ nl;
$"      (arc private (start 21.59 -19.05) (mid 24.2841 -17.9341) (end 25.4 -15.24)" ++ nl;
$"        (stroke (width -0.0001) (type dash_dot) (color 255 175 34 1))" ++ nl;
$"        (fill (type outline))" ++ nl;
$"      )" ++ nl;
$"      (arc private (start 21.59 -15.24) (mid 24.2841 -14.1241) (end 25.4 -11.43)" ++ nl;
$"        (stroke (width -0.0001) (type dot) (color 172 32 255 1))" ++ nl;
$"        (fill (type outline))" ++ nl;
$"      )" ++ nl;
$"      (arc private (start 21.59 -11.43) (mid 24.2841 -10.3141) (end 25.4 -7.62)" ++ nl;
$"        (stroke (width -0.0001) (type dash) (color 255 44 112 1))" ++ nl;
$"        (fill (type outline))" ++ nl;
$"      )" ++ nl;
$"      (arc private (start 21.59 -7.62) (mid 24.2841 -6.5041) (end 25.4 -3.81)" ++ nl;
$"        (stroke (width -0.0001) (type solid) (color 255 128 19 1))" ++ nl;
$"        (fill (type outline))" ++ nl;
$"      )" ++ nl;
$"      (arc private (start 21.59 -3.81) (mid 24.2841 -2.6941) (end 25.4 0)" ++ nl;
$"        (stroke (width -0.0001) (type default) (color 255 197 66 1))" ++ nl;
$"        (fill (type outline))" ++ nl;
$"      )" ++ nl;
$"      (arc (start 26.67 -22.86) (mid 29.3641 -21.7441) (end 30.48 -19.05)" ++ nl;
$"        (stroke (width 1) (type dash_dot_dot) (color 45 64 255 1))" ++ nl;
$"        (fill (type background))" ++ nl;
$"      )" ++ nl;
$"      (arc (start 26.67 -19.05) (mid 29.3641 -17.9341) (end 30.48 -15.24)" ++ nl;
$"        (stroke (width 1) (type dash_dot) (color 255 175 34 1))" ++ nl;
$"        (fill (type background))" ++ nl;
$"      )" ++ nl;
$"      (arc (start 26.67 -15.24) (mid 29.3641 -14.1241) (end 30.48 -11.43)" ++ nl;
$"        (stroke (width 1) (type dot) (color 172 32 255 1))" ++ nl;
$"        (fill (type background))" ++ nl;
$"      )" ++ nl;
$"      (arc (start 26.67 -11.43) (mid 29.3641 -10.3141) (end 30.48 -7.62)" ++ nl;
$"        (stroke (width 1) (type dash) (color 255 44 112 1))" ++ nl;
$"        (fill (type background))" ++ nl;
$"      )" ++ nl;
$"      (arc (start 26.67 -7.62) (mid 29.3641 -6.5041) (end 30.48 -3.81)" ++ nl;
$"        (stroke (width 1) (type solid) (color 255 128 19 1))" ++ nl;
$"        (fill (type background))" ++ nl;
$"      )" ++ nl;
$"      (arc (start 26.67 -3.81) (mid 29.3641 -2.6941) (end 30.48 0)" ++ nl;
$"        (stroke (width 1) (type default) (color 255 197 66 1))" ++ nl;
$"        (fill (type background))" ++ nl;
$"      )" ++ nl;
$"    )" ++ nl;
$"  )" ++ nl;
$")" ++ nl].
Example fixture_v7_arcAllVariants : gives (let! o := (read SymbolLib_from want_v7_arcAllVariants) in (fun o => SymbolLib_to o 0 true) o) want_v7_arcAllVariants = true.
Proof. vm_compute. reflexivity. Qed.

Definition want_createNewSymbolInEmptyLibrary : str := concat [
$"(kicad_symbol_lib (version 20211014) (generator kiutils)" ++ nl;
$"  (symbol ""testsymbol"" (in_bom yes) (on_board yes)" ++ nl;
$"    (property ""Reference"" ""U"" (id 0) (at 0.0 0.0 0)" ++ nl;
$"      (effects (font (size 1.27 1.27)))" ++ nl;
$"    )" ++ nl;
$"    (property ""Value"" ""testvalue"" (id 1) (at 0.0 0.0 0)" ++ nl;
$"      (effects (font (size 1.27 1.27)))" ++ nl;
$"    )" ++ nl;
$"    (property ""Footprint"" """" (id 2) (at 0.0 0.0 0)" ++ nl;
$"      (effects (font (size 1.27 1.27)) hide)" ++ nl;
$"    )" ++ nl;
$"    (property ""Datasheet"" """" (id 3) (at 0.0 0.0 0)" ++ nl;
$"      (effects (font (size 1.27 1.27)) hide)" ++ nl;
$"    )" ++ nl;
$"  )" ++ nl;
$")" ++ nl].
Example fixture_createNewSymbolInEmptyLibrary : gives (let! o := (let! s := Symbol_create_new (VStr $"testsymbol") (VStr $"U") (VStr $"testvalue") (VStr []) (VStr []) in Ok (SymbolLib_default <| sj_version := VStr $"20211014" |> <| sj_generator := VStr $"kiutils" |> <| sj_symbols := [s] |>)) in (fun o => SymbolLib_to o 0 true) o) want_createNewSymbolInEmptyLibrary = true.
Proof. vm_compute. reflexivity. Qed.

Definition want_renameParentIdUsingIdToken : str := concat [
$"(kicad_symbol_lib (version 20211014) (generator kicad_symbol_editor)" ++ nl;
$"  (symbol ""ExampleLibrary:AD2023"" (power) (pin_numbers hide) (pin_names (offset 0.635)) (in_bom no) (on_board no)" ++ nl;
$"    (property ""Value"" ""AD1853"" (id 1) (at 0 13.97 0)" ++ nl;
$"      (effects (font (size 1.27 1.27)))" ++ nl;
$"    )" ++ nl;
$"    (symbol ""AD2023_0_0""" ++ nl;
$"      (text ""Top Unit"" (at 0 8.255 0)" ++ nl;
$"        (effects (font (size 1.27 1.27)))" ++ nl;
$"      )" ++ nl;
$"    )" ++ nl;
$"    (symbol ""AD2023_1_0""" ++ nl;
$"      (text ""Unit A"" (at 0 8.255 0)" ++ nl;
$"        (effects (font (size 1.27 1.27)))" ++ nl;
$"      )" ++ nl;
$"    )" ++ nl;
$"    (symbol ""AD2023_1_1""" ++ nl;
$"      (text ""Unit A, Normal"" (at 0 8.255 0)" ++ nl;
$"        (effects (font (size 1.27 1.27)))" ++ nl;
$"      )" ++ nl;
$"    )" ++ nl;
$"    (symbol ""AD2023_1_2""" ++ nl;
$"      (text ""Unit A, DeMorgan"" (at -0.635 7.62 0)" ++ nl;
$"        (effects (font (size 1.27 1.27)))" ++ nl;
$"      )" ++ nl;
$"    )" ++ nl;
$"    (symbol ""AD2023_2_0""" ++ nl;
$"      (text ""Unit B"" (at 0 8.255 0)" ++ nl;
$"        (effects (font (size 1.27 1.27)))" ++ nl;
$"      )" ++ nl;
$"    )" ++ nl;
$"    (symbol ""AD2023_2_1""" ++ nl;
$"      (text ""Unit B, Normal"" (at 0 8.255 0)" ++ nl;
$"        (effects (font (size 1.27 1.27)))" ++ nl;
$"      )" ++ nl;
$"    )" ++ nl;
$"    (symbol ""AD2023_2_2""" ++ nl;
$"      (text ""Unit B, DeMorgan"" (at -0.635 7.62 0)" ++ nl;
$"        (effects (font (size 1.27 1.27)))" ++ nl;
$"      )" ++ nl;
$"    )" ++ nl;
$"    (symbol ""AD2023_3_0""" ++ nl;
$"      (text ""Unit C"" (at 0 8.255 0)" ++ nl;
$"        (effects (font (size 1.27 1.27)))" ++ nl;
$"      )" ++ nl;
$"    )" ++ nl;
$"    (symbol ""AD2023_3_1""" ++ nl;
$"      (text ""Unit C, Normal"" (at 0 8.255 0)" ++ nl;
$"        (effects (font (size 1.27 1.27)))" ++ nl;
$"      )" ++ nl;
$"    )" ++ nl;
$"    (symbol ""AD2023_3_2""" ++ nl;
$"      (text ""Unit C, DeMorgan"" (at -0.635 7.62 0)" ++ nl;
$"        (effects (font (size 1.27 1.27)))" ++ nl;
$"      )" ++ nl;
$"    )" ++ nl;
$"  )" ++ nl;
$"  (symbol ""AD2023"" (power) (pin_numbers hide) (pin_names (offset 0.635)) (in_bom no) (on_board no)" ++ nl;
$"    (property ""Value"" ""AD1853"" (id 1) (at 0 13.97 0)" ++ nl;
$"      (effects (font (size 1.27 1.27)))" ++ nl;
$"    )" ++ nl;
$"    (symbol ""AD2023_0_0""" ++ nl;
$"      (text ""Top Unit"" (at 0 8.255 0)" ++ nl;
$"        (effects (font (size 1.27 1.27)))" ++ nl;
$"      )" ++ nl;
$"    )" ++ nl;
$"    (symbol ""AD2023_1_0""" ++ nl;
$"      (text ""Unit A"" (at 0 8.255 0)" ++ nl;
$"        (effects (font (size 1.27 1.27)))" ++ nl;
$"      )" ++ nl;
$"    )" ++ nl;
$"    (symbol ""AD2023_1_1""" ++ nl;
$"      (text ""Unit A, Normal"" (at 0 8.255 0)" ++ nl;
$"        (effects (font (size 1.27 1.27)))" ++ nl;
$"      )" ++ nl;
$"    )" ++ nl;
$"    (symbol ""AD2023_1_2""" ++ nl;
$"      (text ""Unit A, DeMorgan"" (at -0.635 7.62 0)" ++ nl;
$"        (effects (font (size 1.27 1.27)))" ++ nl;
$"      )" ++ nl;
$"    )" ++ nl;
$"    (symbol ""AD2023_2_0""" ++ nl;
$"      (text ""Unit B"" (at 0 8.255 0)" ++ nl;
$"        (effects (font (size 1.27 1.27)))" ++ nl;
$"      )" ++ nl;
$"    )" ++ nl;
$"    (symbol ""AD2023_2_1""" ++ nl;
$"      (text ""Unit B, Normal"" (at 0 8.255 0)" ++ nl;
$"        (effects (font (size 1.27 1.27)))" ++ nl;
$"      )" ++ nl;
$"    )" ++ nl;
$"    (symbol ""AD2023_2_2""" ++ nl;
$"      (text ""Unit B, DeMorgan"" (at -0.635 7.62 0)" ++ nl;
$"        (effects (font (size 1.27 1.27)))" ++ nl;
$"      )" ++ nl;
$"    )" ++ nl;
$"    (symbol ""AD2023_3_0""" ++ nl;
$"      (text ""Unit C"" (at 0 8.255 0)" ++ nl;
$"        (effects (font (size 1.27 1.27)))" ++ nl;
$"      )" ++ nl;
$"    )" ++ nl;
$"    (symbol ""AD2023_3_1""" ++ nl;
$"      (text ""Unit C, Normal"" (at 0 8.255 0)" ++ nl;
$"        (effects (font (size 1.27 1.27)))" ++ nl;
$"      )" ++ nl;
$"    )" ++ nl;
$"    (symbol ""AD2023_3_2""" ++ nl;
$"      (text ""Unit C, DeMorgan"" (at -0.635 7.62 0)" ++ nl;
$"        (effects (font (size 1.27 1.27)))" ++ nl;
$"      )" ++ nl;
$"    )" ++ nl;
$"  )" ++ nl;
$")" ++ nl].
Definition file_renameParentIdUsingIdToken : str := concat [
$"(kicad_symbol_lib (version 20211014) (generator kicad_symbol_editor)" ++ nl;
$"  (symbol ""AD1853JRS"" (power) (pin_numbers hide) (pin_names (offset 0.635)) (in_bom no) (on_board no)" ++ nl;
$"    (property ""Value"" ""AD1853"" (id 1) (at 0 13.97 0)" ++ nl;
$"      (effects (font (size 1.27 1.27)))" ++ nl;
$"    )" ++ nl;
$"    (symbol ""AD1853JRS_0_0""" ++ nl;
$"      (text ""Top Unit"" (at 0 8.255 0)" ++ nl;
$"        (effects (font (size 1.27 1.27)))" ++ nl;
$"      )" ++ nl;
$"    )" ++ nl;
$"    (symbol ""AD1853JRS_1_0""" ++ nl;
$"      (text ""Unit A"" (at 0 8.255 0)" ++ nl;
$"        (effects (font (size 1.27 1.27)))" ++ nl;
$"      )" ++ nl;
$"    )" ++ nl;
$"    (symbol ""AD1853JRS_1_1""" ++ nl;
$"      (text ""Unit A, Normal"" (at 0 8.255 0)" ++ nl;
$"        (effects (font (size 1.27 1.27)))" ++ nl;
$"      )" ++ nl;
$"    )" ++ nl;
$"    (symbol ""AD1853JRS_1_2""" ++ nl;
$"      (text ""Unit A, DeMorgan"" (at -0.635 7.62 0)" ++ nl;
$"        (effects (font (size 1.27 1.27)))" ++ nl;
$"      )" ++ nl;
$"    )" ++ nl;
$"    (symbol ""AD1853JRS_2_0""" ++ nl;
$"      (text ""Unit B"" (at 0 8.255 0)" ++ nl;
$"        (effects (font (size 1.27 1.27)))" ++ nl;
$"      )" ++ nl;
$"    )" ++ nl;
$"    (symbol ""AD1853JRS_2_1""" ++ nl;
$"      (text ""Unit B, Normal"" (at 0 8.255 0)" ++ nl;
$"        (effects (font (size 1.27 1.27)))" ++ nl;
$"      )" ++ nl;
$"    )" ++ nl;
$"    (symbol ""AD1853JRS_2_2""" ++ nl;
$"      (text ""Unit B, DeMorgan"" (at -0.635 7.62 0)" ++ nl;
$"        (effects (font (size 1.27 1.27)))" ++ nl;
$"      )" ++ nl;
$"    )" ++ nl;
$"    (symbol ""AD1853JRS_3_0""" ++ nl;
$"      (text ""Unit C"" (at 0 8.255 0)" ++ nl;
$"        (effects (font (size 1.27 1.27)))" ++ nl;
$"      )" ++ nl;
$"    )" ++ nl;
$"    (symbol ""AD1853JRS_3_1""" ++ nl;
$"      (text ""Unit C, Normal"" (at 0 8.255 0)" ++ nl;
$"        (effects (font (size 1.27 1.27)))" ++ nl;
$"      )" ++ nl;
$"    )" ++ nl;
$"    (symbol ""AD1853JRS_3_2""" ++ nl;
$"      (text ""Unit C, DeMorgan"" (at -0.635 7.62 0)" ++ nl;
$"        (effects (font (size 1.27 1.27)))" ++ nl;
$"      )" ++ nl;
$"    )" ++ nl;
$"  )" ++ nl;
$"  (symbol ""Has_Library_Nick_Set:AD1853JRS"" (power) (pin_numbers hide) (pin_names (offset 0.635)) (in_bom no) (on_board no)" ++ nl;
$"    (property ""Value"" ""AD1853"" (id 1) (at 0 13.97 0)" ++ nl;
$"      (effects (font (size 1.27 1.27)))" ++ nl;
$"    )" ++ nl;
$"    (symbol ""AD1853JRS_0_0""" ++ nl;
$"      (text ""Top Unit"" (at 0 8.255 0)" ++ nl;
$"        (effects (font (size 1.27 1.27)))" ++ nl;
$"      )" ++ nl;
$"    )" ++ nl;
$"    (symbol ""AD1853JRS_1_0""" ++ nl;
$"      (text ""Unit A"" (at 0 8.255 0)" ++ nl;
$"        (effects (font (size 1.27 1.27)))" ++ nl;
$"      )" ++ nl;
$"    )" ++ nl;
$"    (symbol ""AD1853JRS_1_1""" ++ nl;
$"      (text ""Unit A, Normal"" (at 0 8.255 0)" ++ nl;
$"        (effects (font (size 1.27 1.27)))" ++ nl;
$"      )" ++ nl;
$"    )" ++ nl;
$"    (symbol ""AD1853JRS_1_2""" ++ nl;
$"      (text ""Unit A, DeMorgan"" (at -0.635 7.62 0)" ++ nl;
$"        (effects (font (size 1.27 1.27)))" ++ nl;
$"      )" ++ nl;
$"    )" ++ nl;
$"    (symbol ""AD1853JRS_2_0""" ++ nl;
$"      (text ""Unit B"" (at 0 8.255 0)" ++ nl;
$"        (effects (font (size 1.27 1.27)))" ++ nl;
$"      )" ++ nl;
$"    )" ++ nl;
$"    (symbol ""AD1853JRS_2_1""" ++ nl;
$"      (text ""Unit B, Normal"" (at 0 8.255 0)" ++ nl;
$"        (effects (font (size 1.27 1.27)))" ++ nl;
$"      )" ++ nl;
$"    )" ++ nl;
$"    (symbol ""AD1853JRS_2_2""" ++ nl;
$"      (text ""Unit B, DeMorgan"" (at -0.635 7.62 0)" ++ nl;
$"        (effects (font (size 1.27 1.27)))" ++ nl;
$"      )" ++ nl;
$"    )" ++ nl;
$"    (symbol ""AD1853JRS_3_0""" ++ nl;
$"      (text ""Unit C"" (at 0 8.255 0)" ++ nl;
$"        (effects (font (size 1.27 1.27)))" ++ nl;
$"      )" ++ nl;
$"    )" ++ nl;
$"    (symbol ""AD1853JRS_3_1""" ++ nl;
$"      (text ""Unit C, Normal"" (at 0 8.255 0)" ++ nl;
$"        (effects (font (size 1.27 1.27)))" ++ nl;
$"      )" ++ nl;
$"    )" ++ nl;
$"    (symbol ""AD1853JRS_3_2""" ++ nl;
$"      (text ""Unit C, DeMorgan"" (at -0.635 7.62 0)" ++ nl;
$"        (effects (font (size 1.27 1.27)))" ++ nl;
$"      )" ++ nl;
$"    )" ++ nl;
$"  )" ++ nl;
$")" ++ nl].
Example fixture_renameParentIdUsingIdToken : gives (let! o := (let! o := read SymbolLib_from file_renameParentIdUsingIdToken in let! l := nth_try 0 (Symbol_set_libId (VStr $"ExampleLibrary:AD2023")) (sj_symbols o) in let! l := nth_try 1 (Symbol_set_libId (VStr $"AD2023")) l in Ok (o <| sj_symbols := l |>)) in (fun o => SymbolLib_to o 0 true) o) want_renameParentIdUsingIdToken = true.
Proof. vm_compute. reflexivity. Qed.

Definition want_createNewTopLevelSymbolFromChild : str := concat [
$"(kicad_symbol_lib (version 20211014) (generator kicad_symbol_editor)" ++ nl;
$"  (symbol ""AD1853"" (power) (pin_numbers hide) (pin_names (offset 0.635)) (in_bom no) (on_board no)" ++ nl;
$"    (property ""Value"" ""AD1853"" (id 1) (at 0 6.985 0)" ++ nl;
$"      (effects (font (size 1.27 1.27)))" ++ nl;
$"    )" ++ nl;
$"    (symbol ""AD1853_0_0""" ++ nl;
$"      (text ""NormalStuff"" (at 0 19.05 0)" ++ nl;
$"        (effects (font (size 1.27 1.27)))" ++ nl;
$"      )" ++ nl;
$"      (pin input line (at 13.335 13.97 0) (length 2.54)" ++ nl;
$"        (name ""NormalPin"" (effects (font (size 1.27 1.27))))" ++ nl;
$"        (number ""123"" (effects (font (size 1.27 1.27))))" ++ nl;
$"      )" ++ nl;
$"    )" ++ nl;
$"  )" ++ nl;
$"  (symbol ""SomeNewName:AD2023""" ++ nl;
$"    (text ""NormalStuff"" (at 0 19.05 0)" ++ nl;
$"      (effects (font (size 1.27 1.27)))" ++ nl;
$"    )" ++ nl;
$"    (pin input line (at 13.335 13.97 0) (length 2.54)" ++ nl;
$"      (name ""NormalPin"" (effects (font (size 1.27 1.27))))" ++ nl;
$"      (number ""123"" (effects (font (size 1.27 1.27))))" ++ nl;
$"    )" ++ nl;
$"  )" ++ nl;
$")" ++ nl].
Definition file_createNewTopLevelSymbolFromChild : str := concat [
$"(kicad_symbol_lib (version 20211014) (generator kicad_symbol_editor)" ++ nl;
$"  (symbol ""AD1853"" (power) (pin_numbers hide) (pin_names (offset 0.635)) (in_bom no) (on_board no)" ++ nl;
$"    (property ""Value"" ""AD1853"" (id 1) (at 0 6.985 0)" ++ nl;
$"      (effects (font (size 1.27 1.27)))" ++ nl;
$"    )" ++ nl;
$"    (symbol ""AD1853_0_0""" ++ nl;
$"      (text ""NormalStuff"" (at 0 19.05 0)" ++ nl;
$"        (effects (font (size 1.27 1.27)))" ++ nl;
$"      )" ++ nl;
$"      (pin input line (at 13.335 13.97 0) (length 2.54)" ++ nl;
$"        (name ""NormalPin"" (effects (font (size 1.27 1.27))))" ++ nl;
$"        (number ""123"" (effects (font (size 1.27 1.27))))" ++ nl;
$"      )" ++ nl;
$"    )" ++ nl;
$"  )" ++ nl;
$")"].
Example fixture_createNewTopLevelSymbolFromChild : gives (let! o := (let! o := read SymbolLib_from file_createNewTopLevelSymbolFromChild in match sj_symbols o with s :: _ => match sy_units s with u :: _ => let! t := Symbol_to u 2 true in let! c := read Symbol_from t in let! c := Symbol_set_libId (VStr $"SomeNewName:AD2023") c in Ok (o <| sj_symbols := sj_symbols o ++ [c] |>) | [] => Err EIndex end | [] => Err EIndex end) in (fun o => SymbolLib_to o 0 true) o) want_createNewTopLevelSymbolFromChild = true.
Proof. vm_compute. reflexivity. Qed.
