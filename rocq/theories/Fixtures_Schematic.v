(** Fixtures of the unit tests in /repo/tests/test_schematic.py: the model writes, byte by byte, the files the tests expect.
    Generated by tools/fixtures.py. *)
From Coq Require Import String.
From Verif Require Import PyBase PyNum PyStr Sexpr RecordSet M_Common M_Lib M_Sym M_Fp M_Gr M_Zone M_Footprint M_Dim M_Brd M_Board M_Sch M_Schematic M_Wks.

Fixpoint same (a b : str) : bool := match a, b with [], [] => true | x :: a', y :: b' => N.eqb x y && same a' b' | _, _ => false end.
Definition gives (m : res str) (t : str) : bool := match m with Ok s => same s t | Err _ => false end.
Definition nth_set {A} (k : nat) (f : A -> A) (l : list A) : list A := match skipn k l with x :: r => firstn k l ++ f x :: r | [] => l end.
Definition nth_try {A} (k : nat) (f : A -> res A) (l : list A) : res (list A) := match skipn k l with x :: r => let! y := f x in Ok (firstn k l ++ y :: r) | [] => Err EIndex end.
Definition read {A} (from : val -> res A) (t : str) : res A := let! v := parse_sexp t in from v.

Definition want_parseStrokeTokens : str := concat [
$"(kicad_sch (version 20211123) (generator eeschema)" ++ nl;
$"" ++ nl;
$"  (uuid e63e39d7-6ac0-4ffd-8aa3-1841a4541b55)" ++ nl;
$"" ++ nl;
$"  (paper ""User"" 431.8 279.4)" ++ nl;
$"" ++ nl;
$"  (title_block" ++ nl;
$"    (title ""The title"")" ++ nl;
$"    (date ""19.02.2022"")" ++ nl;
$"    (rev ""A"")" ++ nl;
$"    (company ""The company"")" ++ nl;
$"    (comment 1 ""Comment 1"")" ++ nl;
$"    (comment 2 ""Comment 2"")" ++ nl;
$"    (comment 3 ""Comment 3"")" ++ nl;
$"    (comment 4 ""Comment 4"")" ++ nl;
$"    (comment 5 ""Comment 5"")" ++ nl;
$"    (comment 6 ""Comment 6"")" ++ nl;
$"    (comment 7 ""Comment 7"")" ++ nl;
$"    (comment 8 ""Comment 8"")" ++ nl;
$"    (comment 9 ""Comment 9"")" ++ nl;
$"  )" ++ nl;
$"" ++ nl;
$"  (lib_symbols" ++ nl;
$"    (symbol ""Switch:SW_Coded"" (in_bom yes) (on_board yes)" ++ nl;
$"      (symbol ""SW_Coded_0_1""" ++ nl;
$"        (circle (center -0.635 0.635) (radius 3.81)" ++ nl;
$"          (stroke (width 0) (type default) (color 0 0 0 0))" ++ nl;
$"          (fill (type none))" ++ nl;
$"        )" ++ nl;
$"        (polyline" ++ nl;
$"          (pts" ++ nl;
$"            (xy -0.889 -1.905)" ++ nl;
$"          )" ++ nl;
$"          (stroke (width 0) (type default) (color 0 0 0 0))" ++ nl;
$"          (fill (type none))" ++ nl;
$"        )" ++ nl;
$"        (rectangle (start 7.62 7.62) (end -6.35 -6.35)" ++ nl;
$"          (stroke (width 0.254) (type default) (color 0 0 0 0))" ++ nl;
$"          (fill (type background))" ++ nl;
$"        )" ++ nl;
$"      )" ++ nl;
$"    )" ++ nl;
$"  )" ++ nl;
$"" ++ nl;
$"  (bus_entry (at 199.39 125.095) (size 2.54 2.54)" ++ nl;
$"    (stroke (width 0) (type default) (color 0 0 0 0))" ++ nl;
$"  )" ++ nl;
$"  (bus_entry (at 199.39 125.095) (size 2.54 2.54)" ++ nl;
$"    (stroke (width 0) (type default))" ++ nl;
$"  )" ++ nl;
$"" ++ nl;
$"  (wire (pts (xy 189.865 162.56) (xy 189.865 134.62))" ++ nl;
$"    (stroke (width 0) (type default) (color 132 50 37 0))" ++ nl;
$"  )" ++ nl;
$"  (polyline (pts (xy 201.93 142.875) (xy 241.935 142.875))" ++ nl;
$"    (stroke (width 0) (type default) (color 0 0 0 0))" ++ nl;
$"  )" ++ nl;
$"  (wire (pts (xy 189.865 162.56) (xy 189.865 134.62))" ++ nl;
$"    (stroke (width 0) (type default))" ++ nl;
$"  )" ++ nl;
$"  (polyline (pts (xy 201.93 142.875) (xy 241.935 142.875))" ++ nl;
$"    (stroke (width 0) (type default))" ++ nl;
$"  )" ++ nl;
$")" ++ nl].
Example fixture_parseStrokeTokens : gives (let! o := (read Schematic_from want_parseStrokeTokens) in (fun o => Schematic_to o 0 true) o) want_parseStrokeTokens = true.
Proof. vm_compute. reflexivity. Qed.

Definition want_v7_rectangleAllVariants : str := concat [
$"(kicad_sch (version 20230121) (generator eeschema)" ++ nl;
$"" ++ nl;
$"  (uuid c1ef0f5b-928d-41cb-9d70-a66e71feb54d)" ++ nl;
$"" ++ nl;
$"  (paper ""A4"")" ++ nl;
$"  (lib_symbols)" ++ nl;
$"" ++ nl;
$"  (rectangle (start 106.68 102.87) (end 116.84 105.41)" ++ nl;
$"    (stroke (width 1) (type solid) (color 255 111 208 1))" ++ nl;
$"    (fill (type color) (color 255 67 133 1))" ++ nl;
$"    (uuid 0ffe7370-0f86-4ed2-aa0e-042a77ff4fcf)" ++ nl;
$"  )" ++ nl;
$"  (rectangle (start 83.82 102.87) (end 93.98 105.41)" ++ nl;
$"    (stroke (width 0) (type solid))" ++ nl;
$"    (fill (type none))" ++ nl;
$"    (uuid 13a9b608-1006-421c-9430-d341c2b42faa)" ++ nl;
$"  )" ++ nl;
$"  (rectangle (start 83.82 114.3) (end 93.98 116.84)" ++ nl;
$"    (stroke (width 0) (type dash_dot))" ++ nl;
$"    (fill (type none))" ++ nl;
$"    (uuid 291cd07e-badd-4979-a935-058778bb6e1d)" ++ nl;
$"  )" ++ nl;
$"  (rectangle (start 106.68 99.06) (end 116.84 101.6)" ++ nl;
$"    (stroke (width 1) (type default) (color 255 29 62 1))" ++ nl;
$"    (fill (type color) (color 255 118 101 1))" ++ nl;
$"    (uuid 404354a5-74f0-48f5-b3a0-24a2d17be6f0)" ++ nl;
$"  )" ++ nl;
$"  (rectangle (start 95.25 99.06) (end 105.41 101.6)" ++ nl;
$"    (stroke (width 1) (type default) (color 255 29 62 1))" ++ nl;
$"    (fill (type none))" ++ nl;
$"    (uuid 44c5959b-f42f-4832-8b3f-adcf58fc97c9)" ++ nl;
$"  )" ++ nl;
$"  (rectangle (start 83.82 118.11) (end 93.98 120.65)" ++ nl;
$"    (stroke (width 0) (type dash_dot_dot))" ++ nl;
$"    (fill (type none))" ++ nl;
$"    (uuid 51eb8703-ef52-47c0-be23-954d88654c6b)" ++ nl;
$"  )" ++ nl;
$"  (rectangle (start 83.82 99.06) (end 93.98 101.6)" ++ nl;
$"    (stroke (width 0) (type default))" ++ nl;
$"    (fill (type none))" ++ nl;
$"    (uuid 6298cf3e-1361-4a1b-b18b-ac9885df9591)" ++ nl;
$"  )" ++ nl;
$"  (rectangle (start 95.25 114.3) (end 105.41 116.84)" ++ nl;
$"    (stroke (width 1) (type dash_dot) (color 255 205 48 1))" ++ nl;
$"    (fill (type none))" ++ nl;
$"    (uuid 6439e013-5a17-4d2d-82f7-2dba64d7e222)" ++ nl;
$"  )" ++ nl;
$"  (rectangle (start 83.82 110.49) (end 93.98 113.03)" ++ nl;
$"    (stroke (width 0) (type dot))" ++ nl;
$"    (fill (type none))" ++ nl;
$"    (uuid 68eaaa0e-2900-4b9a-9504-3af60a7152be)" ++ nl;
$"  )" ++ nl;
$"  (rectangle (start 106.68 106.68) (end 116.84 109.22)" ++ nl;
$"    (stroke (width 1) (type dash) (color 255 98 72 1))" ++ nl;
$"    (fill (type color) (color 255 123 41 1))" ++ nl;
$"    (uuid 75ef5c11-7b2e-4099-acf2-bc1360321847)" ++ nl;
$"  )" ++ nl;
$"  (rectangle (start 106.68 110.49) (end 116.84 113.03)" ++ nl;
$"    (stroke (width 1) (type dot) (color 93 255 89 1))" ++ nl;
$"    (fill (type color) (color 255 141 44 1))" ++ nl;
$"    (uuid 7bad4420-7874-436e-bb91-cd6fc113f242)" ++ nl;
$"  )" ++ nl;
$"  (rectangle (start 95.25 102.87) (end 105.41 105.41)" ++ nl;
$"    (stroke (width 1) (type solid) (color 255 111 208 1))" ++ nl;
$"    (fill (type none))" ++ nl;
$"    (uuid 80d6c30c-f860-457c-9285-26b392dc18e8)" ++ nl;
$"  )" ++ nl;
$"  (rectangle (start 106.68 118.11) (end 116.84 120.65)" ++ nl;
$"    (stroke (width 1) (type dash_dot_dot) (color 73 152 255 1))" ++ nl;
$"    (fill (type color) (color 255 149 16 1))" ++ nl;
$"    (uuid 8b4bf7a5-c1a6-4371-a51b-e294e137a8f5)" ++ nl;
$"  )" ++ nl;
$"  (rectangle (start 95.25 118.11) (end 105.41 120.65)" ++ nl;
$"    (stroke (width 1) (type dash_dot_dot) (color 73 152 255 1))" ++ nl;
$"    (fill (type none))" ++ nl;
$"    (uuid 93a3b606-675e-4fad-87be-a0b3f696df94)" ++ nl;
$"  )" ++ nl;
$"  (rectangle (start 95.25 106.68) (end 105.41 109.22)" ++ nl;
$"    (stroke (width 1) (type dash) (color 255 98 72 1))" ++ nl;
$"    (fill (type none))" ++ nl;
$"    (uuid b8ed7a4c-f137-44aa-97fb-74029e8e69ec)" ++ nl;
$"  )" ++ nl;
$"  (rectangle (start 95.25 110.49) (end 105.41 113.03)" ++ nl;
$"    (stroke (width 1) (type dot) (color 93 255 89 1))" ++ nl;
$"    (fill (type none))" ++ nl;
$"    (uuid c36f51bb-5c1f-49cb-bd3b-492664be8406)" ++ nl;
$"  )" ++ nl;
$"  (rectangle (start 106.68 114.3) (end 116.84 116.84)" ++ nl;
$"    (stroke (width 1) (type dash_dot) (color 255 205 48 1))" ++ nl;
$"    (fill (type color) (color 77 255 11 1))" ++ nl;
$"    (uuid c461a677-d9f1-47ce-a580-5e692886001d)" ++ nl;
$"  )" ++ nl;
$"  (rectangle (start 83.82 106.68) (end 93.98 109.22)" ++ nl;
$"    (stroke (width 0) (type dash))" ++ nl;
$"    (fill (type none))" ++ nl;
$"    (uuid e84a05a3-8c6c-45ff-9878-0aaf464c6c7c)" ++ nl;
$"  )" ++ nl;
$"" ++ nl;
$"  (sheet_instances" ++ nl;
$"    (path ""/"" (page ""1""))" ++ nl;
$"  )" ++ nl;
$")" ++ nl].
Example fixture_v7_rectangleAllVariants : gives (let! o := (read Schematic_from want_v7_rectangleAllVariants) in (fun o => Schematic_to o 0 true) o) want_v7_rectangleAllVariants = true.
Proof. vm_compute. reflexivity. Qed.

Definition want_v7_circleAllVariants : str := concat [
$"(kicad_sch (version 20230121) (generator eeschema)" ++ nl;
$"" ++ nl;
$"  (uuid 3a563ed9-b266-4375-be29-6a2d9f906b82)" ++ nl;
$"" ++ nl;
$"  (paper ""A4"")" ++ nl;
$"  (lib_symbols)" ++ nl;
$"" ++ nl;
$"  (circle (center 179.07 101.6) (radius 14.3684)" ++ nl;
$"    (stroke (width -0.0001) (type dash_dot))" ++ nl;
$"    (fill (type none))" ++ nl;
$"    (uuid 10f67b74-259d-4569-bc67-523ab4b3ccf2)" ++ nl;
$"  )" ++ nl;
$"  (circle (center 80.01 40.64) (radius 14.3684)" ++ nl;
$"    (stroke (width 2) (type default))" ++ nl;
$"    (fill (type none))" ++ nl;
$"    (uuid 16d91da5-0b12-42b6-970d-ddf7b42947b3)" ++ nl;
$"  )" ++ nl;
$"  (circle (center 48.26 101.6) (radius 14.3684)" ++ nl;
$"    (stroke (width -0.0001) (type default))" ++ nl;
$"    (fill (type none))" ++ nl;
$"    (uuid 37b15c16-7542-40d6-9191-d24af787f4d6)" ++ nl;
$"  )" ++ nl;
$"  (circle (center 212.09 71.12) (radius 14.3684)" ++ nl;
$"    (stroke (width 0) (type dash_dot_dot))" ++ nl;
$"    (fill (type none))" ++ nl;
$"    (uuid 50d5af19-333f-4ad1-9ed9-ee5990ec10f6)" ++ nl;
$"  )" ++ nl;
$"  (circle (center 179.07 71.12) (radius 14.3684)" ++ nl;
$"    (stroke (width 0) (type dash_dot))" ++ nl;
$"    (fill (type none))" ++ nl;
$"    (uuid 55dd3320-e7af-4681-88c1-98593c6bf7a8)" ++ nl;
$"  )" ++ nl;
$"  (circle (center 212.09 101.6) (radius 14.3684)" ++ nl;
$"    (stroke (width -0.0001) (type dash_dot_dot))" ++ nl;
$"    (fill (type none))" ++ nl;
$"    (uuid 72af28c4-e958-4729-8288-3b7dcada1350)" ++ nl;
$"  )" ++ nl;
$"  (circle (center 80.01 71.12) (radius 14.3684)" ++ nl;
$"    (stroke (width 0) (type solid))" ++ nl;
$"    (fill (type none))" ++ nl;
$"    (uuid 74290032-e2ac-45a1-8bc5-76ed6df208f6)" ++ nl;
$"  )" ++ nl;
$"  (circle (center 48.26 71.12) (radius 14.3684)" ++ nl;
$"    (stroke (width 0) (type default))" ++ nl;
$"    (fill (type none))" ++ nl;
$"    (uuid 7d2aae1d-18e7-4ef4-b103-4005799a43f6)" ++ nl;
$"  )" ++ nl;
$"  (circle (center 146.05 40.64) (radius 14.3684)" ++ nl;
$"    (stroke (width 2) (type default) (color 137 255 16 1))" ++ nl;
$"    (fill (type color) (color 255 243 25 1))" ++ nl;
$"    (uuid 93f9ae38-0ce9-4446-be2a-4fc255f84a35)" ++ nl;
$"  )" ++ nl;
$"  (circle (center 113.03 101.6) (radius 14.3684)" ++ nl;
$"    (stroke (width -0.0001) (type dash))" ++ nl;
$"    (fill (type none))" ++ nl;
$"    (uuid ab42f3f3-f33c-4c8c-b063-87ab7e46e89d)" ++ nl;
$"  )" ++ nl;
$"  (circle (center 146.05 71.12) (radius 14.3684)" ++ nl;
$"    (stroke (width 0) (type dot))" ++ nl;
$"    (fill (type none))" ++ nl;
$"    (uuid bfe7e384-1bb9-41fd-a66a-a2976f83a4a1)" ++ nl;
$"  )" ++ nl;
$"  (circle (center 113.03 71.12) (radius 14.3684)" ++ nl;
$"    (stroke (width 0) (type dash))" ++ nl;
$"    (fill (type none))" ++ nl;
$"    (uuid c2090aec-b2f7-4752-a921-ba0c7f208468)" ++ nl;
$"  )" ++ nl;
$"  (circle (center 80.01 101.6) (radius 14.3684)" ++ nl;
$"    (stroke (width -0.0001) (type solid))" ++ nl;
$"    (fill (type none))" ++ nl;
$"    (uuid dcce03fa-6dda-4ef8-a70b-6b47ba8e01ef)" ++ nl;
$"  )" ++ nl;
$"  (circle (center 48.26 40.64) (radius 14.3684)" ++ nl;
$"    (stroke (width 0) (type default))" ++ nl;
$"    (fill (type none))" ++ nl;
$"    (uuid e8b79b64-55ca-4565-a730-cd2ac6385df8)" ++ nl;
$"  )" ++ nl;
$"  (circle (center 146.05 101.6) (radius 14.3684)" ++ nl;
$"    (stroke (width -0.0001) (type dot))" ++ nl;
$"    (fill (type none))" ++ nl;
$"    (uuid e8de0d20-c231-4ffb-9760-739c86b6f332)" ++ nl;
$"  )" ++ nl;
$"  (circle (center 113.03 40.64) (radius 14.3684)" ++ nl;
$"    (stroke (width 2) (type default) (color 137 255 16 1))" ++ nl;
$"    (fill (type none))" ++ nl;
$"    (uuid f2e3adbf-e95f-4add-a3c7-8897f192f908)" ++ nl;
$"  )" ++ nl;
$"" ++ nl;
$"  (sheet_instances" ++ nl;
$"    (path ""/"" (page ""1""))" ++ nl;
$"  )" ++ nl;
$")" ++ nl].
Example fixture_v7_circleAllVariants : gives (let! o := (read Schematic_from want_v7_circleAllVariants) in (fun o => Schematic_to o 0 true) o) want_v7_circleAllVariants = true.
Proof. vm_compute. reflexivity. Qed.

Definition want_v7_arcAllVariants : str := concat [
$"(kicad_sch (version 20230121) (generator eeschema)" ++ nl;
$"" ++ nl;
$"  (uuid 721ffcf0-2683-45a5-82ff-f53d532e9160)" ++ nl;
$"" ++ nl;
$"  (paper ""A4"")" ++ nl;
$"  (lib_symbols)" ++ nl;
$"" ++ nl;
$"  (arc (start 83.818 63.498) (mid 89.7702 49.1302) (end 104.138 43.178)" ++ nl;
$"    (stroke (width 1) (type solid) (color 255 7 109 1))" ++ nl;
$"    (fill (type none))" ++ nl;
$"    (uuid 03fb5ce1-8772-494c-8da7-c1f482601fa8)" ++ nl;
$"  )" ++ nl;
$"  (arc (start 119.378 101.598) (mid 125.3302 87.2302) (end 139.698 81.278)" ++ nl;
$"    (stroke (width 1) (type dot) (color 255 206 31 1))" ++ nl;
$"    (fill (type color) (color 27 255 171 1))" ++ nl;
$"    (uuid 0c9a4cd8-68d9-4296-bdfe-c16e3d49f0cb)" ++ nl;
$"  )" ++ nl;
$"  (arc (start 91.438 138.428) (mid 97.3902 124.0602) (end 111.758 118.108)" ++ nl;
$"    (stroke (width 1) (type dash_dot_dot) (color 255 158 28 1))" ++ nl;
$"    (fill (type none))" ++ nl;
$"    (uuid 0f1a04d7-c6d5-436f-be2a-e41d33c1bcab)" ++ nl;
$"  )" ++ nl;
$"  (arc (start 86.358 81.278) (mid 92.3102 66.9102) (end 106.678 60.958)" ++ nl;
$"    (stroke (width 1) (type dash) (color 124 16 255 1))" ++ nl;
$"    (fill (type none))" ++ nl;
$"    (uuid 12ea35b3-90af-43b5-bdbc-4591893ea5a1)" ++ nl;
$"  )" ++ nl;
$"  (arc (start 46.988 121.918) (mid 52.9402 107.5502) (end 67.308 101.598)" ++ nl;
$"    (stroke (width 0) (type dash_dot))" ++ nl;
$"    (fill (type none))" ++ nl;
$"    (uuid 2668cdeb-1f6d-450d-9aa0-ef9d1bd01954)" ++ nl;
$"  )" ++ nl;
$"  (arc (start 151.13 44.45) (mid 157.0822 30.0822) (end 171.45 24.13)" ++ nl;
$"    (stroke (width -0.0001) (type default) (color 255 76 168 1))" ++ nl;
$"    (fill (type color) (color 255 31 2 1))" ++ nl;
$"    (uuid 2e0ba40c-7440-403b-b1c8-680ce0c206a7)" ++ nl;
$"  )" ++ nl;
$"  (arc (start 152.398 120.648) (mid 158.3502 106.2802) (end 172.718 100.328)" ++ nl;
$"    (stroke (width -0.0001) (type dash_dot) (color 36 193 255 1))" ++ nl;
$"    (fill (type color) (color 255 255 36 1))" ++ nl;
$"    (uuid 402f8784-f8c7-40b2-9a3f-3dbb34008527)" ++ nl;
$"  )" ++ nl;
$"  (arc (start 118.108 121.918) (mid 124.0602 107.5502) (end 138.428 101.598)" ++ nl;
$"    (stroke (width 1) (type dash_dot) (color 36 193 255 1))" ++ nl;
$"    (fill (type color) (color 255 255 36 1))" ++ nl;
$"    (uuid 50e9bfc6-5b90-4059-89d9-a2aa9afb9535)" ++ nl;
$"  )" ++ nl;
$"  (arc (start 116.838 64.768) (mid 122.7902 50.4002) (end 137.158 44.448)" ++ nl;
$"    (stroke (width 1) (type solid) (color 255 7 109 1))" ++ nl;
$"    (fill (type color) (color 255 213 39 1))" ++ nl;
$"    (uuid 5f868c05-1d62-4f22-8a82-ad3e993d2404)" ++ nl;
$"  )" ++ nl;
$"  (arc (start 53.338 139.698) (mid 59.2902 125.3302) (end 73.658 119.378)" ++ nl;
$"    (stroke (width 0) (type dash_dot_dot))" ++ nl;
$"    (fill (type none))" ++ nl;
$"    (uuid 6adf748d-6ed9-415f-b6ba-27660de76b00)" ++ nl;
$"  )" ++ nl;
$"  (arc (start 85.088 120.648) (mid 91.0402 106.2802) (end 105.408 100.328)" ++ nl;
$"    (stroke (width 1) (type dash_dot) (color 36 193 255 1))" ++ nl;
$"    (fill (type none))" ++ nl;
$"    (uuid 71994075-b49b-4d47-95a4-88b2807b3767)" ++ nl;
$"  )" ++ nl;
$"  (arc (start 86.358 100.328) (mid 92.3102 85.9602) (end 106.678 80.008)" ++ nl;
$"    (stroke (width 1) (type dot) (color 255 206 31 1))" ++ nl;
$"    (fill (type none))" ++ nl;
$"    (uuid 749f101b-47c1-4c13-857e-a5dc34acf924)" ++ nl;
$"  )" ++ nl;
$"  (arc (start 45.718 64.768) (mid 51.6702 50.4002) (end 66.038 44.448)" ++ nl;
$"    (stroke (width 0) (type solid))" ++ nl;
$"    (fill (type none))" ++ nl;
$"    (uuid 7c9ffc2a-6cba-4fa7-8dd7-a30382ea14a2)" ++ nl;
$"  )" ++ nl;
$"  (arc (start 83.82 44.45) (mid 89.7722 30.0822) (end 104.14 24.13)" ++ nl;
$"    (stroke (width 1) (type default) (color 255 76 168 1))" ++ nl;
$"    (fill (type none))" ++ nl;
$"    (uuid 7ca3d834-6614-4786-b638-40db9ee056a6)" ++ nl;
$"  )" ++ nl;
$"  (arc (start 116.84 45.72) (mid 122.7922 31.3522) (end 137.16 25.4)" ++ nl;
$"    (stroke (width 1) (type default) (color 255 76 168 1))" ++ nl;
$"    (fill (type color) (color 255 31 2 1))" ++ nl;
$"    (uuid 85e5312f-320f-43d9-906a-275ab3297bd9)" ++ nl;
$"  )" ++ nl;
$"  (arc (start 119.378 82.548) (mid 125.3302 68.1802) (end 139.698 62.228)" ++ nl;
$"    (stroke (width 1) (type dash) (color 124 16 255 1))" ++ nl;
$"    (fill (type color) (color 38 78 255 1))" ++ nl;
$"    (uuid 8957af50-7906-4079-be4c-cb6035c19fd8)" ++ nl;
$"  )" ++ nl;
$"  (arc (start 153.668 81.278) (mid 159.6202 66.9102) (end 173.988 60.958)" ++ nl;
$"    (stroke (width -0.0001) (type dash) (color 124 16 255 1))" ++ nl;
$"    (fill (type color) (color 38 78 255 1))" ++ nl;
$"    (uuid 8d631f00-f7bd-4202-af5f-ab8f8fb88d0e)" ++ nl;
$"  )" ++ nl;
$"  (arc (start 48.258 101.598) (mid 54.2102 87.2302) (end 68.578 81.278)" ++ nl;
$"    (stroke (width 0) (type dot))" ++ nl;
$"    (fill (type none))" ++ nl;
$"    (uuid 9ffbd003-f6cf-4406-9a4a-7a44c8b2f998)" ++ nl;
$"  )" ++ nl;
$"  (arc (start 48.258 82.548) (mid 54.2102 68.1802) (end 68.578 62.228)" ++ nl;
$"    (stroke (width 0) (type dash))" ++ nl;
$"    (fill (type none))" ++ nl;
$"    (uuid ae39850f-f4b3-4bf1-a3ae-7e7b207fbb0c)" ++ nl;
$"  )" ++ nl;
$"  (arc (start 158.748 138.428) (mid 164.7002 124.0602) (end 179.068 118.108)" ++ nl;
$"    (stroke (width -0.0001) (type dash_dot_dot) (color 255 158 28 1))" ++ nl;
$"    (fill (type color) (color 35 255 55 1))" ++ nl;
$"    (uuid c22fb512-4064-4088-9906-161da3143f8f)" ++ nl;
$"  )" ++ nl;
$"  (arc (start 153.668 100.328) (mid 159.6202 85.9602) (end 173.988 80.008)" ++ nl;
$"    (stroke (width -0.0001) (type dot) (color 255 206 31 1))" ++ nl;
$"    (fill (type color) (color 27 255 171 1))" ++ nl;
$"    (uuid d4c2cc1f-f64b-4c32-abe5-4052a195fbb8)" ++ nl;
$"  )" ++ nl;
$"  (arc (start 151.128 63.498) (mid 157.0802 49.1302) (end 171.448 43.178)" ++ nl;
$"    (stroke (width -0.0001) (type solid) (color 255 7 109 1))" ++ nl;
$"    (fill (type color) (color 255 213 39 1))" ++ nl;
$"    (uuid d606a7e8-4902-4a4b-ab3c-eb64a68e4bf7)" ++ nl;
$"  )" ++ nl;
$"  (arc (start 124.458 139.698) (mid 130.4102 125.3302) (end 144.778 119.378)" ++ nl;
$"    (stroke (width 1) (type dash_dot_dot) (color 255 158 28 1))" ++ nl;
$"    (fill (type color) (color 35 255 55 1))" ++ nl;
$"    (uuid d948e413-5ab1-42be-a7fb-a998552f7fb5)" ++ nl;
$"  )" ++ nl;
$"  (arc (start 45.72 45.72) (mid 51.6722 31.3522) (end 66.04 25.4)" ++ nl;
$"    (stroke (width 0) (type default))" ++ nl;
$"    (fill (type none))" ++ nl;
$"    (uuid f110e2d5-8caf-4210-a8b3-4a6ae67cb535)" ++ nl;
$"  )" ++ nl;
$"" ++ nl;
$"  (sheet_instances" ++ nl;
$"    (path ""/"" (page ""1""))" ++ nl;
$"  )" ++ nl;
$")" ++ nl].
Example fixture_v7_arcAllVariants : gives (let! o := (read Schematic_from want_v7_arcAllVariants) in (fun o => Schematic_to o 0 true) o) want_v7_arcAllVariants = true.
Proof. vm_compute. reflexivity. Qed.

Definition want_v7_netclassFlags : str := concat [
$"(kicad_sch (version 20230121) (generator kiutils)" ++ nl;
$"" ++ nl;
$"  (uuid 16318c8c-4df8-43cf-928b-35195771e827)" ++ nl;
$"" ++ nl;
$"  (paper ""A4"")" ++ nl;
$"  (lib_symbols)" ++ nl;
$"" ++ nl;
$"  (wire (pts (xy 78.74 78.74) (xy 125.73 78.74))" ++ nl;
$"    (stroke (width 0) (type default))" ++ nl;
$"    (uuid 03dbf5d2-7288-42e6-aa7c-ddfd4c37b275)" ++ nl;
$"  )" ++ nl;
$"" ++ nl;
$"  (netclass_flag """" (length 2.54) (shape round) (at 167.64 104.14 0)" ++ nl;
$"    (effects (font (size 1.27 1.27)) (justify left bottom))" ++ nl;
$"    (uuid 08080298-2bdd-4ee6-8da5-5662f27e6762)" ++ nl;
$"    (property ""Netclass"" ""test \""test\"" \\\\test\\\\ \\\\\\\\\\\\\\\\"" (at 168.3385 101.6 0)" ++ nl;
$"      (effects (font (size 1.27 1.27) italic) (justify bottom))" ++ nl;
$"    )" ++ nl;
$"  )" ++ nl;
$"  (netclass_flag """" (length 2.54) (shape rectangle) (at 87.63 138.43 0) (fields_autoplaced)" ++ nl;
$"    (effects (font (size 1.27 1.27)) (justify left bottom))" ++ nl;
$"    (uuid 1b6cd7b9-8149-4c44-99e4-514ecd25616c)" ++ nl;
$"    (property ""Netclass"" ""test \""test\"" \\\\test\\\\ \\\\\\\\\\\\\\\\"" (at 88.8365 135.89 0) (show_name)" ++ nl;
$"      (effects (font (size 1.27 1.27) italic) (justify left))" ++ nl;
$"    )" ++ nl;
$"  )" ++ nl;
$"  (netclass_flag """" (length 2.54) (shape round) (at 76.2 109.22 0)" ++ nl;
$"    (effects (font (size 1.27 1.27)) (justify left bottom))" ++ nl;
$"    (uuid 30c40ad8-fcc1-4072-b63a-e313b1a7440d)" ++ nl;
$"    (property ""Netclass"" ""test \""test\"" \\\\test\\\\ \\\\\\\\\\\\\\\\"" (at 76.8985 106.68 0)" ++ nl;
$"      (effects (font (size 1.27 1.27) italic) (justify right))" ++ nl;
$"    )" ++ nl;
$"  )" ++ nl;
$"  (netclass_flag """" (length 2.54) (shape round) (at 167.64 109.22 0)" ++ nl;
$"    (effects (font (size 1.27 1.27)) (justify left bottom))" ++ nl;
$"    (uuid 357d8a58-696a-4651-b40d-2b163cb48226)" ++ nl;
$"    (property ""Netclass"" ""test \""test\"" \\\\test\\\\ \\\\\\\\\\\\\\\\"" (at 168.3385 106.68 0)" ++ nl;
$"      (effects (font (size 1.27 1.27) italic) (justify right bottom))" ++ nl;
$"    )" ++ nl;
$"  )" ++ nl;
$"  (netclass_flag """" (length 2.54) (shape round) (at 146.05 137.16 0) (fields_autoplaced)" ++ nl;
$"    (effects (font (size 1.27 1.27)) (justify left bottom))" ++ nl;
$"    (uuid 37e2df8e-282c-425c-b356-52b15b0ee755)" ++ nl;
$"    (property ""Netclass"" ""test1"" (at 146.7485 134.62 0)" ++ nl;
$"      (effects (font (size 1.27 1.27) italic) (justify left))" ++ nl;
$"    )" ++ nl;
$"    (property ""Netclass"" ""test2"" (at 146.7485 136.0805 0)" ++ nl;
$"      (effects (font (size 1.27 1.27) italic) (justify left))" ++ nl;
$"    )" ++ nl;
$"    (property ""Netclass"" ""test3"" (at 146.7485 137.541 0)" ++ nl;
$"      (effects (font (size 1.27 1.27) italic) (justify left))" ++ nl;
$"    )" ++ nl;
$"    (property ""Netclass"" ""test4"" (at 146.7485 139.0015 0)" ++ nl;
$"      (effects (font (size 1.27 1.27) italic) (justify left))" ++ nl;
$"    )" ++ nl;
$"    (property ""Netclass"" ""test5"" (at 146.7485 140.462 0)" ++ nl;
$"      (effects (font (size 1.27 1.27) italic) (justify left))" ++ nl;
$"    )" ++ nl;
$"  )" ++ nl;
$"  (netclass_flag """" (length 2.54) (shape rectangle) (at 87.63 142.24 0) (fields_autoplaced)" ++ nl;
$"    (effects (font (size 1.27 1.27) (color 255 105 97 1)) (justify left bottom))" ++ nl;
$"    (uuid 43631342-fcf4-43e8-87e6-f93f66ca188f)" ++ nl;
$"    (property ""Netclass"" ""test \""test\"" \\\\test\\\\ \\\\\\\\\\\\\\\\"" (at 88.8365 139.7 0) (show_name)" ++ nl;
$"      (effects (font (size 1.27 1.27) italic) (justify left))" ++ nl;
$"    )" ++ nl;
$"  )" ++ nl;
$"  (netclass_flag """" (length 2.54) (shape dot) (at 87.63 127 0) (fields_autoplaced)" ++ nl;
$"    (effects (font (size 1.27 1.27)) (justify left bottom))" ++ nl;
$"    (uuid 4ea51e98-11f8-471f-9684-25eb32460c81)" ++ nl;
$"    (property ""Netclass"" ""test \""test\"" \\\\test\\\\ \\\\\\\\\\\\\\\\"" (at 88.3285 124.46 0) (show_name)" ++ nl;
$"      (effects (font (size 1.27 1.27) italic) (justify left))" ++ nl;
$"    )" ++ nl;
$"  )" ++ nl;
$"  (netclass_flag """" (length 2.54) (shape diamond) (at 87.63 134.62 0) (fields_autoplaced)" ++ nl;
$"    (effects (font (size 1.27 1.27)) (justify left bottom))" ++ nl;
$"    (uuid 4ef43825-a2c4-40af-9996-f1eb2acd9039)" ++ nl;
$"    (property ""Netclass"" ""test \""test\"" \\\\test\\\\ \\\\\\\\\\\\\\\\"" (at 88.8365 132.08 0) (show_name)" ++ nl;
$"      (effects (font (size 1.27 1.27) italic) (justify left))" ++ nl;
$"    )" ++ nl;
$"  )" ++ nl;
$"  (netclass_flag """" (length 2.54) (shape round) (at 87.63 130.81 0) (fields_autoplaced)" ++ nl;
$"    (effects (font (size 1.27 1.27)) (justify left bottom))" ++ nl;
$"    (uuid 651b7cd6-0fe3-4279-b571-ae923f97d2af)" ++ nl;
$"    (property ""Netclass"" ""test \""test\"" \\\\test\\\\ \\\\\\\\\\\\\\\\"" (at 88.3285 128.27 0) (show_name)" ++ nl;
$"      (effects (font (size 1.27 1.27) italic) (justify left))" ++ nl;
$"    )" ++ nl;
$"  )" ++ nl;
$"  (netclass_flag """" (length 2.54) (shape round) (at 160.02 135.89 0) (fields_autoplaced)" ++ nl;
$"    (effects (font (size 1.27 1.27)) (justify left bottom))" ++ nl;
$"    (uuid 70b4b5a7-a7ae-4e81-ac2d-3eccd7f1aec1)" ++ nl;
$"  )" ++ nl;
$"  (netclass_flag """" (length 2.54) (shape round) (at 76.2 104.14 0)" ++ nl;
$"    (effects (font (size 1.27 1.27)) (justify left bottom))" ++ nl;
$"    (uuid 839eb452-c124-4716-bdbc-249248b4631d)" ++ nl;
$"    (property ""Netclass"" ""test \""test\"" \\\\test\\\\ \\\\\\\\\\\\\\\\"" (at 76.8985 101.6 0)" ++ nl;
$"      (effects (font (size 1.27 1.27) italic))" ++ nl;
$"    )" ++ nl;
$"  )" ++ nl;
$"  (netclass_flag """" (length 2.54) (shape round) (at 123.19 104.14 0)" ++ nl;
$"    (effects (font (size 1.27 1.27)) (justify left bottom))" ++ nl;
$"    (uuid ba07de68-3086-4253-bac0-76e491ff5078)" ++ nl;
$"    (property ""Netclass"" ""test \""test\"" \\\\test\\\\ \\\\\\\\\\\\\\\\"" (at 123.8885 101.6 0)" ++ nl;
$"      (effects (font (size 1.27 1.27) italic) (justify top))" ++ nl;
$"    )" ++ nl;
$"  )" ++ nl;
$"  (netclass_flag """" (length 2.54) (shape round) (at 78.74 78.74 90) (fields_autoplaced)" ++ nl;
$"    (effects (font (size 1.27 1.27)) (justify left bottom))" ++ nl;
$"    (uuid bf81418c-1c27-4f48-ba57-679395f33ad4)" ++ nl;
$"    (property ""Netclass"" ""test \""test\"" \\\\test\\\\ \\\\\\\\\\\\\\\\"" (at 76.2 78.0415 90) (show_name)" ++ nl;
$"      (effects (font (size 1.27 1.27) italic) (justify left))" ++ nl;
$"    )" ++ nl;
$"  )" ++ nl;
$"  (netclass_flag """" (length 2.54) (shape round) (at 88.9 78.74 180) (fields_autoplaced)" ++ nl;
$"    (effects (font (size 1.27 1.27)) (justify right bottom))" ++ nl;
$"    (uuid c21f558d-d2db-4218-8490-3e001be8ffa9)" ++ nl;
$"    (property ""Netclass"" ""test \""test\"" \\\\test\\\\ \\\\\\\\\\\\\\\\"" (at 89.5985 81.28 0) (show_name)" ++ nl;
$"      (effects (font (size 1.27 1.27) italic) (justify left))" ++ nl;
$"    )" ++ nl;
$"  )" ++ nl;
$"  (netclass_flag """" (length 2.54) (shape round) (at 167.64 99.06 0)" ++ nl;
$"    (effects (font (size 1.27 1.27)) (justify left bottom))" ++ nl;
$"    (uuid d291308b-6fa3-4eee-b3c5-a92f1ccce99e)" ++ nl;
$"    (property ""Netclass"" ""test \""test\"" \\\\test\\\\ \\\\\\\\\\\\\\\\"" (at 168.3385 96.52 0)" ++ nl;
$"      (effects (font (size 1.27 1.27) italic) (justify left bottom))" ++ nl;
$"    )" ++ nl;
$"  )" ++ nl;
$"  (netclass_flag """" (length 2.54) (shape round) (at 76.2 99.06 0) (fields_autoplaced)" ++ nl;
$"    (effects (font (size 1.27 1.27)) (justify left bottom))" ++ nl;
$"    (uuid d851db7c-14b1-4058-8431-38c79581307a)" ++ nl;
$"    (property ""Netclass"" ""test \""test\"" \\\\test\\\\ \\\\\\\\\\\\\\\\"" (at 76.8985 96.52 0)" ++ nl;
$"      (effects (font (size 1.27 1.27) italic) (justify left))" ++ nl;
$"    )" ++ nl;
$"  )" ++ nl;
$"  (netclass_flag """" (length 2.54) (shape round) (at 123.19 99.06 0)" ++ nl;
$"    (effects (font (size 1.27 1.27)) (justify left bottom))" ++ nl;
$"    (uuid dcf17a5a-7997-408e-9cb0-4a4de2c5a8f4)" ++ nl;
$"    (property ""Netclass"" ""test \""test\"" \\\\test\\\\ \\\\\\\\\\\\\\\\"" (at 123.8885 96.52 0)" ++ nl;
$"      (effects (font (size 1.27 1.27) italic) (justify left top))" ++ nl;
$"    )" ++ nl;
$"  )" ++ nl;
$"  (netclass_flag """" (length 2.54) (shape round) (at 86.36 78.74 0) (fields_autoplaced)" ++ nl;
$"    (effects (font (size 1.27 1.27)) (justify left bottom))" ++ nl;
$"    (uuid e00118d5-06cb-4e6e-99be-3b70b43de4af)" ++ nl;
$"    (property ""Netclass"" ""test \""test\"" \\\\test\\\\ \\\\\\\\\\\\\\\\"" (at 87.0585 76.2 0) (show_name)" ++ nl;
$"      (effects (font (size 1.27 1.27) italic) (justify left))" ++ nl;
$"    )" ++ nl;
$"  )" ++ nl;
$"  (netclass_flag """" (length 2.54) (shape round) (at 123.19 109.22 0)" ++ nl;
$"    (effects (font (size 1.27 1.27)) (justify left bottom))" ++ nl;
$"    (uuid e839d16d-7efa-4757-9df6-d9ed53d5894c)" ++ nl;
$"    (property ""Netclass"" ""test \""test\"" \\\\test\\\\ \\\\\\\\\\\\\\\\"" (at 123.8885 106.68 0)" ++ nl;
$"      (effects (font (size 1.27 1.27) italic) (justify right top))" ++ nl;
$"    )" ++ nl;
$"  )" ++ nl;
$"  (netclass_flag """" (length 2.54) (shape round) (at 125.73 78.74 270) (fields_autoplaced)" ++ nl;
$"    (effects (font (size 1.27 1.27)) (justify right bottom))" ++ nl;
$"    (uuid f33895c1-c956-42e1-bc32-1baebd3b8a0f)" ++ nl;
$"    (property ""Netclass"" ""test \""test\"" \\\\test\\\\ \\\\\\\\\\\\\\\\"" (at 128.27 78.0415 90) (show_name)" ++ nl;
$"      (effects (font (size 1.27 1.27) italic) (justify left))" ++ nl;
$"    )" ++ nl;
$"  )" ++ nl;
$"" ++ nl;
$"  (sheet_instances" ++ nl;
$"    (path ""/"" (page ""1""))" ++ nl;
$"  )" ++ nl;
$")" ++ nl].
Example fixture_v7_netclassFlags : gives (let! o := (read Schematic_from want_v7_netclassFlags) in (fun o => Schematic_to o 0 true) o) want_v7_netclassFlags = true.
Proof. vm_compute. reflexivity. Qed.

Definition want_v7_symbolPinOptionalTokens : str := concat [
$"(kicad_sch (version 20200506) (generator kiutils)" ++ nl;
$"  (paper ""A3"")" ++ nl;
$"" ++ nl;
$"  (title_block" ++ nl;
$"    (title ""Self-Balancing Car Controller"")" ++ nl;
$"    (date ""2020-04-06"")" ++ nl;
$"    (rev ""2.0"")" ++ nl;
$"    (company ""Simon Lu"")" ++ nl;
$"  )" ++ nl;
$"" ++ nl;
$"  (lib_symbols" ++ nl;
$"    (symbol ""Both name and number effects missing""" ++ nl;
$"      (symbol ""child0""" ++ nl;
$"        (pin bidirectional line (at 1.27 11.43 270) (length 2.54) (name ""X-G"") (number ""1""))" ++ nl;
$"        (pin bidirectional line (at 11.43 -5.08 180) (length 2.54) (name ""Y-G"") (number ""1""))" ++ nl;
$"      )" ++ nl;
$"    )" ++ nl;
$"" ++ nl;
$"    (symbol ""Only number effects present""" ++ nl;
$"      (symbol ""child0""" ++ nl;
$"        (pin passive line (at -2.54 0 0) (length 1.27)" ++ nl;
$"          (name ""1"")" ++ nl;
$"          (number ""1"" (effects (font (size 0.762 0.762))))" ++ nl;
$"        )" ++ nl;
$"        (pin passive line (at 0 -2.54 90) (length 0.635)" ++ nl;
$"          (name ""2"")" ++ nl;
$"          (number ""2"" (effects (font (size 0.762 0.762))))" ++ nl;
$"        )" ++ nl;
$"      )" ++ nl;
$"    )" ++ nl;
$"" ++ nl;
$"    (symbol ""Only name effects present""" ++ nl;
$"      (symbol ""child0""" ++ nl;
$"        (pin passive line (at -2.54 0 0) (length 1.27)" ++ nl;
$"          (name ""1"" (effects (font (size 0.762 0.762))))" ++ nl;
$"          (number ""1"")" ++ nl;
$"        )" ++ nl;
$"        (pin passive line (at 0 -2.54 90) (length 0.635)" ++ nl;
$"          (name ""2"" (effects (font (size 0.762 0.762))))" ++ nl;
$"          (number ""2"")" ++ nl;
$"        )" ++ nl;
$"      )" ++ nl;
$"    )" ++ nl;
$"" ++ nl;
$"    (symbol ""Both name and number effects present""" ++ nl;
$"      (symbol ""child0""" ++ nl;
$"        (pin passive line (at -2.54 0 0) (length 1.27)" ++ nl;
$"          (name ""1"")" ++ nl;
$"          (number ""1"" (effects (font (size 0.762 0.762))))" ++ nl;
$"        )" ++ nl;
$"        (pin passive line (at 0 -2.54 90) (length 0.635)" ++ nl;
$"          (name ""2"")" ++ nl;
$"          (number ""2"" (effects (font (size 0.762 0.762))))" ++ nl;
$"        )" ++ nl;
$"      )" ++ nl;
$"    )" ++ nl;
$"" ++ nl;
$"    (symbol ""Both name and number effects missing as well as alternative pins""" ++ nl;
$"      (symbol ""child0""" ++ nl;
$"        (pin bidirectional line (at 1.27 11.43 270) (length 2.54) (name ""X-G"") (number ""1"")" ++ nl;
$"          (alternate ""Alternate1"" open_emitter line)" ++ nl;
$"        )" ++ nl;
$"        (pin bidirectional line (at 11.43 -5.08 180) (length 2.54) (name ""Y-G"") (number ""1"")" ++ nl;
$"          (alternate ""Alternate1"" open_emitter line)" ++ nl;
$"        )" ++ nl;
$"      )" ++ nl;
$"    )" ++ nl;
$"" ++ nl;
$"    (symbol ""Only number effects present as well as alternative pins""" ++ nl;
$"      (symbol ""child0""" ++ nl;
$"        (pin passive line (at -2.54 0 0) (length 1.27)" ++ nl;
$"          (name ""1"")" ++ nl;
$"          (number ""1"" (effects (font (size 0.762 0.762))))" ++ nl;
$"          (alternate ""Alternate1"" open_emitter line)" ++ nl;
$"        )" ++ nl;
$"        (pin passive line (at 0 -2.54 90) (length 0.635)" ++ nl;
$"          (name ""2"")" ++ nl;
$"          (number ""2"" (effects (font (size 0.762 0.762))))" ++ nl;
$"          (alternate ""Alternate1"" open_emitter line)" ++ nl;
$"        )" ++ nl;
$"      )" ++ nl;
$"    )" ++ nl;
$"" ++ nl;
$"    (symbol ""Only name effects present as well as alternative pins""" ++ nl;
$"      (symbol ""child0""" ++ nl;
$"        (pin passive line (at -2.54 0 0) (length 1.27)" ++ nl;
$"          (name ""1"" (effects (font (size 0.762 0.762))))" ++ nl;
$"          (number ""1"")" ++ nl;
$"          (alternate ""Alternate1"" open_emitter line)" ++ nl;
$"        )" ++ nl;
$"        (pin passive line (at 0 -2.54 90) (length 0.635)" ++ nl;
$"          (name ""2"" (effects (font (size 0.762 0.762))))" ++ nl;
$"          (number ""2"")" ++ nl;
$"          (alternate ""Alternate1"" open_emitter line)" ++ nl;
$"        )" ++ nl;
$"      )" ++ nl;
$"    )" ++ nl;
$"" ++ nl;
$"    (symbol ""Both name and number effects present as well as alternative pins""" ++ nl;
$"      (symbol ""child0""" ++ nl;
$"        (pin passive line (at -2.54 0 0) (length 1.27)" ++ nl;
$"          (name ""1"")" ++ nl;
$"          (number ""1"" (effects (font (size 0.762 0.762))))" ++ nl;
$"          (alternate ""Alternate1"" open_emitter line)" ++ nl;
$"        )" ++ nl;
$"        (pin passive line (at 0 -2.54 90) (length 0.635)" ++ nl;
$"          (name ""2"")" ++ nl;
$"          (number ""2"" (effects (font (size 0.762 0.762))))" ++ nl;
$"          (alternate ""Alternate1"" open_emitter line)" ++ nl;
$"        )" ++ nl;
$"      )" ++ nl;
$"    )" ++ nl;
$"  )" ++ nl;
$")" ++ nl].
Example fixture_v7_symbolPinOptionalTokens : gives (let! o := (read Schematic_from want_v7_symbolPinOptionalTokens) in (fun o => Schematic_to o 0 true) o) want_v7_symbolPinOptionalTokens = true.
Proof. vm_compute. reflexivity. Qed.

Definition want_v7_sheetProperties : str := concat [
$"(kicad_sch (version 20230121) (generator eeschema)" ++ nl;
$"" ++ nl;
$"  (uuid b6528edb-33c3-487d-9ca3-4d67bb7a5a12)" ++ nl;
$"" ++ nl;
$"  (paper ""A4"")" ++ nl;
$"  (lib_symbols)" ++ nl;
$"" ++ nl;
$"  (sheet (at 31.75 34.29) (size 43.815 15.24)" ++ nl;
$"    (stroke (width 0.1524) (type solid))" ++ nl;
$"    (fill (color 0 0 0 0.0000))" ++ nl;
$"    (uuid 34ae3b7c-6af7-425f-8025-a9ad084df767)" ++ nl;
$"    (property ""Sheetname"" ""Untitled Sheet"" (at 31.75 33.5784 0)" ++ nl;
$"      (effects (font (size 1.27 1.27)) (justify left bottom))" ++ nl;
$"    )" ++ nl;
$"    (property ""Sheetfile"" ""untitled.kicad_sch"" (at 31.75 50.1146 0)" ++ nl;
$"      (effects (font (size 1.27 1.27)) (justify left top))" ++ nl;
$"    )" ++ nl;
$"    (property ""test"" ""test1"" (at 31.75 34.29 0)" ++ nl;
$"      (effects (font (size 1.27 1.27)) hide)" ++ nl;
$"    )" ++ nl;
[32; 32; 32; 32; 40; 112; 114; 111; 112; 101; 114; 116; 121; 32; 34; 116; 101; 115; 116; 32; 92; 34; 49; 50; 51; 92; 34; 34; 32; 34; 33; 92; 34; 167; 36; 37; 38; 47; 40; 41; 61; 63; 96; 178; 179; 123; 91; 93; 125; 92; 92; 125; 92; 92; 95; 58; 59; 45; 46; 44; 43; 35; 42; 39; 126; 34; 32; 40; 97; 116; 32; 51; 49; 46; 55; 53; 32; 51; 52; 46; 50; 57; 32; 48; 41]%N ++ nl;
$"      (effects (font (size 1.27 1.27)) hide)" ++ nl;
$"    )" ++ nl;
$"    (property ""field"" ""a \""field\"""" (at 31.75 34.29 0)" ++ nl;
$"      (effects (font (size 1.27 1.27)) hide)" ++ nl;
$"    )" ++ nl;
$"    (property ""p"" ""some properties"" (at 41.91 29.21 0) (show_name)" ++ nl;
$"      (effects (font (size 1.27 1.27) bold italic))" ++ nl;
$"    )" ++ nl;
$"    (instances" ++ nl;
$"      (project ""test-sheet-properties""" ++ nl;
$"        (path ""/b6528edb-33c3-487d-9ca3-4d67bb7a5a12"" (page ""2""))" ++ nl;
$"      )" ++ nl;
$"    )" ++ nl;
$"  )" ++ nl;
$"" ++ nl;
$"  (sheet_instances" ++ nl;
$"    (path ""/"" (page ""1""))" ++ nl;
$"  )" ++ nl;
$")" ++ nl].
Example fixture_v7_sheetProperties : gives (let! o := (read Schematic_from want_v7_sheetProperties) in (fun o => Schematic_to o 0 true) o) want_v7_sheetProperties = true.
Proof. vm_compute. reflexivity. Qed.

Definition want_v7_busAliases : str := concat [
$"(kicad_sch (version 20230121) (generator kiutils)" ++ nl;
$"" ++ nl;
$"  (uuid 80899fed-1b75-4222-a6b3-1ed87b4e7bbb)" ++ nl;
$"" ++ nl;
$"  (paper ""A4"")" ++ nl;
$"  (lib_symbols)" ++ nl;
$"" ++ nl;
$"  (bus_alias """" (members ))" ++ nl;
[32; 32; 40; 98; 117; 115; 95; 97; 108; 105; 97; 115; 32; 34; 116; 101; 115; 116; 32; 40; 110; 111; 116; 32; 101; 109; 112; 116; 121; 41; 34; 32; 40; 109; 101; 109; 98; 101; 114; 115; 32; 34; 34; 32; 34; 109; 48; 34; 32; 34; 109; 50; 34; 32; 34; 92; 34; 116; 101; 115; 116; 92; 34; 34; 32; 34; 33; 92; 34; 167; 36; 37; 38; 47; 40; 41; 61; 63; 34; 41; 41]%N ++ nl;
$"  (bus_alias ""test (empty)"" (members ))" ++ nl;
$"  (bus_alias ""test (empty, \""quoted\"")"" (members ))" ++ nl;
$"" ++ nl;
$"  (sheet_instances" ++ nl;
$"    (path ""/"" (page ""1""))" ++ nl;
$"  )" ++ nl;
$")" ++ nl].
Example fixture_v7_busAliases : gives (let! o := (read Schematic_from want_v7_busAliases) in (fun o => Schematic_to o 0 true) o) want_v7_busAliases = true.
Proof. vm_compute. reflexivity. Qed.

Definition want_v7_strokeOptionalTokens : str := concat [
$"(kicad_sch (version 20200506) (generator kiutils)" ++ nl;
$"  (paper ""A3"")" ++ nl;
$"" ++ nl;
$"  (title_block" ++ nl;
$"    (title ""test"")" ++ nl;
$"  )" ++ nl;
$"" ++ nl;
$"  (lib_symbols" ++ nl;
$"    (symbol ""some_symbol""" ++ nl;
$"      (symbol ""child0""" ++ nl;
$"        (rectangle (start 5.08 2.54) (end 50.8 -132.08)" ++ nl;
$"          (stroke (width 0.3048))" ++ nl;
$"          (fill (type background))" ++ nl;
$"        )" ++ nl;
$"      )" ++ nl;
$"    )" ++ nl;
$"  )" ++ nl;
$"" ++ nl;
$"  (wire (pts (xy 66.04 158.75) (xy 66.04 153.67))" ++ nl;
$"    (stroke (width 0) (type solid) (color 0 0 0 0))" ++ nl;
$"  )" ++ nl;
$"  (wire (pts (xy 66.04 158.75) (xy 66.04 153.67))" ++ nl;
$"    (stroke (width 0))" ++ nl;
$"  )" ++ nl;
$")" ++ nl].
Example fixture_v7_strokeOptionalTokens : gives (let! o := (read Schematic_from want_v7_strokeOptionalTokens) in (fun o => Schematic_to o 0 true) o) want_v7_strokeOptionalTokens = true.
Proof. vm_compute. reflexivity. Qed.

Definition want_createEmptySchematic : str := concat [
$"(kicad_sch (version 20211014) (generator kiutils)" ++ nl;
$"  (paper ""A4"")" ++ nl;
$"  (lib_symbols)" ++ nl;
$"" ++ nl;
$"  (sheet_instances" ++ nl;
$"    (path ""/"" (page ""1""))" ++ nl;
$"  )" ++ nl;
$")" ++ nl].
Example fixture_createEmptySchematic : gives (let! o := (Ok Schematic_create_new) in (fun o => Schematic_to o 0 true) o) want_createEmptySchematic = true.
Proof. vm_compute. reflexivity. Qed.

Definition want_addPropertyToSchematicSymbol : str := concat [
$"(kicad_sch (version 20211123) (generator eeschema)" ++ nl;
$"" ++ nl;
$"  (uuid e63e39d7-6ac0-4ffd-8aa3-1841a4541b55)" ++ nl;
$"" ++ nl;
$"  (paper ""A4"")" ++ nl;
$"" ++ nl;
$"  (lib_symbols" ++ nl;
$"    (symbol ""Diode:1.5KExxCA"" (pin_numbers hide) (pin_names (offset 1.016) hide) (in_bom yes) (on_board yes)" ++ nl;
$"      (property ""Reference"" ""D"" (id 0) (at 0 2.54 0)" ++ nl;
$"        (effects (font (size 1.27 1.27)))" ++ nl;
$"      )" ++ nl;
$"      (property ""Value"" ""1.5KExxCA"" (id 1) (at 0 -2.54 0)" ++ nl;
$"        (effects (font (size 1.27 1.27)))" ++ nl;
$"      )" ++ nl;
$"      (property ""Footprint"" ""Diode_THT:D_DO-201AE_P15.24mm_Horizontal"" (id 2) (at 0 -5.08 0)" ++ nl;
$"        (effects (font (size 1.27 1.27)) hide)" ++ nl;
$"      )" ++ nl;
$"      (property ""Datasheet"" ""https://www.vishay.com/docs/88301/15ke.pdf"" (id 3) (at 0 0 0)" ++ nl;
$"        (effects (font (size 1.27 1.27)) hide)" ++ nl;
$"      )" ++ nl;
$"      (property ""ki_keywords"" ""diode TVS voltage suppressor"" (id 4) (at 0 0 0)" ++ nl;
$"        (effects (font (size 1.27 1.27)) hide)" ++ nl;
$"      )" ++ nl;
[32; 32; 32; 32; 32; 32; 40; 112; 114; 111; 112; 101; 114; 116; 121; 32; 34; 107; 105; 95; 100; 101; 115; 99; 114; 105; 112; 116; 105; 111; 110; 34; 32; 34; 49; 53; 48; 48; 87; 32; 98; 105; 100; 105; 114; 101; 99; 116; 105; 111; 110; 97; 108; 32; 84; 82; 65; 78; 83; 90; 79; 82; 66; 174; 32; 84; 114; 97; 110; 115; 105; 101; 110; 116; 32; 86; 111; 108; 116; 97; 103; 101; 32; 83; 117; 112; 112; 114; 101; 115; 115; 111; 114; 44; 32; 68; 79; 45; 50; 48; 49; 65; 69; 34; 32; 40; 105; 100; 32; 53; 41; 32; 40; 97; 116; 32; 48; 32; 48; 32; 48; 41]%N ++ nl;
$"        (effects (font (size 1.27 1.27)) hide)" ++ nl;
$"      )" ++ nl;
$"      (property ""ki_fp_filters"" ""D?DO?201AE*"" (id 6) (at 0 0 0)" ++ nl;
$"        (effects (font (size 1.27 1.27)) hide)" ++ nl;
$"      )" ++ nl;
$"      (symbol ""1.5KExxCA_0_1""" ++ nl;
$"        (polyline" ++ nl;
$"          (pts" ++ nl;
$"            (xy 1.27 0)" ++ nl;
$"            (xy -1.27 0)" ++ nl;
$"          )" ++ nl;
$"          (stroke (width 0) (type default) (color 0 0 0 0))" ++ nl;
$"          (fill (type none))" ++ nl;
$"        )" ++ nl;
$"        (polyline" ++ nl;
$"          (pts" ++ nl;
$"            (xy -2.54 -1.27)" ++ nl;
$"            (xy 0 0)" ++ nl;
$"            (xy -2.54 1.27)" ++ nl;
$"            (xy -2.54 -1.27)" ++ nl;
$"          )" ++ nl;
$"          (stroke (width 0.254) (type default) (color 0 0 0 0))" ++ nl;
$"          (fill (type none))" ++ nl;
$"        )" ++ nl;
$"        (polyline" ++ nl;
$"          (pts" ++ nl;
$"            (xy 0.508 1.27)" ++ nl;
$"            (xy 0 1.27)" ++ nl;
$"            (xy 0 -1.27)" ++ nl;
$"            (xy -0.508 -1.27)" ++ nl;
$"          )" ++ nl;
$"          (stroke (width 0.254) (type default) (color 0 0 0 0))" ++ nl;
$"          (fill (type none))" ++ nl;
$"        )" ++ nl;
$"        (polyline" ++ nl;
$"          (pts" ++ nl;
$"            (xy 2.54 1.27)" ++ nl;
$"            (xy 2.54 -1.27)" ++ nl;
$"            (xy 0 0)" ++ nl;
$"            (xy 2.54 1.27)" ++ nl;
$"          )" ++ nl;
$"          (stroke (width 0.254) (type default) (color 0 0 0 0))" ++ nl;
$"          (fill (type none))" ++ nl;
$"        )" ++ nl;
$"      )" ++ nl;
$"      (symbol ""1.5KExxCA_1_1""" ++ nl;
$"        (pin passive line (at -3.81 0 0) (length 2.54)" ++ nl;
$"          (name ""A1"" (effects (font (size 1.27 1.27))))" ++ nl;
$"          (number ""1"" (effects (font (size 1.27 1.27))))" ++ nl;
$"        )" ++ nl;
$"        (pin passive line (at 3.81 0 180) (length 2.54)" ++ nl;
$"          (name ""A2"" (effects (font (size 1.27 1.27))))" ++ nl;
$"          (number ""2"" (effects (font (size 1.27 1.27))))" ++ nl;
$"        )" ++ nl;
$"      )" ++ nl;
$"    )" ++ nl;
$"  )" ++ nl;
$"" ++ nl;
$"  (wire (pts (xy 139.065 91.44) (xy 134.62 91.44))" ++ nl;
$"    (stroke (width 0) (type default) (color 0 0 0 0))" ++ nl;
$"    (uuid 62009989-8103-49af-b226-a7bac174e878)" ++ nl;
$"  )" ++ nl;
$"  (wire (pts (xy 120.65 103.505) (xy 139.065 103.505))" ++ nl;
$"    (stroke (width 0) (type default) (color 0 0 0 0))" ++ nl;
$"    (uuid 62b3c9b2-7111-4fb4-8944-c22c00c06d9d)" ++ nl;
$"  )" ++ nl;
$"  (wire (pts (xy 139.065 103.505) (xy 139.065 91.44))" ++ nl;
$"    (stroke (width 0) (type default) (color 0 0 0 0))" ++ nl;
$"    (uuid 6d34db10-7ee4-4cde-a4af-6e0f89095ed8)" ++ nl;
$"  )" ++ nl;
$"  (wire (pts (xy 120.65 91.44) (xy 120.65 103.505))" ++ nl;
$"    (stroke (width 0) (type default) (color 0 0 0 0))" ++ nl;
$"    (uuid e452492d-035a-4361-8fab-fa3eca341746)" ++ nl;
$"  )" ++ nl;
$"  (wire (pts (xy 127 91.44) (xy 120.65 91.44))" ++ nl;
$"    (stroke (width 0) (type default) (color 0 0 0 0))" ++ nl;
$"    (uuid ff1f874f-92dd-4417-98ba-01533012ca7a)" ++ nl;
$"  )" ++ nl;
$"" ++ nl;
$"  (label ""NET"" (at 126.365 103.505 0)" ++ nl;
$"    (effects (font (size 1.27 1.27)) (justify left bottom))" ++ nl;
$"    (uuid 82f2e0d6-2fda-41d6-9b1f-1d94d4f9cb34)" ++ nl;
$"  )" ++ nl;
$"" ++ nl;
$"  (symbol (lib_id ""Diode:1.5KExxCA"") (at 130.81 91.44 0) (unit 1)" ++ nl;
$"    (in_bom yes) (on_board yes)" ++ nl;
$"    (uuid d27bd75e-eeb9-4d8b-bfdb-bddce4b94b6c)" ++ nl;
$"    (property ""Reference"" ""D?"" (id 0) (at 130.81 85.09 0))" ++ nl;
$"    (property ""Value"" ""1.5KExxCA"" (id 1) (at 130.81 87.63 0))" ++ nl;
$"    (property ""Footprint"" ""Diode_THT:D_DO-201AE_P15.24mm_Horizontal"" (id 2) (at 130.81 96.52 0)" ++ nl;
$"      (effects (font (size 1.27 1.27)) hide)" ++ nl;
$"    )" ++ nl;
$"    (property ""Datasheet"" ""https://www.vishay.com/docs/88301/15ke.pdf"" (id 3) (at 130.81 91.44 0)" ++ nl;
$"      (effects (font (size 1.27 1.27)) hide)" ++ nl;
$"    )" ++ nl;
$"    (property ""Property1"" ""This is a property"" (id 4) (at 130.81 91.44 0)" ++ nl;
$"      (effects (font (size 1.27 1.27)) hide)" ++ nl;
$"    )" ++ nl;
$"    (property ""Property2"" ""This is another property featuring \""quoted\"" strings"" (id 5) (at 130.81 91.44 0)" ++ nl;
$"      (effects (font (size 1.27 1.27)) hide)" ++ nl;
$"    )" ++ nl;
$"    (property ""Property3"" ""I was added from \""outside\"" of KiCad"" (id 6) (at 0.0 0.0 0))" ++ nl;
$"    (pin ""1"" (uuid 28f921ab-5f55-47f8-b726-02e567145cd5))" ++ nl;
$"    (pin ""2"" (uuid e89e5b16-554a-4d97-8f95-fc89c9b40d74))" ++ nl;
$"  )" ++ nl;
$"" ++ nl;
$"  (sheet_instances" ++ nl;
$"    (path ""/"" (page ""1""))" ++ nl;
$"  )" ++ nl;
$"" ++ nl;
$"  (symbol_instances" ++ nl;
$"    (path ""/d27bd75e-eeb9-4d8b-bfdb-bddce4b94b6c""" ++ nl;
$"      (reference ""D?"") (unit 1) (value ""1.5KExxCA"") (footprint ""Diode_THT:D_DO-201AE_P15.24mm_Horizontal"")" ++ nl;
$"    )" ++ nl;
$"  )" ++ nl;
$")" ++ nl].
Definition file_addPropertyToSchematicSymbol : str := concat [
$"(kicad_sch (version 20211123) (generator eeschema)" ++ nl;
$"" ++ nl;
$"  (uuid e63e39d7-6ac0-4ffd-8aa3-1841a4541b55)" ++ nl;
$"" ++ nl;
$"  (paper ""A4"")" ++ nl;
$"" ++ nl;
$"  (lib_symbols" ++ nl;
$"    (symbol ""Diode:1.5KExxCA"" (pin_numbers hide) (pin_names (offset 1.016) hide) (in_bom yes) (on_board yes)" ++ nl;
$"      (property ""Reference"" ""D"" (id 0) (at 0 2.54 0)" ++ nl;
$"        (effects (font (size 1.27 1.27)))" ++ nl;
$"      )" ++ nl;
$"      (property ""Value"" ""1.5KExxCA"" (id 1) (at 0 -2.54 0)" ++ nl;
$"        (effects (font (size 1.27 1.27)))" ++ nl;
$"      )" ++ nl;
$"      (property ""Footprint"" ""Diode_THT:D_DO-201AE_P15.24mm_Horizontal"" (id 2) (at 0 -5.08 0)" ++ nl;
$"        (effects (font (size 1.27 1.27)) hide)" ++ nl;
$"      )" ++ nl;
$"      (property ""Datasheet"" ""https://www.vishay.com/docs/88301/15ke.pdf"" (id 3) (at 0 0 0)" ++ nl;
$"        (effects (font (size 1.27 1.27)) hide)" ++ nl;
$"      )" ++ nl;
$"      (property ""ki_keywords"" ""diode TVS voltage suppressor"" (id 4) (at 0 0 0)" ++ nl;
$"        (effects (font (size 1.27 1.27)) hide)" ++ nl;
$"      )" ++ nl;
[32; 32; 32; 32; 32; 32; 40; 112; 114; 111; 112; 101; 114; 116; 121; 32; 34; 107; 105; 95; 100; 101; 115; 99; 114; 105; 112; 116; 105; 111; 110; 34; 32; 34; 49; 53; 48; 48; 87; 32; 98; 105; 100; 105; 114; 101; 99; 116; 105; 111; 110; 97; 108; 32; 84; 82; 65; 78; 83; 90; 79; 82; 66; 174; 32; 84; 114; 97; 110; 115; 105; 101; 110; 116; 32; 86; 111; 108; 116; 97; 103; 101; 32; 83; 117; 112; 112; 114; 101; 115; 115; 111; 114; 44; 32; 68; 79; 45; 50; 48; 49; 65; 69; 34; 32; 40; 105; 100; 32; 53; 41; 32; 40; 97; 116; 32; 48; 32; 48; 32; 48; 41]%N ++ nl;
$"        (effects (font (size 1.27 1.27)) hide)" ++ nl;
$"      )" ++ nl;
$"      (property ""ki_fp_filters"" ""D?DO?201AE*"" (id 6) (at 0 0 0)" ++ nl;
$"        (effects (font (size 1.27 1.27)) hide)" ++ nl;
$"      )" ++ nl;
$"      (symbol ""1.5KExxCA_0_1""" ++ nl;
$"        (polyline" ++ nl;
$"          (pts" ++ nl;
$"            (xy 1.27 0)" ++ nl;
$"            (xy -1.27 0)" ++ nl;
$"          )" ++ nl;
$"          (stroke (width 0) (type default) (color 0 0 0 0))" ++ nl;
$"          (fill (type none))" ++ nl;
$"        )" ++ nl;
$"        (polyline" ++ nl;
$"          (pts" ++ nl;
$"            (xy -2.54 -1.27)" ++ nl;
$"            (xy 0 0)" ++ nl;
$"            (xy -2.54 1.27)" ++ nl;
$"            (xy -2.54 -1.27)" ++ nl;
$"          )" ++ nl;
$"          (stroke (width 0.254) (type default) (color 0 0 0 0))" ++ nl;
$"          (fill (type none))" ++ nl;
$"        )" ++ nl;
$"        (polyline" ++ nl;
$"          (pts" ++ nl;
$"            (xy 0.508 1.27)" ++ nl;
$"            (xy 0 1.27)" ++ nl;
$"            (xy 0 -1.27)" ++ nl;
$"            (xy -0.508 -1.27)" ++ nl;
$"          )" ++ nl;
$"          (stroke (width 0.254) (type default) (color 0 0 0 0))" ++ nl;
$"          (fill (type none))" ++ nl;
$"        )" ++ nl;
$"        (polyline" ++ nl;
$"          (pts" ++ nl;
$"            (xy 2.54 1.27)" ++ nl;
$"            (xy 2.54 -1.27)" ++ nl;
$"            (xy 0 0)" ++ nl;
$"            (xy 2.54 1.27)" ++ nl;
$"          )" ++ nl;
$"          (stroke (width 0.254) (type default) (color 0 0 0 0))" ++ nl;
$"          (fill (type none))" ++ nl;
$"        )" ++ nl;
$"      )" ++ nl;
$"      (symbol ""1.5KExxCA_1_1""" ++ nl;
$"        (pin passive line (at -3.81 0 0) (length 2.54)" ++ nl;
$"          (name ""A1"" (effects (font (size 1.27 1.27))))" ++ nl;
$"          (number ""1"" (effects (font (size 1.27 1.27))))" ++ nl;
$"        )" ++ nl;
$"        (pin passive line (at 3.81 0 180) (length 2.54)" ++ nl;
$"          (name ""A2"" (effects (font (size 1.27 1.27))))" ++ nl;
$"          (number ""2"" (effects (font (size 1.27 1.27))))" ++ nl;
$"        )" ++ nl;
$"      )" ++ nl;
$"    )" ++ nl;
$"  )" ++ nl;
$"" ++ nl;
$"" ++ nl;
$"  (wire (pts (xy 139.065 91.44) (xy 134.62 91.44))" ++ nl;
$"    (stroke (width 0) (type default) (color 0 0 0 0))" ++ nl;
$"    (uuid 62009989-8103-49af-b226-a7bac174e878)" ++ nl;
$"  )" ++ nl;
$"  (wire (pts (xy 120.65 103.505) (xy 139.065 103.505))" ++ nl;
$"    (stroke (width 0) (type default) (color 0 0 0 0))" ++ nl;
$"    (uuid 62b3c9b2-7111-4fb4-8944-c22c00c06d9d)" ++ nl;
$"  )" ++ nl;
$"  (wire (pts (xy 139.065 103.505) (xy 139.065 91.44))" ++ nl;
$"    (stroke (width 0) (type default) (color 0 0 0 0))" ++ nl;
$"    (uuid 6d34db10-7ee4-4cde-a4af-6e0f89095ed8)" ++ nl;
$"  )" ++ nl;
$"  (wire (pts (xy 120.65 91.44) (xy 120.65 103.505))" ++ nl;
$"    (stroke (width 0) (type default) (color 0 0 0 0))" ++ nl;
$"    (uuid e452492d-035a-4361-8fab-fa3eca341746)" ++ nl;
$"  )" ++ nl;
$"  (wire (pts (xy 127 91.44) (xy 120.65 91.44))" ++ nl;
$"    (stroke (width 0) (type default) (color 0 0 0 0))" ++ nl;
$"    (uuid ff1f874f-92dd-4417-98ba-01533012ca7a)" ++ nl;
$"  )" ++ nl;
$"" ++ nl;
$"  (label ""NET"" (at 126.365 103.505 0)" ++ nl;
$"    (effects (font (size 1.27 1.27)) (justify left bottom))" ++ nl;
$"    (uuid 82f2e0d6-2fda-41d6-9b1f-1d94d4f9cb34)" ++ nl;
$"  )" ++ nl;
$"" ++ nl;
$"  (symbol (lib_id ""Diode:1.5KExxCA"") (at 130.81 91.44 0) (unit 1)" ++ nl;
$"    (in_bom yes) (on_board yes)" ++ nl;
$"    (uuid d27bd75e-eeb9-4d8b-bfdb-bddce4b94b6c)" ++ nl;
$"    (property ""Reference"" ""D?"" (id 0) (at 130.81 85.09 0))" ++ nl;
$"    (property ""Value"" ""1.5KExxCA"" (id 1) (at 130.81 87.63 0))" ++ nl;
$"    (property ""Footprint"" ""Diode_THT:D_DO-201AE_P15.24mm_Horizontal"" (id 2) (at 130.81 96.52 0)" ++ nl;
$"      (effects (font (size 1.27 1.27)) hide)" ++ nl;
$"    )" ++ nl;
$"    (property ""Datasheet"" ""https://www.vishay.com/docs/88301/15ke.pdf"" (id 3) (at 130.81 91.44 0)" ++ nl;
$"      (effects (font (size 1.27 1.27)) hide)" ++ nl;
$"    )" ++ nl;
$"    (property ""Property1"" ""This is a property"" (id 4) (at 130.81 91.44 0)" ++ nl;
$"      (effects (font (size 1.27 1.27)) hide)" ++ nl;
$"    )" ++ nl;
$"    (property ""Property2"" ""This is another property featuring \""quoted\"" strings"" (id 5) (at 130.81 91.44 0)" ++ nl;
$"      (effects (font (size 1.27 1.27)) hide)" ++ nl;
$"    )" ++ nl;
$"    (pin ""1"" (uuid 28f921ab-5f55-47f8-b726-02e567145cd5))" ++ nl;
$"    (pin ""2"" (uuid e89e5b16-554a-4d97-8f95-fc89c9b40d74))" ++ nl;
$"  )" ++ nl;
$"" ++ nl;
$"  (sheet_instances" ++ nl;
$"    (path ""/"" (page ""1""))" ++ nl;
$"  )" ++ nl;
$"" ++ nl;
$"  (symbol_instances" ++ nl;
$"    (path ""/d27bd75e-eeb9-4d8b-bfdb-bddce4b94b6c""" ++ nl;
$"      (reference ""D?"") (unit 1) (value ""1.5KExxCA"") (footprint ""Diode_THT:D_DO-201AE_P15.24mm_Horizontal"")" ++ nl;
$"    )" ++ nl;
$"  )" ++ nl;
$")" ++ nl].
Example fixture_addPropertyToSchematicSymbol : gives (let! o := (let! o := read Schematic_from file_addPropertyToSchematicSymbol in Ok (o <| sc_schematicSymbols := nth_set 0 (fun s => s <| ss_properties := ss_properties s ++ [Property_default <| pr_key := VStr $"Property3" |> <| pr_value := VStr $"I was added from ""outside"" of KiCad" |> <| pr_id := VInt 6 |>] |>) (sc_schematicSymbols o) |>)) in (fun o => Schematic_to o 0 true) o) want_addPropertyToSchematicSymbol = true.
Proof. vm_compute. reflexivity. Qed.

Definition want_renameSymbolIdTokenInSchematic : str := concat [
$"(kicad_sch (version 20211123) (generator eeschema)" ++ nl;
$"" ++ nl;
$"  (uuid e63e39d7-6ac0-4ffd-8aa3-1841a4541b55)" ++ nl;
$"" ++ nl;
$"  (paper ""User"" 431.8 279.4)" ++ nl;
$"" ++ nl;
$"  (lib_symbols" ++ nl;
$"    (symbol ""RenamedSwitch:SW_Coded_New""" ++ nl;
$"      (property ""Value"" ""SW_Coded"" (id 1) (at -6.35 -7.62 0)" ++ nl;
$"        (effects (font (size 1.27 1.27)) (justify left))" ++ nl;
$"      )" ++ nl;
$"      (symbol ""SW_Coded_New_0_1""" ++ nl;
$"      )" ++ nl;
$"      (symbol ""SW_Coded_New_1_1""" ++ nl;
$"      )" ++ nl;
$"    )" ++ nl;
$"" ++ nl;
$"    (symbol ""Unset_Lib_Id""" ++ nl;
$"      (property ""Value"" ""SW_Coded"" (id 1) (at -6.35 -7.62 0)" ++ nl;
$"        (effects (font (size 1.27 1.27)) (justify left))" ++ nl;
$"      )" ++ nl;
$"      (symbol ""Unset_Lib_Id_0_1""" ++ nl;
$"      )" ++ nl;
$"      (symbol ""Unset_Lib_Id_1_1""" ++ nl;
$"      )" ++ nl;
$"    )" ++ nl;
$"  )" ++ nl;
$"" ++ nl;
$"  (symbol (lib_id ""SwitchRenamed:SW_Coded_2"") (at 111.76 163.83 0)" ++ nl;
$"    (in_bom no) (on_board no)" ++ nl;
$"    (property ""Value"" ""SW_Coded"" (id 1) (at 103.505 165.7349 0)" ++ nl;
$"      (effects (font (size 1.27 1.27)) (justify right))" ++ nl;
$"    )" ++ nl;
$"  )" ++ nl;
$"" ++ nl;
$"  (symbol (lib_id ""Unset_Lib_Id"") (at 111.76 163.83 0)" ++ nl;
$"    (in_bom no) (on_board no)" ++ nl;
$"    (property ""Value"" ""Some_Component"" (id 1) (at 103.505 165.7349 0)" ++ nl;
$"      (effects (font (size 1.27 1.27)) (justify right))" ++ nl;
$"    )" ++ nl;
$"  )" ++ nl;
$")" ++ nl].
Definition file_renameSymbolIdTokenInSchematic : str := concat [
$"(kicad_sch (version 20211123) (generator eeschema)" ++ nl;
$"" ++ nl;
$"  (uuid e63e39d7-6ac0-4ffd-8aa3-1841a4541b55)" ++ nl;
$"" ++ nl;
$"  (paper ""User"" 431.8 279.4)" ++ nl;
$"" ++ nl;
$"  (lib_symbols" ++ nl;
$"    (symbol ""Switch:SW_Coded""" ++ nl;
$"      (property ""Value"" ""SW_Coded"" (id 1) (at -6.35 -7.62 0)" ++ nl;
$"        (effects (font (size 1.27 1.27)) (justify left))" ++ nl;
$"      )" ++ nl;
$"      (symbol ""SW_Coded_0_1""" ++ nl;
$"      )" ++ nl;
$"      (symbol ""SW_Coded_1_1""" ++ nl;
$"      )" ++ nl;
$"    )" ++ nl;
$"    (symbol ""SomeLibNickName:Unset_Lib_Id""" ++ nl;
$"      (property ""Value"" ""SW_Coded"" (id 1) (at -6.35 -7.62 0)" ++ nl;
$"        (effects (font (size 1.27 1.27)) (justify left))" ++ nl;
$"      )" ++ nl;
$"      (symbol ""SW_Coded_New_0_1""" ++ nl;
$"      )" ++ nl;
$"      (symbol ""SW_Coded_New_1_1""" ++ nl;
$"      )" ++ nl;
$"    )" ++ nl;
$"  )" ++ nl;
$"" ++ nl;
$"  (symbol (lib_id ""Switch:SW_Coded"") (at 111.76 163.83 0)" ++ nl;
$"    (in_bom no) (on_board no)" ++ nl;
$"    (property ""Value"" ""SW_Coded"" (id 1) (at 103.505 165.7349 0)" ++ nl;
$"      (effects (font (size 1.27 1.27)) (justify right))" ++ nl;
$"    )" ++ nl;
$"  )" ++ nl;
$"" ++ nl;
$"  (symbol (lib_id ""Switch:Some_Component"") (at 111.76 163.83 0)" ++ nl;
$"    (in_bom no) (on_board no)" ++ nl;
$"    (property ""Value"" ""Some_Component"" (id 1) (at 103.505 165.7349 0)" ++ nl;
$"      (effects (font (size 1.27 1.27)) (justify right))" ++ nl;
$"    )" ++ nl;
$"  )" ++ nl;
$")" ++ nl].
Example fixture_renameSymbolIdTokenInSchematic : gives (let! o := (let! o := read Schematic_from file_renameSymbolIdTokenInSchematic in let! l := nth_try 0 (Symbol_set_libId (VStr $"RenamedSwitch:SW_Coded_New")) (sc_libSymbols o) in let! l := nth_try 1 (Symbol_set_libId (VStr $"Unset_Lib_Id")) l in let! s := nth_try 0 (SchematicSymbol_set_libId (VStr $"SwitchRenamed:SW_Coded_2")) (sc_schematicSymbols o) in let! s := nth_try 1 (SchematicSymbol_set_libId (VStr $"Unset_Lib_Id")) s in Ok (o <| sc_libSymbols := l |> <| sc_schematicSymbols := s |>)) in (fun o => Schematic_to o 0 true) o) want_renameSymbolIdTokenInSchematic = true.
Proof. vm_compute. reflexivity. Qed.

Definition want_setSymbolLibNameToken : str := concat [
$"(kicad_sch (version 20211014) (generator kiutils)" ++ nl;
$"  (paper ""A4"")" ++ nl;
$"  (lib_symbols)" ++ nl;
$"" ++ nl;
$"  (symbol (lib_name ""AVR-JTAG-10_1"") (lib_id ""symbols:AVR-JTAG-10"") (at 92.71 127 0) (unit 1)" ++ nl;
$"    (in_bom no) (on_board yes) (fields_autoplaced)" ++ nl;
$"    (uuid 5527a2f2-4e47-44ad-aee4-e8fe938891bd)" ++ nl;
$"    (property ""Reference"" ""X?"" (id 0) (at 92.71 113.03 0))" ++ nl;
$"    (property ""Value"" ""AVR-JTAG-10"" (id 1) (at 92.71 116.84 0))" ++ nl;
$"    (property ""Footprint"" ""footprints:Tag-Connect_TC2050-IDC-FP_2x05_P1.27mm_Vertical"" (id 2) (at 92.71 140.335 0)" ++ nl;
$"      (effects (font (size 1.27 1.27)) hide)" ++ nl;
$"    )" ++ nl;
$"    (property ""Datasheet"" "" ~"" (id 3) (at 92.075 137.795 0)" ++ nl;
$"      (effects (font (size 1.27 1.27)) hide)" ++ nl;
$"    )" ++ nl;
$"    (pin ""9"" (uuid 8ee4bd36-d492-4ac0-be3e-4aebbd54e661))" ++ nl;
$"  )" ++ nl;
$"" ++ nl;
$"  (symbol (lib_id ""symbols:AVR-JTAG-10"") (at 92.71 127 0) (unit 1)" ++ nl;
$"    (in_bom no) (on_board yes) (fields_autoplaced)" ++ nl;
$"    (uuid 5527a2f2-4e47-44ad-aee4-e8fe938891bd)" ++ nl;
$"    (property ""Reference"" ""X?"" (id 0) (at 92.71 113.03 0))" ++ nl;
$"    (property ""Value"" ""AVR-JTAG-10"" (id 1) (at 92.71 116.84 0))" ++ nl;
$"    (property ""Footprint"" ""footprints:Tag-Connect_TC2050-IDC-FP_2x05_P1.27mm_Vertical"" (id 2) (at 92.71 140.335 0)" ++ nl;
$"      (effects (font (size 1.27 1.27)) hide)" ++ nl;
$"    )" ++ nl;
$"    (property ""Datasheet"" "" ~"" (id 3) (at 92.075 137.795 0)" ++ nl;
$"      (effects (font (size 1.27 1.27)) hide)" ++ nl;
$"    )" ++ nl;
$"    (pin ""9"" (uuid 8ee4bd36-d492-4ac0-be3e-4aebbd54e661))" ++ nl;
$"  )" ++ nl;
$"" ++ nl;
$"  (sheet_instances" ++ nl;
$"    (path ""/"" (page ""1""))" ++ nl;
$"  )" ++ nl;
$")" ++ nl].
Definition file_setSymbolLibNameToken : str := concat [
$"(kicad_sch (version 20211014) (generator kiutils)" ++ nl;
$"  (paper ""A4"")" ++ nl;
$"  (lib_symbols)" ++ nl;
$"" ++ nl;
$"  (symbol (lib_id ""symbols:AVR-JTAG-10"") (at 92.71 127 0) (unit 1)" ++ nl;
$"    (in_bom no) (on_board yes) (fields_autoplaced)" ++ nl;
$"    (uuid 5527a2f2-4e47-44ad-aee4-e8fe938891bd)" ++ nl;
$"    (property ""Reference"" ""X?"" (id 0) (at 92.71 113.03 0))" ++ nl;
$"    (property ""Value"" ""AVR-JTAG-10"" (id 1) (at 92.71 116.84 0))" ++ nl;
$"    (property ""Footprint"" ""footprints:Tag-Connect_TC2050-IDC-FP_2x05_P1.27mm_Vertical"" (id 2) (at 92.71 140.335 0)" ++ nl;
$"      (effects (font (size 1.27 1.27)) hide)" ++ nl;
$"    )" ++ nl;
$"    (property ""Datasheet"" "" ~"" (id 3) (at 92.075 137.795 0)" ++ nl;
$"      (effects (font (size 1.27 1.27)) hide)" ++ nl;
$"    )" ++ nl;
$"    (pin ""9"" (uuid 8ee4bd36-d492-4ac0-be3e-4aebbd54e661))" ++ nl;
$"  )" ++ nl;
$"" ++ nl;
$"  (symbol (lib_name ""AVR-JTAG-10_1"") (lib_id ""symbols:AVR-JTAG-10"") (at 92.71 127 0) (unit 1)" ++ nl;
$"    (in_bom no) (on_board yes) (fields_autoplaced)" ++ nl;
$"    (uuid 5527a2f2-4e47-44ad-aee4-e8fe938891bd)" ++ nl;
$"    (property ""Reference"" ""X?"" (id 0) (at 92.71 113.03 0))" ++ nl;
$"    (property ""Value"" ""AVR-JTAG-10"" (id 1) (at 92.71 116.84 0))" ++ nl;
$"    (property ""Footprint"" ""footprints:Tag-Connect_TC2050-IDC-FP_2x05_P1.27mm_Vertical"" (id 2) (at 92.71 140.335 0)" ++ nl;
$"      (effects (font (size 1.27 1.27)) hide)" ++ nl;
$"    )" ++ nl;
$"    (property ""Datasheet"" "" ~"" (id 3) (at 92.075 137.795 0)" ++ nl;
$"      (effects (font (size 1.27 1.27)) hide)" ++ nl;
$"    )" ++ nl;
$"    (pin ""9"" (uuid 8ee4bd36-d492-4ac0-be3e-4aebbd54e661))" ++ nl;
$"  )" ++ nl;
$"  " ++ nl;
$"  (sheet_instances" ++ nl;
$"    (path ""/"" (page ""1""))" ++ nl;
$"  )" ++ nl;
$")" ++ nl].
Example fixture_setSymbolLibNameToken : gives (let! o := (let! o := read Schematic_from file_setSymbolLibNameToken in Ok (o <| sc_schematicSymbols := nth_set 0 (fun s => s <| ss_libName := VStr (fmt (ss_entryName s) ++ $"_1") |>) (nth_set 1 (fun s => s <| ss_libName := VNone |>) (sc_schematicSymbols o)) |>)) in (fun o => Schematic_to o 0 true) o) want_setSymbolLibNameToken = true.
Proof. vm_compute. reflexivity. Qed.
