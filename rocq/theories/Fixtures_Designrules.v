(** Fixtures of the unit tests in /repo/tests/test_designrules.py: the model writes, byte by byte, the files the tests expect.
    Generated by tools/fixtures.py. *)
From Coq Require Import String.
From Verif Require Import PyBase PyNum PyStr Sexpr RecordSet M_Common M_Lib M_Sym M_Fp M_Gr M_Zone M_Footprint M_Dim M_Brd M_Board M_Sch M_Schematic M_Wks.

Fixpoint same (a b : str) : bool := match a, b with [], [] => true | x :: a', y :: b' => N.eqb x y && same a' b' | _, _ => false end.
Definition gives (m : res str) (t : str) : bool := match m with Ok s => same s t | Err _ => false end.
Definition nth_set {A} (k : nat) (f : A -> A) (l : list A) : list A := match skipn k l with x :: r => firstn k l ++ f x :: r | [] => l end.
Definition nth_try {A} (k : nat) (f : A -> res A) (l : list A) : res (list A) := match skipn k l with x :: r => let! y := f x in Ok (firstn k l ++ y :: r) | [] => Err EIndex end.
Definition read {A} (from : val -> res A) (t : str) : res A := let! v := parse_sexp t in from v.

Definition want_allDesignRuleItems : str := concat [
$"(version 1)" ++ nl;
$"" ++ nl;
$"(rule ""HV""" ++ nl;
$"  (constraint clearance (min ""1.5mm""))" ++ nl;
$"  (condition ""A.NetClass == 'HV'""))" ++ nl;
$"(rule ""HV""" ++ nl;
$"  (layer ""outer"")" ++ nl;
$"  (constraint clearance (min ""1.5mm""))" ++ nl;
$"  (condition ""A.NetClass == 'HV'""))" ++ nl;
$"(rule ""HV_HV""" ++ nl;
$"  (constraint clearance (min ""1.5mm + 2.0mm""))" ++ nl;
$"  (condition ""A.NetClass == 'HV' && B.NetClass == 'HV'""))" ++ nl;
$"(rule ""HV_unshielded""" ++ nl;
$"  (constraint clearance (min ""2mm""))" ++ nl;
$"  (condition ""A.NetClass == 'HV' && !A.insideArea('Shield*')""))" ++ nl;
$"(rule ""copper keepout""" ++ nl;
$"  (constraint disallow track via zone)" ++ nl;
$"  (condition ""A.insideArea('zone3')""))" ++ nl;
$"(rule ""BGA neckdown""" ++ nl;
$"  (constraint track_width (min ""0.2mm"") (opt ""0.25mm""))" ++ nl;
$"  (constraint clearance (min ""0.05mm"") (opt ""0.08mm""))" ++ nl;
$"  (condition ""A.insideCourtyard('U3')""))" ++ nl;
$"(rule ""silk_over_via""" ++ nl;
$"  (constraint silk_clearance (min ""0.2mm""))" ++ nl;
$"  (condition ""A.Type == '*Text' && B.Type == 'Via'""))" ++ nl;
$"(rule ""Distance between Vias of Different Nets""" ++ nl;
$"  (constraint hole_to_hole (min ""0.254mm""))" ++ nl;
$"  (condition ""A.Type =='Via' && B.Type =='Via' && A.Net != B.Net""))" ++ nl;
$"(rule ""Clearance between Pads of Different Nets""" ++ nl;
$"  (constraint clearance (min ""3.0mm""))" ++ nl;
$"  (condition ""A.Type =='Pad' && B.Type =='Pad' && A.Net != B.Net""))" ++ nl;
$"(rule ""Via Hole to Track Clearance""" ++ nl;
$"  (constraint hole_clearance (min ""0.254mm""))" ++ nl;
$"  (condition ""A.Type =='Via' && B.Type =='Track'""))" ++ nl;
$"(rule ""Pad to Track Clearance""" ++ nl;
$"  (constraint clearance (min ""0.2mm""))" ++ nl;
$"  (condition ""A.Type =='Pad' && B.Type =='Track'""))" ++ nl;
$"(rule ""clearance-to-1mm-cutout""" ++ nl;
$"  (constraint clearance (min ""0.8mm""))" ++ nl;
$"  (condition ""A.Layer=='Edge.Cuts' && A.Thickness == 1.0mm""))" ++ nl;
$"(rule ""Max Drill Hole Size Mechanical""" ++ nl;
$"  (constraint hole_size (max ""6.3mm""))" ++ nl;
$"  (condition ""A.Pad_Type == 'NPTH, mechanical'""))" ++ nl;
$"(rule ""Max Drill Hole Size PTH""" ++ nl;
$"  (constraint hole_size (max ""6.35mm""))" ++ nl;
$"  (condition ""A.Pad_Type == 'Through-hole'""))" ++ nl;
$"(rule ""dp clock gap""" ++ nl;
$"  (constraint diff_pair_gap (opt ""0.8mm""))" ++ nl;
$"  (condition ""A.inDiffPair('CLK') && AB.isCoupledDiffPair()""))" ++ nl;
$"(rule ""dp clearance""" ++ nl;
$"  (constraint clearance (min ""1.5mm""))" ++ nl;
$"  (condition ""A.inDiffPair('*') && !AB.isCoupledDiffPair()""))" ++ nl].
Example fixture_allDesignRuleItems : gives (let! o := (read DesignRules_from ($"(" ++ want_allDesignRuleItems ++ $")")) in (fun o => DesignRules_to o 0 false) o) want_allDesignRuleItems = true.
Proof. vm_compute. reflexivity. Qed.

Definition want_v7_severityToken : str := concat [
$"(version 1)" ++ nl;
$"" ++ nl;
$"(rule ""HV""" ++ nl;
$"  (constraint clearance (min ""1.5mm""))" ++ nl;
$"  (condition ""A.NetClass == 'HV'"")" ++ nl;
$"  (severity ignore))" ++ nl;
$"(rule ""HV""" ++ nl;
$"  (layer ""outer"")" ++ nl;
$"  (constraint clearance (min ""1.5mm""))" ++ nl;
$"  (condition ""A.NetClass == 'HV'"")" ++ nl;
$"  (severity error))" ++ nl;
$"(rule ""HV_HV""" ++ nl;
$"  (constraint clearance (min ""1.5mm + 2.0mm""))" ++ nl;
$"  (condition ""A.NetClass == 'HV' && B.NetClass == 'HV'"")" ++ nl;
$"  (severity warning))" ++ nl].
Example fixture_v7_severityToken : gives (let! o := (read DesignRules_from ($"(" ++ want_v7_severityToken ++ $")")) in (fun o => DesignRules_to o 0 false) o) want_v7_severityToken = true.
Proof. vm_compute. reflexivity. Qed.

Definition want_createNewDesignRules : str := concat [
$"(version 1)" ++ nl].
Example fixture_createNewDesignRules : gives (let! o := (Ok DesignRules_create_new) in (fun o => DesignRules_to o 0 false) o) want_createNewDesignRules = true.
Proof. vm_compute. reflexivity. Qed.
