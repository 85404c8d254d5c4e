(** Fixtures of the unit tests in /repo/tests/test_footprint.py: the model writes, byte by byte, the files the tests expect.
    Generated by tools/fixtures.py. *)
From Coq Require Import String.
From Verif Require Import PyBase PyNum PyStr Sexpr RecordSet M_Common M_Lib M_Sym M_Fp M_Gr M_Zone M_Footprint M_Dim M_Brd M_Board M_Sch M_Schematic M_Wks.

Fixpoint same (a b : str) : bool := match a, b with [], [] => true | x :: a', y :: b' => N.eqb x y && same a' b' | _, _ => false end.
Definition gives (m : res str) (t : str) : bool := match m with Ok s => same s t | Err _ => false end.
Definition nth_set {A} (k : nat) (f : A -> A) (l : list A) : list A := match skipn k l with x :: r => firstn k l ++ f x :: r | [] => l end.
Definition nth_try {A} (k : nat) (f : A -> res A) (l : list A) : res (list A) := match skipn k l with x :: r => let! y := f x in Ok (firstn k l ++ y :: r) | [] => Err EIndex end.
Definition read {A} (from : val -> res A) (t : str) : res A := let! v := parse_sexp t in from v.

Definition want_moduleNameOnlyNumbers : str := concat [
$"(footprint ""402""" ++ nl;
$"  (layer ""F.Cu"")" ++ nl;
$"  (tedit 5E68CD62)" ++ nl;
$"  (attr smd)" ++ nl;
$")" ++ nl].
Definition file_moduleNameOnlyNumbers : str := concat [
$"(module 0402 (layer F.Cu) (tedit 5E68CD62)" ++ nl;
$"  (attr smd)" ++ nl;
$")"].
Example fixture_moduleNameOnlyNumbers : gives (let! o := (read (Footprint_from (VStr $"now")) file_moduleNameOnlyNumbers) in (fun o => Footprint_to o 0 true) o) want_moduleNameOnlyNumbers = true.
Proof. vm_compute. reflexivity. Qed.

Definition want_footprintEmptyAttributes : str := concat [
$"(footprint ""Battery_CR1225""" ++ nl;
$"  (layer ""F.Cu"")" ++ nl;
$"  (tedit 5B93F51B)" ++ nl;
$"  (descr ""CR1225 battery"")" ++ nl;
$"  (tags ""battery CR1225 coin cell"")" ++ nl;
$"  (fp_text reference ""REF**"" (at 0 -1) (layer ""F.SilkS"") hide" ++ nl;
$"    (effects (font (size 1 1) (thickness 0.15)))" ++ nl;
$"  )" ++ nl;
$"  (fp_text value ""Battery_CR1225"" (at 0 0.5) (layer ""F.Fab"")" ++ nl;
$"    (effects (font (size 1 1) (thickness 0.15)))" ++ nl;
$"  )" ++ nl;
$"  (fp_circle (center 0 0) (end 6.25 0) (layer ""F.Fab"") (width 0.1))" ++ nl;
$"  (model ""${KICAD6_3DMODEL_DIR}/Battery.3dshapes/Battery_CR1225.wrl""" ++ nl;
$"    (offset (xyz 0 0 0))" ++ nl;
$"    (scale (xyz 1 1 1))" ++ nl;
$"    (rotate (xyz 0 0 0))" ++ nl;
$"  )" ++ nl;
$")" ++ nl].
Definition file_footprintEmptyAttributes : str := concat [
$"(footprint ""Battery_CR1225""" ++ nl;
$"  (layer ""F.Cu"")" ++ nl;
$"  (tedit 5B93F51B)" ++ nl;
$"  (descr ""CR1225 battery"")" ++ nl;
$"  (tags ""battery CR1225 coin cell"")" ++ nl;
$"  (attr)" ++ nl;
$"  (fp_text reference ""REF**"" (at 0 -1) (layer ""F.SilkS"") hide" ++ nl;
$"    (effects (font (size 1 1) (thickness 0.15)))" ++ nl;
$"  )" ++ nl;
$"  (fp_text value ""Battery_CR1225"" (at 0 0.5) (layer ""F.Fab"")" ++ nl;
$"    (effects (font (size 1 1) (thickness 0.15)))" ++ nl;
$"  )" ++ nl;
$"  (fp_circle (center 0 0) (end 6.25 0) (layer ""F.Fab"") (width 0.1))" ++ nl;
$"  (model ""${KICAD6_3DMODEL_DIR}/Battery.3dshapes/Battery_CR1225.wrl""" ++ nl;
$"    (offset (xyz 0 0 0))" ++ nl;
$"    (scale (xyz 1 1 1))" ++ nl;
$"    (rotate (xyz 0 0 0))" ++ nl;
$"  )" ++ nl;
$")" ++ nl].
Example fixture_footprintEmptyAttributes : gives (let! o := (read (Footprint_from (VStr $"now")) file_footprintEmptyAttributes) in (fun o => Footprint_to o 0 true) o) want_footprintEmptyAttributes = true.
Proof. vm_compute. reflexivity. Qed.

Definition want_3dModelHideProperty : str := concat [
$"(footprint ""test""" ++ nl;
$"  (layer ""F.Cu"")" ++ nl;
$"  (tedit 64b312a4)" ++ nl;
$"  (model ""${KICAD6_3DMODEL_DIR}/Battery.3dshapes/Battery_CR1225.wrl"" hide" ++ nl;
$"    (offset (xyz 0 0 0))" ++ nl;
$"    (scale (xyz 1 1 1))" ++ nl;
$"    (rotate (xyz 0 0 0))" ++ nl;
$"  )" ++ nl;
$")" ++ nl].
Example fixture_3dModelHideProperty : gives (let! o := (read (Footprint_from (VStr $"now")) want_3dModelHideProperty) in (fun o => Footprint_to o 0 true) o) want_3dModelHideProperty = true.
Proof. vm_compute. reflexivity. Qed.

Definition want_v7_imageWithLayerToken : str := concat [
$"(footprint ""image_test"" (version 20221018) (generator kiutils)" ++ nl;
$"  (layer ""F.Cu"")" ++ nl;
$"  (tedit 640a506b)" ++ nl;
$"  (attr smd)" ++ nl;
$"  (fp_text reference ""REF**"" (at 0 -0.5 unlocked) (layer ""F.SilkS"")" ++ nl;
$"    (effects (font (size 1 1) (thickness 0.1)))" ++ nl;
$"    (tstamp 8fee236d-a937-47a4-b037-5b1ec0ea729a)" ++ nl;
$"  )" ++ nl;
$"  (fp_text value ""image_test"" (at 0 1 unlocked) (layer ""F.Fab"")" ++ nl;
$"    (effects (font (size 1 1) (thickness 0.15)))" ++ nl;
$"    (tstamp aeb0c71a-d788-467d-a13c-49ed75f3dbdb)" ++ nl;
$"  )" ++ nl;
$"  (image (at 5.08 -7.62) (layer ""F.SilkS"") (scale 7.875)" ++ nl;
$"    (data" ++ nl;
$"      iVBORw0KGgoAAAANSUhEUgAAAB4AAAAeCAIAAAC0Ujn1AAAAA3NCSVQICAjb4U/gAAAACXBIWXMA" ++ nl;
$"      AA50AAAOdAFrJLPWAAAA9ElEQVRIiWP88OEDA20AE43MHbJGs+CX1pp4hUiDruXroIkMzQAZmkYT" ++ nl;
$"      iEZMIMHDWmEvaS3P8/33v1NPvvYfffH002+sKhnx50a0FCLBw7o+WoWfg5kYR5Dm6go7SX4O5kuX" ++ nl;
$"      Li1atIiRkTEuLk5XV5c6Rlsr8DAwMCxevBji14kTJ8Kl5syZg6aYXtFIMO+dePTFWZkvLi5u0aJF" ++ nl;
$"      DAwM8fHxOjromRAOUKKRoNGKguzLw5X42GkQjfff/wxYcqfcTsJanvf777+nnnydcOwlJPFhliEk" ++ nl;
$"      p+sXX34XbntMjMqhmdFHjaaf0QRKPkrA0AyQUaPRAACmk1AZ+UHU4QAAAABJRU5ErkJggg==" ++ nl;
$"    )" ++ nl;
$"  )" ++ nl;
$"  (fp_text user ""${REFERENCE}"" (at 0 2.5 unlocked) (layer ""F.Fab"")" ++ nl;
$"    (effects (font (size 1 1) (thickness 0.15)))" ++ nl;
$"    (tstamp a5217a7a-3aed-4722-8474-750c47ad16eb)" ++ nl;
$"  )" ++ nl;
$")" ++ nl].
Example fixture_v7_imageWithLayerToken : gives (let! o := (read (Footprint_from (VStr $"now")) want_v7_imageWithLayerToken) in (fun o => Footprint_to o 0 true) o) want_v7_imageWithLayerToken = true.
Proof. vm_compute. reflexivity. Qed.

Definition want_v7_textsWithRenderCaches : str := concat [
$"(footprint ""a footprint"" (version 20221018) (generator pcbnew)" ++ nl;
$"  (layer ""F.Cu"")" ++ nl;
$"  (tedit 641e2f5a)" ++ nl;
$"  (attr smd)" ++ nl;
$"  (fp_text reference ""REF**"" (at 0 -0.5 unlocked) (layer ""F.SilkS"")" ++ nl;
$"    (effects (font (size 1 1) (thickness 0.1)))" ++ nl;
$"    (tstamp 39612553-f75d-48ef-a666-bc78242caa79)" ++ nl;
$"  )" ++ nl;
$"  (fp_text user ""kiutils"" (at 0 7.62 unlocked) (layer ""F.SilkS"")" ++ nl;
$"    (effects (font (face ""Castellar"") (size 1 1) (thickness 0.1)) (justify left bottom))" ++ nl;
$"    (tstamp ae264a1b-4ca8-442a-b9d6-22029292138f)" ++ nl;
$"    (render_cache ""kiutils"" 0" ++ nl;
$"      (polygon" ++ nl;
$"        (pts" ++ nl;
$"          (xy 0.352077 7.397931)          (xy 0.353925 7.410487)          (xy 0.354396 7.413363)          (xy 0.531716 7.45)" ++ nl;
$"          (xy 0.017096 7.45)          (xy 0.173168 7.41605)          (xy 0.174699 7.405317)          (xy 0.176179 7.394185)" ++ nl;
$"          (xy 0.182805 7.332537)          (xy 0.183975 7.319009)          (xy 0.185095 7.305082)          (xy 0.186162 7.290756)" ++ nl;
$"          (xy 0.19837 7.023551)          (xy 0.198491 7.011627)          (xy 0.198557 6.999944)          (xy 0.198569 6.992288)" ++ nl;
$"          (xy 0.17957 6.49273)          (xy 0.178541 6.486217)          (xy 0.154864 6.480844)          (xy 0.216399 6.480844)" ++ nl;
$"          (xy 0.154864 6.480844)          (xy 0.017096 6.449581)          (xy 0.533182 6.449581)" ++ nl;
$"        )" ++ nl;
$"      )" ++ nl;
$"      (polygon" ++ nl;
$"        (pts" ++ nl;
$"          (xy 1.312601 6.480844)          (xy 1.371667 6.480844)          (xy 1.371667 7.418736)          (xy 1.419783 7.418736)" ++ nl;
$"          (xy 1.419783 6.480844)          (xy 1.371667 6.480844)          (xy 1.312601 6.480844)          (xy 1.162107 6.449581)" ++ nl;
$"          (xy 1.681612 6.449581)" ++ nl;
$"        )" ++ nl;
$"      )" ++ nl;
$"      (polygon" ++ nl;
$"        (pts" ++ nl;
$"          (xy 1.930006 7.137613)          (xy 1.930006 6.465212)          (xy 1.881891 6.465212)          (xy 1.757473 6.465212)" ++ nl;
$"          (xy 1.701884 6.45642)          (xy 1.701884 6.449581)          (xy 2.202581 6.449581)" ++ nl;
$"        )" ++ nl;
$"      )" ++ nl;
$"    )" ++ nl;
$"  )" ++ nl;
$"  (fp_text_box ""Nice\n""" ++ nl;
$"    (start 0 10.16) (end 10.16 7.62) (layer ""F.SilkS"") (tstamp a32718d7-06ea-404e-852f-6d57a686862d)" ++ nl;
$"    (effects (font (face ""Cascadia Mono"") (size 2 2)))" ++ nl;
$"    (stroke (width 0.1) (type solid))" ++ nl;
$"    (render_cache ""Nice"" 0" ++ nl;
$"      (polygon" ++ nl;
$"        (pts" ++ nl;
$"          (xy 2.900377 10.05)          (xy 2.296121 8.57575)          (xy 2.169603 8.57575)          (xy 2.169603 8.111688)" ++ nl;
$"          (xy 2.350831 8.111688)          (xy 2.955576 9.585938)          (xy 3.023964 9.585938)          (xy 3.023964 10.05)" ++ nl;
$"        )" ++ nl;
$"      )" ++ nl;
$"      (polygon" ++ nl;
$"        (pts" ++ nl;
$"          (xy 4.479163 10.05)          (xy 4.479163 9.807711)          (xy 4.95446 9.807711)          (xy 4.95446 10.05)" ++ nl;
$"        )" ++ nl;
$"      )" ++ nl;
$"      (polygon" ++ nl;
$"        (pts" ++ nl;
$"          (xy 3.743015 8.822923)          (xy 3.743015 8.580635)          (xy 4.507007 8.580635)          (xy 4.507007 8.822923)" ++ nl;
$"        )" ++ nl;
$"      )" ++ nl;
$"    )" ++ nl;
$"  )" ++ nl;
$")" ++ nl].
Example fixture_v7_textsWithRenderCaches : gives (let! o := (read (Footprint_from (VStr $"now")) want_v7_textsWithRenderCaches) in (fun o => Footprint_to o 0 true) o) want_v7_textsWithRenderCaches = true.
Proof. vm_compute. reflexivity. Qed.

Definition want_v7_exemptFromCourtyardToken : str := concat [
$"(footprint ""BatteryClip_Keystone_54_D16-19mm"" (version 20221018) (generator pcbnew)" ++ nl;
$"  (layer ""F.Cu"")" ++ nl;
$"  (tedit 64dbffd5)" ++ nl;
$"  (descr ""some description"")" ++ nl;
$"  (tags ""some tags"")" ++ nl;
$"  (attr through_hole board_only exclude_from_pos_files exclude_from_bom allow_missing_courtyard)" ++ nl;
$")" ++ nl].
Example fixture_v7_exemptFromCourtyardToken : gives (let! o := (read (Footprint_from (VStr $"now")) want_v7_exemptFromCourtyardToken) in (fun o => Footprint_to o 0 true) o) want_v7_exemptFromCourtyardToken = true.
Proof. vm_compute. reflexivity. Qed.

Definition want_v7_textKnockout : str := concat [
$"(footprint ""CP_Elec_3x5.4"" (version 20221018) (generator pcbnew)" ++ nl;
$"  (layer ""F.Cu"")" ++ nl;
$"  (tedit 65bd7f8d)" ++ nl;
$"  (descr ""SMD capacitor, aluminum electrolytic, Nichicon, 3.0x5.4mm"")" ++ nl;
$"  (tags ""capacitor electrolytic"")" ++ nl;
$"  (attr smd)" ++ nl;
$"  (fp_text reference ""REF**"" (at 0 -2.7) (layer ""F.SilkS"" knockout)" ++ nl;
$"    (effects (font (size 1 1) (thickness 0.15)))" ++ nl;
$"    (tstamp 44d2ce4a-f555-443e-872b-4f08845b4e47)" ++ nl;
$"  )" ++ nl;
$"  (fp_text user ""${REFERENCE}"" (at 0 0) (layer ""F.Fab"")" ++ nl;
$"    (effects (font (size 0.6 0.6) (thickness 0.09)))" ++ nl;
$"    (tstamp b78f3199-5a9c-4fe8-bce1-484a2ec30068)" ++ nl;
$"  )" ++ nl;
$")" ++ nl].
Example fixture_v7_textKnockout : gives (let! o := (read (Footprint_from (VStr $"now")) want_v7_textKnockout) in (fun o => Footprint_to o 0 true) o) want_v7_textKnockout = true.
Proof. vm_compute. reflexivity. Qed.

Definition want_v7_netTiePadGroups : str := concat [
$"(footprint ""test"" (version 20221018) (generator pcbnew)" ++ nl;
$"  (layer ""F.Cu"")" ++ nl;
$"  (tedit 651dbffc)" ++ nl;
$"  (attr smd)" ++ nl;
[32; 32; 40; 110; 101; 116; 95; 116; 105; 101; 95; 112; 97; 100; 95; 103; 114; 111; 117; 112; 115; 32; 34; 84; 101; 115; 116; 34; 32; 34; 84; 101; 115; 116; 32; 123; 100; 98; 108; 113; 117; 111; 116; 101; 125; 84; 101; 115; 116; 123; 100; 98; 108; 113; 117; 111; 116; 101; 125; 34; 32; 34; 176; 33; 123; 100; 98; 108; 113; 117; 111; 116; 101; 125; 167; 36; 37; 38; 47; 40; 41; 61; 63; 178; 178; 179; 123; 91; 91; 93; 125; 93; 92; 125; 92; 92; 34; 32; 34; 35; 35; 35; 39; 39; 39; 43; 43; 43; 42; 42; 126; 126; 126; 34; 32; 34; 44; 44; 44; 59; 59; 59; 46; 46; 46; 58; 58; 45; 45; 45; 95; 95; 34; 32; 34; 228; 246; 252; 34; 41]%N ++ nl;
$"  (fp_text reference ""REF**"" (at 0 -0.5 unlocked) (layer ""F.SilkS"")" ++ nl;
$"    (effects (font (size 1 1) (thickness 0.1)))" ++ nl;
$"    (tstamp 59323fba-83c2-4ee2-ab11-b887cdf7a9c1)" ++ nl;
$"  )" ++ nl;
$"  (fp_text value ""test"" (at 0 1 unlocked) (layer ""F.Fab"")" ++ nl;
$"    (effects (font (size 1 1) (thickness 0.15)))" ++ nl;
$"    (tstamp 828258c2-6d00-4e3a-b5c5-8beb8f262be5)" ++ nl;
$"  )" ++ nl;
$"  (fp_text user ""${REFERENCE}"" (at 0 2.5 unlocked) (layer ""F.Fab"")" ++ nl;
$"    (effects (font (size 1 1) (thickness 0.15)))" ++ nl;
$"    (tstamp 3210958f-d220-4c0f-bb30-50169792bb2a)" ++ nl;
$"  )" ++ nl;
$")" ++ nl].
Example fixture_v7_netTiePadGroups : gives (let! o := (read (Footprint_from (VStr $"now")) want_v7_netTiePadGroups) in (fun o => Footprint_to o 0 true) o) want_v7_netTiePadGroups = true.
Proof. vm_compute. reflexivity. Qed.

Definition want_v7_privateLayersToken : str := concat [
$"(footprint ""JST_EH_B2B-EH-A_1x02_P2.50mm_Vertical"" (version 20221018) (generator pcbnew)" ++ nl;
$"  (layer ""F.Cu"")" ++ nl;
$"  (tedit 64de8dfa)" ++ nl;
$"  (descr ""JST EH series connector, B2B-EH-A (http://www.jst-mfg.com/product/pdf/eng/eEH.pdf), generated with kicad-footprint-generator"")" ++ nl;
$"  (tags ""connector JST EH vertical"")" ++ nl;
$"  (attr through_hole)" ++ nl;
$"  (private_layers ""User.1"" ""User.2"" ""User.3"" ""User.4"" ""User.5"" ""User.6"" ""User.7"" ""User.8"" ""User.9"")" ++ nl;
$"  (fp_text reference ""REF**"" (at 1.25 -2.8) (layer ""F.SilkS"")" ++ nl;
$"    (effects (font (size 1 1) (thickness 0.15)))" ++ nl;
$"    (tstamp f638d0bf-d856-439a-9a7a-de96b7095635)" ++ nl;
$"  )" ++ nl;
$"  (fp_text value ""JST_EH_B2B-EH-A_1x02_P2.50mm_Vertical"" (at 1.25 3.4) (layer ""F.Fab"")" ++ nl;
$"    (effects (font (size 1 1) (thickness 0.15)))" ++ nl;
$"    (tstamp e9466767-d800-41ed-923d-b2c6bd7625e6)" ++ nl;
$"  )" ++ nl;
$"  (fp_text user ""${REFERENCE}"" (at 1.25 1.5) (layer ""F.Fab"")" ++ nl;
$"    (effects (font (size 1 1) (thickness 0.15)))" ++ nl;
$"    (tstamp a538f7fb-153f-40d4-b79d-371fd4e198af)" ++ nl;
$"  )" ++ nl;
$"  (pad ""1"" thru_hole roundrect (at 0 0) (size 1.7 2) (drill 1) (layers ""F.Cu"" ""B.Cu"") (roundrect_rratio 0.147059) (tstamp b9960672-3af1-4d13-99fc-2f62dd24a4bc))" ++ nl;
$"  (pad ""2"" thru_hole oval (at 2.5 0) (size 1.7 2) (drill 1) (layers ""F.Cu"" ""B.Cu"") (tstamp 94cccd64-f718-491b-83c2-3fc50ed44c7e))" ++ nl;
$"  (model ""${KICAD6_3DMODEL_DIR}/Connector_JST.3dshapes/JST_EH_B2B-EH-A_1x02_P2.50mm_Vertical.wrl""" ++ nl;
$"    (offset (xyz 0 0 0))" ++ nl;
$"    (scale (xyz 1 1 1))" ++ nl;
$"    (rotate (xyz 0 0 0))" ++ nl;
$"  )" ++ nl;
$")" ++ nl].
Example fixture_v7_privateLayersToken : gives (let! o := (read (Footprint_from (VStr $"now")) want_v7_privateLayersToken) in (fun o => Footprint_to o 0 true) o) want_v7_privateLayersToken = true.
Proof. vm_compute. reflexivity. Qed.

Definition want_v7_3dModelOpacityToken : str := concat [
$"(footprint ""test""" ++ nl;
$"  (layer ""F.Cu"")" ++ nl;
$"  (tedit 64b312a4)" ++ nl;
$"  (model ""${KICAD6_3DMODEL_DIR}/Battery.3dshapes/Battery_CR1225.wrl""" ++ nl;
$"    (opacity 0.54)" ++ nl;
$"    (offset (xyz 0 0 0))" ++ nl;
$"    (scale (xyz 1 1 1))" ++ nl;
$"    (rotate (xyz 0 0 0))" ++ nl;
$"  )" ++ nl;
$")" ++ nl].
Example fixture_v7_3dModelOpacityToken : gives (let! o := (read (Footprint_from (VStr $"now")) want_v7_3dModelOpacityToken) in (fun o => Footprint_to o 0 true) o) want_v7_3dModelOpacityToken = true.
Proof. vm_compute. reflexivity. Qed.

Definition want_createNewFootprintTypeSMD : str := concat [
$"(footprint ""empty-footprint-smd"" (version 20211014) (generator kiutils)" ++ nl;
$"  (layer ""F.Cu"")" ++ nl;
$"  (tedit 6328915F)" ++ nl;
$"  (attr smd)" ++ nl;
$"  (fp_text reference ""REF**"" (at 0 -0.5 unlocked) (layer ""F.SilkS"")" ++ nl;
$"    (effects (font (size 1.0 1.0) (thickness 0.15)))" ++ nl;
$"  )" ++ nl;
$"  (fp_text value ""empty-footprint-smd"" (at 0 1 unlocked) (layer ""F.Fab"")" ++ nl;
$"    (effects (font (size 1.0 1.0) (thickness 0.15)))" ++ nl;
$"  )" ++ nl;
$"  (fp_text user ""${REFERENCE}"" (at 0 2.5 unlocked) (layer ""F.Fab"")" ++ nl;
$"    (effects (font (size 1.0 1.0) (thickness 0.15)))" ++ nl;
$"  )" ++ nl;
$")" ++ nl].
Example fixture_createNewFootprintTypeSMD : gives (let! o := (let! o := Footprint_create_new (VStr $"now") (VStr $"empty-footprint-smd") (VStr $"empty-footprint-smd") (VStr $"smd") (VStr $"REF**") in Ok (o <| fd_tedit := VStr $"6328915F" |>)) in (fun o => Footprint_to o 0 true) o) want_createNewFootprintTypeSMD = true.
Proof. vm_compute. reflexivity. Qed.

Definition want_createNewFootprintTypeTHT : str := concat [
$"(footprint ""empty-footprint-through_hole"" (version 20211014) (generator kiutils)" ++ nl;
$"  (layer ""F.Cu"")" ++ nl;
$"  (tedit 63289145)" ++ nl;
$"  (attr through_hole)" ++ nl;
$"  (fp_text reference ""REF**"" (at 0 -0.5 unlocked) (layer ""F.SilkS"")" ++ nl;
$"    (effects (font (size 1.0 1.0) (thickness 0.15)))" ++ nl;
$"  )" ++ nl;
$"  (fp_text value ""empty-footprint-through_hole"" (at 0 1 unlocked) (layer ""F.Fab"")" ++ nl;
$"    (effects (font (size 1.0 1.0) (thickness 0.15)))" ++ nl;
$"  )" ++ nl;
$"  (fp_text user ""${REFERENCE}"" (at 0 2.5 unlocked) (layer ""F.Fab"")" ++ nl;
$"    (effects (font (size 1.0 1.0) (thickness 0.15)))" ++ nl;
$"  )" ++ nl;
$")" ++ nl].
Example fixture_createNewFootprintTypeTHT : gives (let! o := (let! o := Footprint_create_new (VStr $"now") (VStr $"empty-footprint-through_hole") (VStr $"empty-footprint-through_hole") (VStr $"through_hole") (VStr $"REF**") in Ok (o <| fd_tedit := VStr $"63289145" |>)) in (fun o => Footprint_to o 0 true) o) want_createNewFootprintTypeTHT = true.
Proof. vm_compute. reflexivity. Qed.

Definition want_createNewFootprintTypeOther : str := concat [
$"(footprint ""empty-footprint-other"" (version 20211014) (generator kiutils)" ++ nl;
$"  (layer ""F.Cu"")" ++ nl;
$"  (tedit 6328916A)" ++ nl;
$"  (fp_text reference ""REF**"" (at 0 -0.5 unlocked) (layer ""F.SilkS"")" ++ nl;
$"    (effects (font (size 1.0 1.0) (thickness 0.15)))" ++ nl;
$"  )" ++ nl;
$"  (fp_text value ""empty-footprint-other"" (at 0 1 unlocked) (layer ""F.Fab"")" ++ nl;
$"    (effects (font (size 1.0 1.0) (thickness 0.15)))" ++ nl;
$"  )" ++ nl;
$"  (fp_text user ""${REFERENCE}"" (at 0 2.5 unlocked) (layer ""F.Fab"")" ++ nl;
$"    (effects (font (size 1.0 1.0) (thickness 0.15)))" ++ nl;
$"  )" ++ nl;
$")" ++ nl].
Example fixture_createNewFootprintTypeOther : gives (let! o := (let! o := Footprint_create_new (VStr $"now") (VStr $"empty-footprint-other") (VStr $"empty-footprint-other") (VStr $"other") (VStr $"REF**") in Ok (o <| fd_tedit := VStr $"6328916A" |>)) in (fun o => Footprint_to o 0 true) o) want_createNewFootprintTypeOther = true.
Proof. vm_compute. reflexivity. Qed.
