(** Fixtures of the unit tests in /repo/tests/test_board.py: the model writes, byte by byte, the files the tests expect.
    Generated by tools/fixtures.py. *)
From Coq Require Import String.
From Verif Require Import PyBase PyNum PyStr Sexpr RecordSet M_Common M_Lib M_Sym M_Fp M_Gr M_Zone M_Footprint M_Dim M_Brd M_Board M_Sch M_Schematic M_Wks.

Fixpoint same (a b : str) : bool := match a, b with [], [] => true | x :: a', y :: b' => N.eqb x y && same a' b' | _, _ => false end.
Definition gives (m : res str) (t : str) : bool := match m with Ok s => same s t | Err _ => false end.
Definition nth_set {A} (k : nat) (f : A -> A) (l : list A) : list A := match skipn k l with x :: r => firstn k l ++ f x :: r | [] => l end.
Definition nth_try {A} (k : nat) (f : A -> res A) (l : list A) : res (list A) := match skipn k l with x :: r => let! y := f x in Ok (firstn k l ++ y :: r) | [] => Err EIndex end.
Definition read {A} (from : val -> res A) (t : str) : res A := let! v := parse_sexp t in from v.

Definition want_zoneOnAllLayersWildcard : str := concat [
$"(kicad_pcb (version 20221018) (generator pcbnew)" ++ nl;
$"" ++ nl;
$"  (general" ++ nl;
$"    (thickness 1.6)" ++ nl;
$"  )" ++ nl;
$"" ++ nl;
$"  (paper ""A4"")" ++ nl;
$"  (layers" ++ nl;
$"    (0 ""F.Cu"" signal)" ++ nl;
$"    (31 ""B.Cu"" signal)" ++ nl;
$"  )" ++ nl;
$"" ++ nl;
$"  (setup" ++ nl;
$"    (pad_to_mask_clearance 0)" ++ nl;
$"  )" ++ nl;
$"" ++ nl;
$"  (net 0 """")" ++ nl;
$"" ++ nl;
$"  (zone (net 0) (net_name """") (layers ""*.Cu"") (tstamp 3562b45e-4bdd-495d-8608-16ebe61c5885) (hatch edge 0.5)" ++ nl;
$"    (connect_pads (clearance 0.5))" ++ nl;
$"    (min_thickness 0.25) (filled_areas_thickness no)" ++ nl;
$"    (fill yes (thermal_gap 0.5) (thermal_bridge_width 0.5) (island_removal_mode 1) (island_area_min 10))" ++ nl;
$"  )" ++ nl;
$")" ++ nl].
Example fixture_zoneOnAllLayersWildcard : gives (let! o := (read (Board_from (VStr $"now")) want_zoneOnAllLayersWildcard) in (fun o => Board_to o 0 true) o) want_zoneOnAllLayersWildcard = true.
Proof. vm_compute. reflexivity. Qed.

Definition want_zoneOnOuterLayersOnly : str := concat [
$"(kicad_pcb (version 20221018) (generator pcbnew)" ++ nl;
$"" ++ nl;
$"  (general" ++ nl;
$"    (thickness 1.6)" ++ nl;
$"  )" ++ nl;
$"" ++ nl;
$"  (paper ""A4"")" ++ nl;
$"  (layers" ++ nl;
$"    (0 ""F.Cu"" signal)" ++ nl;
$"    (31 ""B.Cu"" signal)" ++ nl;
$"  )" ++ nl;
$"" ++ nl;
$"  (setup" ++ nl;
$"    (pad_to_mask_clearance 0)" ++ nl;
$"  )" ++ nl;
$"" ++ nl;
$"  (net 0 """")" ++ nl;
$"" ++ nl;
$"  (zone (net 0) (net_name """") (layers ""F&B.Cu"") (tstamp 3562b45e-4bdd-495d-8608-16ebe61c5885) (hatch edge 0.5)" ++ nl;
$"    (connect_pads (clearance 0.5))" ++ nl;
$"    (min_thickness 0.25) (filled_areas_thickness no)" ++ nl;
$"    (fill yes (thermal_gap 0.5) (thermal_bridge_width 0.5) (island_removal_mode 1) (island_area_min 10))" ++ nl;
$"  )" ++ nl;
$")" ++ nl].
Example fixture_zoneOnOuterLayersOnly : gives (let! o := (read (Board_from (VStr $"now")) want_zoneOnOuterLayersOnly) in (fun o => Board_to o 0 true) o) want_zoneOnOuterLayersOnly = true.
Proof. vm_compute. reflexivity. Qed.

Definition want_pcbPlotParams : str := concat [
$"(kicad_pcb (version 20211014) (generator kiutils)" ++ nl;
$"" ++ nl;
$"  (general" ++ nl;
$"    (thickness 1.6)" ++ nl;
$"  )" ++ nl;
$"" ++ nl;
$"  (paper ""A4"")" ++ nl;
$"  (layers" ++ nl;
$"    (0 ""F.Cu"" signal)" ++ nl;
$"  )" ++ nl;
$"" ++ nl;
$"  (setup" ++ nl;
$"    (pad_to_mask_clearance 0)" ++ nl;
$"    (pcbplotparams" ++ nl;
$"      (layerselection 0x00010ff_ffffffff)" ++ nl;
$"      (disableapertmacros false)" ++ nl;
$"      (usegerberextensions false)" ++ nl;
$"      (usegerberattributes false)" ++ nl;
$"      (usegerberadvancedattributes false)" ++ nl;
$"      (creategerberjobfile false)" ++ nl;
$"      (svguseinch false)" ++ nl;
$"      (svgprecision 6)" ++ nl;
$"      (excludeedgelayer false)" ++ nl;
$"      (plotframeref true)" ++ nl;
$"      (viasonmask true)" ++ nl;
$"      (mode 1)" ++ nl;
$"      (useauxorigin false)" ++ nl;
$"      (hpglpennumber 1)" ++ nl;
$"      (hpglpenspeed 20)" ++ nl;
$"      (hpglpendiameter 15.000000)" ++ nl;
$"      (dxfpolygonmode true)" ++ nl;
$"      (dxfimperialunits true)" ++ nl;
$"      (dxfusepcbnewfont true)" ++ nl;
$"      (psnegative false)" ++ nl;
$"      (psa4output false)" ++ nl;
$"      (plotreference true)" ++ nl;
$"      (plotvalue true)" ++ nl;
$"      (plotinvisibletext true)" ++ nl;
$"      (sketchpadsonfab true)" ++ nl;
$"      (subtractmaskfromsilk false)" ++ nl;
$"      (outputformat 1)" ++ nl;
$"      (mirror false)" ++ nl;
$"      (drillshape 0)" ++ nl;
$"      (scaleselection 1)" ++ nl;
$"      (outputdirectory """")" ++ nl;
$"    )" ++ nl;
$"  )" ++ nl;
$"" ++ nl;
$"  (net 0 """")" ++ nl;
$"" ++ nl;
$")" ++ nl].
Example fixture_pcbPlotParams : gives (let! o := (read (Board_from (VStr $"now")) want_pcbPlotParams) in (fun o => Board_to o 0 true) o) want_pcbPlotParams = true.
Proof. vm_compute. reflexivity. Qed.

Definition want_v7_imageWithLayerToken : str := concat [
$"(kicad_pcb (version 20221018) (generator kiutils)" ++ nl;
$"" ++ nl;
$"  (general" ++ nl;
$"    (thickness 1.6)" ++ nl;
$"  )" ++ nl;
$"" ++ nl;
$"  (paper ""A4"")" ++ nl;
$"  (layers" ++ nl;
$"  )" ++ nl;
$"" ++ nl;
$"  (setup" ++ nl;
$"    (pad_to_mask_clearance 0)" ++ nl;
$"  )" ++ nl;
$"" ++ nl;
$"  (net 0 """")" ++ nl;
$"" ++ nl;
$"  (image (at 203.2 99.06) (layer ""F.Cu"") (scale 7.875)" ++ nl;
$"    (data" ++ nl;
$"      iVBORw0KGgoAAAANSUhEUgAAAB4AAAAeCAIAAAC0Ujn1AAAAA3NCSVQICAjb4U/gAAAACXBIWXMA" ++ nl;
$"      AA50AAAOdAFrJLPWAAAA9ElEQVRIiWP88OEDA20AE43MHbJGs+CX1pp4hUiDruXroIkMzQAZmkYT" ++ nl;
$"      iEZMIMHDWmEvaS3P8/33v1NPvvYfffH002+sKhnx50a0FCLBw7o+WoWfg5kYR5Dm6go7SX4O5kuX" ++ nl;
$"      Li1atIiRkTEuLk5XV5c6Rlsr8DAwMCxevBji14kTJ8Kl5syZg6aYXtFIMO+dePTFWZkvLi5u0aJF" ++ nl;
$"      DAwM8fHxOjromRAOUKKRoNGKguzLw5X42GkQjfff/wxYcqfcTsJanvf777+nnnydcOwlJPFhliEk" ++ nl;
$"      p+sXX34XbntMjMqhmdFHjaaf0QRKPkrA0AyQUaPRAACmk1AZ+UHU4QAAAABJRU5ErkJggg==" ++ nl;
$"    )" ++ nl;
$"  )" ++ nl;
$"" ++ nl;
$")" ++ nl].
Example fixture_v7_imageWithLayerToken : gives (let! o := (read (Board_from (VStr $"now")) want_v7_imageWithLayerToken) in (fun o => Board_to o 0 true) o) want_v7_imageWithLayerToken = true.
Proof. vm_compute. reflexivity. Qed.

Definition want_v7_textKnockout : str := concat [
$"(kicad_pcb (version 20221018) (generator pcbnew)" ++ nl;
$"" ++ nl;
$"  (general" ++ nl;
$"    (thickness 1.6)" ++ nl;
$"  )" ++ nl;
$"" ++ nl;
$"  (paper ""A4"")" ++ nl;
$"  (layers" ++ nl;
$"    (0 ""F.Cu"" signal)" ++ nl;
$"    (31 ""B.Cu"" signal)" ++ nl;
$"    (32 ""B.Adhes"" user ""B.Adhesive"")" ++ nl;
$"    (33 ""F.Adhes"" user ""F.Adhesive"")" ++ nl;
$"    (34 ""B.Paste"" user)" ++ nl;
$"    (35 ""F.Paste"" user)" ++ nl;
$"    (36 ""B.SilkS"" user ""B.Silkscreen"")" ++ nl;
$"    (37 ""F.SilkS"" user ""F.Silkscreen"")" ++ nl;
$"    (38 ""B.Mask"" user)" ++ nl;
$"    (39 ""F.Mask"" user)" ++ nl;
$"    (40 ""Dwgs.User"" user ""User.Drawings"")" ++ nl;
$"    (41 ""Cmts.User"" user ""User.Comments"")" ++ nl;
$"    (42 ""Eco1.User"" user ""User.Eco1"")" ++ nl;
$"    (43 ""Eco2.User"" user ""User.Eco2"")" ++ nl;
$"    (44 ""Edge.Cuts"" user)" ++ nl;
$"    (45 ""Margin"" user)" ++ nl;
$"    (46 ""B.CrtYd"" user ""B.Courtyard"")" ++ nl;
$"    (47 ""F.CrtYd"" user ""F.Courtyard"")" ++ nl;
$"    (48 ""B.Fab"" user)" ++ nl;
$"    (49 ""F.Fab"" user)" ++ nl;
$"    (50 ""User.1"" user)" ++ nl;
$"    (51 ""User.2"" user)" ++ nl;
$"    (52 ""User.3"" user)" ++ nl;
$"    (53 ""User.4"" user)" ++ nl;
$"    (54 ""User.5"" user)" ++ nl;
$"    (55 ""User.6"" user)" ++ nl;
$"    (56 ""User.7"" user)" ++ nl;
$"    (57 ""User.8"" user)" ++ nl;
$"    (58 ""User.9"" user)" ++ nl;
$"  )" ++ nl;
$"" ++ nl;
$"  (setup" ++ nl;
$"    (pad_to_mask_clearance 0)" ++ nl;
$"  )" ++ nl;
$"" ++ nl;
$"  (net 0 """")" ++ nl;
$"" ++ nl;
$"  (gr_text ""test"" (at 168.42 92.81) (layer ""F.Cu"" knockout) (tstamp 37d6611e-bb8c-49f5-bc61-44562605f28f)" ++ nl;
$"    (effects (font (size 1.5 1.5) (thickness 0.3) bold) (justify left bottom))" ++ nl;
$"  )" ++ nl;
$"" ++ nl;
$")" ++ nl].
Example fixture_v7_textKnockout : gives (let! o := (read (Board_from (VStr $"now")) want_v7_textKnockout) in (fun o => Board_to o 0 true) o) want_v7_textKnockout = true.
Proof. vm_compute. reflexivity. Qed.

Definition want_v7_textsWithRenderCaches : str := concat [
$"(kicad_pcb (version 20221018) (generator pcbnew)" ++ nl;
$"" ++ nl;
$"  (general" ++ nl;
$"    (thickness 1.6)" ++ nl;
$"  )" ++ nl;
$"" ++ nl;
$"  (paper ""A4"")" ++ nl;
$"  (layers" ++ nl;
$"    (58 ""User.9"" user)" ++ nl;
$"  )" ++ nl;
$"" ++ nl;
$"  (setup" ++ nl;
$"    (pad_to_mask_clearance 0)" ++ nl;
$"  )" ++ nl;
$"" ++ nl;
$"  (net 0 """")" ++ nl;
$"" ++ nl;
$"  (gr_text ""cached stuff\n\n"" (at 137.16 93.98) (layer ""F.Cu"") (tstamp 25874870-6d4f-4bc3-8a66-95a041f89adb)" ++ nl;
$"    (effects (font (face ""Bell MT"") (size 1.5 1.5) (thickness 0.3) bold) (justify left bottom))" ++ nl;
$"    (render_cache ""cached stuff\n\n"" 0" ++ nl;
$"      (polygon" ++ nl;
$"        (pts" ++ nl;
$"          (xy 140.623846 91.204918)          (xy 140.618478 91.205)          (xy 140.602633 91.205)          (xy 140.58679 91.205)" ++ nl;
$"          (xy 140.571994 91.205)          (xy 140.555749 91.205)          (xy 140.538056 91.205)          (xy 140.522857 91.205)" ++ nl;
$"          (xy 140.506991 91.205)          (xy 140.49168 91.205)          (xy 140.476924 91.205)          (xy 140.459948 91.205)" ++ nl;
$"          (xy 140.443771 91.205)          (xy 140.4309 91.205)          (xy 140.41575 91.205)          (xy 140.400799 91.205)" ++ nl;
$"          (xy 140.386048 91.205)          (xy 140.366691 91.205)          (xy 140.347689 91.205)          (xy 140.329041 91.205)" ++ nl;
$"          (xy 140.310749 91.205)          (xy 140.292812 91.205)          (xy 140.279591 91.205)          (xy 140.263187 91.205)" ++ nl;
$"          (xy 140.247508 91.205)          (xy 140.230335 91.205)          (xy 140.214882 91.205)          (xy 140.198392 91.205)" ++ nl;
$"          (xy 140.188 91.205)          (xy 140.172158 91.202746)          (xy 140.160335 91.193076)          (xy 140.157958 91.181919)" ++ nl;
$"        )" ++ nl;
$"      )" ++ nl;
$"      (polygon" ++ nl;
$"        (pts" ++ nl;
$"          (xy 142.953316 89.798302)          (xy 142.97018 89.798176)          (xy 142.97933 89.798161)          (xy 143.251538 89.798161)" ++ nl;
$"        )" ++ nl;
$"      )" ++ nl;
$"      (polygon" ++ nl;
$"        (pts" ++ nl;
$"          (xy 144.705109 90.747322)          (xy 144.717093 90.761103)          (xy 144.726177 90.773056)          (xy 144.734816 90.785833)" ++ nl;
$"          (xy 144.743007 90.799434)          (xy 144.750478 90.813539)          (xy 144.756952 90.827827)          (xy 144.76243 90.842299)" ++ nl;
$"          (xy 144.766912 90.856953)          (xy 144.770399 90.871791)          (xy 144.772889 90.886812)          (xy 144.774383 90.902016)" ++ nl;
$"        )" ++ nl;
$"      )" ++ nl;
$"      (polygon" ++ nl;
$"        (pts" ++ nl;
$"          (xy 145.254478 90.074243)          (xy 145.261175 90.060128)          (xy 145.268431 90.046533)          (xy 145.270572 90.043258)" ++ nl;
$"          (xy 145.282908 90.034128)          (xy 145.29292 90.032634)          (xy 145.307265 90.036488)          (xy 145.316915 90.048051)" ++ nl;
$"          (xy 145.321175 90.062374)          (xy 145.322566 90.078362)          (xy 145.322595 90.08136)" ++ nl;
$"        )" ++ nl;
$"      )" ++ nl;
$"    )" ++ nl;
$"  )" ++ nl;
$"  (gr_text_box ""cached stuff""" ++ nl;
$"    (start 134.62 93.98) (end 149.86 101.6) (layer ""F.Cu"") (tstamp b8512651-2382-43ae-b65a-eb7f3bf81913)" ++ nl;
$"    (effects (font (face ""Baskerville Old Face"") (size 1.5 1.5) (thickness 0.3) bold) (justify left top))" ++ nl;
$"    (stroke (width 0.2) (type solid))" ++ nl;
$"    (render_cache ""cached stuff"" 0" ++ nl;
$"      (polygon" ++ nl;
$"        (pts" ++ nl;
$"          (xy 136.498814 96.634875)          (xy 136.512674 96.627047)          (xy 136.525961 96.618015)          (xy 136.538674 96.607779)" ++ nl;
$"          (xy 136.550815 96.596338)          (xy 136.55859 96.588042)          (xy 136.568481 96.575409)          (xy 136.578461 96.559949)" ++ nl;
$"          (xy 136.586509 96.545547)          (xy 136.594615 96.529335)          (xy 136.600732 96.515989)          (xy 136.606881 96.501626)" ++ nl;
$"          (xy 136.613063 96.486245)          (xy 136.619276 96.469847)" ++ nl;
$"        )" ++ nl;
$"      )" ++ nl;
$"      (polygon" ++ nl;
$"        (pts" ++ nl;
$"          (xy 137.4812 96.599439)          (xy 137.494971 96.605788)          (xy 137.510853 96.609113)          (xy 137.521395 96.609658)" ++ nl;
$"          (xy 137.536632 96.60902)          (xy 137.552422 96.606509)          (xy 137.566092 96.601598)          (xy 137.578611 96.593112)" ++ nl;
$"          (xy 137.589836 96.583244)          (xy 137.601124 96.572054)          (xy 137.611887 96.560565)          (xy 137.645593 96.580715)" ++ nl;
$"          (xy 137.63985 96.595577)          (xy 137.633337 96.60948)          (xy 137.626054 96.622424)          (xy 137.613686 96.640043)" ++ nl;
$"          (xy 137.599585 96.655505)          (xy 137.583753 96.668809)          (xy 137.566187 96.679955)          (xy 137.54689 96.688944)" ++ nl;
$"          (xy 138.967801 96.634937)          (xy 138.967801 96.68)          (xy 138.490062 96.68)          (xy 138.490062 96.63457)" ++ nl;
$"        )" ++ nl;
$"      )" ++ nl;
$"      (polygon" ++ nl;
$"        (pts" ++ nl;
$"          (xy 140.057137 95.789378)          (xy 140.076786 95.789002)" ++ nl;
$"        )" ++ nl;
$"      )" ++ nl;
$"    )" ++ nl;
$"  )" ++ nl;
$"" ++ nl;
$")" ++ nl].
Example fixture_v7_textsWithRenderCaches : gives (let! o := (read (Board_from (VStr $"now")) want_v7_textsWithRenderCaches) in (fun o => Board_to o 0 true) o) want_v7_textsWithRenderCaches = true.
Proof. vm_compute. reflexivity. Qed.

Definition want_v7_pcbPlotParams : str := concat [
$"(kicad_pcb (version 20211014) (generator kiutils)" ++ nl;
$"" ++ nl;
$"  (general" ++ nl;
$"    (thickness 1.6)" ++ nl;
$"  )" ++ nl;
$"" ++ nl;
$"  (paper ""A4"")" ++ nl;
$"  (layers" ++ nl;
$"    (0 ""F.Cu"" signal)" ++ nl;
$"  )" ++ nl;
$"" ++ nl;
$"  (setup" ++ nl;
$"    (pad_to_mask_clearance 0)" ++ nl;
$"    (pcbplotparams" ++ nl;
$"      (layerselection 0x7ffffff_ffffffff)" ++ nl;
$"      (plot_on_all_layers_selection 0x7ffff00_00000000)" ++ nl;
$"      (disableapertmacros false)" ++ nl;
$"      (usegerberextensions false)" ++ nl;
$"      (usegerberattributes false)" ++ nl;
$"      (usegerberadvancedattributes false)" ++ nl;
$"      (creategerberjobfile false)" ++ nl;
$"      (dashed_line_dash_ratio 12.000000)" ++ nl;
$"      (dashed_line_gap_ratio 3.000000)" ++ nl;
$"      (svgprecision 4)" ++ nl;
$"      (plotframeref false)" ++ nl;
$"      (viasonmask false)" ++ nl;
$"      (mode 1)" ++ nl;
$"      (useauxorigin false)" ++ nl;
$"      (hpglpennumber 1)" ++ nl;
$"      (hpglpenspeed 20)" ++ nl;
$"      (hpglpendiameter 15.000000)" ++ nl;
$"      (dxfpolygonmode true)" ++ nl;
$"      (dxfimperialunits true)" ++ nl;
$"      (dxfusepcbnewfont true)" ++ nl;
$"      (psnegative false)" ++ nl;
$"      (psa4output false)" ++ nl;
$"      (plotreference false)" ++ nl;
$"      (plotvalue false)" ++ nl;
$"      (plotinvisibletext false)" ++ nl;
$"      (sketchpadsonfab false)" ++ nl;
$"      (subtractmaskfromsilk false)" ++ nl;
$"      (outputformat 1)" ++ nl;
$"      (mirror false)" ++ nl;
$"      (drillshape 0)" ++ nl;
$"      (scaleselection 1)" ++ nl;
$"      (outputdirectory """")" ++ nl;
$"    )" ++ nl;
$"  )" ++ nl;
$"" ++ nl;
$"  (net 0 """")" ++ nl;
$"" ++ nl;
$")" ++ nl].
Example fixture_v7_pcbPlotParams : gives (let! o := (read (Board_from (VStr $"now")) want_v7_pcbPlotParams) in (fun o => Board_to o 0 true) o) want_v7_pcbPlotParams = true.
Proof. vm_compute. reflexivity. Qed.

Definition want_createEmptyBoard : str := concat [
$"(kicad_pcb (version 20211014) (generator kiutils)" ++ nl;
$"" ++ nl;
$"  (general" ++ nl;
$"    (thickness 1.6)" ++ nl;
$"  )" ++ nl;
$"" ++ nl;
$"  (paper ""A4"")" ++ nl;
$"  (layers" ++ nl;
$"    (0 ""F.Cu"" signal)" ++ nl;
$"    (31 ""B.Cu"" signal)" ++ nl;
$"    (32 ""B.Adhes"" user ""B.Adhesive"")" ++ nl;
$"    (33 ""F.Adhes"" user ""F.Adhesive"")" ++ nl;
$"    (34 ""B.Paste"" user)" ++ nl;
$"    (35 ""F.Paste"" user)" ++ nl;
$"    (36 ""B.SilkS"" user ""B.Silkscreen"")" ++ nl;
$"    (37 ""F.SilkS"" user ""F.Silkscreen"")" ++ nl;
$"    (38 ""B.Mask"" user)" ++ nl;
$"    (39 ""F.Mask"" user)" ++ nl;
$"    (40 ""Dwgs.User"" user ""User.Drawings"")" ++ nl;
$"    (41 ""Cmts.User"" user ""User.Comments"")" ++ nl;
$"    (42 ""Eco1.User"" user ""User.Eco1"")" ++ nl;
$"    (43 ""Eco2.User"" user ""User.Eco2"")" ++ nl;
$"    (44 ""Edge.Cuts"" user)" ++ nl;
$"    (45 ""Margin"" user)" ++ nl;
$"    (46 ""B.CrtYd"" user ""B.Courtyard"")" ++ nl;
$"    (47 ""F.CrtYd"" user ""F.Courtyard"")" ++ nl;
$"    (48 ""B.Fab"" user)" ++ nl;
$"    (49 ""F.Fab"" user)" ++ nl;
$"    (50 ""User.1"" user)" ++ nl;
$"    (51 ""User.2"" user)" ++ nl;
$"    (52 ""User.3"" user)" ++ nl;
$"    (53 ""User.4"" user)" ++ nl;
$"    (54 ""User.5"" user)" ++ nl;
$"    (55 ""User.6"" user)" ++ nl;
$"    (56 ""User.7"" user)" ++ nl;
$"    (57 ""User.8"" user)" ++ nl;
$"    (58 ""User.9"" user)" ++ nl;
$"  )" ++ nl;
$"" ++ nl;
$"  (setup" ++ nl;
$"    (pad_to_mask_clearance 0.0)" ++ nl;
$"  )" ++ nl;
$"" ++ nl;
$"  (net 0 """")" ++ nl;
$"" ++ nl;
$")" ++ nl].
Example fixture_createEmptyBoard : gives (let! o := (Ok Board_create_new) in (fun o => Board_to o 0 true) o) want_createEmptyBoard = true.
Proof. vm_compute. reflexivity. Qed.

Definition want_renameFootprintIdToken : str := concat [
$"(kicad_pcb (version 20211014) (generator pcbnew)" ++ nl;
$"" ++ nl;
$"  (general" ++ nl;
$"    (thickness 1.6)" ++ nl;
$"  )" ++ nl;
$"" ++ nl;
$"  (paper ""A4"")" ++ nl;
$"  (layers" ++ nl;
$"    (0 ""F.Cu"" signal)" ++ nl;
$"    (31 ""B.Cu"" signal)" ++ nl;
$"    (32 ""B.Adhes"" user ""B.Adhesive"")" ++ nl;
$"    (33 ""F.Adhes"" user ""F.Adhesive"")" ++ nl;
$"    (34 ""B.Paste"" user)" ++ nl;
$"    (35 ""F.Paste"" user)" ++ nl;
$"    (36 ""B.SilkS"" user ""B.Silkscreen"")" ++ nl;
$"    (37 ""F.SilkS"" user ""F.Silkscreen"")" ++ nl;
$"    (38 ""B.Mask"" user)" ++ nl;
$"    (39 ""F.Mask"" user)" ++ nl;
$"    (40 ""Dwgs.User"" user ""User.Drawings"")" ++ nl;
$"    (41 ""Cmts.User"" user ""User.Comments"")" ++ nl;
$"    (42 ""Eco1.User"" user ""User.Eco1"")" ++ nl;
$"    (43 ""Eco2.User"" user ""User.Eco2"")" ++ nl;
$"    (44 ""Edge.Cuts"" user)" ++ nl;
$"    (45 ""Margin"" user)" ++ nl;
$"    (46 ""B.CrtYd"" user ""B.Courtyard"")" ++ nl;
$"    (47 ""F.CrtYd"" user ""F.Courtyard"")" ++ nl;
$"    (48 ""B.Fab"" user)" ++ nl;
$"    (49 ""F.Fab"" user)" ++ nl;
$"    (50 ""User.1"" user)" ++ nl;
$"    (51 ""User.2"" user)" ++ nl;
$"    (52 ""User.3"" user)" ++ nl;
$"    (53 ""User.4"" user)" ++ nl;
$"    (54 ""User.5"" user)" ++ nl;
$"    (55 ""User.6"" user)" ++ nl;
$"    (56 ""User.7"" user)" ++ nl;
$"    (57 ""User.8"" user)" ++ nl;
$"    (58 ""User.9"" user)" ++ nl;
$"  )" ++ nl;
$"" ++ nl;
$"  (setup" ++ nl;
$"    (pad_to_mask_clearance 0)" ++ nl;
$"  )" ++ nl;
$"" ++ nl;
$"  (net 0 """")" ++ nl;
$"" ++ nl;
$"  (footprint ""I_was_renamed:BUS_PCIexpress_x1"" (layer ""F.Cu"")" ++ nl;
$"    (tedit 62BC9CDF) (tstamp a6a16e4a-47c2-4244-ba11-78b40782f3f4)" ++ nl;
$"    (at 73.5 110.75)" ++ nl;
$"    (fp_text reference ""REF**"" (at 5 -3.5) (layer ""F.SilkS"")" ++ nl;
$"      (effects (font (size 1 1) (thickness 0.15)))" ++ nl;
$"      (tstamp 1fe1971a-7016-45bb-8345-401820ae3862)" ++ nl;
$"    )" ++ nl;
$"    (fp_text value ""BUS_PCIexpress_x1"" (at 10.33 -8.01) (layer ""F.Fab"")" ++ nl;
$"      (effects (font (size 1 1) (thickness 0.15)))" ++ nl;
$"      (tstamp 4eab55a2-5545-47a3-b9b3-c4c469a39d25)" ++ nl;
$"    )" ++ nl;
$"  )" ++ nl;
$"" ++ nl;
$"  (footprint ""I_was_added:BUS_PCIexpress_x1"" (layer ""F.Cu"")" ++ nl;
$"    (tedit 62BC9CDF) (tstamp a6a16e4a-47c2-4244-ba11-78b40782f3f4)" ++ nl;
$"    (at 73.5 110.75)" ++ nl;
$"    (fp_text reference ""REF**"" (at 5 -3.5) (layer ""F.SilkS"")" ++ nl;
$"      (effects (font (size 1 1) (thickness 0.15)))" ++ nl;
$"      (tstamp 1fe1971a-7016-45bb-8345-401820ae3862)" ++ nl;
$"    )" ++ nl;
$"    (fp_text value ""BUS_PCIexpress_x1"" (at 10.33 -8.01) (layer ""F.Fab"")" ++ nl;
$"      (effects (font (size 1 1) (thickness 0.15)))" ++ nl;
$"      (tstamp 4eab55a2-5545-47a3-b9b3-c4c469a39d25)" ++ nl;
$"    )" ++ nl;
$"  )" ++ nl;
$"" ++ nl;
$")" ++ nl].
Definition file_renameFootprintIdToken : str := concat [
$"(kicad_pcb (version 20211014) (generator pcbnew)" ++ nl;
$"" ++ nl;
$"  (general" ++ nl;
$"    (thickness 1.6)" ++ nl;
$"  )" ++ nl;
$"" ++ nl;
$"  (paper ""A4"")" ++ nl;
$"  (layers" ++ nl;
$"    (0 ""F.Cu"" signal)" ++ nl;
$"    (31 ""B.Cu"" signal)" ++ nl;
$"    (32 ""B.Adhes"" user ""B.Adhesive"")" ++ nl;
$"    (33 ""F.Adhes"" user ""F.Adhesive"")" ++ nl;
$"    (34 ""B.Paste"" user)" ++ nl;
$"    (35 ""F.Paste"" user)" ++ nl;
$"    (36 ""B.SilkS"" user ""B.Silkscreen"")" ++ nl;
$"    (37 ""F.SilkS"" user ""F.Silkscreen"")" ++ nl;
$"    (38 ""B.Mask"" user)" ++ nl;
$"    (39 ""F.Mask"" user)" ++ nl;
$"    (40 ""Dwgs.User"" user ""User.Drawings"")" ++ nl;
$"    (41 ""Cmts.User"" user ""User.Comments"")" ++ nl;
$"    (42 ""Eco1.User"" user ""User.Eco1"")" ++ nl;
$"    (43 ""Eco2.User"" user ""User.Eco2"")" ++ nl;
$"    (44 ""Edge.Cuts"" user)" ++ nl;
$"    (45 ""Margin"" user)" ++ nl;
$"    (46 ""B.CrtYd"" user ""B.Courtyard"")" ++ nl;
$"    (47 ""F.CrtYd"" user ""F.Courtyard"")" ++ nl;
$"    (48 ""B.Fab"" user)" ++ nl;
$"    (49 ""F.Fab"" user)" ++ nl;
$"    (50 ""User.1"" user)" ++ nl;
$"    (51 ""User.2"" user)" ++ nl;
$"    (52 ""User.3"" user)" ++ nl;
$"    (53 ""User.4"" user)" ++ nl;
$"    (54 ""User.5"" user)" ++ nl;
$"    (55 ""User.6"" user)" ++ nl;
$"    (56 ""User.7"" user)" ++ nl;
$"    (57 ""User.8"" user)" ++ nl;
$"    (58 ""User.9"" user)" ++ nl;
$"  )" ++ nl;
$"" ++ nl;
$"  (setup" ++ nl;
$"    (pad_to_mask_clearance 0)" ++ nl;
$"  )" ++ nl;
$"" ++ nl;
$"  (net 0 """")" ++ nl;
$"" ++ nl;
$"  (footprint ""Connector_PCBEdge:BUS_PCIexpress_x1"" (layer ""F.Cu"")" ++ nl;
$"    (tedit 62BC9CDF) (tstamp a6a16e4a-47c2-4244-ba11-78b40782f3f4)" ++ nl;
$"    (at 73.5 110.75)" ++ nl;
$"    (fp_text reference ""REF**"" (at 5 -3.5) (layer ""F.SilkS"")" ++ nl;
$"      (effects (font (size 1 1) (thickness 0.15)))" ++ nl;
$"      (tstamp 1fe1971a-7016-45bb-8345-401820ae3862)" ++ nl;
$"    )" ++ nl;
$"    (fp_text value ""BUS_PCIexpress_x1"" (at 10.33 -8.01) (layer ""F.Fab"")" ++ nl;
$"      (effects (font (size 1 1) (thickness 0.15)))" ++ nl;
$"      (tstamp 4eab55a2-5545-47a3-b9b3-c4c469a39d25)" ++ nl;
$"    )" ++ nl;
$"  )" ++ nl;
$"" ++ nl;
$"  (footprint ""BUS_PCIexpress_x1"" (layer ""F.Cu"")" ++ nl;
$"    (tedit 62BC9CDF) (tstamp a6a16e4a-47c2-4244-ba11-78b40782f3f4)" ++ nl;
$"    (at 73.5 110.75)" ++ nl;
$"    (fp_text reference ""REF**"" (at 5 -3.5) (layer ""F.SilkS"")" ++ nl;
$"      (effects (font (size 1 1) (thickness 0.15)))" ++ nl;
$"      (tstamp 1fe1971a-7016-45bb-8345-401820ae3862)" ++ nl;
$"    )" ++ nl;
$"    (fp_text value ""BUS_PCIexpress_x1"" (at 10.33 -8.01) (layer ""F.Fab"")" ++ nl;
$"      (effects (font (size 1 1) (thickness 0.15)))" ++ nl;
$"      (tstamp 4eab55a2-5545-47a3-b9b3-c4c469a39d25)" ++ nl;
$"    )" ++ nl;
$"  )" ++ nl;
$"" ++ nl;
$")" ++ nl].
Example fixture_renameFootprintIdToken : gives (let! o := (let! o := read (Board_from (VStr $"now")) file_renameFootprintIdToken in Ok (o <| bd_footprints := nth_set 0 (Footprint_set_libId (VStr $"I_was_renamed:BUS_PCIexpress_x1")) (nth_set 1 (Footprint_set_libId (VStr $"I_was_added:BUS_PCIexpress_x1")) (bd_footprints o)) |>)) in (fun o => Board_to o 0 true) o) want_renameFootprintIdToken = true.
Proof. vm_compute. reflexivity. Qed.
