(** * C50: the layout of the written text

    For every class: the text of each object is laid out as S_Tidy.v says, that is
    - each line is indented by two blanks for each parenthesis that is open there,
    - the items of a line are separated by exactly one blank,
    - no line ends in a blank, and no blank stands at the inside of a parenthesis,
    and the text ends with the last parenthesis, or with the line if that is asked for.
    This is false for some of the classes, and for others it holds only in part.  The former are
    refuted with a witness; for the latter the theorem has the hypothesis [X_neat], and a witness
    shows that it is needed.  Beside each theorem stands an object that meets its hypotheses. *)
From Coq Require Import String.
From Verif Require Import PyBase PyNum PyStr Sexpr M_Common M_Lib M_Sym M_Fp M_Gr M_Zone M_Footprint M_Dim M_Brd M_Board M_Sch M_Schematic M_Wks RecordSet.
From Verif Require Import S_Leaf S_Common S_Lib S_Sym S_Fp S_Gr S_Zone S_Footprint S_Dim S_Brd S_Board S_Sch S_Schematic S_Wks.
From Verif Require Import Properties_Common Properties_Lib Properties_Sym Properties_Fp Properties_Gr Properties_Zone Properties_Footprint Properties_Dim Properties_Brd Properties_Board Properties_Sch Properties_Schematic Properties_Wks.
From Verif Require Import S_Tidy L_Tidy L_TidyB L_TidyA.

(** ** What the layout is *)
Definition lines (l : list string) : str := flat_map (fun s => lit s ++ nl) l.
Example C50_tidy_case : tidy 2 true (lines
  ["  (a b ""c (d"" 1.5 (e)";
   "    (f ""\""x y"" (g) (h i))";
   "    j k";
   "";
   "    (l";
   "      m";
   "    )";
   "  )"]%string) = true.
Proof. vm_compute. reflexivity. Qed.
Example C50_tidy_not : map (tidy 2 true) (map lines
  [["  (a  b)"];              (* two blanks *)
   ["  (a(b))"];              (* no blank in front of an opening parenthesis *)
   ["  (a ""b""c)"];          (* nor behind a quote *)
   ["  ( a)"]; ["  (a )"];    (* a blank at the inside of a parenthesis *)
   ["  (a b) "];              (* a blank at the end of the line *)
   ["  (a "; "    b)"];
   ["   (a)"]; ["(a)"];       (* wrong indentation *)
   ["  (a"; "  b)"]; ["  (a"; "     b)"];
   ["  (a"; "    (b"; "    c))"];
   ["  (a"; "    )"];         (* a closing parenthesis that is not aligned *)
   ["  ((a))"]; ["  ()"];     (* an expression without a name *)
   ["  (a (b)"]; ["  (a))"];  (* unbalanced parentheses *)
   ["  (a ""b)"]]%string) = repeat false 18.
Proof. vm_compute. reflexivity. Qed.
(** with and without the end of the line *)
Example C50_tidy_eol : tidy 0 false $"(a)" && negb (tidy 0 true $"(a)") && negb (tidy 0 false (lines ["(a)"]%string)) = true.
Proof. vm_compute. reflexivity. Qed.

(** an object that meets the hypotheses: it is accepted, and it can be written *)
Definition meets {A} (to : A -> nat -> bool -> res str) (ok : A -> bool) (o : A) : bool := ok o && match to o 2 true with Ok _ => true | Err _ => false end.
(** an object that is accepted and written, but not laid out like this *)
Definition breaks {A} (to : A -> nat -> bool -> res str) (ok : A -> bool) (o : A) (indent : nat) (newline : bool) : bool :=
  ok o && match to o indent newline with Ok t => negb (tidy indent newline t) | Err _ => false end.
Lemma broken {A} (to : A -> nat -> bool -> res str) ok o indent newline : breaks to ok o indent newline = true -> ~ tidies to ok.
Proof.
  intros H K. unfold breaks in H. apply andb_prop in H as [H1 H2]. destruct (to o indent newline) as [t|] eqn:E; [|discriminate H2].
  now rewrite (K o indent newline t H1 E) in H2.
Qed.

(** ** Objects that are written like this *)
Definition neat_grtext : GrText := (mkGrText (VStr $"a ""(b)"" \ c") true (mkPosition (VInt 1) (fdec 25 (-1)) (VInt 90) false) (VStr $"F.SilkS") ex_effects ex_stamp false None).
Definition neat_dimension : Dimension := ex_dimension <| di_grText := Some neat_grtext |>.
Definition neat_pad : Pad := ex_pad <| pd_customPadPrimitives := PadPrimitive_GrText neat_grtext :: tl ex_gr |>.
Definition neat_zone : Zone := ex_zone <| zo_keepoutSettings := None |> <| zo_fillSegments := None |>.
Definition neat_fptext : FpText := (mkFpText (VStr $"user") (VStr $"a ""(b)"" \ c") (mkPosition (VInt 1) (fdec 25 (-1)) (VInt 90) true) (VStr $"F.SilkS") true true ex_effects ex_stamp None).
Definition neat_footprint : Footprint :=
  ex_footprint <| fd_graphicItems := [FpItem_FpText neat_fptext; nth 2 ex_items (FpItem_FpText neat_fptext)] |> <| fd_pads := [neat_pad; Pad_default] |> <| fd_zones := [neat_zone] |>.
Definition neat_bitems : list BdItem := BdItem_GrText neat_grtext :: tl ex_bitems.
Definition neat_board : Board :=
  ex_board <| bd_footprints := [neat_footprint] |> <| bd_graphicItems := neat_bitems |> <| bd_dimensions := [neat_dimension] |> <| bd_zones := [neat_zone] |>.
Definition neat_schematic : Schematic := ex_schematic <| sc_junctions := [mkJunction ex_pos2 (VInt 0) (JColor_obj ex_color) ex_stamp] |>.

(** ** The classes *)
Theorem C50_Coordinate : tidies Coordinate_to Coordinate_ok.
Proof. exact (TyL_tidies _ _ Coordinate_tl). Qed.
Print Assumptions C50_Coordinate.
Example C50_Coordinate_case : meets Coordinate_to Coordinate_ok (mkCoordinate (fdec 25 (-1)) (VInt (-3)) (fdec 1 0)) = true.
Proof. vm_compute. reflexivity. Qed.
Theorem C50_ColorRGBA : tidies ColorRGBA_to ColorRGBA_ok.
Proof. exact (TyL_tidies _ _ ColorRGBA_tl). Qed.
Print Assumptions C50_ColorRGBA.
Example C50_ColorRGBA_case : meets ColorRGBA_to ColorRGBA_ok (ex_color) = true.
Proof. vm_compute. reflexivity. Qed.
Theorem C50_Stroke : tidies Stroke_to Stroke_ok.
Proof. exact (TyL_tidies _ _ Stroke_tl). Qed.
Print Assumptions C50_Stroke.
Example C50_Stroke_case : meets Stroke_to Stroke_ok (ex_stroke) = true.
Proof. vm_compute. reflexivity. Qed.
Theorem C50_Font : tidies Font_to Font_ok.
Proof. exact (TyL_tidies _ _ Font_tl). Qed.
Print Assumptions C50_Font.
Example C50_Font_case : meets Font_to Font_ok (ex_font) = true.
Proof. vm_compute. reflexivity. Qed.
Theorem C50_Justify : tidies Justify_to Justify_fine.
Proof. exact (TyL_tidies _ _ Justify_tl). Qed.
Print Assumptions C50_Justify.
Example C50_Justify_case : meets Justify_to Justify_fine ex_justify = true.
Proof. vm_compute. reflexivity. Qed.
Theorem C50_Justify_refuted : ~ tidies Justify_to Justify_ok.
Proof. apply (broken _ _ Justify_default 2 false). vm_compute. reflexivity. Qed.
Print Assumptions C50_Justify_refuted.
Theorem C50_Effects : tidies Effects_to Effects_ok.
Proof. exact (TyL_tidies _ _ Effects_tl). Qed.
Print Assumptions C50_Effects.
Example C50_Effects_case : meets Effects_to Effects_ok (ex_effects) = true.
Proof. vm_compute. reflexivity. Qed.
Theorem C50_Net : tidies Net_to Net_ok.
Proof. exact (TyL_tidies _ _ Net_tl). Qed.
Print Assumptions C50_Net.
Example C50_Net_case : meets Net_to Net_ok (mkNet (VInt 17) (VStr $"Net-(U1-Pad3)")) = true.
Proof. vm_compute. reflexivity. Qed.
Theorem C50_Group : tidies Group_to Group_ok.
Proof. exact (TyL_tidies _ _ Group_tl). Qed.
Print Assumptions C50_Group.
Example C50_Group_case : meets Group_to Group_ok (mkGroup (VStr $"g ""1""") true (VStr $"6fe2b9d8-0001") [VStr $"0012"; VStr $"abc-1"]) = true.
Proof. vm_compute. reflexivity. Qed.
Theorem C50_PageSettings : tidies PageSettings_to PageSettings_ok.
Proof. exact (TyL_tidies _ _ PageSettings_tl). Qed.
Print Assumptions C50_PageSettings.
Example C50_PageSettings_case : meets PageSettings_to PageSettings_ok (mkPageSettings (VStr $"User") (fdec 2101 (-1)) (VInt 300) true) = true.
Proof. vm_compute. reflexivity. Qed.
Theorem C50_TitleBlock : tidies TitleBlock_to TitleBlock_ok.
Proof. exact (TyL_tidies _ _ TitleBlock_tl). Qed.
Print Assumptions C50_TitleBlock.
Example C50_TitleBlock_case : meets TitleBlock_to TitleBlock_ok (mkTitleBlock (VStr $"T") VNone (VStr $"1.0") (VStr []) [(VInt 1, VStr $"one"); (VInt 4, VStr $"four (4)")]) = true.
Proof. vm_compute. reflexivity. Qed.
Theorem C50_Property : tidies Property_to Property_ok.
Proof. exact (TyL_tidies _ _ Property_tl). Qed.
Print Assumptions C50_Property.
Example C50_Property_case : meets Property_to Property_ok (ex_property) = true.
Proof. vm_compute. reflexivity. Qed.
Theorem C50_RenderCachePolygon_refuted : ~ tidies RenderCachePolygon_to RenderCachePolygon_ok.
Proof. apply (broken _ _ (ex_poly) 2 true). vm_compute. reflexivity. Qed.
Print Assumptions C50_RenderCachePolygon_refuted.
Theorem C50_RenderCache_refuted : ~ tidies RenderCache_to RenderCache_ok.
Proof. apply (broken _ _ (mkRenderCache (VStr $"some text") (VStr $"0") [ex_poly; mkRenderCachePolygon []]) 2 true). vm_compute. reflexivity. Qed.
Print Assumptions C50_RenderCache_refuted.
Theorem C50_Fill : tidies Fill_to Fill_ok.
Proof. exact (TyL_tidies _ _ Fill_tl). Qed.
Print Assumptions C50_Fill.
Example C50_Fill_case : meets Fill_to Fill_ok (mkFill (VStr $"background") (Some ex_color)) = true.
Proof. vm_compute. reflexivity. Qed.
Theorem C50_Image : tidies Image_to Image_ok.
Proof. exact (TyL_tidies _ _ Image_tl). Qed.
Print Assumptions C50_Image.
Example C50_Image_case : meets Image_to Image_ok (mkImage (ex_xy (fdec 1234 (-2)) (VInt 5)) (fdec 5 (-1)) [VStr $"iVBORw0KGgo="; VStr $"12"] (VStr $"a-b-c") (VStr $"F.SilkS")) = true.
Proof. vm_compute. reflexivity. Qed.
Theorem C50_Library_refuted : ~ tidies Library_to Library_ok.
Proof. apply (broken _ _ (ex_lib false) 2 true). vm_compute. reflexivity. Qed.
Print Assumptions C50_Library_refuted.
Theorem C50_LibTable_refuted : ~ tidies LibTable_to LibTable_ok.
Proof. apply (broken _ _ (mkLibTable (VStr $"fp_lib_table") [ex_lib true; ex_lib false; Library_default] VNone) 2 true). vm_compute. reflexivity. Qed.
Print Assumptions C50_LibTable_refuted.
Theorem C50_Constraint : tidies Constraint_to Constraint_ok.
Proof. exact (TyL_tidies _ _ Constraint_tl). Qed.
Print Assumptions C50_Constraint.
Example C50_Constraint_case : meets Constraint_to Constraint_ok (ex_constraint) = true.
Proof. vm_compute. reflexivity. Qed.
Theorem C50_Rule : tidies_file_line Rule_to Rule_ok.
Proof. intros o n t O E. exact (Tid_tidy true t (Rule_t0 o n O t E)). Qed.
Print Assumptions C50_Rule.
Example C50_Rule_case : meets Rule_to Rule_ok (ex_rule) = true.
Proof. vm_compute. reflexivity. Qed.
(** asked for another layout, it does not comply *)
Theorem C50_Rule_refuted : ~ tidies Rule_to Rule_ok.
Proof. apply (broken _ _ (ex_rule) 2 false). vm_compute. reflexivity. Qed.
Print Assumptions C50_Rule_refuted.
Theorem C50_DesignRules : tidies_file_line DesignRules_to DesignRules_ok.
Proof. intros o n t O E. exact (Tid_tidy true t (DesignRules_t0 o n O t E)). Qed.
Print Assumptions C50_DesignRules.
Example C50_DesignRules_case : meets DesignRules_to DesignRules_ok (mkDesignRules (VInt 1) [ex_rule; ex_rule; Rule_default] VNone) = true.
Proof. vm_compute. reflexivity. Qed.
(** asked for another layout, it does not comply *)
Theorem C50_DesignRules_refuted : ~ tidies DesignRules_to DesignRules_ok.
Proof. apply (broken _ _ (mkDesignRules (VInt 1) [ex_rule; ex_rule; Rule_default] VNone) 2 false). vm_compute. reflexivity. Qed.
Print Assumptions C50_DesignRules_refuted.
Theorem C50_SyArc : tidies SyArc_to SyArc_ok.
Proof. exact (TyL_tidies _ _ SyArc_tl). Qed.
Print Assumptions C50_SyArc.
Example C50_SyArc_case : meets SyArc_to SyArc_ok (mkSyArc true (ex_at (VInt 1) (fdec 25 (-1)) (VInt 90)) (ex_xy (VInt 2) (VInt 3)) (ex_xy (VInt (-2)) (VInt 3)) ex_stroke ex_fill) = true.
Proof. vm_compute. reflexivity. Qed.
Theorem C50_SyCircle : tidies SyCircle_to SyCircle_ok.
Proof. exact (TyL_tidies _ _ SyCircle_tl). Qed.
Print Assumptions C50_SyCircle.
Example C50_SyCircle_case : meets SyCircle_to SyCircle_ok (mkSyCircle true (ex_xy (VInt 2) (VInt 3)) (fdec 25 (-1)) ex_stroke ex_fill) = true.
Proof. vm_compute. reflexivity. Qed.
Theorem C50_SyCurve_refuted : ~ tidies SyCurve_to SyCurve_ok.
Proof. apply (broken _ _ ex_curve 2 true). vm_compute. reflexivity. Qed.
Print Assumptions C50_SyCurve_refuted.
Theorem C50_SyPolyLine : tidies SyPolyLine_to SyPolyLine_ok.
Proof. exact (TyL_tidies _ _ SyPolyLine_tl). Qed.
Print Assumptions C50_SyPolyLine.
Example C50_SyPolyLine_case : meets SyPolyLine_to SyPolyLine_ok (mkSyPolyLine [ex_xy (VInt 2) (VInt 3); ex_xy (fdec 1 (-1)) (VInt 0); ex_xy (VInt 2) (VInt 3)] ex_stroke ex_fill) = true.
Proof. vm_compute. reflexivity. Qed.
Theorem C50_SyRect : tidies SyRect_to SyRect_ok.
Proof. exact (TyL_tidies _ _ SyRect_tl). Qed.
Print Assumptions C50_SyRect.
Example C50_SyRect_case : meets SyRect_to SyRect_ok (mkSyRect true (ex_xy (VInt 2) (VInt 3)) (ex_xy (VInt 2) (fdec (-3) (-1))) ex_stroke ex_fill) = true.
Proof. vm_compute. reflexivity. Qed.
Theorem C50_SyText : tidies SyText_to SyText_ok.
Proof. exact (TyL_tidies _ _ SyText_tl). Qed.
Print Assumptions C50_SyText.
Example C50_SyText_case : meets SyText_to SyText_ok (mkSyText (VStr $"a ""(b)"" \ c") (ex_at (VInt 2) (VInt 3) (VInt 900)) ex_effects) = true.
Proof. vm_compute. reflexivity. Qed.
Theorem C50_SyTextBox : tidies SyTextBox_to SyTextBox_ok.
Proof. exact (TyL_tidies _ _ SyTextBox_tl). Qed.
Print Assumptions C50_SyTextBox.
Example C50_SyTextBox_case : meets SyTextBox_to SyTextBox_ok (mkSyTextBox (VStr $"private") true (ex_at (VInt 2) (VInt 3) (VInt 90)) (ex_xy (VInt 2) (VInt 3)) ex_stroke ex_fill ex_effects (VStr $"a-1")) = true.
Proof. vm_compute. reflexivity. Qed.
Theorem C50_SymbolAlternativePin : tidies SymbolAlternativePin_to SymbolAlternativePin_ok.
Proof. exact (TyL_tidies _ _ SymbolAlternativePin_tl). Qed.
Print Assumptions C50_SymbolAlternativePin.
Example C50_SymbolAlternativePin_case : meets SymbolAlternativePin_to SymbolAlternativePin_ok (mkSymbolAlternativePin (VStr $"PA 0") (VStr $"bidirectional") (VStr $"inverted")) = true.
Proof. vm_compute. reflexivity. Qed.
Theorem C50_SymbolPin : tidies SymbolPin_to SymbolPin_ok.
Proof. exact (TyL_tidies _ _ SymbolPin_tl). Qed.
Print Assumptions C50_SymbolPin.
Example C50_SymbolPin_case : meets SymbolPin_to SymbolPin_ok (ex_pin) = true.
Proof. vm_compute. reflexivity. Qed.
Theorem C50_SyItem : tidies SyItem_to SyItem_ok.
Proof. exact (TyL_tidies _ _ SyItem_tl). Qed.
Print Assumptions C50_SyItem.
Example C50_SyItem_case : meets SyItem_to SyItem_ok (SyItem_SyCircle SyCircle_default) = true.
Proof. vm_compute. reflexivity. Qed.
Theorem C50_Symbol : tidies Symbol_to Symbol_ok.
Proof. exact (TyL_tidies _ _ Symbol_tl). Qed.
Print Assumptions C50_Symbol.
Example C50_Symbol_case : meets Symbol_to Symbol_ok (ex_symbol) = true.
Proof. vm_compute. reflexivity. Qed.
Theorem C50_SymbolLib : tidies_file SymbolLib_to SymbolLib_ok.
Proof. intros o n t O E. exact (Tid_tidy n t (SymbolLib_t0 o n O t E)). Qed.
Print Assumptions C50_SymbolLib.
Example C50_SymbolLib_case : meets SymbolLib_to SymbolLib_ok (mkSymbolLib (VInt 20211014) (VStr $"kicad_symbol_editor") [ex_symbol; ex_unit 3 []] VNone) = true.
Proof. vm_compute. reflexivity. Qed.
(** asked for another layout, it does not comply *)
Theorem C50_SymbolLib_refuted : ~ tidies SymbolLib_to SymbolLib_ok.
Proof. apply (broken _ _ (mkSymbolLib (VInt 20211014) (VStr $"kicad_symbol_editor") [ex_symbol; ex_unit 3 []] VNone) 2 false). vm_compute. reflexivity. Qed.
Print Assumptions C50_SymbolLib_refuted.
Theorem C50_FpText : tidies FpText_to FpText_fine.
Proof. exact (TyL_tidies _ _ FpText_tl). Qed.
Print Assumptions C50_FpText.
Example C50_FpText_case : meets FpText_to FpText_fine neat_fptext = true.
Proof. vm_compute. reflexivity. Qed.
Theorem C50_FpText_refuted : ~ tidies FpText_to FpText_ok.
Proof. apply (broken _ _ (mkFpText (VStr $"user") (VStr $"a ""(b)"" \ c") (mkPosition (VInt 1) (fdec 25 (-1)) (VInt 90) true) (VStr $"F.SilkS") true true ex_effects ex_stamp (Some ex_cache)) 2 true). vm_compute. reflexivity. Qed.
Print Assumptions C50_FpText_refuted.
Theorem C50_FpLine : tidies FpLine_to FpLine_ok.
Proof. exact (TyL_tidies _ _ FpLine_tl). Qed.
Print Assumptions C50_FpLine.
Example C50_FpLine_case : meets FpLine_to FpLine_ok (mkFpLine (ex_xy (VInt 2) (VInt 3)) (ex_xy (VInt 2) (fdec 1 (-3))) (VStr $"F.Fab") VNone (Some ex_stroke) false ex_stamp) = true.
Proof. vm_compute. reflexivity. Qed.
Theorem C50_FpRect : tidies FpRect_to FpRect_ok.
Proof. exact (TyL_tidies _ _ FpRect_tl). Qed.
Print Assumptions C50_FpRect.
Example C50_FpRect_case : meets FpRect_to FpRect_ok (mkFpRect (ex_xy (VInt 2) (VInt 3)) (ex_xy (VInt 2) (fdec 1 (-3))) (VStr $"F.Fab") (fdec 15 (-2)) None (VStr $"solid") true ex_stamp) = true.
Proof. vm_compute. reflexivity. Qed.
Theorem C50_FpCircle : tidies FpCircle_to FpCircle_ok.
Proof. exact (TyL_tidies _ _ FpCircle_tl). Qed.
Print Assumptions C50_FpCircle.
Example C50_FpCircle_case : meets FpCircle_to FpCircle_ok (mkFpCircle (ex_xy (VInt 2) (VInt 3)) (ex_xy (VInt 2) (fdec 1 (-3))) (VStr $"F.Fab") VNone (Some ex_stroke) (VStr $"solid") true ex_stamp) = true.
Proof. vm_compute. reflexivity. Qed.
Theorem C50_FpArc : tidies FpArc_to FpArc_ok.
Proof. exact (TyL_tidies _ _ FpArc_tl). Qed.
Print Assumptions C50_FpArc.
Example C50_FpArc_case : meets FpArc_to FpArc_ok (mkFpArc (ex_xy (VInt 2) (VInt 3)) (ex_xy (VInt 5) (VInt 3)) (ex_xy (VInt 2) (fdec 1 (-3))) (VStr $"F.Fab") VNone (Some ex_stroke) true ex_stamp) = true.
Proof. vm_compute. reflexivity. Qed.
Theorem C50_FpPoly : tidies FpPoly_to FpPoly_ok.
Proof. exact (TyL_tidies _ _ FpPoly_tl). Qed.
Print Assumptions C50_FpPoly.
Example C50_FpPoly_case : meets FpPoly_to FpPoly_ok (mkFpPoly (VStr $"F.Fab") ex_pts VNone (Some ex_stroke) (VStr $"solid") true ex_stamp) = true.
Proof. vm_compute. reflexivity. Qed.
Theorem C50_FpCurve_refuted : ~ tidies FpCurve_to FpCurve_ok.
Proof. apply (broken _ _ (mkFpCurve ex_pts (VStr $"F.Fab") (fdec 15 (-2)) None true ex_stamp) 2 true). vm_compute. reflexivity. Qed.
Print Assumptions C50_FpCurve_refuted.
Theorem C50_FpTextBox : tidies FpTextBox_to FpTextBox_fine.
Proof. exact (TyL_tidies _ _ FpTextBox_tl). Qed.
Print Assumptions C50_FpTextBox.
Example C50_FpTextBox_case : meets FpTextBox_to FpTextBox_fine (mkFpTextBox true (VStr $"locked") (Some (ex_xy (VInt 1) (VInt 2))) (Some (ex_xy (VInt 3) (fdec 4 (-1)))) [] (VInt 90) (VStr $"F.Fab") ex_stamp (Some ex_effects) (Some ex_stroke) None) = true.
Proof. vm_compute. reflexivity. Qed.
Theorem C50_FpTextBox_refuted : ~ tidies FpTextBox_to FpTextBox_ok.
Proof. apply (broken _ _ (mkFpTextBox true (VStr $"locked") None None ex_pts (fdec 455 (-1)) (VStr $"F.Fab") ex_stamp (Some ex_effects) (Some ex_stroke) (Some ex_cache)) 2 true). vm_compute. reflexivity. Qed.
Print Assumptions C50_FpTextBox_refuted.
Theorem C50_GrText : tidies GrText_to GrText_fine.
Proof. exact (TyL_tidies _ _ GrText_tl). Qed.
Print Assumptions C50_GrText.
Example C50_GrText_case : meets GrText_to GrText_fine neat_grtext = true.
Proof. vm_compute. reflexivity. Qed.
Theorem C50_GrText_refuted : ~ tidies GrText_to GrText_ok.
Proof. apply (broken _ _ (mkGrText (VStr $"a ""(b)"" \ c") true (mkPosition (VInt 1) (fdec 25 (-1)) (VInt 90) false) (VStr $"F.SilkS") ex_effects ex_stamp false (Some ex_cache)) 2 true). vm_compute. reflexivity. Qed.
Print Assumptions C50_GrText_refuted.
Theorem C50_GrLine : tidies GrLine_to GrLine_ok.
Proof. exact (TyL_tidies _ _ GrLine_tl). Qed.
Print Assumptions C50_GrLine.
Example C50_GrLine_case : meets GrLine_to GrLine_ok (mkGrLine (ex_xy (VInt 2) (VInt 3)) (ex_xy (VInt 2) (fdec 1 (-3))) VNone (VStr $"F.Fab") (VInt 1) ex_stamp true) = true.
Proof. vm_compute. reflexivity. Qed.
Theorem C50_GrRect : tidies GrRect_to GrRect_ok.
Proof. exact (TyL_tidies _ _ GrRect_tl). Qed.
Print Assumptions C50_GrRect.
Example C50_GrRect_case : meets GrRect_to GrRect_ok (mkGrRect (ex_xy (VInt 2) (VInt 3)) (ex_xy (VInt 2) (fdec 1 (-3))) (VStr $"F.Fab") (fdec 15 (-2)) (VStr $"solid") ex_stamp true) = true.
Proof. vm_compute. reflexivity. Qed.
Theorem C50_GrCircle : tidies GrCircle_to GrCircle_ok.
Proof. exact (TyL_tidies _ _ GrCircle_tl). Qed.
Print Assumptions C50_GrCircle.
Example C50_GrCircle_case : meets GrCircle_to GrCircle_ok (mkGrCircle (ex_xy (VInt 2) (VInt 3)) (ex_xy (VInt 2) (fdec 1 (-3))) (VStr $"F.Fab") (fdec 15 (-2)) (VStr $"solid") ex_stamp true) = true.
Proof. vm_compute. reflexivity. Qed.
Theorem C50_GrArc : tidies GrArc_to GrArc_ok.
Proof. exact (TyL_tidies _ _ GrArc_tl). Qed.
Print Assumptions C50_GrArc.
Example C50_GrArc_case : meets GrArc_to GrArc_ok (mkGrArc (ex_xy (VInt 2) (VInt 3)) (ex_xy (VInt 5) (VInt 3)) (ex_xy (VInt 2) (fdec 1 (-3))) (VStr $"F.Fab") (fdec 15 (-2)) ex_stamp true) = true.
Proof. vm_compute. reflexivity. Qed.
Theorem C50_GrPoly : tidies GrPoly_to GrPoly_ok.
Proof. exact (TyL_tidies _ _ GrPoly_tl). Qed.
Print Assumptions C50_GrPoly.
Example C50_GrPoly_case : meets GrPoly_to GrPoly_ok (mkGrPoly (VStr $"F.Fab") ex_pts (fdec 15 (-2)) (VStr $"solid") ex_stamp true) = true.
Proof. vm_compute. reflexivity. Qed.
Theorem C50_GrCurve_refuted : ~ tidies GrCurve_to GrCurve_ok.
Proof. apply (broken _ _ (mkGrCurve ex_pts VNone (fdec 15 (-2)) ex_stamp true) 2 true). vm_compute. reflexivity. Qed.
Print Assumptions C50_GrCurve_refuted.
Theorem C50_GrTextBox : tidies GrTextBox_to GrTextBox_fine.
Proof. exact (TyL_tidies _ _ GrTextBox_tl). Qed.
Print Assumptions C50_GrTextBox.
Example C50_GrTextBox_case : meets GrTextBox_to GrTextBox_fine (mkGrTextBox true (VStr $"locked") (Some (ex_xy (VInt 1) (VInt 2))) (Some (ex_xy (VInt 3) (fdec 4 (-1)))) [] (VInt 90) (VStr $"F.Fab") ex_stamp (Some ex_effects) (Some ex_stroke) None) = true.
Proof. vm_compute. reflexivity. Qed.
Theorem C50_GrTextBox_refuted : ~ tidies GrTextBox_to GrTextBox_ok.
Proof. apply (broken _ _ (mkGrTextBox true (VStr $"locked") None None ex_pts (fdec 455 (-1)) (VStr $"F.Fab") ex_stamp (Some ex_effects) (Some ex_stroke) (Some ex_cache)) 2 true). vm_compute. reflexivity. Qed.
Print Assumptions C50_GrTextBox_refuted.
Theorem C50_KeepoutSettings_refuted : ~ tidies KeepoutSettings_to KeepoutSettings_ok.
Proof. apply (broken _ _ (ex_keepout) 2 true). vm_compute. reflexivity. Qed.
Print Assumptions C50_KeepoutSettings_refuted.
Theorem C50_FillSettings : tidies FillSettings_to FillSettings_ok.
Proof. exact (TyL_tidies _ _ FillSettings_tl). Qed.
Print Assumptions C50_FillSettings.
Example C50_FillSettings_case : meets FillSettings_to FillSettings_ok (ex_zfill) = true.
Proof. vm_compute. reflexivity. Qed.
Theorem C50_ZonePolygon : tidies_line ZonePolygon_to ZonePolygon_ok.
Proof. exact (TyN_tidies _ _ ZonePolygon_tn). Qed.
Print Assumptions C50_ZonePolygon.
Example C50_ZonePolygon_case : meets ZonePolygon_to ZonePolygon_ok (mkZonePolygon ex_pts) = true.
Proof. vm_compute. reflexivity. Qed.
(** asked for another layout, it does not comply *)
Theorem C50_ZonePolygon_refuted : ~ tidies ZonePolygon_to ZonePolygon_ok.
Proof. apply (broken _ _ (mkZonePolygon ex_pts) 2 false). vm_compute. reflexivity. Qed.
Print Assumptions C50_ZonePolygon_refuted.
Theorem C50_FilledPolygon : tidies_line FilledPolygon_to FilledPolygon_ok.
Proof. exact (TyN_tidies _ _ FilledPolygon_tn). Qed.
Print Assumptions C50_FilledPolygon.
Example C50_FilledPolygon_case : meets FilledPolygon_to FilledPolygon_ok (mkFilledPolygon (VStr $"In1.Cu") true ex_pts) = true.
Proof. vm_compute. reflexivity. Qed.
(** asked for another layout, it does not comply *)
Theorem C50_FilledPolygon_refuted : ~ tidies FilledPolygon_to FilledPolygon_ok.
Proof. apply (broken _ _ (mkFilledPolygon (VStr $"In1.Cu") true ex_pts) 2 false). vm_compute. reflexivity. Qed.
Print Assumptions C50_FilledPolygon_refuted.
Theorem C50_FillSegments : tidies_line FillSegments_to FillSegments_ok.
Proof. exact (TyN_tidies _ _ FillSegments_tn). Qed.
Print Assumptions C50_FillSegments.
Example C50_FillSegments_case : meets FillSegments_to FillSegments_ok (mkFillSegments (VStr $"In1.Cu") ex_pts) = true.
Proof. vm_compute. reflexivity. Qed.
(** asked for another layout, it does not comply *)
Theorem C50_FillSegments_refuted : ~ tidies FillSegments_to FillSegments_ok.
Proof. apply (broken _ _ (mkFillSegments (VStr $"In1.Cu") ex_pts) 2 false). vm_compute. reflexivity. Qed.
Print Assumptions C50_FillSegments_refuted.
Theorem C50_Zone : tidies Zone_to Zone_fine.
Proof. exact (TyL_tidies _ _ Zone_tl). Qed.
Print Assumptions C50_Zone.
Example C50_Zone_case : meets Zone_to Zone_fine neat_zone = true.
Proof. vm_compute. reflexivity. Qed.
Theorem C50_Zone_refuted : ~ tidies Zone_to Zone_ok.
Proof. apply (broken _ _ (ex_zone) 2 true). vm_compute. reflexivity. Qed.
Print Assumptions C50_Zone_refuted.
Theorem C50_Attributes : tidies Attributes_to Attributes_fine.
Proof. exact (TyL_tidies _ _ Attributes_tl). Qed.
Print Assumptions C50_Attributes.
Example C50_Attributes_case : meets Attributes_to Attributes_fine (mkAttributes (VStr $"smd") false true true false) = true.
Proof. vm_compute. reflexivity. Qed.
Theorem C50_Attributes_refuted : ~ tidies Attributes_to Attributes_ok.
Proof. apply (broken _ _ Attributes_default 2 false). vm_compute. reflexivity. Qed.
Print Assumptions C50_Attributes_refuted.
Theorem C50_Model : tidies Model_to Model_ok.
Proof. exact (TyL_tidies _ _ Model_tl). Qed.
Print Assumptions C50_Model.
Example C50_Model_case : meets Model_to Model_ok (ex_model) = true.
Proof. vm_compute. reflexivity. Qed.
Theorem C50_DrillDefinition : tidies DrillDefinition_to DrillDefinition_ok.
Proof. exact (TyL_tidies _ _ DrillDefinition_tl). Qed.
Print Assumptions C50_DrillDefinition.
Example C50_DrillDefinition_case : meets DrillDefinition_to DrillDefinition_ok (ex_drill) = true.
Proof. vm_compute. reflexivity. Qed.
Theorem C50_PadOptions : tidies PadOptions_to PadOptions_ok.
Proof. exact (TyL_tidies _ _ PadOptions_tl). Qed.
Print Assumptions C50_PadOptions.
Example C50_PadOptions_case : meets PadOptions_to PadOptions_ok (ex_padoptions) = true.
Proof. vm_compute. reflexivity. Qed.
Theorem C50_PadPrimitive : tidies PadPrimitive_to PadPrimitive_fine.
Proof. exact (TyL_tidies _ _ PadPrimitive_tl). Qed.
Print Assumptions C50_PadPrimitive.
Example C50_PadPrimitive_case : meets PadPrimitive_to PadPrimitive_fine (PadPrimitive_GrText neat_grtext) = true.
Proof. vm_compute. reflexivity. Qed.
Theorem C50_Pad : tidies Pad_to Pad_fine.
Proof. exact (TyL_tidies _ _ Pad_tl). Qed.
Print Assumptions C50_Pad.
Example C50_Pad_case : meets Pad_to Pad_fine neat_pad = true.
Proof. vm_compute. reflexivity. Qed.
Theorem C50_Pad_refuted : ~ tidies Pad_to Pad_ok.
Proof. apply (broken _ _ (ex_pad) 2 true). vm_compute. reflexivity. Qed.
Print Assumptions C50_Pad_refuted.
Theorem C50_FpItem : tidies FpItem_to FpItem_fine.
Proof. exact (TyL_tidies _ _ FpItem_tl). Qed.
Print Assumptions C50_FpItem.
Example C50_FpItem_case : meets FpItem_to FpItem_fine (FpItem_FpText neat_fptext) = true.
Proof. vm_compute. reflexivity. Qed.
Theorem C50_Footprint : tidies Footprint_to Footprint_fine.
Proof. exact (TyL_tidies _ _ Footprint_tl). Qed.
Print Assumptions C50_Footprint.
Example C50_Footprint_case : meets Footprint_to Footprint_fine neat_footprint = true.
Proof. vm_compute. reflexivity. Qed.
Theorem C50_Footprint_refuted : ~ tidies Footprint_to Footprint_ok.
Proof. apply (broken _ _ (ex_footprint) 2 true). vm_compute. reflexivity. Qed.
Print Assumptions C50_Footprint_refuted.
Theorem C50_DimensionFormat : tidies DimensionFormat_to DimensionFormat_ok.
Proof. exact (TyL_tidies _ _ DimensionFormat_tl). Qed.
Print Assumptions C50_DimensionFormat.
Example C50_DimensionFormat_case : meets DimensionFormat_to DimensionFormat_ok (ex_dformat) = true.
Proof. vm_compute. reflexivity. Qed.
Theorem C50_DimensionStyle : tidies DimensionStyle_to DimensionStyle_ok.
Proof. exact (TyL_tidies _ _ DimensionStyle_tl). Qed.
Print Assumptions C50_DimensionStyle.
Example C50_DimensionStyle_case : meets DimensionStyle_to DimensionStyle_ok (ex_dstyle) = true.
Proof. vm_compute. reflexivity. Qed.
Theorem C50_Dimension : tidies Dimension_to Dimension_fine.
Proof. exact (TyL_tidies _ _ Dimension_tl). Qed.
Print Assumptions C50_Dimension.
Example C50_Dimension_case : meets Dimension_to Dimension_fine neat_dimension = true.
Proof. vm_compute. reflexivity. Qed.
Theorem C50_Dimension_refuted : ~ tidies Dimension_to Dimension_ok.
Proof. apply (broken _ _ (ex_dimension) 2 true). vm_compute. reflexivity. Qed.
Print Assumptions C50_Dimension_refuted.
Theorem C50_GeneralSettings : tidies GeneralSettings_to GeneralSettings_ok.
Proof. exact (TyL_tidies _ _ GeneralSettings_tl). Qed.
Print Assumptions C50_GeneralSettings.
Example C50_GeneralSettings_case : meets GeneralSettings_to GeneralSettings_ok (GeneralSettings_default) = true.
Proof. vm_compute. reflexivity. Qed.
Theorem C50_LayerToken : tidies LayerToken_to LayerToken_ok.
Proof. exact (TyL_tidies _ _ LayerToken_tl). Qed.
Print Assumptions C50_LayerToken.
Example C50_LayerToken_case : meets LayerToken_to LayerToken_ok (mkLayerToken (VInt 37) (VStr $"F.Silk""S") (VStr $"user") (VStr $"F.Silkscreen (top)")) = true.
Proof. vm_compute. reflexivity. Qed.
Theorem C50_StackupSubLayer : tidies StackupSubLayer_to StackupSubLayer_ok.
Proof. exact (TyL_tidies _ _ StackupSubLayer_tl). Qed.
Print Assumptions C50_StackupSubLayer.
Example C50_StackupSubLayer_case : meets StackupSubLayer_to StackupSubLayer_ok (hd StackupSubLayer_default (sl_subLayers ex_slayer)) = true.
Proof. vm_compute. reflexivity. Qed.
Theorem C50_StackupLayer : tidies StackupLayer_to StackupLayer_ok.
Proof. exact (TyL_tidies _ _ StackupLayer_tl). Qed.
Print Assumptions C50_StackupLayer.
Example C50_StackupLayer_case : meets StackupLayer_to StackupLayer_ok (ex_slayer) = true.
Proof. vm_compute. reflexivity. Qed.
Theorem C50_Stackup : tidies Stackup_to Stackup_ok.
Proof. exact (TyL_tidies _ _ Stackup_tl). Qed.
Print Assumptions C50_Stackup.
Example C50_Stackup_case : meets Stackup_to Stackup_ok (ex_stackup) = true.
Proof. vm_compute. reflexivity. Qed.
Theorem C50_PlotSettings : tidies PlotSettings_to PlotSettings_ok.
Proof. exact (TyL_tidies _ _ PlotSettings_tl). Qed.
Print Assumptions C50_PlotSettings.
Example C50_PlotSettings_case : meets PlotSettings_to PlotSettings_ok (ex_plot) = true.
Proof. vm_compute. reflexivity. Qed.
Theorem C50_SetupData : tidies SetupData_to SetupData_ok.
Proof. exact (TyL_tidies _ _ SetupData_tl). Qed.
Print Assumptions C50_SetupData.
Example C50_SetupData_case : meets SetupData_to SetupData_ok (ex_setup) = true.
Proof. vm_compute. reflexivity. Qed.
Theorem C50_Segment : tidies Segment_to Segment_ok.
Proof. exact (TyL_tidies _ _ Segment_tl). Qed.
Print Assumptions C50_Segment.
Example C50_Segment_case : meets Segment_to Segment_ok (ex_segment) = true.
Proof. vm_compute. reflexivity. Qed.
Theorem C50_Via : tidies Via_to Via_ok.
Proof. exact (TyL_tidies _ _ Via_tl). Qed.
Print Assumptions C50_Via.
Example C50_Via_case : meets Via_to Via_ok (ex_via) = true.
Proof. vm_compute. reflexivity. Qed.
Theorem C50_Arc : tidies Arc_to Arc_ok.
Proof. exact (TyL_tidies _ _ Arc_tl). Qed.
Print Assumptions C50_Arc.
Example C50_Arc_case : meets Arc_to Arc_ok (ex_arc) = true.
Proof. vm_compute. reflexivity. Qed.
Theorem C50_Target : tidies Target_to Target_ok.
Proof. exact (TyL_tidies _ _ Target_tl). Qed.
Print Assumptions C50_Target.
Example C50_Target_case : meets Target_to Target_ok (ex_target) = true.
Proof. vm_compute. reflexivity. Qed.
Theorem C50_BdItem : tidies BdItem_to BdItem_fine.
Proof. exact (TyL_tidies _ _ BdItem_tl). Qed.
Print Assumptions C50_BdItem.
Example C50_BdItem_case : meets BdItem_to BdItem_fine (BdItem_GrText neat_grtext) = true.
Proof. vm_compute. reflexivity. Qed.
Theorem C50_TrItem : tidies TrItem_to TrItem_ok.
Proof. exact (TyL_tidies _ _ TrItem_tl). Qed.
Print Assumptions C50_TrItem.
Example C50_TrItem_case : meets TrItem_to TrItem_ok (TrItem_Via ex_via) = true.
Proof. vm_compute. reflexivity. Qed.
Theorem C50_Board : tidies_file Board_to Board_fine.
Proof. intros o n t O E. exact (Tid_tidy n t (Board_t0 o n O t E)). Qed.
Print Assumptions C50_Board.
Example C50_Board_case : meets Board_to Board_fine neat_board = true.
Proof. vm_compute. reflexivity. Qed.
Theorem C50_Board_refuted : ~ tidies Board_to Board_ok.
Proof. apply (broken _ _ (ex_board) 0 true). vm_compute. reflexivity. Qed.
Print Assumptions C50_Board_refuted.
Theorem C50_Junction : tidies Junction_to Junction_fine.
Proof. exact (TyL_tidies _ _ Junction_tl). Qed.
Print Assumptions C50_Junction.
Example C50_Junction_case : meets Junction_to Junction_fine (mkJunction ex_pos2 (VInt 0) (JColor_obj ex_color) ex_stamp) = true.
Proof. vm_compute. reflexivity. Qed.
Theorem C50_Junction_refuted : ~ tidies Junction_to Junction_ok.
Proof. apply (broken _ _ Junction_default 2 true). vm_compute. reflexivity. Qed.
Print Assumptions C50_Junction_refuted.
Theorem C50_NoConnect : tidies NoConnect_to NoConnect_ok.
Proof. exact (TyL_tidies _ _ NoConnect_tl). Qed.
Print Assumptions C50_NoConnect.
Example C50_NoConnect_case : meets NoConnect_to NoConnect_ok (mkNoConnect ex_pos2 ex_stamp) = true.
Proof. vm_compute. reflexivity. Qed.
Theorem C50_BusEntry : tidies BusEntry_to BusEntry_ok.
Proof. exact (TyL_tidies _ _ BusEntry_tl). Qed.
Print Assumptions C50_BusEntry.
Example C50_BusEntry_case : meets BusEntry_to BusEntry_ok (mkBusEntry ex_pos2 ex_stamp (ex_xy (fdec 254 (-2)) (VInt 3)) ex_stroke) = true.
Proof. vm_compute. reflexivity. Qed.
Theorem C50_BusAlias : tidies BusAlias_to BusAlias_fine.
Proof. exact (TyL_tidies _ _ BusAlias_tl). Qed.
Print Assumptions C50_BusAlias.
Example C50_BusAlias_case : meets BusAlias_to BusAlias_fine (mkBusAlias (VStr $"a ""b""") [VStr $"A[0..7]"; VStr []; VStr $"x (y)"]) = true.
Proof. vm_compute. reflexivity. Qed.
Theorem C50_BusAlias_refuted : ~ tidies BusAlias_to BusAlias_ok.
Proof. apply (broken _ _ (mkBusAlias (VStr $"a") []) 2 true). vm_compute. reflexivity. Qed.
Print Assumptions C50_BusAlias_refuted.
Theorem C50_Connection : tidies Connection_to Connection_ok.
Proof. exact (TyL_tidies _ _ Connection_tl). Qed.
Print Assumptions C50_Connection.
Example C50_Connection_case : meets Connection_to Connection_ok (mkConnection (VStr $"bus") [ex_pos2; ex_xy (VInt 1) (fdec 5 (-1))] ex_stroke ex_stamp) = true.
Proof. vm_compute. reflexivity. Qed.
Theorem C50_PolyLine : tidies PolyLine_to PolyLine_ok.
Proof. exact (TyL_tidies _ _ PolyLine_tl). Qed.
Print Assumptions C50_PolyLine.
Example C50_PolyLine_case : meets PolyLine_to PolyLine_ok (mkPolyLine [ex_pos2; ex_xy (VInt 1) (fdec 5 (-1))] ex_stroke ex_stamp) = true.
Proof. vm_compute. reflexivity. Qed.
Theorem C50_Text : tidies Text_to Text_ok.
Proof. exact (TyL_tidies _ _ Text_tl). Qed.
Print Assumptions C50_Text.
Example C50_Text_case : meets Text_to Text_ok (mkText (VStr $"0123456789 0123456789 0123456789 (""0123456789"") 0123456") ex_pos3 ex_effects ex_stamp) = true.
Proof. vm_compute. reflexivity. Qed.
Theorem C50_TextBox : tidies TextBox_to TextBox_ok.
Proof. exact (TyL_tidies _ _ TextBox_tl). Qed.
Print Assumptions C50_TextBox.
Example C50_TextBox_case : meets TextBox_to TextBox_ok (mkTextBox (VStr $"a ""b""") ex_pos3 (ex_xy (VInt 3) (fdec 1 (-3))) ex_stroke ex_fill ex_effects ex_stamp) = true.
Proof. vm_compute. reflexivity. Qed.
Theorem C50_LocalLabel : tidies LocalLabel_to LocalLabel_ok.
Proof. exact (TyL_tidies _ _ LocalLabel_tl). Qed.
Print Assumptions C50_LocalLabel.
Example C50_LocalLabel_case : meets LocalLabel_to LocalLabel_ok (mkLocalLabel (VStr $"a ""b""") ex_pos3 ex_effects ex_stamp true) = true.
Proof. vm_compute. reflexivity. Qed.
Theorem C50_GlobalLabel : tidies GlobalLabel_to GlobalLabel_ok.
Proof. exact (TyL_tidies _ _ GlobalLabel_tl). Qed.
Print Assumptions C50_GlobalLabel.
Example C50_GlobalLabel_case : meets GlobalLabel_to GlobalLabel_ok (mkGlobalLabel (VStr $"a ""b""") (VStr $"bidirectional") true ex_pos3 ex_effects ex_stamp [ex_property; ex_property]) = true.
Proof. vm_compute. reflexivity. Qed.
Theorem C50_HierarchicalLabel : tidies HierarchicalLabel_to HierarchicalLabel_ok.
Proof. exact (TyL_tidies _ _ HierarchicalLabel_tl). Qed.
Print Assumptions C50_HierarchicalLabel.
Example C50_HierarchicalLabel_case : meets HierarchicalLabel_to HierarchicalLabel_ok (mkHierarchicalLabel (VStr $"a ""b""") (VStr $"output") ex_pos3 ex_effects ex_stamp true) = true.
Proof. vm_compute. reflexivity. Qed.
Theorem C50_SymbolProjectPath : tidies SymbolProjectPath_to SymbolProjectPath_ok.
Proof. exact (TyL_tidies _ _ SymbolProjectPath_tl). Qed.
Print Assumptions C50_SymbolProjectPath.
Example C50_SymbolProjectPath_case : meets SymbolProjectPath_to SymbolProjectPath_ok (ex_spath 3) = true.
Proof. vm_compute. reflexivity. Qed.
Theorem C50_SymbolProjectInstance : tidies SymbolProjectInstance_to SymbolProjectInstance_ok.
Proof. exact (TyL_tidies _ _ SymbolProjectInstance_tl). Qed.
Print Assumptions C50_SymbolProjectInstance.
Example C50_SymbolProjectInstance_case : meets SymbolProjectInstance_to SymbolProjectInstance_ok (ex_sproject) = true.
Proof. vm_compute. reflexivity. Qed.
Theorem C50_SchematicSymbol : tidies SchematicSymbol_to SchematicSymbol_ok.
Proof. exact (TyL_tidies _ _ SchematicSymbol_tl). Qed.
Print Assumptions C50_SchematicSymbol.
Example C50_SchematicSymbol_case : meets SchematicSymbol_to SchematicSymbol_ok (ex_ssymbol) = true.
Proof. vm_compute. reflexivity. Qed.
Theorem C50_HierarchicalPin : tidies HierarchicalPin_to HierarchicalPin_ok.
Proof. exact (TyL_tidies _ _ HierarchicalPin_tl). Qed.
Print Assumptions C50_HierarchicalPin.
Example C50_HierarchicalPin_case : meets HierarchicalPin_to HierarchicalPin_ok (mkHierarchicalPin (VStr $"a ""b""") (VStr $"tri_state") ex_pos3 ex_effects ex_stamp) = true.
Proof. vm_compute. reflexivity. Qed.
Theorem C50_HierarchicalSheetProjectPath : tidies HierarchicalSheetProjectPath_to HierarchicalSheetProjectPath_ok.
Proof. exact (TyL_tidies _ _ HierarchicalSheetProjectPath_tl). Qed.
Print Assumptions C50_HierarchicalSheetProjectPath.
Example C50_HierarchicalSheetProjectPath_case : meets HierarchicalSheetProjectPath_to HierarchicalSheetProjectPath_ok (ex_hpath) = true.
Proof. vm_compute. reflexivity. Qed.
Theorem C50_HierarchicalSheetProjectInstance : tidies HierarchicalSheetProjectInstance_to HierarchicalSheetProjectInstance_ok.
Proof. exact (TyL_tidies _ _ HierarchicalSheetProjectInstance_tl). Qed.
Print Assumptions C50_HierarchicalSheetProjectInstance.
Example C50_HierarchicalSheetProjectInstance_case : meets HierarchicalSheetProjectInstance_to HierarchicalSheetProjectInstance_ok (ex_hproject) = true.
Proof. vm_compute. reflexivity. Qed.
Theorem C50_HierarchicalSheet : tidies HierarchicalSheet_to HierarchicalSheet_ok.
Proof. exact (TyL_tidies _ _ HierarchicalSheet_tl). Qed.
Print Assumptions C50_HierarchicalSheet.
Example C50_HierarchicalSheet_case : meets HierarchicalSheet_to HierarchicalSheet_ok (ex_sheet) = true.
Proof. vm_compute. reflexivity. Qed.
Theorem C50_HierarchicalSheetInstance : tidies HierarchicalSheetInstance_to HierarchicalSheetInstance_ok.
Proof. exact (TyL_tidies _ _ HierarchicalSheetInstance_tl). Qed.
Print Assumptions C50_HierarchicalSheetInstance.
Example C50_HierarchicalSheetInstance_case : meets HierarchicalSheetInstance_to HierarchicalSheetInstance_ok (mkHierarchicalSheetInstance (VStr $"/a b/c") (VStr $"2 ""a""")) = true.
Proof. vm_compute. reflexivity. Qed.
Theorem C50_SymbolInstance : tidies SymbolInstance_to SymbolInstance_ok.
Proof. exact (TyL_tidies _ _ SymbolInstance_tl). Qed.
Print Assumptions C50_SymbolInstance.
Example C50_SymbolInstance_case : meets SymbolInstance_to SymbolInstance_ok (mkSymbolInstance (VStr $"/a b/c") (VStr $"U1") (VInt 2) (VStr $"1 ""k""") (VStr $"Lib:F (x)")) = true.
Proof. vm_compute. reflexivity. Qed.
Theorem C50_Rectangle : tidies Rectangle_to Rectangle_ok.
Proof. exact (TyL_tidies _ _ Rectangle_tl). Qed.
Print Assumptions C50_Rectangle.
Example C50_Rectangle_case : meets Rectangle_to Rectangle_ok (mkRectangle ex_pos2 (ex_xy (VInt 3) (fdec 1 (-3))) ex_stroke ex_fill ex_stamp) = true.
Proof. vm_compute. reflexivity. Qed.
Theorem C50_SchArc : tidies SchArc_to SchArc_ok.
Proof. exact (TyL_tidies _ _ SchArc_tl). Qed.
Print Assumptions C50_SchArc.
Example C50_SchArc_case : meets SchArc_to SchArc_ok (mkSchArc ex_pos2 (ex_xy (VInt 3) (fdec 1 (-3))) (ex_xy (VInt 4) (fdec 12 (-1))) ex_stroke ex_fill ex_stamp) = true.
Proof. vm_compute. reflexivity. Qed.
Theorem C50_Circle : tidies Circle_to Circle_ok.
Proof. exact (TyL_tidies _ _ Circle_tl). Qed.
Print Assumptions C50_Circle.
Example C50_Circle_case : meets Circle_to Circle_ok (mkCircle ex_pos2 (fdec 15 (-1)) ex_stroke ex_fill ex_stamp) = true.
Proof. vm_compute. reflexivity. Qed.
Theorem C50_NetclassFlag : tidies NetclassFlag_to NetclassFlag_ok.
Proof. exact (TyL_tidies _ _ NetclassFlag_tl). Qed.
Print Assumptions C50_NetclassFlag.
Example C50_NetclassFlag_case : meets NetclassFlag_to NetclassFlag_ok (mkNetclassFlag (VStr $"a ""b""") (fdec 254 (-2)) (VStr $"dot") (Some ex_pos3) (Some ex_effects) [ex_property; ex_property] ex_stamp true) = true.
Proof. vm_compute. reflexivity. Qed.
Theorem C50_ScLine : tidies ScLine_to ScLine_ok.
Proof. exact (TyL_tidies _ _ ScLine_tl). Qed.
Print Assumptions C50_ScLine.
Example C50_ScLine_case : meets ScLine_to ScLine_ok (ScLine_PolyLine (mkPolyLine [ex_pos2; ex_xy (VInt 1) (fdec 5 (-1))] ex_stroke ex_stamp)) = true.
Proof. vm_compute. reflexivity. Qed.
Theorem C50_ScShape : tidies ScShape_to ScShape_ok.
Proof. exact (TyL_tidies _ _ ScShape_tl). Qed.
Print Assumptions C50_ScShape.
Example C50_ScShape_case : meets ScShape_to ScShape_ok (ScShape_Circle (mkCircle ex_pos2 (fdec 15 (-1)) ex_stroke ex_fill ex_stamp)) = true.
Proof. vm_compute. reflexivity. Qed.
Theorem C50_Schematic : tidies_file Schematic_to Schematic_fine.
Proof. intros o n t O E. exact (Tid_tidy n t (Schematic_t0 o n O t E)). Qed.
Print Assumptions C50_Schematic.
Example C50_Schematic_case : meets Schematic_to Schematic_fine neat_schematic = true.
Proof. vm_compute. reflexivity. Qed.
Theorem C50_Schematic_refuted : ~ tidies Schematic_to Schematic_ok.
Proof. apply (broken _ _ (ex_schematic) 0 true). vm_compute. reflexivity. Qed.
Print Assumptions C50_Schematic_refuted.
Theorem C50_WksFontSize : tidies WksFontSize_to WksFontSize_ok.
Proof. exact (TyL_tidies _ _ WksFontSize_tl). Qed.
Print Assumptions C50_WksFontSize.
Example C50_WksFontSize_case : meets WksFontSize_to WksFontSize_ok (ex_wsize) = true.
Proof. vm_compute. reflexivity. Qed.
Theorem C50_WksFont : tidies WksFont_to WksFont_fine.
Proof. exact (TyL_tidies _ _ WksFont_tl). Qed.
Print Assumptions C50_WksFont.
Example C50_WksFont_case : meets WksFont_to WksFont_fine ex_wfont = true.
Proof. vm_compute. reflexivity. Qed.
Theorem C50_WksFont_refuted : ~ tidies WksFont_to WksFont_ok.
Proof. apply (broken _ _ WksFont_default 2 false). vm_compute. reflexivity. Qed.
Print Assumptions C50_WksFont_refuted.
Theorem C50_Line : tidies Line_to Line_fine.
Proof. exact (TyL_tidies _ _ Line_tl). Qed.
Print Assumptions C50_Line.
Example C50_Line_case : meets Line_to Line_fine ((mkLine (VStr $"a ""b""") ex_wpos (ex_wpos <| wp_corner := VNone |>) (VStr $"page1only") (fdec 15 (-2)) (VInt 3) (VInt 5) (fdec 5 (-1)) (VStr $"c (d)")) <| wl_comment := VNone |>) = true.
Proof. vm_compute. reflexivity. Qed.
Theorem C50_Line_refuted : ~ tidies Line_to Line_ok.
Proof. apply (broken _ _ (mkLine (VStr $"a ""b""") ex_wpos (ex_wpos <| wp_corner := VNone |>) (VStr $"page1only") (fdec 15 (-2)) (VInt 3) (VInt 5) (fdec 5 (-1)) (VStr $"c (d)")) 2 true). vm_compute. reflexivity. Qed.
Print Assumptions C50_Line_refuted.
Theorem C50_Rect : tidies Rect_to Rect_fine.
Proof. exact (TyL_tidies _ _ Rect_tl). Qed.
Print Assumptions C50_Rect.
Example C50_Rect_case : meets Rect_to Rect_fine ((mkRect (VStr $"a ""b""") ex_wpos (ex_wpos <| wp_corner := VNone |>) (VStr $"page1only") (fdec 15 (-2)) (VInt 3) (VInt 5) (fdec 5 (-1)) (VStr $"c (d)")) <| wr_comment := VNone |>) = true.
Proof. vm_compute. reflexivity. Qed.
Theorem C50_Rect_refuted : ~ tidies Rect_to Rect_ok.
Proof. apply (broken _ _ (mkRect (VStr $"a ""b""") ex_wpos (ex_wpos <| wp_corner := VNone |>) (VStr $"page1only") (fdec 15 (-2)) (VInt 3) (VInt 5) (fdec 5 (-1)) (VStr $"c (d)")) 2 true). vm_compute. reflexivity. Qed.
Print Assumptions C50_Rect_refuted.
Theorem C50_Bitmap_refuted : ~ tidies Bitmap_to Bitmap_ok.
Proof. apply (broken _ _ (ex_bitmap) 2 true). vm_compute. reflexivity. Qed.
Print Assumptions C50_Bitmap_refuted.
Theorem C50_TbText : tidies TbText_to TbText_fine.
Proof. exact (TyL_tidies _ _ TbText_tl). Qed.
Print Assumptions C50_TbText.
Example C50_TbText_case : meets TbText_to TbText_fine (ex_tbtext <| tt_comment := VNone |>) = true.
Proof. vm_compute. reflexivity. Qed.
Theorem C50_TbText_refuted : ~ tidies TbText_to TbText_ok.
Proof. apply (broken _ _ (ex_tbtext) 2 true). vm_compute. reflexivity. Qed.
Print Assumptions C50_TbText_refuted.
Theorem C50_TextSize : tidies TextSize_to TextSize_ok.
Proof. exact (TyL_tidies _ _ TextSize_tl). Qed.
Print Assumptions C50_TextSize.
Example C50_TextSize_case : meets TextSize_to TextSize_ok (mkTextSize (fdec 15 (-1)) (VInt 2)) = true.
Proof. vm_compute. reflexivity. Qed.
Theorem C50_Setup_refuted : ~ tidies Setup_to Setup_ok.
Proof. apply (broken _ _ (ex_wsetup) 2 true). vm_compute. reflexivity. Qed.
Print Assumptions C50_Setup_refuted.
Theorem C50_WkItem_refuted : ~ tidies WkItem_to WkItem_ok.
Proof. apply (broken _ _ (WkItem_Bitmap ex_bitmap) 2 true). vm_compute. reflexivity. Qed.
Print Assumptions C50_WkItem_refuted.
Theorem C50_WorkSheet_refuted : ~ tidies WorkSheet_to WorkSheet_ok.
Proof. apply (broken _ _ (ex_worksheet) 2 true). vm_compute. reflexivity. Qed.
Print Assumptions C50_WorkSheet_refuted.
