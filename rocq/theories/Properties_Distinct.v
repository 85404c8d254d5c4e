(** * C53: one object per expression

    Two objects whose texts are the same expression are equal, whatever the layout: no difference between
    objects is lost by writing them. *)
From Coq Require Import String.
From Verif Require Import PyBase PyNum PyStr Sexpr S_Leaf S_Tree S_Equal L_Equal L_EqualA.
From Verif Require Import M_Common M_Lib M_Sym M_Fp M_Gr M_Zone M_Footprint M_Dim M_Brd M_Board M_Sch M_Schematic M_Wks.
From Verif Require Import S_Common S_Lib S_Sym S_Fp S_Gr S_Zone S_Footprint S_Dim S_Brd S_Board S_Sch S_Schematic S_Wks.
From Verif Require Import L_Common L_Lib L_Sym L_Symbol L_Fp L_Gr L_Zone L_Pad L_Footprint L_Dim L_Brd L_Plot L_Board L_Sch L_Sheet L_Schematic L_Wks.

(** the object that a text stands for *)
Definition read {A} (from : val -> res A) (t : string) : res A := let! v := parse_sexp (lit t) in from v.
Arguments read {A} _ _%string.
(** an object read from a text meets the hypotheses of [tells_apart], with another layout beside it *)
Definition twice {A} (to : A -> nat -> bool -> res str) (from : val -> res A) (ok : A -> bool) (t : string) : bool :=
  match read from t with
  | Ok o => ok o && match to o 0 false, to o 3 true with
      | Ok s, Ok s' => negb (str_eqb s s') && match parse_sexp s, parse_sexp s' with Ok v, Ok v' => py_eqb v v' | _, _ => false end
      | _, _ => false end
  | Err _ => false
  end.
Arguments twice {A} _ _ _ _%string.

Theorem C53_Coordinate : tells_apart Coordinate_to Coordinate_ok Coordinate_eqb.
Proof. exact (tell _ _ _ _ _ Coordinate_rt Coordinate_q). Qed.
Print Assumptions C53_Coordinate.
Example C53_Coordinate_case : twice Coordinate_to Coordinate_from Coordinate_ok "(xyz 2.5 -3 1.0)" = true.
Proof. vm_compute. reflexivity. Qed.

Theorem C53_ColorRGBA : tells_apart ColorRGBA_to ColorRGBA_ok ColorRGBA_eqb.
Proof. exact (tell _ _ _ _ _ ColorRGBA_rt ColorRGBA_q). Qed.
Print Assumptions C53_ColorRGBA.
Example C53_ColorRGBA_case : twice ColorRGBA_to ColorRGBA_from ColorRGBA_ok "(color 255 0 128 0.5)" = true.
Proof. vm_compute. reflexivity. Qed.

Theorem C53_Stroke : tells_apart Stroke_to Stroke_ok Stroke_eqb.
Proof. exact (tell _ _ _ _ _ Stroke_rt Stroke_q). Qed.
Print Assumptions C53_Stroke.
Example C53_Stroke_case : twice Stroke_to Stroke_from Stroke_ok "(stroke (width 0.254) (type dash_dot) (color 255 0 128 0.5))" = true.
Proof. vm_compute. reflexivity. Qed.

Theorem C53_Font : tells_apart Font_to Font_ok Font_eqb.
Proof. exact (tell _ _ _ _ _ Font_rt Font_q). Qed.
Print Assumptions C53_Font.
Example C53_Font_case : twice Font_to Font_from Font_ok "(font (face ""A \""b\"" \c"") (size 1.27 2) (color 255 0 128 0.5) (thickness 0.3) bold italic (line_spacing 1.1))" = true.
Proof. vm_compute. reflexivity. Qed.

Theorem C53_Justify : tells_apart Justify_to Justify_ok1 Justify_eqb.
Proof. exact (tell _ _ _ _ _ Justify_rt1 Justify_q). Qed.
Print Assumptions C53_Justify.
Example C53_Justify_case : twice Justify_to Justify_from Justify_ok1 "(justify right top mirror)" = true.
Proof. vm_compute. reflexivity. Qed.

Theorem C53_Effects : tells_apart Effects_to Effects_ok Effects_eqb.
Proof. exact (tell _ _ _ _ _ Effects_rt Effects_q). Qed.
Print Assumptions C53_Effects.
Example C53_Effects_case : twice Effects_to Effects_from Effects_ok "(effects (font (face ""A \""b\"" \c"") (size 1.27 2) (color 255 0 128 0.5) (thickness 0.3) bold italic (line_spacing 1.1)) (justify right top mirror) (href ""https://x.y/(z)"") hide)" = true.
Proof. vm_compute. reflexivity. Qed.

Theorem C53_Net : tells_apart Net_to Net_ok Net_eqb.
Proof. exact (tell _ _ _ _ _ Net_rt Net_q). Qed.
Print Assumptions C53_Net.
Example C53_Net_case : twice Net_to Net_from Net_ok "(net 17 ""Net-(U1-Pad3)"")" = true.
Proof. vm_compute. reflexivity. Qed.

Theorem C53_Group : tells_apart Group_to Group_ok Group_eqb.
Proof. exact (tell _ _ _ _ _ Group_rt Group_q). Qed.
Print Assumptions C53_Group.
Example C53_Group_case : twice Group_to Group_from Group_ok "(group ""g \""1\"""" locked (id 6fe2b9d8-0001)
  (members
    0012
    abc-1
  )
)" = true.
Proof. vm_compute. reflexivity. Qed.

Theorem C53_PageSettings : tells_apart PageSettings_to PageSettings_ok PageSettings_eqb.
Proof. exact (tell _ _ _ _ _ PageSettings_rt PageSettings_q). Qed.
Print Assumptions C53_PageSettings.
Example C53_PageSettings_case : twice PageSettings_to PageSettings_from PageSettings_ok "(paper ""User"" 210.1 300 portrait)" = true.
Proof. vm_compute. reflexivity. Qed.

Theorem C53_TitleBlock : tells_apart TitleBlock_to TitleBlock_ok TitleBlock_eqb.
Proof. exact (tell _ _ _ _ _ TitleBlock_rt TitleBlock_q). Qed.
Print Assumptions C53_TitleBlock.
Example C53_TitleBlock_case : twice TitleBlock_to TitleBlock_from TitleBlock_ok "(title_block
  (title ""T"")
  (rev ""1.0"")
  (company """")
  (comment 1 ""one"")
  (comment 4 ""four (4)"")
)" = true.
Proof. vm_compute. reflexivity. Qed.

Theorem C53_Property : tells_apart Property_to Property_ok Property_eqb.
Proof. exact (tell _ _ _ _ _ Property_rt Property_q). Qed.
Print Assumptions C53_Property.
Example C53_Property_case : twice Property_to Property_from Property_ok "(property ""Sheet name"" ""a\b\"""" (id 3) (at 1 2.5 90) (show_name)
  (effects (font (face ""A \""b\"" \c"") (size 1.27 2) (color 255 0 128 0.5) (thickness 0.3) bold italic (line_spacing 1.1)) (justify right top mirror) (href ""https://x.y/(z)"") hide)
)" = true.
Proof. vm_compute. reflexivity. Qed.

Theorem C53_RenderCachePolygon : tells_apart RenderCachePolygon_to RenderCachePolygon_ok RenderCachePolygon_eqb.
Proof. exact (tell _ _ _ _ _ RenderCachePolygon_rt RenderCachePolygon_q). Qed.
Print Assumptions C53_RenderCachePolygon.
Example C53_RenderCachePolygon_case : twice RenderCachePolygon_to RenderCachePolygon_from RenderCachePolygon_ok "(polygon
  (pts
    (xy 1 2)    (xy 1.5 2)    (xy 0 -7)    (xy 0 0)
    (xy 9 9)
  )
)" = true.
Proof. vm_compute. reflexivity. Qed.

Theorem C53_RenderCache : tells_apart RenderCache_to RenderCache_ok RenderCache_eqb.
Proof. exact (tell _ _ _ _ _ RenderCache_rt RenderCache_q). Qed.
Print Assumptions C53_RenderCache.
Example C53_RenderCache_case : twice RenderCache_to RenderCache_from RenderCache_ok "(render_cache ""some text"" 0
  (polygon
    (pts
      (xy 1 2)      (xy 1.5 2)      (xy 0 -7)      (xy 0 0)
      (xy 9 9)
    )
  )
  (polygon
    (pts
    )
  )
)" = true.
Proof. vm_compute. reflexivity. Qed.

Theorem C53_Fill : tells_apart Fill_to Fill_ok Fill_eqb.
Proof. exact (tell _ _ _ _ _ Fill_rt Fill_q). Qed.
Print Assumptions C53_Fill.
Example C53_Fill_case : twice Fill_to Fill_from Fill_ok "(fill (type background) (color 255 0 128 0.5))" = true.
Proof. vm_compute. reflexivity. Qed.

Theorem C53_Image : tells_apart Image_to Image_ok Image_eqb.
Proof. exact (tell _ _ _ _ _ Image_rt Image_q). Qed.
Print Assumptions C53_Image.
Example C53_Image_case : twice Image_to Image_from Image_ok "(image (at 12.34 5) (layer ""F.SilkS"") (scale 0.5)
  (uuid a-b-c)
  (data
    iVBORw0KGgo=
    12
  )
)" = true.
Proof. vm_compute. reflexivity. Qed.

Theorem C53_Library : tells_apart Library_to Library_ok Library_eqb.
Proof. exact (tell _ _ _ _ _ Library_rt Library_q). Qed.
Print Assumptions C53_Library.
Example C53_Library_case : twice Library_to Library_from Library_ok "(lib (name ""MCU \""ST\"""")(type ""KiCad"")(uri ""${KIPRJMOD}/a (b).kicad_sym"")(options """")(descr ""x"")(disabled))" = true.
Proof. vm_compute. reflexivity. Qed.

Theorem C53_LibTable : tells_apart LibTable_to LibTable_ok LibTable_eqb.
Proof. exact (tell _ _ _ _ _ LibTable_rt LibTable_q). Qed.
Print Assumptions C53_LibTable.
Example C53_LibTable_case : twice LibTable_to LibTable_from LibTable_ok "(fp_lib_table
  (lib (name ""MCU \""ST\"""")(type ""KiCad"")(uri ""${KIPRJMOD}/a (b).kicad_sym"")(options """")(descr ""x""))
  (lib (name ""MCU \""ST\"""")(type ""KiCad"")(uri ""${KIPRJMOD}/a (b).kicad_sym"")(options """")(descr ""x"")(disabled))
  (lib (name """")(type ""KiCad"")(uri """")(options """")(descr """"))
)" = true.
Proof. vm_compute. reflexivity. Qed.

Theorem C53_Constraint : tells_apart Constraint_to Constraint_ok Constraint_eqb.
Proof. exact (tell _ _ _ _ _ Constraint_rt Constraint_q). Qed.
Print Assumptions C53_Constraint.
Example C53_Constraint_case : twice Constraint_to Constraint_from Constraint_ok "(constraint disallow (min ""0.2mm"") (max ""1 mm"") track via)" = true.
Proof. vm_compute. reflexivity. Qed.

Theorem C53_Rule : tells_apart Rule_to Rule_ok Rule_eqb.
Proof. exact (tell _ _ _ _ _ Rule_rt Rule_q). Qed.
Print Assumptions C53_Rule.
Example C53_Rule_case : twice Rule_to Rule_from Rule_ok "(rule ""HV \""1\""""
  (layer ""outer"")
  (constraint disallow (min ""0.2mm"") (max ""1 mm"") track via)
  (constraint clearance)
  (condition ""A.NetClass == 'HV'"")
  (severity warning))
" = true.
Proof. vm_compute. reflexivity. Qed.

Theorem C53_DesignRules : tells_apart DesignRules_file DesignRules_ok DesignRules_eqb.
Proof. exact (tell _ _ _ _ _ DesignRules_rt DesignRules_q). Qed.
Print Assumptions C53_DesignRules.
Example C53_DesignRules_case : twice DesignRules_file DesignRules_from DesignRules_ok "((version 1)

(rule ""HV \""1\""""
  (layer ""outer"")
  (constraint disallow (min ""0.2mm"") (max ""1 mm"") track via)
  (constraint clearance)
  (condition ""A.NetClass == 'HV'"")
  (severity warning))
(rule ""HV \""1\""""
  (layer ""outer"")
  (constraint disallow (min ""0.2mm"") (max ""1 mm"") track via)
  (constraint clearance)
  (condition ""A.NetClass == 'HV'"")
  (severity warning))
(rule """"
  (condition """"))
)" = true.
Proof. vm_compute. reflexivity. Qed.

Theorem C53_SyArc : tells_apart SyArc_to SyArc_ok SyArc_eqb.
Proof. exact (tell _ _ _ _ _ SyArc_rt SyArc_q). Qed.
Print Assumptions C53_SyArc.
Example C53_SyArc_case : twice SyArc_to SyArc_from SyArc_ok "(arc private (start 1 2.5 90) (mid 2 3) (end -2 3)
  (stroke (width 0.254) (type dash_dot) (color 255 0 128 0.5))
  (fill (type color) (color 255 0 128 0.5))
)" = true.
Proof. vm_compute. reflexivity. Qed.

Theorem C53_SyCircle : tells_apart SyCircle_to SyCircle_ok SyCircle_eqb.
Proof. exact (tell _ _ _ _ _ SyCircle_rt SyCircle_q). Qed.
Print Assumptions C53_SyCircle.
Example C53_SyCircle_case : twice SyCircle_to SyCircle_from SyCircle_ok "(circle private (center 2 3) (radius 2.5)
  (stroke (width 0.254) (type dash_dot) (color 255 0 128 0.5))
  (fill (type color) (color 255 0 128 0.5))
)" = true.
Proof. vm_compute. reflexivity. Qed.

Theorem C53_SyPolyLine : tells_apart SyPolyLine_to SyPolyLine_ok SyPolyLine_eqb.
Proof. exact (tell _ _ _ _ _ SyPolyLine_rt SyPolyLine_q). Qed.
Print Assumptions C53_SyPolyLine.
Example C53_SyPolyLine_case : twice SyPolyLine_to SyPolyLine_from SyPolyLine_ok "(polyline
  (pts
    (xy 2 3)
    (xy 0.1 0)
    (xy 2 3)
  )
  (stroke (width 0.254) (type dash_dot) (color 255 0 128 0.5))
  (fill (type color) (color 255 0 128 0.5))
)" = true.
Proof. vm_compute. reflexivity. Qed.

Theorem C53_SyRect : tells_apart SyRect_to SyRect_ok SyRect_eqb.
Proof. exact (tell _ _ _ _ _ SyRect_rt SyRect_q). Qed.
Print Assumptions C53_SyRect.
Example C53_SyRect_case : twice SyRect_to SyRect_from SyRect_ok "(rectangle private (start 2 3) (end 2 -0.3)
  (stroke (width 0.254) (type dash_dot) (color 255 0 128 0.5))
  (fill (type color) (color 255 0 128 0.5))
)" = true.
Proof. vm_compute. reflexivity. Qed.

Theorem C53_SyText : tells_apart SyText_to SyText_ok SyText_eqb.
Proof. exact (tell _ _ _ _ _ SyText_rt SyText_q). Qed.
Print Assumptions C53_SyText.
Example C53_SyText_case : twice SyText_to SyText_from SyText_ok "(text ""a \""(b)\"" \ c"" (at 2 3 900)
  (effects (font (face ""A \""b\"" \c"") (size 1.27 2) (color 255 0 128 0.5) (thickness 0.3) bold italic (line_spacing 1.1)) (justify right top mirror) (href ""https://x.y/(z)"") hide)
)" = true.
Proof. vm_compute. reflexivity. Qed.

Theorem C53_SyTextBox : tells_apart SyTextBox_to SyTextBox_ok SyTextBox_eqb.
Proof. exact (tell _ _ _ _ _ SyTextBox_rt SyTextBox_q). Qed.
Print Assumptions C53_SyTextBox.
Example C53_SyTextBox_case : twice SyTextBox_to SyTextBox_from SyTextBox_ok "(text_box private ""private""
  (at 2 3 90) (size 2 3)
  (stroke (width 0.254) (type dash_dot) (color 255 0 128 0.5))
  (fill (type color) (color 255 0 128 0.5))
  (effects (font (face ""A \""b\"" \c"") (size 1.27 2) (color 255 0 128 0.5) (thickness 0.3) bold italic (line_spacing 1.1)) (justify right top mirror) (href ""https://x.y/(z)"") hide)
  (uuid a-1)
)" = true.
Proof. vm_compute. reflexivity. Qed.

Theorem C53_SymbolAlternativePin : tells_apart SymbolAlternativePin_to SymbolAlternativePin_ok SymbolAlternativePin_eqb.
Proof. exact (tell _ _ _ _ _ SymbolAlternativePin_rt SymbolAlternativePin_q). Qed.
Print Assumptions C53_SymbolAlternativePin.
Example C53_SymbolAlternativePin_case : twice SymbolAlternativePin_to SymbolAlternativePin_from SymbolAlternativePin_ok "(alternate ""PA 0"" bidirectional inverted)" = true.
Proof. vm_compute. reflexivity. Qed.

Theorem C53_SymbolPin : tells_apart SymbolPin_to SymbolPin_ok SymbolPin_eqb.
Proof. exact (tell _ _ _ _ _ SymbolPin_rt SymbolPin_q). Qed.
Print Assumptions C53_SymbolPin.
Example C53_SymbolPin_case : twice SymbolPin_to SymbolPin_from SymbolPin_ok "(pin power_in line (at 2 3 90) (length 2.54) hide
  (name ""~{RST}"" (effects (font (face ""A \""b\"" \c"") (size 1.27 2) (color 255 0 128 0.5) (thickness 0.3) bold italic (line_spacing 1.1)) (justify right top mirror) (href ""https://x.y/(z)"") hide))
  (number ""12"")
  (alternate """" input line)
  (alternate """" input line)
)" = true.
Proof. vm_compute. reflexivity. Qed.

Theorem C53_Symbol : tells_apart Symbol_to Symbol_ok Symbol_eqb.
Proof. exact (tell _ _ _ _ _ Symbol_rt Symbol_q). Qed.
Print Assumptions C53_Symbol.
Example C53_Symbol_case : twice Symbol_to Symbol_from Symbol_ok "(symbol ""Amplifier:LM 358"" (extends ""LM \""X\"""") (power) (pin_numbers hide) (pin_names (offset 0.5) hide) (in_bom yes) (on_board no)
  (property ""Sheet name"" ""a\b\"""" (id 3) (at 1 2.5 90) (show_name)
    (effects (font (face ""A \""b\"" \c"") (size 1.27 2) (color 255 0 128 0.5) (thickness 0.3) bold italic (line_spacing 1.1)) (justify right top mirror) (href ""https://x.y/(z)"") hide)
  )
  (property ""Sheet name"" ""a\b\"""" (id 3) (at 1 2.5 90) (show_name)
    (effects (font (face ""A \""b\"" \c"") (size 1.27 2) (color 255 0 128 0.5) (thickness 0.3) bold italic (line_spacing 1.1)) (justify right top mirror) (href ""https://x.y/(z)"") hide)
  )
  (circle (center 0.0 0.0) (radius 0.0)
    (stroke (width 0.0))
    (fill (type none))
  )
  (text """" (at 0.0 0.0)
    (effects (font (size 1.0 1.0)))
  )
  (pin power_in line (at 2 3 90) (length 2.54) hide
    (name ""~{RST}"" (effects (font (face ""A \""b\"" \c"") (size 1.27 2) (color 255 0 128 0.5) (thickness 0.3) bold italic (line_spacing 1.1)) (justify right top mirror) (href ""https://x.y/(z)"") hide))
    (number ""12"")
    (alternate """" input line)
    (alternate """" input line)
  )
  (pin input line (at 0.0 0.0) (length 0.254) (name """") (number ""0""))
  (symbol ""LM 358_0_1""
    (rectangle (start 0.0 0.0) (end 0.0 0.0)
      (stroke (width 0.0))
      (fill (type none))
    )
    (arc (start 0.0 0.0) (mid 0.0 0.0) (end 0.0 0.0)
      (stroke (width 0.0))
      (fill (type none))
    )
    (pin power_in line (at 2 3 90) (length 2.54) hide
      (name ""~{RST}"" (effects (font (face ""A \""b\"" \c"") (size 1.27 2) (color 255 0 128 0.5) (thickness 0.3) bold italic (line_spacing 1.1)) (justify right top mirror) (href ""https://x.y/(z)"") hide))
      (number ""12"")
      (alternate """" input line)
      (alternate """" input line)
    )
  )
  (symbol ""LM 358_1_1""
    (rectangle (start 0.0 0.0) (end 0.0 0.0)
      (stroke (width 0.0))
      (fill (type none))
    )
    (arc (start 0.0 0.0) (mid 0.0 0.0) (end 0.0 0.0)
      (stroke (width 0.0))
      (fill (type none))
    )
    (pin power_in line (at 2 3 90) (length 2.54) hide
      (name ""~{RST}"" (effects (font (face ""A \""b\"" \c"") (size 1.27 2) (color 255 0 128 0.5) (thickness 0.3) bold italic (line_spacing 1.1)) (justify right top mirror) (href ""https://x.y/(z)"") hide))
      (number ""12"")
      (alternate """" input line)
      (alternate """" input line)
    )
    (symbol ""LM 358_7_1""
      (rectangle (start 0.0 0.0) (end 0.0 0.0)
        (stroke (width 0.0))
        (fill (type none))
      )
      (arc (start 0.0 0.0) (mid 0.0 0.0) (end 0.0 0.0)
        (stroke (width 0.0))
        (fill (type none))
      )
      (pin power_in line (at 2 3 90) (length 2.54) hide
        (name ""~{RST}"" (effects (font (face ""A \""b\"" \c"") (size 1.27 2) (color 255 0 128 0.5) (thickness 0.3) bold italic (line_spacing 1.1)) (justify right top mirror) (href ""https://x.y/(z)"") hide))
        (number ""12"")
        (alternate """" input line)
        (alternate """" input line)
      )
    )
    (symbol ""LM 358_8_1""
      (rectangle (start 0.0 0.0) (end 0.0 0.0)
        (stroke (width 0.0))
        (fill (type none))
      )
      (arc (start 0.0 0.0) (mid 0.0 0.0) (end 0.0 0.0)
        (stroke (width 0.0))
        (fill (type none))
      )
      (pin power_in line (at 2 3 90) (length 2.54) hide
        (name ""~{RST}"" (effects (font (face ""A \""b\"" \c"") (size 1.27 2) (color 255 0 128 0.5) (thickness 0.3) bold italic (line_spacing 1.1)) (justify right top mirror) (href ""https://x.y/(z)"") hide))
        (number ""12"")
        (alternate """" input line)
        (alternate """" input line)
      )
    )
  )
)" = true.
Proof. vm_compute. reflexivity. Qed.

Theorem C53_SymbolLib : tells_apart SymbolLib_to SymbolLib_ok SymbolLib_eqb.
Proof. exact (tell _ _ _ _ _ SymbolLib_rt SymbolLib_q). Qed.
Print Assumptions C53_SymbolLib.
Example C53_SymbolLib_case : twice SymbolLib_to SymbolLib_from SymbolLib_ok "(kicad_symbol_lib (version 20211014) (generator kicad_symbol_editor)
  (symbol ""Amplifier:LM 358"" (extends ""LM \""X\"""") (power) (pin_numbers hide) (pin_names (offset 0.5) hide) (in_bom yes) (on_board no)
    (property ""Sheet name"" ""a\b\"""" (id 3) (at 1 2.5 90) (show_name)
      (effects (font (face ""A \""b\"" \c"") (size 1.27 2) (color 255 0 128 0.5) (thickness 0.3) bold italic (line_spacing 1.1)) (justify right top mirror) (href ""https://x.y/(z)"") hide)
    )
    (property ""Sheet name"" ""a\b\"""" (id 3) (at 1 2.5 90) (show_name)
      (effects (font (face ""A \""b\"" \c"") (size 1.27 2) (color 255 0 128 0.5) (thickness 0.3) bold italic (line_spacing 1.1)) (justify right top mirror) (href ""https://x.y/(z)"") hide)
    )
    (circle (center 0.0 0.0) (radius 0.0)
      (stroke (width 0.0))
      (fill (type none))
    )
    (text """" (at 0.0 0.0)
      (effects (font (size 1.0 1.0)))
    )
    (pin power_in line (at 2 3 90) (length 2.54) hide
      (name ""~{RST}"" (effects (font (face ""A \""b\"" \c"") (size 1.27 2) (color 255 0 128 0.5) (thickness 0.3) bold italic (line_spacing 1.1)) (justify right top mirror) (href ""https://x.y/(z)"") hide))
      (number ""12"")
      (alternate """" input line)
      (alternate """" input line)
    )
    (pin input line (at 0.0 0.0) (length 0.254) (name """") (number ""0""))
    (symbol ""LM 358_0_1""
      (rectangle (start 0.0 0.0) (end 0.0 0.0)
        (stroke (width 0.0))
        (fill (type none))
      )
      (arc (start 0.0 0.0) (mid 0.0 0.0) (end 0.0 0.0)
        (stroke (width 0.0))
        (fill (type none))
      )
      (pin power_in line (at 2 3 90) (length 2.54) hide
        (name ""~{RST}"" (effects (font (face ""A \""b\"" \c"") (size 1.27 2) (color 255 0 128 0.5) (thickness 0.3) bold italic (line_spacing 1.1)) (justify right top mirror) (href ""https://x.y/(z)"") hide))
        (number ""12"")
        (alternate """" input line)
        (alternate """" input line)
      )
    )
    (symbol ""LM 358_1_1""
      (rectangle (start 0.0 0.0) (end 0.0 0.0)
        (stroke (width 0.0))
        (fill (type none))
      )
      (arc (start 0.0 0.0) (mid 0.0 0.0) (end 0.0 0.0)
        (stroke (width 0.0))
        (fill (type none))
      )
      (pin power_in line (at 2 3 90) (length 2.54) hide
        (name ""~{RST}"" (effects (font (face ""A \""b\"" \c"") (size 1.27 2) (color 255 0 128 0.5) (thickness 0.3) bold italic (line_spacing 1.1)) (justify right top mirror) (href ""https://x.y/(z)"") hide))
        (number ""12"")
        (alternate """" input line)
        (alternate """" input line)
      )
      (symbol ""LM 358_7_1""
        (rectangle (start 0.0 0.0) (end 0.0 0.0)
          (stroke (width 0.0))
          (fill (type none))
        )
        (arc (start 0.0 0.0) (mid 0.0 0.0) (end 0.0 0.0)
          (stroke (width 0.0))
          (fill (type none))
        )
        (pin power_in line (at 2 3 90) (length 2.54) hide
          (name ""~{RST}"" (effects (font (face ""A \""b\"" \c"") (size 1.27 2) (color 255 0 128 0.5) (thickness 0.3) bold italic (line_spacing 1.1)) (justify right top mirror) (href ""https://x.y/(z)"") hide))
          (number ""12"")
          (alternate """" input line)
          (alternate """" input line)
        )
      )
      (symbol ""LM 358_8_1""
        (rectangle (start 0.0 0.0) (end 0.0 0.0)
          (stroke (width 0.0))
          (fill (type none))
        )
        (arc (start 0.0 0.0) (mid 0.0 0.0) (end 0.0 0.0)
          (stroke (width 0.0))
          (fill (type none))
        )
        (pin power_in line (at 2 3 90) (length 2.54) hide
          (name ""~{RST}"" (effects (font (face ""A \""b\"" \c"") (size 1.27 2) (color 255 0 128 0.5) (thickness 0.3) bold italic (line_spacing 1.1)) (justify right top mirror) (href ""https://x.y/(z)"") hide))
          (number ""12"")
          (alternate """" input line)
          (alternate """" input line)
        )
      )
    )
  )
  (symbol ""LM 358_3_1""
    (rectangle (start 0.0 0.0) (end 0.0 0.0)
      (stroke (width 0.0))
      (fill (type none))
    )
    (arc (start 0.0 0.0) (mid 0.0 0.0) (end 0.0 0.0)
      (stroke (width 0.0))
      (fill (type none))
    )
    (pin power_in line (at 2 3 90) (length 2.54) hide
      (name ""~{RST}"" (effects (font (face ""A \""b\"" \c"") (size 1.27 2) (color 255 0 128 0.5) (thickness 0.3) bold italic (line_spacing 1.1)) (justify right top mirror) (href ""https://x.y/(z)"") hide))
      (number ""12"")
      (alternate """" input line)
      (alternate """" input line)
    )
  )
)" = true.
Proof. vm_compute. reflexivity. Qed.

Theorem C53_FpText : tells_apart FpText_to FpText_ok FpText_eqb.
Proof. exact (tell _ _ _ _ _ FpText_rt FpText_q). Qed.
Print Assumptions C53_FpText.
Example C53_FpText_case : twice FpText_to FpText_from FpText_ok "(fp_text user ""a \""(b)\"" \ c"" (at 1 2.5 90 unlocked) (layer ""F.SilkS"" knockout) hide
  (effects (font (face ""A \""b\"" \c"") (size 1.27 2) (color 255 0 128 0.5) (thickness 0.3) bold italic (line_spacing 1.1)) (justify right top mirror) (href ""https://x.y/(z)"") hide)
  (tstamp 7c2f5ab1-44ff-4a1c-b96d-28f9f3a0fd1e)
  (render_cache ""ab\""c"" 0
    (polygon
      (pts
        (xy 1 2)        (xy 1.5 2)        (xy 0 -7)        (xy 0 0)
        (xy 9 9)
      )
    )
  )
)" = true.
Proof. vm_compute. reflexivity. Qed.

Theorem C53_FpLine : tells_apart FpLine_to FpLine_ok FpLine_eqb.
Proof. exact (tell _ _ _ _ _ FpLine_rt FpLine_q). Qed.
Print Assumptions C53_FpLine.
Example C53_FpLine_case : twice FpLine_to FpLine_from FpLine_ok "(fp_line (start 2 3) (end 2 0.001) (layer ""F.Fab"") (stroke (width 0.254) (type dash_dot) (color 255 0 128 0.5)) (tstamp 7c2f5ab1-44ff-4a1c-b96d-28f9f3a0fd1e))" = true.
Proof. vm_compute. reflexivity. Qed.

Theorem C53_FpRect : tells_apart FpRect_to FpRect_ok FpRect_eqb.
Proof. exact (tell _ _ _ _ _ FpRect_rt FpRect_q). Qed.
Print Assumptions C53_FpRect.
Example C53_FpRect_case : twice FpRect_to FpRect_from FpRect_ok "(fp_rect (start 2 3) (end 2 0.001) (layer ""F.Fab"") (width 0.15) (fill solid) locked (tstamp 7c2f5ab1-44ff-4a1c-b96d-28f9f3a0fd1e))" = true.
Proof. vm_compute. reflexivity. Qed.

Theorem C53_FpCircle : tells_apart FpCircle_to FpCircle_ok FpCircle_eqb.
Proof. exact (tell _ _ _ _ _ FpCircle_rt FpCircle_q). Qed.
Print Assumptions C53_FpCircle.
Example C53_FpCircle_case : twice FpCircle_to FpCircle_from FpCircle_ok "(fp_circle (center 2 3) (end 2 0.001) (layer ""F.Fab"") (stroke (width 0.254) (type dash_dot) (color 255 0 128 0.5)) (fill solid) locked (tstamp 7c2f5ab1-44ff-4a1c-b96d-28f9f3a0fd1e))" = true.
Proof. vm_compute. reflexivity. Qed.

Theorem C53_FpArc : tells_apart FpArc_to FpArc_ok FpArc_eqb.
Proof. exact (tell _ _ _ _ _ FpArc_rt FpArc_q). Qed.
Print Assumptions C53_FpArc.
Example C53_FpArc_case : twice FpArc_to FpArc_from FpArc_ok "(fp_arc (start 2 3) (mid 5 3) (end 2 0.001) (layer ""F.Fab"") (stroke (width 0.254) (type dash_dot) (color 255 0 128 0.5)) locked (tstamp 7c2f5ab1-44ff-4a1c-b96d-28f9f3a0fd1e))" = true.
Proof. vm_compute. reflexivity. Qed.

Theorem C53_FpPoly : tells_apart FpPoly_to FpPoly_ok FpPoly_eqb.
Proof. exact (tell _ _ _ _ _ FpPoly_rt FpPoly_q). Qed.
Print Assumptions C53_FpPoly.
Example C53_FpPoly_case : twice FpPoly_to FpPoly_from FpPoly_ok "(fp_poly (pts
    (xy 2 3)
    (xy 0.1 0)
    (xy 2 3)
    (xy -1.5 7)
  ) (layer ""F.Fab"") (stroke (width 0.254) (type dash_dot) (color 255 0 128 0.5)) (fill solid) locked (tstamp 7c2f5ab1-44ff-4a1c-b96d-28f9f3a0fd1e))" = true.
Proof. vm_compute. reflexivity. Qed.

Theorem C53_FpCurve : tells_apart FpCurve_to FpCurve_ok FpCurve_eqb.
Proof. exact (tell _ _ _ _ _ FpCurve_rt FpCurve_q). Qed.
Print Assumptions C53_FpCurve.
Example C53_FpCurve_case : twice FpCurve_to FpCurve_from FpCurve_ok "(fp_curve (pts
  (xy 2 3)
  (xy 0.1 0)
  (xy 2 3)
  (xy -1.5 7)
) (layer ""F.Fab"") (width 0.15) locked (tstamp 7c2f5ab1-44ff-4a1c-b96d-28f9f3a0fd1e))" = true.
Proof. vm_compute. reflexivity. Qed.

Theorem C53_FpTextBox : tells_apart FpTextBox_to FpTextBox_ok FpTextBox_eqb.
Proof. exact (tell _ _ _ _ _ FpTextBox_rt FpTextBox_q). Qed.
Print Assumptions C53_FpTextBox.
Example C53_FpTextBox_case : twice FpTextBox_to FpTextBox_from FpTextBox_ok "(fp_text_box locked ""locked""
  (pts
    (xy 2 3)      (xy 0.1 0)      (xy 2 3)      (xy -1.5 7)
  )
  (angle 45.5) (layer ""F.Fab"") (tstamp 7c2f5ab1-44ff-4a1c-b96d-28f9f3a0fd1e)
  (effects (font (face ""A \""b\"" \c"") (size 1.27 2) (color 255 0 128 0.5) (thickness 0.3) bold italic (line_spacing 1.1)) (justify right top mirror) (href ""https://x.y/(z)"") hide)
  (stroke (width 0.254) (type dash_dot) (color 255 0 128 0.5))
  (render_cache ""ab\""c"" 0
    (polygon
      (pts
        (xy 1 2)        (xy 1.5 2)        (xy 0 -7)        (xy 0 0)
        (xy 9 9)
      )
    )
  )
)" = true.
Proof. vm_compute. reflexivity. Qed.

Theorem C53_GrText : tells_apart GrText_to GrText_ok GrText_eqb.
Proof. exact (tell _ _ _ _ _ GrText_rt GrText_q). Qed.
Print Assumptions C53_GrText.
Example C53_GrText_case : twice GrText_to GrText_from GrText_ok "(gr_text ""a \""(b)\"" \ c"" (at 1 2.5 90) (layer ""F.SilkS"" knockout) (tstamp 7c2f5ab1-44ff-4a1c-b96d-28f9f3a0fd1e)
  (effects (font (face ""A \""b\"" \c"") (size 1.27 2) (color 255 0 128 0.5) (thickness 0.3) bold italic (line_spacing 1.1)) (justify right top mirror) (href ""https://x.y/(z)"") hide)
  (render_cache ""ab\""c"" 0
    (polygon
      (pts
        (xy 1 2)        (xy 1.5 2)        (xy 0 -7)        (xy 0 0)
        (xy 9 9)
      )
    )
  )
)" = true.
Proof. vm_compute. reflexivity. Qed.

Theorem C53_GrLine : tells_apart GrLine_to GrLine_ok GrLine_eqb.
Proof. exact (tell _ _ _ _ _ GrLine_rt GrLine_q). Qed.
Print Assumptions C53_GrLine.
Example C53_GrLine_case : twice GrLine_to GrLine_from GrLine_ok "(gr_line locked (start 2 3) (end 2 0.001) (layer ""F.Fab"") (width 1) (tstamp 7c2f5ab1-44ff-4a1c-b96d-28f9f3a0fd1e))" = true.
Proof. vm_compute. reflexivity. Qed.

Theorem C53_GrRect : tells_apart GrRect_to GrRect_ok GrRect_eqb.
Proof. exact (tell _ _ _ _ _ GrRect_rt GrRect_q). Qed.
Print Assumptions C53_GrRect.
Example C53_GrRect_case : twice GrRect_to GrRect_from GrRect_ok "(gr_rect locked (start 2 3) (end 2 0.001) (layer ""F.Fab"") (width 0.15) (fill solid) (tstamp 7c2f5ab1-44ff-4a1c-b96d-28f9f3a0fd1e))" = true.
Proof. vm_compute. reflexivity. Qed.

Theorem C53_GrCircle : tells_apart GrCircle_to GrCircle_ok GrCircle_eqb.
Proof. exact (tell _ _ _ _ _ GrCircle_rt GrCircle_q). Qed.
Print Assumptions C53_GrCircle.
Example C53_GrCircle_case : twice GrCircle_to GrCircle_from GrCircle_ok "(gr_circle locked (center 2 3) (end 2 0.001) (layer ""F.Fab"") (width 0.15) (fill solid) (tstamp 7c2f5ab1-44ff-4a1c-b96d-28f9f3a0fd1e))" = true.
Proof. vm_compute. reflexivity. Qed.

Theorem C53_GrArc : tells_apart GrArc_to GrArc_ok GrArc_eqb.
Proof. exact (tell _ _ _ _ _ GrArc_rt GrArc_q). Qed.
Print Assumptions C53_GrArc.
Example C53_GrArc_case : twice GrArc_to GrArc_from GrArc_ok "(gr_arc locked (start 2 3) (mid 5 3) (end 2 0.001) (layer ""F.Fab"") (width 0.15) (tstamp 7c2f5ab1-44ff-4a1c-b96d-28f9f3a0fd1e))" = true.
Proof. vm_compute. reflexivity. Qed.

Theorem C53_GrPoly : tells_apart GrPoly_to GrPoly_ok GrPoly_eqb.
Proof. exact (tell _ _ _ _ _ GrPoly_rt GrPoly_q). Qed.
Print Assumptions C53_GrPoly.
Example C53_GrPoly_case : twice GrPoly_to GrPoly_from GrPoly_ok "(gr_poly locked (pts
    (xy 2 3)
    (xy 0.1 0)
    (xy 2 3)
    (xy -1.5 7)
  ) (layer ""F.Fab"") (width 0.15) (fill solid) (tstamp 7c2f5ab1-44ff-4a1c-b96d-28f9f3a0fd1e))" = true.
Proof. vm_compute. reflexivity. Qed.

Theorem C53_GrCurve : tells_apart GrCurve_to GrCurve_ok GrCurve_eqb.
Proof. exact (tell _ _ _ _ _ GrCurve_rt GrCurve_q). Qed.
Print Assumptions C53_GrCurve.
Example C53_GrCurve_case : twice GrCurve_to GrCurve_from GrCurve_ok "(gr_curve locked (pts
  (xy 2 3)
  (xy 0.1 0)
  (xy 2 3)
  (xy -1.5 7)
) (width 0.15) (tstamp 7c2f5ab1-44ff-4a1c-b96d-28f9f3a0fd1e))" = true.
Proof. vm_compute. reflexivity. Qed.

Theorem C53_GrTextBox : tells_apart GrTextBox_to GrTextBox_ok GrTextBox_eqb.
Proof. exact (tell _ _ _ _ _ GrTextBox_rt GrTextBox_q). Qed.
Print Assumptions C53_GrTextBox.
Example C53_GrTextBox_case : twice GrTextBox_to GrTextBox_from GrTextBox_ok "(gr_text_box locked ""locked""
  (pts
    (xy 2 3)        (xy 0.1 0)        (xy 2 3)        (xy -1.5 7)
  )
  (angle 45.5) (layer ""F.Fab"") (tstamp 7c2f5ab1-44ff-4a1c-b96d-28f9f3a0fd1e)
  (effects (font (face ""A \""b\"" \c"") (size 1.27 2) (color 255 0 128 0.5) (thickness 0.3) bold italic (line_spacing 1.1)) (justify right top mirror) (href ""https://x.y/(z)"") hide)
  (stroke (width 0.254) (type dash_dot) (color 255 0 128 0.5))
  (render_cache ""ab\""c"" 0
    (polygon
      (pts
        (xy 1 2)        (xy 1.5 2)        (xy 0 -7)        (xy 0 0)
        (xy 9 9)
      )
    )
  )
)" = true.
Proof. vm_compute. reflexivity. Qed.

Theorem C53_KeepoutSettings : tells_apart KeepoutSettings_to KeepoutSettings_ok KeepoutSettings_eqb.
Proof. exact (tell _ _ _ _ _ KeepoutSettings_rt KeepoutSettings_q). Qed.
Print Assumptions C53_KeepoutSettings.
Example C53_KeepoutSettings_case : twice KeepoutSettings_to KeepoutSettings_from KeepoutSettings_ok "(keepout (tracks allowed) (vias not_allowed) (pads allowed ) (copperpour not-allowed) (footprints not-allowed))" = true.
Proof. vm_compute. reflexivity. Qed.

Theorem C53_FillSettings : tells_apart FillSettings_to FillSettings_ok FillSettings_eqb.
Proof. exact (tell _ _ _ _ _ FillSettings_rt FillSettings_q). Qed.
Print Assumptions C53_FillSettings.
Example C53_FillSettings_case : twice FillSettings_to FillSettings_from FillSettings_ok "(fill yes (mode hatch) (thermal_gap 0.5) (thermal_bridge_width 0.508) (smoothing chamfer) (radius 1) (island_removal_mode 2) (island_area_min 10)
  (hatch_thickness 1) (hatch_gap 1.5) (hatch_orientation 45)
  (hatch_smoothing_level 1) (hatch_smoothing_value 0.1)
  (hatch_border_algorithm 0) (hatch_min_hole_area 0.3))" = true.
Proof. vm_compute. reflexivity. Qed.

Theorem C53_ZonePolygon : tells_apart ZonePolygon_to ZonePolygon_ok ZonePolygon_eqb.
Proof. exact (tell _ _ _ _ _ ZonePolygon_rt ZonePolygon_q). Qed.
Print Assumptions C53_ZonePolygon.
Example C53_ZonePolygon_case : twice ZonePolygon_to ZonePolygon_from ZonePolygon_ok "(polygon
  (pts
    (xy 2 3)
    (xy 0.1 0)
    (xy 2 3)
    (xy -1.5 7)
  )
)
" = true.
Proof. vm_compute. reflexivity. Qed.

Theorem C53_FilledPolygon : tells_apart FilledPolygon_to FilledPolygon_ok FilledPolygon_eqb.
Proof. exact (tell _ _ _ _ _ FilledPolygon_rt FilledPolygon_q). Qed.
Print Assumptions C53_FilledPolygon.
Example C53_FilledPolygon_case : twice FilledPolygon_to FilledPolygon_from FilledPolygon_ok "(filled_polygon
  (layer ""In1.Cu"")
  (island)
  (pts
    (xy 2 3)
    (xy 0.1 0)
    (xy 2 3)
    (xy -1.5 7)
  )
)
" = true.
Proof. vm_compute. reflexivity. Qed.

Theorem C53_FillSegments : tells_apart FillSegments_to FillSegments_ok FillSegments_eqb.
Proof. exact (tell _ _ _ _ _ FillSegments_rt FillSegments_q). Qed.
Print Assumptions C53_FillSegments.
Example C53_FillSegments_case : twice FillSegments_to FillSegments_from FillSegments_ok "(fill_segments
  (layer ""In1.Cu"")
  (pts
    (xy 2 3)
    (xy 0.1 0)
    (xy 2 3)
    (xy -1.5 7)
  )
)
" = true.
Proof. vm_compute. reflexivity. Qed.

Theorem C53_Zone : tells_apart Zone_to Zone_ok Zone_eqb.
Proof. exact (tell _ _ _ _ _ Zone_rt Zone_q). Qed.
Print Assumptions C53_Zone.
Example C53_Zone_case : twice Zone_to Zone_from Zone_ok "(zone locked (net 12) (net_name ""Net \""(1)\"""") (layers ""F.Cu"" ""B.Cu"") (tstamp 7c2f5ab1-44ff-4a1c-b96d-28f9f3a0fd1e) (name ""my zone"") (hatch edge 0.508)
  (priority 3)
  (connect_pads thru_hole_only (clearance 0.2))
  (min_thickness 0.254) (filled_areas_thickness no)
  (keepout (tracks allowed) (vias not_allowed) (pads allowed ) (copperpour not-allowed) (footprints not-allowed))
  (fill yes (mode hatch) (thermal_gap 0.5) (thermal_bridge_width 0.508) (smoothing chamfer) (radius 1) (island_removal_mode 2) (island_area_min 10)
    (hatch_thickness 1) (hatch_gap 1.5) (hatch_orientation 45)
    (hatch_smoothing_level 1) (hatch_smoothing_value 0.1)
    (hatch_border_algorithm 0) (hatch_min_hole_area 0.3))
  (polygon
    (pts
      (xy 2 3)
      (xy 0.1 0)
      (xy 2 3)
      (xy -1.5 7)
    )
  )
  (polygon
    (pts
      (xy 1 2)
    )
  )
  (filled_polygon
    (layer ""F.Cu"")
    (island)
    (pts
      (xy 2 3)
      (xy 0.1 0)
      (xy 2 3)
      (xy -1.5 7)
    )
  )
    (fill_segments
      (layer ""B.Cu"")
      (pts
        (xy 2 3)
        (xy 0.1 0)
        (xy 2 3)
        (xy -1.5 7)
      )
    )
)" = true.
Proof. vm_compute. reflexivity. Qed.

Theorem C53_Attributes : tells_apart Attributes_to Attributes_ok1 Attributes_eqb.
Proof. exact (tell _ _ _ _ _ Attributes_rt1 Attributes_q). Qed.
Print Assumptions C53_Attributes.
Example C53_Attributes_case : twice Attributes_to Attributes_from Attributes_ok1 "(attr smd exclude_from_pos_files exclude_from_bom)" = true.
Proof. vm_compute. reflexivity. Qed.

Theorem C53_Model : tells_apart Model_to Model_ok Model_eqb.
Proof. exact (tell _ _ _ _ _ Model_rt Model_q). Qed.
Print Assumptions C53_Model.
Example C53_Model_case : twice Model_to Model_from Model_ok "(model ""${KICAD6_3DMODEL_DIR}/a \""b\"".wrl"" hide
  (opacity 0.5)
  (offset (xyz 2.5 -3 1.0))
  (scale (xyz 1 1 0.1))
  (rotate (xyz 0 90 0))
)" = true.
Proof. vm_compute. reflexivity. Qed.

Theorem C53_DrillDefinition : tells_apart DrillDefinition_to DrillDefinition_ok DrillDefinition_eqb.
Proof. exact (tell _ _ _ _ _ DrillDefinition_rt DrillDefinition_q). Qed.
Print Assumptions C53_DrillDefinition.
Example C53_DrillDefinition_case : twice DrillDefinition_to DrillDefinition_from DrillDefinition_ok "(drill oval 0.8 2 (offset 1 0.5))" = true.
Proof. vm_compute. reflexivity. Qed.

Theorem C53_PadOptions : tells_apart PadOptions_to PadOptions_ok PadOptions_eqb.
Proof. exact (tell _ _ _ _ _ PadOptions_rt PadOptions_q). Qed.
Print Assumptions C53_PadOptions.
Example C53_PadOptions_case : twice PadOptions_to PadOptions_from PadOptions_ok "(options (clearance convexhull) (anchor circle))" = true.
Proof. vm_compute. reflexivity. Qed.

Theorem C53_Pad : tells_apart Pad_to Pad_ok Pad_eqb.
Proof. exact (tell _ _ _ _ _ Pad_rt Pad_q). Qed.
Print Assumptions C53_Pad.
Example C53_Pad_case : twice Pad_to Pad_from Pad_ok "(pad ""A \""1\"""" thru_hole custom locked (at 1 2.5 90) (size 1 2) (drill oval 0.8 2 (offset 1 0.5)) (property pad_prop_bga) (layers *.Cu ""F.Mask"" F&B.Paste ""In1 (x)"") (remove_unused_layers) (keep_end_layers) (roundrect_rratio 0.25)
  (chamfer_ratio 0.1) (chamfer top_left bottom_right)
  (die_length 3)
  (net 17 ""Net-(U1-Pad3)"") (pinfunction ""fn"") (pintype ""bidirectional+no_connect"") (solder_mask_margin 0.1) (solder_paste_margin 0.2) (solder_paste_margin_ratio 0.3) (clearance 0.4) (zone_connect 2) (thermal_width 0.5) (thermal_gap 0.6)
  (options (clearance convexhull) (anchor circle))
  (primitives
    (gr_text ""a \""(b)\"" \ c"" (at 1 2.5 90) (layer ""F.SilkS"" knockout) (tstamp 7c2f5ab1-44ff-4a1c-b96d-28f9f3a0fd1e)
      (effects (font (face ""A \""b\"" \c"") (size 1.27 2) (color 255 0 128 0.5) (thickness 0.3) bold italic (line_spacing 1.1)) (justify right top mirror) (href ""https://x.y/(z)"") hide)
      (render_cache ""ab\""c"" 0
        (polygon
          (pts
            (xy 1 2)            (xy 1.5 2)            (xy 0 -7)            (xy 0 0)
            (xy 9 9)
          )
        )
      )
    )
    (gr_line locked (start 2 3) (end 2 0.001) (layer ""F.Fab"") (width 1) (tstamp 7c2f5ab1-44ff-4a1c-b96d-28f9f3a0fd1e))
    (gr_poly locked (pts
        (xy 2 3)
        (xy 0.1 0)
        (xy 2 3)
        (xy -1.5 7)
      ) (layer ""F.Fab"") (width 0.15) (fill solid) (tstamp 7c2f5ab1-44ff-4a1c-b96d-28f9f3a0fd1e))
  ) (tstamp 7c2f5ab1-44ff-4a1c-b96d-28f9f3a0fd1e))" = true.
Proof. vm_compute. reflexivity. Qed.

Theorem C53_Footprint : tells_apart Footprint_to Footprint_ok Footprint_eqb.
Proof. exact (tell _ _ _ _ _ (Footprint_rt VNone) Footprint_q). Qed.
Print Assumptions C53_Footprint.
Example C53_Footprint_case : twice Footprint_to (Footprint_from (VStr $"0")) Footprint_ok "(footprint ""Package_SO:SOIC-8 \""x\"""" locked placed (version 20211014) (generator pcbnew)
  (layer ""B.Cu"")
  (tedit 65fa1b2c) (tstamp 7c2f5ab1-44ff-4a1c-b96d-28f9f3a0fd1e)
  (at 1 2 180)
  (descr ""d \""(1)\"""")
  (tags ""a b"")
  (property ""Sheetfile"" ""x.kicad_sch"")
  (property ""k 2"" """")
  (path ""/1/2"")
  (autoplace_cost90 1)
  (autoplace_cost180 2)
  (solder_mask_margin 0.1)
  (solder_paste_margin 0.2)
  (solder_paste_ratio 0.3)
  (clearance 0.4)
  (zone_connect 2)
  (thermal_width 0.5)
  (thermal_gap 0.6)
  (attr through_hole board_only exclude_from_pos_files exclude_from_bom allow_missing_courtyard)
  (private_layers ""User.1"")
  (net_tie_pad_groups ""1, 2"" ""3"")
  (fp_text user ""a \""(b)\"" \ c"" (at 1 2.5 90 unlocked) (layer ""F.SilkS"" knockout) hide
    (effects (font (face ""A \""b\"" \c"") (size 1.27 2) (color 255 0 128 0.5) (thickness 0.3) bold italic (line_spacing 1.1)) (justify right top mirror) (href ""https://x.y/(z)"") hide)
    (tstamp 7c2f5ab1-44ff-4a1c-b96d-28f9f3a0fd1e)
    (render_cache ""ab\""c"" 0
      (polygon
        (pts
          (xy 1 2)          (xy 1.5 2)          (xy 0 -7)          (xy 0 0)
          (xy 9 9)
        )
      )
    )
  )
  (fp_curve (pts
    (xy 2 3)
    (xy 0.1 0)
    (xy 2 3)
    (xy -1.5 7)
  ) (layer ""F.Fab"") (width 0.15) locked (tstamp 7c2f5ab1-44ff-4a1c-b96d-28f9f3a0fd1e))
  (image (at 12.34 5) (layer ""F.SilkS"") (scale 0.5)
    (uuid a-b-c)
    (data
      iVBORw0KGgo=
      12
    )
  )
  (pad ""A \""1\"""" thru_hole custom locked (at 1 2.5 90) (size 1 2) (drill oval 0.8 2 (offset 1 0.5)) (property pad_prop_bga) (layers *.Cu ""F.Mask"" F&B.Paste ""In1 (x)"") (remove_unused_layers) (keep_end_layers) (roundrect_rratio 0.25)
    (chamfer_ratio 0.1) (chamfer top_left bottom_right)
    (die_length 3)
    (net 17 ""Net-(U1-Pad3)"") (pinfunction ""fn"") (pintype ""bidirectional+no_connect"") (solder_mask_margin 0.1) (solder_paste_margin 0.2) (solder_paste_margin_ratio 0.3) (clearance 0.4) (zone_connect 2) (thermal_width 0.5) (thermal_gap 0.6)
    (options (clearance convexhull) (anchor circle))
    (primitives
      (gr_text ""a \""(b)\"" \ c"" (at 1 2.5 90) (layer ""F.SilkS"" knockout) (tstamp 7c2f5ab1-44ff-4a1c-b96d-28f9f3a0fd1e)
        (effects (font (face ""A \""b\"" \c"") (size 1.27 2) (color 255 0 128 0.5) (thickness 0.3) bold italic (line_spacing 1.1)) (justify right top mirror) (href ""https://x.y/(z)"") hide)
        (render_cache ""ab\""c"" 0
          (polygon
            (pts
              (xy 1 2)              (xy 1.5 2)              (xy 0 -7)              (xy 0 0)
              (xy 9 9)
            )
          )
        )
      )
      (gr_line locked (start 2 3) (end 2 0.001) (layer ""F.Fab"") (width 1) (tstamp 7c2f5ab1-44ff-4a1c-b96d-28f9f3a0fd1e))
      (gr_poly locked (pts
          (xy 2 3)
          (xy 0.1 0)
          (xy 2 3)
          (xy -1.5 7)
        ) (layer ""F.Fab"") (width 0.15) (fill solid) (tstamp 7c2f5ab1-44ff-4a1c-b96d-28f9f3a0fd1e))
    ) (tstamp 7c2f5ab1-44ff-4a1c-b96d-28f9f3a0fd1e))
  (pad ""x"" smd rect (at 0.0 0.0) (size 0.0 0.0) (layers))
  (zone locked (net 12) (net_name ""Net \""(1)\"""") (layers ""F.Cu"" ""B.Cu"") (tstamp 7c2f5ab1-44ff-4a1c-b96d-28f9f3a0fd1e) (name ""my zone"") (hatch edge 0.508)
    (priority 3)
    (connect_pads thru_hole_only (clearance 0.2))
    (min_thickness 0.254) (filled_areas_thickness no)
    (keepout (tracks allowed) (vias not_allowed) (pads allowed ) (copperpour not-allowed) (footprints not-allowed))
    (fill yes (mode hatch) (thermal_gap 0.5) (thermal_bridge_width 0.508) (smoothing chamfer) (radius 1) (island_removal_mode 2) (island_area_min 10)
      (hatch_thickness 1) (hatch_gap 1.5) (hatch_orientation 45)
      (hatch_smoothing_level 1) (hatch_smoothing_value 0.1)
      (hatch_border_algorithm 0) (hatch_min_hole_area 0.3))
    (polygon
      (pts
        (xy 2 3)
        (xy 0.1 0)
        (xy 2 3)
        (xy -1.5 7)
      )
    )
    (polygon
      (pts
        (xy 1 2)
      )
    )
    (filled_polygon
      (layer ""F.Cu"")
      (island)
      (pts
        (xy 2 3)
        (xy 0.1 0)
        (xy 2 3)
        (xy -1.5 7)
      )
    )
    (fill_segments
      (layer ""B.Cu"")
      (pts
        (xy 2 3)
        (xy 0.1 0)
        (xy 2 3)
        (xy -1.5 7)
      )
    )
  )
  (model ""${KICAD6_3DMODEL_DIR}/a \""b\"".wrl"" hide
    (opacity 0.5)
    (offset (xyz 2.5 -3 1.0))
    (scale (xyz 1 1 0.1))
    (rotate (xyz 0 90 0))
  )
  (model ""${KICAD6_3DMODEL_DIR}/a \""b\"".wrl"" hide
    (opacity 0.5)
    (offset (xyz 2.5 -3 1.0))
    (scale (xyz 1 1 0.1))
    (rotate (xyz 0 90 0))
  )
  (group ""g \""1\"""" locked (id 6fe2b9d8-0001)
    (members
      0012
      abc-1
    )
  )
)" = true.
Proof. vm_compute. reflexivity. Qed.

Theorem C53_DimensionFormat : tells_apart DimensionFormat_to DimensionFormat_ok DimensionFormat_eqb.
Proof. exact (tell _ _ _ _ _ DimensionFormat_rt DimensionFormat_q). Qed.
Print Assumptions C53_DimensionFormat.
Example C53_DimensionFormat_case : twice DimensionFormat_to DimensionFormat_from DimensionFormat_ok "(format (prefix ""a \""("") (suffix ""mm"") (units 2) (units_format 0) (precision 7) (override_value ""1 \ 2"") suppress_zeroes)" = true.
Proof. vm_compute. reflexivity. Qed.

Theorem C53_DimensionStyle : tells_apart DimensionStyle_to DimensionStyle_ok DimensionStyle_eqb.
Proof. exact (tell _ _ _ _ _ DimensionStyle_rt DimensionStyle_q). Qed.
Print Assumptions C53_DimensionStyle.
Example C53_DimensionStyle_case : twice DimensionStyle_to DimensionStyle_from DimensionStyle_ok "(style (thickness 0.15) (arrow_length 1.27) (text_position_mode 2) (extension_height 0.58642) (text_frame 3) (extension_offset 0.5) keep_text_aligned)" = true.
Proof. vm_compute. reflexivity. Qed.

Theorem C53_Dimension : tells_apart Dimension_to Dimension_ok Dimension_eqb.
Proof. exact (tell _ _ _ _ _ Dimension_rt Dimension_q). Qed.
Print Assumptions C53_Dimension.
Example C53_Dimension_case : twice Dimension_to Dimension_from Dimension_ok "(dimension (type orthogonal) (layer ""Dwgs.User (1)"") (tstamp 7c2f5ab1-44ff-4a1c-b96d-28f9f3a0fd1e)
  (pts (xy 2 3) (xy 0.1 0) (xy 2 3) (xy -1.5 7))
  (height -2.5)
  (orientation 1)
  (leader_length 2)
  (gr_text ""a \""(b)\"" \ c"" (at 1 2.5 90) (layer ""F.SilkS"" knockout) (tstamp 7c2f5ab1-44ff-4a1c-b96d-28f9f3a0fd1e)
    (effects (font (face ""A \""b\"" \c"") (size 1.27 2) (color 255 0 128 0.5) (thickness 0.3) bold italic (line_spacing 1.1)) (justify right top mirror) (href ""https://x.y/(z)"") hide)
    (render_cache ""ab\""c"" 0
      (polygon
        (pts
          (xy 1 2)          (xy 1.5 2)          (xy 0 -7)          (xy 0 0)
          (xy 9 9)
        )
      )
    )
  )
  (format (prefix ""a \""("") (suffix ""mm"") (units 2) (units_format 0) (precision 7) (override_value ""1 \ 2"") suppress_zeroes)
  (style (thickness 0.15) (arrow_length 1.27) (text_position_mode 2) (extension_height 0.58642) (text_frame 3) (extension_offset 0.5) keep_text_aligned)
)" = true.
Proof. vm_compute. reflexivity. Qed.

Theorem C53_GeneralSettings : tells_apart GeneralSettings_to GeneralSettings_ok GeneralSettings_eqb.
Proof. exact (tell _ _ _ _ _ GeneralSettings_rt GeneralSettings_q). Qed.
Print Assumptions C53_GeneralSettings.
Example C53_GeneralSettings_case : twice GeneralSettings_to GeneralSettings_from GeneralSettings_ok "(general (thickness 0.8))" = true.
Proof. vm_compute. reflexivity. Qed.

Theorem C53_LayerToken : tells_apart LayerToken_to LayerToken_ok LayerToken_eqb.
Proof. exact (tell _ _ _ _ _ LayerToken_rt LayerToken_q). Qed.
Print Assumptions C53_LayerToken.
Example C53_LayerToken_case : twice LayerToken_to LayerToken_from LayerToken_ok "(37 ""F.Silk\""S"" user ""F.Silkscreen (top)"")" = true.
Proof. vm_compute. reflexivity. Qed.

Theorem C53_StackupLayer : tells_apart StackupLayer_to StackupLayer_ok StackupLayer_eqb.
Proof. exact (tell _ _ _ _ _ StackupLayer_rt StackupLayer_q). Qed.
Print Assumptions C53_StackupLayer.
Example C53_StackupLayer_case : twice StackupLayer_to StackupLayer_from StackupLayer_ok "(layer ""dielectric 1"" (type ""core"") (color ""Green"") (thickness 1.51) (material ""FR4"") (epsilon_r 4.5)
  addsublayer (thickness 0.48) (material ""FR4 \""(x)\"""") (epsilon_r 4.5) (loss_tangent 0.02)
  addsublayer (thickness 1) (loss_tangent 0.02)
  addsublayer (thickness 0.48) (material ""FR4 \""(x)\"""") (epsilon_r 4.5) (loss_tangent 0.02))" = true.
Proof. vm_compute. reflexivity. Qed.

Theorem C53_Stackup : tells_apart Stackup_to Stackup_ok Stackup_eqb.
Proof. exact (tell _ _ _ _ _ Stackup_rt Stackup_q). Qed.
Print Assumptions C53_Stackup.
Example C53_Stackup_case : twice Stackup_to Stackup_from Stackup_ok "(stackup
  (layer ""F.SilkS"" (type ""Top Silk Screen""))
  (layer ""dielectric 1"" (type ""core"") (color ""Green"") (thickness 1.51) (material ""FR4"") (epsilon_r 4.5)
    addsublayer (thickness 0.48) (material ""FR4 \""(x)\"""") (epsilon_r 4.5) (loss_tangent 0.02)
    addsublayer (thickness 1) (loss_tangent 0.02)
    addsublayer (thickness 0.48) (material ""FR4 \""(x)\"""") (epsilon_r 4.5) (loss_tangent 0.02))
  (copper_finish ""ENIG"")
  (dielectric_constraints no)
  (edge_connector bevelled)
  (castellated_pads yes)
)" = true.
Proof. vm_compute. reflexivity. Qed.

Theorem C53_PlotSettings : tells_apart PlotSettings_to PlotSettings_ok PlotSettings_eqb.
Proof. exact (tell _ _ _ _ _ PlotSettings_rt PlotSettings_q). Qed.
Print Assumptions C53_PlotSettings.
Example C53_PlotSettings_case : twice PlotSettings_to PlotSettings_from PlotSettings_ok "(pcbplotparams
  (layerselection 0x00010fc_ffffffff)
  (plot_on_all_layers_selection 0x0000000_00000000)
  (disableapertmacros false)
  (usegerberextensions false)
  (usegerberattributes false)
  (usegerberadvancedattributes false)
  (creategerberjobfile false)
  (dashed_line_dash_ratio 12.000000)
  (dashed_line_gap_ratio 3.000001)
  (svguseinch false)
  (svgprecision 0.0)
  (excludeedgelayer true)
  (plotframeref false)
  (viasonmask true)
  (mode 1)
  (useauxorigin false)
  (hpglpennumber 0)
  (hpglpenspeed 0)
  (hpglpendiameter 1.500000)
  (dxfpolygonmode false)
  (dxfimperialunits false)
  (dxfusepcbnewfont false)
  (psnegative false)
  (psa4output false)
  (plotreference false)
  (plotvalue false)
  (plotinvisibletext false)
  (sketchpadsonfab false)
  (subtractmaskfromsilk false)
  (outputformat 0)
  (mirror true)
  (drillshape 0)
  (scaleselection 1)
  (outputdirectory ""out \""(1)\""/"")
)" = true.
Proof. vm_compute. reflexivity. Qed.

Theorem C53_SetupData : tells_apart SetupData_to SetupData_ok SetupData_eqb.
Proof. exact (tell _ _ _ _ _ SetupData_rt SetupData_q). Qed.
Print Assumptions C53_SetupData.
Example C53_SetupData_case : twice SetupData_to SetupData_from SetupData_ok "(setup
  (stackup
    (layer ""F.SilkS"" (type ""Top Silk Screen""))
    (layer ""dielectric 1"" (type ""core"") (color ""Green"") (thickness 1.51) (material ""FR4"") (epsilon_r 4.5)
      addsublayer (thickness 0.48) (material ""FR4 \""(x)\"""") (epsilon_r 4.5) (loss_tangent 0.02)
      addsublayer (thickness 1) (loss_tangent 0.02)
      addsublayer (thickness 0.48) (material ""FR4 \""(x)\"""") (epsilon_r 4.5) (loss_tangent 0.02))
    (copper_finish ""ENIG"")
    (dielectric_constraints no)
    (edge_connector bevelled)
    (castellated_pads yes)
  )
  (pad_to_mask_clearance 0.05)
  (solder_mask_min_width 0.1)
  (pad_to_paste_clearance_ratio -0.05)
  (aux_axis_origin 1 2.5)
  (pcbplotparams
    (layerselection 0x00010fc_ffffffff)
    (plot_on_all_layers_selection 0x0000000_00000000)
    (disableapertmacros false)
    (usegerberextensions false)
    (usegerberattributes false)
    (usegerberadvancedattributes false)
    (creategerberjobfile false)
    (dashed_line_dash_ratio 12.000000)
    (dashed_line_gap_ratio 3.000001)
    (svguseinch false)
    (svgprecision 0.0)
    (excludeedgelayer true)
    (plotframeref false)
    (viasonmask true)
    (mode 1)
    (useauxorigin false)
    (hpglpennumber 0)
    (hpglpenspeed 0)
    (hpglpendiameter 1.500000)
    (dxfpolygonmode false)
    (dxfimperialunits false)
    (dxfusepcbnewfont false)
    (psnegative false)
    (psa4output false)
    (plotreference false)
    (plotvalue false)
    (plotinvisibletext false)
    (sketchpadsonfab false)
    (subtractmaskfromsilk false)
    (outputformat 0)
    (mirror true)
    (drillshape 0)
    (scaleselection 1)
    (outputdirectory ""out \""(1)\""/"")
  )
)" = true.
Proof. vm_compute. reflexivity. Qed.

Theorem C53_Segment : tells_apart Segment_to Segment_ok Segment_eqb.
Proof. exact (tell _ _ _ _ _ Segment_rt Segment_q). Qed.
Print Assumptions C53_Segment.
Example C53_Segment_case : twice Segment_to Segment_from Segment_ok "(segment locked (start 1 2.5) (end 3 4) (width 0.25) (layer ""F.Cu"") (net 7) (tstamp 7c2f5ab1-44ff-4a1c-b96d-28f9f3a0fd1e))" = true.
Proof. vm_compute. reflexivity. Qed.

Theorem C53_Via : tells_apart Via_to Via_ok Via_eqb.
Proof. exact (tell _ _ _ _ _ Via_rt Via_q). Qed.
Print Assumptions C53_Via.
Example C53_Via_case : twice Via_to Via_from Via_ok "(via blind locked (at 1 2.5) (size 0.8) (drill 0.4) (layers ""F.Cu"" ""In 1 \""(x)\"""") (remove_unused_layers) (keep_end_layers) (free) (net 3) (tstamp 7c2f5ab1-44ff-4a1c-b96d-28f9f3a0fd1e))" = true.
Proof. vm_compute. reflexivity. Qed.

Theorem C53_Arc : tells_apart Arc_to Arc_ok Arc_eqb.
Proof. exact (tell _ _ _ _ _ Arc_rt Arc_q). Qed.
Print Assumptions C53_Arc.
Example C53_Arc_case : twice Arc_to Arc_from Arc_ok "(arc locked (start 1 2.5) (mid 3 4) (end 5 4) (width 0.25) (layer ""F \""Cu"") (net 7))" = true.
Proof. vm_compute. reflexivity. Qed.

Theorem C53_Target : tells_apart Target_to Target_ok Target_eqb.
Proof. exact (tell _ _ _ _ _ Target_rt Target_q). Qed.
Print Assumptions C53_Target.
Example C53_Target_case : twice Target_to Target_from Target_ok "(target x (at 1 2.5) (size 5) (width 0.05) (layer ""Edge.Cuts"") (tstamp 7c2f5ab1-44ff-4a1c-b96d-28f9f3a0fd1e))" = true.
Proof. vm_compute. reflexivity. Qed.

Theorem C53_Board : tells_apart Board_to Board_ok Board_eqb.
Proof. exact (tell _ _ _ _ _ (Board_rt VNone) Board_q). Qed.
Print Assumptions C53_Board.
Example C53_Board_case : twice Board_to (Board_from (VStr $"0")) Board_ok "(kicad_pcb (version 20221018) (generator pcbnew)

  (general
    (thickness 1.6)
  )

  (paper ""A3"" portrait)
  (title_block
    (title ""T"")
    (rev ""1.0"")
    (company """")
    (comment 1 ""one"")
    (comment 4 ""four (4)"")
  )

  (layers
    (0 ""F.Cu"" signal)
    (31 ""B.Cu"" signal)
    (32 ""B.Adhes"" user ""B.Adhesive"")
    (33 ""F.Adhes"" user ""F.Adhesive"")
    (34 ""B.Paste"" user)
    (35 ""F.Paste"" user)
    (36 ""B.SilkS"" user ""B.Silkscreen"")
    (37 ""F.SilkS"" user ""F.Silkscreen"")
    (38 ""B.Mask"" user)
    (39 ""F.Mask"" user)
    (40 ""Dwgs.User"" user ""User.Drawings"")
    (41 ""Cmts.User"" user ""User.Comments"")
    (42 ""Eco1.User"" user ""User.Eco1"")
    (43 ""Eco2.User"" user ""User.Eco2"")
    (44 ""Edge.Cuts"" user)
    (45 ""Margin"" user)
    (46 ""B.CrtYd"" user ""B.Courtyard"")
    (47 ""F.CrtYd"" user ""F.Courtyard"")
    (48 ""B.Fab"" user)
    (49 ""F.Fab"" user)
    (50 ""User.1"" user)
    (51 ""User.2"" user)
    (52 ""User.3"" user)
    (53 ""User.4"" user)
    (54 ""User.5"" user)
    (55 ""User.6"" user)
    (56 ""User.7"" user)
    (57 ""User.8"" user)
    (58 ""User.9"" user)
  )

  (setup
    (stackup
      (layer ""F.SilkS"" (type ""Top Silk Screen""))
      (layer ""dielectric 1"" (type ""core"") (color ""Green"") (thickness 1.51) (material ""FR4"") (epsilon_r 4.5)
        addsublayer (thickness 0.48) (material ""FR4 \""(x)\"""") (epsilon_r 4.5) (loss_tangent 0.02)
        addsublayer (thickness 1) (loss_tangent 0.02)
        addsublayer (thickness 0.48) (material ""FR4 \""(x)\"""") (epsilon_r 4.5) (loss_tangent 0.02))
      (copper_finish ""ENIG"")
      (dielectric_constraints no)
      (edge_connector bevelled)
      (castellated_pads yes)
    )
    (pad_to_mask_clearance 0.05)
    (solder_mask_min_width 0.1)
    (pad_to_paste_clearance_ratio -0.05)
    (aux_axis_origin 1 2.5)
    (pcbplotparams
      (layerselection 0x00010fc_ffffffff)
      (plot_on_all_layers_selection 0x0000000_00000000)
      (disableapertmacros false)
      (usegerberextensions false)
      (usegerberattributes false)
      (usegerberadvancedattributes false)
      (creategerberjobfile false)
      (dashed_line_dash_ratio 12.000000)
      (dashed_line_gap_ratio 3.000001)
      (svguseinch false)
      (svgprecision 0.0)
      (excludeedgelayer true)
      (plotframeref false)
      (viasonmask true)
      (mode 1)
      (useauxorigin false)
      (hpglpennumber 0)
      (hpglpenspeed 0)
      (hpglpendiameter 1.500000)
      (dxfpolygonmode false)
      (dxfimperialunits false)
      (dxfusepcbnewfont false)
      (psnegative false)
      (psa4output false)
      (plotreference false)
      (plotvalue false)
      (plotinvisibletext false)
      (sketchpadsonfab false)
      (subtractmaskfromsilk false)
      (outputformat 0)
      (mirror true)
      (drillshape 0)
      (scaleselection 1)
      (outputdirectory ""out \""(1)\""/"")
    )
  )

  (property ""LAYER"" ""top \""x\"""")
  (property ""k 2"" """")

  (net 0 """")
  (net 1 ""Net-(U1-Pad3)"")

  (footprint ""Package_SO:SOIC-8 \""x\"""" locked placed (version 20211014) (generator pcbnew) (layer ""B.Cu"")
    (tedit 65fa1b2c) (tstamp 7c2f5ab1-44ff-4a1c-b96d-28f9f3a0fd1e)
    (at 1 2 180)
    (descr ""d \""(1)\"""")
    (tags ""a b"")
    (property ""Sheetfile"" ""x.kicad_sch"")
    (property ""k 2"" """")
    (path ""/1/2"")
    (autoplace_cost90 1)
    (autoplace_cost180 2)
    (solder_mask_margin 0.1)
    (solder_paste_margin 0.2)
    (solder_paste_ratio 0.3)
    (clearance 0.4)
    (zone_connect 2)
    (thermal_width 0.5)
    (thermal_gap 0.6)
    (attr through_hole board_only exclude_from_pos_files exclude_from_bom allow_missing_courtyard)
    (private_layers ""User.1"")
    (net_tie_pad_groups ""1, 2"" ""3"")
    (fp_text user ""a \""(b)\"" \ c"" (at 1 2.5 90 unlocked) (layer ""F.SilkS"" knockout) hide
      (effects (font (face ""A \""b\"" \c"") (size 1.27 2) (color 255 0 128 0.5) (thickness 0.3) bold italic (line_spacing 1.1)) (justify right top mirror) (href ""https://x.y/(z)"") hide)
      (tstamp 7c2f5ab1-44ff-4a1c-b96d-28f9f3a0fd1e)
      (render_cache ""ab\""c"" 0
        (polygon
          (pts
            (xy 1 2)            (xy 1.5 2)            (xy 0 -7)            (xy 0 0)
            (xy 9 9)
          )
        )
      )
    )
    (fp_curve (pts
      (xy 2 3)
      (xy 0.1 0)
      (xy 2 3)
      (xy -1.5 7)
    ) (layer ""F.Fab"") (width 0.15) locked (tstamp 7c2f5ab1-44ff-4a1c-b96d-28f9f3a0fd1e))
    (image (at 12.34 5) (layer ""F.SilkS"") (scale 0.5)
      (uuid a-b-c)
      (data
        iVBORw0KGgo=
        12
      )
    )
    (pad ""A \""1\"""" thru_hole custom locked (at 1 2.5 90) (size 1 2) (drill oval 0.8 2 (offset 1 0.5)) (property pad_prop_bga) (layers *.Cu ""F.Mask"" F&B.Paste ""In1 (x)"") (remove_unused_layers) (keep_end_layers) (roundrect_rratio 0.25)
      (chamfer_ratio 0.1) (chamfer top_left bottom_right)
      (die_length 3)
      (net 17 ""Net-(U1-Pad3)"") (pinfunction ""fn"") (pintype ""bidirectional+no_connect"") (solder_mask_margin 0.1) (solder_paste_margin 0.2) (solder_paste_margin_ratio 0.3) (clearance 0.4) (zone_connect 2) (thermal_width 0.5) (thermal_gap 0.6)
      (options (clearance convexhull) (anchor circle))
      (primitives
        (gr_text ""a \""(b)\"" \ c"" (at 1 2.5 90) (layer ""F.SilkS"" knockout) (tstamp 7c2f5ab1-44ff-4a1c-b96d-28f9f3a0fd1e)
          (effects (font (face ""A \""b\"" \c"") (size 1.27 2) (color 255 0 128 0.5) (thickness 0.3) bold italic (line_spacing 1.1)) (justify right top mirror) (href ""https://x.y/(z)"") hide)
          (render_cache ""ab\""c"" 0
            (polygon
              (pts
                (xy 1 2)                (xy 1.5 2)                (xy 0 -7)                (xy 0 0)
                (xy 9 9)
              )
            )
          )
        )
        (gr_line locked (start 2 3) (end 2 0.001) (layer ""F.Fab"") (width 1) (tstamp 7c2f5ab1-44ff-4a1c-b96d-28f9f3a0fd1e))
        (gr_poly locked (pts
            (xy 2 3)
            (xy 0.1 0)
            (xy 2 3)
            (xy -1.5 7)
          ) (layer ""F.Fab"") (width 0.15) (fill solid) (tstamp 7c2f5ab1-44ff-4a1c-b96d-28f9f3a0fd1e))
      ) (tstamp 7c2f5ab1-44ff-4a1c-b96d-28f9f3a0fd1e))
    (pad ""x"" smd rect (at 0.0 0.0) (size 0.0 0.0) (layers))
    (zone locked (net 12) (net_name ""Net \""(1)\"""") (layers ""F.Cu"" ""B.Cu"") (tstamp 7c2f5ab1-44ff-4a1c-b96d-28f9f3a0fd1e) (name ""my zone"") (hatch edge 0.508)
      (priority 3)
      (connect_pads thru_hole_only (clearance 0.2))
      (min_thickness 0.254) (filled_areas_thickness no)
      (keepout (tracks allowed) (vias not_allowed) (pads allowed ) (copperpour not-allowed) (footprints not-allowed))
      (fill yes (mode hatch) (thermal_gap 0.5) (thermal_bridge_width 0.508) (smoothing chamfer) (radius 1) (island_removal_mode 2) (island_area_min 10)
        (hatch_thickness 1) (hatch_gap 1.5) (hatch_orientation 45)
        (hatch_smoothing_level 1) (hatch_smoothing_value 0.1)
        (hatch_border_algorithm 0) (hatch_min_hole_area 0.3))
      (polygon
        (pts
          (xy 2 3)
          (xy 0.1 0)
          (xy 2 3)
          (xy -1.5 7)
        )
      )
      (polygon
        (pts
          (xy 1 2)
        )
      )
      (filled_polygon
        (layer ""F.Cu"")
        (island)
        (pts
          (xy 2 3)
          (xy 0.1 0)
          (xy 2 3)
          (xy -1.5 7)
        )
      )
    (fill_segments
      (layer ""B.Cu"")
      (pts
        (xy 2 3)
        (xy 0.1 0)
        (xy 2 3)
        (xy -1.5 7)
      )
    )
    )
    (model ""${KICAD6_3DMODEL_DIR}/a \""b\"".wrl"" hide
      (opacity 0.5)
      (offset (xyz 2.5 -3 1.0))
      (scale (xyz 1 1 0.1))
      (rotate (xyz 0 90 0))
    )
    (model ""${KICAD6_3DMODEL_DIR}/a \""b\"".wrl"" hide
      (opacity 0.5)
      (offset (xyz 2.5 -3 1.0))
      (scale (xyz 1 1 0.1))
      (rotate (xyz 0 90 0))
    )
    (group ""g \""1\"""" locked (id 6fe2b9d8-0001)
      (members
        0012
        abc-1
      )
    )
  )

  (footprint ""Package_SO:SOIC-8 \""x\"""" locked placed (version 20211014) (generator pcbnew) (layer ""B.Cu"")
    (tedit 5) (tstamp 7c2f5ab1-44ff-4a1c-b96d-28f9f3a0fd1e)
    (at 1 2 180)
    (descr ""d \""(1)\"""")
    (tags ""a b"")
    (property ""Sheetfile"" ""x.kicad_sch"")
    (property ""k 2"" """")
    (path ""/1/2"")
    (autoplace_cost90 1)
    (autoplace_cost180 2)
    (solder_mask_margin 0.1)
    (solder_paste_margin 0.2)
    (solder_paste_ratio 0.3)
    (clearance 0.4)
    (zone_connect 2)
    (thermal_width 0.5)
    (thermal_gap 0.6)
    (attr through_hole board_only exclude_from_pos_files exclude_from_bom allow_missing_courtyard)
    (private_layers ""User.1"")
    (net_tie_pad_groups ""1, 2"" ""3"")
    (fp_text user ""a \""(b)\"" \ c"" (at 1 2.5 90 unlocked) (layer ""F.SilkS"" knockout) hide
      (effects (font (face ""A \""b\"" \c"") (size 1.27 2) (color 255 0 128 0.5) (thickness 0.3) bold italic (line_spacing 1.1)) (justify right top mirror) (href ""https://x.y/(z)"") hide)
      (tstamp 7c2f5ab1-44ff-4a1c-b96d-28f9f3a0fd1e)
      (render_cache ""ab\""c"" 0
        (polygon
          (pts
            (xy 1 2)            (xy 1.5 2)            (xy 0 -7)            (xy 0 0)
            (xy 9 9)
          )
        )
      )
    )
    (fp_curve (pts
      (xy 2 3)
      (xy 0.1 0)
      (xy 2 3)
      (xy -1.5 7)
    ) (layer ""F.Fab"") (width 0.15) locked (tstamp 7c2f5ab1-44ff-4a1c-b96d-28f9f3a0fd1e))
    (image (at 12.34 5) (layer ""F.SilkS"") (scale 0.5)
      (uuid a-b-c)
      (data
        iVBORw0KGgo=
        12
      )
    )
    (pad ""A \""1\"""" thru_hole custom locked (at 1 2.5 90) (size 1 2) (drill oval 0.8 2 (offset 1 0.5)) (property pad_prop_bga) (layers *.Cu ""F.Mask"" F&B.Paste ""In1 (x)"") (remove_unused_layers) (keep_end_layers) (roundrect_rratio 0.25)
      (chamfer_ratio 0.1) (chamfer top_left bottom_right)
      (die_length 3)
      (net 17 ""Net-(U1-Pad3)"") (pinfunction ""fn"") (pintype ""bidirectional+no_connect"") (solder_mask_margin 0.1) (solder_paste_margin 0.2) (solder_paste_margin_ratio 0.3) (clearance 0.4) (zone_connect 2) (thermal_width 0.5) (thermal_gap 0.6)
      (options (clearance convexhull) (anchor circle))
      (primitives
        (gr_text ""a \""(b)\"" \ c"" (at 1 2.5 90) (layer ""F.SilkS"" knockout) (tstamp 7c2f5ab1-44ff-4a1c-b96d-28f9f3a0fd1e)
          (effects (font (face ""A \""b\"" \c"") (size 1.27 2) (color 255 0 128 0.5) (thickness 0.3) bold italic (line_spacing 1.1)) (justify right top mirror) (href ""https://x.y/(z)"") hide)
          (render_cache ""ab\""c"" 0
            (polygon
              (pts
                (xy 1 2)                (xy 1.5 2)                (xy 0 -7)                (xy 0 0)
                (xy 9 9)
              )
            )
          )
        )
        (gr_line locked (start 2 3) (end 2 0.001) (layer ""F.Fab"") (width 1) (tstamp 7c2f5ab1-44ff-4a1c-b96d-28f9f3a0fd1e))
        (gr_poly locked (pts
            (xy 2 3)
            (xy 0.1 0)
            (xy 2 3)
            (xy -1.5 7)
          ) (layer ""F.Fab"") (width 0.15) (fill solid) (tstamp 7c2f5ab1-44ff-4a1c-b96d-28f9f3a0fd1e))
      ) (tstamp 7c2f5ab1-44ff-4a1c-b96d-28f9f3a0fd1e))
    (pad ""x"" smd rect (at 0.0 0.0) (size 0.0 0.0) (layers))
    (zone locked (net 12) (net_name ""Net \""(1)\"""") (layers ""F.Cu"" ""B.Cu"") (tstamp 7c2f5ab1-44ff-4a1c-b96d-28f9f3a0fd1e) (name ""my zone"") (hatch edge 0.508)
      (priority 3)
      (connect_pads thru_hole_only (clearance 0.2))
      (min_thickness 0.254) (filled_areas_thickness no)
      (keepout (tracks allowed) (vias not_allowed) (pads allowed ) (copperpour not-allowed) (footprints not-allowed))
      (fill yes (mode hatch) (thermal_gap 0.5) (thermal_bridge_width 0.508) (smoothing chamfer) (radius 1) (island_removal_mode 2) (island_area_min 10)
        (hatch_thickness 1) (hatch_gap 1.5) (hatch_orientation 45)
        (hatch_smoothing_level 1) (hatch_smoothing_value 0.1)
        (hatch_border_algorithm 0) (hatch_min_hole_area 0.3))
      (polygon
        (pts
          (xy 2 3)
          (xy 0.1 0)
          (xy 2 3)
          (xy -1.5 7)
        )
      )
      (polygon
        (pts
          (xy 1 2)
        )
      )
      (filled_polygon
        (layer ""F.Cu"")
        (island)
        (pts
          (xy 2 3)
          (xy 0.1 0)
          (xy 2 3)
          (xy -1.5 7)
        )
      )
    (fill_segments
      (layer ""B.Cu"")
      (pts
        (xy 2 3)
        (xy 0.1 0)
        (xy 2 3)
        (xy -1.5 7)
      )
    )
    )
    (model ""${KICAD6_3DMODEL_DIR}/a \""b\"".wrl"" hide
      (opacity 0.5)
      (offset (xyz 2.5 -3 1.0))
      (scale (xyz 1 1 0.1))
      (rotate (xyz 0 90 0))
    )
    (model ""${KICAD6_3DMODEL_DIR}/a \""b\"".wrl"" hide
      (opacity 0.5)
      (offset (xyz 2.5 -3 1.0))
      (scale (xyz 1 1 0.1))
      (rotate (xyz 0 90 0))
    )
    (group ""g \""1\"""" locked (id 6fe2b9d8-0001)
      (members
        0012
        abc-1
      )
    )
  )

  (gr_text ""a \""(b)\"" \ c"" (at 1 2.5 90) (layer ""F.SilkS"" knockout) (tstamp 7c2f5ab1-44ff-4a1c-b96d-28f9f3a0fd1e)
    (effects (font (face ""A \""b\"" \c"") (size 1.27 2) (color 255 0 128 0.5) (thickness 0.3) bold italic (line_spacing 1.1)) (justify right top mirror) (href ""https://x.y/(z)"") hide)
    (render_cache ""ab\""c"" 0
      (polygon
        (pts
          (xy 1 2)          (xy 1.5 2)          (xy 0 -7)          (xy 0 0)
          (xy 9 9)
        )
      )
    )
  )
  (gr_line locked (start 2 3) (end 2 0.001) (layer ""F.Fab"") (width 1) (tstamp 7c2f5ab1-44ff-4a1c-b96d-28f9f3a0fd1e))
  (gr_poly locked
    (pts
      (xy 2 3)
      (xy 0.1 0)
      (xy 2 3)
      (xy -1.5 7)
    ) (layer ""F.Fab"") (width 0.15) (fill solid) (tstamp 7c2f5ab1-44ff-4a1c-b96d-28f9f3a0fd1e))
  (image (at 12.34 5) (layer ""F.SilkS"") (scale 0.5)
    (uuid a-b-c)
    (data
      iVBORw0KGgo=
      12
    )
  )
  (dimension (type orthogonal) (layer ""Dwgs.User (1)"") (tstamp 7c2f5ab1-44ff-4a1c-b96d-28f9f3a0fd1e)
    (pts (xy 2 3) (xy 0.1 0) (xy 2 3) (xy -1.5 7))
    (height -2.5)
    (orientation 1)
    (leader_length 2)
    (gr_text ""a \""(b)\"" \ c"" (at 1 2.5 90) (layer ""F.SilkS"" knockout) (tstamp 7c2f5ab1-44ff-4a1c-b96d-28f9f3a0fd1e)
      (effects (font (face ""A \""b\"" \c"") (size 1.27 2) (color 255 0 128 0.5) (thickness 0.3) bold italic (line_spacing 1.1)) (justify right top mirror) (href ""https://x.y/(z)"") hide)
      (render_cache ""ab\""c"" 0
        (polygon
          (pts
            (xy 1 2)            (xy 1.5 2)            (xy 0 -7)            (xy 0 0)
            (xy 9 9)
          )
        )
      )
    )
    (format (prefix ""a \""("") (suffix ""mm"") (units 2) (units_format 0) (precision 7) (override_value ""1 \ 2"") suppress_zeroes)
    (style (thickness 0.15) (arrow_length 1.27) (text_position_mode 2) (extension_height 0.58642) (text_frame 3) (extension_offset 0.5) keep_text_aligned)
  )
  (target x (at 1 2.5) (size 5) (width 0.05) (layer ""Edge.Cuts"") (tstamp 7c2f5ab1-44ff-4a1c-b96d-28f9f3a0fd1e))

  (segment locked (start 1 2.5) (end 3 4) (width 0.25) (layer ""F.Cu"") (net 7) (tstamp 7c2f5ab1-44ff-4a1c-b96d-28f9f3a0fd1e))
  (via blind locked (at 1 2.5) (size 0.8) (drill 0.4) (layers ""F.Cu"" ""In 1 \""(x)\"""") (remove_unused_layers) (keep_end_layers) (free) (net 3) (tstamp 7c2f5ab1-44ff-4a1c-b96d-28f9f3a0fd1e))
  (arc locked (start 1 2.5) (mid 3 4) (end 5 4) (width 0.25) (layer ""F \""Cu"") (net 7))
  (via (at 0.0 0.0) (size 0.0) (drill 0.0) (layers) (net 0))

  (zone locked (net 12) (net_name ""Net \""(1)\"""") (layers ""F.Cu"" ""B.Cu"") (tstamp 7c2f5ab1-44ff-4a1c-b96d-28f9f3a0fd1e) (name ""my zone"") (hatch edge 0.508)
    (priority 3)
    (connect_pads thru_hole_only (clearance 0.2))
    (min_thickness 0.254) (filled_areas_thickness no)
    (keepout (tracks allowed) (vias not_allowed) (pads allowed ) (copperpour not-allowed) (footprints not-allowed))
    (fill yes (mode hatch) (thermal_gap 0.5) (thermal_bridge_width 0.508) (smoothing chamfer) (radius 1) (island_removal_mode 2) (island_area_min 10)
      (hatch_thickness 1) (hatch_gap 1.5) (hatch_orientation 45)
      (hatch_smoothing_level 1) (hatch_smoothing_value 0.1)
      (hatch_border_algorithm 0) (hatch_min_hole_area 0.3))
    (polygon
      (pts
        (xy 2 3)
        (xy 0.1 0)
        (xy 2 3)
        (xy -1.5 7)
      )
    )
    (polygon
      (pts
        (xy 1 2)
      )
    )
    (filled_polygon
      (layer ""F.Cu"")
      (island)
      (pts
        (xy 2 3)
        (xy 0.1 0)
        (xy 2 3)
        (xy -1.5 7)
      )
    )
    (fill_segments
      (layer ""B.Cu"")
      (pts
        (xy 2 3)
        (xy 0.1 0)
        (xy 2 3)
        (xy -1.5 7)
      )
    )
  )
  (group ""g \""1\"""" locked (id 6fe2b9d8-0001)
    (members
      0012
      abc-1
    )
  )
)" = true.
Proof. vm_compute. reflexivity. Qed.

Theorem C53_Junction : tells_apart Junction_to Junction_ok Junction_eqb.
Proof. exact (tell _ _ _ _ _ Junction_rt Junction_q). Qed.
Print Assumptions C53_Junction.
Example C53_Junction_case : twice Junction_to Junction_from Junction_ok "(junction (at 123.45 -7) (diameter 0) (color 255 0 128 0.5)
  (uuid 7c2f5ab1-44ff-4a1c-b96d-28f9f3a0fd1e)
)" = true.
Proof. vm_compute. reflexivity. Qed.

Theorem C53_NoConnect : tells_apart NoConnect_to NoConnect_ok NoConnect_eqb.
Proof. exact (tell _ _ _ _ _ NoConnect_rt NoConnect_q). Qed.
Print Assumptions C53_NoConnect.
Example C53_NoConnect_case : twice NoConnect_to NoConnect_from NoConnect_ok "(no_connect (at 123.45 -7) (uuid 7c2f5ab1-44ff-4a1c-b96d-28f9f3a0fd1e))" = true.
Proof. vm_compute. reflexivity. Qed.

Theorem C53_BusEntry : tells_apart BusEntry_to BusEntry_ok BusEntry_eqb.
Proof. exact (tell _ _ _ _ _ BusEntry_rt BusEntry_q). Qed.
Print Assumptions C53_BusEntry.
Example C53_BusEntry_case : twice BusEntry_to BusEntry_from BusEntry_ok "(bus_entry (at 123.45 -7) (size 2.54 3)
  (stroke (width 0.254) (type dash_dot) (color 255 0 128 0.5))
  (uuid 7c2f5ab1-44ff-4a1c-b96d-28f9f3a0fd1e)
)" = true.
Proof. vm_compute. reflexivity. Qed.

Theorem C53_BusAlias : tells_apart BusAlias_to BusAlias_ok BusAlias_eqb.
Proof. exact (tell _ _ _ _ _ BusAlias_rt BusAlias_q). Qed.
Print Assumptions C53_BusAlias.
Example C53_BusAlias_case : twice BusAlias_to BusAlias_from BusAlias_ok "(bus_alias ""a \""b\"""" (members ""A[0..7]"" """" ""x (y)""))" = true.
Proof. vm_compute. reflexivity. Qed.

Theorem C53_Connection : tells_apart Connection_to Connection_ok Connection_eqb.
Proof. exact (tell _ _ _ _ _ Connection_rt Connection_q). Qed.
Print Assumptions C53_Connection.
Example C53_Connection_case : twice Connection_to Connection_from Connection_ok "(bus (pts (xy 123.45 -7) (xy 1 0.5))
  (stroke (width 0.254) (type dash_dot) (color 255 0 128 0.5))
  (uuid 7c2f5ab1-44ff-4a1c-b96d-28f9f3a0fd1e)
)" = true.
Proof. vm_compute. reflexivity. Qed.

Theorem C53_PolyLine : tells_apart PolyLine_to PolyLine_ok PolyLine_eqb.
Proof. exact (tell _ _ _ _ _ PolyLine_rt PolyLine_q). Qed.
Print Assumptions C53_PolyLine.
Example C53_PolyLine_case : twice PolyLine_to PolyLine_from PolyLine_ok "(polyline (pts (xy 123.45 -7) (xy 1 0.5))
  (stroke (width 0.254) (type dash_dot) (color 255 0 128 0.5))
  (uuid 7c2f5ab1-44ff-4a1c-b96d-28f9f3a0fd1e)
)" = true.
Proof. vm_compute. reflexivity. Qed.

Theorem C53_Text : tells_apart Text_to Text_ok Text_eqb.
Proof. exact (tell _ _ _ _ _ Text_rt Text_q). Qed.
Print Assumptions C53_Text.
Example C53_Text_case : twice Text_to Text_from Text_ok "(text ""0123456789 0123456789 0123456789 (\""0123456789\"") 0123456""
  (at 123.45 7 270)
  (effects (font (face ""A \""b\"" \c"") (size 1.27 2) (color 255 0 128 0.5) (thickness 0.3) bold italic (line_spacing 1.1)) (justify right top mirror) (href ""https://x.y/(z)"") hide)
  (uuid 7c2f5ab1-44ff-4a1c-b96d-28f9f3a0fd1e)
)" = true.
Proof. vm_compute. reflexivity. Qed.

Theorem C53_TextBox : tells_apart TextBox_to TextBox_ok TextBox_eqb.
Proof. exact (tell _ _ _ _ _ TextBox_rt TextBox_q). Qed.
Print Assumptions C53_TextBox.
Example C53_TextBox_case : twice TextBox_to TextBox_from TextBox_ok "(text_box ""a \""b\""""
  (at 123.45 7 270) (size 3 0.001)
  (stroke (width 0.254) (type dash_dot) (color 255 0 128 0.5))
  (fill (type color) (color 255 0 128 0.5))
  (effects (font (face ""A \""b\"" \c"") (size 1.27 2) (color 255 0 128 0.5) (thickness 0.3) bold italic (line_spacing 1.1)) (justify right top mirror) (href ""https://x.y/(z)"") hide)
  (uuid 7c2f5ab1-44ff-4a1c-b96d-28f9f3a0fd1e)
)" = true.
Proof. vm_compute. reflexivity. Qed.

Theorem C53_LocalLabel : tells_apart LocalLabel_to LocalLabel_ok LocalLabel_eqb.
Proof. exact (tell _ _ _ _ _ LocalLabel_rt LocalLabel_q). Qed.
Print Assumptions C53_LocalLabel.
Example C53_LocalLabel_case : twice LocalLabel_to LocalLabel_from LocalLabel_ok "(label ""a \""b\"""" (at 123.45 7 270) (fields_autoplaced)
  (effects (font (face ""A \""b\"" \c"") (size 1.27 2) (color 255 0 128 0.5) (thickness 0.3) bold italic (line_spacing 1.1)) (justify right top mirror) (href ""https://x.y/(z)"") hide)
  (uuid 7c2f5ab1-44ff-4a1c-b96d-28f9f3a0fd1e)
)" = true.
Proof. vm_compute. reflexivity. Qed.

Theorem C53_GlobalLabel : tells_apart GlobalLabel_to GlobalLabel_ok GlobalLabel_eqb.
Proof. exact (tell _ _ _ _ _ GlobalLabel_rt GlobalLabel_q). Qed.
Print Assumptions C53_GlobalLabel.
Example C53_GlobalLabel_case : twice GlobalLabel_to GlobalLabel_from GlobalLabel_ok "(global_label ""a \""b\"""" (shape bidirectional) (at 123.45 7 270) (fields_autoplaced)
  (effects (font (face ""A \""b\"" \c"") (size 1.27 2) (color 255 0 128 0.5) (thickness 0.3) bold italic (line_spacing 1.1)) (justify right top mirror) (href ""https://x.y/(z)"") hide)
  (uuid 7c2f5ab1-44ff-4a1c-b96d-28f9f3a0fd1e)
  (property ""Sheet name"" ""a\b\"""" (id 3) (at 1 2.5 90) (show_name)
    (effects (font (face ""A \""b\"" \c"") (size 1.27 2) (color 255 0 128 0.5) (thickness 0.3) bold italic (line_spacing 1.1)) (justify right top mirror) (href ""https://x.y/(z)"") hide)
  )
  (property ""Sheet name"" ""a\b\"""" (id 3) (at 1 2.5 90) (show_name)
    (effects (font (face ""A \""b\"" \c"") (size 1.27 2) (color 255 0 128 0.5) (thickness 0.3) bold italic (line_spacing 1.1)) (justify right top mirror) (href ""https://x.y/(z)"") hide)
  )
)" = true.
Proof. vm_compute. reflexivity. Qed.

Theorem C53_HierarchicalLabel : tells_apart HierarchicalLabel_to HierarchicalLabel_ok HierarchicalLabel_eqb.
Proof. exact (tell _ _ _ _ _ HierarchicalLabel_rt HierarchicalLabel_q). Qed.
Print Assumptions C53_HierarchicalLabel.
Example C53_HierarchicalLabel_case : twice HierarchicalLabel_to HierarchicalLabel_from HierarchicalLabel_ok "(hierarchical_label ""a \""b\"""" (shape output) (at 123.45 7 270) (fields_autoplaced)
  (effects (font (face ""A \""b\"" \c"") (size 1.27 2) (color 255 0 128 0.5) (thickness 0.3) bold italic (line_spacing 1.1)) (justify right top mirror) (href ""https://x.y/(z)"") hide)
  (uuid 7c2f5ab1-44ff-4a1c-b96d-28f9f3a0fd1e)
)" = true.
Proof. vm_compute. reflexivity. Qed.

Theorem C53_SymbolProjectPath : tells_apart SymbolProjectPath_to SymbolProjectPath_ok SymbolProjectPath_eqb.
Proof. exact (tell _ _ _ _ _ SymbolProjectPath_rt SymbolProjectPath_q). Qed.
Print Assumptions C53_SymbolProjectPath.
Example C53_SymbolProjectPath_case : twice SymbolProjectPath_to SymbolProjectPath_from SymbolProjectPath_ok "(path ""/00000000-0000-0000-0000-00005f325e1e""
  (reference ""U 1"") (unit 3)
)" = true.
Proof. vm_compute. reflexivity. Qed.

Theorem C53_SymbolProjectInstance : tells_apart SymbolProjectInstance_to SymbolProjectInstance_ok SymbolProjectInstance_eqb.
Proof. exact (tell _ _ _ _ _ SymbolProjectInstance_rt SymbolProjectInstance_q). Qed.
Print Assumptions C53_SymbolProjectInstance.
Example C53_SymbolProjectInstance_case : twice SymbolProjectInstance_to SymbolProjectInstance_from SymbolProjectInstance_ok "(project ""my \""project\""""
  (path ""/00000000-0000-0000-0000-00005f325e1e""
    (reference ""U 1"") (unit 1)
  )
  (path ""/00000000-0000-0000-0000-00005f325e1e""
    (reference ""U 1"") (unit 2)
  )
)" = true.
Proof. vm_compute. reflexivity. Qed.

Theorem C53_SchematicSymbol : tells_apart SchematicSymbol_to SchematicSymbol_ok SchematicSymbol_eqb.
Proof. exact (tell _ _ _ _ _ SchematicSymbol_rt SchematicSymbol_q). Qed.
Print Assumptions C53_SchematicSymbol.
Example C53_SchematicSymbol_case : twice SchematicSymbol_to SchematicSymbol_from SchematicSymbol_ok "(symbol (lib_name ""R_1"") (lib_id ""Device:R:x_1_2"") (at 123.45 7 270) (mirror x) (unit 2)
  (in_bom yes) (on_board no) (dnp no) (fields_autoplaced)
  (uuid 7c2f5ab1-44ff-4a1c-b96d-28f9f3a0fd1e)
  (property ""Sheet name"" ""a\b\"""" (id 3) (at 1 2.5 90) (show_name)
    (effects (font (face ""A \""b\"" \c"") (size 1.27 2) (color 255 0 128 0.5) (thickness 0.3) bold italic (line_spacing 1.1)) (justify right top mirror) (href ""https://x.y/(z)"") hide)
  )
  (property ""Sheet name"" ""a\b\"""" (id 3) (at 1 2.5 90) (show_name)
    (effects (font (face ""A \""b\"" \c"") (size 1.27 2) (color 255 0 128 0.5) (thickness 0.3) bold italic (line_spacing 1.1)) (justify right top mirror) (href ""https://x.y/(z)"") hide)
  )
  (pin ""1"" (uuid 7c2f5ab1-44ff-4a1c-b96d-28f9f3a0fd1e))
  (pin ""A \""2\"""" (uuid abc-12))
  (instances
    (project ""my \""project\""""
      (path ""/00000000-0000-0000-0000-00005f325e1e""
        (reference ""U 1"") (unit 1)
      )
      (path ""/00000000-0000-0000-0000-00005f325e1e""
        (reference ""U 1"") (unit 2)
      )
    )
    (project """"
    )
  )
)" = true.
Proof. vm_compute. reflexivity. Qed.

Theorem C53_HierarchicalPin : tells_apart HierarchicalPin_to HierarchicalPin_ok HierarchicalPin_eqb.
Proof. exact (tell _ _ _ _ _ HierarchicalPin_rt HierarchicalPin_q). Qed.
Print Assumptions C53_HierarchicalPin.
Example C53_HierarchicalPin_case : twice HierarchicalPin_to HierarchicalPin_from HierarchicalPin_ok "(pin ""a \""b\"""" tri_state (at 123.45 7 270)
  (effects (font (face ""A \""b\"" \c"") (size 1.27 2) (color 255 0 128 0.5) (thickness 0.3) bold italic (line_spacing 1.1)) (justify right top mirror) (href ""https://x.y/(z)"") hide)
  (uuid 7c2f5ab1-44ff-4a1c-b96d-28f9f3a0fd1e)
)" = true.
Proof. vm_compute. reflexivity. Qed.

Theorem C53_HierarchicalSheetProjectPath : tells_apart HierarchicalSheetProjectPath_to HierarchicalSheetProjectPath_ok HierarchicalSheetProjectPath_eqb.
Proof. exact (tell _ _ _ _ _ HierarchicalSheetProjectPath_rt HierarchicalSheetProjectPath_q). Qed.
Print Assumptions C53_HierarchicalSheetProjectPath.
Example C53_HierarchicalSheetProjectPath_case : twice HierarchicalSheetProjectPath_to HierarchicalSheetProjectPath_from HierarchicalSheetProjectPath_ok "(path ""/a b/c"" (page ""2 \""a\""""))" = true.
Proof. vm_compute. reflexivity. Qed.

Theorem C53_HierarchicalSheetProjectInstance : tells_apart HierarchicalSheetProjectInstance_to HierarchicalSheetProjectInstance_ok HierarchicalSheetProjectInstance_eqb.
Proof. exact (tell _ _ _ _ _ HierarchicalSheetProjectInstance_rt HierarchicalSheetProjectInstance_q). Qed.
Print Assumptions C53_HierarchicalSheetProjectInstance.
Example C53_HierarchicalSheetProjectInstance_case : twice HierarchicalSheetProjectInstance_to HierarchicalSheetProjectInstance_from HierarchicalSheetProjectInstance_ok "(project ""my \""project\""""
  (path ""/a b/c"" (page ""2 \""a\""""))
  (path ""/a b/c"" (page ""2 \""a\""""))
)" = true.
Proof. vm_compute. reflexivity. Qed.

Theorem C53_HierarchicalSheet : tells_apart HierarchicalSheet_to HierarchicalSheet_ok HierarchicalSheet_eqb.
Proof. exact (tell _ _ _ _ _ HierarchicalSheet_rt HierarchicalSheet_q). Qed.
Print Assumptions C53_HierarchicalSheet.
Example C53_HierarchicalSheet_case : twice HierarchicalSheet_to HierarchicalSheet_from HierarchicalSheet_ok "(sheet (at 123.45 -7) (size 30 45.72) (fields_autoplaced)
  (stroke (width 0.254) (type dash_dot) (color 255 0 128 0.5))
  (fill (color 1 2 255 0.1234))
  (uuid 7c2f5ab1-44ff-4a1c-b96d-28f9f3a0fd1e)
  (property ""Sheetname"" ""a\b\"""" (id 3) (at 1 2.5 90) (show_name)
    (effects (font (face ""A \""b\"" \c"") (size 1.27 2) (color 255 0 128 0.5) (thickness 0.3) bold italic (line_spacing 1.1)) (justify right top mirror) (href ""https://x.y/(z)"") hide)
  )
  (property ""Sheet file"" ""a\b\"""" (id 3) (at 1 2.5 90) (show_name)
    (effects (font (face ""A \""b\"" \c"") (size 1.27 2) (color 255 0 128 0.5) (thickness 0.3) bold italic (line_spacing 1.1)) (justify right top mirror) (href ""https://x.y/(z)"") hide)
  )
  (property ""a \""b\"""" ""a\b\"""" (id 3) (at 1 2.5 90) (show_name)
    (effects (font (face ""A \""b\"" \c"") (size 1.27 2) (color 255 0 128 0.5) (thickness 0.3) bold italic (line_spacing 1.1)) (justify right top mirror) (href ""https://x.y/(z)"") hide)
  )
  (property ""Field2"" ""a\b\"""" (id 3) (at 1 2.5 90) (show_name)
    (effects (font (face ""A \""b\"" \c"") (size 1.27 2) (color 255 0 128 0.5) (thickness 0.3) bold italic (line_spacing 1.1)) (justify right top mirror) (href ""https://x.y/(z)"") hide)
  )
  (pin ""a \""b\"""" tri_state (at 123.45 7 270)
    (effects (font (face ""A \""b\"" \c"") (size 1.27 2) (color 255 0 128 0.5) (thickness 0.3) bold italic (line_spacing 1.1)) (justify right top mirror) (href ""https://x.y/(z)"") hide)
    (uuid 7c2f5ab1-44ff-4a1c-b96d-28f9f3a0fd1e)
  )
  (pin """" input (at 0.0 0.0)
    (effects (font (size 1.0 1.0)))
  )
  (instances
    (project ""my \""project\""""
      (path ""/a b/c"" (page ""2 \""a\""""))
      (path ""/a b/c"" (page ""2 \""a\""""))
    )
  )
)" = true.
Proof. vm_compute. reflexivity. Qed.

Theorem C53_HierarchicalSheetInstance : tells_apart HierarchicalSheetInstance_to HierarchicalSheetInstance_ok HierarchicalSheetInstance_eqb.
Proof. exact (tell _ _ _ _ _ HierarchicalSheetInstance_rt HierarchicalSheetInstance_q). Qed.
Print Assumptions C53_HierarchicalSheetInstance.
Example C53_HierarchicalSheetInstance_case : twice HierarchicalSheetInstance_to HierarchicalSheetInstance_from HierarchicalSheetInstance_ok "(path ""/a b/c"" (page ""2 \""a\""""))" = true.
Proof. vm_compute. reflexivity. Qed.

Theorem C53_SymbolInstance : tells_apart SymbolInstance_to SymbolInstance_ok SymbolInstance_eqb.
Proof. exact (tell _ _ _ _ _ SymbolInstance_rt SymbolInstance_q). Qed.
Print Assumptions C53_SymbolInstance.
Example C53_SymbolInstance_case : twice SymbolInstance_to SymbolInstance_from SymbolInstance_ok "(path ""/a b/c""
  (reference ""U1"") (unit 2) (value ""1 \""k\"""") (footprint ""Lib:F (x)"")
)" = true.
Proof. vm_compute. reflexivity. Qed.

Theorem C53_Rectangle : tells_apart Rectangle_to Rectangle_ok Rectangle_eqb.
Proof. exact (tell _ _ _ _ _ Rectangle_rt Rectangle_q). Qed.
Print Assumptions C53_Rectangle.
Example C53_Rectangle_case : twice Rectangle_to Rectangle_from Rectangle_ok "(rectangle (start 123.45 -7) (end 3 0.001)
  (stroke (width 0.254) (type dash_dot) (color 255 0 128 0.5))
  (fill (type color) (color 255 0 128 0.5))
  (uuid 7c2f5ab1-44ff-4a1c-b96d-28f9f3a0fd1e)
)" = true.
Proof. vm_compute. reflexivity. Qed.

Theorem C53_SchArc : tells_apart SchArc_to SchArc_ok SchArc_eqb.
Proof. exact (tell _ _ _ _ _ SchArc_rt SchArc_q). Qed.
Print Assumptions C53_SchArc.
Example C53_SchArc_case : twice SchArc_to SchArc_from SchArc_ok "(arc (start 123.45 -7) (mid 3 0.001) (end 4 1.2)
  (stroke (width 0.254) (type dash_dot) (color 255 0 128 0.5))
  (fill (type color) (color 255 0 128 0.5))
  (uuid 7c2f5ab1-44ff-4a1c-b96d-28f9f3a0fd1e)
)" = true.
Proof. vm_compute. reflexivity. Qed.

Theorem C53_Circle : tells_apart Circle_to Circle_ok Circle_eqb.
Proof. exact (tell _ _ _ _ _ Circle_rt Circle_q). Qed.
Print Assumptions C53_Circle.
Example C53_Circle_case : twice Circle_to Circle_from Circle_ok "(circle (center 123.45 -7) (radius 1.5)
  (stroke (width 0.254) (type dash_dot) (color 255 0 128 0.5))
  (fill (type color) (color 255 0 128 0.5))
  (uuid 7c2f5ab1-44ff-4a1c-b96d-28f9f3a0fd1e)
)" = true.
Proof. vm_compute. reflexivity. Qed.

Theorem C53_NetclassFlag : tells_apart NetclassFlag_to NetclassFlag_ok NetclassFlag_eqb.
Proof. exact (tell _ _ _ _ _ NetclassFlag_rt NetclassFlag_q). Qed.
Print Assumptions C53_NetclassFlag.
Example C53_NetclassFlag_case : twice NetclassFlag_to NetclassFlag_from NetclassFlag_ok "(netclass_flag ""a \""b\"""" (length 2.54) (shape dot) (at 123.45 7 270) (fields_autoplaced)
  (effects (font (face ""A \""b\"" \c"") (size 1.27 2) (color 255 0 128 0.5) (thickness 0.3) bold italic (line_spacing 1.1)) (justify right top mirror) (href ""https://x.y/(z)"") hide)
  (uuid 7c2f5ab1-44ff-4a1c-b96d-28f9f3a0fd1e)
  (property ""Sheet name"" ""a\b\"""" (id 3) (at 1 2.5 90) (show_name)
    (effects (font (face ""A \""b\"" \c"") (size 1.27 2) (color 255 0 128 0.5) (thickness 0.3) bold italic (line_spacing 1.1)) (justify right top mirror) (href ""https://x.y/(z)"") hide)
  )
  (property ""Sheet name"" ""a\b\"""" (id 3) (at 1 2.5 90) (show_name)
    (effects (font (face ""A \""b\"" \c"") (size 1.27 2) (color 255 0 128 0.5) (thickness 0.3) bold italic (line_spacing 1.1)) (justify right top mirror) (href ""https://x.y/(z)"") hide)
  )
)" = true.
Proof. vm_compute. reflexivity. Qed.

Theorem C53_Schematic : tells_apart Schematic_to Schematic_ok Schematic_eqb.
Proof. exact (tell _ _ _ _ _ Schematic_rt Schematic_q). Qed.
Print Assumptions C53_Schematic.
Example C53_Schematic_case : twice Schematic_to Schematic_from Schematic_ok "(kicad_sch (version 20230121) (generator eeschema)

  (uuid 7c2f5ab1-44ff-4a1c-b96d-28f9f3a0fd1e)

  (paper ""A3"" portrait)

  (title_block
    (title ""T"")
    (rev ""1.0"")
    (company """")
    (comment 1 ""one"")
    (comment 4 ""four (4)"")
  )

  (lib_symbols
    (symbol ""Amplifier:LM 358"" (extends ""LM \""X\"""") (power) (pin_numbers hide) (pin_names (offset 0.5) hide) (in_bom yes) (on_board no)
      (property ""Sheet name"" ""a\b\"""" (id 3) (at 1 2.5 90) (show_name)
        (effects (font (face ""A \""b\"" \c"") (size 1.27 2) (color 255 0 128 0.5) (thickness 0.3) bold italic (line_spacing 1.1)) (justify right top mirror) (href ""https://x.y/(z)"") hide)
      )
      (property ""Sheet name"" ""a\b\"""" (id 3) (at 1 2.5 90) (show_name)
        (effects (font (face ""A \""b\"" \c"") (size 1.27 2) (color 255 0 128 0.5) (thickness 0.3) bold italic (line_spacing 1.1)) (justify right top mirror) (href ""https://x.y/(z)"") hide)
      )
      (circle (center 0.0 0.0) (radius 0.0)
        (stroke (width 0.0))
        (fill (type none))
      )
      (text """" (at 0.0 0.0)
        (effects (font (size 1.0 1.0)))
      )
      (pin power_in line (at 2 3 90) (length 2.54) hide
        (name ""~{RST}"" (effects (font (face ""A \""b\"" \c"") (size 1.27 2) (color 255 0 128 0.5) (thickness 0.3) bold italic (line_spacing 1.1)) (justify right top mirror) (href ""https://x.y/(z)"") hide))
        (number ""12"")
        (alternate """" input line)
        (alternate """" input line)
      )
      (pin input line (at 0.0 0.0) (length 0.254) (name """") (number ""0""))
      (symbol ""LM 358_0_1""
        (rectangle (start 0.0 0.0) (end 0.0 0.0)
          (stroke (width 0.0))
          (fill (type none))
        )
        (arc (start 0.0 0.0) (mid 0.0 0.0) (end 0.0 0.0)
          (stroke (width 0.0))
          (fill (type none))
        )
        (pin power_in line (at 2 3 90) (length 2.54) hide
          (name ""~{RST}"" (effects (font (face ""A \""b\"" \c"") (size 1.27 2) (color 255 0 128 0.5) (thickness 0.3) bold italic (line_spacing 1.1)) (justify right top mirror) (href ""https://x.y/(z)"") hide))
          (number ""12"")
          (alternate """" input line)
          (alternate """" input line)
        )
      )
      (symbol ""LM 358_1_1""
        (rectangle (start 0.0 0.0) (end 0.0 0.0)
          (stroke (width 0.0))
          (fill (type none))
        )
        (arc (start 0.0 0.0) (mid 0.0 0.0) (end 0.0 0.0)
          (stroke (width 0.0))
          (fill (type none))
        )
        (pin power_in line (at 2 3 90) (length 2.54) hide
          (name ""~{RST}"" (effects (font (face ""A \""b\"" \c"") (size 1.27 2) (color 255 0 128 0.5) (thickness 0.3) bold italic (line_spacing 1.1)) (justify right top mirror) (href ""https://x.y/(z)"") hide))
          (number ""12"")
          (alternate """" input line)
          (alternate """" input line)
        )
        (symbol ""LM 358_7_1""
          (rectangle (start 0.0 0.0) (end 0.0 0.0)
            (stroke (width 0.0))
            (fill (type none))
          )
          (arc (start 0.0 0.0) (mid 0.0 0.0) (end 0.0 0.0)
            (stroke (width 0.0))
            (fill (type none))
          )
          (pin power_in line (at 2 3 90) (length 2.54) hide
            (name ""~{RST}"" (effects (font (face ""A \""b\"" \c"") (size 1.27 2) (color 255 0 128 0.5) (thickness 0.3) bold italic (line_spacing 1.1)) (justify right top mirror) (href ""https://x.y/(z)"") hide))
            (number ""12"")
            (alternate """" input line)
            (alternate """" input line)
          )
        )
        (symbol ""LM 358_8_1""
          (rectangle (start 0.0 0.0) (end 0.0 0.0)
            (stroke (width 0.0))
            (fill (type none))
          )
          (arc (start 0.0 0.0) (mid 0.0 0.0) (end 0.0 0.0)
            (stroke (width 0.0))
            (fill (type none))
          )
          (pin power_in line (at 2 3 90) (length 2.54) hide
            (name ""~{RST}"" (effects (font (face ""A \""b\"" \c"") (size 1.27 2) (color 255 0 128 0.5) (thickness 0.3) bold italic (line_spacing 1.1)) (justify right top mirror) (href ""https://x.y/(z)"") hide))
            (number ""12"")
            (alternate """" input line)
            (alternate """" input line)
          )
        )
      )
    )

    (symbol ""Amplifier:LM 358"" (extends ""LM \""X\"""") (power) (pin_numbers hide) (pin_names (offset 0.5) hide) (in_bom yes) (on_board no)
      (property ""Sheet name"" ""a\b\"""" (id 3) (at 1 2.5 90) (show_name)
        (effects (font (face ""A \""b\"" \c"") (size 1.27 2) (color 255 0 128 0.5) (thickness 0.3) bold italic (line_spacing 1.1)) (justify right top mirror) (href ""https://x.y/(z)"") hide)
      )
      (property ""Sheet name"" ""a\b\"""" (id 3) (at 1 2.5 90) (show_name)
        (effects (font (face ""A \""b\"" \c"") (size 1.27 2) (color 255 0 128 0.5) (thickness 0.3) bold italic (line_spacing 1.1)) (justify right top mirror) (href ""https://x.y/(z)"") hide)
      )
      (circle (center 0.0 0.0) (radius 0.0)
        (stroke (width 0.0))
        (fill (type none))
      )
      (text """" (at 0.0 0.0)
        (effects (font (size 1.0 1.0)))
      )
      (pin power_in line (at 2 3 90) (length 2.54) hide
        (name ""~{RST}"" (effects (font (face ""A \""b\"" \c"") (size 1.27 2) (color 255 0 128 0.5) (thickness 0.3) bold italic (line_spacing 1.1)) (justify right top mirror) (href ""https://x.y/(z)"") hide))
        (number ""12"")
        (alternate """" input line)
        (alternate """" input line)
      )
      (pin input line (at 0.0 0.0) (length 0.254) (name """") (number ""0""))
      (symbol ""LM 358_0_1""
        (rectangle (start 0.0 0.0) (end 0.0 0.0)
          (stroke (width 0.0))
          (fill (type none))
        )
        (arc (start 0.0 0.0) (mid 0.0 0.0) (end 0.0 0.0)
          (stroke (width 0.0))
          (fill (type none))
        )
        (pin power_in line (at 2 3 90) (length 2.54) hide
          (name ""~{RST}"" (effects (font (face ""A \""b\"" \c"") (size 1.27 2) (color 255 0 128 0.5) (thickness 0.3) bold italic (line_spacing 1.1)) (justify right top mirror) (href ""https://x.y/(z)"") hide))
          (number ""12"")
          (alternate """" input line)
          (alternate """" input line)
        )
      )
      (symbol ""LM 358_1_1""
        (rectangle (start 0.0 0.0) (end 0.0 0.0)
          (stroke (width 0.0))
          (fill (type none))
        )
        (arc (start 0.0 0.0) (mid 0.0 0.0) (end 0.0 0.0)
          (stroke (width 0.0))
          (fill (type none))
        )
        (pin power_in line (at 2 3 90) (length 2.54) hide
          (name ""~{RST}"" (effects (font (face ""A \""b\"" \c"") (size 1.27 2) (color 255 0 128 0.5) (thickness 0.3) bold italic (line_spacing 1.1)) (justify right top mirror) (href ""https://x.y/(z)"") hide))
          (number ""12"")
          (alternate """" input line)
          (alternate """" input line)
        )
        (symbol ""LM 358_7_1""
          (rectangle (start 0.0 0.0) (end 0.0 0.0)
            (stroke (width 0.0))
            (fill (type none))
          )
          (arc (start 0.0 0.0) (mid 0.0 0.0) (end 0.0 0.0)
            (stroke (width 0.0))
            (fill (type none))
          )
          (pin power_in line (at 2 3 90) (length 2.54) hide
            (name ""~{RST}"" (effects (font (face ""A \""b\"" \c"") (size 1.27 2) (color 255 0 128 0.5) (thickness 0.3) bold italic (line_spacing 1.1)) (justify right top mirror) (href ""https://x.y/(z)"") hide))
            (number ""12"")
            (alternate """" input line)
            (alternate """" input line)
          )
        )
        (symbol ""LM 358_8_1""
          (rectangle (start 0.0 0.0) (end 0.0 0.0)
            (stroke (width 0.0))
            (fill (type none))
          )
          (arc (start 0.0 0.0) (mid 0.0 0.0) (end 0.0 0.0)
            (stroke (width 0.0))
            (fill (type none))
          )
          (pin power_in line (at 2 3 90) (length 2.54) hide
            (name ""~{RST}"" (effects (font (face ""A \""b\"" \c"") (size 1.27 2) (color 255 0 128 0.5) (thickness 0.3) bold italic (line_spacing 1.1)) (justify right top mirror) (href ""https://x.y/(z)"") hide))
            (number ""12"")
            (alternate """" input line)
            (alternate """" input line)
          )
        )
      )
    )
  )

  (junction (at 123.45 -7) (diameter 0) (color 255 0 128 0.5)
    (uuid 7c2f5ab1-44ff-4a1c-b96d-28f9f3a0fd1e)
  )
  (junction (at 0.0 0.0) (diameter 0) (color 0 0 0 0)  )

  (no_connect (at 123.45 -7) (uuid 7c2f5ab1-44ff-4a1c-b96d-28f9f3a0fd1e))

  (bus_entry (at 123.45 -7) (size 2.54 3)
    (stroke (width 0.254) (type dash_dot) (color 255 0 128 0.5))
    (uuid 7c2f5ab1-44ff-4a1c-b96d-28f9f3a0fd1e)
  )

  (bus_alias ""a \""b\"""" (members ""A[0..7]"" """"))

  (bus (pts (xy 123.45 -7) (xy 1 0.5))
    (stroke (width 0.254) (type dash_dot) (color 255 0 128 0.5))
    (uuid 7c2f5ab1-44ff-4a1c-b96d-28f9f3a0fd1e)
  )
  (polyline (pts (xy 123.45 -7) (xy 1 0.5))
    (stroke (width 0.254) (type dash_dot) (color 255 0 128 0.5))
    (uuid 7c2f5ab1-44ff-4a1c-b96d-28f9f3a0fd1e)
  )
  (wire (pts (xy 123.45 -7) (xy 1 0.5))
    (stroke (width 0.254) (type dash_dot) (color 255 0 128 0.5))
    (uuid 7c2f5ab1-44ff-4a1c-b96d-28f9f3a0fd1e)
  )

  (circle (center 123.45 -7) (radius 1.5)
    (stroke (width 0.254) (type dash_dot) (color 255 0 128 0.5))
    (fill (type color) (color 255 0 128 0.5))
    (uuid 7c2f5ab1-44ff-4a1c-b96d-28f9f3a0fd1e)
  )
  (arc (start 0.0 0.0) (mid 0.0 0.0) (end 0.0 0.0)
    (stroke (width 0.0))
    (fill (type none))
  )
  (rectangle (start 0.0 0.0) (end 0.0 0.0)
    (stroke (width 0.0))
    (fill (type none))
  )

  (image (at 12.34 5) (scale 0.5)
    (uuid a-b-c)
    (data
      iVBORw0KGgo=
      12
    )
  )

  (text_box ""a \""b\""""
    (at 123.45 7 270) (size 3 0.001)
    (stroke (width 0.254) (type dash_dot) (color 255 0 128 0.5))
    (fill (type color) (color 255 0 128 0.5))
    (effects (font (face ""A \""b\"" \c"") (size 1.27 2) (color 255 0 128 0.5) (thickness 0.3) bold italic (line_spacing 1.1)) (justify right top mirror) (href ""https://x.y/(z)"") hide)
    (uuid 7c2f5ab1-44ff-4a1c-b96d-28f9f3a0fd1e)
  )

  (text ""0123456789 0123456789 0123456789 (\""0123456789\"") 0123456""
    (at 123.45 7 270)
    (effects (font (face ""A \""b\"" \c"") (size 1.27 2) (color 255 0 128 0.5) (thickness 0.3) bold italic (line_spacing 1.1)) (justify right top mirror) (href ""https://x.y/(z)"") hide)
    (uuid 7c2f5ab1-44ff-4a1c-b96d-28f9f3a0fd1e)
  )

  (label ""a \""b\"""" (at 123.45 7 270) (fields_autoplaced)
    (effects (font (face ""A \""b\"" \c"") (size 1.27 2) (color 255 0 128 0.5) (thickness 0.3) bold italic (line_spacing 1.1)) (justify right top mirror) (href ""https://x.y/(z)"") hide)
    (uuid 7c2f5ab1-44ff-4a1c-b96d-28f9f3a0fd1e)
  )

  (global_label ""a \""b\"""" (shape bidirectional) (at 123.45 7 270) (fields_autoplaced)
    (effects (font (face ""A \""b\"" \c"") (size 1.27 2) (color 255 0 128 0.5) (thickness 0.3) bold italic (line_spacing 1.1)) (justify right top mirror) (href ""https://x.y/(z)"") hide)
    (uuid 7c2f5ab1-44ff-4a1c-b96d-28f9f3a0fd1e)
    (property ""Sheet name"" ""a\b\"""" (id 3) (at 1 2.5 90) (show_name)
      (effects (font (face ""A \""b\"" \c"") (size 1.27 2) (color 255 0 128 0.5) (thickness 0.3) bold italic (line_spacing 1.1)) (justify right top mirror) (href ""https://x.y/(z)"") hide)
    )
    (property ""Sheet name"" ""a\b\"""" (id 3) (at 1 2.5 90) (show_name)
      (effects (font (face ""A \""b\"" \c"") (size 1.27 2) (color 255 0 128 0.5) (thickness 0.3) bold italic (line_spacing 1.1)) (justify right top mirror) (href ""https://x.y/(z)"") hide)
    )
  )

  (hierarchical_label ""a \""b\"""" (shape output) (at 123.45 7 270) (fields_autoplaced)
    (effects (font (face ""A \""b\"" \c"") (size 1.27 2) (color 255 0 128 0.5) (thickness 0.3) bold italic (line_spacing 1.1)) (justify right top mirror) (href ""https://x.y/(z)"") hide)
    (uuid 7c2f5ab1-44ff-4a1c-b96d-28f9f3a0fd1e)
  )

  (netclass_flag ""a \""b\"""" (length 2.54) (shape dot) (at 123.45 7 270) (fields_autoplaced)
    (effects (font (face ""A \""b\"" \c"") (size 1.27 2) (color 255 0 128 0.5) (thickness 0.3) bold italic (line_spacing 1.1)) (justify right top mirror) (href ""https://x.y/(z)"") hide)
    (uuid 7c2f5ab1-44ff-4a1c-b96d-28f9f3a0fd1e)
    (property ""Sheet name"" ""a\b\"""" (id 3) (at 1 2.5 90) (show_name)
      (effects (font (face ""A \""b\"" \c"") (size 1.27 2) (color 255 0 128 0.5) (thickness 0.3) bold italic (line_spacing 1.1)) (justify right top mirror) (href ""https://x.y/(z)"") hide)
    )
    (property ""Sheet name"" ""a\b\"""" (id 3) (at 1 2.5 90) (show_name)
      (effects (font (face ""A \""b\"" \c"") (size 1.27 2) (color 255 0 128 0.5) (thickness 0.3) bold italic (line_spacing 1.1)) (justify right top mirror) (href ""https://x.y/(z)"") hide)
    )
  )

  (symbol (lib_name ""R_1"") (lib_id ""Device:R:x_1_2"") (at 123.45 7 270) (mirror x) (unit 2)
    (in_bom yes) (on_board no) (dnp no) (fields_autoplaced)
    (uuid 7c2f5ab1-44ff-4a1c-b96d-28f9f3a0fd1e)
    (property ""Sheet name"" ""a\b\"""" (id 3) (at 1 2.5 90) (show_name)
      (effects (font (face ""A \""b\"" \c"") (size 1.27 2) (color 255 0 128 0.5) (thickness 0.3) bold italic (line_spacing 1.1)) (justify right top mirror) (href ""https://x.y/(z)"") hide)
    )
    (property ""Sheet name"" ""a\b\"""" (id 3) (at 1 2.5 90) (show_name)
      (effects (font (face ""A \""b\"" \c"") (size 1.27 2) (color 255 0 128 0.5) (thickness 0.3) bold italic (line_spacing 1.1)) (justify right top mirror) (href ""https://x.y/(z)"") hide)
    )
    (pin ""1"" (uuid 7c2f5ab1-44ff-4a1c-b96d-28f9f3a0fd1e))
    (pin ""A \""2\"""" (uuid abc-12))
    (instances
      (project ""my \""project\""""
        (path ""/00000000-0000-0000-0000-00005f325e1e""
          (reference ""U 1"") (unit 1)
        )
        (path ""/00000000-0000-0000-0000-00005f325e1e""
          (reference ""U 1"") (unit 2)
        )
      )
      (project """"
      )
    )
  )

  (symbol (lib_name ""R_1"") (lib_id ""Device:R:x_1_2"") (at 123.45 7 270) (mirror x) (unit 2)
    (in_bom yes) (on_board no) (dnp no) (fields_autoplaced)
    (uuid 7c2f5ab1-44ff-4a1c-b96d-28f9f3a0fd1e)
    (property ""Sheet name"" ""a\b\"""" (id 3) (at 1 2.5 90) (show_name)
      (effects (font (face ""A \""b\"" \c"") (size 1.27 2) (color 255 0 128 0.5) (thickness 0.3) bold italic (line_spacing 1.1)) (justify right top mirror) (href ""https://x.y/(z)"") hide)
    )
    (property ""Sheet name"" ""a\b\"""" (id 3) (at 1 2.5 90) (show_name)
      (effects (font (face ""A \""b\"" \c"") (size 1.27 2) (color 255 0 128 0.5) (thickness 0.3) bold italic (line_spacing 1.1)) (justify right top mirror) (href ""https://x.y/(z)"") hide)
    )
    (pin ""1"" (uuid 7c2f5ab1-44ff-4a1c-b96d-28f9f3a0fd1e))
    (pin ""A \""2\"""" (uuid abc-12))
    (instances
      (project ""my \""project\""""
        (path ""/00000000-0000-0000-0000-00005f325e1e""
          (reference ""U 1"") (unit 1)
        )
        (path ""/00000000-0000-0000-0000-00005f325e1e""
          (reference ""U 1"") (unit 2)
        )
      )
      (project """"
      )
    )
  )

  (sheet (at 123.45 -7) (size 30 45.72) (fields_autoplaced)
    (stroke (width 0.254) (type dash_dot) (color 255 0 128 0.5))
    (fill (color 1 2 255 0.1234))
    (uuid 7c2f5ab1-44ff-4a1c-b96d-28f9f3a0fd1e)
    (property ""Sheetname"" ""a\b\"""" (id 3) (at 1 2.5 90) (show_name)
      (effects (font (face ""A \""b\"" \c"") (size 1.27 2) (color 255 0 128 0.5) (thickness 0.3) bold italic (line_spacing 1.1)) (justify right top mirror) (href ""https://x.y/(z)"") hide)
    )
    (property ""Sheet file"" ""a\b\"""" (id 3) (at 1 2.5 90) (show_name)
      (effects (font (face ""A \""b\"" \c"") (size 1.27 2) (color 255 0 128 0.5) (thickness 0.3) bold italic (line_spacing 1.1)) (justify right top mirror) (href ""https://x.y/(z)"") hide)
    )
    (property ""a \""b\"""" ""a\b\"""" (id 3) (at 1 2.5 90) (show_name)
      (effects (font (face ""A \""b\"" \c"") (size 1.27 2) (color 255 0 128 0.5) (thickness 0.3) bold italic (line_spacing 1.1)) (justify right top mirror) (href ""https://x.y/(z)"") hide)
    )
    (property ""Field2"" ""a\b\"""" (id 3) (at 1 2.5 90) (show_name)
      (effects (font (face ""A \""b\"" \c"") (size 1.27 2) (color 255 0 128 0.5) (thickness 0.3) bold italic (line_spacing 1.1)) (justify right top mirror) (href ""https://x.y/(z)"") hide)
    )
    (pin ""a \""b\"""" tri_state (at 123.45 7 270)
      (effects (font (face ""A \""b\"" \c"") (size 1.27 2) (color 255 0 128 0.5) (thickness 0.3) bold italic (line_spacing 1.1)) (justify right top mirror) (href ""https://x.y/(z)"") hide)
      (uuid 7c2f5ab1-44ff-4a1c-b96d-28f9f3a0fd1e)
    )
    (pin """" input (at 0.0 0.0)
      (effects (font (size 1.0 1.0)))
    )
    (instances
      (project ""my \""project\""""
        (path ""/a b/c"" (page ""2 \""a\""""))
        (path ""/a b/c"" (page ""2 \""a\""""))
      )
    )
  )

  (sheet (at 123.45 -7) (size 30 45.72) (fields_autoplaced)
    (stroke (width 0.254) (type dash_dot) (color 255 0 128 0.5))
    (fill (color 1 2 255 0.1234))
    (uuid 7c2f5ab1-44ff-4a1c-b96d-28f9f3a0fd1e)
    (property ""Sheetname"" ""a\b\"""" (id 3) (at 1 2.5 90) (show_name)
      (effects (font (face ""A \""b\"" \c"") (size 1.27 2) (color 255 0 128 0.5) (thickness 0.3) bold italic (line_spacing 1.1)) (justify right top mirror) (href ""https://x.y/(z)"") hide)
    )
    (property ""Sheet file"" ""a\b\"""" (id 3) (at 1 2.5 90) (show_name)
      (effects (font (face ""A \""b\"" \c"") (size 1.27 2) (color 255 0 128 0.5) (thickness 0.3) bold italic (line_spacing 1.1)) (justify right top mirror) (href ""https://x.y/(z)"") hide)
    )
    (property ""a \""b\"""" ""a\b\"""" (id 3) (at 1 2.5 90) (show_name)
      (effects (font (face ""A \""b\"" \c"") (size 1.27 2) (color 255 0 128 0.5) (thickness 0.3) bold italic (line_spacing 1.1)) (justify right top mirror) (href ""https://x.y/(z)"") hide)
    )
    (property ""Field2"" ""a\b\"""" (id 3) (at 1 2.5 90) (show_name)
      (effects (font (face ""A \""b\"" \c"") (size 1.27 2) (color 255 0 128 0.5) (thickness 0.3) bold italic (line_spacing 1.1)) (justify right top mirror) (href ""https://x.y/(z)"") hide)
    )
    (pin ""a \""b\"""" tri_state (at 123.45 7 270)
      (effects (font (face ""A \""b\"" \c"") (size 1.27 2) (color 255 0 128 0.5) (thickness 0.3) bold italic (line_spacing 1.1)) (justify right top mirror) (href ""https://x.y/(z)"") hide)
      (uuid 7c2f5ab1-44ff-4a1c-b96d-28f9f3a0fd1e)
    )
    (pin """" input (at 0.0 0.0)
      (effects (font (size 1.0 1.0)))
    )
    (instances
      (project ""my \""project\""""
        (path ""/a b/c"" (page ""2 \""a\""""))
        (path ""/a b/c"" (page ""2 \""a\""""))
      )
    )
  )

  (sheet_instances
    (path ""/"" (page ""1""))
    (path ""/a b/c"" (page ""2 \""a\""""))
  )

  (symbol_instances
    (path ""/a b/c""
      (reference ""U1"") (unit 2) (value ""1 \""k\"""") (footprint ""Lib:F (x)"")
    )
  )
)" = true.
Proof. vm_compute. reflexivity. Qed.

Theorem C53_WksFontSize : tells_apart WksFontSize_to WksFontSize_ok WksFontSize_eqb.
Proof. exact (tell _ _ _ _ _ WksFontSize_rt WksFontSize_q). Qed.
Print Assumptions C53_WksFontSize.
Example C53_WksFontSize_case : twice WksFontSize_to WksFontSize_from WksFontSize_ok "(size 1.3 2)" = true.
Proof. vm_compute. reflexivity. Qed.

Theorem C53_WksFont : tells_apart WksFont_to WksFont_ok1 WksFont_eqb.
Proof. exact (tell _ _ _ _ _ WksFont_rt1 WksFont_q). Qed.
Print Assumptions C53_WksFont.
Example C53_WksFont_case : twice WksFont_to WksFont_from WksFont_ok1 "(font (linewidth 0.15) (size 1.3 2) bold italic)" = true.
Proof. vm_compute. reflexivity. Qed.

Theorem C53_Line : tells_apart Line_to Line_ok Line_eqb.
Proof. exact (tell _ _ _ _ _ Line_rt Line_q). Qed.
Print Assumptions C53_Line.
Example C53_Line_case : twice Line_to Line_from Line_ok "(line (name ""a \""b\"""") (start 2.5 7 ltcorner) (end 2.5 7) (option page1only) (linewidth 0.15) (repeat 3) (incrx 5) (incry 0.5) (comment ""c (d)"")
)" = true.
Proof. vm_compute. reflexivity. Qed.

Theorem C53_Rect : tells_apart Rect_to Rect_ok Rect_eqb.
Proof. exact (tell _ _ _ _ _ Rect_rt Rect_q). Qed.
Print Assumptions C53_Rect.
Example C53_Rect_case : twice Rect_to Rect_from Rect_ok "(rect (name ""a \""b\"""") (start 2.5 7 ltcorner) (end 2.5 7) (option page1only) (linewidth 0.15) (repeat 3) (incrx 5) (incry 0.5) (comment ""c (d)"")
)" = true.
Proof. vm_compute. reflexivity. Qed.

Theorem C53_Bitmap : tells_apart Bitmap_to Bitmap_ok Bitmap_eqb.
Proof. exact (tell _ _ _ _ _ Bitmap_rt Bitmap_q). Qed.
Print Assumptions C53_Bitmap.
Example C53_Bitmap_case : twice Bitmap_to Bitmap_from Bitmap_ok "(bitmap (name ""a \""b\"""") (pos 2.5 7 ltcorner) (option notonpage1) (scale 0.5) (repeat 2) (incrx 5) (incry 0.5)
 (comment ""c (d)"")
(pngdata
  (data ""89 50 4E 47 "")
  (data ""0D 0A "")
  )
)" = true.
Proof. vm_compute. reflexivity. Qed.

Theorem C53_TbText : tells_apart TbText_to TbText_ok TbText_eqb.
Proof. exact (tell _ _ _ _ _ TbText_rt TbText_q). Qed.
Print Assumptions C53_TbText.
Example C53_TbText_case : twice TbText_to TbText_from TbText_ok "(tbtext ""Id: \""${#}\"" (x)"" (name ""n"") (pos 2.5 7 ltcorner) (option page1only) (rotate 90) (font (linewidth 0.15) (size 1.3 2) bold italic) (justify right top mirror) (maxlen 70) (maxheight 3.5) (repeat 2) (incrx 5) (incry 0.5) (incrlabel 1) (comment ""c (d)"")
)" = true.
Proof. vm_compute. reflexivity. Qed.

Theorem C53_TextSize : tells_apart TextSize_to TextSize_ok TextSize_eqb.
Proof. exact (tell _ _ _ _ _ TextSize_rt TextSize_q). Qed.
Print Assumptions C53_TextSize.
Example C53_TextSize_case : twice TextSize_to TextSize_from TextSize_ok "(textsize 1.5 2)" = true.
Proof. vm_compute. reflexivity. Qed.

Theorem C53_Setup : tells_apart Setup_to Setup_ok Setup_eqb.
Proof. exact (tell _ _ _ _ _ Setup_rt Setup_q). Qed.
Print Assumptions C53_Setup.
Example C53_Setup_case : twice Setup_to Setup_from Setup_ok "(setup (textsize 1.5 2)(linewidth 0.15)(textlinewidth 1)
(left_margin 10)(right_margin 10.5)(top_margin 11)(bottom_margin 12))" = true.
Proof. vm_compute. reflexivity. Qed.

Theorem C53_WorkSheet : tells_apart WorkSheet_to WorkSheet_ok WorkSheet_eqb.
Proof. exact (tell _ _ _ _ _ WorkSheet_rt WorkSheet_q). Qed.
Print Assumptions C53_WorkSheet.
Example C53_WorkSheet_case : twice WorkSheet_to WorkSheet_from WorkSheet_ok "(kicad_wks (version 20220228) (generator pl_editor)
  (setup (textsize 1.5 2)(linewidth 0.15)(textlinewidth 1)
  (left_margin 10)(right_margin 10.5)(top_margin 11)(bottom_margin 12))
  (tbtext ""Id: \""${#}\"" (x)"" (name ""n"") (pos 2.5 7 ltcorner) (option page1only) (rotate 90) (font (linewidth 0.15) (size 1.3 2) bold italic) (justify right top mirror) (maxlen 70) (maxheight 3.5) (repeat 2) (incrx 5) (incry 0.5) (incrlabel 1) (comment ""c (d)"")
)
  (line (name """") (start 0.0 0.0) (end 0.0 0.0))
  (rect (name """") (start 0.0 0.0) (end 0.0 0.0))
  (bitmap (name ""a \""b\"""") (pos 2.5 7 ltcorner) (option notonpage1) (scale 0.5) (repeat 2) (incrx 5) (incry 0.5)
 (comment ""c (d)"")
  (pngdata
    (data ""89 50 4E 47 "")
    (data ""0D 0A "")
    )
  )
  (tbtext """" (name """") (pos 0.0 0.0))
)" = true.
Proof. vm_compute. reflexivity. Qed.
