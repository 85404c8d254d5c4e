(** * C52: equality of objects

    [==] on the objects of every class, as the theorems of the other files use it, is an equivalence
    relation; so "equal to" can be chained through any number of saves and loads. *)
From Coq Require Import String.
From Verif Require Import PyBase PyNum PyStr Sexpr S_Leaf S_Tree S_Equal L_Equal L_EqualA.
From Verif Require Import M_Common M_Lib M_Sym M_Fp M_Gr M_Zone M_Footprint M_Dim M_Brd M_Board M_Sch M_Schematic M_Wks.
From Verif Require Import S_Common S_Lib S_Sym S_Fp S_Gr S_Zone S_Footprint S_Dim S_Brd S_Board S_Sch S_Schematic S_Wks.
From Verif Require Import L_Common L_Lib L_Sym L_Symbol L_Fp L_Gr L_Zone L_Pad L_Footprint L_Dim L_Brd L_Plot L_Board L_Sch L_Sheet L_Schematic L_Wks.

(** the object that a text stands for *)
Definition read {A} (from : val -> res A) (t : string) : res A := let! v := parse_sexp (lit t) in from v.
Arguments read {A} _ _%string.
(** an object read from a text is equal to another that is not identical or at least to itself, and differs from a given one *)
Definition compares {A} (from : val -> res A) (norm : A -> A) (same : A -> A -> bool) (other : A) (t : string) : bool :=
  match read from t with Ok o => same o (norm o) && same (norm o) o && negb (same o other) | Err _ => false end.
Arguments compares {A} _ _ _ _ _%string.

Theorem C52_Position : equality Position_eqb.
Proof. exact Position_q. Qed.
Print Assumptions C52_Position.

Theorem C52_Coordinate : equality Coordinate_eqb.
Proof. exact Coordinate_q. Qed.
Print Assumptions C52_Coordinate.
Example C52_Coordinate_case : compares Coordinate_from Coordinate_norm Coordinate_eqb Coordinate_default "(xyz 2.5 -3 1.0)" = true.
Proof. vm_compute. reflexivity. Qed.

Theorem C52_ColorRGBA : equality ColorRGBA_eqb.
Proof. exact ColorRGBA_q. Qed.
Print Assumptions C52_ColorRGBA.
Example C52_ColorRGBA_case : compares ColorRGBA_from ColorRGBA_norm ColorRGBA_eqb ColorRGBA_default "(color 255 0 128 0.5)" = true.
Proof. vm_compute. reflexivity. Qed.

Theorem C52_Stroke : equality Stroke_eqb.
Proof. exact Stroke_q. Qed.
Print Assumptions C52_Stroke.
Example C52_Stroke_case : compares Stroke_from Stroke_norm Stroke_eqb Stroke_default "(stroke (width 0.254) (type dash_dot) (color 255 0 128 0.5))" = true.
Proof. vm_compute. reflexivity. Qed.

Theorem C52_Font : equality Font_eqb.
Proof. exact Font_q. Qed.
Print Assumptions C52_Font.
Example C52_Font_case : compares Font_from Font_norm Font_eqb Font_default "(font (face ""A \""b\"" \c"") (size 1.27 2) (color 255 0 128 0.5) (thickness 0.3) bold italic (line_spacing 1.1))" = true.
Proof. vm_compute. reflexivity. Qed.

Theorem C52_Justify : equality Justify_eqb.
Proof. exact Justify_q. Qed.
Print Assumptions C52_Justify.
Example C52_Justify_case : compares Justify_from Justify_norm Justify_eqb Justify_default "(justify right top mirror)" = true.
Proof. vm_compute. reflexivity. Qed.

Theorem C52_Effects : equality Effects_eqb.
Proof. exact Effects_q. Qed.
Print Assumptions C52_Effects.
Example C52_Effects_case : compares Effects_from Effects_norm Effects_eqb Effects_default "(effects (font (face ""A \""b\"" \c"") (size 1.27 2) (color 255 0 128 0.5) (thickness 0.3) bold italic (line_spacing 1.1)) (justify right top mirror) (href ""https://x.y/(z)"") hide)" = true.
Proof. vm_compute. reflexivity. Qed.

Theorem C52_Net : equality Net_eqb.
Proof. exact Net_q. Qed.
Print Assumptions C52_Net.
Example C52_Net_case : compares Net_from Net_norm Net_eqb Net_default "(net 17 ""Net-(U1-Pad3)"")" = true.
Proof. vm_compute. reflexivity. Qed.

Theorem C52_Group : equality Group_eqb.
Proof. exact Group_q. Qed.
Print Assumptions C52_Group.
Example C52_Group_case : compares Group_from Group_norm Group_eqb Group_default "(group ""g \""1\"""" locked (id 6fe2b9d8-0001)
  (members
    0012
    abc-1
  )
)" = true.
Proof. vm_compute. reflexivity. Qed.

Theorem C52_PageSettings : equality PageSettings_eqb.
Proof. exact PageSettings_q. Qed.
Print Assumptions C52_PageSettings.
Example C52_PageSettings_case : compares PageSettings_from PageSettings_norm PageSettings_eqb PageSettings_default "(paper ""User"" 210.1 300 portrait)" = true.
Proof. vm_compute. reflexivity. Qed.

Theorem C52_TitleBlock : equality TitleBlock_eqb.
Proof. exact TitleBlock_q. Qed.
Print Assumptions C52_TitleBlock.
Example C52_TitleBlock_case : compares TitleBlock_from TitleBlock_norm TitleBlock_eqb TitleBlock_default "(title_block
  (title ""T"")
  (rev ""1.0"")
  (company """")
  (comment 1 ""one"")
  (comment 4 ""four (4)"")
)" = true.
Proof. vm_compute. reflexivity. Qed.

Theorem C52_Property : equality Property_eqb.
Proof. exact Property_q. Qed.
Print Assumptions C52_Property.
Example C52_Property_case : compares Property_from Property_norm Property_eqb Property_default "(property ""Sheet name"" ""a\b\"""" (id 3) (at 1 2.5 90) (show_name)
  (effects (font (face ""A \""b\"" \c"") (size 1.27 2) (color 255 0 128 0.5) (thickness 0.3) bold italic (line_spacing 1.1)) (justify right top mirror) (href ""https://x.y/(z)"") hide)
)" = true.
Proof. vm_compute. reflexivity. Qed.

Theorem C52_RenderCachePolygon : equality RenderCachePolygon_eqb.
Proof. exact RenderCachePolygon_q. Qed.
Print Assumptions C52_RenderCachePolygon.
Example C52_RenderCachePolygon_case : compares RenderCachePolygon_from RenderCachePolygon_norm RenderCachePolygon_eqb RenderCachePolygon_default "(polygon
  (pts
    (xy 1 2)    (xy 1.5 2)    (xy 0 -7)    (xy 0 0)
    (xy 9 9)
  )
)" = true.
Proof. vm_compute. reflexivity. Qed.

Theorem C52_RenderCache : equality RenderCache_eqb.
Proof. exact RenderCache_q. Qed.
Print Assumptions C52_RenderCache.
Example C52_RenderCache_case : compares RenderCache_from RenderCache_norm RenderCache_eqb RenderCache_default "(render_cache ""some text"" 0
  (polygon
    (pts
      (xy 1 2)      (xy 1.5 2)      (xy 0 -7)      (xy 0 0)
      (xy 9 9)
    )
  )
  (polygon
    (pts
    )
  )
)" = true.
Proof. vm_compute. reflexivity. Qed.

Theorem C52_Fill : equality Fill_eqb.
Proof. exact Fill_q. Qed.
Print Assumptions C52_Fill.
Example C52_Fill_case : compares Fill_from Fill_norm Fill_eqb Fill_default "(fill (type background) (color 255 0 128 0.5))" = true.
Proof. vm_compute. reflexivity. Qed.

Theorem C52_Image : equality Image_eqb.
Proof. exact Image_q. Qed.
Print Assumptions C52_Image.
Example C52_Image_case : compares Image_from Image_norm Image_eqb Image_default "(image (at 12.34 5) (layer ""F.SilkS"") (scale 0.5)
  (uuid a-b-c)
  (data
    iVBORw0KGgo=
    12
  )
)" = true.
Proof. vm_compute. reflexivity. Qed.

Theorem C52_Library : equality Library_eqb.
Proof. exact Library_q. Qed.
Print Assumptions C52_Library.
Example C52_Library_case : compares Library_from Library_norm Library_eqb Library_default "(lib (name ""MCU \""ST\"""")(type ""KiCad"")(uri ""${KIPRJMOD}/a (b).kicad_sym"")(options """")(descr ""x"")(disabled))" = true.
Proof. vm_compute. reflexivity. Qed.

Theorem C52_LibTable : equality LibTable_eqb.
Proof. exact LibTable_q. Qed.
Print Assumptions C52_LibTable.
Example C52_LibTable_case : compares LibTable_from LibTable_norm LibTable_eqb LibTable_default "(fp_lib_table
  (lib (name ""MCU \""ST\"""")(type ""KiCad"")(uri ""${KIPRJMOD}/a (b).kicad_sym"")(options """")(descr ""x""))
  (lib (name ""MCU \""ST\"""")(type ""KiCad"")(uri ""${KIPRJMOD}/a (b).kicad_sym"")(options """")(descr ""x"")(disabled))
  (lib (name """")(type ""KiCad"")(uri """")(options """")(descr """"))
)" = true.
Proof. vm_compute. reflexivity. Qed.

Theorem C52_Constraint : equality Constraint_eqb.
Proof. exact Constraint_q. Qed.
Print Assumptions C52_Constraint.
Example C52_Constraint_case : compares Constraint_from Constraint_norm Constraint_eqb Constraint_default "(constraint disallow (min ""0.2mm"") (max ""1 mm"") track via)" = true.
Proof. vm_compute. reflexivity. Qed.

Theorem C52_Rule : equality Rule_eqb.
Proof. exact Rule_q. Qed.
Print Assumptions C52_Rule.
Example C52_Rule_case : compares Rule_from Rule_norm Rule_eqb Rule_default "(rule ""HV \""1\""""
  (layer ""outer"")
  (constraint disallow (min ""0.2mm"") (max ""1 mm"") track via)
  (constraint clearance)
  (condition ""A.NetClass == 'HV'"")
  (severity warning))
" = true.
Proof. vm_compute. reflexivity. Qed.

Theorem C52_DesignRules : equality DesignRules_eqb.
Proof. exact DesignRules_q. Qed.
Print Assumptions C52_DesignRules.
Example C52_DesignRules_case : compares DesignRules_from DesignRules_norm DesignRules_eqb DesignRules_default "((version 1)

(rule ""HV \""1\""""
  (layer ""outer"")
  (constraint disallow (min ""0.2mm"") (max ""1 mm"") track via)
  (constraint clearance)
  (condition ""A.NetClass == 'HV'"")
  (severity warning))
(rule ""HV \""1\""""
  (layer ""outer"")
  (constraint disallow (min ""0.2mm"") (max ""1 mm"") track via)
  (constraint clearance)
  (condition ""A.NetClass == 'HV'"")
  (severity warning))
(rule """"
  (condition """"))
)" = true.
Proof. vm_compute. reflexivity. Qed.

Theorem C52_SyArc : equality SyArc_eqb.
Proof. exact SyArc_q. Qed.
Print Assumptions C52_SyArc.
Example C52_SyArc_case : compares SyArc_from SyArc_norm SyArc_eqb SyArc_default "(arc private (start 1 2.5 90) (mid 2 3) (end -2 3)
  (stroke (width 0.254) (type dash_dot) (color 255 0 128 0.5))
  (fill (type color) (color 255 0 128 0.5))
)" = true.
Proof. vm_compute. reflexivity. Qed.

Theorem C52_SyCircle : equality SyCircle_eqb.
Proof. exact SyCircle_q. Qed.
Print Assumptions C52_SyCircle.
Example C52_SyCircle_case : compares SyCircle_from SyCircle_norm SyCircle_eqb SyCircle_default "(circle private (center 2 3) (radius 2.5)
  (stroke (width 0.254) (type dash_dot) (color 255 0 128 0.5))
  (fill (type color) (color 255 0 128 0.5))
)" = true.
Proof. vm_compute. reflexivity. Qed.

Theorem C52_SyCurve : equality SyCurve_eqb.
Proof. exact SyCurve_q. Qed.
Print Assumptions C52_SyCurve.

Theorem C52_SyPolyLine : equality SyPolyLine_eqb.
Proof. exact SyPolyLine_q. Qed.
Print Assumptions C52_SyPolyLine.
Example C52_SyPolyLine_case : compares SyPolyLine_from SyPolyLine_norm SyPolyLine_eqb SyPolyLine_default "(polyline
  (pts
    (xy 2 3)
    (xy 0.1 0)
    (xy 2 3)
  )
  (stroke (width 0.254) (type dash_dot) (color 255 0 128 0.5))
  (fill (type color) (color 255 0 128 0.5))
)" = true.
Proof. vm_compute. reflexivity. Qed.

Theorem C52_SyRect : equality SyRect_eqb.
Proof. exact SyRect_q. Qed.
Print Assumptions C52_SyRect.
Example C52_SyRect_case : compares SyRect_from SyRect_norm SyRect_eqb SyRect_default "(rectangle private (start 2 3) (end 2 -0.3)
  (stroke (width 0.254) (type dash_dot) (color 255 0 128 0.5))
  (fill (type color) (color 255 0 128 0.5))
)" = true.
Proof. vm_compute. reflexivity. Qed.

Theorem C52_SyText : equality SyText_eqb.
Proof. exact SyText_q. Qed.
Print Assumptions C52_SyText.
Example C52_SyText_case : compares SyText_from SyText_norm SyText_eqb SyText_default "(text ""a \""(b)\"" \ c"" (at 2 3 900)
  (effects (font (face ""A \""b\"" \c"") (size 1.27 2) (color 255 0 128 0.5) (thickness 0.3) bold italic (line_spacing 1.1)) (justify right top mirror) (href ""https://x.y/(z)"") hide)
)" = true.
Proof. vm_compute. reflexivity. Qed.

Theorem C52_SyTextBox : equality SyTextBox_eqb.
Proof. exact SyTextBox_q. Qed.
Print Assumptions C52_SyTextBox.
Example C52_SyTextBox_case : compares SyTextBox_from SyTextBox_norm SyTextBox_eqb SyTextBox_default "(text_box private ""private""
  (at 2 3 90) (size 2 3)
  (stroke (width 0.254) (type dash_dot) (color 255 0 128 0.5))
  (fill (type color) (color 255 0 128 0.5))
  (effects (font (face ""A \""b\"" \c"") (size 1.27 2) (color 255 0 128 0.5) (thickness 0.3) bold italic (line_spacing 1.1)) (justify right top mirror) (href ""https://x.y/(z)"") hide)
  (uuid a-1)
)" = true.
Proof. vm_compute. reflexivity. Qed.

Theorem C52_SymbolAlternativePin : equality SymbolAlternativePin_eqb.
Proof. exact SymbolAlternativePin_q. Qed.
Print Assumptions C52_SymbolAlternativePin.
Example C52_SymbolAlternativePin_case : compares SymbolAlternativePin_from SymbolAlternativePin_norm SymbolAlternativePin_eqb SymbolAlternativePin_default "(alternate ""PA 0"" bidirectional inverted)" = true.
Proof. vm_compute. reflexivity. Qed.

Theorem C52_SymbolPin : equality SymbolPin_eqb.
Proof. exact SymbolPin_q. Qed.
Print Assumptions C52_SymbolPin.
Example C52_SymbolPin_case : compares SymbolPin_from SymbolPin_norm SymbolPin_eqb SymbolPin_default "(pin power_in line (at 2 3 90) (length 2.54) hide
  (name ""~{RST}"" (effects (font (face ""A \""b\"" \c"") (size 1.27 2) (color 255 0 128 0.5) (thickness 0.3) bold italic (line_spacing 1.1)) (justify right top mirror) (href ""https://x.y/(z)"") hide))
  (number ""12"")
  (alternate """" input line)
  (alternate """" input line)
)" = true.
Proof. vm_compute. reflexivity. Qed.

Theorem C52_SyItem : equality SyItem_eqb.
Proof. exact SyItem_q. Qed.
Print Assumptions C52_SyItem.

Theorem C52_Symbol : equality Symbol_eqb.
Proof. exact Symbol_q. Qed.
Print Assumptions C52_Symbol.
Example C52_Symbol_case : compares Symbol_from Symbol_norm Symbol_eqb Symbol_default "(symbol ""Amplifier:LM 358"" (extends ""LM \""X\"""") (power) (pin_numbers hide) (pin_names (offset 0.5) hide) (in_bom yes) (on_board no)
  (property ""Sheet name"" ""a\b\"""" (id 3) (at 1 2.5 90) (show_name)
    (effects (font (face ""A \""b\"" \c"") (size 1.27 2) (color 255 0 128 0.5) (thickness 0.3) bold italic (line_spacing 1.1)) (justify right top mirror) (href ""https://x.y/(z)"") hide)
  )
  (property ""Sheet name"" ""a\b\"""" (id 3) (at 1 2.5 90) (show_name)
    (effects (font (face ""A \""b\"" \c"") (size 1.27 2) (color 255 0 128 0.5) (thickness 0.3) bold italic (line_spacing 1.1)) (justify right top mirror) (href ""https://x.y/(z)"") hide)
  )
  (circle (center 0.0 0.0) (radius 0.0)
    (stroke (width 0.0))
    (fill (type none))
  )
  (text """" (at 0.0 0.0)
    (effects (font (size 1.0 1.0)))
  )
  (pin power_in line (at 2 3 90) (length 2.54) hide
    (name ""~{RST}"" (effects (font (face ""A \""b\"" \c"") (size 1.27 2) (color 255 0 128 0.5) (thickness 0.3) bold italic (line_spacing 1.1)) (justify right top mirror) (href ""https://x.y/(z)"") hide))
    (number ""12"")
    (alternate """" input line)
    (alternate """" input line)
  )
  (pin input line (at 0.0 0.0) (length 0.254) (name """") (number ""0""))
  (symbol ""LM 358_0_1""
    (rectangle (start 0.0 0.0) (end 0.0 0.0)
      (stroke (width 0.0))
      (fill (type none))
    )
    (arc (start 0.0 0.0) (mid 0.0 0.0) (end 0.0 0.0)
      (stroke (width 0.0))
      (fill (type none))
    )
    (pin power_in line (at 2 3 90) (length 2.54) hide
      (name ""~{RST}"" (effects (font (face ""A \""b\"" \c"") (size 1.27 2) (color 255 0 128 0.5) (thickness 0.3) bold italic (line_spacing 1.1)) (justify right top mirror) (href ""https://x.y/(z)"") hide))
      (number ""12"")
      (alternate """" input line)
      (alternate """" input line)
    )
  )
  (symbol ""LM 358_1_1""
    (rectangle (start 0.0 0.0) (end 0.0 0.0)
      (stroke (width 0.0))
      (fill (type none))
    )
    (arc (start 0.0 0.0) (mid 0.0 0.0) (end 0.0 0.0)
      (stroke (width 0.0))
      (fill (type none))
    )
    (pin power_in line (at 2 3 90) (length 2.54) hide
      (name ""~{RST}"" (effects (font (face ""A \""b\"" \c"") (size 1.27 2) (color 255 0 128 0.5) (thickness 0.3) bold italic (line_spacing 1.1)) (justify right top mirror) (href ""https://x.y/(z)"") hide))
      (number ""12"")
      (alternate """" input line)
      (alternate """" input line)
    )
    (symbol ""LM 358_7_1""
      (rectangle (start 0.0 0.0) (end 0.0 0.0)
        (stroke (width 0.0))
        (fill (type none))
      )
      (arc (start 0.0 0.0) (mid 0.0 0.0) (end 0.0 0.0)
        (stroke (width 0.0))
        (fill (type none))
      )
      (pin power_in line (at 2 3 90) (length 2.54) hide
        (name ""~{RST}"" (effects (font (face ""A \""b\"" \c"") (size 1.27 2) (color 255 0 128 0.5) (thickness 0.3) bold italic (line_spacing 1.1)) (justify right top mirror) (href ""https://x.y/(z)"") hide))
        (number ""12"")
        (alternate """" input line)
        (alternate """" input line)
      )
    )
    (symbol ""LM 358_8_1""
      (rectangle (start 0.0 0.0) (end 0.0 0.0)
        (stroke (width 0.0))
        (fill (type none))
      )
      (arc (start 0.0 0.0) (mid 0.0 0.0) (end 0.0 0.0)
        (stroke (width 0.0))
        (fill (type none))
      )
      (pin power_in line (at 2 3 90) (length 2.54) hide
        (name ""~{RST}"" (effects (font (face ""A \""b\"" \c"") (size 1.27 2) (color 255 0 128 0.5) (thickness 0.3) bold italic (line_spacing 1.1)) (justify right top mirror) (href ""https://x.y/(z)"") hide))
        (number ""12"")
        (alternate """" input line)
        (alternate """" input line)
      )
    )
  )
)" = true.
Proof. vm_compute. reflexivity. Qed.

Theorem C52_SymbolLib : equality SymbolLib_eqb.
Proof. exact SymbolLib_q. Qed.
Print Assumptions C52_SymbolLib.
Example C52_SymbolLib_case : compares SymbolLib_from SymbolLib_norm SymbolLib_eqb SymbolLib_default "(kicad_symbol_lib (version 20211014) (generator kicad_symbol_editor)
  (symbol ""Amplifier:LM 358"" (extends ""LM \""X\"""") (power) (pin_numbers hide) (pin_names (offset 0.5) hide) (in_bom yes) (on_board no)
    (property ""Sheet name"" ""a\b\"""" (id 3) (at 1 2.5 90) (show_name)
      (effects (font (face ""A \""b\"" \c"") (size 1.27 2) (color 255 0 128 0.5) (thickness 0.3) bold italic (line_spacing 1.1)) (justify right top mirror) (href ""https://x.y/(z)"") hide)
    )
    (property ""Sheet name"" ""a\b\"""" (id 3) (at 1 2.5 90) (show_name)
      (effects (font (face ""A \""b\"" \c"") (size 1.27 2) (color 255 0 128 0.5) (thickness 0.3) bold italic (line_spacing 1.1)) (justify right top mirror) (href ""https://x.y/(z)"") hide)
    )
    (circle (center 0.0 0.0) (radius 0.0)
      (stroke (width 0.0))
      (fill (type none))
    )
    (text """" (at 0.0 0.0)
      (effects (font (size 1.0 1.0)))
    )
    (pin power_in line (at 2 3 90) (length 2.54) hide
      (name ""~{RST}"" (effects (font (face ""A \""b\"" \c"") (size 1.27 2) (color 255 0 128 0.5) (thickness 0.3) bold italic (line_spacing 1.1)) (justify right top mirror) (href ""https://x.y/(z)"") hide))
      (number ""12"")
      (alternate """" input line)
      (alternate """" input line)
    )
    (pin input line (at 0.0 0.0) (length 0.254) (name """") (number ""0""))
    (symbol ""LM 358_0_1""
      (rectangle (start 0.0 0.0) (end 0.0 0.0)
        (stroke (width 0.0))
        (fill (type none))
      )
      (arc (start 0.0 0.0) (mid 0.0 0.0) (end 0.0 0.0)
        (stroke (width 0.0))
        (fill (type none))
      )
      (pin power_in line (at 2 3 90) (length 2.54) hide
        (name ""~{RST}"" (effects (font (face ""A \""b\"" \c"") (size 1.27 2) (color 255 0 128 0.5) (thickness 0.3) bold italic (line_spacing 1.1)) (justify right top mirror) (href ""https://x.y/(z)"") hide))
        (number ""12"")
        (alternate """" input line)
        (alternate """" input line)
      )
    )
    (symbol ""LM 358_1_1""
      (rectangle (start 0.0 0.0) (end 0.0 0.0)
        (stroke (width 0.0))
        (fill (type none))
      )
      (arc (start 0.0 0.0) (mid 0.0 0.0) (end 0.0 0.0)
        (stroke (width 0.0))
        (fill (type none))
      )
      (pin power_in line (at 2 3 90) (length 2.54) hide
        (name ""~{RST}"" (effects (font (face ""A \""b\"" \c"") (size 1.27 2) (color 255 0 128 0.5) (thickness 0.3) bold italic (line_spacing 1.1)) (justify right top mirror) (href ""https://x.y/(z)"") hide))
        (number ""12"")
        (alternate """" input line)
        (alternate """" input line)
      )
      (symbol ""LM 358_7_1""
        (rectangle (start 0.0 0.0) (end 0.0 0.0)
          (stroke (width 0.0))
          (fill (type none))
        )
        (arc (start 0.0 0.0) (mid 0.0 0.0) (end 0.0 0.0)
          (stroke (width 0.0))
          (fill (type none))
        )
        (pin power_in line (at 2 3 90) (length 2.54) hide
          (name ""~{RST}"" (effects (font (face ""A \""b\"" \c"") (size 1.27 2) (color 255 0 128 0.5) (thickness 0.3) bold italic (line_spacing 1.1)) (justify right top mirror) (href ""https://x.y/(z)"") hide))
          (number ""12"")
          (alternate """" input line)
          (alternate """" input line)
        )
      )
      (symbol ""LM 358_8_1""
        (rectangle (start 0.0 0.0) (end 0.0 0.0)
          (stroke (width 0.0))
          (fill (type none))
        )
        (arc (start 0.0 0.0) (mid 0.0 0.0) (end 0.0 0.0)
          (stroke (width 0.0))
          (fill (type none))
        )
        (pin power_in line (at 2 3 90) (length 2.54) hide
          (name ""~{RST}"" (effects (font (face ""A \""b\"" \c"") (size 1.27 2) (color 255 0 128 0.5) (thickness 0.3) bold italic (line_spacing 1.1)) (justify right top mirror) (href ""https://x.y/(z)"") hide))
          (number ""12"")
          (alternate """" input line)
          (alternate """" input line)
        )
      )
    )
  )
  (symbol ""LM 358_3_1""
    (rectangle (start 0.0 0.0) (end 0.0 0.0)
      (stroke (width 0.0))
      (fill (type none))
    )
    (arc (start 0.0 0.0) (mid 0.0 0.0) (end 0.0 0.0)
      (stroke (width 0.0))
      (fill (type none))
    )
    (pin power_in line (at 2 3 90) (length 2.54) hide
      (name ""~{RST}"" (effects (font (face ""A \""b\"" \c"") (size 1.27 2) (color 255 0 128 0.5) (thickness 0.3) bold italic (line_spacing 1.1)) (justify right top mirror) (href ""https://x.y/(z)"") hide))
      (number ""12"")
      (alternate """" input line)
      (alternate """" input line)
    )
  )
)" = true.
Proof. vm_compute. reflexivity. Qed.

Theorem C52_FpText : equality FpText_eqb.
Proof. exact FpText_q. Qed.
Print Assumptions C52_FpText.
Example C52_FpText_case : compares FpText_from FpText_norm FpText_eqb FpText_default "(fp_text user ""a \""(b)\"" \ c"" (at 1 2.5 90 unlocked) (layer ""F.SilkS"" knockout) hide
  (effects (font (face ""A \""b\"" \c"") (size 1.27 2) (color 255 0 128 0.5) (thickness 0.3) bold italic (line_spacing 1.1)) (justify right top mirror) (href ""https://x.y/(z)"") hide)
  (tstamp 7c2f5ab1-44ff-4a1c-b96d-28f9f3a0fd1e)
  (render_cache ""ab\""c"" 0
    (polygon
      (pts
        (xy 1 2)        (xy 1.5 2)        (xy 0 -7)        (xy 0 0)
        (xy 9 9)
      )
    )
  )
)" = true.
Proof. vm_compute. reflexivity. Qed.

Theorem C52_FpLine : equality FpLine_eqb.
Proof. exact FpLine_q. Qed.
Print Assumptions C52_FpLine.
Example C52_FpLine_case : compares FpLine_from FpLine_norm FpLine_eqb FpLine_default "(fp_line (start 2 3) (end 2 0.001) (layer ""F.Fab"") (stroke (width 0.254) (type dash_dot) (color 255 0 128 0.5)) (tstamp 7c2f5ab1-44ff-4a1c-b96d-28f9f3a0fd1e))" = true.
Proof. vm_compute. reflexivity. Qed.

Theorem C52_FpRect : equality FpRect_eqb.
Proof. exact FpRect_q. Qed.
Print Assumptions C52_FpRect.
Example C52_FpRect_case : compares FpRect_from FpRect_norm FpRect_eqb FpRect_default "(fp_rect (start 2 3) (end 2 0.001) (layer ""F.Fab"") (width 0.15) (fill solid) locked (tstamp 7c2f5ab1-44ff-4a1c-b96d-28f9f3a0fd1e))" = true.
Proof. vm_compute. reflexivity. Qed.

Theorem C52_FpCircle : equality FpCircle_eqb.
Proof. exact FpCircle_q. Qed.
Print Assumptions C52_FpCircle.
Example C52_FpCircle_case : compares FpCircle_from FpCircle_norm FpCircle_eqb FpCircle_default "(fp_circle (center 2 3) (end 2 0.001) (layer ""F.Fab"") (stroke (width 0.254) (type dash_dot) (color 255 0 128 0.5)) (fill solid) locked (tstamp 7c2f5ab1-44ff-4a1c-b96d-28f9f3a0fd1e))" = true.
Proof. vm_compute. reflexivity. Qed.

Theorem C52_FpArc : equality FpArc_eqb.
Proof. exact FpArc_q. Qed.
Print Assumptions C52_FpArc.
Example C52_FpArc_case : compares FpArc_from FpArc_norm FpArc_eqb FpArc_default "(fp_arc (start 2 3) (mid 5 3) (end 2 0.001) (layer ""F.Fab"") (stroke (width 0.254) (type dash_dot) (color 255 0 128 0.5)) locked (tstamp 7c2f5ab1-44ff-4a1c-b96d-28f9f3a0fd1e))" = true.
Proof. vm_compute. reflexivity. Qed.

Theorem C52_FpPoly : equality FpPoly_eqb.
Proof. exact FpPoly_q. Qed.
Print Assumptions C52_FpPoly.
Example C52_FpPoly_case : compares FpPoly_from FpPoly_norm FpPoly_eqb FpPoly_default "(fp_poly (pts
    (xy 2 3)
    (xy 0.1 0)
    (xy 2 3)
    (xy -1.5 7)
  ) (layer ""F.Fab"") (stroke (width 0.254) (type dash_dot) (color 255 0 128 0.5)) (fill solid) locked (tstamp 7c2f5ab1-44ff-4a1c-b96d-28f9f3a0fd1e))" = true.
Proof. vm_compute. reflexivity. Qed.

Theorem C52_FpCurve : equality FpCurve_eqb.
Proof. exact FpCurve_q. Qed.
Print Assumptions C52_FpCurve.
Example C52_FpCurve_case : compares FpCurve_from FpCurve_norm FpCurve_eqb FpCurve_default "(fp_curve (pts
  (xy 2 3)
  (xy 0.1 0)
  (xy 2 3)
  (xy -1.5 7)
) (layer ""F.Fab"") (width 0.15) locked (tstamp 7c2f5ab1-44ff-4a1c-b96d-28f9f3a0fd1e))" = true.
Proof. vm_compute. reflexivity. Qed.

Theorem C52_FpTextBox : equality FpTextBox_eqb.
Proof. exact FpTextBox_q. Qed.
Print Assumptions C52_FpTextBox.
Example C52_FpTextBox_case : compares FpTextBox_from FpTextBox_norm FpTextBox_eqb FpTextBox_default "(fp_text_box locked ""locked""
  (pts
    (xy 2 3)      (xy 0.1 0)      (xy 2 3)      (xy -1.5 7)
  )
  (angle 45.5) (layer ""F.Fab"") (tstamp 7c2f5ab1-44ff-4a1c-b96d-28f9f3a0fd1e)
  (effects (font (face ""A \""b\"" \c"") (size 1.27 2) (color 255 0 128 0.5) (thickness 0.3) bold italic (line_spacing 1.1)) (justify right top mirror) (href ""https://x.y/(z)"") hide)
  (stroke (width 0.254) (type dash_dot) (color 255 0 128 0.5))
  (render_cache ""ab\""c"" 0
    (polygon
      (pts
        (xy 1 2)        (xy 1.5 2)        (xy 0 -7)        (xy 0 0)
        (xy 9 9)
      )
    )
  )
)" = true.
Proof. vm_compute. reflexivity. Qed.

Theorem C52_GrText : equality GrText_eqb.
Proof. exact GrText_q. Qed.
Print Assumptions C52_GrText.
Example C52_GrText_case : compares GrText_from GrText_norm GrText_eqb GrText_default "(gr_text ""a \""(b)\"" \ c"" (at 1 2.5 90) (layer ""F.SilkS"" knockout) (tstamp 7c2f5ab1-44ff-4a1c-b96d-28f9f3a0fd1e)
  (effects (font (face ""A \""b\"" \c"") (size 1.27 2) (color 255 0 128 0.5) (thickness 0.3) bold italic (line_spacing 1.1)) (justify right top mirror) (href ""https://x.y/(z)"") hide)
  (render_cache ""ab\""c"" 0
    (polygon
      (pts
        (xy 1 2)        (xy 1.5 2)        (xy 0 -7)        (xy 0 0)
        (xy 9 9)
      )
    )
  )
)" = true.
Proof. vm_compute. reflexivity. Qed.

Theorem C52_GrLine : equality GrLine_eqb.
Proof. exact GrLine_q. Qed.
Print Assumptions C52_GrLine.
Example C52_GrLine_case : compares GrLine_from GrLine_norm GrLine_eqb GrLine_default "(gr_line locked (start 2 3) (end 2 0.001) (layer ""F.Fab"") (width 1) (tstamp 7c2f5ab1-44ff-4a1c-b96d-28f9f3a0fd1e))" = true.
Proof. vm_compute. reflexivity. Qed.

Theorem C52_GrRect : equality GrRect_eqb.
Proof. exact GrRect_q. Qed.
Print Assumptions C52_GrRect.
Example C52_GrRect_case : compares GrRect_from GrRect_norm GrRect_eqb GrRect_default "(gr_rect locked (start 2 3) (end 2 0.001) (layer ""F.Fab"") (width 0.15) (fill solid) (tstamp 7c2f5ab1-44ff-4a1c-b96d-28f9f3a0fd1e))" = true.
Proof. vm_compute. reflexivity. Qed.

Theorem C52_GrCircle : equality GrCircle_eqb.
Proof. exact GrCircle_q. Qed.
Print Assumptions C52_GrCircle.
Example C52_GrCircle_case : compares GrCircle_from GrCircle_norm GrCircle_eqb GrCircle_default "(gr_circle locked (center 2 3) (end 2 0.001) (layer ""F.Fab"") (width 0.15) (fill solid) (tstamp 7c2f5ab1-44ff-4a1c-b96d-28f9f3a0fd1e))" = true.
Proof. vm_compute. reflexivity. Qed.

Theorem C52_GrArc : equality GrArc_eqb.
Proof. exact GrArc_q. Qed.
Print Assumptions C52_GrArc.
Example C52_GrArc_case : compares GrArc_from GrArc_norm GrArc_eqb GrArc_default "(gr_arc locked (start 2 3) (mid 5 3) (end 2 0.001) (layer ""F.Fab"") (width 0.15) (tstamp 7c2f5ab1-44ff-4a1c-b96d-28f9f3a0fd1e))" = true.
Proof. vm_compute. reflexivity. Qed.

Theorem C52_GrPoly : equality GrPoly_eqb.
Proof. exact GrPoly_q. Qed.
Print Assumptions C52_GrPoly.
Example C52_GrPoly_case : compares GrPoly_from GrPoly_norm GrPoly_eqb GrPoly_default "(gr_poly locked (pts
    (xy 2 3)
    (xy 0.1 0)
    (xy 2 3)
    (xy -1.5 7)
  ) (layer ""F.Fab"") (width 0.15) (fill solid) (tstamp 7c2f5ab1-44ff-4a1c-b96d-28f9f3a0fd1e))" = true.
Proof. vm_compute. reflexivity. Qed.

Theorem C52_GrCurve : equality GrCurve_eqb.
Proof. exact GrCurve_q. Qed.
Print Assumptions C52_GrCurve.
Example C52_GrCurve_case : compares GrCurve_from GrCurve_norm GrCurve_eqb GrCurve_default "(gr_curve locked (pts
  (xy 2 3)
  (xy 0.1 0)
  (xy 2 3)
  (xy -1.5 7)
) (width 0.15) (tstamp 7c2f5ab1-44ff-4a1c-b96d-28f9f3a0fd1e))" = true.
Proof. vm_compute. reflexivity. Qed.

Theorem C52_GrTextBox : equality GrTextBox_eqb.
Proof. exact GrTextBox_q. Qed.
Print Assumptions C52_GrTextBox.
Example C52_GrTextBox_case : compares GrTextBox_from GrTextBox_norm GrTextBox_eqb GrTextBox_default "(gr_text_box locked ""locked""
  (pts
    (xy 2 3)        (xy 0.1 0)        (xy 2 3)        (xy -1.5 7)
  )
  (angle 45.5) (layer ""F.Fab"") (tstamp 7c2f5ab1-44ff-4a1c-b96d-28f9f3a0fd1e)
  (effects (font (face ""A \""b\"" \c"") (size 1.27 2) (color 255 0 128 0.5) (thickness 0.3) bold italic (line_spacing 1.1)) (justify right top mirror) (href ""https://x.y/(z)"") hide)
  (stroke (width 0.254) (type dash_dot) (color 255 0 128 0.5))
  (render_cache ""ab\""c"" 0
    (polygon
      (pts
        (xy 1 2)        (xy 1.5 2)        (xy 0 -7)        (xy 0 0)
        (xy 9 9)
      )
    )
  )
)" = true.
Proof. vm_compute. reflexivity. Qed.

Theorem C52_KeepoutSettings : equality KeepoutSettings_eqb.
Proof. exact KeepoutSettings_q. Qed.
Print Assumptions C52_KeepoutSettings.
Example C52_KeepoutSettings_case : compares KeepoutSettings_from KeepoutSettings_norm KeepoutSettings_eqb KeepoutSettings_default "(keepout (tracks allowed) (vias not_allowed) (pads allowed ) (copperpour not-allowed) (footprints not-allowed))" = true.
Proof. vm_compute. reflexivity. Qed.

Theorem C52_FillSettings : equality FillSettings_eqb.
Proof. exact FillSettings_q. Qed.
Print Assumptions C52_FillSettings.
Example C52_FillSettings_case : compares FillSettings_from FillSettings_norm FillSettings_eqb FillSettings_default "(fill yes (mode hatch) (thermal_gap 0.5) (thermal_bridge_width 0.508) (smoothing chamfer) (radius 1) (island_removal_mode 2) (island_area_min 10)
  (hatch_thickness 1) (hatch_gap 1.5) (hatch_orientation 45)
  (hatch_smoothing_level 1) (hatch_smoothing_value 0.1)
  (hatch_border_algorithm 0) (hatch_min_hole_area 0.3))" = true.
Proof. vm_compute. reflexivity. Qed.

Theorem C52_ZonePolygon : equality ZonePolygon_eqb.
Proof. exact ZonePolygon_q. Qed.
Print Assumptions C52_ZonePolygon.
Example C52_ZonePolygon_case : compares ZonePolygon_from ZonePolygon_norm ZonePolygon_eqb ZonePolygon_default "(polygon
  (pts
    (xy 2 3)
    (xy 0.1 0)
    (xy 2 3)
    (xy -1.5 7)
  )
)
" = true.
Proof. vm_compute. reflexivity. Qed.

Theorem C52_FilledPolygon : equality FilledPolygon_eqb.
Proof. exact FilledPolygon_q. Qed.
Print Assumptions C52_FilledPolygon.
Example C52_FilledPolygon_case : compares FilledPolygon_from FilledPolygon_norm FilledPolygon_eqb FilledPolygon_default "(filled_polygon
  (layer ""In1.Cu"")
  (island)
  (pts
    (xy 2 3)
    (xy 0.1 0)
    (xy 2 3)
    (xy -1.5 7)
  )
)
" = true.
Proof. vm_compute. reflexivity. Qed.

Theorem C52_FillSegments : equality FillSegments_eqb.
Proof. exact FillSegments_q. Qed.
Print Assumptions C52_FillSegments.
Example C52_FillSegments_case : compares FillSegments_from FillSegments_norm FillSegments_eqb FillSegments_default "(fill_segments
  (layer ""In1.Cu"")
  (pts
    (xy 2 3)
    (xy 0.1 0)
    (xy 2 3)
    (xy -1.5 7)
  )
)
" = true.
Proof. vm_compute. reflexivity. Qed.

Theorem C52_Hatch : equality Hatch_eqb.
Proof. exact Hatch_q. Qed.
Print Assumptions C52_Hatch.

Theorem C52_Zone : equality Zone_eqb.
Proof. exact Zone_q. Qed.
Print Assumptions C52_Zone.
Example C52_Zone_case : compares Zone_from Zone_norm Zone_eqb Zone_default "(zone locked (net 12) (net_name ""Net \""(1)\"""") (layers ""F.Cu"" ""B.Cu"") (tstamp 7c2f5ab1-44ff-4a1c-b96d-28f9f3a0fd1e) (name ""my zone"") (hatch edge 0.508)
  (priority 3)
  (connect_pads thru_hole_only (clearance 0.2))
  (min_thickness 0.254) (filled_areas_thickness no)
  (keepout (tracks allowed) (vias not_allowed) (pads allowed ) (copperpour not-allowed) (footprints not-allowed))
  (fill yes (mode hatch) (thermal_gap 0.5) (thermal_bridge_width 0.508) (smoothing chamfer) (radius 1) (island_removal_mode 2) (island_area_min 10)
    (hatch_thickness 1) (hatch_gap 1.5) (hatch_orientation 45)
    (hatch_smoothing_level 1) (hatch_smoothing_value 0.1)
    (hatch_border_algorithm 0) (hatch_min_hole_area 0.3))
  (polygon
    (pts
      (xy 2 3)
      (xy 0.1 0)
      (xy 2 3)
      (xy -1.5 7)
    )
  )
  (polygon
    (pts
      (xy 1 2)
    )
  )
  (filled_polygon
    (layer ""F.Cu"")
    (island)
    (pts
      (xy 2 3)
      (xy 0.1 0)
      (xy 2 3)
      (xy -1.5 7)
    )
  )
    (fill_segments
      (layer ""B.Cu"")
      (pts
        (xy 2 3)
        (xy 0.1 0)
        (xy 2 3)
        (xy -1.5 7)
      )
    )
)" = true.
Proof. vm_compute. reflexivity. Qed.

Theorem C52_Attributes : equality Attributes_eqb.
Proof. exact Attributes_q. Qed.
Print Assumptions C52_Attributes.
Example C52_Attributes_case : compares Attributes_from Attributes_norm Attributes_eqb Attributes_default "(attr smd exclude_from_pos_files exclude_from_bom)" = true.
Proof. vm_compute. reflexivity. Qed.

Theorem C52_Model : equality Model_eqb.
Proof. exact Model_q. Qed.
Print Assumptions C52_Model.
Example C52_Model_case : compares Model_from Model_norm Model_eqb Model_default "(model ""${KICAD6_3DMODEL_DIR}/a \""b\"".wrl"" hide
  (opacity 0.5)
  (offset (xyz 2.5 -3 1.0))
  (scale (xyz 1 1 0.1))
  (rotate (xyz 0 90 0))
)" = true.
Proof. vm_compute. reflexivity. Qed.

Theorem C52_DrillDefinition : equality DrillDefinition_eqb.
Proof. exact DrillDefinition_q. Qed.
Print Assumptions C52_DrillDefinition.
Example C52_DrillDefinition_case : compares DrillDefinition_from DrillDefinition_norm DrillDefinition_eqb DrillDefinition_default "(drill oval 0.8 2 (offset 1 0.5))" = true.
Proof. vm_compute. reflexivity. Qed.

Theorem C52_PadOptions : equality PadOptions_eqb.
Proof. exact PadOptions_q. Qed.
Print Assumptions C52_PadOptions.
Example C52_PadOptions_case : compares PadOptions_from PadOptions_norm PadOptions_eqb PadOptions_default "(options (clearance convexhull) (anchor circle))" = true.
Proof. vm_compute. reflexivity. Qed.

Theorem C52_PadPrimitive : equality PadPrimitive_eqb.
Proof. exact PadPrimitive_q. Qed.
Print Assumptions C52_PadPrimitive.

Theorem C52_Pad : equality Pad_eqb.
Proof. exact Pad_q. Qed.
Print Assumptions C52_Pad.
Example C52_Pad_case : compares Pad_from Pad_norm Pad_eqb Pad_default "(pad ""A \""1\"""" thru_hole custom locked (at 1 2.5 90) (size 1 2) (drill oval 0.8 2 (offset 1 0.5)) (property pad_prop_bga) (layers *.Cu ""F.Mask"" F&B.Paste ""In1 (x)"") (remove_unused_layers) (keep_end_layers) (roundrect_rratio 0.25)
  (chamfer_ratio 0.1) (chamfer top_left bottom_right)
  (die_length 3)
  (net 17 ""Net-(U1-Pad3)"") (pinfunction ""fn"") (pintype ""bidirectional+no_connect"") (solder_mask_margin 0.1) (solder_paste_margin 0.2) (solder_paste_margin_ratio 0.3) (clearance 0.4) (zone_connect 2) (thermal_width 0.5) (thermal_gap 0.6)
  (options (clearance convexhull) (anchor circle))
  (primitives
    (gr_text ""a \""(b)\"" \ c"" (at 1 2.5 90) (layer ""F.SilkS"" knockout) (tstamp 7c2f5ab1-44ff-4a1c-b96d-28f9f3a0fd1e)
      (effects (font (face ""A \""b\"" \c"") (size 1.27 2) (color 255 0 128 0.5) (thickness 0.3) bold italic (line_spacing 1.1)) (justify right top mirror) (href ""https://x.y/(z)"") hide)
      (render_cache ""ab\""c"" 0
        (polygon
          (pts
            (xy 1 2)            (xy 1.5 2)            (xy 0 -7)            (xy 0 0)
            (xy 9 9)
          )
        )
      )
    )
    (gr_line locked (start 2 3) (end 2 0.001) (layer ""F.Fab"") (width 1) (tstamp 7c2f5ab1-44ff-4a1c-b96d-28f9f3a0fd1e))
    (gr_poly locked (pts
        (xy 2 3)
        (xy 0.1 0)
        (xy 2 3)
        (xy -1.5 7)
      ) (layer ""F.Fab"") (width 0.15) (fill solid) (tstamp 7c2f5ab1-44ff-4a1c-b96d-28f9f3a0fd1e))
  ) (tstamp 7c2f5ab1-44ff-4a1c-b96d-28f9f3a0fd1e))" = true.
Proof. vm_compute. reflexivity. Qed.

Theorem C52_FpItem : equality FpItem_eqb.
Proof. exact FpItem_q. Qed.
Print Assumptions C52_FpItem.

Theorem C52_Footprint : equality Footprint_eqb.
Proof. exact Footprint_q. Qed.
Print Assumptions C52_Footprint.
Example C52_Footprint_case : compares (Footprint_from (VStr $"0")) Footprint_norm Footprint_eqb (Footprint_default (VStr $"0")) "(footprint ""Package_SO:SOIC-8 \""x\"""" locked placed (version 20211014) (generator pcbnew)
  (layer ""B.Cu"")
  (tedit 65fa1b2c) (tstamp 7c2f5ab1-44ff-4a1c-b96d-28f9f3a0fd1e)
  (at 1 2 180)
  (descr ""d \""(1)\"""")
  (tags ""a b"")
  (property ""Sheetfile"" ""x.kicad_sch"")
  (property ""k 2"" """")
  (path ""/1/2"")
  (autoplace_cost90 1)
  (autoplace_cost180 2)
  (solder_mask_margin 0.1)
  (solder_paste_margin 0.2)
  (solder_paste_ratio 0.3)
  (clearance 0.4)
  (zone_connect 2)
  (thermal_width 0.5)
  (thermal_gap 0.6)
  (attr through_hole board_only exclude_from_pos_files exclude_from_bom allow_missing_courtyard)
  (private_layers ""User.1"")
  (net_tie_pad_groups ""1, 2"" ""3"")
  (fp_text user ""a \""(b)\"" \ c"" (at 1 2.5 90 unlocked) (layer ""F.SilkS"" knockout) hide
    (effects (font (face ""A \""b\"" \c"") (size 1.27 2) (color 255 0 128 0.5) (thickness 0.3) bold italic (line_spacing 1.1)) (justify right top mirror) (href ""https://x.y/(z)"") hide)
    (tstamp 7c2f5ab1-44ff-4a1c-b96d-28f9f3a0fd1e)
    (render_cache ""ab\""c"" 0
      (polygon
        (pts
          (xy 1 2)          (xy 1.5 2)          (xy 0 -7)          (xy 0 0)
          (xy 9 9)
        )
      )
    )
  )
  (fp_curve (pts
    (xy 2 3)
    (xy 0.1 0)
    (xy 2 3)
    (xy -1.5 7)
  ) (layer ""F.Fab"") (width 0.15) locked (tstamp 7c2f5ab1-44ff-4a1c-b96d-28f9f3a0fd1e))
  (image (at 12.34 5) (layer ""F.SilkS"") (scale 0.5)
    (uuid a-b-c)
    (data
      iVBORw0KGgo=
      12
    )
  )
  (pad ""A \""1\"""" thru_hole custom locked (at 1 2.5 90) (size 1 2) (drill oval 0.8 2 (offset 1 0.5)) (property pad_prop_bga) (layers *.Cu ""F.Mask"" F&B.Paste ""In1 (x)"") (remove_unused_layers) (keep_end_layers) (roundrect_rratio 0.25)
    (chamfer_ratio 0.1) (chamfer top_left bottom_right)
    (die_length 3)
    (net 17 ""Net-(U1-Pad3)"") (pinfunction ""fn"") (pintype ""bidirectional+no_connect"") (solder_mask_margin 0.1) (solder_paste_margin 0.2) (solder_paste_margin_ratio 0.3) (clearance 0.4) (zone_connect 2) (thermal_width 0.5) (thermal_gap 0.6)
    (options (clearance convexhull) (anchor circle))
    (primitives
      (gr_text ""a \""(b)\"" \ c"" (at 1 2.5 90) (layer ""F.SilkS"" knockout) (tstamp 7c2f5ab1-44ff-4a1c-b96d-28f9f3a0fd1e)
        (effects (font (face ""A \""b\"" \c"") (size 1.27 2) (color 255 0 128 0.5) (thickness 0.3) bold italic (line_spacing 1.1)) (justify right top mirror) (href ""https://x.y/(z)"") hide)
        (render_cache ""ab\""c"" 0
          (polygon
            (pts
              (xy 1 2)              (xy 1.5 2)              (xy 0 -7)              (xy 0 0)
              (xy 9 9)
            )
          )
        )
      )
      (gr_line locked (start 2 3) (end 2 0.001) (layer ""F.Fab"") (width 1) (tstamp 7c2f5ab1-44ff-4a1c-b96d-28f9f3a0fd1e))
      (gr_poly locked (pts
          (xy 2 3)
          (xy 0.1 0)
          (xy 2 3)
          (xy -1.5 7)
        ) (layer ""F.Fab"") (width 0.15) (fill solid) (tstamp 7c2f5ab1-44ff-4a1c-b96d-28f9f3a0fd1e))
    ) (tstamp 7c2f5ab1-44ff-4a1c-b96d-28f9f3a0fd1e))
  (pad ""x"" smd rect (at 0.0 0.0) (size 0.0 0.0) (layers))
  (zone locked (net 12) (net_name ""Net \""(1)\"""") (layers ""F.Cu"" ""B.Cu"") (tstamp 7c2f5ab1-44ff-4a1c-b96d-28f9f3a0fd1e) (name ""my zone"") (hatch edge 0.508)
    (priority 3)
    (connect_pads thru_hole_only (clearance 0.2))
    (min_thickness 0.254) (filled_areas_thickness no)
    (keepout (tracks allowed) (vias not_allowed) (pads allowed ) (copperpour not-allowed) (footprints not-allowed))
    (fill yes (mode hatch) (thermal_gap 0.5) (thermal_bridge_width 0.508) (smoothing chamfer) (radius 1) (island_removal_mode 2) (island_area_min 10)
      (hatch_thickness 1) (hatch_gap 1.5) (hatch_orientation 45)
      (hatch_smoothing_level 1) (hatch_smoothing_value 0.1)
      (hatch_border_algorithm 0) (hatch_min_hole_area 0.3))
    (polygon
      (pts
        (xy 2 3)
        (xy 0.1 0)
        (xy 2 3)
        (xy -1.5 7)
      )
    )
    (polygon
      (pts
        (xy 1 2)
      )
    )
    (filled_polygon
      (layer ""F.Cu"")
      (island)
      (pts
        (xy 2 3)
        (xy 0.1 0)
        (xy 2 3)
        (xy -1.5 7)
      )
    )
    (fill_segments
      (layer ""B.Cu"")
      (pts
        (xy 2 3)
        (xy 0.1 0)
        (xy 2 3)
        (xy -1.5 7)
      )
    )
  )
  (model ""${KICAD6_3DMODEL_DIR}/a \""b\"".wrl"" hide
    (opacity 0.5)
    (offset (xyz 2.5 -3 1.0))
    (scale (xyz 1 1 0.1))
    (rotate (xyz 0 90 0))
  )
  (model ""${KICAD6_3DMODEL_DIR}/a \""b\"".wrl"" hide
    (opacity 0.5)
    (offset (xyz 2.5 -3 1.0))
    (scale (xyz 1 1 0.1))
    (rotate (xyz 0 90 0))
  )
  (group ""g \""1\"""" locked (id 6fe2b9d8-0001)
    (members
      0012
      abc-1
    )
  )
)" = true.
Proof. vm_compute. reflexivity. Qed.

Theorem C52_DimensionFormat : equality DimensionFormat_eqb.
Proof. exact DimensionFormat_q. Qed.
Print Assumptions C52_DimensionFormat.
Example C52_DimensionFormat_case : compares DimensionFormat_from DimensionFormat_norm DimensionFormat_eqb DimensionFormat_default "(format (prefix ""a \""("") (suffix ""mm"") (units 2) (units_format 0) (precision 7) (override_value ""1 \ 2"") suppress_zeroes)" = true.
Proof. vm_compute. reflexivity. Qed.

Theorem C52_DimensionStyle : equality DimensionStyle_eqb.
Proof. exact DimensionStyle_q. Qed.
Print Assumptions C52_DimensionStyle.
Example C52_DimensionStyle_case : compares DimensionStyle_from DimensionStyle_norm DimensionStyle_eqb DimensionStyle_default "(style (thickness 0.15) (arrow_length 1.27) (text_position_mode 2) (extension_height 0.58642) (text_frame 3) (extension_offset 0.5) keep_text_aligned)" = true.
Proof. vm_compute. reflexivity. Qed.

Theorem C52_Dimension : equality Dimension_eqb.
Proof. exact Dimension_q. Qed.
Print Assumptions C52_Dimension.
Example C52_Dimension_case : compares Dimension_from Dimension_norm Dimension_eqb Dimension_default "(dimension (type orthogonal) (layer ""Dwgs.User (1)"") (tstamp 7c2f5ab1-44ff-4a1c-b96d-28f9f3a0fd1e)
  (pts (xy 2 3) (xy 0.1 0) (xy 2 3) (xy -1.5 7))
  (height -2.5)
  (orientation 1)
  (leader_length 2)
  (gr_text ""a \""(b)\"" \ c"" (at 1 2.5 90) (layer ""F.SilkS"" knockout) (tstamp 7c2f5ab1-44ff-4a1c-b96d-28f9f3a0fd1e)
    (effects (font (face ""A \""b\"" \c"") (size 1.27 2) (color 255 0 128 0.5) (thickness 0.3) bold italic (line_spacing 1.1)) (justify right top mirror) (href ""https://x.y/(z)"") hide)
    (render_cache ""ab\""c"" 0
      (polygon
        (pts
          (xy 1 2)          (xy 1.5 2)          (xy 0 -7)          (xy 0 0)
          (xy 9 9)
        )
      )
    )
  )
  (format (prefix ""a \""("") (suffix ""mm"") (units 2) (units_format 0) (precision 7) (override_value ""1 \ 2"") suppress_zeroes)
  (style (thickness 0.15) (arrow_length 1.27) (text_position_mode 2) (extension_height 0.58642) (text_frame 3) (extension_offset 0.5) keep_text_aligned)
)" = true.
Proof. vm_compute. reflexivity. Qed.

Theorem C52_GeneralSettings : equality GeneralSettings_eqb.
Proof. exact GeneralSettings_q. Qed.
Print Assumptions C52_GeneralSettings.
Example C52_GeneralSettings_case : compares GeneralSettings_from GeneralSettings_norm GeneralSettings_eqb GeneralSettings_default "(general (thickness 0.8))" = true.
Proof. vm_compute. reflexivity. Qed.

Theorem C52_LayerToken : equality LayerToken_eqb.
Proof. exact LayerToken_q. Qed.
Print Assumptions C52_LayerToken.
Example C52_LayerToken_case : compares LayerToken_from LayerToken_norm LayerToken_eqb LayerToken_default "(37 ""F.Silk\""S"" user ""F.Silkscreen (top)"")" = true.
Proof. vm_compute. reflexivity. Qed.

Theorem C52_StackupSubLayer : equality StackupSubLayer_eqb.
Proof. exact StackupSubLayer_q. Qed.
Print Assumptions C52_StackupSubLayer.

Theorem C52_StackupLayer : equality StackupLayer_eqb.
Proof. exact StackupLayer_q. Qed.
Print Assumptions C52_StackupLayer.
Example C52_StackupLayer_case : compares StackupLayer_from StackupLayer_norm StackupLayer_eqb StackupLayer_default "(layer ""dielectric 1"" (type ""core"") (color ""Green"") (thickness 1.51) (material ""FR4"") (epsilon_r 4.5)
  addsublayer (thickness 0.48) (material ""FR4 \""(x)\"""") (epsilon_r 4.5) (loss_tangent 0.02)
  addsublayer (thickness 1) (loss_tangent 0.02)
  addsublayer (thickness 0.48) (material ""FR4 \""(x)\"""") (epsilon_r 4.5) (loss_tangent 0.02))" = true.
Proof. vm_compute. reflexivity. Qed.

Theorem C52_Stackup : equality Stackup_eqb.
Proof. exact Stackup_q. Qed.
Print Assumptions C52_Stackup.
Example C52_Stackup_case : compares Stackup_from Stackup_norm Stackup_eqb Stackup_default "(stackup
  (layer ""F.SilkS"" (type ""Top Silk Screen""))
  (layer ""dielectric 1"" (type ""core"") (color ""Green"") (thickness 1.51) (material ""FR4"") (epsilon_r 4.5)
    addsublayer (thickness 0.48) (material ""FR4 \""(x)\"""") (epsilon_r 4.5) (loss_tangent 0.02)
    addsublayer (thickness 1) (loss_tangent 0.02)
    addsublayer (thickness 0.48) (material ""FR4 \""(x)\"""") (epsilon_r 4.5) (loss_tangent 0.02))
  (copper_finish ""ENIG"")
  (dielectric_constraints no)
  (edge_connector bevelled)
  (castellated_pads yes)
)" = true.
Proof. vm_compute. reflexivity. Qed.

Theorem C52_PlotSettings : equality PlotSettings_eqb.
Proof. exact PlotSettings_q. Qed.
Print Assumptions C52_PlotSettings.
Example C52_PlotSettings_case : compares PlotSettings_from PlotSettings_norm PlotSettings_eqb PlotSettings_default "(pcbplotparams
  (layerselection 0x00010fc_ffffffff)
  (plot_on_all_layers_selection 0x0000000_00000000)
  (disableapertmacros false)
  (usegerberextensions false)
  (usegerberattributes false)
  (usegerberadvancedattributes false)
  (creategerberjobfile false)
  (dashed_line_dash_ratio 12.000000)
  (dashed_line_gap_ratio 3.000001)
  (svguseinch false)
  (svgprecision 0.0)
  (excludeedgelayer true)
  (plotframeref false)
  (viasonmask true)
  (mode 1)
  (useauxorigin false)
  (hpglpennumber 0)
  (hpglpenspeed 0)
  (hpglpendiameter 1.500000)
  (dxfpolygonmode false)
  (dxfimperialunits false)
  (dxfusepcbnewfont false)
  (psnegative false)
  (psa4output false)
  (plotreference false)
  (plotvalue false)
  (plotinvisibletext false)
  (sketchpadsonfab false)
  (subtractmaskfromsilk false)
  (outputformat 0)
  (mirror true)
  (drillshape 0)
  (scaleselection 1)
  (outputdirectory ""out \""(1)\""/"")
)" = true.
Proof. vm_compute. reflexivity. Qed.

Theorem C52_SetupData : equality SetupData_eqb.
Proof. exact SetupData_q. Qed.
Print Assumptions C52_SetupData.
Example C52_SetupData_case : compares SetupData_from SetupData_norm SetupData_eqb SetupData_default "(setup
  (stackup
    (layer ""F.SilkS"" (type ""Top Silk Screen""))
    (layer ""dielectric 1"" (type ""core"") (color ""Green"") (thickness 1.51) (material ""FR4"") (epsilon_r 4.5)
      addsublayer (thickness 0.48) (material ""FR4 \""(x)\"""") (epsilon_r 4.5) (loss_tangent 0.02)
      addsublayer (thickness 1) (loss_tangent 0.02)
      addsublayer (thickness 0.48) (material ""FR4 \""(x)\"""") (epsilon_r 4.5) (loss_tangent 0.02))
    (copper_finish ""ENIG"")
    (dielectric_constraints no)
    (edge_connector bevelled)
    (castellated_pads yes)
  )
  (pad_to_mask_clearance 0.05)
  (solder_mask_min_width 0.1)
  (pad_to_paste_clearance_ratio -0.05)
  (aux_axis_origin 1 2.5)
  (pcbplotparams
    (layerselection 0x00010fc_ffffffff)
    (plot_on_all_layers_selection 0x0000000_00000000)
    (disableapertmacros false)
    (usegerberextensions false)
    (usegerberattributes false)
    (usegerberadvancedattributes false)
    (creategerberjobfile false)
    (dashed_line_dash_ratio 12.000000)
    (dashed_line_gap_ratio 3.000001)
    (svguseinch false)
    (svgprecision 0.0)
    (excludeedgelayer true)
    (plotframeref false)
    (viasonmask true)
    (mode 1)
    (useauxorigin false)
    (hpglpennumber 0)
    (hpglpenspeed 0)
    (hpglpendiameter 1.500000)
    (dxfpolygonmode false)
    (dxfimperialunits false)
    (dxfusepcbnewfont false)
    (psnegative false)
    (psa4output false)
    (plotreference false)
    (plotvalue false)
    (plotinvisibletext false)
    (sketchpadsonfab false)
    (subtractmaskfromsilk false)
    (outputformat 0)
    (mirror true)
    (drillshape 0)
    (scaleselection 1)
    (outputdirectory ""out \""(1)\""/"")
  )
)" = true.
Proof. vm_compute. reflexivity. Qed.

Theorem C52_Segment : equality Segment_eqb.
Proof. exact Segment_q. Qed.
Print Assumptions C52_Segment.
Example C52_Segment_case : compares Segment_from Segment_norm Segment_eqb Segment_default "(segment locked (start 1 2.5) (end 3 4) (width 0.25) (layer ""F.Cu"") (net 7) (tstamp 7c2f5ab1-44ff-4a1c-b96d-28f9f3a0fd1e))" = true.
Proof. vm_compute. reflexivity. Qed.

Theorem C52_Via : equality Via_eqb.
Proof. exact Via_q. Qed.
Print Assumptions C52_Via.
Example C52_Via_case : compares Via_from Via_norm Via_eqb Via_default "(via blind locked (at 1 2.5) (size 0.8) (drill 0.4) (layers ""F.Cu"" ""In 1 \""(x)\"""") (remove_unused_layers) (keep_end_layers) (free) (net 3) (tstamp 7c2f5ab1-44ff-4a1c-b96d-28f9f3a0fd1e))" = true.
Proof. vm_compute. reflexivity. Qed.

Theorem C52_Arc : equality Arc_eqb.
Proof. exact Arc_q. Qed.
Print Assumptions C52_Arc.
Example C52_Arc_case : compares Arc_from Arc_norm Arc_eqb Arc_default "(arc locked (start 1 2.5) (mid 3 4) (end 5 4) (width 0.25) (layer ""F \""Cu"") (net 7))" = true.
Proof. vm_compute. reflexivity. Qed.

Theorem C52_Target : equality Target_eqb.
Proof. exact Target_q. Qed.
Print Assumptions C52_Target.
Example C52_Target_case : compares Target_from Target_norm Target_eqb Target_default "(target x (at 1 2.5) (size 5) (width 0.05) (layer ""Edge.Cuts"") (tstamp 7c2f5ab1-44ff-4a1c-b96d-28f9f3a0fd1e))" = true.
Proof. vm_compute. reflexivity. Qed.

Theorem C52_BdItem : equality BdItem_eqb.
Proof. exact BdItem_q. Qed.
Print Assumptions C52_BdItem.

Theorem C52_TrItem : equality TrItem_eqb.
Proof. exact TrItem_q. Qed.
Print Assumptions C52_TrItem.

Theorem C52_Board : equality Board_eqb.
Proof. exact Board_q. Qed.
Print Assumptions C52_Board.
Example C52_Board_case : compares (Board_from (VStr $"0")) Board_norm Board_eqb Board_default "(kicad_pcb (version 20221018) (generator pcbnew)

  (general
    (thickness 1.6)
  )

  (paper ""A3"" portrait)
  (title_block
    (title ""T"")
    (rev ""1.0"")
    (company """")
    (comment 1 ""one"")
    (comment 4 ""four (4)"")
  )

  (layers
    (0 ""F.Cu"" signal)
    (31 ""B.Cu"" signal)
    (32 ""B.Adhes"" user ""B.Adhesive"")
    (33 ""F.Adhes"" user ""F.Adhesive"")
    (34 ""B.Paste"" user)
    (35 ""F.Paste"" user)
    (36 ""B.SilkS"" user ""B.Silkscreen"")
    (37 ""F.SilkS"" user ""F.Silkscreen"")
    (38 ""B.Mask"" user)
    (39 ""F.Mask"" user)
    (40 ""Dwgs.User"" user ""User.Drawings"")
    (41 ""Cmts.User"" user ""User.Comments"")
    (42 ""Eco1.User"" user ""User.Eco1"")
    (43 ""Eco2.User"" user ""User.Eco2"")
    (44 ""Edge.Cuts"" user)
    (45 ""Margin"" user)
    (46 ""B.CrtYd"" user ""B.Courtyard"")
    (47 ""F.CrtYd"" user ""F.Courtyard"")
    (48 ""B.Fab"" user)
    (49 ""F.Fab"" user)
    (50 ""User.1"" user)
    (51 ""User.2"" user)
    (52 ""User.3"" user)
    (53 ""User.4"" user)
    (54 ""User.5"" user)
    (55 ""User.6"" user)
    (56 ""User.7"" user)
    (57 ""User.8"" user)
    (58 ""User.9"" user)
  )

  (setup
    (stackup
      (layer ""F.SilkS"" (type ""Top Silk Screen""))
      (layer ""dielectric 1"" (type ""core"") (color ""Green"") (thickness 1.51) (material ""FR4"") (epsilon_r 4.5)
        addsublayer (thickness 0.48) (material ""FR4 \""(x)\"""") (epsilon_r 4.5) (loss_tangent 0.02)
        addsublayer (thickness 1) (loss_tangent 0.02)
        addsublayer (thickness 0.48) (material ""FR4 \""(x)\"""") (epsilon_r 4.5) (loss_tangent 0.02))
      (copper_finish ""ENIG"")
      (dielectric_constraints no)
      (edge_connector bevelled)
      (castellated_pads yes)
    )
    (pad_to_mask_clearance 0.05)
    (solder_mask_min_width 0.1)
    (pad_to_paste_clearance_ratio -0.05)
    (aux_axis_origin 1 2.5)
    (pcbplotparams
      (layerselection 0x00010fc_ffffffff)
      (plot_on_all_layers_selection 0x0000000_00000000)
      (disableapertmacros false)
      (usegerberextensions false)
      (usegerberattributes false)
      (usegerberadvancedattributes false)
      (creategerberjobfile false)
      (dashed_line_dash_ratio 12.000000)
      (dashed_line_gap_ratio 3.000001)
      (svguseinch false)
      (svgprecision 0.0)
      (excludeedgelayer true)
      (plotframeref false)
      (viasonmask true)
      (mode 1)
      (useauxorigin false)
      (hpglpennumber 0)
      (hpglpenspeed 0)
      (hpglpendiameter 1.500000)
      (dxfpolygonmode false)
      (dxfimperialunits false)
      (dxfusepcbnewfont false)
      (psnegative false)
      (psa4output false)
      (plotreference false)
      (plotvalue false)
      (plotinvisibletext false)
      (sketchpadsonfab false)
      (subtractmaskfromsilk false)
      (outputformat 0)
      (mirror true)
      (drillshape 0)
      (scaleselection 1)
      (outputdirectory ""out \""(1)\""/"")
    )
  )

  (property ""LAYER"" ""top \""x\"""")
  (property ""k 2"" """")

  (net 0 """")
  (net 1 ""Net-(U1-Pad3)"")

  (footprint ""Package_SO:SOIC-8 \""x\"""" locked placed (version 20211014) (generator pcbnew) (layer ""B.Cu"")
    (tedit 65fa1b2c) (tstamp 7c2f5ab1-44ff-4a1c-b96d-28f9f3a0fd1e)
    (at 1 2 180)
    (descr ""d \""(1)\"""")
    (tags ""a b"")
    (property ""Sheetfile"" ""x.kicad_sch"")
    (property ""k 2"" """")
    (path ""/1/2"")
    (autoplace_cost90 1)
    (autoplace_cost180 2)
    (solder_mask_margin 0.1)
    (solder_paste_margin 0.2)
    (solder_paste_ratio 0.3)
    (clearance 0.4)
    (zone_connect 2)
    (thermal_width 0.5)
    (thermal_gap 0.6)
    (attr through_hole board_only exclude_from_pos_files exclude_from_bom allow_missing_courtyard)
    (private_layers ""User.1"")
    (net_tie_pad_groups ""1, 2"" ""3"")
    (fp_text user ""a \""(b)\"" \ c"" (at 1 2.5 90 unlocked) (layer ""F.SilkS"" knockout) hide
      (effects (font (face ""A \""b\"" \c"") (size 1.27 2) (color 255 0 128 0.5) (thickness 0.3) bold italic (line_spacing 1.1)) (justify right top mirror) (href ""https://x.y/(z)"") hide)
      (tstamp 7c2f5ab1-44ff-4a1c-b96d-28f9f3a0fd1e)
      (render_cache ""ab\""c"" 0
        (polygon
          (pts
            (xy 1 2)            (xy 1.5 2)            (xy 0 -7)            (xy 0 0)
            (xy 9 9)
          )
        )
      )
    )
    (fp_curve (pts
      (xy 2 3)
      (xy 0.1 0)
      (xy 2 3)
      (xy -1.5 7)
    ) (layer ""F.Fab"") (width 0.15) locked (tstamp 7c2f5ab1-44ff-4a1c-b96d-28f9f3a0fd1e))
    (image (at 12.34 5) (layer ""F.SilkS"") (scale 0.5)
      (uuid a-b-c)
      (data
        iVBORw0KGgo=
        12
      )
    )
    (pad ""A \""1\"""" thru_hole custom locked (at 1 2.5 90) (size 1 2) (drill oval 0.8 2 (offset 1 0.5)) (property pad_prop_bga) (layers *.Cu ""F.Mask"" F&B.Paste ""In1 (x)"") (remove_unused_layers) (keep_end_layers) (roundrect_rratio 0.25)
      (chamfer_ratio 0.1) (chamfer top_left bottom_right)
      (die_length 3)
      (net 17 ""Net-(U1-Pad3)"") (pinfunction ""fn"") (pintype ""bidirectional+no_connect"") (solder_mask_margin 0.1) (solder_paste_margin 0.2) (solder_paste_margin_ratio 0.3) (clearance 0.4) (zone_connect 2) (thermal_width 0.5) (thermal_gap 0.6)
      (options (clearance convexhull) (anchor circle))
      (primitives
        (gr_text ""a \""(b)\"" \ c"" (at 1 2.5 90) (layer ""F.SilkS"" knockout) (tstamp 7c2f5ab1-44ff-4a1c-b96d-28f9f3a0fd1e)
          (effects (font (face ""A \""b\"" \c"") (size 1.27 2) (color 255 0 128 0.5) (thickness 0.3) bold italic (line_spacing 1.1)) (justify right top mirror) (href ""https://x.y/(z)"") hide)
          (render_cache ""ab\""c"" 0
            (polygon
              (pts
                (xy 1 2)                (xy 1.5 2)                (xy 0 -7)                (xy 0 0)
                (xy 9 9)
              )
            )
          )
        )
        (gr_line locked (start 2 3) (end 2 0.001) (layer ""F.Fab"") (width 1) (tstamp 7c2f5ab1-44ff-4a1c-b96d-28f9f3a0fd1e))
        (gr_poly locked (pts
            (xy 2 3)
            (xy 0.1 0)
            (xy 2 3)
            (xy -1.5 7)
          ) (layer ""F.Fab"") (width 0.15) (fill solid) (tstamp 7c2f5ab1-44ff-4a1c-b96d-28f9f3a0fd1e))
      ) (tstamp 7c2f5ab1-44ff-4a1c-b96d-28f9f3a0fd1e))
    (pad ""x"" smd rect (at 0.0 0.0) (size 0.0 0.0) (layers))
    (zone locked (net 12) (net_name ""Net \""(1)\"""") (layers ""F.Cu"" ""B.Cu"") (tstamp 7c2f5ab1-44ff-4a1c-b96d-28f9f3a0fd1e) (name ""my zone"") (hatch edge 0.508)
      (priority 3)
      (connect_pads thru_hole_only (clearance 0.2))
      (min_thickness 0.254) (filled_areas_thickness no)
      (keepout (tracks allowed) (vias not_allowed) (pads allowed ) (copperpour not-allowed) (footprints not-allowed))
      (fill yes (mode hatch) (thermal_gap 0.5) (thermal_bridge_width 0.508) (smoothing chamfer) (radius 1) (island_removal_mode 2) (island_area_min 10)
        (hatch_thickness 1) (hatch_gap 1.5) (hatch_orientation 45)
        (hatch_smoothing_level 1) (hatch_smoothing_value 0.1)
        (hatch_border_algorithm 0) (hatch_min_hole_area 0.3))
      (polygon
        (pts
          (xy 2 3)
          (xy 0.1 0)
          (xy 2 3)
          (xy -1.5 7)
        )
      )
      (polygon
        (pts
          (xy 1 2)
        )
      )
      (filled_polygon
        (layer ""F.Cu"")
        (island)
        (pts
          (xy 2 3)
          (xy 0.1 0)
          (xy 2 3)
          (xy -1.5 7)
        )
      )
    (fill_segments
      (layer ""B.Cu"")
      (pts
        (xy 2 3)
        (xy 0.1 0)
        (xy 2 3)
        (xy -1.5 7)
      )
    )
    )
    (model ""${KICAD6_3DMODEL_DIR}/a \""b\"".wrl"" hide
      (opacity 0.5)
      (offset (xyz 2.5 -3 1.0))
      (scale (xyz 1 1 0.1))
      (rotate (xyz 0 90 0))
    )
    (model ""${KICAD6_3DMODEL_DIR}/a \""b\"".wrl"" hide
      (opacity 0.5)
      (offset (xyz 2.5 -3 1.0))
      (scale (xyz 1 1 0.1))
      (rotate (xyz 0 90 0))
    )
    (group ""g \""1\"""" locked (id 6fe2b9d8-0001)
      (members
        0012
        abc-1
      )
    )
  )

  (footprint ""Package_SO:SOIC-8 \""x\"""" locked placed (version 20211014) (generator pcbnew) (layer ""B.Cu"")
    (tedit 5) (tstamp 7c2f5ab1-44ff-4a1c-b96d-28f9f3a0fd1e)
    (at 1 2 180)
    (descr ""d \""(1)\"""")
    (tags ""a b"")
    (property ""Sheetfile"" ""x.kicad_sch"")
    (property ""k 2"" """")
    (path ""/1/2"")
    (autoplace_cost90 1)
    (autoplace_cost180 2)
    (solder_mask_margin 0.1)
    (solder_paste_margin 0.2)
    (solder_paste_ratio 0.3)
    (clearance 0.4)
    (zone_connect 2)
    (thermal_width 0.5)
    (thermal_gap 0.6)
    (attr through_hole board_only exclude_from_pos_files exclude_from_bom allow_missing_courtyard)
    (private_layers ""User.1"")
    (net_tie_pad_groups ""1, 2"" ""3"")
    (fp_text user ""a \""(b)\"" \ c"" (at 1 2.5 90 unlocked) (layer ""F.SilkS"" knockout) hide
      (effects (font (face ""A \""b\"" \c"") (size 1.27 2) (color 255 0 128 0.5) (thickness 0.3) bold italic (line_spacing 1.1)) (justify right top mirror) (href ""https://x.y/(z)"") hide)
      (tstamp 7c2f5ab1-44ff-4a1c-b96d-28f9f3a0fd1e)
      (render_cache ""ab\""c"" 0
        (polygon
          (pts
            (xy 1 2)            (xy 1.5 2)            (xy 0 -7)            (xy 0 0)
            (xy 9 9)
          )
        )
      )
    )
    (fp_curve (pts
      (xy 2 3)
      (xy 0.1 0)
      (xy 2 3)
      (xy -1.5 7)
    ) (layer ""F.Fab"") (width 0.15) locked (tstamp 7c2f5ab1-44ff-4a1c-b96d-28f9f3a0fd1e))
    (image (at 12.34 5) (layer ""F.SilkS"") (scale 0.5)
      (uuid a-b-c)
      (data
        iVBORw0KGgo=
        12
      )
    )
    (pad ""A \""1\"""" thru_hole custom locked (at 1 2.5 90) (size 1 2) (drill oval 0.8 2 (offset 1 0.5)) (property pad_prop_bga) (layers *.Cu ""F.Mask"" F&B.Paste ""In1 (x)"") (remove_unused_layers) (keep_end_layers) (roundrect_rratio 0.25)
      (chamfer_ratio 0.1) (chamfer top_left bottom_right)
      (die_length 3)
      (net 17 ""Net-(U1-Pad3)"") (pinfunction ""fn"") (pintype ""bidirectional+no_connect"") (solder_mask_margin 0.1) (solder_paste_margin 0.2) (solder_paste_margin_ratio 0.3) (clearance 0.4) (zone_connect 2) (thermal_width 0.5) (thermal_gap 0.6)
      (options (clearance convexhull) (anchor circle))
      (primitives
        (gr_text ""a \""(b)\"" \ c"" (at 1 2.5 90) (layer ""F.SilkS"" knockout) (tstamp 7c2f5ab1-44ff-4a1c-b96d-28f9f3a0fd1e)
          (effects (font (face ""A \""b\"" \c"") (size 1.27 2) (color 255 0 128 0.5) (thickness 0.3) bold italic (line_spacing 1.1)) (justify right top mirror) (href ""https://x.y/(z)"") hide)
          (render_cache ""ab\""c"" 0
            (polygon
              (pts
                (xy 1 2)                (xy 1.5 2)                (xy 0 -7)                (xy 0 0)
                (xy 9 9)
              )
            )
          )
        )
        (gr_line locked (start 2 3) (end 2 0.001) (layer ""F.Fab"") (width 1) (tstamp 7c2f5ab1-44ff-4a1c-b96d-28f9f3a0fd1e))
        (gr_poly locked (pts
            (xy 2 3)
            (xy 0.1 0)
            (xy 2 3)
            (xy -1.5 7)
          ) (layer ""F.Fab"") (width 0.15) (fill solid) (tstamp 7c2f5ab1-44ff-4a1c-b96d-28f9f3a0fd1e))
      ) (tstamp 7c2f5ab1-44ff-4a1c-b96d-28f9f3a0fd1e))
    (pad ""x"" smd rect (at 0.0 0.0) (size 0.0 0.0) (layers))
    (zone locked (net 12) (net_name ""Net \""(1)\"""") (layers ""F.Cu"" ""B.Cu"") (tstamp 7c2f5ab1-44ff-4a1c-b96d-28f9f3a0fd1e) (name ""my zone"") (hatch edge 0.508)
      (priority 3)
      (connect_pads thru_hole_only (clearance 0.2))
      (min_thickness 0.254) (filled_areas_thickness no)
      (keepout (tracks allowed) (vias not_allowed) (pads allowed ) (copperpour not-allowed) (footprints not-allowed))
      (fill yes (mode hatch) (thermal_gap 0.5) (thermal_bridge_width 0.508) (smoothing chamfer) (radius 1) (island_removal_mode 2) (island_area_min 10)
        (hatch_thickness 1) (hatch_gap 1.5) (hatch_orientation 45)
        (hatch_smoothing_level 1) (hatch_smoothing_value 0.1)
        (hatch_border_algorithm 0) (hatch_min_hole_area 0.3))
      (polygon
        (pts
          (xy 2 3)
          (xy 0.1 0)
          (xy 2 3)
          (xy -1.5 7)
        )
      )
      (polygon
        (pts
          (xy 1 2)
        )
      )
      (filled_polygon
        (layer ""F.Cu"")
        (island)
        (pts
          (xy 2 3)
          (xy 0.1 0)
          (xy 2 3)
          (xy -1.5 7)
        )
      )
    (fill_segments
      (layer ""B.Cu"")
      (pts
        (xy 2 3)
        (xy 0.1 0)
        (xy 2 3)
        (xy -1.5 7)
      )
    )
    )
    (model ""${KICAD6_3DMODEL_DIR}/a \""b\"".wrl"" hide
      (opacity 0.5)
      (offset (xyz 2.5 -3 1.0))
      (scale (xyz 1 1 0.1))
      (rotate (xyz 0 90 0))
    )
    (model ""${KICAD6_3DMODEL_DIR}/a \""b\"".wrl"" hide
      (opacity 0.5)
      (offset (xyz 2.5 -3 1.0))
      (scale (xyz 1 1 0.1))
      (rotate (xyz 0 90 0))
    )
    (group ""g \""1\"""" locked (id 6fe2b9d8-0001)
      (members
        0012
        abc-1
      )
    )
  )

  (gr_text ""a \""(b)\"" \ c"" (at 1 2.5 90) (layer ""F.SilkS"" knockout) (tstamp 7c2f5ab1-44ff-4a1c-b96d-28f9f3a0fd1e)
    (effects (font (face ""A \""b\"" \c"") (size 1.27 2) (color 255 0 128 0.5) (thickness 0.3) bold italic (line_spacing 1.1)) (justify right top mirror) (href ""https://x.y/(z)"") hide)
    (render_cache ""ab\""c"" 0
      (polygon
        (pts
          (xy 1 2)          (xy 1.5 2)          (xy 0 -7)          (xy 0 0)
          (xy 9 9)
        )
      )
    )
  )
  (gr_line locked (start 2 3) (end 2 0.001) (layer ""F.Fab"") (width 1) (tstamp 7c2f5ab1-44ff-4a1c-b96d-28f9f3a0fd1e))
  (gr_poly locked
    (pts
      (xy 2 3)
      (xy 0.1 0)
      (xy 2 3)
      (xy -1.5 7)
    ) (layer ""F.Fab"") (width 0.15) (fill solid) (tstamp 7c2f5ab1-44ff-4a1c-b96d-28f9f3a0fd1e))
  (image (at 12.34 5) (layer ""F.SilkS"") (scale 0.5)
    (uuid a-b-c)
    (data
      iVBORw0KGgo=
      12
    )
  )
  (dimension (type orthogonal) (layer ""Dwgs.User (1)"") (tstamp 7c2f5ab1-44ff-4a1c-b96d-28f9f3a0fd1e)
    (pts (xy 2 3) (xy 0.1 0) (xy 2 3) (xy -1.5 7))
    (height -2.5)
    (orientation 1)
    (leader_length 2)
    (gr_text ""a \""(b)\"" \ c"" (at 1 2.5 90) (layer ""F.SilkS"" knockout) (tstamp 7c2f5ab1-44ff-4a1c-b96d-28f9f3a0fd1e)
      (effects (font (face ""A \""b\"" \c"") (size 1.27 2) (color 255 0 128 0.5) (thickness 0.3) bold italic (line_spacing 1.1)) (justify right top mirror) (href ""https://x.y/(z)"") hide)
      (render_cache ""ab\""c"" 0
        (polygon
          (pts
            (xy 1 2)            (xy 1.5 2)            (xy 0 -7)            (xy 0 0)
            (xy 9 9)
          )
        )
      )
    )
    (format (prefix ""a \""("") (suffix ""mm"") (units 2) (units_format 0) (precision 7) (override_value ""1 \ 2"") suppress_zeroes)
    (style (thickness 0.15) (arrow_length 1.27) (text_position_mode 2) (extension_height 0.58642) (text_frame 3) (extension_offset 0.5) keep_text_aligned)
  )
  (target x (at 1 2.5) (size 5) (width 0.05) (layer ""Edge.Cuts"") (tstamp 7c2f5ab1-44ff-4a1c-b96d-28f9f3a0fd1e))

  (segment locked (start 1 2.5) (end 3 4) (width 0.25) (layer ""F.Cu"") (net 7) (tstamp 7c2f5ab1-44ff-4a1c-b96d-28f9f3a0fd1e))
  (via blind locked (at 1 2.5) (size 0.8) (drill 0.4) (layers ""F.Cu"" ""In 1 \""(x)\"""") (remove_unused_layers) (keep_end_layers) (free) (net 3) (tstamp 7c2f5ab1-44ff-4a1c-b96d-28f9f3a0fd1e))
  (arc locked (start 1 2.5) (mid 3 4) (end 5 4) (width 0.25) (layer ""F \""Cu"") (net 7))
  (via (at 0.0 0.0) (size 0.0) (drill 0.0) (layers) (net 0))

  (zone locked (net 12) (net_name ""Net \""(1)\"""") (layers ""F.Cu"" ""B.Cu"") (tstamp 7c2f5ab1-44ff-4a1c-b96d-28f9f3a0fd1e) (name ""my zone"") (hatch edge 0.508)
    (priority 3)
    (connect_pads thru_hole_only (clearance 0.2))
    (min_thickness 0.254) (filled_areas_thickness no)
    (keepout (tracks allowed) (vias not_allowed) (pads allowed ) (copperpour not-allowed) (footprints not-allowed))
    (fill yes (mode hatch) (thermal_gap 0.5) (thermal_bridge_width 0.508) (smoothing chamfer) (radius 1) (island_removal_mode 2) (island_area_min 10)
      (hatch_thickness 1) (hatch_gap 1.5) (hatch_orientation 45)
      (hatch_smoothing_level 1) (hatch_smoothing_value 0.1)
      (hatch_border_algorithm 0) (hatch_min_hole_area 0.3))
    (polygon
      (pts
        (xy 2 3)
        (xy 0.1 0)
        (xy 2 3)
        (xy -1.5 7)
      )
    )
    (polygon
      (pts
        (xy 1 2)
      )
    )
    (filled_polygon
      (layer ""F.Cu"")
      (island)
      (pts
        (xy 2 3)
        (xy 0.1 0)
        (xy 2 3)
        (xy -1.5 7)
      )
    )
    (fill_segments
      (layer ""B.Cu"")
      (pts
        (xy 2 3)
        (xy 0.1 0)
        (xy 2 3)
        (xy -1.5 7)
      )
    )
  )
  (group ""g \""1\"""" locked (id 6fe2b9d8-0001)
    (members
      0012
      abc-1
    )
  )
)" = true.
Proof. vm_compute. reflexivity. Qed.

Theorem C52_JColor : equality JColor_eqb.
Proof. exact JColor_q. Qed.
Print Assumptions C52_JColor.

Theorem C52_Junction : equality Junction_eqb.
Proof. exact Junction_q. Qed.
Print Assumptions C52_Junction.
Example C52_Junction_case : compares Junction_from Junction_norm Junction_eqb Junction_default "(junction (at 123.45 -7) (diameter 0) (color 255 0 128 0.5)
  (uuid 7c2f5ab1-44ff-4a1c-b96d-28f9f3a0fd1e)
)" = true.
Proof. vm_compute. reflexivity. Qed.

Theorem C52_NoConnect : equality NoConnect_eqb.
Proof. exact NoConnect_q. Qed.
Print Assumptions C52_NoConnect.
Example C52_NoConnect_case : compares NoConnect_from NoConnect_norm NoConnect_eqb NoConnect_default "(no_connect (at 123.45 -7) (uuid 7c2f5ab1-44ff-4a1c-b96d-28f9f3a0fd1e))" = true.
Proof. vm_compute. reflexivity. Qed.

Theorem C52_BusEntry : equality BusEntry_eqb.
Proof. exact BusEntry_q. Qed.
Print Assumptions C52_BusEntry.
Example C52_BusEntry_case : compares BusEntry_from BusEntry_norm BusEntry_eqb BusEntry_default "(bus_entry (at 123.45 -7) (size 2.54 3)
  (stroke (width 0.254) (type dash_dot) (color 255 0 128 0.5))
  (uuid 7c2f5ab1-44ff-4a1c-b96d-28f9f3a0fd1e)
)" = true.
Proof. vm_compute. reflexivity. Qed.

Theorem C52_BusAlias : equality BusAlias_eqb.
Proof. exact BusAlias_q. Qed.
Print Assumptions C52_BusAlias.
Example C52_BusAlias_case : compares BusAlias_from BusAlias_norm BusAlias_eqb BusAlias_default "(bus_alias ""a \""b\"""" (members ""A[0..7]"" """" ""x (y)""))" = true.
Proof. vm_compute. reflexivity. Qed.

Theorem C52_Connection : equality Connection_eqb.
Proof. exact Connection_q. Qed.
Print Assumptions C52_Connection.
Example C52_Connection_case : compares Connection_from Connection_norm Connection_eqb Connection_default "(bus (pts (xy 123.45 -7) (xy 1 0.5))
  (stroke (width 0.254) (type dash_dot) (color 255 0 128 0.5))
  (uuid 7c2f5ab1-44ff-4a1c-b96d-28f9f3a0fd1e)
)" = true.
Proof. vm_compute. reflexivity. Qed.

Theorem C52_PolyLine : equality PolyLine_eqb.
Proof. exact PolyLine_q. Qed.
Print Assumptions C52_PolyLine.
Example C52_PolyLine_case : compares PolyLine_from PolyLine_norm PolyLine_eqb PolyLine_default "(polyline (pts (xy 123.45 -7) (xy 1 0.5))
  (stroke (width 0.254) (type dash_dot) (color 255 0 128 0.5))
  (uuid 7c2f5ab1-44ff-4a1c-b96d-28f9f3a0fd1e)
)" = true.
Proof. vm_compute. reflexivity. Qed.

Theorem C52_Text : equality Text_eqb.
Proof. exact Text_q. Qed.
Print Assumptions C52_Text.
Example C52_Text_case : compares Text_from Text_norm Text_eqb Text_default "(text ""0123456789 0123456789 0123456789 (\""0123456789\"") 0123456""
  (at 123.45 7 270)
  (effects (font (face ""A \""b\"" \c"") (size 1.27 2) (color 255 0 128 0.5) (thickness 0.3) bold italic (line_spacing 1.1)) (justify right top mirror) (href ""https://x.y/(z)"") hide)
  (uuid 7c2f5ab1-44ff-4a1c-b96d-28f9f3a0fd1e)
)" = true.
Proof. vm_compute. reflexivity. Qed.

Theorem C52_TextBox : equality TextBox_eqb.
Proof. exact TextBox_q. Qed.
Print Assumptions C52_TextBox.
Example C52_TextBox_case : compares TextBox_from TextBox_norm TextBox_eqb TextBox_default "(text_box ""a \""b\""""
  (at 123.45 7 270) (size 3 0.001)
  (stroke (width 0.254) (type dash_dot) (color 255 0 128 0.5))
  (fill (type color) (color 255 0 128 0.5))
  (effects (font (face ""A \""b\"" \c"") (size 1.27 2) (color 255 0 128 0.5) (thickness 0.3) bold italic (line_spacing 1.1)) (justify right top mirror) (href ""https://x.y/(z)"") hide)
  (uuid 7c2f5ab1-44ff-4a1c-b96d-28f9f3a0fd1e)
)" = true.
Proof. vm_compute. reflexivity. Qed.

Theorem C52_LocalLabel : equality LocalLabel_eqb.
Proof. exact LocalLabel_q. Qed.
Print Assumptions C52_LocalLabel.
Example C52_LocalLabel_case : compares LocalLabel_from LocalLabel_norm LocalLabel_eqb LocalLabel_default "(label ""a \""b\"""" (at 123.45 7 270) (fields_autoplaced)
  (effects (font (face ""A \""b\"" \c"") (size 1.27 2) (color 255 0 128 0.5) (thickness 0.3) bold italic (line_spacing 1.1)) (justify right top mirror) (href ""https://x.y/(z)"") hide)
  (uuid 7c2f5ab1-44ff-4a1c-b96d-28f9f3a0fd1e)
)" = true.
Proof. vm_compute. reflexivity. Qed.

Theorem C52_GlobalLabel : equality GlobalLabel_eqb.
Proof. exact GlobalLabel_q. Qed.
Print Assumptions C52_GlobalLabel.
Example C52_GlobalLabel_case : compares GlobalLabel_from GlobalLabel_norm GlobalLabel_eqb GlobalLabel_default "(global_label ""a \""b\"""" (shape bidirectional) (at 123.45 7 270) (fields_autoplaced)
  (effects (font (face ""A \""b\"" \c"") (size 1.27 2) (color 255 0 128 0.5) (thickness 0.3) bold italic (line_spacing 1.1)) (justify right top mirror) (href ""https://x.y/(z)"") hide)
  (uuid 7c2f5ab1-44ff-4a1c-b96d-28f9f3a0fd1e)
  (property ""Sheet name"" ""a\b\"""" (id 3) (at 1 2.5 90) (show_name)
    (effects (font (face ""A \""b\"" \c"") (size 1.27 2) (color 255 0 128 0.5) (thickness 0.3) bold italic (line_spacing 1.1)) (justify right top mirror) (href ""https://x.y/(z)"") hide)
  )
  (property ""Sheet name"" ""a\b\"""" (id 3) (at 1 2.5 90) (show_name)
    (effects (font (face ""A \""b\"" \c"") (size 1.27 2) (color 255 0 128 0.5) (thickness 0.3) bold italic (line_spacing 1.1)) (justify right top mirror) (href ""https://x.y/(z)"") hide)
  )
)" = true.
Proof. vm_compute. reflexivity. Qed.

Theorem C52_HierarchicalLabel : equality HierarchicalLabel_eqb.
Proof. exact HierarchicalLabel_q. Qed.
Print Assumptions C52_HierarchicalLabel.
Example C52_HierarchicalLabel_case : compares HierarchicalLabel_from HierarchicalLabel_norm HierarchicalLabel_eqb HierarchicalLabel_default "(hierarchical_label ""a \""b\"""" (shape output) (at 123.45 7 270) (fields_autoplaced)
  (effects (font (face ""A \""b\"" \c"") (size 1.27 2) (color 255 0 128 0.5) (thickness 0.3) bold italic (line_spacing 1.1)) (justify right top mirror) (href ""https://x.y/(z)"") hide)
  (uuid 7c2f5ab1-44ff-4a1c-b96d-28f9f3a0fd1e)
)" = true.
Proof. vm_compute. reflexivity. Qed.

Theorem C52_SymbolProjectPath : equality SymbolProjectPath_eqb.
Proof. exact SymbolProjectPath_q. Qed.
Print Assumptions C52_SymbolProjectPath.
Example C52_SymbolProjectPath_case : compares SymbolProjectPath_from SymbolProjectPath_norm SymbolProjectPath_eqb SymbolProjectPath_default "(path ""/00000000-0000-0000-0000-00005f325e1e""
  (reference ""U 1"") (unit 3)
)" = true.
Proof. vm_compute. reflexivity. Qed.

Theorem C52_SymbolProjectInstance : equality SymbolProjectInstance_eqb.
Proof. exact SymbolProjectInstance_q. Qed.
Print Assumptions C52_SymbolProjectInstance.
Example C52_SymbolProjectInstance_case : compares SymbolProjectInstance_from SymbolProjectInstance_norm SymbolProjectInstance_eqb SymbolProjectInstance_default "(project ""my \""project\""""
  (path ""/00000000-0000-0000-0000-00005f325e1e""
    (reference ""U 1"") (unit 1)
  )
  (path ""/00000000-0000-0000-0000-00005f325e1e""
    (reference ""U 1"") (unit 2)
  )
)" = true.
Proof. vm_compute. reflexivity. Qed.

Theorem C52_SchematicSymbol : equality SchematicSymbol_eqb.
Proof. exact SchematicSymbol_q. Qed.
Print Assumptions C52_SchematicSymbol.
Example C52_SchematicSymbol_case : compares SchematicSymbol_from SchematicSymbol_norm SchematicSymbol_eqb SchematicSymbol_default "(symbol (lib_name ""R_1"") (lib_id ""Device:R:x_1_2"") (at 123.45 7 270) (mirror x) (unit 2)
  (in_bom yes) (on_board no) (dnp no) (fields_autoplaced)
  (uuid 7c2f5ab1-44ff-4a1c-b96d-28f9f3a0fd1e)
  (property ""Sheet name"" ""a\b\"""" (id 3) (at 1 2.5 90) (show_name)
    (effects (font (face ""A \""b\"" \c"") (size 1.27 2) (color 255 0 128 0.5) (thickness 0.3) bold italic (line_spacing 1.1)) (justify right top mirror) (href ""https://x.y/(z)"") hide)
  )
  (property ""Sheet name"" ""a\b\"""" (id 3) (at 1 2.5 90) (show_name)
    (effects (font (face ""A \""b\"" \c"") (size 1.27 2) (color 255 0 128 0.5) (thickness 0.3) bold italic (line_spacing 1.1)) (justify right top mirror) (href ""https://x.y/(z)"") hide)
  )
  (pin ""1"" (uuid 7c2f5ab1-44ff-4a1c-b96d-28f9f3a0fd1e))
  (pin ""A \""2\"""" (uuid abc-12))
  (instances
    (project ""my \""project\""""
      (path ""/00000000-0000-0000-0000-00005f325e1e""
        (reference ""U 1"") (unit 1)
      )
      (path ""/00000000-0000-0000-0000-00005f325e1e""
        (reference ""U 1"") (unit 2)
      )
    )
    (project """"
    )
  )
)" = true.
Proof. vm_compute. reflexivity. Qed.

Theorem C52_HierarchicalPin : equality HierarchicalPin_eqb.
Proof. exact HierarchicalPin_q. Qed.
Print Assumptions C52_HierarchicalPin.
Example C52_HierarchicalPin_case : compares HierarchicalPin_from HierarchicalPin_norm HierarchicalPin_eqb HierarchicalPin_default "(pin ""a \""b\"""" tri_state (at 123.45 7 270)
  (effects (font (face ""A \""b\"" \c"") (size 1.27 2) (color 255 0 128 0.5) (thickness 0.3) bold italic (line_spacing 1.1)) (justify right top mirror) (href ""https://x.y/(z)"") hide)
  (uuid 7c2f5ab1-44ff-4a1c-b96d-28f9f3a0fd1e)
)" = true.
Proof. vm_compute. reflexivity. Qed.

Theorem C52_HierarchicalSheetProjectPath : equality HierarchicalSheetProjectPath_eqb.
Proof. exact HierarchicalSheetProjectPath_q. Qed.
Print Assumptions C52_HierarchicalSheetProjectPath.
Example C52_HierarchicalSheetProjectPath_case : compares HierarchicalSheetProjectPath_from HierarchicalSheetProjectPath_norm HierarchicalSheetProjectPath_eqb HierarchicalSheetProjectPath_default "(path ""/a b/c"" (page ""2 \""a\""""))" = true.
Proof. vm_compute. reflexivity. Qed.

Theorem C52_HierarchicalSheetProjectInstance : equality HierarchicalSheetProjectInstance_eqb.
Proof. exact HierarchicalSheetProjectInstance_q. Qed.
Print Assumptions C52_HierarchicalSheetProjectInstance.
Example C52_HierarchicalSheetProjectInstance_case : compares HierarchicalSheetProjectInstance_from HierarchicalSheetProjectInstance_norm HierarchicalSheetProjectInstance_eqb HierarchicalSheetProjectInstance_default "(project ""my \""project\""""
  (path ""/a b/c"" (page ""2 \""a\""""))
  (path ""/a b/c"" (page ""2 \""a\""""))
)" = true.
Proof. vm_compute. reflexivity. Qed.

Theorem C52_HierarchicalSheet : equality HierarchicalSheet_eqb.
Proof. exact HierarchicalSheet_q. Qed.
Print Assumptions C52_HierarchicalSheet.
Example C52_HierarchicalSheet_case : compares HierarchicalSheet_from HierarchicalSheet_norm HierarchicalSheet_eqb HierarchicalSheet_default "(sheet (at 123.45 -7) (size 30 45.72) (fields_autoplaced)
  (stroke (width 0.254) (type dash_dot) (color 255 0 128 0.5))
  (fill (color 1 2 255 0.1234))
  (uuid 7c2f5ab1-44ff-4a1c-b96d-28f9f3a0fd1e)
  (property ""Sheetname"" ""a\b\"""" (id 3) (at 1 2.5 90) (show_name)
    (effects (font (face ""A \""b\"" \c"") (size 1.27 2) (color 255 0 128 0.5) (thickness 0.3) bold italic (line_spacing 1.1)) (justify right top mirror) (href ""https://x.y/(z)"") hide)
  )
  (property ""Sheet file"" ""a\b\"""" (id 3) (at 1 2.5 90) (show_name)
    (effects (font (face ""A \""b\"" \c"") (size 1.27 2) (color 255 0 128 0.5) (thickness 0.3) bold italic (line_spacing 1.1)) (justify right top mirror) (href ""https://x.y/(z)"") hide)
  )
  (property ""a \""b\"""" ""a\b\"""" (id 3) (at 1 2.5 90) (show_name)
    (effects (font (face ""A \""b\"" \c"") (size 1.27 2) (color 255 0 128 0.5) (thickness 0.3) bold italic (line_spacing 1.1)) (justify right top mirror) (href ""https://x.y/(z)"") hide)
  )
  (property ""Field2"" ""a\b\"""" (id 3) (at 1 2.5 90) (show_name)
    (effects (font (face ""A \""b\"" \c"") (size 1.27 2) (color 255 0 128 0.5) (thickness 0.3) bold italic (line_spacing 1.1)) (justify right top mirror) (href ""https://x.y/(z)"") hide)
  )
  (pin ""a \""b\"""" tri_state (at 123.45 7 270)
    (effects (font (face ""A \""b\"" \c"") (size 1.27 2) (color 255 0 128 0.5) (thickness 0.3) bold italic (line_spacing 1.1)) (justify right top mirror) (href ""https://x.y/(z)"") hide)
    (uuid 7c2f5ab1-44ff-4a1c-b96d-28f9f3a0fd1e)
  )
  (pin """" input (at 0.0 0.0)
    (effects (font (size 1.0 1.0)))
  )
  (instances
    (project ""my \""project\""""
      (path ""/a b/c"" (page ""2 \""a\""""))
      (path ""/a b/c"" (page ""2 \""a\""""))
    )
  )
)" = true.
Proof. vm_compute. reflexivity. Qed.

Theorem C52_HierarchicalSheetInstance : equality HierarchicalSheetInstance_eqb.
Proof. exact HierarchicalSheetInstance_q. Qed.
Print Assumptions C52_HierarchicalSheetInstance.
Example C52_HierarchicalSheetInstance_case : compares HierarchicalSheetInstance_from HierarchicalSheetInstance_norm HierarchicalSheetInstance_eqb HierarchicalSheetInstance_default "(path ""/a b/c"" (page ""2 \""a\""""))" = true.
Proof. vm_compute. reflexivity. Qed.

Theorem C52_SymbolInstance : equality SymbolInstance_eqb.
Proof. exact SymbolInstance_q. Qed.
Print Assumptions C52_SymbolInstance.
Example C52_SymbolInstance_case : compares SymbolInstance_from SymbolInstance_norm SymbolInstance_eqb SymbolInstance_default "(path ""/a b/c""
  (reference ""U1"") (unit 2) (value ""1 \""k\"""") (footprint ""Lib:F (x)"")
)" = true.
Proof. vm_compute. reflexivity. Qed.

Theorem C52_Rectangle : equality Rectangle_eqb.
Proof. exact Rectangle_q. Qed.
Print Assumptions C52_Rectangle.
Example C52_Rectangle_case : compares Rectangle_from Rectangle_norm Rectangle_eqb Rectangle_default "(rectangle (start 123.45 -7) (end 3 0.001)
  (stroke (width 0.254) (type dash_dot) (color 255 0 128 0.5))
  (fill (type color) (color 255 0 128 0.5))
  (uuid 7c2f5ab1-44ff-4a1c-b96d-28f9f3a0fd1e)
)" = true.
Proof. vm_compute. reflexivity. Qed.

Theorem C52_SchArc : equality SchArc_eqb.
Proof. exact SchArc_q. Qed.
Print Assumptions C52_SchArc.
Example C52_SchArc_case : compares SchArc_from SchArc_norm SchArc_eqb SchArc_default "(arc (start 123.45 -7) (mid 3 0.001) (end 4 1.2)
  (stroke (width 0.254) (type dash_dot) (color 255 0 128 0.5))
  (fill (type color) (color 255 0 128 0.5))
  (uuid 7c2f5ab1-44ff-4a1c-b96d-28f9f3a0fd1e)
)" = true.
Proof. vm_compute. reflexivity. Qed.

Theorem C52_Circle : equality Circle_eqb.
Proof. exact Circle_q. Qed.
Print Assumptions C52_Circle.
Example C52_Circle_case : compares Circle_from Circle_norm Circle_eqb Circle_default "(circle (center 123.45 -7) (radius 1.5)
  (stroke (width 0.254) (type dash_dot) (color 255 0 128 0.5))
  (fill (type color) (color 255 0 128 0.5))
  (uuid 7c2f5ab1-44ff-4a1c-b96d-28f9f3a0fd1e)
)" = true.
Proof. vm_compute. reflexivity. Qed.

Theorem C52_NetclassFlag : equality NetclassFlag_eqb.
Proof. exact NetclassFlag_q. Qed.
Print Assumptions C52_NetclassFlag.
Example C52_NetclassFlag_case : compares NetclassFlag_from NetclassFlag_norm NetclassFlag_eqb NetclassFlag_default "(netclass_flag ""a \""b\"""" (length 2.54) (shape dot) (at 123.45 7 270) (fields_autoplaced)
  (effects (font (face ""A \""b\"" \c"") (size 1.27 2) (color 255 0 128 0.5) (thickness 0.3) bold italic (line_spacing 1.1)) (justify right top mirror) (href ""https://x.y/(z)"") hide)
  (uuid 7c2f5ab1-44ff-4a1c-b96d-28f9f3a0fd1e)
  (property ""Sheet name"" ""a\b\"""" (id 3) (at 1 2.5 90) (show_name)
    (effects (font (face ""A \""b\"" \c"") (size 1.27 2) (color 255 0 128 0.5) (thickness 0.3) bold italic (line_spacing 1.1)) (justify right top mirror) (href ""https://x.y/(z)"") hide)
  )
  (property ""Sheet name"" ""a\b\"""" (id 3) (at 1 2.5 90) (show_name)
    (effects (font (face ""A \""b\"" \c"") (size 1.27 2) (color 255 0 128 0.5) (thickness 0.3) bold italic (line_spacing 1.1)) (justify right top mirror) (href ""https://x.y/(z)"") hide)
  )
)" = true.
Proof. vm_compute. reflexivity. Qed.

Theorem C52_ScLine : equality ScLine_eqb.
Proof. exact ScLine_q. Qed.
Print Assumptions C52_ScLine.

Theorem C52_ScShape : equality ScShape_eqb.
Proof. exact ScShape_q. Qed.
Print Assumptions C52_ScShape.

Theorem C52_Schematic : equality Schematic_eqb.
Proof. exact Schematic_q. Qed.
Print Assumptions C52_Schematic.
Example C52_Schematic_case : compares Schematic_from Schematic_norm Schematic_eqb Schematic_default "(kicad_sch (version 20230121) (generator eeschema)

  (uuid 7c2f5ab1-44ff-4a1c-b96d-28f9f3a0fd1e)

  (paper ""A3"" portrait)

  (title_block
    (title ""T"")
    (rev ""1.0"")
    (company """")
    (comment 1 ""one"")
    (comment 4 ""four (4)"")
  )

  (lib_symbols
    (symbol ""Amplifier:LM 358"" (extends ""LM \""X\"""") (power) (pin_numbers hide) (pin_names (offset 0.5) hide) (in_bom yes) (on_board no)
      (property ""Sheet name"" ""a\b\"""" (id 3) (at 1 2.5 90) (show_name)
        (effects (font (face ""A \""b\"" \c"") (size 1.27 2) (color 255 0 128 0.5) (thickness 0.3) bold italic (line_spacing 1.1)) (justify right top mirror) (href ""https://x.y/(z)"") hide)
      )
      (property ""Sheet name"" ""a\b\"""" (id 3) (at 1 2.5 90) (show_name)
        (effects (font (face ""A \""b\"" \c"") (size 1.27 2) (color 255 0 128 0.5) (thickness 0.3) bold italic (line_spacing 1.1)) (justify right top mirror) (href ""https://x.y/(z)"") hide)
      )
      (circle (center 0.0 0.0) (radius 0.0)
        (stroke (width 0.0))
        (fill (type none))
      )
      (text """" (at 0.0 0.0)
        (effects (font (size 1.0 1.0)))
      )
      (pin power_in line (at 2 3 90) (length 2.54) hide
        (name ""~{RST}"" (effects (font (face ""A \""b\"" \c"") (size 1.27 2) (color 255 0 128 0.5) (thickness 0.3) bold italic (line_spacing 1.1)) (justify right top mirror) (href ""https://x.y/(z)"") hide))
        (number ""12"")
        (alternate """" input line)
        (alternate """" input line)
      )
      (pin input line (at 0.0 0.0) (length 0.254) (name """") (number ""0""))
      (symbol ""LM 358_0_1""
        (rectangle (start 0.0 0.0) (end 0.0 0.0)
          (stroke (width 0.0))
          (fill (type none))
        )
        (arc (start 0.0 0.0) (mid 0.0 0.0) (end 0.0 0.0)
          (stroke (width 0.0))
          (fill (type none))
        )
        (pin power_in line (at 2 3 90) (length 2.54) hide
          (name ""~{RST}"" (effects (font (face ""A \""b\"" \c"") (size 1.27 2) (color 255 0 128 0.5) (thickness 0.3) bold italic (line_spacing 1.1)) (justify right top mirror) (href ""https://x.y/(z)"") hide))
          (number ""12"")
          (alternate """" input line)
          (alternate """" input line)
        )
      )
      (symbol ""LM 358_1_1""
        (rectangle (start 0.0 0.0) (end 0.0 0.0)
          (stroke (width 0.0))
          (fill (type none))
        )
        (arc (start 0.0 0.0) (mid 0.0 0.0) (end 0.0 0.0)
          (stroke (width 0.0))
          (fill (type none))
        )
        (pin power_in line (at 2 3 90) (length 2.54) hide
          (name ""~{RST}"" (effects (font (face ""A \""b\"" \c"") (size 1.27 2) (color 255 0 128 0.5) (thickness 0.3) bold italic (line_spacing 1.1)) (justify right top mirror) (href ""https://x.y/(z)"") hide))
          (number ""12"")
          (alternate """" input line)
          (alternate """" input line)
        )
        (symbol ""LM 358_7_1""
          (rectangle (start 0.0 0.0) (end 0.0 0.0)
            (stroke (width 0.0))
            (fill (type none))
          )
          (arc (start 0.0 0.0) (mid 0.0 0.0) (end 0.0 0.0)
            (stroke (width 0.0))
            (fill (type none))
          )
          (pin power_in line (at 2 3 90) (length 2.54) hide
            (name ""~{RST}"" (effects (font (face ""A \""b\"" \c"") (size 1.27 2) (color 255 0 128 0.5) (thickness 0.3) bold italic (line_spacing 1.1)) (justify right top mirror) (href ""https://x.y/(z)"") hide))
            (number ""12"")
            (alternate """" input line)
            (alternate """" input line)
          )
        )
        (symbol ""LM 358_8_1""
          (rectangle (start 0.0 0.0) (end 0.0 0.0)
            (stroke (width 0.0))
            (fill (type none))
          )
          (arc (start 0.0 0.0) (mid 0.0 0.0) (end 0.0 0.0)
            (stroke (width 0.0))
            (fill (type none))
          )
          (pin power_in line (at 2 3 90) (length 2.54) hide
            (name ""~{RST}"" (effects (font (face ""A \""b\"" \c"") (size 1.27 2) (color 255 0 128 0.5) (thickness 0.3) bold italic (line_spacing 1.1)) (justify right top mirror) (href ""https://x.y/(z)"") hide))
            (number ""12"")
            (alternate """" input line)
            (alternate """" input line)
          )
        )
      )
    )

    (symbol ""Amplifier:LM 358"" (extends ""LM \""X\"""") (power) (pin_numbers hide) (pin_names (offset 0.5) hide) (in_bom yes) (on_board no)
      (property ""Sheet name"" ""a\b\"""" (id 3) (at 1 2.5 90) (show_name)
        (effects (font (face ""A \""b\"" \c"") (size 1.27 2) (color 255 0 128 0.5) (thickness 0.3) bold italic (line_spacing 1.1)) (justify right top mirror) (href ""https://x.y/(z)"") hide)
      )
      (property ""Sheet name"" ""a\b\"""" (id 3) (at 1 2.5 90) (show_name)
        (effects (font (face ""A \""b\"" \c"") (size 1.27 2) (color 255 0 128 0.5) (thickness 0.3) bold italic (line_spacing 1.1)) (justify right top mirror) (href ""https://x.y/(z)"") hide)
      )
      (circle (center 0.0 0.0) (radius 0.0)
        (stroke (width 0.0))
        (fill (type none))
      )
      (text """" (at 0.0 0.0)
        (effects (font (size 1.0 1.0)))
      )
      (pin power_in line (at 2 3 90) (length 2.54) hide
        (name ""~{RST}"" (effects (font (face ""A \""b\"" \c"") (size 1.27 2) (color 255 0 128 0.5) (thickness 0.3) bold italic (line_spacing 1.1)) (justify right top mirror) (href ""https://x.y/(z)"") hide))
        (number ""12"")
        (alternate """" input line)
        (alternate """" input line)
      )
      (pin input line (at 0.0 0.0) (length 0.254) (name """") (number ""0""))
      (symbol ""LM 358_0_1""
        (rectangle (start 0.0 0.0) (end 0.0 0.0)
          (stroke (width 0.0))
          (fill (type none))
        )
        (arc (start 0.0 0.0) (mid 0.0 0.0) (end 0.0 0.0)
          (stroke (width 0.0))
          (fill (type none))
        )
        (pin power_in line (at 2 3 90) (length 2.54) hide
          (name ""~{RST}"" (effects (font (face ""A \""b\"" \c"") (size 1.27 2) (color 255 0 128 0.5) (thickness 0.3) bold italic (line_spacing 1.1)) (justify right top mirror) (href ""https://x.y/(z)"") hide))
          (number ""12"")
          (alternate """" input line)
          (alternate """" input line)
        )
      )
      (symbol ""LM 358_1_1""
        (rectangle (start 0.0 0.0) (end 0.0 0.0)
          (stroke (width 0.0))
          (fill (type none))
        )
        (arc (start 0.0 0.0) (mid 0.0 0.0) (end 0.0 0.0)
          (stroke (width 0.0))
          (fill (type none))
        )
        (pin power_in line (at 2 3 90) (length 2.54) hide
          (name ""~{RST}"" (effects (font (face ""A \""b\"" \c"") (size 1.27 2) (color 255 0 128 0.5) (thickness 0.3) bold italic (line_spacing 1.1)) (justify right top mirror) (href ""https://x.y/(z)"") hide))
          (number ""12"")
          (alternate """" input line)
          (alternate """" input line)
        )
        (symbol ""LM 358_7_1""
          (rectangle (start 0.0 0.0) (end 0.0 0.0)
            (stroke (width 0.0))
            (fill (type none))
          )
          (arc (start 0.0 0.0) (mid 0.0 0.0) (end 0.0 0.0)
            (stroke (width 0.0))
            (fill (type none))
          )
          (pin power_in line (at 2 3 90) (length 2.54) hide
            (name ""~{RST}"" (effects (font (face ""A \""b\"" \c"") (size 1.27 2) (color 255 0 128 0.5) (thickness 0.3) bold italic (line_spacing 1.1)) (justify right top mirror) (href ""https://x.y/(z)"") hide))
            (number ""12"")
            (alternate """" input line)
            (alternate """" input line)
          )
        )
        (symbol ""LM 358_8_1""
          (rectangle (start 0.0 0.0) (end 0.0 0.0)
            (stroke (width 0.0))
            (fill (type none))
          )
          (arc (start 0.0 0.0) (mid 0.0 0.0) (end 0.0 0.0)
            (stroke (width 0.0))
            (fill (type none))
          )
          (pin power_in line (at 2 3 90) (length 2.54) hide
            (name ""~{RST}"" (effects (font (face ""A \""b\"" \c"") (size 1.27 2) (color 255 0 128 0.5) (thickness 0.3) bold italic (line_spacing 1.1)) (justify right top mirror) (href ""https://x.y/(z)"") hide))
            (number ""12"")
            (alternate """" input line)
            (alternate """" input line)
          )
        )
      )
    )
  )

  (junction (at 123.45 -7) (diameter 0) (color 255 0 128 0.5)
    (uuid 7c2f5ab1-44ff-4a1c-b96d-28f9f3a0fd1e)
  )
  (junction (at 0.0 0.0) (diameter 0) (color 0 0 0 0)  )

  (no_connect (at 123.45 -7) (uuid 7c2f5ab1-44ff-4a1c-b96d-28f9f3a0fd1e))

  (bus_entry (at 123.45 -7) (size 2.54 3)
    (stroke (width 0.254) (type dash_dot) (color 255 0 128 0.5))
    (uuid 7c2f5ab1-44ff-4a1c-b96d-28f9f3a0fd1e)
  )

  (bus_alias ""a \""b\"""" (members ""A[0..7]"" """"))

  (bus (pts (xy 123.45 -7) (xy 1 0.5))
    (stroke (width 0.254) (type dash_dot) (color 255 0 128 0.5))
    (uuid 7c2f5ab1-44ff-4a1c-b96d-28f9f3a0fd1e)
  )
  (polyline (pts (xy 123.45 -7) (xy 1 0.5))
    (stroke (width 0.254) (type dash_dot) (color 255 0 128 0.5))
    (uuid 7c2f5ab1-44ff-4a1c-b96d-28f9f3a0fd1e)
  )
  (wire (pts (xy 123.45 -7) (xy 1 0.5))
    (stroke (width 0.254) (type dash_dot) (color 255 0 128 0.5))
    (uuid 7c2f5ab1-44ff-4a1c-b96d-28f9f3a0fd1e)
  )

  (circle (center 123.45 -7) (radius 1.5)
    (stroke (width 0.254) (type dash_dot) (color 255 0 128 0.5))
    (fill (type color) (color 255 0 128 0.5))
    (uuid 7c2f5ab1-44ff-4a1c-b96d-28f9f3a0fd1e)
  )
  (arc (start 0.0 0.0) (mid 0.0 0.0) (end 0.0 0.0)
    (stroke (width 0.0))
    (fill (type none))
  )
  (rectangle (start 0.0 0.0) (end 0.0 0.0)
    (stroke (width 0.0))
    (fill (type none))
  )

  (image (at 12.34 5) (scale 0.5)
    (uuid a-b-c)
    (data
      iVBORw0KGgo=
      12
    )
  )

  (text_box ""a \""b\""""
    (at 123.45 7 270) (size 3 0.001)
    (stroke (width 0.254) (type dash_dot) (color 255 0 128 0.5))
    (fill (type color) (color 255 0 128 0.5))
    (effects (font (face ""A \""b\"" \c"") (size 1.27 2) (color 255 0 128 0.5) (thickness 0.3) bold italic (line_spacing 1.1)) (justify right top mirror) (href ""https://x.y/(z)"") hide)
    (uuid 7c2f5ab1-44ff-4a1c-b96d-28f9f3a0fd1e)
  )

  (text ""0123456789 0123456789 0123456789 (\""0123456789\"") 0123456""
    (at 123.45 7 270)
    (effects (font (face ""A \""b\"" \c"") (size 1.27 2) (color 255 0 128 0.5) (thickness 0.3) bold italic (line_spacing 1.1)) (justify right top mirror) (href ""https://x.y/(z)"") hide)
    (uuid 7c2f5ab1-44ff-4a1c-b96d-28f9f3a0fd1e)
  )

  (label ""a \""b\"""" (at 123.45 7 270) (fields_autoplaced)
    (effects (font (face ""A \""b\"" \c"") (size 1.27 2) (color 255 0 128 0.5) (thickness 0.3) bold italic (line_spacing 1.1)) (justify right top mirror) (href ""https://x.y/(z)"") hide)
    (uuid 7c2f5ab1-44ff-4a1c-b96d-28f9f3a0fd1e)
  )

  (global_label ""a \""b\"""" (shape bidirectional) (at 123.45 7 270) (fields_autoplaced)
    (effects (font (face ""A \""b\"" \c"") (size 1.27 2) (color 255 0 128 0.5) (thickness 0.3) bold italic (line_spacing 1.1)) (justify right top mirror) (href ""https://x.y/(z)"") hide)
    (uuid 7c2f5ab1-44ff-4a1c-b96d-28f9f3a0fd1e)
    (property ""Sheet name"" ""a\b\"""" (id 3) (at 1 2.5 90) (show_name)
      (effects (font (face ""A \""b\"" \c"") (size 1.27 2) (color 255 0 128 0.5) (thickness 0.3) bold italic (line_spacing 1.1)) (justify right top mirror) (href ""https://x.y/(z)"") hide)
    )
    (property ""Sheet name"" ""a\b\"""" (id 3) (at 1 2.5 90) (show_name)
      (effects (font (face ""A \""b\"" \c"") (size 1.27 2) (color 255 0 128 0.5) (thickness 0.3) bold italic (line_spacing 1.1)) (justify right top mirror) (href ""https://x.y/(z)"") hide)
    )
  )

  (hierarchical_label ""a \""b\"""" (shape output) (at 123.45 7 270) (fields_autoplaced)
    (effects (font (face ""A \""b\"" \c"") (size 1.27 2) (color 255 0 128 0.5) (thickness 0.3) bold italic (line_spacing 1.1)) (justify right top mirror) (href ""https://x.y/(z)"") hide)
    (uuid 7c2f5ab1-44ff-4a1c-b96d-28f9f3a0fd1e)
  )

  (netclass_flag ""a \""b\"""" (length 2.54) (shape dot) (at 123.45 7 270) (fields_autoplaced)
    (effects (font (face ""A \""b\"" \c"") (size 1.27 2) (color 255 0 128 0.5) (thickness 0.3) bold italic (line_spacing 1.1)) (justify right top mirror) (href ""https://x.y/(z)"") hide)
    (uuid 7c2f5ab1-44ff-4a1c-b96d-28f9f3a0fd1e)
    (property ""Sheet name"" ""a\b\"""" (id 3) (at 1 2.5 90) (show_name)
      (effects (font (face ""A \""b\"" \c"") (size 1.27 2) (color 255 0 128 0.5) (thickness 0.3) bold italic (line_spacing 1.1)) (justify right top mirror) (href ""https://x.y/(z)"") hide)
    )
    (property ""Sheet name"" ""a\b\"""" (id 3) (at 1 2.5 90) (show_name)
      (effects (font (face ""A \""b\"" \c"") (size 1.27 2) (color 255 0 128 0.5) (thickness 0.3) bold italic (line_spacing 1.1)) (justify right top mirror) (href ""https://x.y/(z)"") hide)
    )
  )

  (symbol (lib_name ""R_1"") (lib_id ""Device:R:x_1_2"") (at 123.45 7 270) (mirror x) (unit 2)
    (in_bom yes) (on_board no) (dnp no) (fields_autoplaced)
    (uuid 7c2f5ab1-44ff-4a1c-b96d-28f9f3a0fd1e)
    (property ""Sheet name"" ""a\b\"""" (id 3) (at 1 2.5 90) (show_name)
      (effects (font (face ""A \""b\"" \c"") (size 1.27 2) (color 255 0 128 0.5) (thickness 0.3) bold italic (line_spacing 1.1)) (justify right top mirror) (href ""https://x.y/(z)"") hide)
    )
    (property ""Sheet name"" ""a\b\"""" (id 3) (at 1 2.5 90) (show_name)
      (effects (font (face ""A \""b\"" \c"") (size 1.27 2) (color 255 0 128 0.5) (thickness 0.3) bold italic (line_spacing 1.1)) (justify right top mirror) (href ""https://x.y/(z)"") hide)
    )
    (pin ""1"" (uuid 7c2f5ab1-44ff-4a1c-b96d-28f9f3a0fd1e))
    (pin ""A \""2\"""" (uuid abc-12))
    (instances
      (project ""my \""project\""""
        (path ""/00000000-0000-0000-0000-00005f325e1e""
          (reference ""U 1"") (unit 1)
        )
        (path ""/00000000-0000-0000-0000-00005f325e1e""
          (reference ""U 1"") (unit 2)
        )
      )
      (project """"
      )
    )
  )

  (symbol (lib_name ""R_1"") (lib_id ""Device:R:x_1_2"") (at 123.45 7 270) (mirror x) (unit 2)
    (in_bom yes) (on_board no) (dnp no) (fields_autoplaced)
    (uuid 7c2f5ab1-44ff-4a1c-b96d-28f9f3a0fd1e)
    (property ""Sheet name"" ""a\b\"""" (id 3) (at 1 2.5 90) (show_name)
      (effects (font (face ""A \""b\"" \c"") (size 1.27 2) (color 255 0 128 0.5) (thickness 0.3) bold italic (line_spacing 1.1)) (justify right top mirror) (href ""https://x.y/(z)"") hide)
    )
    (property ""Sheet name"" ""a\b\"""" (id 3) (at 1 2.5 90) (show_name)
      (effects (font (face ""A \""b\"" \c"") (size 1.27 2) (color 255 0 128 0.5) (thickness 0.3) bold italic (line_spacing 1.1)) (justify right top mirror) (href ""https://x.y/(z)"") hide)
    )
    (pin ""1"" (uuid 7c2f5ab1-44ff-4a1c-b96d-28f9f3a0fd1e))
    (pin ""A \""2\"""" (uuid abc-12))
    (instances
      (project ""my \""project\""""
        (path ""/00000000-0000-0000-0000-00005f325e1e""
          (reference ""U 1"") (unit 1)
        )
        (path ""/00000000-0000-0000-0000-00005f325e1e""
          (reference ""U 1"") (unit 2)
        )
      )
      (project """"
      )
    )
  )

  (sheet (at 123.45 -7) (size 30 45.72) (fields_autoplaced)
    (stroke (width 0.254) (type dash_dot) (color 255 0 128 0.5))
    (fill (color 1 2 255 0.1234))
    (uuid 7c2f5ab1-44ff-4a1c-b96d-28f9f3a0fd1e)
    (property ""Sheetname"" ""a\b\"""" (id 3) (at 1 2.5 90) (show_name)
      (effects (font (face ""A \""b\"" \c"") (size 1.27 2) (color 255 0 128 0.5) (thickness 0.3) bold italic (line_spacing 1.1)) (justify right top mirror) (href ""https://x.y/(z)"") hide)
    )
    (property ""Sheet file"" ""a\b\"""" (id 3) (at 1 2.5 90) (show_name)
      (effects (font (face ""A \""b\"" \c"") (size 1.27 2) (color 255 0 128 0.5) (thickness 0.3) bold italic (line_spacing 1.1)) (justify right top mirror) (href ""https://x.y/(z)"") hide)
    )
    (property ""a \""b\"""" ""a\b\"""" (id 3) (at 1 2.5 90) (show_name)
      (effects (font (face ""A \""b\"" \c"") (size 1.27 2) (color 255 0 128 0.5) (thickness 0.3) bold italic (line_spacing 1.1)) (justify right top mirror) (href ""https://x.y/(z)"") hide)
    )
    (property ""Field2"" ""a\b\"""" (id 3) (at 1 2.5 90) (show_name)
      (effects (font (face ""A \""b\"" \c"") (size 1.27 2) (color 255 0 128 0.5) (thickness 0.3) bold italic (line_spacing 1.1)) (justify right top mirror) (href ""https://x.y/(z)"") hide)
    )
    (pin ""a \""b\"""" tri_state (at 123.45 7 270)
      (effects (font (face ""A \""b\"" \c"") (size 1.27 2) (color 255 0 128 0.5) (thickness 0.3) bold italic (line_spacing 1.1)) (justify right top mirror) (href ""https://x.y/(z)"") hide)
      (uuid 7c2f5ab1-44ff-4a1c-b96d-28f9f3a0fd1e)
    )
    (pin """" input (at 0.0 0.0)
      (effects (font (size 1.0 1.0)))
    )
    (instances
      (project ""my \""project\""""
        (path ""/a b/c"" (page ""2 \""a\""""))
        (path ""/a b/c"" (page ""2 \""a\""""))
      )
    )
  )

  (sheet (at 123.45 -7) (size 30 45.72) (fields_autoplaced)
    (stroke (width 0.254) (type dash_dot) (color 255 0 128 0.5))
    (fill (color 1 2 255 0.1234))
    (uuid 7c2f5ab1-44ff-4a1c-b96d-28f9f3a0fd1e)
    (property ""Sheetname"" ""a\b\"""" (id 3) (at 1 2.5 90) (show_name)
      (effects (font (face ""A \""b\"" \c"") (size 1.27 2) (color 255 0 128 0.5) (thickness 0.3) bold italic (line_spacing 1.1)) (justify right top mirror) (href ""https://x.y/(z)"") hide)
    )
    (property ""Sheet file"" ""a\b\"""" (id 3) (at 1 2.5 90) (show_name)
      (effects (font (face ""A \""b\"" \c"") (size 1.27 2) (color 255 0 128 0.5) (thickness 0.3) bold italic (line_spacing 1.1)) (justify right top mirror) (href ""https://x.y/(z)"") hide)
    )
    (property ""a \""b\"""" ""a\b\"""" (id 3) (at 1 2.5 90) (show_name)
      (effects (font (face ""A \""b\"" \c"") (size 1.27 2) (color 255 0 128 0.5) (thickness 0.3) bold italic (line_spacing 1.1)) (justify right top mirror) (href ""https://x.y/(z)"") hide)
    )
    (property ""Field2"" ""a\b\"""" (id 3) (at 1 2.5 90) (show_name)
      (effects (font (face ""A \""b\"" \c"") (size 1.27 2) (color 255 0 128 0.5) (thickness 0.3) bold italic (line_spacing 1.1)) (justify right top mirror) (href ""https://x.y/(z)"") hide)
    )
    (pin ""a \""b\"""" tri_state (at 123.45 7 270)
      (effects (font (face ""A \""b\"" \c"") (size 1.27 2) (color 255 0 128 0.5) (thickness 0.3) bold italic (line_spacing 1.1)) (justify right top mirror) (href ""https://x.y/(z)"") hide)
      (uuid 7c2f5ab1-44ff-4a1c-b96d-28f9f3a0fd1e)
    )
    (pin """" input (at 0.0 0.0)
      (effects (font (size 1.0 1.0)))
    )
    (instances
      (project ""my \""project\""""
        (path ""/a b/c"" (page ""2 \""a\""""))
        (path ""/a b/c"" (page ""2 \""a\""""))
      )
    )
  )

  (sheet_instances
    (path ""/"" (page ""1""))
    (path ""/a b/c"" (page ""2 \""a\""""))
  )

  (symbol_instances
    (path ""/a b/c""
      (reference ""U1"") (unit 2) (value ""1 \""k\"""") (footprint ""Lib:F (x)"")
    )
  )
)" = true.
Proof. vm_compute. reflexivity. Qed.

Theorem C52_WksFontSize : equality WksFontSize_eqb.
Proof. exact WksFontSize_q. Qed.
Print Assumptions C52_WksFontSize.
Example C52_WksFontSize_case : compares WksFontSize_from WksFontSize_norm WksFontSize_eqb WksFontSize_default "(size 1.3 2)" = true.
Proof. vm_compute. reflexivity. Qed.

Theorem C52_WksFont : equality WksFont_eqb.
Proof. exact WksFont_q. Qed.
Print Assumptions C52_WksFont.
Example C52_WksFont_case : compares WksFont_from WksFont_norm WksFont_eqb WksFont_default "(font (linewidth 0.15) (size 1.3 2) bold italic)" = true.
Proof. vm_compute. reflexivity. Qed.

Theorem C52_WksPosition : equality WksPosition_eqb.
Proof. exact WksPosition_q. Qed.
Print Assumptions C52_WksPosition.

Theorem C52_Line : equality Line_eqb.
Proof. exact Line_q. Qed.
Print Assumptions C52_Line.
Example C52_Line_case : compares Line_from Line_norm Line_eqb Line_default "(line (name ""a \""b\"""") (start 2.5 7 ltcorner) (end 2.5 7) (option page1only) (linewidth 0.15) (repeat 3) (incrx 5) (incry 0.5) (comment ""c (d)"")
)" = true.
Proof. vm_compute. reflexivity. Qed.

Theorem C52_Rect : equality Rect_eqb.
Proof. exact Rect_q. Qed.
Print Assumptions C52_Rect.
Example C52_Rect_case : compares Rect_from Rect_norm Rect_eqb Rect_default "(rect (name ""a \""b\"""") (start 2.5 7 ltcorner) (end 2.5 7) (option page1only) (linewidth 0.15) (repeat 3) (incrx 5) (incry 0.5) (comment ""c (d)"")
)" = true.
Proof. vm_compute. reflexivity. Qed.

Theorem C52_Polygon : equality Polygon_eqb.
Proof. exact Polygon_q. Qed.
Print Assumptions C52_Polygon.

Theorem C52_Bitmap : equality Bitmap_eqb.
Proof. exact Bitmap_q. Qed.
Print Assumptions C52_Bitmap.
Example C52_Bitmap_case : compares Bitmap_from Bitmap_norm Bitmap_eqb Bitmap_default "(bitmap (name ""a \""b\"""") (pos 2.5 7 ltcorner) (option notonpage1) (scale 0.5) (repeat 2) (incrx 5) (incry 0.5)
 (comment ""c (d)"")
(pngdata
  (data ""89 50 4E 47 "")
  (data ""0D 0A "")
  )
)" = true.
Proof. vm_compute. reflexivity. Qed.

Theorem C52_TbText : equality TbText_eqb.
Proof. exact TbText_q. Qed.
Print Assumptions C52_TbText.
Example C52_TbText_case : compares TbText_from TbText_norm TbText_eqb TbText_default "(tbtext ""Id: \""${#}\"" (x)"" (name ""n"") (pos 2.5 7 ltcorner) (option page1only) (rotate 90) (font (linewidth 0.15) (size 1.3 2) bold italic) (justify right top mirror) (maxlen 70) (maxheight 3.5) (repeat 2) (incrx 5) (incry 0.5) (incrlabel 1) (comment ""c (d)"")
)" = true.
Proof. vm_compute. reflexivity. Qed.

Theorem C52_TextSize : equality TextSize_eqb.
Proof. exact TextSize_q. Qed.
Print Assumptions C52_TextSize.
Example C52_TextSize_case : compares TextSize_from TextSize_norm TextSize_eqb TextSize_default "(textsize 1.5 2)" = true.
Proof. vm_compute. reflexivity. Qed.

Theorem C52_Setup : equality Setup_eqb.
Proof. exact Setup_q. Qed.
Print Assumptions C52_Setup.
Example C52_Setup_case : compares Setup_from Setup_norm Setup_eqb Setup_default "(setup (textsize 1.5 2)(linewidth 0.15)(textlinewidth 1)
(left_margin 10)(right_margin 10.5)(top_margin 11)(bottom_margin 12))" = true.
Proof. vm_compute. reflexivity. Qed.

Theorem C52_WkItem : equality WkItem_eqb.
Proof. exact WkItem_q. Qed.
Print Assumptions C52_WkItem.

Theorem C52_WorkSheet : equality WorkSheet_eqb.
Proof. exact WorkSheet_q. Qed.
Print Assumptions C52_WorkSheet.
Example C52_WorkSheet_case : compares WorkSheet_from WorkSheet_norm WorkSheet_eqb WorkSheet_default "(kicad_wks (version 20220228) (generator pl_editor)
  (setup (textsize 1.5 2)(linewidth 0.15)(textlinewidth 1)
  (left_margin 10)(right_margin 10.5)(top_margin 11)(bottom_margin 12))
  (tbtext ""Id: \""${#}\"" (x)"" (name ""n"") (pos 2.5 7 ltcorner) (option page1only) (rotate 90) (font (linewidth 0.15) (size 1.3 2) bold italic) (justify right top mirror) (maxlen 70) (maxheight 3.5) (repeat 2) (incrx 5) (incry 0.5) (incrlabel 1) (comment ""c (d)"")
)
  (line (name """") (start 0.0 0.0) (end 0.0 0.0))
  (rect (name """") (start 0.0 0.0) (end 0.0 0.0))
  (bitmap (name ""a \""b\"""") (pos 2.5 7 ltcorner) (option notonpage1) (scale 0.5) (repeat 2) (incrx 5) (incry 0.5)
 (comment ""c (d)"")
  (pngdata
    (data ""89 50 4E 47 "")
    (data ""0D 0A "")
    )
  )
  (tbtext """" (name """") (pos 0.0 0.0))
)" = true.
Proof. vm_compute. reflexivity. Qed.
