(** * C54: edit, save, load

    One attribute of a printable object is set to a value that fits, the object is saved with any indentation
    and loaded again: the attribute has that value, and all others are as before.  And whatever number of
    such edits is made in whatever order, the result is saved and loaded without loss.  The attributes and
    the values that fit are listed in S_Edit.v.  Beside each theorem stands an object that fits itself in all
    attributes, and takes at least one different value from another object. *)
From Coq Require Import String.
From Verif Require Import PyBase PyNum PyStr Sexpr RecordSet S_Leaf S_Tree S_Fix S_Equal S_Edit L_Tac L_Equal L_EqualA L_Edit L_EditA L_EditB.
From Verif Require Import M_Common M_Lib M_Sym M_Fp M_Gr M_Zone M_Footprint M_Dim M_Brd M_Board M_Sch M_Schematic M_Wks.
From Verif Require Import S_Common S_Lib S_Sym S_Fp S_Gr S_Zone S_Footprint S_Dim S_Brd S_Board S_Sch S_Schematic S_Wks.
From Verif Require Import L_Common L_Lib L_Sym L_Symbol L_Fp L_Gr L_Zone L_Pad L_Footprint L_Dim L_Brd L_Plot L_Board L_Sch L_Sheet L_Schematic L_Wks.

Definition fits {A} (o : A) (e : edit A) : bool := match e with Edit get put fit alike => fit o (get o) end.
Definition takes {A} (o d : A) (e : edit A) : bool := match e with Edit get put fit alike => fit o (get d) && negb (alike (get o) (get d)) end.
Definition meets {A} (from : val -> res A) (ok : A -> bool) (es : list (edit A)) (d : A) (t : string) : bool :=
  match (let! v := parse_sexp (lit t) in from v) with Ok o => ok o && forallb (fits o) es && existsb (takes o d) es | Err _ => false end.
Arguments meets {A} _ _ _ _ _%string.

Theorem C54_Coordinate : editable Coordinate_to Coordinate_from Coordinate_ok Coordinate_eqb Coordinate_edits.
Proof. exact (edit_kept _ _ _ _ _ _ Coordinate_rt Coordinate_e). Qed.
Print Assumptions C54_Coordinate.
Example C54_Coordinate_case : meets Coordinate_from Coordinate_ok Coordinate_edits Coordinate_default "(xyz 2.5 -3 1.0)" = true.
Proof. vm_compute. reflexivity. Qed.

Theorem C54_ColorRGBA : editable ColorRGBA_to ColorRGBA_from ColorRGBA_ok ColorRGBA_eqb ColorRGBA_edits.
Proof. exact (edit_kept _ _ _ _ _ _ ColorRGBA_rt ColorRGBA_e). Qed.
Print Assumptions C54_ColorRGBA.
Example C54_ColorRGBA_case : meets ColorRGBA_from ColorRGBA_ok ColorRGBA_edits ColorRGBA_default "(color 255 0 128 0.5)" = true.
Proof. vm_compute. reflexivity. Qed.

Theorem C54_Stroke : editable Stroke_to Stroke_from Stroke_ok Stroke_eqb Stroke_edits.
Proof. exact (edit_kept _ _ _ _ _ _ Stroke_rt Stroke_e). Qed.
Print Assumptions C54_Stroke.
Example C54_Stroke_case : meets Stroke_from Stroke_ok Stroke_edits Stroke_default "(stroke (width 0.254) (type dash_dot) (color 255 0 128 0.5))" = true.
Proof. vm_compute. reflexivity. Qed.

Theorem C54_Font : editable Font_to Font_from Font_ok Font_eqb Font_edits.
Proof. exact (edit_kept _ _ _ _ _ _ Font_rt Font_e). Qed.
Print Assumptions C54_Font.
Example C54_Font_case : meets Font_from Font_ok Font_edits Font_default "(font (face ""A \""b\"" \c"") (size 1.27 2) (color 255 0 128 0.5) (thickness 0.3) bold italic (line_spacing 1.1))" = true.
Proof. vm_compute. reflexivity. Qed.

Theorem C54_Justify : editable Justify_to Justify_from Justify_ok1 Justify_eqb Justify_edits.
Proof. exact (edit_kept _ _ _ _ _ _ Justify_rt1 Justify_e). Qed.
Print Assumptions C54_Justify.
Example C54_Justify_case : meets Justify_from Justify_ok1 Justify_edits Justify_default "(justify right top mirror)" = true.
Proof. vm_compute. reflexivity. Qed.

Theorem C54_Effects : editable Effects_to Effects_from Effects_ok Effects_eqb Effects_edits.
Proof. exact (edit_kept _ _ _ _ _ _ Effects_rt Effects_e). Qed.
Print Assumptions C54_Effects.
Example C54_Effects_case : meets Effects_from Effects_ok Effects_edits Effects_default "(effects (font (face ""A \""b\"" \c"") (size 1.27 2) (color 255 0 128 0.5) (thickness 0.3) bold italic (line_spacing 1.1)) (justify right top mirror) (href ""https://x.y/(z)"") hide)" = true.
Proof. vm_compute. reflexivity. Qed.

Theorem C54_Net : editable Net_to Net_from Net_ok Net_eqb Net_edits.
Proof. exact (edit_kept _ _ _ _ _ _ Net_rt Net_e). Qed.
Print Assumptions C54_Net.
Example C54_Net_case : meets Net_from Net_ok Net_edits Net_default "(net 17 ""Net-(U1-Pad3)"")" = true.
Proof. vm_compute. reflexivity. Qed.

Theorem C54_Group : editable Group_to Group_from Group_ok Group_eqb Group_edits.
Proof. exact (edit_kept _ _ _ _ _ _ Group_rt Group_e). Qed.
Print Assumptions C54_Group.
Example C54_Group_case : meets Group_from Group_ok Group_edits Group_default "(group ""g \""1\"""" locked (id 6fe2b9d8-0001)
  (members
    0012
    abc-1
  )
)" = true.
Proof. vm_compute. reflexivity. Qed.

Theorem C54_PageSettings : editable PageSettings_to PageSettings_from PageSettings_ok PageSettings_eqb PageSettings_edits.
Proof. exact (edit_kept _ _ _ _ _ _ PageSettings_rt PageSettings_e). Qed.
Print Assumptions C54_PageSettings.
Example C54_PageSettings_case : meets PageSettings_from PageSettings_ok PageSettings_edits PageSettings_default "(paper ""User"" 210.1 300 portrait)" = true.
Proof. vm_compute. reflexivity. Qed.

Theorem C54_TitleBlock : editable TitleBlock_to TitleBlock_from TitleBlock_ok TitleBlock_eqb TitleBlock_edits.
Proof. exact (edit_kept _ _ _ _ _ _ TitleBlock_rt TitleBlock_e). Qed.
Print Assumptions C54_TitleBlock.
Example C54_TitleBlock_case : meets TitleBlock_from TitleBlock_ok TitleBlock_edits TitleBlock_default "(title_block
  (title ""T"")
  (rev ""1.0"")
  (company """")
  (comment 1 ""one"")
  (comment 4 ""four (4)"")
)" = true.
Proof. vm_compute. reflexivity. Qed.

Theorem C54_Property : editable Property_to Property_from Property_ok Property_eqb Property_edits.
Proof. exact (edit_kept _ _ _ _ _ _ Property_rt Property_e). Qed.
Print Assumptions C54_Property.
Example C54_Property_case : meets Property_from Property_ok Property_edits Property_default "(property ""Sheet name"" ""a\b\"""" (id 3) (at 1 2.5 90) (show_name)
  (effects (font (face ""A \""b\"" \c"") (size 1.27 2) (color 255 0 128 0.5) (thickness 0.3) bold italic (line_spacing 1.1)) (justify right top mirror) (href ""https://x.y/(z)"") hide)
)" = true.
Proof. vm_compute. reflexivity. Qed.

Theorem C54_RenderCachePolygon : editable RenderCachePolygon_to RenderCachePolygon_from RenderCachePolygon_ok RenderCachePolygon_eqb RenderCachePolygon_edits.
Proof. exact (edit_kept _ _ _ _ _ _ RenderCachePolygon_rt RenderCachePolygon_e). Qed.
Print Assumptions C54_RenderCachePolygon.
Example C54_RenderCachePolygon_case : meets RenderCachePolygon_from RenderCachePolygon_ok RenderCachePolygon_edits RenderCachePolygon_default "(polygon
  (pts
    (xy 1 2)    (xy 1.5 2)    (xy 0 -7)    (xy 0 0)
    (xy 9 9)
  )
)" = true.
Proof. vm_compute. reflexivity. Qed.

Theorem C54_RenderCache : editable RenderCache_to RenderCache_from RenderCache_ok RenderCache_eqb RenderCache_edits.
Proof. exact (edit_kept _ _ _ _ _ _ RenderCache_rt RenderCache_e). Qed.
Print Assumptions C54_RenderCache.
Example C54_RenderCache_case : meets RenderCache_from RenderCache_ok RenderCache_edits RenderCache_default "(render_cache ""some text"" 0
  (polygon
    (pts
      (xy 1 2)      (xy 1.5 2)      (xy 0 -7)      (xy 0 0)
      (xy 9 9)
    )
  )
  (polygon
    (pts
    )
  )
)" = true.
Proof. vm_compute. reflexivity. Qed.

Theorem C54_Fill : editable Fill_to Fill_from Fill_ok Fill_eqb Fill_edits.
Proof. exact (edit_kept _ _ _ _ _ _ Fill_rt Fill_e). Qed.
Print Assumptions C54_Fill.
Example C54_Fill_case : meets Fill_from Fill_ok Fill_edits Fill_default "(fill (type background) (color 255 0 128 0.5))" = true.
Proof. vm_compute. reflexivity. Qed.

Theorem C54_Image : editable Image_to Image_from Image_ok Image_eqb Image_edits.
Proof. exact (edit_kept _ _ _ _ _ _ Image_rt Image_e). Qed.
Print Assumptions C54_Image.
Example C54_Image_case : meets Image_from Image_ok Image_edits Image_default "(image (at 12.34 5) (layer ""F.SilkS"") (scale 0.5)
  (uuid a-b-c)
  (data
    iVBORw0KGgo=
    12
  )
)" = true.
Proof. vm_compute. reflexivity. Qed.

Theorem C54_Library : editable Library_to Library_from Library_ok Library_eqb Library_edits.
Proof. exact (edit_kept _ _ _ _ _ _ Library_rt Library_e). Qed.
Print Assumptions C54_Library.
Example C54_Library_case : meets Library_from Library_ok Library_edits Library_default "(lib (name ""MCU \""ST\"""")(type ""KiCad"")(uri ""${KIPRJMOD}/a (b).kicad_sym"")(options """")(descr ""x"")(disabled))" = true.
Proof. vm_compute. reflexivity. Qed.

Theorem C54_LibTable : editable LibTable_to LibTable_from LibTable_ok LibTable_eqb LibTable_edits.
Proof. exact (edit_kept _ _ _ _ _ _ LibTable_rt LibTable_e). Qed.
Print Assumptions C54_LibTable.
Example C54_LibTable_case : meets LibTable_from LibTable_ok LibTable_edits LibTable_default "(fp_lib_table
  (lib (name ""MCU \""ST\"""")(type ""KiCad"")(uri ""${KIPRJMOD}/a (b).kicad_sym"")(options """")(descr ""x""))
  (lib (name ""MCU \""ST\"""")(type ""KiCad"")(uri ""${KIPRJMOD}/a (b).kicad_sym"")(options """")(descr ""x"")(disabled))
  (lib (name """")(type ""KiCad"")(uri """")(options """")(descr """"))
)" = true.
Proof. vm_compute. reflexivity. Qed.

Theorem C54_Constraint : editable Constraint_to Constraint_from Constraint_ok Constraint_eqb Constraint_edits.
Proof. exact (edit_kept _ _ _ _ _ _ Constraint_rt Constraint_e). Qed.
Print Assumptions C54_Constraint.
Example C54_Constraint_case : meets Constraint_from Constraint_ok Constraint_edits Constraint_default "(constraint disallow (min ""0.2mm"") (max ""1 mm"") track via)" = true.
Proof. vm_compute. reflexivity. Qed.

Theorem C54_Rule : editable Rule_to Rule_from Rule_ok Rule_eqb Rule_edits.
Proof. exact (edit_kept _ _ _ _ _ _ Rule_rt Rule_e). Qed.
Print Assumptions C54_Rule.
Example C54_Rule_case : meets Rule_from Rule_ok Rule_edits Rule_default "(rule ""HV \""1\""""
  (layer ""outer"")
  (constraint disallow (min ""0.2mm"") (max ""1 mm"") track via)
  (constraint clearance)
  (condition ""A.NetClass == 'HV'"")
  (severity warning))
" = true.
Proof. vm_compute. reflexivity. Qed.

Theorem C54_DesignRules : editable DesignRules_file DesignRules_from DesignRules_ok DesignRules_eqb DesignRules_edits.
Proof. exact (edit_kept _ _ _ _ _ _ DesignRules_rt DesignRules_e). Qed.
Print Assumptions C54_DesignRules.
Example C54_DesignRules_case : meets DesignRules_from DesignRules_ok DesignRules_edits DesignRules_default "((version 1)

(rule ""HV \""1\""""
  (layer ""outer"")
  (constraint disallow (min ""0.2mm"") (max ""1 mm"") track via)
  (constraint clearance)
  (condition ""A.NetClass == 'HV'"")
  (severity warning))
(rule ""HV \""1\""""
  (layer ""outer"")
  (constraint disallow (min ""0.2mm"") (max ""1 mm"") track via)
  (constraint clearance)
  (condition ""A.NetClass == 'HV'"")
  (severity warning))
(rule """"
  (condition """"))
)" = true.
Proof. vm_compute. reflexivity. Qed.

Theorem C54_SyArc : editable SyArc_to SyArc_from SyArc_ok SyArc_eqb SyArc_edits.
Proof. exact (edit_kept _ _ _ _ _ _ SyArc_rt SyArc_e). Qed.
Print Assumptions C54_SyArc.
Example C54_SyArc_case : meets SyArc_from SyArc_ok SyArc_edits SyArc_default "(arc private (start 1 2.5 90) (mid 2 3) (end -2 3)
  (stroke (width 0.254) (type dash_dot) (color 255 0 128 0.5))
  (fill (type color) (color 255 0 128 0.5))
)" = true.
Proof. vm_compute. reflexivity. Qed.

Theorem C54_SyCircle : editable SyCircle_to SyCircle_from SyCircle_ok SyCircle_eqb SyCircle_edits.
Proof. exact (edit_kept _ _ _ _ _ _ SyCircle_rt SyCircle_e). Qed.
Print Assumptions C54_SyCircle.
Example C54_SyCircle_case : meets SyCircle_from SyCircle_ok SyCircle_edits SyCircle_default "(circle private (center 2 3) (radius 2.5)
  (stroke (width 0.254) (type dash_dot) (color 255 0 128 0.5))
  (fill (type color) (color 255 0 128 0.5))
)" = true.
Proof. vm_compute. reflexivity. Qed.

Theorem C54_SyPolyLine : editable SyPolyLine_to SyPolyLine_from SyPolyLine_ok SyPolyLine_eqb SyPolyLine_edits.
Proof. exact (edit_kept _ _ _ _ _ _ SyPolyLine_rt SyPolyLine_e). Qed.
Print Assumptions C54_SyPolyLine.
Example C54_SyPolyLine_case : meets SyPolyLine_from SyPolyLine_ok SyPolyLine_edits SyPolyLine_default "(polyline
  (pts
    (xy 2 3)
    (xy 0.1 0)
    (xy 2 3)
  )
  (stroke (width 0.254) (type dash_dot) (color 255 0 128 0.5))
  (fill (type color) (color 255 0 128 0.5))
)" = true.
Proof. vm_compute. reflexivity. Qed.

Theorem C54_SyRect : editable SyRect_to SyRect_from SyRect_ok SyRect_eqb SyRect_edits.
Proof. exact (edit_kept _ _ _ _ _ _ SyRect_rt SyRect_e). Qed.
Print Assumptions C54_SyRect.
Example C54_SyRect_case : meets SyRect_from SyRect_ok SyRect_edits SyRect_default "(rectangle private (start 2 3) (end 2 -0.3)
  (stroke (width 0.254) (type dash_dot) (color 255 0 128 0.5))
  (fill (type color) (color 255 0 128 0.5))
)" = true.
Proof. vm_compute. reflexivity. Qed.

Theorem C54_SyText : editable SyText_to SyText_from SyText_ok SyText_eqb SyText_edits.
Proof. exact (edit_kept _ _ _ _ _ _ SyText_rt SyText_e). Qed.
Print Assumptions C54_SyText.
Example C54_SyText_case : meets SyText_from SyText_ok SyText_edits SyText_default "(text ""a \""(b)\"" \ c"" (at 2 3 900)
  (effects (font (face ""A \""b\"" \c"") (size 1.27 2) (color 255 0 128 0.5) (thickness 0.3) bold italic (line_spacing 1.1)) (justify right top mirror) (href ""https://x.y/(z)"") hide)
)" = true.
Proof. vm_compute. reflexivity. Qed.

Theorem C54_SyTextBox : editable SyTextBox_to SyTextBox_from SyTextBox_ok SyTextBox_eqb SyTextBox_edits.
Proof. exact (edit_kept _ _ _ _ _ _ SyTextBox_rt SyTextBox_e). Qed.
Print Assumptions C54_SyTextBox.
Example C54_SyTextBox_case : meets SyTextBox_from SyTextBox_ok SyTextBox_edits SyTextBox_default "(text_box private ""private""
  (at 2 3 90) (size 2 3)
  (stroke (width 0.254) (type dash_dot) (color 255 0 128 0.5))
  (fill (type color) (color 255 0 128 0.5))
  (effects (font (face ""A \""b\"" \c"") (size 1.27 2) (color 255 0 128 0.5) (thickness 0.3) bold italic (line_spacing 1.1)) (justify right top mirror) (href ""https://x.y/(z)"") hide)
  (uuid a-1)
)" = true.
Proof. vm_compute. reflexivity. Qed.

Theorem C54_SymbolAlternativePin : editable SymbolAlternativePin_to SymbolAlternativePin_from SymbolAlternativePin_ok SymbolAlternativePin_eqb SymbolAlternativePin_edits.
Proof. exact (edit_kept _ _ _ _ _ _ SymbolAlternativePin_rt SymbolAlternativePin_e). Qed.
Print Assumptions C54_SymbolAlternativePin.
Example C54_SymbolAlternativePin_case : meets SymbolAlternativePin_from SymbolAlternativePin_ok SymbolAlternativePin_edits SymbolAlternativePin_default "(alternate ""PA 0"" bidirectional inverted)" = true.
Proof. vm_compute. reflexivity. Qed.

Theorem C54_SymbolPin : editable SymbolPin_to SymbolPin_from SymbolPin_ok SymbolPin_eqb SymbolPin_edits.
Proof. exact (edit_kept _ _ _ _ _ _ SymbolPin_rt SymbolPin_e). Qed.
Print Assumptions C54_SymbolPin.
Example C54_SymbolPin_case : meets SymbolPin_from SymbolPin_ok SymbolPin_edits SymbolPin_default "(pin power_in line (at 2 3 90) (length 2.54) hide
  (name ""~{RST}"" (effects (font (face ""A \""b\"" \c"") (size 1.27 2) (color 255 0 128 0.5) (thickness 0.3) bold italic (line_spacing 1.1)) (justify right top mirror) (href ""https://x.y/(z)"") hide))
  (number ""12"")
  (alternate """" input line)
  (alternate """" input line)
)" = true.
Proof. vm_compute. reflexivity. Qed.

Theorem C54_Symbol : editable Symbol_to Symbol_from Symbol_ok Symbol_eqb Symbol_edits.
Proof. exact (edit_kept _ _ _ _ _ _ Symbol_rt Symbol_e). Qed.
Print Assumptions C54_Symbol.
Example C54_Symbol_case : meets Symbol_from Symbol_ok Symbol_edits Symbol_default "(symbol ""Amplifier:LM 358"" (extends ""LM \""X\"""") (power) (pin_numbers hide) (pin_names (offset 0.5) hide) (in_bom yes) (on_board no)
  (property ""Sheet name"" ""a\b\"""" (id 3) (at 1 2.5 90) (show_name)
    (effects (font (face ""A \""b\"" \c"") (size 1.27 2) (color 255 0 128 0.5) (thickness 0.3) bold italic (line_spacing 1.1)) (justify right top mirror) (href ""https://x.y/(z)"") hide)
  )
  (property ""Sheet name"" ""a\b\"""" (id 3) (at 1 2.5 90) (show_name)
    (effects (font (face ""A \""b\"" \c"") (size 1.27 2) (color 255 0 128 0.5) (thickness 0.3) bold italic (line_spacing 1.1)) (justify right top mirror) (href ""https://x.y/(z)"") hide)
  )
  (circle (center 0.0 0.0) (radius 0.0)
    (stroke (width 0.0))
    (fill (type none))
  )
  (text """" (at 0.0 0.0)
    (effects (font (size 1.0 1.0)))
  )
  (pin power_in line (at 2 3 90) (length 2.54) hide
    (name ""~{RST}"" (effects (font (face ""A \""b\"" \c"") (size 1.27 2) (color 255 0 128 0.5) (thickness 0.3) bold italic (line_spacing 1.1)) (justify right top mirror) (href ""https://x.y/(z)"") hide))
    (number ""12"")
    (alternate """" input line)
    (alternate """" input line)
  )
  (pin input line (at 0.0 0.0) (length 0.254) (name """") (number ""0""))
  (symbol ""LM 358_0_1""
    (rectangle (start 0.0 0.0) (end 0.0 0.0)
      (stroke (width 0.0))
      (fill (type none))
    )
    (arc (start 0.0 0.0) (mid 0.0 0.0) (end 0.0 0.0)
      (stroke (width 0.0))
      (fill (type none))
    )
    (pin power_in line (at 2 3 90) (length 2.54) hide
      (name ""~{RST}"" (effects (font (face ""A \""b\"" \c"") (size 1.27 2) (color 255 0 128 0.5) (thickness 0.3) bold italic (line_spacing 1.1)) (justify right top mirror) (href ""https://x.y/(z)"") hide))
      (number ""12"")
      (alternate """" input line)
      (alternate """" input line)
    )
  )
  (symbol ""LM 358_1_1""
    (rectangle (start 0.0 0.0) (end 0.0 0.0)
      (stroke (width 0.0))
      (fill (type none))
    )
    (arc (start 0.0 0.0) (mid 0.0 0.0) (end 0.0 0.0)
      (stroke (width 0.0))
      (fill (type none))
    )
    (pin power_in line (at 2 3 90) (length 2.54) hide
      (name ""~{RST}"" (effects (font (face ""A \""b\"" \c"") (size 1.27 2) (color 255 0 128 0.5) (thickness 0.3) bold italic (line_spacing 1.1)) (justify right top mirror) (href ""https://x.y/(z)"") hide))
      (number ""12"")
      (alternate """" input line)
      (alternate """" input line)
    )
    (symbol ""LM 358_7_1""
      (rectangle (start 0.0 0.0) (end 0.0 0.0)
        (stroke (width 0.0))
        (fill (type none))
      )
      (arc (start 0.0 0.0) (mid 0.0 0.0) (end 0.0 0.0)
        (stroke (width 0.0))
        (fill (type none))
      )
      (pin power_in line (at 2 3 90) (length 2.54) hide
        (name ""~{RST}"" (effects (font (face ""A \""b\"" \c"") (size 1.27 2) (color 255 0 128 0.5) (thickness 0.3) bold italic (line_spacing 1.1)) (justify right top mirror) (href ""https://x.y/(z)"") hide))
        (number ""12"")
        (alternate """" input line)
        (alternate """" input line)
      )
    )
    (symbol ""LM 358_8_1""
      (rectangle (start 0.0 0.0) (end 0.0 0.0)
        (stroke (width 0.0))
        (fill (type none))
      )
      (arc (start 0.0 0.0) (mid 0.0 0.0) (end 0.0 0.0)
        (stroke (width 0.0))
        (fill (type none))
      )
      (pin power_in line (at 2 3 90) (length 2.54) hide
        (name ""~{RST}"" (effects (font (face ""A \""b\"" \c"") (size 1.27 2) (color 255 0 128 0.5) (thickness 0.3) bold italic (line_spacing 1.1)) (justify right top mirror) (href ""https://x.y/(z)"") hide))
        (number ""12"")
        (alternate """" input line)
        (alternate """" input line)
      )
    )
  )
)" = true.
Proof. vm_compute. reflexivity. Qed.

Theorem C54_SymbolLib : editable SymbolLib_to SymbolLib_from SymbolLib_ok SymbolLib_eqb SymbolLib_edits.
Proof. exact (edit_kept _ _ _ _ _ _ SymbolLib_rt SymbolLib_e). Qed.
Print Assumptions C54_SymbolLib.
Example C54_SymbolLib_case : meets SymbolLib_from SymbolLib_ok SymbolLib_edits SymbolLib_default "(kicad_symbol_lib (version 20211014) (generator kicad_symbol_editor)
  (symbol ""Amplifier:LM 358"" (extends ""LM \""X\"""") (power) (pin_numbers hide) (pin_names (offset 0.5) hide) (in_bom yes) (on_board no)
    (property ""Sheet name"" ""a\b\"""" (id 3) (at 1 2.5 90) (show_name)
      (effects (font (face ""A \""b\"" \c"") (size 1.27 2) (color 255 0 128 0.5) (thickness 0.3) bold italic (line_spacing 1.1)) (justify right top mirror) (href ""https://x.y/(z)"") hide)
    )
    (property ""Sheet name"" ""a\b\"""" (id 3) (at 1 2.5 90) (show_name)
      (effects (font (face ""A \""b\"" \c"") (size 1.27 2) (color 255 0 128 0.5) (thickness 0.3) bold italic (line_spacing 1.1)) (justify right top mirror) (href ""https://x.y/(z)"") hide)
    )
    (circle (center 0.0 0.0) (radius 0.0)
      (stroke (width 0.0))
      (fill (type none))
    )
    (text """" (at 0.0 0.0)
      (effects (font (size 1.0 1.0)))
    )
    (pin power_in line (at 2 3 90) (length 2.54) hide
      (name ""~{RST}"" (effects (font (face ""A \""b\"" \c"") (size 1.27 2) (color 255 0 128 0.5) (thickness 0.3) bold italic (line_spacing 1.1)) (justify right top mirror) (href ""https://x.y/(z)"") hide))
      (number ""12"")
      (alternate """" input line)
      (alternate """" input line)
    )
    (pin input line (at 0.0 0.0) (length 0.254) (name """") (number ""0""))
    (symbol ""LM 358_0_1""
      (rectangle (start 0.0 0.0) (end 0.0 0.0)
        (stroke (width 0.0))
        (fill (type none))
      )
      (arc (start 0.0 0.0) (mid 0.0 0.0) (end 0.0 0.0)
        (stroke (width 0.0))
        (fill (type none))
      )
      (pin power_in line (at 2 3 90) (length 2.54) hide
        (name ""~{RST}"" (effects (font (face ""A \""b\"" \c"") (size 1.27 2) (color 255 0 128 0.5) (thickness 0.3) bold italic (line_spacing 1.1)) (justify right top mirror) (href ""https://x.y/(z)"") hide))
        (number ""12"")
        (alternate """" input line)
        (alternate """" input line)
      )
    )
    (symbol ""LM 358_1_1""
      (rectangle (start 0.0 0.0) (end 0.0 0.0)
        (stroke (width 0.0))
        (fill (type none))
      )
      (arc (start 0.0 0.0) (mid 0.0 0.0) (end 0.0 0.0)
        (stroke (width 0.0))
        (fill (type none))
      )
      (pin power_in line (at 2 3 90) (length 2.54) hide
        (name ""~{RST}"" (effects (font (face ""A \""b\"" \c"") (size 1.27 2) (color 255 0 128 0.5) (thickness 0.3) bold italic (line_spacing 1.1)) (justify right top mirror) (href ""https://x.y/(z)"") hide))
        (number ""12"")
        (alternate """" input line)
        (alternate """" input line)
      )
      (symbol ""LM 358_7_1""
        (rectangle (start 0.0 0.0) (end 0.0 0.0)
          (stroke (width 0.0))
          (fill (type none))
        )
        (arc (start 0.0 0.0) (mid 0.0 0.0) (end 0.0 0.0)
          (stroke (width 0.0))
          (fill (type none))
        )
        (pin power_in line (at 2 3 90) (length 2.54) hide
          (name ""~{RST}"" (effects (font (face ""A \""b\"" \c"") (size 1.27 2) (color 255 0 128 0.5) (thickness 0.3) bold italic (line_spacing 1.1)) (justify right top mirror) (href ""https://x.y/(z)"") hide))
          (number ""12"")
          (alternate """" input line)
          (alternate """" input line)
        )
      )
      (symbol ""LM 358_8_1""
        (rectangle (start 0.0 0.0) (end 0.0 0.0)
          (stroke (width 0.0))
          (fill (type none))
        )
        (arc (start 0.0 0.0) (mid 0.0 0.0) (end 0.0 0.0)
          (stroke (width 0.0))
          (fill (type none))
        )
        (pin power_in line (at 2 3 90) (length 2.54) hide
          (name ""~{RST}"" (effects (font (face ""A \""b\"" \c"") (size 1.27 2) (color 255 0 128 0.5) (thickness 0.3) bold italic (line_spacing 1.1)) (justify right top mirror) (href ""https://x.y/(z)"") hide))
          (number ""12"")
          (alternate """" input line)
          (alternate """" input line)
        )
      )
    )
  )
  (symbol ""LM 358_3_1""
    (rectangle (start 0.0 0.0) (end 0.0 0.0)
      (stroke (width 0.0))
      (fill (type none))
    )
    (arc (start 0.0 0.0) (mid 0.0 0.0) (end 0.0 0.0)
      (stroke (width 0.0))
      (fill (type none))
    )
    (pin power_in line (at 2 3 90) (length 2.54) hide
      (name ""~{RST}"" (effects (font (face ""A \""b\"" \c"") (size 1.27 2) (color 255 0 128 0.5) (thickness 0.3) bold italic (line_spacing 1.1)) (justify right top mirror) (href ""https://x.y/(z)"") hide))
      (number ""12"")
      (alternate """" input line)
      (alternate """" input line)
    )
  )
)" = true.
Proof. vm_compute. reflexivity. Qed.

Theorem C54_FpText : editable FpText_to FpText_from FpText_ok FpText_eqb FpText_edits.
Proof. exact (edit_kept _ _ _ _ _ _ FpText_rt FpText_e). Qed.
Print Assumptions C54_FpText.
Example C54_FpText_case : meets FpText_from FpText_ok FpText_edits FpText_default "(fp_text user ""a \""(b)\"" \ c"" (at 1 2.5 90 unlocked) (layer ""F.SilkS"" knockout) hide
  (effects (font (face ""A \""b\"" \c"") (size 1.27 2) (color 255 0 128 0.5) (thickness 0.3) bold italic (line_spacing 1.1)) (justify right top mirror) (href ""https://x.y/(z)"") hide)
  (tstamp 7c2f5ab1-44ff-4a1c-b96d-28f9f3a0fd1e)
  (render_cache ""ab\""c"" 0
    (polygon
      (pts
        (xy 1 2)        (xy 1.5 2)        (xy 0 -7)        (xy 0 0)
        (xy 9 9)
      )
    )
  )
)" = true.
Proof. vm_compute. reflexivity. Qed.

Theorem C54_FpLine : editable FpLine_to FpLine_from FpLine_ok FpLine_eqb FpLine_edits.
Proof. exact (edit_kept _ _ _ _ _ _ FpLine_rt FpLine_e). Qed.
Print Assumptions C54_FpLine.
Example C54_FpLine_case : meets FpLine_from FpLine_ok FpLine_edits FpLine_default "(fp_line (start 2 3) (end 2 0.001) (layer ""F.Fab"") (stroke (width 0.254) (type dash_dot) (color 255 0 128 0.5)) (tstamp 7c2f5ab1-44ff-4a1c-b96d-28f9f3a0fd1e))" = true.
Proof. vm_compute. reflexivity. Qed.

Theorem C54_FpRect : editable FpRect_to FpRect_from FpRect_ok FpRect_eqb FpRect_edits.
Proof. exact (edit_kept _ _ _ _ _ _ FpRect_rt FpRect_e). Qed.
Print Assumptions C54_FpRect.
Example C54_FpRect_case : meets FpRect_from FpRect_ok FpRect_edits FpRect_default "(fp_rect (start 2 3) (end 2 0.001) (layer ""F.Fab"") (width 0.15) (fill solid) locked (tstamp 7c2f5ab1-44ff-4a1c-b96d-28f9f3a0fd1e))" = true.
Proof. vm_compute. reflexivity. Qed.

Theorem C54_FpCircle : editable FpCircle_to FpCircle_from FpCircle_ok FpCircle_eqb FpCircle_edits.
Proof. exact (edit_kept _ _ _ _ _ _ FpCircle_rt FpCircle_e). Qed.
Print Assumptions C54_FpCircle.
Example C54_FpCircle_case : meets FpCircle_from FpCircle_ok FpCircle_edits FpCircle_default "(fp_circle (center 2 3) (end 2 0.001) (layer ""F.Fab"") (stroke (width 0.254) (type dash_dot) (color 255 0 128 0.5)) (fill solid) locked (tstamp 7c2f5ab1-44ff-4a1c-b96d-28f9f3a0fd1e))" = true.
Proof. vm_compute. reflexivity. Qed.

Theorem C54_FpArc : editable FpArc_to FpArc_from FpArc_ok FpArc_eqb FpArc_edits.
Proof. exact (edit_kept _ _ _ _ _ _ FpArc_rt FpArc_e). Qed.
Print Assumptions C54_FpArc.
Example C54_FpArc_case : meets FpArc_from FpArc_ok FpArc_edits FpArc_default "(fp_arc (start 2 3) (mid 5 3) (end 2 0.001) (layer ""F.Fab"") (stroke (width 0.254) (type dash_dot) (color 255 0 128 0.5)) locked (tstamp 7c2f5ab1-44ff-4a1c-b96d-28f9f3a0fd1e))" = true.
Proof. vm_compute. reflexivity. Qed.

Theorem C54_FpPoly : editable FpPoly_to FpPoly_from FpPoly_ok FpPoly_eqb FpPoly_edits.
Proof. exact (edit_kept _ _ _ _ _ _ FpPoly_rt FpPoly_e). Qed.
Print Assumptions C54_FpPoly.
Example C54_FpPoly_case : meets FpPoly_from FpPoly_ok FpPoly_edits FpPoly_default "(fp_poly (pts
    (xy 2 3)
    (xy 0.1 0)
    (xy 2 3)
    (xy -1.5 7)
  ) (layer ""F.Fab"") (stroke (width 0.254) (type dash_dot) (color 255 0 128 0.5)) (fill solid) locked (tstamp 7c2f5ab1-44ff-4a1c-b96d-28f9f3a0fd1e))" = true.
Proof. vm_compute. reflexivity. Qed.

Theorem C54_FpCurve : editable FpCurve_to FpCurve_from FpCurve_ok FpCurve_eqb FpCurve_edits.
Proof. exact (edit_kept _ _ _ _ _ _ FpCurve_rt FpCurve_e). Qed.
Print Assumptions C54_FpCurve.
Example C54_FpCurve_case : meets FpCurve_from FpCurve_ok FpCurve_edits FpCurve_default "(fp_curve (pts
  (xy 2 3)
  (xy 0.1 0)
  (xy 2 3)
  (xy -1.5 7)
) (layer ""F.Fab"") (width 0.15) locked (tstamp 7c2f5ab1-44ff-4a1c-b96d-28f9f3a0fd1e))" = true.
Proof. vm_compute. reflexivity. Qed.

Theorem C54_FpTextBox : editable FpTextBox_to FpTextBox_from FpTextBox_ok FpTextBox_eqb FpTextBox_edits.
Proof. exact (edit_kept _ _ _ _ _ _ FpTextBox_rt FpTextBox_e). Qed.
Print Assumptions C54_FpTextBox.
Example C54_FpTextBox_case : meets FpTextBox_from FpTextBox_ok FpTextBox_edits FpTextBox_default "(fp_text_box locked ""locked""
  (pts
    (xy 2 3)      (xy 0.1 0)      (xy 2 3)      (xy -1.5 7)
  )
  (angle 45.5) (layer ""F.Fab"") (tstamp 7c2f5ab1-44ff-4a1c-b96d-28f9f3a0fd1e)
  (effects (font (face ""A \""b\"" \c"") (size 1.27 2) (color 255 0 128 0.5) (thickness 0.3) bold italic (line_spacing 1.1)) (justify right top mirror) (href ""https://x.y/(z)"") hide)
  (stroke (width 0.254) (type dash_dot) (color 255 0 128 0.5))
  (render_cache ""ab\""c"" 0
    (polygon
      (pts
        (xy 1 2)        (xy 1.5 2)        (xy 0 -7)        (xy 0 0)
        (xy 9 9)
      )
    )
  )
)" = true.
Proof. vm_compute. reflexivity. Qed.

Theorem C54_GrText : editable GrText_to GrText_from GrText_ok GrText_eqb GrText_edits.
Proof. exact (edit_kept _ _ _ _ _ _ GrText_rt GrText_e). Qed.
Print Assumptions C54_GrText.
Example C54_GrText_case : meets GrText_from GrText_ok GrText_edits GrText_default "(gr_text ""a \""(b)\"" \ c"" (at 1 2.5 90) (layer ""F.SilkS"" knockout) (tstamp 7c2f5ab1-44ff-4a1c-b96d-28f9f3a0fd1e)
  (effects (font (face ""A \""b\"" \c"") (size 1.27 2) (color 255 0 128 0.5) (thickness 0.3) bold italic (line_spacing 1.1)) (justify right top mirror) (href ""https://x.y/(z)"") hide)
  (render_cache ""ab\""c"" 0
    (polygon
      (pts
        (xy 1 2)        (xy 1.5 2)        (xy 0 -7)        (xy 0 0)
        (xy 9 9)
      )
    )
  )
)" = true.
Proof. vm_compute. reflexivity. Qed.

Theorem C54_GrLine : editable GrLine_to GrLine_from GrLine_ok GrLine_eqb GrLine_edits.
Proof. exact (edit_kept _ _ _ _ _ _ GrLine_rt GrLine_e). Qed.
Print Assumptions C54_GrLine.
Example C54_GrLine_case : meets GrLine_from GrLine_ok GrLine_edits GrLine_default "(gr_line locked (start 2 3) (end 2 0.001) (layer ""F.Fab"") (width 1) (tstamp 7c2f5ab1-44ff-4a1c-b96d-28f9f3a0fd1e))" = true.
Proof. vm_compute. reflexivity. Qed.

Theorem C54_GrRect : editable GrRect_to GrRect_from GrRect_ok GrRect_eqb GrRect_edits.
Proof. exact (edit_kept _ _ _ _ _ _ GrRect_rt GrRect_e). Qed.
Print Assumptions C54_GrRect.
Example C54_GrRect_case : meets GrRect_from GrRect_ok GrRect_edits GrRect_default "(gr_rect locked (start 2 3) (end 2 0.001) (layer ""F.Fab"") (width 0.15) (fill solid) (tstamp 7c2f5ab1-44ff-4a1c-b96d-28f9f3a0fd1e))" = true.
Proof. vm_compute. reflexivity. Qed.

Theorem C54_GrCircle : editable GrCircle_to GrCircle_from GrCircle_ok GrCircle_eqb GrCircle_edits.
Proof. exact (edit_kept _ _ _ _ _ _ GrCircle_rt GrCircle_e). Qed.
Print Assumptions C54_GrCircle.
Example C54_GrCircle_case : meets GrCircle_from GrCircle_ok GrCircle_edits GrCircle_default "(gr_circle locked (center 2 3) (end 2 0.001) (layer ""F.Fab"") (width 0.15) (fill solid) (tstamp 7c2f5ab1-44ff-4a1c-b96d-28f9f3a0fd1e))" = true.
Proof. vm_compute. reflexivity. Qed.

Theorem C54_GrArc : editable GrArc_to GrArc_from GrArc_ok GrArc_eqb GrArc_edits.
Proof. exact (edit_kept _ _ _ _ _ _ GrArc_rt GrArc_e). Qed.
Print Assumptions C54_GrArc.
Example C54_GrArc_case : meets GrArc_from GrArc_ok GrArc_edits GrArc_default "(gr_arc locked (start 2 3) (mid 5 3) (end 2 0.001) (layer ""F.Fab"") (width 0.15) (tstamp 7c2f5ab1-44ff-4a1c-b96d-28f9f3a0fd1e))" = true.
Proof. vm_compute. reflexivity. Qed.

Theorem C54_GrPoly : editable GrPoly_to GrPoly_from GrPoly_ok GrPoly_eqb GrPoly_edits.
Proof. exact (edit_kept _ _ _ _ _ _ GrPoly_rt GrPoly_e). Qed.
Print Assumptions C54_GrPoly.
Example C54_GrPoly_case : meets GrPoly_from GrPoly_ok GrPoly_edits GrPoly_default "(gr_poly locked (pts
    (xy 2 3)
    (xy 0.1 0)
    (xy 2 3)
    (xy -1.5 7)
  ) (layer ""F.Fab"") (width 0.15) (fill solid) (tstamp 7c2f5ab1-44ff-4a1c-b96d-28f9f3a0fd1e))" = true.
Proof. vm_compute. reflexivity. Qed.

Theorem C54_GrCurve : editable GrCurve_to GrCurve_from GrCurve_ok GrCurve_eqb GrCurve_edits.
Proof. exact (edit_kept _ _ _ _ _ _ GrCurve_rt GrCurve_e). Qed.
Print Assumptions C54_GrCurve.
Example C54_GrCurve_case : meets GrCurve_from GrCurve_ok GrCurve_edits GrCurve_default "(gr_curve locked (pts
  (xy 2 3)
  (xy 0.1 0)
  (xy 2 3)
  (xy -1.5 7)
) (width 0.15) (tstamp 7c2f5ab1-44ff-4a1c-b96d-28f9f3a0fd1e))" = true.
Proof. vm_compute. reflexivity. Qed.

Theorem C54_GrTextBox : editable GrTextBox_to GrTextBox_from GrTextBox_ok GrTextBox_eqb GrTextBox_edits.
Proof. exact (edit_kept _ _ _ _ _ _ GrTextBox_rt GrTextBox_e). Qed.
Print Assumptions C54_GrTextBox.
Example C54_GrTextBox_case : meets GrTextBox_from GrTextBox_ok GrTextBox_edits GrTextBox_default "(gr_text_box locked ""locked""
  (pts
    (xy 2 3)        (xy 0.1 0)        (xy 2 3)        (xy -1.5 7)
  )
  (angle 45.5) (layer ""F.Fab"") (tstamp 7c2f5ab1-44ff-4a1c-b96d-28f9f3a0fd1e)
  (effects (font (face ""A \""b\"" \c"") (size 1.27 2) (color 255 0 128 0.5) (thickness 0.3) bold italic (line_spacing 1.1)) (justify right top mirror) (href ""https://x.y/(z)"") hide)
  (stroke (width 0.254) (type dash_dot) (color 255 0 128 0.5))
  (render_cache ""ab\""c"" 0
    (polygon
      (pts
        (xy 1 2)        (xy 1.5 2)        (xy 0 -7)        (xy 0 0)
        (xy 9 9)
      )
    )
  )
)" = true.
Proof. vm_compute. reflexivity. Qed.

Theorem C54_KeepoutSettings : editable KeepoutSettings_to KeepoutSettings_from KeepoutSettings_ok KeepoutSettings_eqb KeepoutSettings_edits.
Proof. exact (edit_kept _ _ _ _ _ _ KeepoutSettings_rt KeepoutSettings_e). Qed.
Print Assumptions C54_KeepoutSettings.
Example C54_KeepoutSettings_case : meets KeepoutSettings_from KeepoutSettings_ok KeepoutSettings_edits KeepoutSettings_default "(keepout (tracks allowed) (vias not_allowed) (pads allowed ) (copperpour not-allowed) (footprints not-allowed))" = true.
Proof. vm_compute. reflexivity. Qed.

Theorem C54_FillSettings : editable FillSettings_to FillSettings_from FillSettings_ok FillSettings_eqb FillSettings_edits.
Proof. exact (edit_kept _ _ _ _ _ _ FillSettings_rt FillSettings_e). Qed.
Print Assumptions C54_FillSettings.
Example C54_FillSettings_case : meets FillSettings_from FillSettings_ok FillSettings_edits FillSettings_default "(fill yes (mode hatch) (thermal_gap 0.5) (thermal_bridge_width 0.508) (smoothing chamfer) (radius 1) (island_removal_mode 2) (island_area_min 10)
  (hatch_thickness 1) (hatch_gap 1.5) (hatch_orientation 45)
  (hatch_smoothing_level 1) (hatch_smoothing_value 0.1)
  (hatch_border_algorithm 0) (hatch_min_hole_area 0.3))" = true.
Proof. vm_compute. reflexivity. Qed.

Theorem C54_ZonePolygon : editable ZonePolygon_to ZonePolygon_from ZonePolygon_ok ZonePolygon_eqb ZonePolygon_edits.
Proof. exact (edit_kept _ _ _ _ _ _ ZonePolygon_rt ZonePolygon_e). Qed.
Print Assumptions C54_ZonePolygon.
Example C54_ZonePolygon_case : meets ZonePolygon_from ZonePolygon_ok ZonePolygon_edits (mkZonePolygon [Position_default]) "(polygon
  (pts
    (xy 2 3)
    (xy 0.1 0)
    (xy 2 3)
    (xy -1.5 7)
  )
)
" = true.
Proof. vm_compute. reflexivity. Qed.

Theorem C54_FilledPolygon : editable FilledPolygon_to FilledPolygon_from FilledPolygon_ok FilledPolygon_eqb FilledPolygon_edits.
Proof. exact (edit_kept _ _ _ _ _ _ FilledPolygon_rt FilledPolygon_e). Qed.
Print Assumptions C54_FilledPolygon.
Example C54_FilledPolygon_case : meets FilledPolygon_from FilledPolygon_ok FilledPolygon_edits FilledPolygon_default "(filled_polygon
  (layer ""In1.Cu"")
  (island)
  (pts
    (xy 2 3)
    (xy 0.1 0)
    (xy 2 3)
    (xy -1.5 7)
  )
)
" = true.
Proof. vm_compute. reflexivity. Qed.

Theorem C54_FillSegments : editable FillSegments_to FillSegments_from FillSegments_ok FillSegments_eqb FillSegments_edits.
Proof. exact (edit_kept _ _ _ _ _ _ FillSegments_rt FillSegments_e). Qed.
Print Assumptions C54_FillSegments.
Example C54_FillSegments_case : meets FillSegments_from FillSegments_ok FillSegments_edits FillSegments_default "(fill_segments
  (layer ""In1.Cu"")
  (pts
    (xy 2 3)
    (xy 0.1 0)
    (xy 2 3)
    (xy -1.5 7)
  )
)
" = true.
Proof. vm_compute. reflexivity. Qed.

Theorem C54_Zone : editable Zone_to Zone_from Zone_ok Zone_eqb Zone_edits.
Proof. exact (edit_kept _ _ _ _ _ _ Zone_rt Zone_e). Qed.
Print Assumptions C54_Zone.
Example C54_Zone_case : meets Zone_from Zone_ok Zone_edits Zone_default "(zone locked (net 12) (net_name ""Net \""(1)\"""") (layers ""F.Cu"" ""B.Cu"") (tstamp 7c2f5ab1-44ff-4a1c-b96d-28f9f3a0fd1e) (name ""my zone"") (hatch edge 0.508)
  (priority 3)
  (connect_pads thru_hole_only (clearance 0.2))
  (min_thickness 0.254) (filled_areas_thickness no)
  (keepout (tracks allowed) (vias not_allowed) (pads allowed ) (copperpour not-allowed) (footprints not-allowed))
  (fill yes (mode hatch) (thermal_gap 0.5) (thermal_bridge_width 0.508) (smoothing chamfer) (radius 1) (island_removal_mode 2) (island_area_min 10)
    (hatch_thickness 1) (hatch_gap 1.5) (hatch_orientation 45)
    (hatch_smoothing_level 1) (hatch_smoothing_value 0.1)
    (hatch_border_algorithm 0) (hatch_min_hole_area 0.3))
  (polygon
    (pts
      (xy 2 3)
      (xy 0.1 0)
      (xy 2 3)
      (xy -1.5 7)
    )
  )
  (polygon
    (pts
      (xy 1 2)
    )
  )
  (filled_polygon
    (layer ""F.Cu"")
    (island)
    (pts
      (xy 2 3)
      (xy 0.1 0)
      (xy 2 3)
      (xy -1.5 7)
    )
  )
    (fill_segments
      (layer ""B.Cu"")
      (pts
        (xy 2 3)
        (xy 0.1 0)
        (xy 2 3)
        (xy -1.5 7)
      )
    )
)" = true.
Proof. vm_compute. reflexivity. Qed.

Theorem C54_Attributes : editable Attributes_to Attributes_from Attributes_ok1 Attributes_eqb Attributes_edits.
Proof. exact (edit_kept _ _ _ _ _ _ Attributes_rt1 Attributes_e). Qed.
Print Assumptions C54_Attributes.
Example C54_Attributes_case : meets Attributes_from Attributes_ok1 Attributes_edits Attributes_default "(attr smd exclude_from_pos_files exclude_from_bom)" = true.
Proof. vm_compute. reflexivity. Qed.

Theorem C54_Model : editable Model_to Model_from Model_ok Model_eqb Model_edits.
Proof. exact (edit_kept _ _ _ _ _ _ Model_rt Model_e). Qed.
Print Assumptions C54_Model.
Example C54_Model_case : meets Model_from Model_ok Model_edits Model_default "(model ""${KICAD6_3DMODEL_DIR}/a \""b\"".wrl"" hide
  (opacity 0.5)
  (offset (xyz 2.5 -3 1.0))
  (scale (xyz 1 1 0.1))
  (rotate (xyz 0 90 0))
)" = true.
Proof. vm_compute. reflexivity. Qed.

Theorem C54_DrillDefinition : editable DrillDefinition_to DrillDefinition_from DrillDefinition_ok DrillDefinition_eqb DrillDefinition_edits.
Proof. exact (edit_kept _ _ _ _ _ _ DrillDefinition_rt DrillDefinition_e). Qed.
Print Assumptions C54_DrillDefinition.
Example C54_DrillDefinition_case : meets DrillDefinition_from DrillDefinition_ok DrillDefinition_edits DrillDefinition_default "(drill oval 0.8 2 (offset 1 0.5))" = true.
Proof. vm_compute. reflexivity. Qed.

Theorem C54_PadOptions : editable PadOptions_to PadOptions_from PadOptions_ok PadOptions_eqb PadOptions_edits.
Proof. exact (edit_kept _ _ _ _ _ _ PadOptions_rt PadOptions_e). Qed.
Print Assumptions C54_PadOptions.
Example C54_PadOptions_case : meets PadOptions_from PadOptions_ok PadOptions_edits PadOptions_default "(options (clearance convexhull) (anchor circle))" = true.
Proof. vm_compute. reflexivity. Qed.

Theorem C54_Pad : editable Pad_to Pad_from Pad_ok Pad_eqb Pad_edits.
Proof. exact (edit_kept _ _ _ _ _ _ Pad_rt Pad_e). Qed.
Print Assumptions C54_Pad.
Example C54_Pad_case : meets Pad_from Pad_ok Pad_edits Pad_default "(pad ""A \""1\"""" thru_hole custom locked (at 1 2.5 90) (size 1 2) (drill oval 0.8 2 (offset 1 0.5)) (property pad_prop_bga) (layers *.Cu ""F.Mask"" F&B.Paste ""In1 (x)"") (remove_unused_layers) (keep_end_layers) (roundrect_rratio 0.25)
  (chamfer_ratio 0.1) (chamfer top_left bottom_right)
  (die_length 3)
  (net 17 ""Net-(U1-Pad3)"") (pinfunction ""fn"") (pintype ""bidirectional+no_connect"") (solder_mask_margin 0.1) (solder_paste_margin 0.2) (solder_paste_margin_ratio 0.3) (clearance 0.4) (zone_connect 2) (thermal_width 0.5) (thermal_gap 0.6)
  (options (clearance convexhull) (anchor circle))
  (primitives
    (gr_text ""a \""(b)\"" \ c"" (at 1 2.5 90) (layer ""F.SilkS"" knockout) (tstamp 7c2f5ab1-44ff-4a1c-b96d-28f9f3a0fd1e)
      (effects (font (face ""A \""b\"" \c"") (size 1.27 2) (color 255 0 128 0.5) (thickness 0.3) bold italic (line_spacing 1.1)) (justify right top mirror) (href ""https://x.y/(z)"") hide)
      (render_cache ""ab\""c"" 0
        (polygon
          (pts
            (xy 1 2)            (xy 1.5 2)            (xy 0 -7)            (xy 0 0)
            (xy 9 9)
          )
        )
      )
    )
    (gr_line locked (start 2 3) (end 2 0.001) (layer ""F.Fab"") (width 1) (tstamp 7c2f5ab1-44ff-4a1c-b96d-28f9f3a0fd1e))
    (gr_poly locked (pts
        (xy 2 3)
        (xy 0.1 0)
        (xy 2 3)
        (xy -1.5 7)
      ) (layer ""F.Fab"") (width 0.15) (fill solid) (tstamp 7c2f5ab1-44ff-4a1c-b96d-28f9f3a0fd1e))
  ) (tstamp 7c2f5ab1-44ff-4a1c-b96d-28f9f3a0fd1e))" = true.
Proof. vm_compute. reflexivity. Qed.

Theorem C54_Footprint now : editable Footprint_to (Footprint_from now) Footprint_ok Footprint_eqb Footprint_edits.
Proof. exact (edit_kept _ _ _ _ _ _ (Footprint_rt now) (Footprint_e now)). Qed.
Print Assumptions C54_Footprint.
Example C54_Footprint_case : meets (Footprint_from (VStr $"0")) Footprint_ok Footprint_edits (Footprint_default (VStr $"0")) "(footprint ""Package_SO:SOIC-8 \""x\"""" locked placed (version 20211014) (generator pcbnew)
  (layer ""B.Cu"")
  (tedit 65fa1b2c) (tstamp 7c2f5ab1-44ff-4a1c-b96d-28f9f3a0fd1e)
  (at 1 2 180)
  (descr ""d \""(1)\"""")
  (tags ""a b"")
  (property ""Sheetfile"" ""x.kicad_sch"")
  (property ""k 2"" """")
  (path ""/1/2"")
  (autoplace_cost90 1)
  (autoplace_cost180 2)
  (solder_mask_margin 0.1)
  (solder_paste_margin 0.2)
  (solder_paste_ratio 0.3)
  (clearance 0.4)
  (zone_connect 2)
  (thermal_width 0.5)
  (thermal_gap 0.6)
  (attr through_hole board_only exclude_from_pos_files exclude_from_bom allow_missing_courtyard)
  (private_layers ""User.1"")
  (net_tie_pad_groups ""1, 2"" ""3"")
  (fp_text user ""a \""(b)\"" \ c"" (at 1 2.5 90 unlocked) (layer ""F.SilkS"" knockout) hide
    (effects (font (face ""A \""b\"" \c"") (size 1.27 2) (color 255 0 128 0.5) (thickness 0.3) bold italic (line_spacing 1.1)) (justify right top mirror) (href ""https://x.y/(z)"") hide)
    (tstamp 7c2f5ab1-44ff-4a1c-b96d-28f9f3a0fd1e)
    (render_cache ""ab\""c"" 0
      (polygon
        (pts
          (xy 1 2)          (xy 1.5 2)          (xy 0 -7)          (xy 0 0)
          (xy 9 9)
        )
      )
    )
  )
  (fp_curve (pts
    (xy 2 3)
    (xy 0.1 0)
    (xy 2 3)
    (xy -1.5 7)
  ) (layer ""F.Fab"") (width 0.15) locked (tstamp 7c2f5ab1-44ff-4a1c-b96d-28f9f3a0fd1e))
  (image (at 12.34 5) (layer ""F.SilkS"") (scale 0.5)
    (uuid a-b-c)
    (data
      iVBORw0KGgo=
      12
    )
  )
  (pad ""A \""1\"""" thru_hole custom locked (at 1 2.5 90) (size 1 2) (drill oval 0.8 2 (offset 1 0.5)) (property pad_prop_bga) (layers *.Cu ""F.Mask"" F&B.Paste ""In1 (x)"") (remove_unused_layers) (keep_end_layers) (roundrect_rratio 0.25)
    (chamfer_ratio 0.1) (chamfer top_left bottom_right)
    (die_length 3)
    (net 17 ""Net-(U1-Pad3)"") (pinfunction ""fn"") (pintype ""bidirectional+no_connect"") (solder_mask_margin 0.1) (solder_paste_margin 0.2) (solder_paste_margin_ratio 0.3) (clearance 0.4) (zone_connect 2) (thermal_width 0.5) (thermal_gap 0.6)
    (options (clearance convexhull) (anchor circle))
    (primitives
      (gr_text ""a \""(b)\"" \ c"" (at 1 2.5 90) (layer ""F.SilkS"" knockout) (tstamp 7c2f5ab1-44ff-4a1c-b96d-28f9f3a0fd1e)
        (effects (font (face ""A \""b\"" \c"") (size 1.27 2) (color 255 0 128 0.5) (thickness 0.3) bold italic (line_spacing 1.1)) (justify right top mirror) (href ""https://x.y/(z)"") hide)
        (render_cache ""ab\""c"" 0
          (polygon
            (pts
              (xy 1 2)              (xy 1.5 2)              (xy 0 -7)              (xy 0 0)
              (xy 9 9)
            )
          )
        )
      )
      (gr_line locked (start 2 3) (end 2 0.001) (layer ""F.Fab"") (width 1) (tstamp 7c2f5ab1-44ff-4a1c-b96d-28f9f3a0fd1e))
      (gr_poly locked (pts
          (xy 2 3)
          (xy 0.1 0)
          (xy 2 3)
          (xy -1.5 7)
        ) (layer ""F.Fab"") (width 0.15) (fill solid) (tstamp 7c2f5ab1-44ff-4a1c-b96d-28f9f3a0fd1e))
    ) (tstamp 7c2f5ab1-44ff-4a1c-b96d-28f9f3a0fd1e))
  (pad ""x"" smd rect (at 0.0 0.0) (size 0.0 0.0) (layers))
  (zone locked (net 12) (net_name ""Net \""(1)\"""") (layers ""F.Cu"" ""B.Cu"") (tstamp 7c2f5ab1-44ff-4a1c-b96d-28f9f3a0fd1e) (name ""my zone"") (hatch edge 0.508)
    (priority 3)
    (connect_pads thru_hole_only (clearance 0.2))
    (min_thickness 0.254) (filled_areas_thickness no)
    (keepout (tracks allowed) (vias not_allowed) (pads allowed ) (copperpour not-allowed) (footprints not-allowed))
    (fill yes (mode hatch) (thermal_gap 0.5) (thermal_bridge_width 0.508) (smoothing chamfer) (radius 1) (island_removal_mode 2) (island_area_min 10)
      (hatch_thickness 1) (hatch_gap 1.5) (hatch_orientation 45)
      (hatch_smoothing_level 1) (hatch_smoothing_value 0.1)
      (hatch_border_algorithm 0) (hatch_min_hole_area 0.3))
    (polygon
      (pts
        (xy 2 3)
        (xy 0.1 0)
        (xy 2 3)
        (xy -1.5 7)
      )
    )
    (polygon
      (pts
        (xy 1 2)
      )
    )
    (filled_polygon
      (layer ""F.Cu"")
      (island)
      (pts
        (xy 2 3)
        (xy 0.1 0)
        (xy 2 3)
        (xy -1.5 7)
      )
    )
    (fill_segments
      (layer ""B.Cu"")
      (pts
        (xy 2 3)
        (xy 0.1 0)
        (xy 2 3)
        (xy -1.5 7)
      )
    )
  )
  (model ""${KICAD6_3DMODEL_DIR}/a \""b\"".wrl"" hide
    (opacity 0.5)
    (offset (xyz 2.5 -3 1.0))
    (scale (xyz 1 1 0.1))
    (rotate (xyz 0 90 0))
  )
  (model ""${KICAD6_3DMODEL_DIR}/a \""b\"".wrl"" hide
    (opacity 0.5)
    (offset (xyz 2.5 -3 1.0))
    (scale (xyz 1 1 0.1))
    (rotate (xyz 0 90 0))
  )
  (group ""g \""1\"""" locked (id 6fe2b9d8-0001)
    (members
      0012
      abc-1
    )
  )
)" = true.
Proof. vm_compute. reflexivity. Qed.

(** The attributes left out: the edit is saved without complaint, but is gone when the object is loaded.  (The
    angle of a GrLine is worse: its text cannot be parsed at all, C19_GrLine_angle_refuted.) *)
Definition loses {A B} (to : A -> nat -> bool -> res str) (from : val -> res A) (ok : A -> bool) (put : B -> A -> A) (get : A -> B) (alike : B -> B -> bool) : Prop :=
  exists o x, ok o = true /\ exists o', write_read to from (put x o) 0 false = Ok o' /\ alike x (get o') = false.
Lemma loss {A B} (to : A -> nat -> bool -> res str) from ok (put : B -> A -> A) get alike o x :
  (ok o && match write_read to from (put x o) 0 false with Ok o' => negb (alike x (get o')) | Err _ => false end) = true ->
  loses to from ok put get alike.
Proof.
  intros H. apply andb_prop in H as [O H]. exists o, x. split; [exact O|].
  destruct (write_read to from (put x o) 0 false) as [o'|]; [|discriminate]. exists o'. split; [reflexivity|]. now apply negb_true_iff.
Qed.
Theorem C54_FpLine_locked_refuted : loses FpLine_to FpLine_from FpLine_ok (fun x o => o <| fl_locked := x |>) fl_locked Bool.eqb.
Proof. apply (loss _ _ _ _ _ _ FpLine_default true). vm_compute. reflexivity. Qed.
Print Assumptions C54_FpLine_locked_refuted.

Theorem C54_GrText_locked_refuted : loses GrText_to GrText_from GrText_ok (fun x o => o <| gt_locked := x |>) gt_locked Bool.eqb.
Proof. apply (loss _ _ _ _ _ _ GrText_default true). vm_compute. reflexivity. Qed.
Print Assumptions C54_GrText_locked_refuted.

Theorem C54_ColorRGBA_precision_refuted : loses ColorRGBA_to ColorRGBA_from ColorRGBA_ok (fun x o => o <| ca_precision := x |>) ca_precision py_eqb.
Proof. apply (loss _ _ _ _ _ _ ColorRGBA_default (VInt 4)). vm_compute. reflexivity. Qed.
Print Assumptions C54_ColorRGBA_precision_refuted.
