(** * C51: what is loaded can be saved and loaded again without loss

    An expression whose values are of the right kinds ([X_typed] in S_Typed.v looks only at the
    expression) is read to an object that, if nothing mandatory is missing ([X_whole]), is written with
    any indentation and read back to an equal object; from then on nothing changes any more.  The
    expression need not come from this library: its items may stand in any order, be repeated, and be
    mixed with unknown ones.  Beside each theorem stands a text that meets the hypotheses. *)
From Coq Require Import String.
From Verif Require Import PyBase PyNum PyStr Sexpr S_Leaf S_Tree S_Fix S_Accept S_Typed L_Typed L_TypedA.
From Verif Require Import M_Common M_Lib M_Sym M_Fp M_Gr M_Zone M_Footprint M_Dim M_Brd M_Board M_Sch M_Schematic M_Wks.
From Verif Require Import S_Common S_Lib S_Sym S_Fp S_Gr S_Zone S_Footprint S_Dim S_Brd S_Board S_Sch S_Schematic S_Wks.
From Verif Require Import L_Common L_Lib L_Sym L_Symbol L_Fp L_Gr L_Zone L_Pad L_Footprint L_Dim L_Brd L_Plot L_Board L_Sch L_Sheet L_Schematic L_Wks.

(** a text that is read, has the right kinds and misses nothing *)
Definition meets {A} (from : val -> res A) (typed : val -> bool) (whole : A -> bool) (t : string) : bool :=
  match parse_sexp (lit t) with
  | Ok v => typed v && match from v with Ok o => whole o | Err _ => false end
  | Err _ => false
  end.
Arguments meets {A} _ _ _ _%string.

Theorem C51_Coordinate : kept Coordinate_to Coordinate_from Coordinate_typed (fun _ => true) Coordinate_eqb.
Proof. exact (kept_ok Coordinate_rt Coordinate_t). Qed.
Print Assumptions C51_Coordinate.
Example C51_Coordinate_case : meets Coordinate_from Coordinate_typed (fun _ => true) "(xyz 2.5 -3 1.0)" = true.
Proof. vm_compute. reflexivity. Qed.

Theorem C51_ColorRGBA : kept ColorRGBA_to ColorRGBA_from ColorRGBA_typed (fun _ => true) ColorRGBA_eqb.
Proof. exact (kept_ok ColorRGBA_rt ColorRGBA_t). Qed.
Print Assumptions C51_ColorRGBA.
Example C51_ColorRGBA_case : meets ColorRGBA_from ColorRGBA_typed (fun _ => true) "(color 255 0 128 0.5)" = true.
Proof. vm_compute. reflexivity. Qed.

Theorem C51_Stroke : kept Stroke_to Stroke_from Stroke_typed (fun _ => true) Stroke_eqb.
Proof. exact (kept_ok Stroke_rt Stroke_t). Qed.
Print Assumptions C51_Stroke.
Example C51_Stroke_case : meets Stroke_from Stroke_typed (fun _ => true) "(stroke (width 0.254) (type dash_dot) (color 255 0 128 0.5))" = true.
Proof. vm_compute. reflexivity. Qed.

Theorem C51_Font : kept Font_to Font_from Font_typed (fun _ => true) Font_eqb.
Proof. exact (kept_ok Font_rt Font_t). Qed.
Print Assumptions C51_Font.
Example C51_Font_case : meets Font_from Font_typed (fun _ => true) "(font (face ""A \""b\"" \c"") (size 1.27 2) (color 255 0 128 0.5) (thickness 0.3) bold italic (line_spacing 1.1))" = true.
Proof. vm_compute. reflexivity. Qed.

Theorem C51_Justify : kept Justify_to Justify_from Justify_typed (fun o => negb (Justify_empty o)) Justify_eqb.
Proof. exact (kept_empty Justify_rt1 Justify_t). Qed.
Print Assumptions C51_Justify.
Example C51_Justify_case : meets Justify_from Justify_typed (fun o => negb (Justify_empty o)) "(justify right top mirror)" = true.
Proof. vm_compute. reflexivity. Qed.

Theorem C51_Effects : kept Effects_to Effects_from Effects_typed (fun _ => true) Effects_eqb.
Proof. exact (kept_ok Effects_rt Effects_t). Qed.
Print Assumptions C51_Effects.
Example C51_Effects_case : meets Effects_from Effects_typed (fun _ => true) "(effects (font (face ""A \""b\"" \c"") (size 1.27 2) (color 255 0 128 0.5) (thickness 0.3) bold italic (line_spacing 1.1)) (justify right top mirror) (href ""https://x.y/(z)"") hide)" = true.
Proof. vm_compute. reflexivity. Qed.

Theorem C51_Net : kept Net_to Net_from Net_typed (fun _ => true) Net_eqb.
Proof. exact (kept_ok Net_rt Net_t). Qed.
Print Assumptions C51_Net.
Example C51_Net_case : meets Net_from Net_typed (fun _ => true) "(net 17 ""Net-(U1-Pad3)"")" = true.
Proof. vm_compute. reflexivity. Qed.

Theorem C51_Group : kept Group_to Group_from Group_typed Group_whole Group_eqb.
Proof. exact (kept_then Group_rt Group_t). Qed.
Print Assumptions C51_Group.
Example C51_Group_case : meets Group_from Group_typed Group_whole "(group ""g \""1\"""" locked (id 6fe2b9d8-0001)
  (members
    0012
    abc-1
  )
)" = true.
Proof. vm_compute. reflexivity. Qed.

Theorem C51_PageSettings : kept PageSettings_to PageSettings_from PageSettings_typed PageSettings_whole PageSettings_eqb.
Proof. exact (kept_then PageSettings_rt PageSettings_t). Qed.
Print Assumptions C51_PageSettings.
Example C51_PageSettings_case : meets PageSettings_from PageSettings_typed PageSettings_whole "(paper ""User"" 210.1 300 portrait)" = true.
Proof. vm_compute. reflexivity. Qed.

Theorem C51_TitleBlock : kept TitleBlock_to TitleBlock_from TitleBlock_typed (fun _ => true) TitleBlock_eqb.
Proof. exact (kept_ok TitleBlock_rt TitleBlock_t). Qed.
Print Assumptions C51_TitleBlock.
Example C51_TitleBlock_case : meets TitleBlock_from TitleBlock_typed (fun _ => true) "(title_block
  (title ""T"")
  (rev ""1.0"")
  (company """")
  (comment 1 ""one"")
  (comment 4 ""four (4)"")
)" = true.
Proof. vm_compute. reflexivity. Qed.

Theorem C51_Property : kept Property_to Property_from Property_typed (fun _ => true) Property_eqb.
Proof. exact (kept_ok Property_rt Property_t). Qed.
Print Assumptions C51_Property.
Example C51_Property_case : meets Property_from Property_typed (fun _ => true) "(property ""Sheet name"" ""a\b\"""" (id 3) (at 1 2.5 90) (show_name)
  (effects (font (face ""A \""b\"" \c"") (size 1.27 2) (color 255 0 128 0.5) (thickness 0.3) bold italic (line_spacing 1.1)) (justify right top mirror) (href ""https://x.y/(z)"") hide)
)" = true.
Proof. vm_compute. reflexivity. Qed.

Theorem C51_RenderCachePolygon : kept RenderCachePolygon_to RenderCachePolygon_from RenderCachePolygon_typed (fun _ => true) RenderCachePolygon_eqb.
Proof. exact (kept_ok RenderCachePolygon_rt RenderCachePolygon_t). Qed.
Print Assumptions C51_RenderCachePolygon.
Example C51_RenderCachePolygon_case : meets RenderCachePolygon_from RenderCachePolygon_typed (fun _ => true) "(polygon
  (pts
    (xy 1 2)    (xy 1.5 2)    (xy 0 -7)    (xy 0 0)
    (xy 9 9)
  )
)" = true.
Proof. vm_compute. reflexivity. Qed.

Theorem C51_RenderCache : kept RenderCache_to RenderCache_from RenderCache_typed RenderCache_whole RenderCache_eqb.
Proof. exact (kept_then RenderCache_rt RenderCache_t). Qed.
Print Assumptions C51_RenderCache.
Example C51_RenderCache_case : meets RenderCache_from RenderCache_typed RenderCache_whole "(render_cache ""some text"" 0
  (polygon
    (pts
      (xy 1 2)      (xy 1.5 2)      (xy 0 -7)      (xy 0 0)
      (xy 9 9)
    )
  )
  (polygon
    (pts
    )
  )
)" = true.
Proof. vm_compute. reflexivity. Qed.

Theorem C51_Fill : kept Fill_to Fill_from Fill_typed (fun _ => true) Fill_eqb.
Proof. exact (kept_ok Fill_rt Fill_t). Qed.
Print Assumptions C51_Fill.
Example C51_Fill_case : meets Fill_from Fill_typed (fun _ => true) "(fill (type background) (color 255 0 128 0.5))" = true.
Proof. vm_compute. reflexivity. Qed.

Theorem C51_Image : kept Image_to Image_from Image_typed (fun _ => true) Image_eqb.
Proof. exact (kept_ok Image_rt Image_t). Qed.
Print Assumptions C51_Image.
Example C51_Image_case : meets Image_from Image_typed (fun _ => true) "(image (at 12.34 5) (layer ""F.SilkS"") (scale 0.5)
  (uuid a-b-c)
  (data
    iVBORw0KGgo=
    12
  )
)" = true.
Proof. vm_compute. reflexivity. Qed.

Theorem C51_Library : kept Library_to Library_from Library_typed (fun _ => true) Library_eqb.
Proof. exact (kept_ok Library_rt Library_t). Qed.
Print Assumptions C51_Library.
Example C51_Library_case : meets Library_from Library_typed (fun _ => true) "(lib (name ""MCU \""ST\"""")(type ""KiCad"")(uri ""${KIPRJMOD}/a (b).kicad_sym"")(options """")(descr ""x"")(disabled))" = true.
Proof. vm_compute. reflexivity. Qed.

Theorem C51_LibTable : kept LibTable_to LibTable_from LibTable_typed (fun _ => true) LibTable_eqb.
Proof. exact (kept_ok LibTable_rt LibTable_t). Qed.
Print Assumptions C51_LibTable.
Example C51_LibTable_case : meets LibTable_from LibTable_typed (fun _ => true) "(fp_lib_table
  (lib (name ""MCU \""ST\"""")(type ""KiCad"")(uri ""${KIPRJMOD}/a (b).kicad_sym"")(options """")(descr ""x""))
  (lib (name ""MCU \""ST\"""")(type ""KiCad"")(uri ""${KIPRJMOD}/a (b).kicad_sym"")(options """")(descr ""x"")(disabled))
  (lib (name """")(type ""KiCad"")(uri """")(options """")(descr """"))
)" = true.
Proof. vm_compute. reflexivity. Qed.

Theorem C51_Constraint : kept Constraint_to Constraint_from Constraint_typed (fun _ => true) Constraint_eqb.
Proof. exact (kept_ok Constraint_rt Constraint_t). Qed.
Print Assumptions C51_Constraint.
Example C51_Constraint_case : meets Constraint_from Constraint_typed (fun _ => true) "(constraint disallow (min ""0.2mm"") (max ""1 mm"") track via)" = true.
Proof. vm_compute. reflexivity. Qed.

Theorem C51_Rule : kept Rule_to Rule_from Rule_typed (fun _ => true) Rule_eqb.
Proof. exact (kept_ok Rule_rt Rule_t). Qed.
Print Assumptions C51_Rule.
Example C51_Rule_case : meets Rule_from Rule_typed (fun _ => true) "(rule ""HV \""1\""""
  (layer ""outer"")
  (constraint disallow (min ""0.2mm"") (max ""1 mm"") track via)
  (constraint clearance)
  (condition ""A.NetClass == 'HV'"")
  (severity warning))
" = true.
Proof. vm_compute. reflexivity. Qed.

Theorem C51_DesignRules : kept DesignRules_file DesignRules_from DesignRules_typed (fun _ => true) DesignRules_eqb.
Proof. exact (kept_ok DesignRules_rt DesignRules_t). Qed.
Print Assumptions C51_DesignRules.
Example C51_DesignRules_case : meets DesignRules_from DesignRules_typed (fun _ => true) "((version 1)

(rule ""HV \""1\""""
  (layer ""outer"")
  (constraint disallow (min ""0.2mm"") (max ""1 mm"") track via)
  (constraint clearance)
  (condition ""A.NetClass == 'HV'"")
  (severity warning))
(rule ""HV \""1\""""
  (layer ""outer"")
  (constraint disallow (min ""0.2mm"") (max ""1 mm"") track via)
  (constraint clearance)
  (condition ""A.NetClass == 'HV'"")
  (severity warning))
(rule """"
  (condition """"))
)" = true.
Proof. vm_compute. reflexivity. Qed.

Theorem C51_SyArc : kept SyArc_to SyArc_from SyArc_typed (fun _ => true) SyArc_eqb.
Proof. exact (kept_ok SyArc_rt SyArc_t). Qed.
Print Assumptions C51_SyArc.
Example C51_SyArc_case : meets SyArc_from SyArc_typed (fun _ => true) "(arc private (start 1 2.5 90) (mid 2 3) (end -2 3)
  (stroke (width 0.254) (type dash_dot) (color 255 0 128 0.5))
  (fill (type color) (color 255 0 128 0.5))
)" = true.
Proof. vm_compute. reflexivity. Qed.

Theorem C51_SyCircle : kept SyCircle_to SyCircle_from SyCircle_typed (fun _ => true) SyCircle_eqb.
Proof. exact (kept_ok SyCircle_rt SyCircle_t). Qed.
Print Assumptions C51_SyCircle.
Example C51_SyCircle_case : meets SyCircle_from SyCircle_typed (fun _ => true) "(circle private (center 2 3) (radius 2.5)
  (stroke (width 0.254) (type dash_dot) (color 255 0 128 0.5))
  (fill (type color) (color 255 0 128 0.5))
)" = true.
Proof. vm_compute. reflexivity. Qed.

Theorem C51_SyPolyLine : kept SyPolyLine_to SyPolyLine_from SyPolyLine_typed (fun _ => true) SyPolyLine_eqb.
Proof. exact (kept_ok SyPolyLine_rt SyPolyLine_t). Qed.
Print Assumptions C51_SyPolyLine.
Example C51_SyPolyLine_case : meets SyPolyLine_from SyPolyLine_typed (fun _ => true) "(polyline
  (pts
    (xy 2 3)
    (xy 0.1 0)
    (xy 2 3)
  )
  (stroke (width 0.254) (type dash_dot) (color 255 0 128 0.5))
  (fill (type color) (color 255 0 128 0.5))
)" = true.
Proof. vm_compute. reflexivity. Qed.

Theorem C51_SyRect : kept SyRect_to SyRect_from SyRect_typed (fun _ => true) SyRect_eqb.
Proof. exact (kept_ok SyRect_rt SyRect_t). Qed.
Print Assumptions C51_SyRect.
Example C51_SyRect_case : meets SyRect_from SyRect_typed (fun _ => true) "(rectangle private (start 2 3) (end 2 -0.3)
  (stroke (width 0.254) (type dash_dot) (color 255 0 128 0.5))
  (fill (type color) (color 255 0 128 0.5))
)" = true.
Proof. vm_compute. reflexivity. Qed.

Theorem C51_SyText : kept SyText_to SyText_from SyText_typed (fun _ => true) SyText_eqb.
Proof. exact (kept_ok SyText_rt SyText_t). Qed.
Print Assumptions C51_SyText.
Example C51_SyText_case : meets SyText_from SyText_typed (fun _ => true) "(text ""a \""(b)\"" \ c"" (at 2 3 900)
  (effects (font (face ""A \""b\"" \c"") (size 1.27 2) (color 255 0 128 0.5) (thickness 0.3) bold italic (line_spacing 1.1)) (justify right top mirror) (href ""https://x.y/(z)"") hide)
)" = true.
Proof. vm_compute. reflexivity. Qed.

Theorem C51_SyTextBox : kept SyTextBox_to SyTextBox_from SyTextBox_typed (fun _ => true) SyTextBox_eqb.
Proof. exact (kept_ok SyTextBox_rt SyTextBox_t). Qed.
Print Assumptions C51_SyTextBox.
Example C51_SyTextBox_case : meets SyTextBox_from SyTextBox_typed (fun _ => true) "(text_box private ""private""
  (at 2 3 90) (size 2 3)
  (stroke (width 0.254) (type dash_dot) (color 255 0 128 0.5))
  (fill (type color) (color 255 0 128 0.5))
  (effects (font (face ""A \""b\"" \c"") (size 1.27 2) (color 255 0 128 0.5) (thickness 0.3) bold italic (line_spacing 1.1)) (justify right top mirror) (href ""https://x.y/(z)"") hide)
  (uuid a-1)
)" = true.
Proof. vm_compute. reflexivity. Qed.

Theorem C51_SymbolAlternativePin : kept SymbolAlternativePin_to SymbolAlternativePin_from SymbolAlternativePin_typed (fun _ => true) SymbolAlternativePin_eqb.
Proof. exact (kept_ok SymbolAlternativePin_rt SymbolAlternativePin_t). Qed.
Print Assumptions C51_SymbolAlternativePin.
Example C51_SymbolAlternativePin_case : meets SymbolAlternativePin_from SymbolAlternativePin_typed (fun _ => true) "(alternate ""PA 0"" bidirectional inverted)" = true.
Proof. vm_compute. reflexivity. Qed.

Theorem C51_SymbolPin : kept SymbolPin_to SymbolPin_from SymbolPin_typed (fun _ => true) SymbolPin_eqb.
Proof. exact (kept_ok SymbolPin_rt SymbolPin_t). Qed.
Print Assumptions C51_SymbolPin.
Example C51_SymbolPin_case : meets SymbolPin_from SymbolPin_typed (fun _ => true) "(pin power_in line (at 2 3 90) (length 2.54) hide
  (name ""~{RST}"" (effects (font (face ""A \""b\"" \c"") (size 1.27 2) (color 255 0 128 0.5) (thickness 0.3) bold italic (line_spacing 1.1)) (justify right top mirror) (href ""https://x.y/(z)"") hide))
  (number ""12"")
  (alternate """" input line)
  (alternate """" input line)
)" = true.
Proof. vm_compute. reflexivity. Qed.

Theorem C51_SymbolLib : kept SymbolLib_to SymbolLib_from SymbolLib_typed SymbolLib_whole SymbolLib_eqb.
Proof. exact (kept_then SymbolLib_rt SymbolLib_t). Qed.
Print Assumptions C51_SymbolLib.
Example C51_SymbolLib_case : meets SymbolLib_from SymbolLib_typed SymbolLib_whole "(kicad_symbol_lib (version 20211014) (generator kicad_symbol_editor)
  (symbol ""Amplifier:LM 358"" (extends ""LM \""X\"""") (power) (pin_numbers hide) (pin_names (offset 0.5) hide) (in_bom yes) (on_board no)
    (property ""Sheet name"" ""a\b\"""" (id 3) (at 1 2.5 90) (show_name)
      (effects (font (face ""A \""b\"" \c"") (size 1.27 2) (color 255 0 128 0.5) (thickness 0.3) bold italic (line_spacing 1.1)) (justify right top mirror) (href ""https://x.y/(z)"") hide)
    )
    (property ""Sheet name"" ""a\b\"""" (id 3) (at 1 2.5 90) (show_name)
      (effects (font (face ""A \""b\"" \c"") (size 1.27 2) (color 255 0 128 0.5) (thickness 0.3) bold italic (line_spacing 1.1)) (justify right top mirror) (href ""https://x.y/(z)"") hide)
    )
    (circle (center 0.0 0.0) (radius 0.0)
      (stroke (width 0.0))
      (fill (type none))
    )
    (text """" (at 0.0 0.0)
      (effects (font (size 1.0 1.0)))
    )
    (pin power_in line (at 2 3 90) (length 2.54) hide
      (name ""~{RST}"" (effects (font (face ""A \""b\"" \c"") (size 1.27 2) (color 255 0 128 0.5) (thickness 0.3) bold italic (line_spacing 1.1)) (justify right top mirror) (href ""https://x.y/(z)"") hide))
      (number ""12"")
      (alternate """" input line)
      (alternate """" input line)
    )
    (pin input line (at 0.0 0.0) (length 0.254) (name """") (number ""0""))
    (symbol ""LM 358_0_1""
      (rectangle (start 0.0 0.0) (end 0.0 0.0)
        (stroke (width 0.0))
        (fill (type none))
      )
      (arc (start 0.0 0.0) (mid 0.0 0.0) (end 0.0 0.0)
        (stroke (width 0.0))
        (fill (type none))
      )
      (pin power_in line (at 2 3 90) (length 2.54) hide
        (name ""~{RST}"" (effects (font (face ""A \""b\"" \c"") (size 1.27 2) (color 255 0 128 0.5) (thickness 0.3) bold italic (line_spacing 1.1)) (justify right top mirror) (href ""https://x.y/(z)"") hide))
        (number ""12"")
        (alternate """" input line)
        (alternate """" input line)
      )
    )
    (symbol ""LM 358_1_1""
      (rectangle (start 0.0 0.0) (end 0.0 0.0)
        (stroke (width 0.0))
        (fill (type none))
      )
      (arc (start 0.0 0.0) (mid 0.0 0.0) (end 0.0 0.0)
        (stroke (width 0.0))
        (fill (type none))
      )
      (pin power_in line (at 2 3 90) (length 2.54) hide
        (name ""~{RST}"" (effects (font (face ""A \""b\"" \c"") (size 1.27 2) (color 255 0 128 0.5) (thickness 0.3) bold italic (line_spacing 1.1)) (justify right top mirror) (href ""https://x.y/(z)"") hide))
        (number ""12"")
        (alternate """" input line)
        (alternate """" input line)
      )
      (symbol ""LM 358_7_1""
        (rectangle (start 0.0 0.0) (end 0.0 0.0)
          (stroke (width 0.0))
          (fill (type none))
        )
        (arc (start 0.0 0.0) (mid 0.0 0.0) (end 0.0 0.0)
          (stroke (width 0.0))
          (fill (type none))
        )
        (pin power_in line (at 2 3 90) (length 2.54) hide
          (name ""~{RST}"" (effects (font (face ""A \""b\"" \c"") (size 1.27 2) (color 255 0 128 0.5) (thickness 0.3) bold italic (line_spacing 1.1)) (justify right top mirror) (href ""https://x.y/(z)"") hide))
          (number ""12"")
          (alternate """" input line)
          (alternate """" input line)
        )
      )
      (symbol ""LM 358_8_1""
        (rectangle (start 0.0 0.0) (end 0.0 0.0)
          (stroke (width 0.0))
          (fill (type none))
        )
        (arc (start 0.0 0.0) (mid 0.0 0.0) (end 0.0 0.0)
          (stroke (width 0.0))
          (fill (type none))
        )
        (pin power_in line (at 2 3 90) (length 2.54) hide
          (name ""~{RST}"" (effects (font (face ""A \""b\"" \c"") (size 1.27 2) (color 255 0 128 0.5) (thickness 0.3) bold italic (line_spacing 1.1)) (justify right top mirror) (href ""https://x.y/(z)"") hide))
          (number ""12"")
          (alternate """" input line)
          (alternate """" input line)
        )
      )
    )
  )
  (symbol ""LM 358_3_1""
    (rectangle (start 0.0 0.0) (end 0.0 0.0)
      (stroke (width 0.0))
      (fill (type none))
    )
    (arc (start 0.0 0.0) (mid 0.0 0.0) (end 0.0 0.0)
      (stroke (width 0.0))
      (fill (type none))
    )
    (pin power_in line (at 2 3 90) (length 2.54) hide
      (name ""~{RST}"" (effects (font (face ""A \""b\"" \c"") (size 1.27 2) (color 255 0 128 0.5) (thickness 0.3) bold italic (line_spacing 1.1)) (justify right top mirror) (href ""https://x.y/(z)"") hide))
      (number ""12"")
      (alternate """" input line)
      (alternate """" input line)
    )
  )
)" = true.
Proof. vm_compute. reflexivity. Qed.

Theorem C51_FpText : kept FpText_to FpText_from FpText_typed FpText_whole FpText_eqb.
Proof. exact (kept_then FpText_rt FpText_t). Qed.
Print Assumptions C51_FpText.
Example C51_FpText_case : meets FpText_from FpText_typed FpText_whole "(fp_text user ""a \""(b)\"" \ c"" (at 1 2.5 90 unlocked) (layer ""F.SilkS"" knockout) hide
  (effects (font (face ""A \""b\"" \c"") (size 1.27 2) (color 255 0 128 0.5) (thickness 0.3) bold italic (line_spacing 1.1)) (justify right top mirror) (href ""https://x.y/(z)"") hide)
  (tstamp 7c2f5ab1-44ff-4a1c-b96d-28f9f3a0fd1e)
  (render_cache ""ab\""c"" 0
    (polygon
      (pts
        (xy 1 2)        (xy 1.5 2)        (xy 0 -7)        (xy 0 0)
        (xy 9 9)
      )
    )
  )
)" = true.
Proof. vm_compute. reflexivity. Qed.

Theorem C51_FpLine : kept FpLine_to FpLine_from FpLine_typed FpLine_whole FpLine_eqb.
Proof. exact (kept_then FpLine_rt FpLine_t). Qed.
Print Assumptions C51_FpLine.
Example C51_FpLine_case : meets FpLine_from FpLine_typed FpLine_whole "(fp_line (start 2 3) (end 2 0.001) (layer ""F.Fab"") (stroke (width 0.254) (type dash_dot) (color 255 0 128 0.5)) (tstamp 7c2f5ab1-44ff-4a1c-b96d-28f9f3a0fd1e))" = true.
Proof. vm_compute. reflexivity. Qed.

Theorem C51_FpRect : kept FpRect_to FpRect_from FpRect_typed FpRect_whole FpRect_eqb.
Proof. exact (kept_then FpRect_rt FpRect_t). Qed.
Print Assumptions C51_FpRect.
Example C51_FpRect_case : meets FpRect_from FpRect_typed FpRect_whole "(fp_rect (start 2 3) (end 2 0.001) (layer ""F.Fab"") (width 0.15) (fill solid) locked (tstamp 7c2f5ab1-44ff-4a1c-b96d-28f9f3a0fd1e))" = true.
Proof. vm_compute. reflexivity. Qed.

Theorem C51_FpCircle : kept FpCircle_to FpCircle_from FpCircle_typed FpCircle_whole FpCircle_eqb.
Proof. exact (kept_then FpCircle_rt FpCircle_t). Qed.
Print Assumptions C51_FpCircle.
Example C51_FpCircle_case : meets FpCircle_from FpCircle_typed FpCircle_whole "(fp_circle (center 2 3) (end 2 0.001) (layer ""F.Fab"") (stroke (width 0.254) (type dash_dot) (color 255 0 128 0.5)) (fill solid) locked (tstamp 7c2f5ab1-44ff-4a1c-b96d-28f9f3a0fd1e))" = true.
Proof. vm_compute. reflexivity. Qed.

Theorem C51_FpArc : kept FpArc_to FpArc_from FpArc_typed FpArc_whole FpArc_eqb.
Proof. exact (kept_then FpArc_rt FpArc_t). Qed.
Print Assumptions C51_FpArc.
Example C51_FpArc_case : meets FpArc_from FpArc_typed FpArc_whole "(fp_arc (start 2 3) (mid 5 3) (end 2 0.001) (layer ""F.Fab"") (stroke (width 0.254) (type dash_dot) (color 255 0 128 0.5)) locked (tstamp 7c2f5ab1-44ff-4a1c-b96d-28f9f3a0fd1e))" = true.
Proof. vm_compute. reflexivity. Qed.

Theorem C51_FpPoly : kept FpPoly_to FpPoly_from FpPoly_typed FpPoly_whole FpPoly_eqb.
Proof. exact (kept_then FpPoly_rt FpPoly_t). Qed.
Print Assumptions C51_FpPoly.
Example C51_FpPoly_case : meets FpPoly_from FpPoly_typed FpPoly_whole "(fp_poly (pts
    (xy 2 3)
    (xy 0.1 0)
    (xy 2 3)
    (xy -1.5 7)
  ) (layer ""F.Fab"") (stroke (width 0.254) (type dash_dot) (color 255 0 128 0.5)) (fill solid) locked (tstamp 7c2f5ab1-44ff-4a1c-b96d-28f9f3a0fd1e))" = true.
Proof. vm_compute. reflexivity. Qed.

Theorem C51_FpCurve : kept FpCurve_to FpCurve_from FpCurve_typed FpCurve_whole FpCurve_eqb.
Proof. exact (kept_then FpCurve_rt FpCurve_t). Qed.
Print Assumptions C51_FpCurve.
Example C51_FpCurve_case : meets FpCurve_from FpCurve_typed FpCurve_whole "(fp_curve (pts
  (xy 2 3)
  (xy 0.1 0)
  (xy 2 3)
  (xy -1.5 7)
) (layer ""F.Fab"") (width 0.15) locked (tstamp 7c2f5ab1-44ff-4a1c-b96d-28f9f3a0fd1e))" = true.
Proof. vm_compute. reflexivity. Qed.

Theorem C51_FpTextBox : kept FpTextBox_to FpTextBox_from FpTextBox_typed FpTextBox_whole FpTextBox_eqb.
Proof. exact (kept_then FpTextBox_rt FpTextBox_t). Qed.
Print Assumptions C51_FpTextBox.
Example C51_FpTextBox_case : meets FpTextBox_from FpTextBox_typed FpTextBox_whole "(fp_text_box locked ""locked""
  (pts
    (xy 2 3)      (xy 0.1 0)      (xy 2 3)      (xy -1.5 7)
  )
  (angle 45.5) (layer ""F.Fab"") (tstamp 7c2f5ab1-44ff-4a1c-b96d-28f9f3a0fd1e)
  (effects (font (face ""A \""b\"" \c"") (size 1.27 2) (color 255 0 128 0.5) (thickness 0.3) bold italic (line_spacing 1.1)) (justify right top mirror) (href ""https://x.y/(z)"") hide)
  (stroke (width 0.254) (type dash_dot) (color 255 0 128 0.5))
  (render_cache ""ab\""c"" 0
    (polygon
      (pts
        (xy 1 2)        (xy 1.5 2)        (xy 0 -7)        (xy 0 0)
        (xy 9 9)
      )
    )
  )
)" = true.
Proof. vm_compute. reflexivity. Qed.

Theorem C51_GrText : kept GrText_to GrText_from GrText_typed GrText_whole GrText_eqb.
Proof. exact (kept_then GrText_rt GrText_t). Qed.
Print Assumptions C51_GrText.
Example C51_GrText_case : meets GrText_from GrText_typed GrText_whole "(gr_text ""a \""(b)\"" \ c"" (at 1 2.5 90) (layer ""F.SilkS"" knockout) (tstamp 7c2f5ab1-44ff-4a1c-b96d-28f9f3a0fd1e)
  (effects (font (face ""A \""b\"" \c"") (size 1.27 2) (color 255 0 128 0.5) (thickness 0.3) bold italic (line_spacing 1.1)) (justify right top mirror) (href ""https://x.y/(z)"") hide)
  (render_cache ""ab\""c"" 0
    (polygon
      (pts
        (xy 1 2)        (xy 1.5 2)        (xy 0 -7)        (xy 0 0)
        (xy 9 9)
      )
    )
  )
)" = true.
Proof. vm_compute. reflexivity. Qed.

Theorem C51_GrLine : kept GrLine_to GrLine_from GrLine_typed (fun _ => true) GrLine_eqb.
Proof. exact (kept_ok GrLine_rt GrLine_t). Qed.
Print Assumptions C51_GrLine.
Example C51_GrLine_case : meets GrLine_from GrLine_typed (fun _ => true) "(gr_line locked (start 2 3) (end 2 0.001) (layer ""F.Fab"") (width 1) (tstamp 7c2f5ab1-44ff-4a1c-b96d-28f9f3a0fd1e))" = true.
Proof. vm_compute. reflexivity. Qed.

Theorem C51_GrRect : kept GrRect_to GrRect_from GrRect_typed (fun _ => true) GrRect_eqb.
Proof. exact (kept_ok GrRect_rt GrRect_t). Qed.
Print Assumptions C51_GrRect.
Example C51_GrRect_case : meets GrRect_from GrRect_typed (fun _ => true) "(gr_rect locked (start 2 3) (end 2 0.001) (layer ""F.Fab"") (width 0.15) (fill solid) (tstamp 7c2f5ab1-44ff-4a1c-b96d-28f9f3a0fd1e))" = true.
Proof. vm_compute. reflexivity. Qed.

Theorem C51_GrCircle : kept GrCircle_to GrCircle_from GrCircle_typed (fun _ => true) GrCircle_eqb.
Proof. exact (kept_ok GrCircle_rt GrCircle_t). Qed.
Print Assumptions C51_GrCircle.
Example C51_GrCircle_case : meets GrCircle_from GrCircle_typed (fun _ => true) "(gr_circle locked (center 2 3) (end 2 0.001) (layer ""F.Fab"") (width 0.15) (fill solid) (tstamp 7c2f5ab1-44ff-4a1c-b96d-28f9f3a0fd1e))" = true.
Proof. vm_compute. reflexivity. Qed.

Theorem C51_GrArc : kept GrArc_to GrArc_from GrArc_typed (fun _ => true) GrArc_eqb.
Proof. exact (kept_ok GrArc_rt GrArc_t). Qed.
Print Assumptions C51_GrArc.
Example C51_GrArc_case : meets GrArc_from GrArc_typed (fun _ => true) "(gr_arc locked (start 2 3) (mid 5 3) (end 2 0.001) (layer ""F.Fab"") (width 0.15) (tstamp 7c2f5ab1-44ff-4a1c-b96d-28f9f3a0fd1e))" = true.
Proof. vm_compute. reflexivity. Qed.

Theorem C51_GrPoly : kept GrPoly_to GrPoly_from GrPoly_typed GrPoly_whole GrPoly_eqb.
Proof. exact (kept_then GrPoly_rt GrPoly_t). Qed.
Print Assumptions C51_GrPoly.
Example C51_GrPoly_case : meets GrPoly_from GrPoly_typed GrPoly_whole "(gr_poly locked (pts
    (xy 2 3)
    (xy 0.1 0)
    (xy 2 3)
    (xy -1.5 7)
  ) (layer ""F.Fab"") (width 0.15) (fill solid) (tstamp 7c2f5ab1-44ff-4a1c-b96d-28f9f3a0fd1e))" = true.
Proof. vm_compute. reflexivity. Qed.

Theorem C51_GrCurve : kept GrCurve_to GrCurve_from GrCurve_typed GrCurve_whole GrCurve_eqb.
Proof. exact (kept_then GrCurve_rt GrCurve_t). Qed.
Print Assumptions C51_GrCurve.
Example C51_GrCurve_case : meets GrCurve_from GrCurve_typed GrCurve_whole "(gr_curve locked (pts
  (xy 2 3)
  (xy 0.1 0)
  (xy 2 3)
  (xy -1.5 7)
) (width 0.15) (tstamp 7c2f5ab1-44ff-4a1c-b96d-28f9f3a0fd1e))" = true.
Proof. vm_compute. reflexivity. Qed.

Theorem C51_GrTextBox : kept GrTextBox_to GrTextBox_from GrTextBox_typed GrTextBox_whole GrTextBox_eqb.
Proof. exact (kept_then GrTextBox_rt GrTextBox_t). Qed.
Print Assumptions C51_GrTextBox.
Example C51_GrTextBox_case : meets GrTextBox_from GrTextBox_typed GrTextBox_whole "(gr_text_box locked ""locked""
  (pts
    (xy 2 3)        (xy 0.1 0)        (xy 2 3)        (xy -1.5 7)
  )
  (angle 45.5) (layer ""F.Fab"") (tstamp 7c2f5ab1-44ff-4a1c-b96d-28f9f3a0fd1e)
  (effects (font (face ""A \""b\"" \c"") (size 1.27 2) (color 255 0 128 0.5) (thickness 0.3) bold italic (line_spacing 1.1)) (justify right top mirror) (href ""https://x.y/(z)"") hide)
  (stroke (width 0.254) (type dash_dot) (color 255 0 128 0.5))
  (render_cache ""ab\""c"" 0
    (polygon
      (pts
        (xy 1 2)        (xy 1.5 2)        (xy 0 -7)        (xy 0 0)
        (xy 9 9)
      )
    )
  )
)" = true.
Proof. vm_compute. reflexivity. Qed.

Theorem C51_KeepoutSettings : kept KeepoutSettings_to KeepoutSettings_from KeepoutSettings_typed (fun _ => true) KeepoutSettings_eqb.
Proof. exact (kept_ok KeepoutSettings_rt KeepoutSettings_t). Qed.
Print Assumptions C51_KeepoutSettings.
Example C51_KeepoutSettings_case : meets KeepoutSettings_from KeepoutSettings_typed (fun _ => true) "(keepout (tracks allowed) (vias not_allowed) (pads allowed ) (copperpour not-allowed) (footprints not-allowed))" = true.
Proof. vm_compute. reflexivity. Qed.

Theorem C51_FillSettings : kept FillSettings_to FillSettings_from FillSettings_typed FillSettings_whole FillSettings_eqb.
Proof. exact (kept_then FillSettings_rt FillSettings_t). Qed.
Print Assumptions C51_FillSettings.
Example C51_FillSettings_case : meets FillSettings_from FillSettings_typed FillSettings_whole "(fill yes (mode hatch) (thermal_gap 0.5) (thermal_bridge_width 0.508) (smoothing chamfer) (radius 1) (island_removal_mode 2) (island_area_min 10)
  (hatch_thickness 1) (hatch_gap 1.5) (hatch_orientation 45)
  (hatch_smoothing_level 1) (hatch_smoothing_value 0.1)
  (hatch_border_algorithm 0) (hatch_min_hole_area 0.3))" = true.
Proof. vm_compute. reflexivity. Qed.

Theorem C51_ZonePolygon : kept ZonePolygon_to ZonePolygon_from ZonePolygon_typed ZonePolygon_whole ZonePolygon_eqb.
Proof. exact (kept_then ZonePolygon_rt ZonePolygon_t). Qed.
Print Assumptions C51_ZonePolygon.
Example C51_ZonePolygon_case : meets ZonePolygon_from ZonePolygon_typed ZonePolygon_whole "(polygon
  (pts
    (xy 2 3)
    (xy 0.1 0)
    (xy 2 3)
    (xy -1.5 7)
  )
)
" = true.
Proof. vm_compute. reflexivity. Qed.

Theorem C51_FilledPolygon : kept FilledPolygon_to FilledPolygon_from FilledPolygon_typed FilledPolygon_whole FilledPolygon_eqb.
Proof. exact (kept_then FilledPolygon_rt FilledPolygon_t). Qed.
Print Assumptions C51_FilledPolygon.
Example C51_FilledPolygon_case : meets FilledPolygon_from FilledPolygon_typed FilledPolygon_whole "(filled_polygon
  (layer ""In1.Cu"")
  (island)
  (pts
    (xy 2 3)
    (xy 0.1 0)
    (xy 2 3)
    (xy -1.5 7)
  )
)
" = true.
Proof. vm_compute. reflexivity. Qed.

Theorem C51_FillSegments : kept FillSegments_to FillSegments_from FillSegments_typed FillSegments_whole FillSegments_eqb.
Proof. exact (kept_then FillSegments_rt FillSegments_t). Qed.
Print Assumptions C51_FillSegments.
Example C51_FillSegments_case : meets FillSegments_from FillSegments_typed FillSegments_whole "(fill_segments
  (layer ""In1.Cu"")
  (pts
    (xy 2 3)
    (xy 0.1 0)
    (xy 2 3)
    (xy -1.5 7)
  )
)
" = true.
Proof. vm_compute. reflexivity. Qed.

Theorem C51_Zone : kept Zone_to Zone_from Zone_typed Zone_whole Zone_eqb.
Proof. exact (kept_then Zone_rt Zone_t). Qed.
Print Assumptions C51_Zone.
Example C51_Zone_case : meets Zone_from Zone_typed Zone_whole "(zone locked (net 12) (net_name ""Net \""(1)\"""") (layers ""F.Cu"" ""B.Cu"") (tstamp 7c2f5ab1-44ff-4a1c-b96d-28f9f3a0fd1e) (name ""my zone"") (hatch edge 0.508)
  (priority 3)
  (connect_pads thru_hole_only (clearance 0.2))
  (min_thickness 0.254) (filled_areas_thickness no)
  (keepout (tracks allowed) (vias not_allowed) (pads allowed ) (copperpour not-allowed) (footprints not-allowed))
  (fill yes (mode hatch) (thermal_gap 0.5) (thermal_bridge_width 0.508) (smoothing chamfer) (radius 1) (island_removal_mode 2) (island_area_min 10)
    (hatch_thickness 1) (hatch_gap 1.5) (hatch_orientation 45)
    (hatch_smoothing_level 1) (hatch_smoothing_value 0.1)
    (hatch_border_algorithm 0) (hatch_min_hole_area 0.3))
  (polygon
    (pts
      (xy 2 3)
      (xy 0.1 0)
      (xy 2 3)
      (xy -1.5 7)
    )
  )
  (polygon
    (pts
      (xy 1 2)
    )
  )
  (filled_polygon
    (layer ""F.Cu"")
    (island)
    (pts
      (xy 2 3)
      (xy 0.1 0)
      (xy 2 3)
      (xy -1.5 7)
    )
  )
    (fill_segments
      (layer ""B.Cu"")
      (pts
        (xy 2 3)
        (xy 0.1 0)
        (xy 2 3)
        (xy -1.5 7)
      )
    )
)" = true.
Proof. vm_compute. reflexivity. Qed.

Theorem C51_Attributes : kept Attributes_to Attributes_from Attributes_typed (fun o => negb (Attributes_empty o)) Attributes_eqb.
Proof. exact (kept_empty Attributes_rt1 Attributes_t). Qed.
Print Assumptions C51_Attributes.
Example C51_Attributes_case : meets Attributes_from Attributes_typed (fun o => negb (Attributes_empty o)) "(attr smd exclude_from_pos_files exclude_from_bom)" = true.
Proof. vm_compute. reflexivity. Qed.

Theorem C51_Model : kept Model_to Model_from Model_typed (fun _ => true) Model_eqb.
Proof. exact (kept_ok Model_rt Model_t). Qed.
Print Assumptions C51_Model.
Example C51_Model_case : meets Model_from Model_typed (fun _ => true) "(model ""${KICAD6_3DMODEL_DIR}/a \""b\"".wrl"" hide
  (opacity 0.5)
  (offset (xyz 2.5 -3 1.0))
  (scale (xyz 1 1 0.1))
  (rotate (xyz 0 90 0))
)" = true.
Proof. vm_compute. reflexivity. Qed.

Theorem C51_DrillDefinition : kept DrillDefinition_to DrillDefinition_from DrillDefinition_typed DrillDefinition_whole DrillDefinition_eqb.
Proof. exact (kept_then DrillDefinition_rt DrillDefinition_t). Qed.
Print Assumptions C51_DrillDefinition.
Example C51_DrillDefinition_case : meets DrillDefinition_from DrillDefinition_typed DrillDefinition_whole "(drill oval 0.8 2 (offset 1 0.5))" = true.
Proof. vm_compute. reflexivity. Qed.

Theorem C51_PadOptions : kept PadOptions_to PadOptions_from PadOptions_typed (fun _ => true) PadOptions_eqb.
Proof. exact (kept_ok PadOptions_rt PadOptions_t). Qed.
Print Assumptions C51_PadOptions.
Example C51_PadOptions_case : meets PadOptions_from PadOptions_typed (fun _ => true) "(options (clearance convexhull) (anchor circle))" = true.
Proof. vm_compute. reflexivity. Qed.

Theorem C51_Pad : kept Pad_to Pad_from Pad_typed Pad_whole Pad_eqb.
Proof. exact (kept_then Pad_rt Pad_t). Qed.
Print Assumptions C51_Pad.
Example C51_Pad_case : meets Pad_from Pad_typed Pad_whole "(pad ""A \""1\"""" thru_hole custom locked (at 1 2.5 90) (size 1 2) (drill oval 0.8 2 (offset 1 0.5)) (property pad_prop_bga) (layers *.Cu ""F.Mask"" F&B.Paste ""In1 (x)"") (remove_unused_layers) (keep_end_layers) (roundrect_rratio 0.25)
  (chamfer_ratio 0.1) (chamfer top_left bottom_right)
  (die_length 3)
  (net 17 ""Net-(U1-Pad3)"") (pinfunction ""fn"") (pintype ""bidirectional+no_connect"") (solder_mask_margin 0.1) (solder_paste_margin 0.2) (solder_paste_margin_ratio 0.3) (clearance 0.4) (zone_connect 2) (thermal_width 0.5) (thermal_gap 0.6)
  (options (clearance convexhull) (anchor circle))
  (primitives
    (gr_text ""a \""(b)\"" \ c"" (at 1 2.5 90) (layer ""F.SilkS"" knockout) (tstamp 7c2f5ab1-44ff-4a1c-b96d-28f9f3a0fd1e)
      (effects (font (face ""A \""b\"" \c"") (size 1.27 2) (color 255 0 128 0.5) (thickness 0.3) bold italic (line_spacing 1.1)) (justify right top mirror) (href ""https://x.y/(z)"") hide)
      (render_cache ""ab\""c"" 0
        (polygon
          (pts
            (xy 1 2)            (xy 1.5 2)            (xy 0 -7)            (xy 0 0)
            (xy 9 9)
          )
        )
      )
    )
    (gr_line locked (start 2 3) (end 2 0.001) (layer ""F.Fab"") (width 1) (tstamp 7c2f5ab1-44ff-4a1c-b96d-28f9f3a0fd1e))
    (gr_poly locked (pts
        (xy 2 3)
        (xy 0.1 0)
        (xy 2 3)
        (xy -1.5 7)
      ) (layer ""F.Fab"") (width 0.15) (fill solid) (tstamp 7c2f5ab1-44ff-4a1c-b96d-28f9f3a0fd1e))
  ) (tstamp 7c2f5ab1-44ff-4a1c-b96d-28f9f3a0fd1e))" = true.
Proof. vm_compute. reflexivity. Qed.

Theorem C51_Footprint now : kept Footprint_to (Footprint_from now) Footprint_typed Footprint_whole Footprint_eqb.
Proof. exact (kept_then (Footprint_rt now) (Footprint_t now)). Qed.
Print Assumptions C51_Footprint.
Example C51_Footprint_case : meets (Footprint_from (VStr $"0")) Footprint_typed Footprint_whole "(footprint ""Package_SO:SOIC-8 \""x\"""" locked placed (version 20211014) (generator pcbnew)
  (layer ""B.Cu"")
  (tedit 65fa1b2c) (tstamp 7c2f5ab1-44ff-4a1c-b96d-28f9f3a0fd1e)
  (at 1 2 180)
  (descr ""d \""(1)\"""")
  (tags ""a b"")
  (property ""Sheetfile"" ""x.kicad_sch"")
  (property ""k 2"" """")
  (path ""/1/2"")
  (autoplace_cost90 1)
  (autoplace_cost180 2)
  (solder_mask_margin 0.1)
  (solder_paste_margin 0.2)
  (solder_paste_ratio 0.3)
  (clearance 0.4)
  (zone_connect 2)
  (thermal_width 0.5)
  (thermal_gap 0.6)
  (attr through_hole board_only exclude_from_pos_files exclude_from_bom allow_missing_courtyard)
  (private_layers ""User.1"")
  (net_tie_pad_groups ""1, 2"" ""3"")
  (fp_text user ""a \""(b)\"" \ c"" (at 1 2.5 90 unlocked) (layer ""F.SilkS"" knockout) hide
    (effects (font (face ""A \""b\"" \c"") (size 1.27 2) (color 255 0 128 0.5) (thickness 0.3) bold italic (line_spacing 1.1)) (justify right top mirror) (href ""https://x.y/(z)"") hide)
    (tstamp 7c2f5ab1-44ff-4a1c-b96d-28f9f3a0fd1e)
    (render_cache ""ab\""c"" 0
      (polygon
        (pts
          (xy 1 2)          (xy 1.5 2)          (xy 0 -7)          (xy 0 0)
          (xy 9 9)
        )
      )
    )
  )
  (fp_curve (pts
    (xy 2 3)
    (xy 0.1 0)
    (xy 2 3)
    (xy -1.5 7)
  ) (layer ""F.Fab"") (width 0.15) locked (tstamp 7c2f5ab1-44ff-4a1c-b96d-28f9f3a0fd1e))
  (image (at 12.34 5) (layer ""F.SilkS"") (scale 0.5)
    (uuid a-b-c)
    (data
      iVBORw0KGgo=
      12
    )
  )
  (pad ""A \""1\"""" thru_hole custom locked (at 1 2.5 90) (size 1 2) (drill oval 0.8 2 (offset 1 0.5)) (property pad_prop_bga) (layers *.Cu ""F.Mask"" F&B.Paste ""In1 (x)"") (remove_unused_layers) (keep_end_layers) (roundrect_rratio 0.25)
    (chamfer_ratio 0.1) (chamfer top_left bottom_right)
    (die_length 3)
    (net 17 ""Net-(U1-Pad3)"") (pinfunction ""fn"") (pintype ""bidirectional+no_connect"") (solder_mask_margin 0.1) (solder_paste_margin 0.2) (solder_paste_margin_ratio 0.3) (clearance 0.4) (zone_connect 2) (thermal_width 0.5) (thermal_gap 0.6)
    (options (clearance convexhull) (anchor circle))
    (primitives
      (gr_text ""a \""(b)\"" \ c"" (at 1 2.5 90) (layer ""F.SilkS"" knockout) (tstamp 7c2f5ab1-44ff-4a1c-b96d-28f9f3a0fd1e)
        (effects (font (face ""A \""b\"" \c"") (size 1.27 2) (color 255 0 128 0.5) (thickness 0.3) bold italic (line_spacing 1.1)) (justify right top mirror) (href ""https://x.y/(z)"") hide)
        (render_cache ""ab\""c"" 0
          (polygon
            (pts
              (xy 1 2)              (xy 1.5 2)              (xy 0 -7)              (xy 0 0)
              (xy 9 9)
            )
          )
        )
      )
      (gr_line locked (start 2 3) (end 2 0.001) (layer ""F.Fab"") (width 1) (tstamp 7c2f5ab1-44ff-4a1c-b96d-28f9f3a0fd1e))
      (gr_poly locked (pts
          (xy 2 3)
          (xy 0.1 0)
          (xy 2 3)
          (xy -1.5 7)
        ) (layer ""F.Fab"") (width 0.15) (fill solid) (tstamp 7c2f5ab1-44ff-4a1c-b96d-28f9f3a0fd1e))
    ) (tstamp 7c2f5ab1-44ff-4a1c-b96d-28f9f3a0fd1e))
  (pad ""x"" smd rect (at 0.0 0.0) (size 0.0 0.0) (layers))
  (zone locked (net 12) (net_name ""Net \""(1)\"""") (layers ""F.Cu"" ""B.Cu"") (tstamp 7c2f5ab1-44ff-4a1c-b96d-28f9f3a0fd1e) (name ""my zone"") (hatch edge 0.508)
    (priority 3)
    (connect_pads thru_hole_only (clearance 0.2))
    (min_thickness 0.254) (filled_areas_thickness no)
    (keepout (tracks allowed) (vias not_allowed) (pads allowed ) (copperpour not-allowed) (footprints not-allowed))
    (fill yes (mode hatch) (thermal_gap 0.5) (thermal_bridge_width 0.508) (smoothing chamfer) (radius 1) (island_removal_mode 2) (island_area_min 10)
      (hatch_thickness 1) (hatch_gap 1.5) (hatch_orientation 45)
      (hatch_smoothing_level 1) (hatch_smoothing_value 0.1)
      (hatch_border_algorithm 0) (hatch_min_hole_area 0.3))
    (polygon
      (pts
        (xy 2 3)
        (xy 0.1 0)
        (xy 2 3)
        (xy -1.5 7)
      )
    )
    (polygon
      (pts
        (xy 1 2)
      )
    )
    (filled_polygon
      (layer ""F.Cu"")
      (island)
      (pts
        (xy 2 3)
        (xy 0.1 0)
        (xy 2 3)
        (xy -1.5 7)
      )
    )
    (fill_segments
      (layer ""B.Cu"")
      (pts
        (xy 2 3)
        (xy 0.1 0)
        (xy 2 3)
        (xy -1.5 7)
      )
    )
  )
  (model ""${KICAD6_3DMODEL_DIR}/a \""b\"".wrl"" hide
    (opacity 0.5)
    (offset (xyz 2.5 -3 1.0))
    (scale (xyz 1 1 0.1))
    (rotate (xyz 0 90 0))
  )
  (model ""${KICAD6_3DMODEL_DIR}/a \""b\"".wrl"" hide
    (opacity 0.5)
    (offset (xyz 2.5 -3 1.0))
    (scale (xyz 1 1 0.1))
    (rotate (xyz 0 90 0))
  )
  (group ""g \""1\"""" locked (id 6fe2b9d8-0001)
    (members
      0012
      abc-1
    )
  )
)" = true.
Proof. vm_compute. reflexivity. Qed.

Theorem C51_DimensionFormat : kept DimensionFormat_to DimensionFormat_from DimensionFormat_typed (fun _ => true) DimensionFormat_eqb.
Proof. exact (kept_ok DimensionFormat_rt DimensionFormat_t). Qed.
Print Assumptions C51_DimensionFormat.
Example C51_DimensionFormat_case : meets DimensionFormat_from DimensionFormat_typed (fun _ => true) "(format (prefix ""a \""("") (suffix ""mm"") (units 2) (units_format 0) (precision 7) (override_value ""1 \ 2"") suppress_zeroes)" = true.
Proof. vm_compute. reflexivity. Qed.

Theorem C51_DimensionStyle : kept DimensionStyle_to DimensionStyle_from DimensionStyle_typed (fun _ => true) DimensionStyle_eqb.
Proof. exact (kept_ok DimensionStyle_rt DimensionStyle_t). Qed.
Print Assumptions C51_DimensionStyle.
Example C51_DimensionStyle_case : meets DimensionStyle_from DimensionStyle_typed (fun _ => true) "(style (thickness 0.15) (arrow_length 1.27) (text_position_mode 2) (extension_height 0.58642) (text_frame 3) (extension_offset 0.5) keep_text_aligned)" = true.
Proof. vm_compute. reflexivity. Qed.

Theorem C51_Dimension : kept Dimension_to Dimension_from Dimension_typed Dimension_whole Dimension_eqb.
Proof. exact (kept_then Dimension_rt Dimension_t). Qed.
Print Assumptions C51_Dimension.
Example C51_Dimension_case : meets Dimension_from Dimension_typed Dimension_whole "(dimension (type orthogonal) (layer ""Dwgs.User (1)"") (tstamp 7c2f5ab1-44ff-4a1c-b96d-28f9f3a0fd1e)
  (pts (xy 2 3) (xy 0.1 0) (xy 2 3) (xy -1.5 7))
  (height -2.5)
  (orientation 1)
  (leader_length 2)
  (gr_text ""a \""(b)\"" \ c"" (at 1 2.5 90) (layer ""F.SilkS"" knockout) (tstamp 7c2f5ab1-44ff-4a1c-b96d-28f9f3a0fd1e)
    (effects (font (face ""A \""b\"" \c"") (size 1.27 2) (color 255 0 128 0.5) (thickness 0.3) bold italic (line_spacing 1.1)) (justify right top mirror) (href ""https://x.y/(z)"") hide)
    (render_cache ""ab\""c"" 0
      (polygon
        (pts
          (xy 1 2)          (xy 1.5 2)          (xy 0 -7)          (xy 0 0)
          (xy 9 9)
        )
      )
    )
  )
  (format (prefix ""a \""("") (suffix ""mm"") (units 2) (units_format 0) (precision 7) (override_value ""1 \ 2"") suppress_zeroes)
  (style (thickness 0.15) (arrow_length 1.27) (text_position_mode 2) (extension_height 0.58642) (text_frame 3) (extension_offset 0.5) keep_text_aligned)
)" = true.
Proof. vm_compute. reflexivity. Qed.

Theorem C51_GeneralSettings : kept GeneralSettings_to GeneralSettings_from GeneralSettings_typed (fun _ => true) GeneralSettings_eqb.
Proof. exact (kept_ok GeneralSettings_rt GeneralSettings_t). Qed.
Print Assumptions C51_GeneralSettings.
Example C51_GeneralSettings_case : meets GeneralSettings_from GeneralSettings_typed (fun _ => true) "(general
  (thickness 1.6)
)" = true.
Proof. vm_compute. reflexivity. Qed.

Theorem C51_LayerToken : kept LayerToken_to LayerToken_from LayerToken_typed (fun _ => true) LayerToken_eqb.
Proof. exact (kept_ok LayerToken_rt LayerToken_t). Qed.
Print Assumptions C51_LayerToken.
Example C51_LayerToken_case : meets LayerToken_from LayerToken_typed (fun _ => true) "(37 ""F.Silk\""S"" user ""F.Silkscreen (top)"")" = true.
Proof. vm_compute. reflexivity. Qed.

Theorem C51_StackupLayer : kept StackupLayer_to StackupLayer_from StackupLayer_typed (fun _ => true) StackupLayer_eqb.
Proof. exact (kept_ok StackupLayer_rt StackupLayer_t). Qed.
Print Assumptions C51_StackupLayer.
Example C51_StackupLayer_case : meets StackupLayer_from StackupLayer_typed (fun _ => true) "(layer ""dielectric 1"" (type ""core"") (color ""Green"") (thickness 1.51) (material ""FR4"") (epsilon_r 4.5)
  addsublayer (thickness 0.48) (material ""FR4 \""(x)\"""") (epsilon_r 4.5) (loss_tangent 0.02)
  addsublayer (thickness 1) (loss_tangent 0.02)
  addsublayer (thickness 0.48) (material ""FR4 \""(x)\"""") (epsilon_r 4.5) (loss_tangent 0.02))" = true.
Proof. vm_compute. reflexivity. Qed.

Theorem C51_Stackup : kept Stackup_to Stackup_from Stackup_typed (fun _ => true) Stackup_eqb.
Proof. exact (kept_ok Stackup_rt Stackup_t). Qed.
Print Assumptions C51_Stackup.
Example C51_Stackup_case : meets Stackup_from Stackup_typed (fun _ => true) "(stackup
  (layer ""F.SilkS"" (type ""Top Silk Screen""))
  (layer ""dielectric 1"" (type ""core"") (color ""Green"") (thickness 1.51) (material ""FR4"") (epsilon_r 4.5)
    addsublayer (thickness 0.48) (material ""FR4 \""(x)\"""") (epsilon_r 4.5) (loss_tangent 0.02)
    addsublayer (thickness 1) (loss_tangent 0.02)
    addsublayer (thickness 0.48) (material ""FR4 \""(x)\"""") (epsilon_r 4.5) (loss_tangent 0.02))
  (copper_finish ""ENIG"")
  (dielectric_constraints no)
  (edge_connector bevelled)
  (castellated_pads yes)
)" = true.
Proof. vm_compute. reflexivity. Qed.

Theorem C51_PlotSettings : kept PlotSettings_to PlotSettings_from PlotSettings_typed PlotSettings_whole PlotSettings_eqb.
Proof. exact (kept_then PlotSettings_rt PlotSettings_t). Qed.
Print Assumptions C51_PlotSettings.
Example C51_PlotSettings_case : meets PlotSettings_from PlotSettings_typed PlotSettings_whole "(pcbplotparams
  (layerselection 0x00010fc_ffffffff)
  (plot_on_all_layers_selection 0x0000000_00000000)
  (disableapertmacros false)
  (usegerberextensions false)
  (usegerberattributes false)
  (usegerberadvancedattributes false)
  (creategerberjobfile false)
  (dashed_line_dash_ratio 12.000000)
  (dashed_line_gap_ratio 3.000001)
  (svguseinch false)
  (svgprecision 0.0)
  (excludeedgelayer true)
  (plotframeref false)
  (viasonmask true)
  (mode 1)
  (useauxorigin false)
  (hpglpennumber 0)
  (hpglpenspeed 0)
  (hpglpendiameter 1.500000)
  (dxfpolygonmode false)
  (dxfimperialunits false)
  (dxfusepcbnewfont false)
  (psnegative false)
  (psa4output false)
  (plotreference false)
  (plotvalue false)
  (plotinvisibletext false)
  (sketchpadsonfab false)
  (subtractmaskfromsilk false)
  (outputformat 0)
  (mirror true)
  (drillshape 0)
  (scaleselection 1)
  (outputdirectory ""out \""(1)\""/"")
)" = true.
Proof. vm_compute. reflexivity. Qed.

Theorem C51_SetupData : kept SetupData_to SetupData_from SetupData_typed SetupData_whole SetupData_eqb.
Proof. exact (kept_then SetupData_rt SetupData_t). Qed.
Print Assumptions C51_SetupData.
Example C51_SetupData_case : meets SetupData_from SetupData_typed SetupData_whole "(setup
  (stackup
    (layer ""F.SilkS"" (type ""Top Silk Screen""))
    (layer ""dielectric 1"" (type ""core"") (color ""Green"") (thickness 1.51) (material ""FR4"") (epsilon_r 4.5)
      addsublayer (thickness 0.48) (material ""FR4 \""(x)\"""") (epsilon_r 4.5) (loss_tangent 0.02)
      addsublayer (thickness 1) (loss_tangent 0.02)
      addsublayer (thickness 0.48) (material ""FR4 \""(x)\"""") (epsilon_r 4.5) (loss_tangent 0.02))
    (copper_finish ""ENIG"")
    (dielectric_constraints no)
    (edge_connector bevelled)
    (castellated_pads yes)
  )
  (pad_to_mask_clearance 0.05)
  (solder_mask_min_width 0.1)
  (pad_to_paste_clearance_ratio -0.05)
  (aux_axis_origin 1 2.5)
  (pcbplotparams
    (layerselection 0x00010fc_ffffffff)
    (plot_on_all_layers_selection 0x0000000_00000000)
    (disableapertmacros false)
    (usegerberextensions false)
    (usegerberattributes false)
    (usegerberadvancedattributes false)
    (creategerberjobfile false)
    (dashed_line_dash_ratio 12.000000)
    (dashed_line_gap_ratio 3.000001)
    (svguseinch false)
    (svgprecision 0.0)
    (excludeedgelayer true)
    (plotframeref false)
    (viasonmask true)
    (mode 1)
    (useauxorigin false)
    (hpglpennumber 0)
    (hpglpenspeed 0)
    (hpglpendiameter 1.500000)
    (dxfpolygonmode false)
    (dxfimperialunits false)
    (dxfusepcbnewfont false)
    (psnegative false)
    (psa4output false)
    (plotreference false)
    (plotvalue false)
    (plotinvisibletext false)
    (sketchpadsonfab false)
    (subtractmaskfromsilk false)
    (outputformat 0)
    (mirror true)
    (drillshape 0)
    (scaleselection 1)
    (outputdirectory ""out \""(1)\""/"")
  )
)" = true.
Proof. vm_compute. reflexivity. Qed.

Theorem C51_Segment : kept Segment_to Segment_from Segment_typed Segment_whole Segment_eqb.
Proof. exact (kept_then Segment_rt Segment_t). Qed.
Print Assumptions C51_Segment.
Example C51_Segment_case : meets Segment_from Segment_typed Segment_whole "(segment locked (start 1 2.5) (end 3 4) (width 0.25) (layer ""F.Cu"") (net 7) (tstamp 7c2f5ab1-44ff-4a1c-b96d-28f9f3a0fd1e))" = true.
Proof. vm_compute. reflexivity. Qed.

Theorem C51_Via : kept Via_to Via_from Via_typed (fun _ => true) Via_eqb.
Proof. exact (kept_ok Via_rt Via_t). Qed.
Print Assumptions C51_Via.
Example C51_Via_case : meets Via_from Via_typed (fun _ => true) "(via blind locked (at 1 2.5) (size 0.8) (drill 0.4) (layers ""F.Cu"" ""In 1 \""(x)\"""") (remove_unused_layers) (keep_end_layers) (free) (net 3) (tstamp 7c2f5ab1-44ff-4a1c-b96d-28f9f3a0fd1e))" = true.
Proof. vm_compute. reflexivity. Qed.

Theorem C51_Arc : kept Arc_to Arc_from Arc_typed (fun _ => true) Arc_eqb.
Proof. exact (kept_ok Arc_rt Arc_t). Qed.
Print Assumptions C51_Arc.
Example C51_Arc_case : meets Arc_from Arc_typed (fun _ => true) "(arc locked (start 1 2.5) (mid 3 4) (end 5 4) (width 0.25) (layer ""F \""Cu"") (net 7))" = true.
Proof. vm_compute. reflexivity. Qed.

Theorem C51_Target : kept Target_to Target_from Target_typed Target_whole Target_eqb.
Proof. exact (kept_then Target_rt Target_t). Qed.
Print Assumptions C51_Target.
Example C51_Target_case : meets Target_from Target_typed Target_whole "(target x (at 1 2.5) (size 5) (width 0.05) (layer ""Edge.Cuts"") (tstamp 7c2f5ab1-44ff-4a1c-b96d-28f9f3a0fd1e))" = true.
Proof. vm_compute. reflexivity. Qed.

Theorem C51_Board now : kept Board_to (Board_from now) Board_typed Board_whole Board_eqb.
Proof. exact (kept_then (Board_rt now) (Board_t now)). Qed.
Print Assumptions C51_Board.
Example C51_Board_case : meets (Board_from (VStr $"0")) Board_typed Board_whole "(kicad_pcb (version 20221018) (generator pcbnew)

  (general
    (thickness 1.6)
  )

  (paper ""A3"" portrait)
  (title_block
    (title ""T"")
    (rev ""1.0"")
    (company """")
    (comment 1 ""one"")
    (comment 4 ""four (4)"")
  )

  (layers
    (0 ""F.Cu"" signal)
    (31 ""B.Cu"" signal)
    (32 ""B.Adhes"" user ""B.Adhesive"")
    (33 ""F.Adhes"" user ""F.Adhesive"")
    (34 ""B.Paste"" user)
    (35 ""F.Paste"" user)
    (36 ""B.SilkS"" user ""B.Silkscreen"")
    (37 ""F.SilkS"" user ""F.Silkscreen"")
    (38 ""B.Mask"" user)
    (39 ""F.Mask"" user)
    (40 ""Dwgs.User"" user ""User.Drawings"")
    (41 ""Cmts.User"" user ""User.Comments"")
    (42 ""Eco1.User"" user ""User.Eco1"")
    (43 ""Eco2.User"" user ""User.Eco2"")
    (44 ""Edge.Cuts"" user)
    (45 ""Margin"" user)
    (46 ""B.CrtYd"" user ""B.Courtyard"")
    (47 ""F.CrtYd"" user ""F.Courtyard"")
    (48 ""B.Fab"" user)
    (49 ""F.Fab"" user)
    (50 ""User.1"" user)
    (51 ""User.2"" user)
    (52 ""User.3"" user)
    (53 ""User.4"" user)
    (54 ""User.5"" user)
    (55 ""User.6"" user)
    (56 ""User.7"" user)
    (57 ""User.8"" user)
    (58 ""User.9"" user)
  )

  (setup
    (stackup
      (layer ""F.SilkS"" (type ""Top Silk Screen""))
      (layer ""dielectric 1"" (type ""core"") (color ""Green"") (thickness 1.51) (material ""FR4"") (epsilon_r 4.5)
        addsublayer (thickness 0.48) (material ""FR4 \""(x)\"""") (epsilon_r 4.5) (loss_tangent 0.02)
        addsublayer (thickness 1) (loss_tangent 0.02)
        addsublayer (thickness 0.48) (material ""FR4 \""(x)\"""") (epsilon_r 4.5) (loss_tangent 0.02))
      (copper_finish ""ENIG"")
      (dielectric_constraints no)
      (edge_connector bevelled)
      (castellated_pads yes)
    )
    (pad_to_mask_clearance 0.05)
    (solder_mask_min_width 0.1)
    (pad_to_paste_clearance_ratio -0.05)
    (aux_axis_origin 1 2.5)
    (pcbplotparams
      (layerselection 0x00010fc_ffffffff)
      (plot_on_all_layers_selection 0x0000000_00000000)
      (disableapertmacros false)
      (usegerberextensions false)
      (usegerberattributes false)
      (usegerberadvancedattributes false)
      (creategerberjobfile false)
      (dashed_line_dash_ratio 12.000000)
      (dashed_line_gap_ratio 3.000001)
      (svguseinch false)
      (svgprecision 0.0)
      (excludeedgelayer true)
      (plotframeref false)
      (viasonmask true)
      (mode 1)
      (useauxorigin false)
      (hpglpennumber 0)
      (hpglpenspeed 0)
      (hpglpendiameter 1.500000)
      (dxfpolygonmode false)
      (dxfimperialunits false)
      (dxfusepcbnewfont false)
      (psnegative false)
      (psa4output false)
      (plotreference false)
      (plotvalue false)
      (plotinvisibletext false)
      (sketchpadsonfab false)
      (subtractmaskfromsilk false)
      (outputformat 0)
      (mirror true)
      (drillshape 0)
      (scaleselection 1)
      (outputdirectory ""out \""(1)\""/"")
    )
  )

  (property ""LAYER"" ""top \""x\"""")
  (property ""k 2"" """")

  (net 0 """")
  (net 1 ""Net-(U1-Pad3)"")

  (footprint ""Package_SO:SOIC-8 \""x\"""" locked placed (version 20211014) (generator pcbnew) (layer ""B.Cu"")
    (tedit 65fa1b2c) (tstamp 7c2f5ab1-44ff-4a1c-b96d-28f9f3a0fd1e)
    (at 1 2 180)
    (descr ""d \""(1)\"""")
    (tags ""a b"")
    (property ""Sheetfile"" ""x.kicad_sch"")
    (property ""k 2"" """")
    (path ""/1/2"")
    (autoplace_cost90 1)
    (autoplace_cost180 2)
    (solder_mask_margin 0.1)
    (solder_paste_margin 0.2)
    (solder_paste_ratio 0.3)
    (clearance 0.4)
    (zone_connect 2)
    (thermal_width 0.5)
    (thermal_gap 0.6)
    (attr through_hole board_only exclude_from_pos_files exclude_from_bom allow_missing_courtyard)
    (private_layers ""User.1"")
    (net_tie_pad_groups ""1, 2"" ""3"")
    (fp_text user ""a \""(b)\"" \ c"" (at 1 2.5 90 unlocked) (layer ""F.SilkS"" knockout) hide
      (effects (font (face ""A \""b\"" \c"") (size 1.27 2) (color 255 0 128 0.5) (thickness 0.3) bold italic (line_spacing 1.1)) (justify right top mirror) (href ""https://x.y/(z)"") hide)
      (tstamp 7c2f5ab1-44ff-4a1c-b96d-28f9f3a0fd1e)
      (render_cache ""ab\""c"" 0
        (polygon
          (pts
            (xy 1 2)            (xy 1.5 2)            (xy 0 -7)            (xy 0 0)
            (xy 9 9)
          )
        )
      )
    )
    (fp_curve (pts
      (xy 2 3)
      (xy 0.1 0)
      (xy 2 3)
      (xy -1.5 7)
    ) (layer ""F.Fab"") (width 0.15) locked (tstamp 7c2f5ab1-44ff-4a1c-b96d-28f9f3a0fd1e))
    (image (at 12.34 5) (layer ""F.SilkS"") (scale 0.5)
      (uuid a-b-c)
      (data
        iVBORw0KGgo=
        12
      )
    )
    (pad ""A \""1\"""" thru_hole custom locked (at 1 2.5 90) (size 1 2) (drill oval 0.8 2 (offset 1 0.5)) (property pad_prop_bga) (layers *.Cu ""F.Mask"" F&B.Paste ""In1 (x)"") (remove_unused_layers) (keep_end_layers) (roundrect_rratio 0.25)
      (chamfer_ratio 0.1) (chamfer top_left bottom_right)
      (die_length 3)
      (net 17 ""Net-(U1-Pad3)"") (pinfunction ""fn"") (pintype ""bidirectional+no_connect"") (solder_mask_margin 0.1) (solder_paste_margin 0.2) (solder_paste_margin_ratio 0.3) (clearance 0.4) (zone_connect 2) (thermal_width 0.5) (thermal_gap 0.6)
      (options (clearance convexhull) (anchor circle))
      (primitives
        (gr_text ""a \""(b)\"" \ c"" (at 1 2.5 90) (layer ""F.SilkS"" knockout) (tstamp 7c2f5ab1-44ff-4a1c-b96d-28f9f3a0fd1e)
          (effects (font (face ""A \""b\"" \c"") (size 1.27 2) (color 255 0 128 0.5) (thickness 0.3) bold italic (line_spacing 1.1)) (justify right top mirror) (href ""https://x.y/(z)"") hide)
          (render_cache ""ab\""c"" 0
            (polygon
              (pts
                (xy 1 2)                (xy 1.5 2)                (xy 0 -7)                (xy 0 0)
                (xy 9 9)
              )
            )
          )
        )
        (gr_line locked (start 2 3) (end 2 0.001) (layer ""F.Fab"") (width 1) (tstamp 7c2f5ab1-44ff-4a1c-b96d-28f9f3a0fd1e))
        (gr_poly locked (pts
            (xy 2 3)
            (xy 0.1 0)
            (xy 2 3)
            (xy -1.5 7)
          ) (layer ""F.Fab"") (width 0.15) (fill solid) (tstamp 7c2f5ab1-44ff-4a1c-b96d-28f9f3a0fd1e))
      ) (tstamp 7c2f5ab1-44ff-4a1c-b96d-28f9f3a0fd1e))
    (pad ""x"" smd rect (at 0.0 0.0) (size 0.0 0.0) (layers))
    (zone locked (net 12) (net_name ""Net \""(1)\"""") (layers ""F.Cu"" ""B.Cu"") (tstamp 7c2f5ab1-44ff-4a1c-b96d-28f9f3a0fd1e) (name ""my zone"") (hatch edge 0.508)
      (priority 3)
      (connect_pads thru_hole_only (clearance 0.2))
      (min_thickness 0.254) (filled_areas_thickness no)
      (keepout (tracks allowed) (vias not_allowed) (pads allowed ) (copperpour not-allowed) (footprints not-allowed))
      (fill yes (mode hatch) (thermal_gap 0.5) (thermal_bridge_width 0.508) (smoothing chamfer) (radius 1) (island_removal_mode 2) (island_area_min 10)
        (hatch_thickness 1) (hatch_gap 1.5) (hatch_orientation 45)
        (hatch_smoothing_level 1) (hatch_smoothing_value 0.1)
        (hatch_border_algorithm 0) (hatch_min_hole_area 0.3))
      (polygon
        (pts
          (xy 2 3)
          (xy 0.1 0)
          (xy 2 3)
          (xy -1.5 7)
        )
      )
      (polygon
        (pts
          (xy 1 2)
        )
      )
      (filled_polygon
        (layer ""F.Cu"")
        (island)
        (pts
          (xy 2 3)
          (xy 0.1 0)
          (xy 2 3)
          (xy -1.5 7)
        )
      )
    (fill_segments
      (layer ""B.Cu"")
      (pts
        (xy 2 3)
        (xy 0.1 0)
        (xy 2 3)
        (xy -1.5 7)
      )
    )
    )
    (model ""${KICAD6_3DMODEL_DIR}/a \""b\"".wrl"" hide
      (opacity 0.5)
      (offset (xyz 2.5 -3 1.0))
      (scale (xyz 1 1 0.1))
      (rotate (xyz 0 90 0))
    )
    (model ""${KICAD6_3DMODEL_DIR}/a \""b\"".wrl"" hide
      (opacity 0.5)
      (offset (xyz 2.5 -3 1.0))
      (scale (xyz 1 1 0.1))
      (rotate (xyz 0 90 0))
    )
    (group ""g \""1\"""" locked (id 6fe2b9d8-0001)
      (members
        0012
        abc-1
      )
    )
  )

  (footprint ""Package_SO:SOIC-8 \""x\"""" locked placed (version 20211014) (generator pcbnew) (layer ""B.Cu"")
    (tedit 5) (tstamp 7c2f5ab1-44ff-4a1c-b96d-28f9f3a0fd1e)
    (at 1 2 180)
    (descr ""d \""(1)\"""")
    (tags ""a b"")
    (property ""Sheetfile"" ""x.kicad_sch"")
    (property ""k 2"" """")
    (path ""/1/2"")
    (autoplace_cost90 1)
    (autoplace_cost180 2)
    (solder_mask_margin 0.1)
    (solder_paste_margin 0.2)
    (solder_paste_ratio 0.3)
    (clearance 0.4)
    (zone_connect 2)
    (thermal_width 0.5)
    (thermal_gap 0.6)
    (attr through_hole board_only exclude_from_pos_files exclude_from_bom allow_missing_courtyard)
    (private_layers ""User.1"")
    (net_tie_pad_groups ""1, 2"" ""3"")
    (fp_text user ""a \""(b)\"" \ c"" (at 1 2.5 90 unlocked) (layer ""F.SilkS"" knockout) hide
      (effects (font (face ""A \""b\"" \c"") (size 1.27 2) (color 255 0 128 0.5) (thickness 0.3) bold italic (line_spacing 1.1)) (justify right top mirror) (href ""https://x.y/(z)"") hide)
      (tstamp 7c2f5ab1-44ff-4a1c-b96d-28f9f3a0fd1e)
      (render_cache ""ab\""c"" 0
        (polygon
          (pts
            (xy 1 2)            (xy 1.5 2)            (xy 0 -7)            (xy 0 0)
            (xy 9 9)
          )
        )
      )
    )
    (fp_curve (pts
      (xy 2 3)
      (xy 0.1 0)
      (xy 2 3)
      (xy -1.5 7)
    ) (layer ""F.Fab"") (width 0.15) locked (tstamp 7c2f5ab1-44ff-4a1c-b96d-28f9f3a0fd1e))
    (image (at 12.34 5) (layer ""F.SilkS"") (scale 0.5)
      (uuid a-b-c)
      (data
        iVBORw0KGgo=
        12
      )
    )
    (pad ""A \""1\"""" thru_hole custom locked (at 1 2.5 90) (size 1 2) (drill oval 0.8 2 (offset 1 0.5)) (property pad_prop_bga) (layers *.Cu ""F.Mask"" F&B.Paste ""In1 (x)"") (remove_unused_layers) (keep_end_layers) (roundrect_rratio 0.25)
      (chamfer_ratio 0.1) (chamfer top_left bottom_right)
      (die_length 3)
      (net 17 ""Net-(U1-Pad3)"") (pinfunction ""fn"") (pintype ""bidirectional+no_connect"") (solder_mask_margin 0.1) (solder_paste_margin 0.2) (solder_paste_margin_ratio 0.3) (clearance 0.4) (zone_connect 2) (thermal_width 0.5) (thermal_gap 0.6)
      (options (clearance convexhull) (anchor circle))
      (primitives
        (gr_text ""a \""(b)\"" \ c"" (at 1 2.5 90) (layer ""F.SilkS"" knockout) (tstamp 7c2f5ab1-44ff-4a1c-b96d-28f9f3a0fd1e)
          (effects (font (face ""A \""b\"" \c"") (size 1.27 2) (color 255 0 128 0.5) (thickness 0.3) bold italic (line_spacing 1.1)) (justify right top mirror) (href ""https://x.y/(z)"") hide)
          (render_cache ""ab\""c"" 0
            (polygon
              (pts
                (xy 1 2)                (xy 1.5 2)                (xy 0 -7)                (xy 0 0)
                (xy 9 9)
              )
            )
          )
        )
        (gr_line locked (start 2 3) (end 2 0.001) (layer ""F.Fab"") (width 1) (tstamp 7c2f5ab1-44ff-4a1c-b96d-28f9f3a0fd1e))
        (gr_poly locked (pts
            (xy 2 3)
            (xy 0.1 0)
            (xy 2 3)
            (xy -1.5 7)
          ) (layer ""F.Fab"") (width 0.15) (fill solid) (tstamp 7c2f5ab1-44ff-4a1c-b96d-28f9f3a0fd1e))
      ) (tstamp 7c2f5ab1-44ff-4a1c-b96d-28f9f3a0fd1e))
    (pad ""x"" smd rect (at 0.0 0.0) (size 0.0 0.0) (layers))
    (zone locked (net 12) (net_name ""Net \""(1)\"""") (layers ""F.Cu"" ""B.Cu"") (tstamp 7c2f5ab1-44ff-4a1c-b96d-28f9f3a0fd1e) (name ""my zone"") (hatch edge 0.508)
      (priority 3)
      (connect_pads thru_hole_only (clearance 0.2))
      (min_thickness 0.254) (filled_areas_thickness no)
      (keepout (tracks allowed) (vias not_allowed) (pads allowed ) (copperpour not-allowed) (footprints not-allowed))
      (fill yes (mode hatch) (thermal_gap 0.5) (thermal_bridge_width 0.508) (smoothing chamfer) (radius 1) (island_removal_mode 2) (island_area_min 10)
        (hatch_thickness 1) (hatch_gap 1.5) (hatch_orientation 45)
        (hatch_smoothing_level 1) (hatch_smoothing_value 0.1)
        (hatch_border_algorithm 0) (hatch_min_hole_area 0.3))
      (polygon
        (pts
          (xy 2 3)
          (xy 0.1 0)
          (xy 2 3)
          (xy -1.5 7)
        )
      )
      (polygon
        (pts
          (xy 1 2)
        )
      )
      (filled_polygon
        (layer ""F.Cu"")
        (island)
        (pts
          (xy 2 3)
          (xy 0.1 0)
          (xy 2 3)
          (xy -1.5 7)
        )
      )
    (fill_segments
      (layer ""B.Cu"")
      (pts
        (xy 2 3)
        (xy 0.1 0)
        (xy 2 3)
        (xy -1.5 7)
      )
    )
    )
    (model ""${KICAD6_3DMODEL_DIR}/a \""b\"".wrl"" hide
      (opacity 0.5)
      (offset (xyz 2.5 -3 1.0))
      (scale (xyz 1 1 0.1))
      (rotate (xyz 0 90 0))
    )
    (model ""${KICAD6_3DMODEL_DIR}/a \""b\"".wrl"" hide
      (opacity 0.5)
      (offset (xyz 2.5 -3 1.0))
      (scale (xyz 1 1 0.1))
      (rotate (xyz 0 90 0))
    )
    (group ""g \""1\"""" locked (id 6fe2b9d8-0001)
      (members
        0012
        abc-1
      )
    )
  )

  (gr_text ""a \""(b)\"" \ c"" (at 1 2.5 90) (layer ""F.SilkS"" knockout) (tstamp 7c2f5ab1-44ff-4a1c-b96d-28f9f3a0fd1e)
    (effects (font (face ""A \""b\"" \c"") (size 1.27 2) (color 255 0 128 0.5) (thickness 0.3) bold italic (line_spacing 1.1)) (justify right top mirror) (href ""https://x.y/(z)"") hide)
    (render_cache ""ab\""c"" 0
      (polygon
        (pts
          (xy 1 2)          (xy 1.5 2)          (xy 0 -7)          (xy 0 0)
          (xy 9 9)
        )
      )
    )
  )
  (gr_line locked (start 2 3) (end 2 0.001) (layer ""F.Fab"") (width 1) (tstamp 7c2f5ab1-44ff-4a1c-b96d-28f9f3a0fd1e))
  (gr_poly locked
    (pts
      (xy 2 3)
      (xy 0.1 0)
      (xy 2 3)
      (xy -1.5 7)
    ) (layer ""F.Fab"") (width 0.15) (fill solid) (tstamp 7c2f5ab1-44ff-4a1c-b96d-28f9f3a0fd1e))
  (image (at 12.34 5) (layer ""F.SilkS"") (scale 0.5)
    (uuid a-b-c)
    (data
      iVBORw0KGgo=
      12
    )
  )
  (dimension (type orthogonal) (layer ""Dwgs.User (1)"") (tstamp 7c2f5ab1-44ff-4a1c-b96d-28f9f3a0fd1e)
    (pts (xy 2 3) (xy 0.1 0) (xy 2 3) (xy -1.5 7))
    (height -2.5)
    (orientation 1)
    (leader_length 2)
    (gr_text ""a \""(b)\"" \ c"" (at 1 2.5 90) (layer ""F.SilkS"" knockout) (tstamp 7c2f5ab1-44ff-4a1c-b96d-28f9f3a0fd1e)
      (effects (font (face ""A \""b\"" \c"") (size 1.27 2) (color 255 0 128 0.5) (thickness 0.3) bold italic (line_spacing 1.1)) (justify right top mirror) (href ""https://x.y/(z)"") hide)
      (render_cache ""ab\""c"" 0
        (polygon
          (pts
            (xy 1 2)            (xy 1.5 2)            (xy 0 -7)            (xy 0 0)
            (xy 9 9)
          )
        )
      )
    )
    (format (prefix ""a \""("") (suffix ""mm"") (units 2) (units_format 0) (precision 7) (override_value ""1 \ 2"") suppress_zeroes)
    (style (thickness 0.15) (arrow_length 1.27) (text_position_mode 2) (extension_height 0.58642) (text_frame 3) (extension_offset 0.5) keep_text_aligned)
  )
  (target x (at 1 2.5) (size 5) (width 0.05) (layer ""Edge.Cuts"") (tstamp 7c2f5ab1-44ff-4a1c-b96d-28f9f3a0fd1e))

  (segment locked (start 1 2.5) (end 3 4) (width 0.25) (layer ""F.Cu"") (net 7) (tstamp 7c2f5ab1-44ff-4a1c-b96d-28f9f3a0fd1e))
  (via blind locked (at 1 2.5) (size 0.8) (drill 0.4) (layers ""F.Cu"" ""In 1 \""(x)\"""") (remove_unused_layers) (keep_end_layers) (free) (net 3) (tstamp 7c2f5ab1-44ff-4a1c-b96d-28f9f3a0fd1e))
  (arc locked (start 1 2.5) (mid 3 4) (end 5 4) (width 0.25) (layer ""F \""Cu"") (net 7))
  (via (at 0.0 0.0) (size 0.0) (drill 0.0) (layers) (net 0))

  (zone locked (net 12) (net_name ""Net \""(1)\"""") (layers ""F.Cu"" ""B.Cu"") (tstamp 7c2f5ab1-44ff-4a1c-b96d-28f9f3a0fd1e) (name ""my zone"") (hatch edge 0.508)
    (priority 3)
    (connect_pads thru_hole_only (clearance 0.2))
    (min_thickness 0.254) (filled_areas_thickness no)
    (keepout (tracks allowed) (vias not_allowed) (pads allowed ) (copperpour not-allowed) (footprints not-allowed))
    (fill yes (mode hatch) (thermal_gap 0.5) (thermal_bridge_width 0.508) (smoothing chamfer) (radius 1) (island_removal_mode 2) (island_area_min 10)
      (hatch_thickness 1) (hatch_gap 1.5) (hatch_orientation 45)
      (hatch_smoothing_level 1) (hatch_smoothing_value 0.1)
      (hatch_border_algorithm 0) (hatch_min_hole_area 0.3))
    (polygon
      (pts
        (xy 2 3)
        (xy 0.1 0)
        (xy 2 3)
        (xy -1.5 7)
      )
    )
    (polygon
      (pts
        (xy 1 2)
      )
    )
    (filled_polygon
      (layer ""F.Cu"")
      (island)
      (pts
        (xy 2 3)
        (xy 0.1 0)
        (xy 2 3)
        (xy -1.5 7)
      )
    )
    (fill_segments
      (layer ""B.Cu"")
      (pts
        (xy 2 3)
        (xy 0.1 0)
        (xy 2 3)
        (xy -1.5 7)
      )
    )
  )
  (group ""g \""1\"""" locked (id 6fe2b9d8-0001)
    (members
      0012
      abc-1
    )
  )
)" = true.
Proof. vm_compute. reflexivity. Qed.

Theorem C51_Junction : kept Junction_to Junction_from Junction_typed Junction_whole Junction_eqb.
Proof. exact (kept_then Junction_rt Junction_t). Qed.
Print Assumptions C51_Junction.
Example C51_Junction_case : meets Junction_from Junction_typed Junction_whole "(junction (at 123.45 -7) (diameter 0) (color 255 0 128 0.5)
  (uuid 7c2f5ab1-44ff-4a1c-b96d-28f9f3a0fd1e)
)" = true.
Proof. vm_compute. reflexivity. Qed.

Theorem C51_NoConnect : kept NoConnect_to NoConnect_from NoConnect_typed (fun _ => true) NoConnect_eqb.
Proof. exact (kept_ok NoConnect_rt NoConnect_t). Qed.
Print Assumptions C51_NoConnect.
Example C51_NoConnect_case : meets NoConnect_from NoConnect_typed (fun _ => true) "(no_connect (at 123.45 -7) (uuid 7c2f5ab1-44ff-4a1c-b96d-28f9f3a0fd1e))" = true.
Proof. vm_compute. reflexivity. Qed.

Theorem C51_BusEntry : kept BusEntry_to BusEntry_from BusEntry_typed (fun _ => true) BusEntry_eqb.
Proof. exact (kept_ok BusEntry_rt BusEntry_t). Qed.
Print Assumptions C51_BusEntry.
Example C51_BusEntry_case : meets BusEntry_from BusEntry_typed (fun _ => true) "(bus_entry (at 123.45 -7) (size 2.54 3)
  (stroke (width 0.254) (type dash_dot) (color 255 0 128 0.5))
  (uuid 7c2f5ab1-44ff-4a1c-b96d-28f9f3a0fd1e)
)" = true.
Proof. vm_compute. reflexivity. Qed.

Theorem C51_BusAlias : kept BusAlias_to BusAlias_from BusAlias_typed (fun _ => true) BusAlias_eqb.
Proof. exact (kept_ok BusAlias_rt BusAlias_t). Qed.
Print Assumptions C51_BusAlias.
Example C51_BusAlias_case : meets BusAlias_from BusAlias_typed (fun _ => true) "(bus_alias ""a \""b\"""" (members ""A[0..7]"" """" ""x (y)""))" = true.
Proof. vm_compute. reflexivity. Qed.

Theorem C51_Connection : kept Connection_to Connection_from Connection_typed (fun _ => true) Connection_eqb.
Proof. exact (kept_ok Connection_rt Connection_t). Qed.
Print Assumptions C51_Connection.
Example C51_Connection_case : meets Connection_from Connection_typed (fun _ => true) "(bus (pts (xy 123.45 -7) (xy 1 0.5))
  (stroke (width 0.254) (type dash_dot) (color 255 0 128 0.5))
  (uuid 7c2f5ab1-44ff-4a1c-b96d-28f9f3a0fd1e)
)" = true.
Proof. vm_compute. reflexivity. Qed.

Theorem C51_PolyLine : kept PolyLine_to PolyLine_from PolyLine_typed (fun _ => true) PolyLine_eqb.
Proof. exact (kept_ok PolyLine_rt PolyLine_t). Qed.
Print Assumptions C51_PolyLine.
Example C51_PolyLine_case : meets PolyLine_from PolyLine_typed (fun _ => true) "(polyline (pts (xy 123.45 -7) (xy 1 0.5))
  (stroke (width 0.254) (type dash_dot) (color 255 0 128 0.5))
  (uuid 7c2f5ab1-44ff-4a1c-b96d-28f9f3a0fd1e)
)" = true.
Proof. vm_compute. reflexivity. Qed.

Theorem C51_Text : kept Text_to Text_from Text_typed (fun _ => true) Text_eqb.
Proof. exact (kept_ok Text_rt Text_t). Qed.
Print Assumptions C51_Text.
Example C51_Text_case : meets Text_from Text_typed (fun _ => true) "(text ""0123456789 0123456789 0123456789 (\""0123456789\"") 0123456""
  (at 123.45 7 270)
  (effects (font (face ""A \""b\"" \c"") (size 1.27 2) (color 255 0 128 0.5) (thickness 0.3) bold italic (line_spacing 1.1)) (justify right top mirror) (href ""https://x.y/(z)"") hide)
  (uuid 7c2f5ab1-44ff-4a1c-b96d-28f9f3a0fd1e)
)" = true.
Proof. vm_compute. reflexivity. Qed.

Theorem C51_TextBox : kept TextBox_to TextBox_from TextBox_typed (fun _ => true) TextBox_eqb.
Proof. exact (kept_ok TextBox_rt TextBox_t). Qed.
Print Assumptions C51_TextBox.
Example C51_TextBox_case : meets TextBox_from TextBox_typed (fun _ => true) "(text_box ""a \""b\""""
  (at 123.45 7 270) (size 3 0.001)
  (stroke (width 0.254) (type dash_dot) (color 255 0 128 0.5))
  (fill (type color) (color 255 0 128 0.5))
  (effects (font (face ""A \""b\"" \c"") (size 1.27 2) (color 255 0 128 0.5) (thickness 0.3) bold italic (line_spacing 1.1)) (justify right top mirror) (href ""https://x.y/(z)"") hide)
  (uuid 7c2f5ab1-44ff-4a1c-b96d-28f9f3a0fd1e)
)" = true.
Proof. vm_compute. reflexivity. Qed.

Theorem C51_LocalLabel : kept LocalLabel_to LocalLabel_from LocalLabel_typed (fun _ => true) LocalLabel_eqb.
Proof. exact (kept_ok LocalLabel_rt LocalLabel_t). Qed.
Print Assumptions C51_LocalLabel.
Example C51_LocalLabel_case : meets LocalLabel_from LocalLabel_typed (fun _ => true) "(label ""a \""b\"""" (at 123.45 7 270) (fields_autoplaced)
  (effects (font (face ""A \""b\"" \c"") (size 1.27 2) (color 255 0 128 0.5) (thickness 0.3) bold italic (line_spacing 1.1)) (justify right top mirror) (href ""https://x.y/(z)"") hide)
  (uuid 7c2f5ab1-44ff-4a1c-b96d-28f9f3a0fd1e)
)" = true.
Proof. vm_compute. reflexivity. Qed.

Theorem C51_GlobalLabel : kept GlobalLabel_to GlobalLabel_from GlobalLabel_typed (fun _ => true) GlobalLabel_eqb.
Proof. exact (kept_ok GlobalLabel_rt GlobalLabel_t). Qed.
Print Assumptions C51_GlobalLabel.
Example C51_GlobalLabel_case : meets GlobalLabel_from GlobalLabel_typed (fun _ => true) "(global_label ""a \""b\"""" (shape bidirectional) (at 123.45 7 270) (fields_autoplaced)
  (effects (font (face ""A \""b\"" \c"") (size 1.27 2) (color 255 0 128 0.5) (thickness 0.3) bold italic (line_spacing 1.1)) (justify right top mirror) (href ""https://x.y/(z)"") hide)
  (uuid 7c2f5ab1-44ff-4a1c-b96d-28f9f3a0fd1e)
  (property ""Sheet name"" ""a\b\"""" (id 3) (at 1 2.5 90) (show_name)
    (effects (font (face ""A \""b\"" \c"") (size 1.27 2) (color 255 0 128 0.5) (thickness 0.3) bold italic (line_spacing 1.1)) (justify right top mirror) (href ""https://x.y/(z)"") hide)
  )
  (property ""Sheet name"" ""a\b\"""" (id 3) (at 1 2.5 90) (show_name)
    (effects (font (face ""A \""b\"" \c"") (size 1.27 2) (color 255 0 128 0.5) (thickness 0.3) bold italic (line_spacing 1.1)) (justify right top mirror) (href ""https://x.y/(z)"") hide)
  )
)" = true.
Proof. vm_compute. reflexivity. Qed.

Theorem C51_HierarchicalLabel : kept HierarchicalLabel_to HierarchicalLabel_from HierarchicalLabel_typed (fun _ => true) HierarchicalLabel_eqb.
Proof. exact (kept_ok HierarchicalLabel_rt HierarchicalLabel_t). Qed.
Print Assumptions C51_HierarchicalLabel.
Example C51_HierarchicalLabel_case : meets HierarchicalLabel_from HierarchicalLabel_typed (fun _ => true) "(hierarchical_label ""a \""b\"""" (shape output) (at 123.45 7 270) (fields_autoplaced)
  (effects (font (face ""A \""b\"" \c"") (size 1.27 2) (color 255 0 128 0.5) (thickness 0.3) bold italic (line_spacing 1.1)) (justify right top mirror) (href ""https://x.y/(z)"") hide)
  (uuid 7c2f5ab1-44ff-4a1c-b96d-28f9f3a0fd1e)
)" = true.
Proof. vm_compute. reflexivity. Qed.

Theorem C51_SymbolProjectPath : kept SymbolProjectPath_to SymbolProjectPath_from SymbolProjectPath_typed (fun _ => true) SymbolProjectPath_eqb.
Proof. exact (kept_ok SymbolProjectPath_rt SymbolProjectPath_t). Qed.
Print Assumptions C51_SymbolProjectPath.
Example C51_SymbolProjectPath_case : meets SymbolProjectPath_from SymbolProjectPath_typed (fun _ => true) "(path ""/00000000-0000-0000-0000-00005f325e1e""
  (reference ""U 1"") (unit 3)
)" = true.
Proof. vm_compute. reflexivity. Qed.

Theorem C51_SymbolProjectInstance : kept SymbolProjectInstance_to SymbolProjectInstance_from SymbolProjectInstance_typed (fun _ => true) SymbolProjectInstance_eqb.
Proof. exact (kept_ok SymbolProjectInstance_rt SymbolProjectInstance_t). Qed.
Print Assumptions C51_SymbolProjectInstance.
Example C51_SymbolProjectInstance_case : meets SymbolProjectInstance_from SymbolProjectInstance_typed (fun _ => true) "(project ""my \""project\""""
  (path ""/00000000-0000-0000-0000-00005f325e1e""
    (reference ""U 1"") (unit 1)
  )
  (path ""/00000000-0000-0000-0000-00005f325e1e""
    (reference ""U 1"") (unit 2)
  )
)" = true.
Proof. vm_compute. reflexivity. Qed.

Theorem C51_SchematicSymbol : kept SchematicSymbol_to SchematicSymbol_from SchematicSymbol_typed SchematicSymbol_whole SchematicSymbol_eqb.
Proof. exact (kept_then SchematicSymbol_rt SchematicSymbol_t). Qed.
Print Assumptions C51_SchematicSymbol.
Example C51_SchematicSymbol_case : meets SchematicSymbol_from SchematicSymbol_typed SchematicSymbol_whole "(symbol (lib_name ""R_1"") (lib_id ""Device:R:x_1_2"") (at 123.45 7 270) (mirror x) (unit 2)
  (in_bom yes) (on_board no) (dnp no) (fields_autoplaced)
  (uuid 7c2f5ab1-44ff-4a1c-b96d-28f9f3a0fd1e)
  (property ""Sheet name"" ""a\b\"""" (id 3) (at 1 2.5 90) (show_name)
    (effects (font (face ""A \""b\"" \c"") (size 1.27 2) (color 255 0 128 0.5) (thickness 0.3) bold italic (line_spacing 1.1)) (justify right top mirror) (href ""https://x.y/(z)"") hide)
  )
  (property ""Sheet name"" ""a\b\"""" (id 3) (at 1 2.5 90) (show_name)
    (effects (font (face ""A \""b\"" \c"") (size 1.27 2) (color 255 0 128 0.5) (thickness 0.3) bold italic (line_spacing 1.1)) (justify right top mirror) (href ""https://x.y/(z)"") hide)
  )
  (pin ""1"" (uuid 7c2f5ab1-44ff-4a1c-b96d-28f9f3a0fd1e))
  (pin ""A \""2\"""" (uuid abc-12))
  (instances
    (project ""my \""project\""""
      (path ""/00000000-0000-0000-0000-00005f325e1e""
        (reference ""U 1"") (unit 1)
      )
      (path ""/00000000-0000-0000-0000-00005f325e1e""
        (reference ""U 1"") (unit 2)
      )
    )
    (project """"
    )
  )
)" = true.
Proof. vm_compute. reflexivity. Qed.

Theorem C51_HierarchicalPin : kept HierarchicalPin_to HierarchicalPin_from HierarchicalPin_typed (fun _ => true) HierarchicalPin_eqb.
Proof. exact (kept_ok HierarchicalPin_rt HierarchicalPin_t). Qed.
Print Assumptions C51_HierarchicalPin.
Example C51_HierarchicalPin_case : meets HierarchicalPin_from HierarchicalPin_typed (fun _ => true) "(pin ""a \""b\"""" tri_state (at 123.45 7 270)
  (effects (font (face ""A \""b\"" \c"") (size 1.27 2) (color 255 0 128 0.5) (thickness 0.3) bold italic (line_spacing 1.1)) (justify right top mirror) (href ""https://x.y/(z)"") hide)
  (uuid 7c2f5ab1-44ff-4a1c-b96d-28f9f3a0fd1e)
)" = true.
Proof. vm_compute. reflexivity. Qed.

Theorem C51_HierarchicalSheetProjectPath : kept HierarchicalSheetProjectPath_to HierarchicalSheetProjectPath_from HierarchicalSheetProjectPath_typed (fun _ => true) HierarchicalSheetProjectPath_eqb.
Proof. exact (kept_ok HierarchicalSheetProjectPath_rt HierarchicalSheetProjectPath_t). Qed.
Print Assumptions C51_HierarchicalSheetProjectPath.
Example C51_HierarchicalSheetProjectPath_case : meets HierarchicalSheetProjectPath_from HierarchicalSheetProjectPath_typed (fun _ => true) "(path ""/a b/c"" (page ""2 \""a\""""))" = true.
Proof. vm_compute. reflexivity. Qed.

Theorem C51_HierarchicalSheetProjectInstance : kept HierarchicalSheetProjectInstance_to HierarchicalSheetProjectInstance_from HierarchicalSheetProjectInstance_typed (fun _ => true) HierarchicalSheetProjectInstance_eqb.
Proof. exact (kept_ok HierarchicalSheetProjectInstance_rt HierarchicalSheetProjectInstance_t). Qed.
Print Assumptions C51_HierarchicalSheetProjectInstance.
Example C51_HierarchicalSheetProjectInstance_case : meets HierarchicalSheetProjectInstance_from HierarchicalSheetProjectInstance_typed (fun _ => true) "(project ""my \""project\""""
  (path ""/a b/c"" (page ""2 \""a\""""))
  (path ""/a b/c"" (page ""2 \""a\""""))
)" = true.
Proof. vm_compute. reflexivity. Qed.

Theorem C51_HierarchicalSheet : kept HierarchicalSheet_to HierarchicalSheet_from HierarchicalSheet_typed HierarchicalSheet_whole HierarchicalSheet_eqb.
Proof. exact (kept_then HierarchicalSheet_rt HierarchicalSheet_t). Qed.
Print Assumptions C51_HierarchicalSheet.
Example C51_HierarchicalSheet_case : meets HierarchicalSheet_from HierarchicalSheet_typed HierarchicalSheet_whole "(sheet (at 123.45 -7) (size 30 45.72) (fields_autoplaced)
  (stroke (width 0.254) (type dash_dot) (color 255 0 128 0.5))
  (fill (color 1 2 255 0.1234))
  (uuid 7c2f5ab1-44ff-4a1c-b96d-28f9f3a0fd1e)
  (property ""Sheetname"" ""a\b\"""" (id 3) (at 1 2.5 90) (show_name)
    (effects (font (face ""A \""b\"" \c"") (size 1.27 2) (color 255 0 128 0.5) (thickness 0.3) bold italic (line_spacing 1.1)) (justify right top mirror) (href ""https://x.y/(z)"") hide)
  )
  (property ""Sheet file"" ""a\b\"""" (id 3) (at 1 2.5 90) (show_name)
    (effects (font (face ""A \""b\"" \c"") (size 1.27 2) (color 255 0 128 0.5) (thickness 0.3) bold italic (line_spacing 1.1)) (justify right top mirror) (href ""https://x.y/(z)"") hide)
  )
  (property ""a \""b\"""" ""a\b\"""" (id 3) (at 1 2.5 90) (show_name)
    (effects (font (face ""A \""b\"" \c"") (size 1.27 2) (color 255 0 128 0.5) (thickness 0.3) bold italic (line_spacing 1.1)) (justify right top mirror) (href ""https://x.y/(z)"") hide)
  )
  (property ""Field2"" ""a\b\"""" (id 3) (at 1 2.5 90) (show_name)
    (effects (font (face ""A \""b\"" \c"") (size 1.27 2) (color 255 0 128 0.5) (thickness 0.3) bold italic (line_spacing 1.1)) (justify right top mirror) (href ""https://x.y/(z)"") hide)
  )
  (pin ""a \""b\"""" tri_state (at 123.45 7 270)
    (effects (font (face ""A \""b\"" \c"") (size 1.27 2) (color 255 0 128 0.5) (thickness 0.3) bold italic (line_spacing 1.1)) (justify right top mirror) (href ""https://x.y/(z)"") hide)
    (uuid 7c2f5ab1-44ff-4a1c-b96d-28f9f3a0fd1e)
  )
  (pin """" input (at 0.0 0.0)
    (effects (font (size 1.0 1.0)))
  )
  (instances
    (project ""my \""project\""""
      (path ""/a b/c"" (page ""2 \""a\""""))
      (path ""/a b/c"" (page ""2 \""a\""""))
    )
  )
)" = true.
Proof. vm_compute. reflexivity. Qed.

Theorem C51_HierarchicalSheetInstance : kept HierarchicalSheetInstance_to HierarchicalSheetInstance_from HierarchicalSheetInstance_typed (fun _ => true) HierarchicalSheetInstance_eqb.
Proof. exact (kept_ok HierarchicalSheetInstance_rt HierarchicalSheetInstance_t). Qed.
Print Assumptions C51_HierarchicalSheetInstance.
Example C51_HierarchicalSheetInstance_case : meets HierarchicalSheetInstance_from HierarchicalSheetInstance_typed (fun _ => true) "(path ""/a b/c"" (page ""2 \""a\""""))" = true.
Proof. vm_compute. reflexivity. Qed.

Theorem C51_SymbolInstance : kept SymbolInstance_to SymbolInstance_from SymbolInstance_typed (fun _ => true) SymbolInstance_eqb.
Proof. exact (kept_ok SymbolInstance_rt SymbolInstance_t). Qed.
Print Assumptions C51_SymbolInstance.
Example C51_SymbolInstance_case : meets SymbolInstance_from SymbolInstance_typed (fun _ => true) "(path ""/a b/c""
  (reference ""U1"") (unit 2) (value ""1 \""k\"""") (footprint ""Lib:F (x)"")
)" = true.
Proof. vm_compute. reflexivity. Qed.

Theorem C51_Rectangle : kept Rectangle_to Rectangle_from Rectangle_typed (fun _ => true) Rectangle_eqb.
Proof. exact (kept_ok Rectangle_rt Rectangle_t). Qed.
Print Assumptions C51_Rectangle.
Example C51_Rectangle_case : meets Rectangle_from Rectangle_typed (fun _ => true) "(rectangle (start 123.45 -7) (end 3 0.001)
  (stroke (width 0.254) (type dash_dot) (color 255 0 128 0.5))
  (fill (type color) (color 255 0 128 0.5))
  (uuid 7c2f5ab1-44ff-4a1c-b96d-28f9f3a0fd1e)
)" = true.
Proof. vm_compute. reflexivity. Qed.

Theorem C51_SchArc : kept SchArc_to SchArc_from SchArc_typed (fun _ => true) SchArc_eqb.
Proof. exact (kept_ok SchArc_rt SchArc_t). Qed.
Print Assumptions C51_SchArc.
Example C51_SchArc_case : meets SchArc_from SchArc_typed (fun _ => true) "(arc (start 123.45 -7) (mid 3 0.001) (end 4 1.2)
  (stroke (width 0.254) (type dash_dot) (color 255 0 128 0.5))
  (fill (type color) (color 255 0 128 0.5))
  (uuid 7c2f5ab1-44ff-4a1c-b96d-28f9f3a0fd1e)
)" = true.
Proof. vm_compute. reflexivity. Qed.

Theorem C51_Circle : kept Circle_to Circle_from Circle_typed (fun _ => true) Circle_eqb.
Proof. exact (kept_ok Circle_rt Circle_t). Qed.
Print Assumptions C51_Circle.
Example C51_Circle_case : meets Circle_from Circle_typed (fun _ => true) "(circle (center 123.45 -7) (radius 1.5)
  (stroke (width 0.254) (type dash_dot) (color 255 0 128 0.5))
  (fill (type color) (color 255 0 128 0.5))
  (uuid 7c2f5ab1-44ff-4a1c-b96d-28f9f3a0fd1e)
)" = true.
Proof. vm_compute. reflexivity. Qed.

Theorem C51_NetclassFlag : kept NetclassFlag_to NetclassFlag_from NetclassFlag_typed NetclassFlag_whole NetclassFlag_eqb.
Proof. exact (kept_then NetclassFlag_rt NetclassFlag_t). Qed.
Print Assumptions C51_NetclassFlag.
Example C51_NetclassFlag_case : meets NetclassFlag_from NetclassFlag_typed NetclassFlag_whole "(netclass_flag ""a \""b\"""" (length 2.54) (shape dot) (at 123.45 7 270) (fields_autoplaced)
  (effects (font (face ""A \""b\"" \c"") (size 1.27 2) (color 255 0 128 0.5) (thickness 0.3) bold italic (line_spacing 1.1)) (justify right top mirror) (href ""https://x.y/(z)"") hide)
  (uuid 7c2f5ab1-44ff-4a1c-b96d-28f9f3a0fd1e)
  (property ""Sheet name"" ""a\b\"""" (id 3) (at 1 2.5 90) (show_name)
    (effects (font (face ""A \""b\"" \c"") (size 1.27 2) (color 255 0 128 0.5) (thickness 0.3) bold italic (line_spacing 1.1)) (justify right top mirror) (href ""https://x.y/(z)"") hide)
  )
  (property ""Sheet name"" ""a\b\"""" (id 3) (at 1 2.5 90) (show_name)
    (effects (font (face ""A \""b\"" \c"") (size 1.27 2) (color 255 0 128 0.5) (thickness 0.3) bold italic (line_spacing 1.1)) (justify right top mirror) (href ""https://x.y/(z)"") hide)
  )
)" = true.
Proof. vm_compute. reflexivity. Qed.

Theorem C51_Schematic : kept Schematic_to Schematic_from Schematic_typed Schematic_whole Schematic_eqb.
Proof. exact (kept_then Schematic_rt Schematic_t). Qed.
Print Assumptions C51_Schematic.
Example C51_Schematic_case : meets Schematic_from Schematic_typed Schematic_whole "(kicad_sch (version 20230121) (generator eeschema)

  (uuid 7c2f5ab1-44ff-4a1c-b96d-28f9f3a0fd1e)

  (paper ""A3"" portrait)

  (title_block
    (title ""T"")
    (rev ""1.0"")
    (company """")
    (comment 1 ""one"")
    (comment 4 ""four (4)"")
  )

  (lib_symbols
    (symbol ""Amplifier:LM 358"" (extends ""LM \""X\"""") (power) (pin_numbers hide) (pin_names (offset 0.5) hide) (in_bom yes) (on_board no)
      (property ""Sheet name"" ""a\b\"""" (id 3) (at 1 2.5 90) (show_name)
        (effects (font (face ""A \""b\"" \c"") (size 1.27 2) (color 255 0 128 0.5) (thickness 0.3) bold italic (line_spacing 1.1)) (justify right top mirror) (href ""https://x.y/(z)"") hide)
      )
      (property ""Sheet name"" ""a\b\"""" (id 3) (at 1 2.5 90) (show_name)
        (effects (font (face ""A \""b\"" \c"") (size 1.27 2) (color 255 0 128 0.5) (thickness 0.3) bold italic (line_spacing 1.1)) (justify right top mirror) (href ""https://x.y/(z)"") hide)
      )
      (circle (center 0.0 0.0) (radius 0.0)
        (stroke (width 0.0))
        (fill (type none))
      )
      (text """" (at 0.0 0.0)
        (effects (font (size 1.0 1.0)))
      )
      (pin power_in line (at 2 3 90) (length 2.54) hide
        (name ""~{RST}"" (effects (font (face ""A \""b\"" \c"") (size 1.27 2) (color 255 0 128 0.5) (thickness 0.3) bold italic (line_spacing 1.1)) (justify right top mirror) (href ""https://x.y/(z)"") hide))
        (number ""12"")
        (alternate """" input line)
        (alternate """" input line)
      )
      (pin input line (at 0.0 0.0) (length 0.254) (name """") (number ""0""))
      (symbol ""LM 358_0_1""
        (rectangle (start 0.0 0.0) (end 0.0 0.0)
          (stroke (width 0.0))
          (fill (type none))
        )
        (arc (start 0.0 0.0) (mid 0.0 0.0) (end 0.0 0.0)
          (stroke (width 0.0))
          (fill (type none))
        )
        (pin power_in line (at 2 3 90) (length 2.54) hide
          (name ""~{RST}"" (effects (font (face ""A \""b\"" \c"") (size 1.27 2) (color 255 0 128 0.5) (thickness 0.3) bold italic (line_spacing 1.1)) (justify right top mirror) (href ""https://x.y/(z)"") hide))
          (number ""12"")
          (alternate """" input line)
          (alternate """" input line)
        )
      )
      (symbol ""LM 358_1_1""
        (rectangle (start 0.0 0.0) (end 0.0 0.0)
          (stroke (width 0.0))
          (fill (type none))
        )
        (arc (start 0.0 0.0) (mid 0.0 0.0) (end 0.0 0.0)
          (stroke (width 0.0))
          (fill (type none))
        )
        (pin power_in line (at 2 3 90) (length 2.54) hide
          (name ""~{RST}"" (effects (font (face ""A \""b\"" \c"") (size 1.27 2) (color 255 0 128 0.5) (thickness 0.3) bold italic (line_spacing 1.1)) (justify right top mirror) (href ""https://x.y/(z)"") hide))
          (number ""12"")
          (alternate """" input line)
          (alternate """" input line)
        )
        (symbol ""LM 358_7_1""
          (rectangle (start 0.0 0.0) (end 0.0 0.0)
            (stroke (width 0.0))
            (fill (type none))
          )
          (arc (start 0.0 0.0) (mid 0.0 0.0) (end 0.0 0.0)
            (stroke (width 0.0))
            (fill (type none))
          )
          (pin power_in line (at 2 3 90) (length 2.54) hide
            (name ""~{RST}"" (effects (font (face ""A \""b\"" \c"") (size 1.27 2) (color 255 0 128 0.5) (thickness 0.3) bold italic (line_spacing 1.1)) (justify right top mirror) (href ""https://x.y/(z)"") hide))
            (number ""12"")
            (alternate """" input line)
            (alternate """" input line)
          )
        )
        (symbol ""LM 358_8_1""
          (rectangle (start 0.0 0.0) (end 0.0 0.0)
            (stroke (width 0.0))
            (fill (type none))
          )
          (arc (start 0.0 0.0) (mid 0.0 0.0) (end 0.0 0.0)
            (stroke (width 0.0))
            (fill (type none))
          )
          (pin power_in line (at 2 3 90) (length 2.54) hide
            (name ""~{RST}"" (effects (font (face ""A \""b\"" \c"") (size 1.27 2) (color 255 0 128 0.5) (thickness 0.3) bold italic (line_spacing 1.1)) (justify right top mirror) (href ""https://x.y/(z)"") hide))
            (number ""12"")
            (alternate """" input line)
            (alternate """" input line)
          )
        )
      )
    )

    (symbol ""Amplifier:LM 358"" (extends ""LM \""X\"""") (power) (pin_numbers hide) (pin_names (offset 0.5) hide) (in_bom yes) (on_board no)
      (property ""Sheet name"" ""a\b\"""" (id 3) (at 1 2.5 90) (show_name)
        (effects (font (face ""A \""b\"" \c"") (size 1.27 2) (color 255 0 128 0.5) (thickness 0.3) bold italic (line_spacing 1.1)) (justify right top mirror) (href ""https://x.y/(z)"") hide)
      )
      (property ""Sheet name"" ""a\b\"""" (id 3) (at 1 2.5 90) (show_name)
        (effects (font (face ""A \""b\"" \c"") (size 1.27 2) (color 255 0 128 0.5) (thickness 0.3) bold italic (line_spacing 1.1)) (justify right top mirror) (href ""https://x.y/(z)"") hide)
      )
      (circle (center 0.0 0.0) (radius 0.0)
        (stroke (width 0.0))
        (fill (type none))
      )
      (text """" (at 0.0 0.0)
        (effects (font (size 1.0 1.0)))
      )
      (pin power_in line (at 2 3 90) (length 2.54) hide
        (name ""~{RST}"" (effects (font (face ""A \""b\"" \c"") (size 1.27 2) (color 255 0 128 0.5) (thickness 0.3) bold italic (line_spacing 1.1)) (justify right top mirror) (href ""https://x.y/(z)"") hide))
        (number ""12"")
        (alternate """" input line)
        (alternate """" input line)
      )
      (pin input line (at 0.0 0.0) (length 0.254) (name """") (number ""0""))
      (symbol ""LM 358_0_1""
        (rectangle (start 0.0 0.0) (end 0.0 0.0)
          (stroke (width 0.0))
          (fill (type none))
        )
        (arc (start 0.0 0.0) (mid 0.0 0.0) (end 0.0 0.0)
          (stroke (width 0.0))
          (fill (type none))
        )
        (pin power_in line (at 2 3 90) (length 2.54) hide
          (name ""~{RST}"" (effects (font (face ""A \""b\"" \c"") (size 1.27 2) (color 255 0 128 0.5) (thickness 0.3) bold italic (line_spacing 1.1)) (justify right top mirror) (href ""https://x.y/(z)"") hide))
          (number ""12"")
          (alternate """" input line)
          (alternate """" input line)
        )
      )
      (symbol ""LM 358_1_1""
        (rectangle (start 0.0 0.0) (end 0.0 0.0)
          (stroke (width 0.0))
          (fill (type none))
        )
        (arc (start 0.0 0.0) (mid 0.0 0.0) (end 0.0 0.0)
          (stroke (width 0.0))
          (fill (type none))
        )
        (pin power_in line (at 2 3 90) (length 2.54) hide
          (name ""~{RST}"" (effects (font (face ""A \""b\"" \c"") (size 1.27 2) (color 255 0 128 0.5) (thickness 0.3) bold italic (line_spacing 1.1)) (justify right top mirror) (href ""https://x.y/(z)"") hide))
          (number ""12"")
          (alternate """" input line)
          (alternate """" input line)
        )
        (symbol ""LM 358_7_1""
          (rectangle (start 0.0 0.0) (end 0.0 0.0)
            (stroke (width 0.0))
            (fill (type none))
          )
          (arc (start 0.0 0.0) (mid 0.0 0.0) (end 0.0 0.0)
            (stroke (width 0.0))
            (fill (type none))
          )
          (pin power_in line (at 2 3 90) (length 2.54) hide
            (name ""~{RST}"" (effects (font (face ""A \""b\"" \c"") (size 1.27 2) (color 255 0 128 0.5) (thickness 0.3) bold italic (line_spacing 1.1)) (justify right top mirror) (href ""https://x.y/(z)"") hide))
            (number ""12"")
            (alternate """" input line)
            (alternate """" input line)
          )
        )
        (symbol ""LM 358_8_1""
          (rectangle (start 0.0 0.0) (end 0.0 0.0)
            (stroke (width 0.0))
            (fill (type none))
          )
          (arc (start 0.0 0.0) (mid 0.0 0.0) (end 0.0 0.0)
            (stroke (width 0.0))
            (fill (type none))
          )
          (pin power_in line (at 2 3 90) (length 2.54) hide
            (name ""~{RST}"" (effects (font (face ""A \""b\"" \c"") (size 1.27 2) (color 255 0 128 0.5) (thickness 0.3) bold italic (line_spacing 1.1)) (justify right top mirror) (href ""https://x.y/(z)"") hide))
            (number ""12"")
            (alternate """" input line)
            (alternate """" input line)
          )
        )
      )
    )
  )

  (junction (at 123.45 -7) (diameter 0) (color 255 0 128 0.5)
    (uuid 7c2f5ab1-44ff-4a1c-b96d-28f9f3a0fd1e)
  )
  (junction (at 0.0 0.0) (diameter 0) (color 0 0 0 0)  )

  (no_connect (at 123.45 -7) (uuid 7c2f5ab1-44ff-4a1c-b96d-28f9f3a0fd1e))

  (bus_entry (at 123.45 -7) (size 2.54 3)
    (stroke (width 0.254) (type dash_dot) (color 255 0 128 0.5))
    (uuid 7c2f5ab1-44ff-4a1c-b96d-28f9f3a0fd1e)
  )

  (bus_alias ""a \""b\"""" (members ""A[0..7]"" """"))

  (bus (pts (xy 123.45 -7) (xy 1 0.5))
    (stroke (width 0.254) (type dash_dot) (color 255 0 128 0.5))
    (uuid 7c2f5ab1-44ff-4a1c-b96d-28f9f3a0fd1e)
  )
  (polyline (pts (xy 123.45 -7) (xy 1 0.5))
    (stroke (width 0.254) (type dash_dot) (color 255 0 128 0.5))
    (uuid 7c2f5ab1-44ff-4a1c-b96d-28f9f3a0fd1e)
  )
  (wire (pts (xy 123.45 -7) (xy 1 0.5))
    (stroke (width 0.254) (type dash_dot) (color 255 0 128 0.5))
    (uuid 7c2f5ab1-44ff-4a1c-b96d-28f9f3a0fd1e)
  )

  (circle (center 123.45 -7) (radius 1.5)
    (stroke (width 0.254) (type dash_dot) (color 255 0 128 0.5))
    (fill (type color) (color 255 0 128 0.5))
    (uuid 7c2f5ab1-44ff-4a1c-b96d-28f9f3a0fd1e)
  )
  (arc (start 0.0 0.0) (mid 0.0 0.0) (end 0.0 0.0)
    (stroke (width 0.0))
    (fill (type none))
  )
  (rectangle (start 0.0 0.0) (end 0.0 0.0)
    (stroke (width 0.0))
    (fill (type none))
  )

  (image (at 12.34 5) (scale 0.5)
    (uuid a-b-c)
    (data
      iVBORw0KGgo=
      12
    )
  )

  (text_box ""a \""b\""""
    (at 123.45 7 270) (size 3 0.001)
    (stroke (width 0.254) (type dash_dot) (color 255 0 128 0.5))
    (fill (type color) (color 255 0 128 0.5))
    (effects (font (face ""A \""b\"" \c"") (size 1.27 2) (color 255 0 128 0.5) (thickness 0.3) bold italic (line_spacing 1.1)) (justify right top mirror) (href ""https://x.y/(z)"") hide)
    (uuid 7c2f5ab1-44ff-4a1c-b96d-28f9f3a0fd1e)
  )

  (text ""0123456789 0123456789 0123456789 (\""0123456789\"") 0123456""
    (at 123.45 7 270)
    (effects (font (face ""A \""b\"" \c"") (size 1.27 2) (color 255 0 128 0.5) (thickness 0.3) bold italic (line_spacing 1.1)) (justify right top mirror) (href ""https://x.y/(z)"") hide)
    (uuid 7c2f5ab1-44ff-4a1c-b96d-28f9f3a0fd1e)
  )

  (label ""a \""b\"""" (at 123.45 7 270) (fields_autoplaced)
    (effects (font (face ""A \""b\"" \c"") (size 1.27 2) (color 255 0 128 0.5) (thickness 0.3) bold italic (line_spacing 1.1)) (justify right top mirror) (href ""https://x.y/(z)"") hide)
    (uuid 7c2f5ab1-44ff-4a1c-b96d-28f9f3a0fd1e)
  )

  (global_label ""a \""b\"""" (shape bidirectional) (at 123.45 7 270) (fields_autoplaced)
    (effects (font (face ""A \""b\"" \c"") (size 1.27 2) (color 255 0 128 0.5) (thickness 0.3) bold italic (line_spacing 1.1)) (justify right top mirror) (href ""https://x.y/(z)"") hide)
    (uuid 7c2f5ab1-44ff-4a1c-b96d-28f9f3a0fd1e)
    (property ""Sheet name"" ""a\b\"""" (id 3) (at 1 2.5 90) (show_name)
      (effects (font (face ""A \""b\"" \c"") (size 1.27 2) (color 255 0 128 0.5) (thickness 0.3) bold italic (line_spacing 1.1)) (justify right top mirror) (href ""https://x.y/(z)"") hide)
    )
    (property ""Sheet name"" ""a\b\"""" (id 3) (at 1 2.5 90) (show_name)
      (effects (font (face ""A \""b\"" \c"") (size 1.27 2) (color 255 0 128 0.5) (thickness 0.3) bold italic (line_spacing 1.1)) (justify right top mirror) (href ""https://x.y/(z)"") hide)
    )
  )

  (hierarchical_label ""a \""b\"""" (shape output) (at 123.45 7 270) (fields_autoplaced)
    (effects (font (face ""A \""b\"" \c"") (size 1.27 2) (color 255 0 128 0.5) (thickness 0.3) bold italic (line_spacing 1.1)) (justify right top mirror) (href ""https://x.y/(z)"") hide)
    (uuid 7c2f5ab1-44ff-4a1c-b96d-28f9f3a0fd1e)
  )

  (netclass_flag ""a \""b\"""" (length 2.54) (shape dot) (at 123.45 7 270) (fields_autoplaced)
    (effects (font (face ""A \""b\"" \c"") (size 1.27 2) (color 255 0 128 0.5) (thickness 0.3) bold italic (line_spacing 1.1)) (justify right top mirror) (href ""https://x.y/(z)"") hide)
    (uuid 7c2f5ab1-44ff-4a1c-b96d-28f9f3a0fd1e)
    (property ""Sheet name"" ""a\b\"""" (id 3) (at 1 2.5 90) (show_name)
      (effects (font (face ""A \""b\"" \c"") (size 1.27 2) (color 255 0 128 0.5) (thickness 0.3) bold italic (line_spacing 1.1)) (justify right top mirror) (href ""https://x.y/(z)"") hide)
    )
    (property ""Sheet name"" ""a\b\"""" (id 3) (at 1 2.5 90) (show_name)
      (effects (font (face ""A \""b\"" \c"") (size 1.27 2) (color 255 0 128 0.5) (thickness 0.3) bold italic (line_spacing 1.1)) (justify right top mirror) (href ""https://x.y/(z)"") hide)
    )
  )

  (symbol (lib_name ""R_1"") (lib_id ""Device:R:x_1_2"") (at 123.45 7 270) (mirror x) (unit 2)
    (in_bom yes) (on_board no) (dnp no) (fields_autoplaced)
    (uuid 7c2f5ab1-44ff-4a1c-b96d-28f9f3a0fd1e)
    (property ""Sheet name"" ""a\b\"""" (id 3) (at 1 2.5 90) (show_name)
      (effects (font (face ""A \""b\"" \c"") (size 1.27 2) (color 255 0 128 0.5) (thickness 0.3) bold italic (line_spacing 1.1)) (justify right top mirror) (href ""https://x.y/(z)"") hide)
    )
    (property ""Sheet name"" ""a\b\"""" (id 3) (at 1 2.5 90) (show_name)
      (effects (font (face ""A \""b\"" \c"") (size 1.27 2) (color 255 0 128 0.5) (thickness 0.3) bold italic (line_spacing 1.1)) (justify right top mirror) (href ""https://x.y/(z)"") hide)
    )
    (pin ""1"" (uuid 7c2f5ab1-44ff-4a1c-b96d-28f9f3a0fd1e))
    (pin ""A \""2\"""" (uuid abc-12))
    (instances
      (project ""my \""project\""""
        (path ""/00000000-0000-0000-0000-00005f325e1e""
          (reference ""U 1"") (unit 1)
        )
        (path ""/00000000-0000-0000-0000-00005f325e1e""
          (reference ""U 1"") (unit 2)
        )
      )
      (project """"
      )
    )
  )

  (symbol (lib_name ""R_1"") (lib_id ""Device:R:x_1_2"") (at 123.45 7 270) (mirror x) (unit 2)
    (in_bom yes) (on_board no) (dnp no) (fields_autoplaced)
    (uuid 7c2f5ab1-44ff-4a1c-b96d-28f9f3a0fd1e)
    (property ""Sheet name"" ""a\b\"""" (id 3) (at 1 2.5 90) (show_name)
      (effects (font (face ""A \""b\"" \c"") (size 1.27 2) (color 255 0 128 0.5) (thickness 0.3) bold italic (line_spacing 1.1)) (justify right top mirror) (href ""https://x.y/(z)"") hide)
    )
    (property ""Sheet name"" ""a\b\"""" (id 3) (at 1 2.5 90) (show_name)
      (effects (font (face ""A \""b\"" \c"") (size 1.27 2) (color 255 0 128 0.5) (thickness 0.3) bold italic (line_spacing 1.1)) (justify right top mirror) (href ""https://x.y/(z)"") hide)
    )
    (pin ""1"" (uuid 7c2f5ab1-44ff-4a1c-b96d-28f9f3a0fd1e))
    (pin ""A \""2\"""" (uuid abc-12))
    (instances
      (project ""my \""project\""""
        (path ""/00000000-0000-0000-0000-00005f325e1e""
          (reference ""U 1"") (unit 1)
        )
        (path ""/00000000-0000-0000-0000-00005f325e1e""
          (reference ""U 1"") (unit 2)
        )
      )
      (project """"
      )
    )
  )

  (sheet (at 123.45 -7) (size 30 45.72) (fields_autoplaced)
    (stroke (width 0.254) (type dash_dot) (color 255 0 128 0.5))
    (fill (color 1 2 255 0.1234))
    (uuid 7c2f5ab1-44ff-4a1c-b96d-28f9f3a0fd1e)
    (property ""Sheetname"" ""a\b\"""" (id 3) (at 1 2.5 90) (show_name)
      (effects (font (face ""A \""b\"" \c"") (size 1.27 2) (color 255 0 128 0.5) (thickness 0.3) bold italic (line_spacing 1.1)) (justify right top mirror) (href ""https://x.y/(z)"") hide)
    )
    (property ""Sheet file"" ""a\b\"""" (id 3) (at 1 2.5 90) (show_name)
      (effects (font (face ""A \""b\"" \c"") (size 1.27 2) (color 255 0 128 0.5) (thickness 0.3) bold italic (line_spacing 1.1)) (justify right top mirror) (href ""https://x.y/(z)"") hide)
    )
    (property ""a \""b\"""" ""a\b\"""" (id 3) (at 1 2.5 90) (show_name)
      (effects (font (face ""A \""b\"" \c"") (size 1.27 2) (color 255 0 128 0.5) (thickness 0.3) bold italic (line_spacing 1.1)) (justify right top mirror) (href ""https://x.y/(z)"") hide)
    )
    (property ""Field2"" ""a\b\"""" (id 3) (at 1 2.5 90) (show_name)
      (effects (font (face ""A \""b\"" \c"") (size 1.27 2) (color 255 0 128 0.5) (thickness 0.3) bold italic (line_spacing 1.1)) (justify right top mirror) (href ""https://x.y/(z)"") hide)
    )
    (pin ""a \""b\"""" tri_state (at 123.45 7 270)
      (effects (font (face ""A \""b\"" \c"") (size 1.27 2) (color 255 0 128 0.5) (thickness 0.3) bold italic (line_spacing 1.1)) (justify right top mirror) (href ""https://x.y/(z)"") hide)
      (uuid 7c2f5ab1-44ff-4a1c-b96d-28f9f3a0fd1e)
    )
    (pin """" input (at 0.0 0.0)
      (effects (font (size 1.0 1.0)))
    )
    (instances
      (project ""my \""project\""""
        (path ""/a b/c"" (page ""2 \""a\""""))
        (path ""/a b/c"" (page ""2 \""a\""""))
      )
    )
  )

  (sheet (at 123.45 -7) (size 30 45.72) (fields_autoplaced)
    (stroke (width 0.254) (type dash_dot) (color 255 0 128 0.5))
    (fill (color 1 2 255 0.1234))
    (uuid 7c2f5ab1-44ff-4a1c-b96d-28f9f3a0fd1e)
    (property ""Sheetname"" ""a\b\"""" (id 3) (at 1 2.5 90) (show_name)
      (effects (font (face ""A \""b\"" \c"") (size 1.27 2) (color 255 0 128 0.5) (thickness 0.3) bold italic (line_spacing 1.1)) (justify right top mirror) (href ""https://x.y/(z)"") hide)
    )
    (property ""Sheet file"" ""a\b\"""" (id 3) (at 1 2.5 90) (show_name)
      (effects (font (face ""A \""b\"" \c"") (size 1.27 2) (color 255 0 128 0.5) (thickness 0.3) bold italic (line_spacing 1.1)) (justify right top mirror) (href ""https://x.y/(z)"") hide)
    )
    (property ""a \""b\"""" ""a\b\"""" (id 3) (at 1 2.5 90) (show_name)
      (effects (font (face ""A \""b\"" \c"") (size 1.27 2) (color 255 0 128 0.5) (thickness 0.3) bold italic (line_spacing 1.1)) (justify right top mirror) (href ""https://x.y/(z)"") hide)
    )
    (property ""Field2"" ""a\b\"""" (id 3) (at 1 2.5 90) (show_name)
      (effects (font (face ""A \""b\"" \c"") (size 1.27 2) (color 255 0 128 0.5) (thickness 0.3) bold italic (line_spacing 1.1)) (justify right top mirror) (href ""https://x.y/(z)"") hide)
    )
    (pin ""a \""b\"""" tri_state (at 123.45 7 270)
      (effects (font (face ""A \""b\"" \c"") (size 1.27 2) (color 255 0 128 0.5) (thickness 0.3) bold italic (line_spacing 1.1)) (justify right top mirror) (href ""https://x.y/(z)"") hide)
      (uuid 7c2f5ab1-44ff-4a1c-b96d-28f9f3a0fd1e)
    )
    (pin """" input (at 0.0 0.0)
      (effects (font (size 1.0 1.0)))
    )
    (instances
      (project ""my \""project\""""
        (path ""/a b/c"" (page ""2 \""a\""""))
        (path ""/a b/c"" (page ""2 \""a\""""))
      )
    )
  )

  (sheet_instances
    (path ""/"" (page ""1""))
    (path ""/a b/c"" (page ""2 \""a\""""))
  )

  (symbol_instances
    (path ""/a b/c""
      (reference ""U1"") (unit 2) (value ""1 \""k\"""") (footprint ""Lib:F (x)"")
    )
  )
)" = true.
Proof. vm_compute. reflexivity. Qed.

Theorem C51_WksFontSize : kept WksFontSize_to WksFontSize_from WksFontSize_typed (fun _ => true) WksFontSize_eqb.
Proof. exact (kept_ok WksFontSize_rt WksFontSize_t). Qed.
Print Assumptions C51_WksFontSize.
Example C51_WksFontSize_case : meets WksFontSize_from WksFontSize_typed (fun _ => true) "(size 1.3 2)" = true.
Proof. vm_compute. reflexivity. Qed.

Theorem C51_WksFont : kept WksFont_to WksFont_from WksFont_typed (fun o => negb (WksFont_empty o)) WksFont_eqb.
Proof. exact (kept_empty WksFont_rt1 WksFont_t). Qed.
Print Assumptions C51_WksFont.
Example C51_WksFont_case : meets WksFont_from WksFont_typed (fun o => negb (WksFont_empty o)) "(font (linewidth 0.15) (size 1.3 2) bold italic)" = true.
Proof. vm_compute. reflexivity. Qed.

Theorem C51_Line : kept Line_to Line_from Line_typed (fun _ => true) Line_eqb.
Proof. exact (kept_ok Line_rt Line_t). Qed.
Print Assumptions C51_Line.
Example C51_Line_case : meets Line_from Line_typed (fun _ => true) "(line (name ""a \""b\"""") (start 2.5 7 ltcorner) (end 2.5 7) (option page1only) (linewidth 0.15) (repeat 3) (incrx 5) (incry 0.5) (comment ""c (d)"")
)" = true.
Proof. vm_compute. reflexivity. Qed.

Theorem C51_Rect : kept Rect_to Rect_from Rect_typed (fun _ => true) Rect_eqb.
Proof. exact (kept_ok Rect_rt Rect_t). Qed.
Print Assumptions C51_Rect.
Example C51_Rect_case : meets Rect_from Rect_typed (fun _ => true) "(rect (name ""a \""b\"""") (start 2.5 7 ltcorner) (end 2.5 7) (option page1only) (linewidth 0.15) (repeat 3) (incrx 5) (incry 0.5) (comment ""c (d)"")
)" = true.
Proof. vm_compute. reflexivity. Qed.

Theorem C51_Bitmap : kept Bitmap_to Bitmap_from Bitmap_typed (fun _ => true) Bitmap_eqb.
Proof. exact (kept_ok Bitmap_rt Bitmap_t). Qed.
Print Assumptions C51_Bitmap.
Example C51_Bitmap_case : meets Bitmap_from Bitmap_typed (fun _ => true) "(bitmap (name ""a \""b\"""") (pos 2.5 7 ltcorner) (option notonpage1) (scale 0.5) (repeat 2) (incrx 5) (incry 0.5)
 (comment ""c (d)"")
(pngdata
  (data ""89 50 4E 47 "")
  (data ""0D 0A "")
  )
)" = true.
Proof. vm_compute. reflexivity. Qed.

Theorem C51_TbText : kept TbText_to TbText_from TbText_typed TbText_whole TbText_eqb.
Proof. exact (kept_then TbText_rt TbText_t). Qed.
Print Assumptions C51_TbText.
Example C51_TbText_case : meets TbText_from TbText_typed TbText_whole "(tbtext ""Id: \""${#}\"" (x)"" (name ""n"") (pos 2.5 7 ltcorner) (option page1only) (rotate 90) (font (linewidth 0.15) (size 1.3 2) bold italic) (justify right top mirror) (maxlen 70) (maxheight 3.5) (repeat 2) (incrx 5) (incry 0.5) (incrlabel 1) (comment ""c (d)"")
)" = true.
Proof. vm_compute. reflexivity. Qed.

Theorem C51_TextSize : kept TextSize_to TextSize_from TextSize_typed (fun _ => true) TextSize_eqb.
Proof. exact (kept_ok TextSize_rt TextSize_t). Qed.
Print Assumptions C51_TextSize.
Example C51_TextSize_case : meets TextSize_from TextSize_typed (fun _ => true) "(textsize 1.5 2)" = true.
Proof. vm_compute. reflexivity. Qed.

Theorem C51_Setup : kept Setup_to Setup_from Setup_typed (fun _ => true) Setup_eqb.
Proof. exact (kept_ok Setup_rt Setup_t). Qed.
Print Assumptions C51_Setup.
Example C51_Setup_case : meets Setup_from Setup_typed (fun _ => true) "(setup (textsize 1.5 2)(linewidth 0.15)(textlinewidth 1)
(left_margin 10)(right_margin 10.5)(top_margin 11)(bottom_margin 12))" = true.
Proof. vm_compute. reflexivity. Qed.

Theorem C51_WorkSheet : kept WorkSheet_to WorkSheet_from WorkSheet_typed WorkSheet_whole WorkSheet_eqb.
Proof. exact (kept_then WorkSheet_rt WorkSheet_t). Qed.
Print Assumptions C51_WorkSheet.
Example C51_WorkSheet_case : meets WorkSheet_from WorkSheet_typed WorkSheet_whole "(kicad_wks (version 20220228) (generator pl_editor)
  (setup (textsize 1.5 2)(linewidth 0.15)(textlinewidth 1)
  (left_margin 10)(right_margin 10.5)(top_margin 11)(bottom_margin 12))
  (tbtext ""Id: \""${#}\"" (x)"" (name ""n"") (pos 2.5 7 ltcorner) (option page1only) (rotate 90) (font (linewidth 0.15) (size 1.3 2) bold italic) (justify right top mirror) (maxlen 70) (maxheight 3.5) (repeat 2) (incrx 5) (incry 0.5) (incrlabel 1) (comment ""c (d)"")
)
  (line (name """") (start 0.0 0.0) (end 0.0 0.0))
  (rect (name """") (start 0.0 0.0) (end 0.0 0.0))
  (bitmap (name ""a \""b\"""") (pos 2.5 7 ltcorner) (option notonpage1) (scale 0.5) (repeat 2) (incrx 5) (incry 0.5)
 (comment ""c (d)"")
  (pngdata
    (data ""89 50 4E 47 "")
    (data ""0D 0A "")
    )
  )
  (tbtext """" (name """") (pos 0.0 0.0))
)" = true.
Proof. vm_compute. reflexivity. Qed.

Theorem C51_Symbol : kept Symbol_to Symbol_from Symbol_typed Symbol_whole Symbol_eqb.
Proof. exact (kept_then Symbol_rt Symbol_t). Qed.
Print Assumptions C51_Symbol.
Example C51_Symbol_case : meets Symbol_from Symbol_typed Symbol_whole "(symbol ""Amplifier:LM 358"" (extends ""LM \""X\"""") (power) (pin_numbers hide) (pin_names (offset 0.5) hide) (in_bom yes) (on_board no)
  (property ""Sheet name"" ""a\b\"""" (id 3) (at 1 2.5 90) (show_name)
    (effects (font (face ""A \""b\"" \c"") (size 1.27 2) (color 255 0 128 0.5) (thickness 0.3) bold italic (line_spacing 1.1)) (justify right top mirror) (href ""https://x.y/(z)"") hide)
  )
  (property ""Sheet name"" ""a\b\"""" (id 3) (at 1 2.5 90) (show_name)
    (effects (font (face ""A \""b\"" \c"") (size 1.27 2) (color 255 0 128 0.5) (thickness 0.3) bold italic (line_spacing 1.1)) (justify right top mirror) (href ""https://x.y/(z)"") hide)
  )
  (circle (center 0.0 0.0) (radius 0.0)
    (stroke (width 0.0))
    (fill (type none))
  )
  (text """" (at 0.0 0.0)
    (effects (font (size 1.0 1.0)))
  )
  (pin power_in line (at 2 3 90) (length 2.54) hide
    (name ""~{RST}"" (effects (font (face ""A \""b\"" \c"") (size 1.27 2) (color 255 0 128 0.5) (thickness 0.3) bold italic (line_spacing 1.1)) (justify right top mirror) (href ""https://x.y/(z)"") hide))
    (number ""12"")
    (alternate """" input line)
    (alternate """" input line)
  )
  (pin input line (at 0.0 0.0) (length 0.254) (name """") (number ""0""))
  (symbol ""LM 358_0_1""
    (rectangle (start 0.0 0.0) (end 0.0 0.0)
      (stroke (width 0.0))
      (fill (type none))
    )
    (arc (start 0.0 0.0) (mid 0.0 0.0) (end 0.0 0.0)
      (stroke (width 0.0))
      (fill (type none))
    )
    (pin power_in line (at 2 3 90) (length 2.54) hide
      (name ""~{RST}"" (effects (font (face ""A \""b\"" \c"") (size 1.27 2) (color 255 0 128 0.5) (thickness 0.3) bold italic (line_spacing 1.1)) (justify right top mirror) (href ""https://x.y/(z)"") hide))
      (number ""12"")
      (alternate """" input line)
      (alternate """" input line)
    )
  )
  (symbol ""LM 358_1_1""
    (rectangle (start 0.0 0.0) (end 0.0 0.0)
      (stroke (width 0.0))
      (fill (type none))
    )
    (arc (start 0.0 0.0) (mid 0.0 0.0) (end 0.0 0.0)
      (stroke (width 0.0))
      (fill (type none))
    )
    (pin power_in line (at 2 3 90) (length 2.54) hide
      (name ""~{RST}"" (effects (font (face ""A \""b\"" \c"") (size 1.27 2) (color 255 0 128 0.5) (thickness 0.3) bold italic (line_spacing 1.1)) (justify right top mirror) (href ""https://x.y/(z)"") hide))
      (number ""12"")
      (alternate """" input line)
      (alternate """" input line)
    )
    (symbol ""LM 358_7_1""
      (rectangle (start 0.0 0.0) (end 0.0 0.0)
        (stroke (width 0.0))
        (fill (type none))
      )
      (arc (start 0.0 0.0) (mid 0.0 0.0) (end 0.0 0.0)
        (stroke (width 0.0))
        (fill (type none))
      )
      (pin power_in line (at 2 3 90) (length 2.54) hide
        (name ""~{RST}"" (effects (font (face ""A \""b\"" \c"") (size 1.27 2) (color 255 0 128 0.5) (thickness 0.3) bold italic (line_spacing 1.1)) (justify right top mirror) (href ""https://x.y/(z)"") hide))
        (number ""12"")
        (alternate """" input line)
        (alternate """" input line)
      )
    )
    (symbol ""LM 358_8_1""
      (rectangle (start 0.0 0.0) (end 0.0 0.0)
        (stroke (width 0.0))
        (fill (type none))
      )
      (arc (start 0.0 0.0) (mid 0.0 0.0) (end 0.0 0.0)
        (stroke (width 0.0))
        (fill (type none))
      )
      (pin power_in line (at 2 3 90) (length 2.54) hide
        (name ""~{RST}"" (effects (font (face ""A \""b\"" \c"") (size 1.27 2) (color 255 0 128 0.5) (thickness 0.3) bold italic (line_spacing 1.1)) (justify right top mirror) (href ""https://x.y/(z)"") hide))
        (number ""12"")
        (alternate """" input line)
        (alternate """" input line)
      )
    )
  )
)" = true.
Proof. vm_compute. reflexivity. Qed.

(** The object must have all it needs: for each class with a condition [X_whole], texts of the right kinds
    whose object cannot be saved, or is not the same when it is loaded again. *)
Definition lost {A} (to : A -> nat -> bool -> res str) (from : val -> res A) (typed : val -> bool) (same : A -> A -> bool) (t : string) : bool :=
  match parse_sexp (lit t) with
  | Ok v => typed v && match from v with
    | Ok o => match write_read to from o 0 false with Ok o' => negb (same o o') | Err _ => true end
    | Err _ => false end
  | Err _ => false
  end.
Arguments lost {A} _ _ _ _ _%string.
Lemma lossy {A} (to : A -> nat -> bool -> res str) from typed same t :
  lost to from typed same t = true -> ~ kept to from typed (fun _ => true) same.
Proof.
  unfold lost. destruct (parse_sexp (lit t)) as [v|]; [|discriminate]. intros H K.
  apply andb_true_iff in H. destruct H as [T H]. destruct (from v) as [o|] eqn:F; [|discriminate].
  destruct (K v o T F eq_refl 0 false) as (o' & W & S & _). rewrite W, S in H. discriminate.
Qed.

Theorem C51_Group_refuted : ~ kept Group_to Group_from Group_typed (fun _ => true) Group_eqb.
Proof. apply (lossy _ _ _ _ "(group ""a"")"). vm_compute. reflexivity. Qed.
Print Assumptions C51_Group_refuted.

Theorem C51_SymbolLib_refuted : ~ kept SymbolLib_to SymbolLib_from SymbolLib_typed (fun _ => true) SymbolLib_eqb.
Proof. apply (lossy _ _ _ _ "(kicad_symbol_lib (generator x))"). vm_compute. reflexivity. Qed.
Print Assumptions C51_SymbolLib_refuted.

Example C51_SymbolLib_lost2 : lost SymbolLib_to SymbolLib_from SymbolLib_typed SymbolLib_eqb "(kicad_symbol_lib (version 20211014))" = true.
Proof. vm_compute. reflexivity. Qed.

Theorem C51_FpLine_refuted : ~ kept FpLine_to FpLine_from FpLine_typed (fun _ => true) FpLine_eqb.
Proof. apply (lossy _ _ _ _ "(fp_line locked (start 1 2) (end 3 4) (layer ""F.Fab"") (width 0.1))"). vm_compute. reflexivity. Qed.
Print Assumptions C51_FpLine_refuted.

Theorem C51_FpPoly_refuted : ~ kept FpPoly_to FpPoly_from FpPoly_typed (fun _ => true) FpPoly_eqb.
Proof. apply (lossy _ _ _ _ "(fp_poly (pts) (layer ""F.Fab"") (width 0.1))"). vm_compute. reflexivity. Qed.
Print Assumptions C51_FpPoly_refuted.

Theorem C51_FpCurve_refuted : ~ kept FpCurve_to FpCurve_from FpCurve_typed (fun _ => true) FpCurve_eqb.
Proof. apply (lossy _ _ _ _ "(fp_curve (pts) (layer ""F.Fab"") (width 0.1))"). vm_compute. reflexivity. Qed.
Print Assumptions C51_FpCurve_refuted.

Theorem C51_FpTextBox_refuted : ~ kept FpTextBox_to FpTextBox_from FpTextBox_typed (fun _ => true) FpTextBox_eqb.
Proof. apply (lossy _ _ _ _ "(fp_text_box ""a"" (layer ""F.Fab""))"). vm_compute. reflexivity. Qed.
Print Assumptions C51_FpTextBox_refuted.

Example C51_FpTextBox_lost2 : lost FpTextBox_to FpTextBox_from FpTextBox_typed FpTextBox_eqb "(fp_text_box ""a"" (start 1 2) (end 3 4) (pts (xy 1 2)) (layer ""F.Fab""))" = true.
Proof. vm_compute. reflexivity. Qed.

Theorem C51_GrPoly_refuted : ~ kept GrPoly_to GrPoly_from GrPoly_typed (fun _ => true) GrPoly_eqb.
Proof. apply (lossy _ _ _ _ "(gr_poly (pts) (layer ""F.Fab"") (width 0.1))"). vm_compute. reflexivity. Qed.
Print Assumptions C51_GrPoly_refuted.

Theorem C51_GrCurve_refuted : ~ kept GrCurve_to GrCurve_from GrCurve_typed (fun _ => true) GrCurve_eqb.
Proof. apply (lossy _ _ _ _ "(gr_curve (pts) (layer ""F.Fab"") (width 0.1))"). vm_compute. reflexivity. Qed.
Print Assumptions C51_GrCurve_refuted.

Theorem C51_GrTextBox_refuted : ~ kept GrTextBox_to GrTextBox_from GrTextBox_typed (fun _ => true) GrTextBox_eqb.
Proof. apply (lossy _ _ _ _ "(gr_text_box ""a"" (layer ""F.Fab""))"). vm_compute. reflexivity. Qed.
Print Assumptions C51_GrTextBox_refuted.

Theorem C51_FillSettings_refuted : ~ kept FillSettings_to FillSettings_from FillSettings_typed (fun _ => true) FillSettings_eqb.
Proof. apply (lossy _ _ _ _ "(fill yes (thermal_gap 0.5))"). vm_compute. reflexivity. Qed.
Print Assumptions C51_FillSettings_refuted.

Theorem C51_ZonePolygon_refuted : ~ kept ZonePolygon_to ZonePolygon_from ZonePolygon_typed (fun _ => true) ZonePolygon_eqb.
Proof. apply (lossy _ _ _ _ "(polygon (pts))"). vm_compute. reflexivity. Qed.
Print Assumptions C51_ZonePolygon_refuted.

Theorem C51_FilledPolygon_refuted : ~ kept FilledPolygon_to FilledPolygon_from FilledPolygon_typed (fun _ => true) FilledPolygon_eqb.
Proof. apply (lossy _ _ _ _ "(filled_polygon (layer ""F.Cu"") (pts))"). vm_compute. reflexivity. Qed.
Print Assumptions C51_FilledPolygon_refuted.

Theorem C51_FillSegments_refuted : ~ kept FillSegments_to FillSegments_from FillSegments_typed (fun _ => true) FillSegments_eqb.
Proof. apply (lossy _ _ _ _ "(fill_segments (layer ""F.Cu"") (pts))"). vm_compute. reflexivity. Qed.
Print Assumptions C51_FillSegments_refuted.

Theorem C51_Zone_refuted : ~ kept Zone_to Zone_from Zone_typed (fun _ => true) Zone_eqb.
Proof. apply (lossy _ _ _ _ "(zone (net 1) (net_name ""GND"") (hatch edge 0.5))"). vm_compute. reflexivity. Qed.
Print Assumptions C51_Zone_refuted.

Theorem C51_DrillDefinition_refuted : ~ kept DrillDefinition_to DrillDefinition_from DrillDefinition_typed (fun _ => true) DrillDefinition_eqb.
Proof. apply (lossy _ _ _ _ "(drill 0.8 0.9)"). vm_compute. reflexivity. Qed.
Print Assumptions C51_DrillDefinition_refuted.

Example C51_DrillDefinition_lost2 : lost DrillDefinition_to DrillDefinition_from DrillDefinition_typed DrillDefinition_eqb "(drill 0.8 0.9)" = true.
Proof. vm_compute. reflexivity. Qed.

Theorem C51_Footprint_refuted : ~ kept Footprint_to (Footprint_from (VStr $"0")) Footprint_typed (fun _ => true) Footprint_eqb.
Proof. apply (lossy _ _ _ _ "(footprint ""a"" (version 1) (generator x) (layer ""F.Cu"") (fp_line locked (start 1 2) (end 3 4) (layer ""F.Fab"") (width 0.1)))"). vm_compute. reflexivity. Qed.
Print Assumptions C51_Footprint_refuted.

Theorem C51_Dimension_refuted : ~ kept Dimension_to Dimension_from Dimension_typed (fun _ => true) Dimension_eqb.
Proof. apply (lossy _ _ _ _ "(dimension locked (type aligned) (layer ""F.Fab"") (tstamp 1) (pts (xy 1 2) (xy 3 4)) (height 1))"). vm_compute. reflexivity. Qed.
Print Assumptions C51_Dimension_refuted.

Example C51_Dimension_lost2 : lost Dimension_to Dimension_from Dimension_typed Dimension_eqb "(dimension (type aligned) (layer ""F.Fab"") (pts (xy 1 2) (xy 3 4)) (height 1))" = true.
Proof. vm_compute. reflexivity. Qed.

Example C51_Dimension_lost3 : lost Dimension_to Dimension_from Dimension_typed Dimension_eqb "(dimension (type aligned) (layer ""F.Fab"") (tstamp 1) (height 1))" = true.
Proof. vm_compute. reflexivity. Qed.

Theorem C51_PlotSettings_refuted : ~ kept PlotSettings_to PlotSettings_from PlotSettings_typed (fun _ => true) PlotSettings_eqb.
Proof. apply (lossy _ _ _ _ "(pcbplotparams (layerselection 0x1) (useauxorigin true))"). vm_compute. reflexivity. Qed.
Print Assumptions C51_PlotSettings_refuted.

Example C51_PlotSettings_lost2 : lost PlotSettings_to PlotSettings_from PlotSettings_typed PlotSettings_eqb "(pcbplotparams (usegerberextensions true))" = true.
Proof. vm_compute. reflexivity. Qed.

Theorem C51_SetupData_refuted : ~ kept SetupData_to SetupData_from SetupData_typed (fun _ => true) SetupData_eqb.
Proof. apply (lossy _ _ _ _ "(setup (pcbplotparams (layerselection 0x1) (useauxorigin true)))"). vm_compute. reflexivity. Qed.
Print Assumptions C51_SetupData_refuted.

Theorem C51_Segment_refuted : ~ kept Segment_to Segment_from Segment_typed (fun _ => true) Segment_eqb.
Proof. apply (lossy _ _ _ _ "(segment (start 1 2) (end 3 4) (width 0.2) (layer ""F.Cu"") (net 1))"). vm_compute. reflexivity. Qed.
Print Assumptions C51_Segment_refuted.

Theorem C51_Target_refuted : ~ kept Target_to Target_from Target_typed (fun _ => true) Target_eqb.
Proof. apply (lossy _ _ _ _ "(target plus (at 1 2) (size 1) (width 0.1) (layer ""F.Cu""))"). vm_compute. reflexivity. Qed.
Print Assumptions C51_Target_refuted.

Theorem C51_TbText_refuted : ~ kept TbText_to TbText_from TbText_typed (fun _ => true) TbText_eqb.
Proof. apply (lossy _ _ _ _ "(tbtext ""a"" (pos 1 2) (justify))"). vm_compute. reflexivity. Qed.
Print Assumptions C51_TbText_refuted.

Theorem C51_WorkSheet_refuted : ~ kept WorkSheet_to WorkSheet_from WorkSheet_typed (fun _ => true) WorkSheet_eqb.
Proof. apply (lossy _ _ _ _ "(kicad_wks (generator x) (setup (textsize 1 1)))"). vm_compute. reflexivity. Qed.
Print Assumptions C51_WorkSheet_refuted.

Example C51_WorkSheet_lost2 : lost WorkSheet_to WorkSheet_from WorkSheet_typed WorkSheet_eqb "(kicad_wks (version 1) (generator x) (setup (textsize 1 1)) (tbtext ""a"" (pos 1 2) (justify)))" = true.
Proof. vm_compute. reflexivity. Qed.

Theorem C51_Justify_refuted : ~ kept Justify_to Justify_from Justify_typed (fun _ => true) Justify_eqb.
Proof. apply (lossy _ _ _ _ "(justify)"). vm_compute. reflexivity. Qed.
Print Assumptions C51_Justify_refuted.

Theorem C51_Attributes_refuted : ~ kept Attributes_to Attributes_from Attributes_typed (fun _ => true) Attributes_eqb.
Proof. apply (lossy _ _ _ _ "(attr)"). vm_compute. reflexivity. Qed.
Print Assumptions C51_Attributes_refuted.

Theorem C51_WksFont_refuted : ~ kept WksFont_to WksFont_from WksFont_typed (fun _ => true) WksFont_eqb.
Proof. apply (lossy _ _ _ _ "(font)"). vm_compute. reflexivity. Qed.
Print Assumptions C51_WksFont_refuted.

Theorem C51_Net_refuted : ~ kept Net_to Net_from always (fun _ => true) Net_eqb.
Proof. apply (lossy _ _ _ _ "(net 1 5)"). vm_compute. reflexivity. Qed.
Print Assumptions C51_Net_refuted.

Theorem C51_Junction_refuted : ~ kept Junction_to Junction_from Junction_typed (fun _ => true) Junction_eqb.
Proof. apply (lossy _ _ _ _ "(junction (at 1 2) (diameter 0) (uuid abc))"). vm_compute. reflexivity. Qed.
Print Assumptions C51_Junction_refuted.

Theorem C51_HierarchicalSheet_refuted : ~ kept HierarchicalSheet_to HierarchicalSheet_from HierarchicalSheet_typed (fun _ => true) HierarchicalSheet_eqb.
Proof. apply (lossy _ _ _ _ "(sheet (at 1 2) (size 3 4) (uuid abc) (property ""Sheet name"" ""a"" (id 0)) (property ""Sheet file"" ""b"" (id 1)))"). vm_compute. reflexivity. Qed.
Print Assumptions C51_HierarchicalSheet_refuted.

Example C51_HierarchicalSheet_lost2 : lost HierarchicalSheet_to HierarchicalSheet_from HierarchicalSheet_typed HierarchicalSheet_eqb "(sheet (at 1 2) (size 3 4) (uuid abc) (property ""Sheet name"" ""a"" (id 0)))" = true.
Proof. vm_compute. reflexivity. Qed.

Example C51_HierarchicalSheet_lost3 : lost HierarchicalSheet_to HierarchicalSheet_from HierarchicalSheet_typed HierarchicalSheet_eqb "(sheet (at 1 2) (size 3 4) (uuid abc) (property ""Sheet file"" ""a"" (id 0)) (property ""Sheet name"" ""b"" (id 1)))" = true.
Proof. vm_compute. reflexivity. Qed.

Theorem C51_NetclassFlag_refuted : ~ kept NetclassFlag_to NetclassFlag_from NetclassFlag_typed (fun _ => true) NetclassFlag_eqb.
Proof. apply (lossy _ _ _ _ "(netclass_flag ""a"" (length 1) (shape round) (uuid abc))"). vm_compute. reflexivity. Qed.
Print Assumptions C51_NetclassFlag_refuted.

Theorem C51_Schematic_refuted : ~ kept Schematic_to Schematic_from Schematic_typed (fun _ => true) Schematic_eqb.
Proof. apply (lossy _ _ _ _ "(kicad_sch (version 1) (generator x) (uuid abc) (paper ""A4"") (lib_symbols) (netclass_flag ""a"" (length 1) (shape round) (uuid abc)))"). vm_compute. reflexivity. Qed.
Print Assumptions C51_Schematic_refuted.

Theorem C51_GrText_refuted : ~ kept GrText_to GrText_from GrText_typed (fun _ => true) GrText_eqb.
Proof. apply (lossy _ _ _ _ "(gr_text ""a"" locked (at 1 2) (layer ""F.Fab""))"). vm_compute. reflexivity. Qed.
Print Assumptions C51_GrText_refuted.

Theorem C51_SchematicSymbol_refuted : ~ kept SchematicSymbol_to SchematicSymbol_from SchematicSymbol_typed (fun _ => true) SchematicSymbol_eqb.
Proof. apply (lossy _ _ _ _ "(symbol (at 1 2))"). vm_compute. reflexivity. Qed.
Print Assumptions C51_SchematicSymbol_refuted.

Theorem C51_Pad_refuted : ~ kept Pad_to Pad_from Pad_typed (fun _ => true) Pad_eqb.
Proof. apply (lossy _ _ _ _ "(pad ""1"" thru_hole rect (at 1 2) (size 1 2) (layers ""F.Cu"") (primitives (gr_poly (pts) (layer ""F.Fab"") (width 0.1))))"). vm_compute. reflexivity. Qed.
Print Assumptions C51_Pad_refuted.

Theorem C51_Board_refuted : ~ kept Board_to (Board_from (VStr $"0")) Board_typed (fun _ => true) Board_eqb.
Proof. apply (lossy _ _ _ _ "(kicad_pcb (version 1) (generator x) (general (thickness 1.6)) (paper ""A4"") (layers) (segment (start 1 2) (end 3 4) (width 0.2) (layer ""F.Cu"") (net 1)))"). vm_compute. reflexivity. Qed.
Print Assumptions C51_Board_refuted.
