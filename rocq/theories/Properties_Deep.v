(** * C57: an edit anywhere inside an object survives

    An attribute of some part of a printable object, at any depth, is set to a value that fits; the whole is
    saved and loaded.  The attribute of the part has that value, no other attribute of the part has changed, and
    nothing has changed outside the part.  The places where parts stand are listed in S_Deep.v.  Beside each
    theorem stands an object with a part that the theorem applies to. *)
From Coq Require Import String.
From Verif Require Import PyBase PyNum PyStr Sexpr RecordSet S_Leaf S_Tree S_Fix S_Equal S_Edit S_Deep L_Tac L_Equal L_EqualA L_Edit L_Deep.
From Verif Require Import M_Common M_Lib M_Sym M_Fp M_Gr M_Zone M_Footprint M_Dim M_Brd M_Board M_Sch M_Schematic M_Wks.
From Verif Require Import S_Common S_Lib S_Sym S_Fp S_Gr S_Zone S_Footprint S_Dim S_Brd S_Board S_Sch S_Schematic S_Wks.
From Verif Require Import L_Common L_Lib L_Sym L_Symbol L_Fp L_Gr L_Zone L_Pad L_Footprint L_Dim L_Brd L_Plot L_Board L_Sch L_Sheet L_Schematic L_Wks.

(** the object that the text stands for is printable, something stands in the place, and fits itself in all attributes *)
Definition stands {A B} (from : val -> res A) (ok : A -> bool) (p : place A B) (es : list (edit B)) (t : string) : bool :=
  match (let! v := parse_sexp (lit t) in from v) with
  | Ok o => ok o && match view p o with Some b => forallb (fun e => match e with Edit get put fit alike => fit b (get b) end) es | None => false end
  | Err _ => false
  end.
Arguments stands {A B} _ _ _ _ _%string.

Theorem C57_Stroke : survives_inside Stroke_to Stroke_from Stroke_ok Stroke_eqb.
Proof. apply (survive_inside _ _ _ _ _ Stroke_q Stroke_rt). Qed.
Print Assumptions C57_Stroke.
Example C57_Stroke_case : stands Stroke_from Stroke_ok (if_there st_color (fun x o => o <| st_color := x |>)) ColorRGBA_edits "(stroke (width 0.254) (type dash_dot) (color 255 0 128 0.5))" = true.
Proof. vm_compute. reflexivity. Qed.

Theorem C57_Font : survives_inside Font_to Font_from Font_ok Font_eqb.
Proof. apply (survive_inside _ _ _ _ _ Font_q Font_rt). Qed.
Print Assumptions C57_Font.
Example C57_Font_case : stands Font_from Font_ok (if_there fo_color (fun x o => o <| fo_color := x |>)) ColorRGBA_edits "(font (face ""A \""b\"" \c"") (size 1.27 2) (color 255 0 128 0.5) (thickness 0.3) bold italic (line_spacing 1.1))" = true.
Proof. vm_compute. reflexivity. Qed.

Theorem C57_Effects : survives_inside Effects_to Effects_from Effects_ok Effects_eqb.
Proof. apply (survive_inside _ _ _ _ _ Effects_q Effects_rt). Qed.
Print Assumptions C57_Effects.
Example C57_Effects_case : stands Effects_from Effects_ok (whole ef_font (fun x o => o <| ef_font := x |>)) Font_edits "(effects (font (face ""A \""b\"" \c"") (size 1.27 2) (color 255 0 128 0.5) (thickness 0.3) bold italic (line_spacing 1.1)) (justify right top mirror) (href ""https://x.y/(z)"") hide)" = true.
Proof. vm_compute. reflexivity. Qed.

Theorem C57_Property : survives_inside Property_to Property_from Property_ok Property_eqb.
Proof. apply (survive_inside _ _ _ _ _ Property_q Property_rt). Qed.
Print Assumptions C57_Property.
Example C57_Property_case : stands Property_from Property_ok (if_there pr_effects (fun x o => o <| pr_effects := x |>)) Effects_edits "(property ""Sheet name"" ""a\b\"""" (id 3) (at 1 2.5 90) (show_name)
  (effects (font (face ""A \""b\"" \c"") (size 1.27 2) (color 255 0 128 0.5) (thickness 0.3) bold italic (line_spacing 1.1)) (justify right top mirror) (href ""https://x.y/(z)"") hide)
)" = true.
Proof. vm_compute. reflexivity. Qed.

Theorem C57_RenderCache : survives_inside RenderCache_to RenderCache_from RenderCache_ok RenderCache_eqb.
Proof. apply (survive_inside _ _ _ _ _ RenderCache_q RenderCache_rt). Qed.
Print Assumptions C57_RenderCache.
Example C57_RenderCache_case : stands RenderCache_from RenderCache_ok (nth_of rc_polygons (fun x o => o <| rc_polygons := x |>) 0) RenderCachePolygon_edits "(render_cache ""some text"" 0
  (polygon
    (pts
      (xy 1 2)      (xy 1.5 2)      (xy 0 -7)      (xy 0 0)
      (xy 9 9)
    )
  )
  (polygon
    (pts
    )
  )
)" = true.
Proof. vm_compute. reflexivity. Qed.

Theorem C57_Fill : survives_inside Fill_to Fill_from Fill_ok Fill_eqb.
Proof. apply (survive_inside _ _ _ _ _ Fill_q Fill_rt). Qed.
Print Assumptions C57_Fill.
Example C57_Fill_case : stands Fill_from Fill_ok (if_there fi_color (fun x o => o <| fi_color := x |>)) ColorRGBA_edits "(fill (type background) (color 255 0 128 0.5))" = true.
Proof. vm_compute. reflexivity. Qed.

Theorem C57_LibTable : survives_inside LibTable_to LibTable_from LibTable_ok LibTable_eqb.
Proof. apply (survive_inside _ _ _ _ _ LibTable_q LibTable_rt). Qed.
Print Assumptions C57_LibTable.
Example C57_LibTable_case : stands LibTable_from LibTable_ok (nth_of lt_libs (fun x o => o <| lt_libs := x |>) 0) Library_edits "(fp_lib_table
  (lib (name ""MCU \""ST\"""")(type ""KiCad"")(uri ""${KIPRJMOD}/a (b).kicad_sym"")(options """")(descr ""x""))
  (lib (name ""MCU \""ST\"""")(type ""KiCad"")(uri ""${KIPRJMOD}/a (b).kicad_sym"")(options """")(descr ""x"")(disabled))
  (lib (name """")(type ""KiCad"")(uri """")(options """")(descr """"))
)" = true.
Proof. vm_compute. reflexivity. Qed.

Theorem C57_Rule : survives_inside Rule_to Rule_from Rule_ok Rule_eqb.
Proof. apply (survive_inside _ _ _ _ _ Rule_q Rule_rt). Qed.
Print Assumptions C57_Rule.
Example C57_Rule_case : stands Rule_from Rule_ok (nth_of ru_constraints (fun x o => o <| ru_constraints := x |>) 0) Constraint_edits "(rule ""HV \""1\""""
  (layer ""outer"")
  (constraint disallow (min ""0.2mm"") (max ""1 mm"") track via)
  (constraint clearance)
  (condition ""A.NetClass == 'HV'"")
  (severity warning))
" = true.
Proof. vm_compute. reflexivity. Qed.

Theorem C57_DesignRules : survives_inside DesignRules_file DesignRules_from DesignRules_ok DesignRules_eqb.
Proof. apply (survive_inside _ _ _ _ _ DesignRules_q DesignRules_rt). Qed.
Print Assumptions C57_DesignRules.
Example C57_DesignRules_case : stands DesignRules_from DesignRules_ok (nth_of dr_rules (fun x o => o <| dr_rules := x |>) 0) Rule_edits "((version 1)

(rule ""HV \""1\""""
  (layer ""outer"")
  (constraint disallow (min ""0.2mm"") (max ""1 mm"") track via)
  (constraint clearance)
  (condition ""A.NetClass == 'HV'"")
  (severity warning))
(rule ""HV \""1\""""
  (layer ""outer"")
  (constraint disallow (min ""0.2mm"") (max ""1 mm"") track via)
  (constraint clearance)
  (condition ""A.NetClass == 'HV'"")
  (severity warning))
(rule """"
  (condition """"))
)" = true.
Proof. vm_compute. reflexivity. Qed.

Theorem C57_SyArc : survives_inside SyArc_to SyArc_from SyArc_ok SyArc_eqb.
Proof. apply (survive_inside _ _ _ _ _ SyArc_q SyArc_rt). Qed.
Print Assumptions C57_SyArc.
Example C57_SyArc_case : stands SyArc_from SyArc_ok (whole sa_fill (fun x o => o <| sa_fill := x |>)) Fill_edits "(arc private (start 1 2.5 90) (mid 2 3) (end -2 3)
  (stroke (width 0.254) (type dash_dot) (color 255 0 128 0.5))
  (fill (type color) (color 255 0 128 0.5))
)" = true.
Proof. vm_compute. reflexivity. Qed.

Theorem C57_SyCircle : survives_inside SyCircle_to SyCircle_from SyCircle_ok SyCircle_eqb.
Proof. apply (survive_inside _ _ _ _ _ SyCircle_q SyCircle_rt). Qed.
Print Assumptions C57_SyCircle.
Example C57_SyCircle_case : stands SyCircle_from SyCircle_ok (whole si_fill (fun x o => o <| si_fill := x |>)) Fill_edits "(circle private (center 2 3) (radius 2.5)
  (stroke (width 0.254) (type dash_dot) (color 255 0 128 0.5))
  (fill (type color) (color 255 0 128 0.5))
)" = true.
Proof. vm_compute. reflexivity. Qed.

Theorem C57_SyPolyLine : survives_inside SyPolyLine_to SyPolyLine_from SyPolyLine_ok SyPolyLine_eqb.
Proof. apply (survive_inside _ _ _ _ _ SyPolyLine_q SyPolyLine_rt). Qed.
Print Assumptions C57_SyPolyLine.
Example C57_SyPolyLine_case : stands SyPolyLine_from SyPolyLine_ok (whole sl_fill (fun x o => o <| sl_fill := x |>)) Fill_edits "(polyline
  (pts
    (xy 2 3)
    (xy 0.1 0)
    (xy 2 3)
  )
  (stroke (width 0.254) (type dash_dot) (color 255 0 128 0.5))
  (fill (type color) (color 255 0 128 0.5))
)" = true.
Proof. vm_compute. reflexivity. Qed.

Theorem C57_SyRect : survives_inside SyRect_to SyRect_from SyRect_ok SyRect_eqb.
Proof. apply (survive_inside _ _ _ _ _ SyRect_q SyRect_rt). Qed.
Print Assumptions C57_SyRect.
Example C57_SyRect_case : stands SyRect_from SyRect_ok (whole sr_fill (fun x o => o <| sr_fill := x |>)) Fill_edits "(rectangle private (start 2 3) (end 2 -0.3)
  (stroke (width 0.254) (type dash_dot) (color 255 0 128 0.5))
  (fill (type color) (color 255 0 128 0.5))
)" = true.
Proof. vm_compute. reflexivity. Qed.

Theorem C57_SyText : survives_inside SyText_to SyText_from SyText_ok SyText_eqb.
Proof. apply (survive_inside _ _ _ _ _ SyText_q SyText_rt). Qed.
Print Assumptions C57_SyText.
Example C57_SyText_case : stands SyText_from SyText_ok (whole sx_effects (fun x o => o <| sx_effects := x |>)) Effects_edits "(text ""a \""(b)\"" \ c"" (at 2 3 900)
  (effects (font (face ""A \""b\"" \c"") (size 1.27 2) (color 255 0 128 0.5) (thickness 0.3) bold italic (line_spacing 1.1)) (justify right top mirror) (href ""https://x.y/(z)"") hide)
)" = true.
Proof. vm_compute. reflexivity. Qed.

Theorem C57_SyTextBox : survives_inside SyTextBox_to SyTextBox_from SyTextBox_ok SyTextBox_eqb.
Proof. apply (survive_inside _ _ _ _ _ SyTextBox_q SyTextBox_rt). Qed.
Print Assumptions C57_SyTextBox.
Example C57_SyTextBox_case : stands SyTextBox_from SyTextBox_ok (whole sb_effects (fun x o => o <| sb_effects := x |>)) Effects_edits "(text_box private ""private""
  (at 2 3 90) (size 2 3)
  (stroke (width 0.254) (type dash_dot) (color 255 0 128 0.5))
  (fill (type color) (color 255 0 128 0.5))
  (effects (font (face ""A \""b\"" \c"") (size 1.27 2) (color 255 0 128 0.5) (thickness 0.3) bold italic (line_spacing 1.1)) (justify right top mirror) (href ""https://x.y/(z)"") hide)
  (uuid a-1)
)" = true.
Proof. vm_compute. reflexivity. Qed.

Theorem C57_SymbolPin : survives_inside SymbolPin_to SymbolPin_from SymbolPin_ok SymbolPin_eqb.
Proof. apply (survive_inside _ _ _ _ _ SymbolPin_q SymbolPin_rt). Qed.
Print Assumptions C57_SymbolPin.
Example C57_SymbolPin_case : stands SymbolPin_from SymbolPin_ok (nth_of sp_alternatePins (fun x o => o <| sp_alternatePins := x |>) 0) SymbolAlternativePin_edits "(pin power_in line (at 2 3 90) (length 2.54) hide
  (name ""~{RST}"" (effects (font (face ""A \""b\"" \c"") (size 1.27 2) (color 255 0 128 0.5) (thickness 0.3) bold italic (line_spacing 1.1)) (justify right top mirror) (href ""https://x.y/(z)"") hide))
  (number ""12"")
  (alternate """" input line)
  (alternate """" input line)
)" = true.
Proof. vm_compute. reflexivity. Qed.

Theorem C57_Symbol : survives_inside Symbol_to Symbol_from Symbol_ok Symbol_eqb.
Proof. apply (survive_inside _ _ _ _ _ Symbol_q Symbol_rt). Qed.
Print Assumptions C57_Symbol.
Example C57_Symbol_case : stands Symbol_from Symbol_ok (nth_of sy_units (fun x o => o <| sy_units := x |>) 0) Symbol_edits "(symbol ""Amplifier:LM 358"" (extends ""LM \""X\"""") (power) (pin_numbers hide) (pin_names (offset 0.5) hide) (in_bom yes) (on_board no)
  (property ""Sheet name"" ""a\b\"""" (id 3) (at 1 2.5 90) (show_name)
    (effects (font (face ""A \""b\"" \c"") (size 1.27 2) (color 255 0 128 0.5) (thickness 0.3) bold italic (line_spacing 1.1)) (justify right top mirror) (href ""https://x.y/(z)"") hide)
  )
  (property ""Sheet name"" ""a\b\"""" (id 3) (at 1 2.5 90) (show_name)
    (effects (font (face ""A \""b\"" \c"") (size 1.27 2) (color 255 0 128 0.5) (thickness 0.3) bold italic (line_spacing 1.1)) (justify right top mirror) (href ""https://x.y/(z)"") hide)
  )
  (circle (center 0.0 0.0) (radius 0.0)
    (stroke (width 0.0))
    (fill (type none))
  )
  (text """" (at 0.0 0.0)
    (effects (font (size 1.0 1.0)))
  )
  (pin power_in line (at 2 3 90) (length 2.54) hide
    (name ""~{RST}"" (effects (font (face ""A \""b\"" \c"") (size 1.27 2) (color 255 0 128 0.5) (thickness 0.3) bold italic (line_spacing 1.1)) (justify right top mirror) (href ""https://x.y/(z)"") hide))
    (number ""12"")
    (alternate """" input line)
    (alternate """" input line)
  )
  (pin input line (at 0.0 0.0) (length 0.254) (name """") (number ""0""))
  (symbol ""LM 358_0_1""
    (rectangle (start 0.0 0.0) (end 0.0 0.0)
      (stroke (width 0.0))
      (fill (type none))
    )
    (arc (start 0.0 0.0) (mid 0.0 0.0) (end 0.0 0.0)
      (stroke (width 0.0))
      (fill (type none))
    )
    (pin power_in line (at 2 3 90) (length 2.54) hide
      (name ""~{RST}"" (effects (font (face ""A \""b\"" \c"") (size 1.27 2) (color 255 0 128 0.5) (thickness 0.3) bold italic (line_spacing 1.1)) (justify right top mirror) (href ""https://x.y/(z)"") hide))
      (number ""12"")
      (alternate """" input line)
      (alternate """" input line)
    )
  )
  (symbol ""LM 358_1_1""
    (rectangle (start 0.0 0.0) (end 0.0 0.0)
      (stroke (width 0.0))
      (fill (type none))
    )
    (arc (start 0.0 0.0) (mid 0.0 0.0) (end 0.0 0.0)
      (stroke (width 0.0))
      (fill (type none))
    )
    (pin power_in line (at 2 3 90) (length 2.54) hide
      (name ""~{RST}"" (effects (font (face ""A \""b\"" \c"") (size 1.27 2) (color 255 0 128 0.5) (thickness 0.3) bold italic (line_spacing 1.1)) (justify right top mirror) (href ""https://x.y/(z)"") hide))
      (number ""12"")
      (alternate """" input line)
      (alternate """" input line)
    )
    (symbol ""LM 358_7_1""
      (rectangle (start 0.0 0.0) (end 0.0 0.0)
        (stroke (width 0.0))
        (fill (type none))
      )
      (arc (start 0.0 0.0) (mid 0.0 0.0) (end 0.0 0.0)
        (stroke (width 0.0))
        (fill (type none))
      )
      (pin power_in line (at 2 3 90) (length 2.54) hide
        (name ""~{RST}"" (effects (font (face ""A \""b\"" \c"") (size 1.27 2) (color 255 0 128 0.5) (thickness 0.3) bold italic (line_spacing 1.1)) (justify right top mirror) (href ""https://x.y/(z)"") hide))
        (number ""12"")
        (alternate """" input line)
        (alternate """" input line)
      )
    )
    (symbol ""LM 358_8_1""
      (rectangle (start 0.0 0.0) (end 0.0 0.0)
        (stroke (width 0.0))
        (fill (type none))
      )
      (arc (start 0.0 0.0) (mid 0.0 0.0) (end 0.0 0.0)
        (stroke (width 0.0))
        (fill (type none))
      )
      (pin power_in line (at 2 3 90) (length 2.54) hide
        (name ""~{RST}"" (effects (font (face ""A \""b\"" \c"") (size 1.27 2) (color 255 0 128 0.5) (thickness 0.3) bold italic (line_spacing 1.1)) (justify right top mirror) (href ""https://x.y/(z)"") hide))
        (number ""12"")
        (alternate """" input line)
        (alternate """" input line)
      )
    )
  )
)" = true.
Proof. vm_compute. reflexivity. Qed.

Theorem C57_SymbolLib : survives_inside SymbolLib_to SymbolLib_from SymbolLib_ok SymbolLib_eqb.
Proof. apply (survive_inside _ _ _ _ _ SymbolLib_q SymbolLib_rt). Qed.
Print Assumptions C57_SymbolLib.
Example C57_SymbolLib_case : stands SymbolLib_from SymbolLib_ok (nth_of sj_symbols (fun x o => o <| sj_symbols := x |>) 0) Symbol_edits "(kicad_symbol_lib (version 20211014) (generator kicad_symbol_editor)
  (symbol ""Amplifier:LM 358"" (extends ""LM \""X\"""") (power) (pin_numbers hide) (pin_names (offset 0.5) hide) (in_bom yes) (on_board no)
    (property ""Sheet name"" ""a\b\"""" (id 3) (at 1 2.5 90) (show_name)
      (effects (font (face ""A \""b\"" \c"") (size 1.27 2) (color 255 0 128 0.5) (thickness 0.3) bold italic (line_spacing 1.1)) (justify right top mirror) (href ""https://x.y/(z)"") hide)
    )
    (property ""Sheet name"" ""a\b\"""" (id 3) (at 1 2.5 90) (show_name)
      (effects (font (face ""A \""b\"" \c"") (size 1.27 2) (color 255 0 128 0.5) (thickness 0.3) bold italic (line_spacing 1.1)) (justify right top mirror) (href ""https://x.y/(z)"") hide)
    )
    (circle (center 0.0 0.0) (radius 0.0)
      (stroke (width 0.0))
      (fill (type none))
    )
    (text """" (at 0.0 0.0)
      (effects (font (size 1.0 1.0)))
    )
    (pin power_in line (at 2 3 90) (length 2.54) hide
      (name ""~{RST}"" (effects (font (face ""A \""b\"" \c"") (size 1.27 2) (color 255 0 128 0.5) (thickness 0.3) bold italic (line_spacing 1.1)) (justify right top mirror) (href ""https://x.y/(z)"") hide))
      (number ""12"")
      (alternate """" input line)
      (alternate """" input line)
    )
    (pin input line (at 0.0 0.0) (length 0.254) (name """") (number ""0""))
    (symbol ""LM 358_0_1""
      (rectangle (start 0.0 0.0) (end 0.0 0.0)
        (stroke (width 0.0))
        (fill (type none))
      )
      (arc (start 0.0 0.0) (mid 0.0 0.0) (end 0.0 0.0)
        (stroke (width 0.0))
        (fill (type none))
      )
      (pin power_in line (at 2 3 90) (length 2.54) hide
        (name ""~{RST}"" (effects (font (face ""A \""b\"" \c"") (size 1.27 2) (color 255 0 128 0.5) (thickness 0.3) bold italic (line_spacing 1.1)) (justify right top mirror) (href ""https://x.y/(z)"") hide))
        (number ""12"")
        (alternate """" input line)
        (alternate """" input line)
      )
    )
    (symbol ""LM 358_1_1""
      (rectangle (start 0.0 0.0) (end 0.0 0.0)
        (stroke (width 0.0))
        (fill (type none))
      )
      (arc (start 0.0 0.0) (mid 0.0 0.0) (end 0.0 0.0)
        (stroke (width 0.0))
        (fill (type none))
      )
      (pin power_in line (at 2 3 90) (length 2.54) hide
        (name ""~{RST}"" (effects (font (face ""A \""b\"" \c"") (size 1.27 2) (color 255 0 128 0.5) (thickness 0.3) bold italic (line_spacing 1.1)) (justify right top mirror) (href ""https://x.y/(z)"") hide))
        (number ""12"")
        (alternate """" input line)
        (alternate """" input line)
      )
      (symbol ""LM 358_7_1""
        (rectangle (start 0.0 0.0) (end 0.0 0.0)
          (stroke (width 0.0))
          (fill (type none))
        )
        (arc (start 0.0 0.0) (mid 0.0 0.0) (end 0.0 0.0)
          (stroke (width 0.0))
          (fill (type none))
        )
        (pin power_in line (at 2 3 90) (length 2.54) hide
          (name ""~{RST}"" (effects (font (face ""A \""b\"" \c"") (size 1.27 2) (color 255 0 128 0.5) (thickness 0.3) bold italic (line_spacing 1.1)) (justify right top mirror) (href ""https://x.y/(z)"") hide))
          (number ""12"")
          (alternate """" input line)
          (alternate """" input line)
        )
      )
      (symbol ""LM 358_8_1""
        (rectangle (start 0.0 0.0) (end 0.0 0.0)
          (stroke (width 0.0))
          (fill (type none))
        )
        (arc (start 0.0 0.0) (mid 0.0 0.0) (end 0.0 0.0)
          (stroke (width 0.0))
          (fill (type none))
        )
        (pin power_in line (at 2 3 90) (length 2.54) hide
          (name ""~{RST}"" (effects (font (face ""A \""b\"" \c"") (size 1.27 2) (color 255 0 128 0.5) (thickness 0.3) bold italic (line_spacing 1.1)) (justify right top mirror) (href ""https://x.y/(z)"") hide))
          (number ""12"")
          (alternate """" input line)
          (alternate """" input line)
        )
      )
    )
  )
  (symbol ""LM 358_3_1""
    (rectangle (start 0.0 0.0) (end 0.0 0.0)
      (stroke (width 0.0))
      (fill (type none))
    )
    (arc (start 0.0 0.0) (mid 0.0 0.0) (end 0.0 0.0)
      (stroke (width 0.0))
      (fill (type none))
    )
    (pin power_in line (at 2 3 90) (length 2.54) hide
      (name ""~{RST}"" (effects (font (face ""A \""b\"" \c"") (size 1.27 2) (color 255 0 128 0.5) (thickness 0.3) bold italic (line_spacing 1.1)) (justify right top mirror) (href ""https://x.y/(z)"") hide))
      (number ""12"")
      (alternate """" input line)
      (alternate """" input line)
    )
  )
)" = true.
Proof. vm_compute. reflexivity. Qed.

Theorem C57_FpText : survives_inside FpText_to FpText_from FpText_ok FpText_eqb.
Proof. apply (survive_inside _ _ _ _ _ FpText_q FpText_rt). Qed.
Print Assumptions C57_FpText.
Example C57_FpText_case : stands FpText_from FpText_ok (if_there ft_renderCache (fun x o => o <| ft_renderCache := x |>)) RenderCache_edits "(fp_text user ""a \""(b)\"" \ c"" (at 1 2.5 90 unlocked) (layer ""F.SilkS"" knockout) hide
  (effects (font (face ""A \""b\"" \c"") (size 1.27 2) (color 255 0 128 0.5) (thickness 0.3) bold italic (line_spacing 1.1)) (justify right top mirror) (href ""https://x.y/(z)"") hide)
  (tstamp 7c2f5ab1-44ff-4a1c-b96d-28f9f3a0fd1e)
  (render_cache ""ab\""c"" 0
    (polygon
      (pts
        (xy 1 2)        (xy 1.5 2)        (xy 0 -7)        (xy 0 0)
        (xy 9 9)
      )
    )
  )
)" = true.
Proof. vm_compute. reflexivity. Qed.

Theorem C57_FpTextBox : survives_inside FpTextBox_to FpTextBox_from FpTextBox_ok FpTextBox_eqb.
Proof. apply (survive_inside _ _ _ _ _ FpTextBox_q FpTextBox_rt). Qed.
Print Assumptions C57_FpTextBox.
Example C57_FpTextBox_case : stands FpTextBox_from FpTextBox_ok (if_there fb_renderCache (fun x o => o <| fb_renderCache := x |>)) RenderCache_edits "(fp_text_box locked ""locked""
  (pts
    (xy 2 3)      (xy 0.1 0)      (xy 2 3)      (xy -1.5 7)
  )
  (angle 45.5) (layer ""F.Fab"") (tstamp 7c2f5ab1-44ff-4a1c-b96d-28f9f3a0fd1e)
  (effects (font (face ""A \""b\"" \c"") (size 1.27 2) (color 255 0 128 0.5) (thickness 0.3) bold italic (line_spacing 1.1)) (justify right top mirror) (href ""https://x.y/(z)"") hide)
  (stroke (width 0.254) (type dash_dot) (color 255 0 128 0.5))
  (render_cache ""ab\""c"" 0
    (polygon
      (pts
        (xy 1 2)        (xy 1.5 2)        (xy 0 -7)        (xy 0 0)
        (xy 9 9)
      )
    )
  )
)" = true.
Proof. vm_compute. reflexivity. Qed.

Theorem C57_GrText : survives_inside GrText_to GrText_from GrText_ok GrText_eqb.
Proof. apply (survive_inside _ _ _ _ _ GrText_q GrText_rt). Qed.
Print Assumptions C57_GrText.
Example C57_GrText_case : stands GrText_from GrText_ok (if_there gt_renderCache (fun x o => o <| gt_renderCache := x |>)) RenderCache_edits "(gr_text ""a \""(b)\"" \ c"" (at 1 2.5 90) (layer ""F.SilkS"" knockout) (tstamp 7c2f5ab1-44ff-4a1c-b96d-28f9f3a0fd1e)
  (effects (font (face ""A \""b\"" \c"") (size 1.27 2) (color 255 0 128 0.5) (thickness 0.3) bold italic (line_spacing 1.1)) (justify right top mirror) (href ""https://x.y/(z)"") hide)
  (render_cache ""ab\""c"" 0
    (polygon
      (pts
        (xy 1 2)        (xy 1.5 2)        (xy 0 -7)        (xy 0 0)
        (xy 9 9)
      )
    )
  )
)" = true.
Proof. vm_compute. reflexivity. Qed.

Theorem C57_GrTextBox : survives_inside GrTextBox_to GrTextBox_from GrTextBox_ok GrTextBox_eqb.
Proof. apply (survive_inside _ _ _ _ _ GrTextBox_q GrTextBox_rt). Qed.
Print Assumptions C57_GrTextBox.
Example C57_GrTextBox_case : stands GrTextBox_from GrTextBox_ok (if_there gb_renderCache (fun x o => o <| gb_renderCache := x |>)) RenderCache_edits "(gr_text_box locked ""locked""
  (pts
    (xy 2 3)        (xy 0.1 0)        (xy 2 3)        (xy -1.5 7)
  )
  (angle 45.5) (layer ""F.Fab"") (tstamp 7c2f5ab1-44ff-4a1c-b96d-28f9f3a0fd1e)
  (effects (font (face ""A \""b\"" \c"") (size 1.27 2) (color 255 0 128 0.5) (thickness 0.3) bold italic (line_spacing 1.1)) (justify right top mirror) (href ""https://x.y/(z)"") hide)
  (stroke (width 0.254) (type dash_dot) (color 255 0 128 0.5))
  (render_cache ""ab\""c"" 0
    (polygon
      (pts
        (xy 1 2)        (xy 1.5 2)        (xy 0 -7)        (xy 0 0)
        (xy 9 9)
      )
    )
  )
)" = true.
Proof. vm_compute. reflexivity. Qed.

Theorem C57_Zone : survives_inside Zone_to Zone_from Zone_ok Zone_eqb.
Proof. apply (survive_inside _ _ _ _ _ Zone_q Zone_rt). Qed.
Print Assumptions C57_Zone.
Example C57_Zone_case : stands Zone_from Zone_ok (if_there zo_fillSegments (fun x o => o <| zo_fillSegments := x |>)) FillSegments_edits "(zone locked (net 12) (net_name ""Net \""(1)\"""") (layers ""F.Cu"" ""B.Cu"") (tstamp 7c2f5ab1-44ff-4a1c-b96d-28f9f3a0fd1e) (name ""my zone"") (hatch edge 0.508)
  (priority 3)
  (connect_pads thru_hole_only (clearance 0.2))
  (min_thickness 0.254) (filled_areas_thickness no)
  (keepout (tracks allowed) (vias not_allowed) (pads allowed ) (copperpour not-allowed) (footprints not-allowed))
  (fill yes (mode hatch) (thermal_gap 0.5) (thermal_bridge_width 0.508) (smoothing chamfer) (radius 1) (island_removal_mode 2) (island_area_min 10)
    (hatch_thickness 1) (hatch_gap 1.5) (hatch_orientation 45)
    (hatch_smoothing_level 1) (hatch_smoothing_value 0.1)
    (hatch_border_algorithm 0) (hatch_min_hole_area 0.3))
  (polygon
    (pts
      (xy 2 3)
      (xy 0.1 0)
      (xy 2 3)
      (xy -1.5 7)
    )
  )
  (polygon
    (pts
      (xy 1 2)
    )
  )
  (filled_polygon
    (layer ""F.Cu"")
    (island)
    (pts
      (xy 2 3)
      (xy 0.1 0)
      (xy 2 3)
      (xy -1.5 7)
    )
  )
    (fill_segments
      (layer ""B.Cu"")
      (pts
        (xy 2 3)
        (xy 0.1 0)
        (xy 2 3)
        (xy -1.5 7)
      )
    )
)" = true.
Proof. vm_compute. reflexivity. Qed.

Theorem C57_Model : survives_inside Model_to Model_from Model_ok Model_eqb.
Proof. apply (survive_inside _ _ _ _ _ Model_q Model_rt). Qed.
Print Assumptions C57_Model.
Example C57_Model_case : stands Model_from Model_ok (whole mo_rotate (fun x o => o <| mo_rotate := x |>)) Coordinate_edits "(model ""${KICAD6_3DMODEL_DIR}/a \""b\"".wrl"" hide
  (opacity 0.5)
  (offset (xyz 2.5 -3 1.0))
  (scale (xyz 1 1 0.1))
  (rotate (xyz 0 90 0))
)" = true.
Proof. vm_compute. reflexivity. Qed.

Theorem C57_Pad : survives_inside Pad_to Pad_from Pad_ok Pad_eqb.
Proof. apply (survive_inside _ _ _ _ _ Pad_q Pad_rt). Qed.
Print Assumptions C57_Pad.
Example C57_Pad_case : stands Pad_from Pad_ok (if_there pd_customPadOptions (fun x o => o <| pd_customPadOptions := x |>)) PadOptions_edits "(pad ""A \""1\"""" thru_hole custom locked (at 1 2.5 90) (size 1 2) (drill oval 0.8 2 (offset 1 0.5)) (property pad_prop_bga) (layers *.Cu ""F.Mask"" F&B.Paste ""In1 (x)"") (remove_unused_layers) (keep_end_layers) (roundrect_rratio 0.25)
  (chamfer_ratio 0.1) (chamfer top_left bottom_right)
  (die_length 3)
  (net 17 ""Net-(U1-Pad3)"") (pinfunction ""fn"") (pintype ""bidirectional+no_connect"") (solder_mask_margin 0.1) (solder_paste_margin 0.2) (solder_paste_margin_ratio 0.3) (clearance 0.4) (zone_connect 2) (thermal_width 0.5) (thermal_gap 0.6)
  (options (clearance convexhull) (anchor circle))
  (primitives
    (gr_text ""a \""(b)\"" \ c"" (at 1 2.5 90) (layer ""F.SilkS"" knockout) (tstamp 7c2f5ab1-44ff-4a1c-b96d-28f9f3a0fd1e)
      (effects (font (face ""A \""b\"" \c"") (size 1.27 2) (color 255 0 128 0.5) (thickness 0.3) bold italic (line_spacing 1.1)) (justify right top mirror) (href ""https://x.y/(z)"") hide)
      (render_cache ""ab\""c"" 0
        (polygon
          (pts
            (xy 1 2)            (xy 1.5 2)            (xy 0 -7)            (xy 0 0)
            (xy 9 9)
          )
        )
      )
    )
    (gr_line locked (start 2 3) (end 2 0.001) (layer ""F.Fab"") (width 1) (tstamp 7c2f5ab1-44ff-4a1c-b96d-28f9f3a0fd1e))
    (gr_poly locked (pts
        (xy 2 3)
        (xy 0.1 0)
        (xy 2 3)
        (xy -1.5 7)
      ) (layer ""F.Fab"") (width 0.15) (fill solid) (tstamp 7c2f5ab1-44ff-4a1c-b96d-28f9f3a0fd1e))
  ) (tstamp 7c2f5ab1-44ff-4a1c-b96d-28f9f3a0fd1e))" = true.
Proof. vm_compute. reflexivity. Qed.

Theorem C57_Footprint now : survives_inside Footprint_to (Footprint_from now) Footprint_ok Footprint_eqb.
Proof. apply (survive_inside _ _ _ _ _ Footprint_q (Footprint_rt now)). Qed.
Print Assumptions C57_Footprint.
Example C57_Footprint_case : stands (Footprint_from (VStr $"0")) Footprint_ok (nth_of fd_models (fun x o => o <| fd_models := x |>) 0) Model_edits "(footprint ""Package_SO:SOIC-8 \""x\"""" locked placed (version 20211014) (generator pcbnew)
  (layer ""B.Cu"")
  (tedit 65fa1b2c) (tstamp 7c2f5ab1-44ff-4a1c-b96d-28f9f3a0fd1e)
  (at 1 2 180)
  (descr ""d \""(1)\"""")
  (tags ""a b"")
  (property ""Sheetfile"" ""x.kicad_sch"")
  (property ""k 2"" """")
  (path ""/1/2"")
  (autoplace_cost90 1)
  (autoplace_cost180 2)
  (solder_mask_margin 0.1)
  (solder_paste_margin 0.2)
  (solder_paste_ratio 0.3)
  (clearance 0.4)
  (zone_connect 2)
  (thermal_width 0.5)
  (thermal_gap 0.6)
  (attr through_hole board_only exclude_from_pos_files exclude_from_bom allow_missing_courtyard)
  (private_layers ""User.1"")
  (net_tie_pad_groups ""1, 2"" ""3"")
  (fp_text user ""a \""(b)\"" \ c"" (at 1 2.5 90 unlocked) (layer ""F.SilkS"" knockout) hide
    (effects (font (face ""A \""b\"" \c"") (size 1.27 2) (color 255 0 128 0.5) (thickness 0.3) bold italic (line_spacing 1.1)) (justify right top mirror) (href ""https://x.y/(z)"") hide)
    (tstamp 7c2f5ab1-44ff-4a1c-b96d-28f9f3a0fd1e)
    (render_cache ""ab\""c"" 0
      (polygon
        (pts
          (xy 1 2)          (xy 1.5 2)          (xy 0 -7)          (xy 0 0)
          (xy 9 9)
        )
      )
    )
  )
  (fp_curve (pts
    (xy 2 3)
    (xy 0.1 0)
    (xy 2 3)
    (xy -1.5 7)
  ) (layer ""F.Fab"") (width 0.15) locked (tstamp 7c2f5ab1-44ff-4a1c-b96d-28f9f3a0fd1e))
  (image (at 12.34 5) (layer ""F.SilkS"") (scale 0.5)
    (uuid a-b-c)
    (data
      iVBORw0KGgo=
      12
    )
  )
  (pad ""A \""1\"""" thru_hole custom locked (at 1 2.5 90) (size 1 2) (drill oval 0.8 2 (offset 1 0.5)) (property pad_prop_bga) (layers *.Cu ""F.Mask"" F&B.Paste ""In1 (x)"") (remove_unused_layers) (keep_end_layers) (roundrect_rratio 0.25)
    (chamfer_ratio 0.1) (chamfer top_left bottom_right)
    (die_length 3)
    (net 17 ""Net-(U1-Pad3)"") (pinfunction ""fn"") (pintype ""bidirectional+no_connect"") (solder_mask_margin 0.1) (solder_paste_margin 0.2) (solder_paste_margin_ratio 0.3) (clearance 0.4) (zone_connect 2) (thermal_width 0.5) (thermal_gap 0.6)
    (options (clearance convexhull) (anchor circle))
    (primitives
      (gr_text ""a \""(b)\"" \ c"" (at 1 2.5 90) (layer ""F.SilkS"" knockout) (tstamp 7c2f5ab1-44ff-4a1c-b96d-28f9f3a0fd1e)
        (effects (font (face ""A \""b\"" \c"") (size 1.27 2) (color 255 0 128 0.5) (thickness 0.3) bold italic (line_spacing 1.1)) (justify right top mirror) (href ""https://x.y/(z)"") hide)
        (render_cache ""ab\""c"" 0
          (polygon
            (pts
              (xy 1 2)              (xy 1.5 2)              (xy 0 -7)              (xy 0 0)
              (xy 9 9)
            )
          )
        )
      )
      (gr_line locked (start 2 3) (end 2 0.001) (layer ""F.Fab"") (width 1) (tstamp 7c2f5ab1-44ff-4a1c-b96d-28f9f3a0fd1e))
      (gr_poly locked (pts
          (xy 2 3)
          (xy 0.1 0)
          (xy 2 3)
          (xy -1.5 7)
        ) (layer ""F.Fab"") (width 0.15) (fill solid) (tstamp 7c2f5ab1-44ff-4a1c-b96d-28f9f3a0fd1e))
    ) (tstamp 7c2f5ab1-44ff-4a1c-b96d-28f9f3a0fd1e))
  (pad ""x"" smd rect (at 0.0 0.0) (size 0.0 0.0) (layers))
  (zone locked (net 12) (net_name ""Net \""(1)\"""") (layers ""F.Cu"" ""B.Cu"") (tstamp 7c2f5ab1-44ff-4a1c-b96d-28f9f3a0fd1e) (name ""my zone"") (hatch edge 0.508)
    (priority 3)
    (connect_pads thru_hole_only (clearance 0.2))
    (min_thickness 0.254) (filled_areas_thickness no)
    (keepout (tracks allowed) (vias not_allowed) (pads allowed ) (copperpour not-allowed) (footprints not-allowed))
    (fill yes (mode hatch) (thermal_gap 0.5) (thermal_bridge_width 0.508) (smoothing chamfer) (radius 1) (island_removal_mode 2) (island_area_min 10)
      (hatch_thickness 1) (hatch_gap 1.5) (hatch_orientation 45)
      (hatch_smoothing_level 1) (hatch_smoothing_value 0.1)
      (hatch_border_algorithm 0) (hatch_min_hole_area 0.3))
    (polygon
      (pts
        (xy 2 3)
        (xy 0.1 0)
        (xy 2 3)
        (xy -1.5 7)
      )
    )
    (polygon
      (pts
        (xy 1 2)
      )
    )
    (filled_polygon
      (layer ""F.Cu"")
      (island)
      (pts
        (xy 2 3)
        (xy 0.1 0)
        (xy 2 3)
        (xy -1.5 7)
      )
    )
    (fill_segments
      (layer ""B.Cu"")
      (pts
        (xy 2 3)
        (xy 0.1 0)
        (xy 2 3)
        (xy -1.5 7)
      )
    )
  )
  (model ""${KICAD6_3DMODEL_DIR}/a \""b\"".wrl"" hide
    (opacity 0.5)
    (offset (xyz 2.5 -3 1.0))
    (scale (xyz 1 1 0.1))
    (rotate (xyz 0 90 0))
  )
  (model ""${KICAD6_3DMODEL_DIR}/a \""b\"".wrl"" hide
    (opacity 0.5)
    (offset (xyz 2.5 -3 1.0))
    (scale (xyz 1 1 0.1))
    (rotate (xyz 0 90 0))
  )
  (group ""g \""1\"""" locked (id 6fe2b9d8-0001)
    (members
      0012
      abc-1
    )
  )
)" = true.
Proof. vm_compute. reflexivity. Qed.

Theorem C57_Dimension : survives_inside Dimension_to Dimension_from Dimension_ok Dimension_eqb.
Proof. apply (survive_inside _ _ _ _ _ Dimension_q Dimension_rt). Qed.
Print Assumptions C57_Dimension.
Example C57_Dimension_case : stands Dimension_from Dimension_ok (whole di_style (fun x o => o <| di_style := x |>)) DimensionStyle_edits "(dimension (type orthogonal) (layer ""Dwgs.User (1)"") (tstamp 7c2f5ab1-44ff-4a1c-b96d-28f9f3a0fd1e)
  (pts (xy 2 3) (xy 0.1 0) (xy 2 3) (xy -1.5 7))
  (height -2.5)
  (orientation 1)
  (leader_length 2)
  (gr_text ""a \""(b)\"" \ c"" (at 1 2.5 90) (layer ""F.SilkS"" knockout) (tstamp 7c2f5ab1-44ff-4a1c-b96d-28f9f3a0fd1e)
    (effects (font (face ""A \""b\"" \c"") (size 1.27 2) (color 255 0 128 0.5) (thickness 0.3) bold italic (line_spacing 1.1)) (justify right top mirror) (href ""https://x.y/(z)"") hide)
    (render_cache ""ab\""c"" 0
      (polygon
        (pts
          (xy 1 2)          (xy 1.5 2)          (xy 0 -7)          (xy 0 0)
          (xy 9 9)
        )
      )
    )
  )
  (format (prefix ""a \""("") (suffix ""mm"") (units 2) (units_format 0) (precision 7) (override_value ""1 \ 2"") suppress_zeroes)
  (style (thickness 0.15) (arrow_length 1.27) (text_position_mode 2) (extension_height 0.58642) (text_frame 3) (extension_offset 0.5) keep_text_aligned)
)" = true.
Proof. vm_compute. reflexivity. Qed.

Theorem C57_Stackup : survives_inside Stackup_to Stackup_from Stackup_ok Stackup_eqb.
Proof. apply (survive_inside _ _ _ _ _ Stackup_q Stackup_rt). Qed.
Print Assumptions C57_Stackup.
Example C57_Stackup_case : stands Stackup_from Stackup_ok (nth_of sk_layers (fun x o => o <| sk_layers := x |>) 0) StackupLayer_edits "(stackup
  (layer ""F.SilkS"" (type ""Top Silk Screen""))
  (layer ""dielectric 1"" (type ""core"") (color ""Green"") (thickness 1.51) (material ""FR4"") (epsilon_r 4.5)
    addsublayer (thickness 0.48) (material ""FR4 \""(x)\"""") (epsilon_r 4.5) (loss_tangent 0.02)
    addsublayer (thickness 1) (loss_tangent 0.02)
    addsublayer (thickness 0.48) (material ""FR4 \""(x)\"""") (epsilon_r 4.5) (loss_tangent 0.02))
  (copper_finish ""ENIG"")
  (dielectric_constraints no)
  (edge_connector bevelled)
  (castellated_pads yes)
)" = true.
Proof. vm_compute. reflexivity. Qed.

Theorem C57_SetupData : survives_inside SetupData_to SetupData_from SetupData_ok SetupData_eqb.
Proof. apply (survive_inside _ _ _ _ _ SetupData_q SetupData_rt). Qed.
Print Assumptions C57_SetupData.
Example C57_SetupData_case : stands SetupData_from SetupData_ok (if_there sd_plotSettings (fun x o => o <| sd_plotSettings := x |>)) PlotSettings_edits "(setup
  (stackup
    (layer ""F.SilkS"" (type ""Top Silk Screen""))
    (layer ""dielectric 1"" (type ""core"") (color ""Green"") (thickness 1.51) (material ""FR4"") (epsilon_r 4.5)
      addsublayer (thickness 0.48) (material ""FR4 \""(x)\"""") (epsilon_r 4.5) (loss_tangent 0.02)
      addsublayer (thickness 1) (loss_tangent 0.02)
      addsublayer (thickness 0.48) (material ""FR4 \""(x)\"""") (epsilon_r 4.5) (loss_tangent 0.02))
    (copper_finish ""ENIG"")
    (dielectric_constraints no)
    (edge_connector bevelled)
    (castellated_pads yes)
  )
  (pad_to_mask_clearance 0.05)
  (solder_mask_min_width 0.1)
  (pad_to_paste_clearance_ratio -0.05)
  (aux_axis_origin 1 2.5)
  (pcbplotparams
    (layerselection 0x00010fc_ffffffff)
    (plot_on_all_layers_selection 0x0000000_00000000)
    (disableapertmacros false)
    (usegerberextensions false)
    (usegerberattributes false)
    (usegerberadvancedattributes false)
    (creategerberjobfile false)
    (dashed_line_dash_ratio 12.000000)
    (dashed_line_gap_ratio 3.000001)
    (svguseinch false)
    (svgprecision 0.0)
    (excludeedgelayer true)
    (plotframeref false)
    (viasonmask true)
    (mode 1)
    (useauxorigin false)
    (hpglpennumber 0)
    (hpglpenspeed 0)
    (hpglpendiameter 1.500000)
    (dxfpolygonmode false)
    (dxfimperialunits false)
    (dxfusepcbnewfont false)
    (psnegative false)
    (psa4output false)
    (plotreference false)
    (plotvalue false)
    (plotinvisibletext false)
    (sketchpadsonfab false)
    (subtractmaskfromsilk false)
    (outputformat 0)
    (mirror true)
    (drillshape 0)
    (scaleselection 1)
    (outputdirectory ""out \""(1)\""/"")
  )
)" = true.
Proof. vm_compute. reflexivity. Qed.

Theorem C57_Board now : survives_inside Board_to (Board_from now) Board_ok Board_eqb.
Proof. apply (survive_inside _ _ _ _ _ Board_q (Board_rt now)). Qed.
Print Assumptions C57_Board.
Example C57_Board_case : stands (Board_from (VStr $"0")) Board_ok (nth_of bd_groups (fun x o => o <| bd_groups := x |>) 0) Group_edits "(kicad_pcb (version 20221018) (generator pcbnew)

  (general
    (thickness 1.6)
  )

  (paper ""A3"" portrait)
  (title_block
    (title ""T"")
    (rev ""1.0"")
    (company """")
    (comment 1 ""one"")
    (comment 4 ""four (4)"")
  )

  (layers
    (0 ""F.Cu"" signal)
    (31 ""B.Cu"" signal)
    (32 ""B.Adhes"" user ""B.Adhesive"")
    (33 ""F.Adhes"" user ""F.Adhesive"")
    (34 ""B.Paste"" user)
    (35 ""F.Paste"" user)
    (36 ""B.SilkS"" user ""B.Silkscreen"")
    (37 ""F.SilkS"" user ""F.Silkscreen"")
    (38 ""B.Mask"" user)
    (39 ""F.Mask"" user)
    (40 ""Dwgs.User"" user ""User.Drawings"")
    (41 ""Cmts.User"" user ""User.Comments"")
    (42 ""Eco1.User"" user ""User.Eco1"")
    (43 ""Eco2.User"" user ""User.Eco2"")
    (44 ""Edge.Cuts"" user)
    (45 ""Margin"" user)
    (46 ""B.CrtYd"" user ""B.Courtyard"")
    (47 ""F.CrtYd"" user ""F.Courtyard"")
    (48 ""B.Fab"" user)
    (49 ""F.Fab"" user)
    (50 ""User.1"" user)
    (51 ""User.2"" user)
    (52 ""User.3"" user)
    (53 ""User.4"" user)
    (54 ""User.5"" user)
    (55 ""User.6"" user)
    (56 ""User.7"" user)
    (57 ""User.8"" user)
    (58 ""User.9"" user)
  )

  (setup
    (stackup
      (layer ""F.SilkS"" (type ""Top Silk Screen""))
      (layer ""dielectric 1"" (type ""core"") (color ""Green"") (thickness 1.51) (material ""FR4"") (epsilon_r 4.5)
        addsublayer (thickness 0.48) (material ""FR4 \""(x)\"""") (epsilon_r 4.5) (loss_tangent 0.02)
        addsublayer (thickness 1) (loss_tangent 0.02)
        addsublayer (thickness 0.48) (material ""FR4 \""(x)\"""") (epsilon_r 4.5) (loss_tangent 0.02))
      (copper_finish ""ENIG"")
      (dielectric_constraints no)
      (edge_connector bevelled)
      (castellated_pads yes)
    )
    (pad_to_mask_clearance 0.05)
    (solder_mask_min_width 0.1)
    (pad_to_paste_clearance_ratio -0.05)
    (aux_axis_origin 1 2.5)
    (pcbplotparams
      (layerselection 0x00010fc_ffffffff)
      (plot_on_all_layers_selection 0x0000000_00000000)
      (disableapertmacros false)
      (usegerberextensions false)
      (usegerberattributes false)
      (usegerberadvancedattributes false)
      (creategerberjobfile false)
      (dashed_line_dash_ratio 12.000000)
      (dashed_line_gap_ratio 3.000001)
      (svguseinch false)
      (svgprecision 0.0)
      (excludeedgelayer true)
      (plotframeref false)
      (viasonmask true)
      (mode 1)
      (useauxorigin false)
      (hpglpennumber 0)
      (hpglpenspeed 0)
      (hpglpendiameter 1.500000)
      (dxfpolygonmode false)
      (dxfimperialunits false)
      (dxfusepcbnewfont false)
      (psnegative false)
      (psa4output false)
      (plotreference false)
      (plotvalue false)
      (plotinvisibletext false)
      (sketchpadsonfab false)
      (subtractmaskfromsilk false)
      (outputformat 0)
      (mirror true)
      (drillshape 0)
      (scaleselection 1)
      (outputdirectory ""out \""(1)\""/"")
    )
  )

  (property ""LAYER"" ""top \""x\"""")
  (property ""k 2"" """")

  (net 0 """")
  (net 1 ""Net-(U1-Pad3)"")

  (footprint ""Package_SO:SOIC-8 \""x\"""" locked placed (version 20211014) (generator pcbnew) (layer ""B.Cu"")
    (tedit 65fa1b2c) (tstamp 7c2f5ab1-44ff-4a1c-b96d-28f9f3a0fd1e)
    (at 1 2 180)
    (descr ""d \""(1)\"""")
    (tags ""a b"")
    (property ""Sheetfile"" ""x.kicad_sch"")
    (property ""k 2"" """")
    (path ""/1/2"")
    (autoplace_cost90 1)
    (autoplace_cost180 2)
    (solder_mask_margin 0.1)
    (solder_paste_margin 0.2)
    (solder_paste_ratio 0.3)
    (clearance 0.4)
    (zone_connect 2)
    (thermal_width 0.5)
    (thermal_gap 0.6)
    (attr through_hole board_only exclude_from_pos_files exclude_from_bom allow_missing_courtyard)
    (private_layers ""User.1"")
    (net_tie_pad_groups ""1, 2"" ""3"")
    (fp_text user ""a \""(b)\"" \ c"" (at 1 2.5 90 unlocked) (layer ""F.SilkS"" knockout) hide
      (effects (font (face ""A \""b\"" \c"") (size 1.27 2) (color 255 0 128 0.5) (thickness 0.3) bold italic (line_spacing 1.1)) (justify right top mirror) (href ""https://x.y/(z)"") hide)
      (tstamp 7c2f5ab1-44ff-4a1c-b96d-28f9f3a0fd1e)
      (render_cache ""ab\""c"" 0
        (polygon
          (pts
            (xy 1 2)            (xy 1.5 2)            (xy 0 -7)            (xy 0 0)
            (xy 9 9)
          )
        )
      )
    )
    (fp_curve (pts
      (xy 2 3)
      (xy 0.1 0)
      (xy 2 3)
      (xy -1.5 7)
    ) (layer ""F.Fab"") (width 0.15) locked (tstamp 7c2f5ab1-44ff-4a1c-b96d-28f9f3a0fd1e))
    (image (at 12.34 5) (layer ""F.SilkS"") (scale 0.5)
      (uuid a-b-c)
      (data
        iVBORw0KGgo=
        12
      )
    )
    (pad ""A \""1\"""" thru_hole custom locked (at 1 2.5 90) (size 1 2) (drill oval 0.8 2 (offset 1 0.5)) (property pad_prop_bga) (layers *.Cu ""F.Mask"" F&B.Paste ""In1 (x)"") (remove_unused_layers) (keep_end_layers) (roundrect_rratio 0.25)
      (chamfer_ratio 0.1) (chamfer top_left bottom_right)
      (die_length 3)
      (net 17 ""Net-(U1-Pad3)"") (pinfunction ""fn"") (pintype ""bidirectional+no_connect"") (solder_mask_margin 0.1) (solder_paste_margin 0.2) (solder_paste_margin_ratio 0.3) (clearance 0.4) (zone_connect 2) (thermal_width 0.5) (thermal_gap 0.6)
      (options (clearance convexhull) (anchor circle))
      (primitives
        (gr_text ""a \""(b)\"" \ c"" (at 1 2.5 90) (layer ""F.SilkS"" knockout) (tstamp 7c2f5ab1-44ff-4a1c-b96d-28f9f3a0fd1e)
          (effects (font (face ""A \""b\"" \c"") (size 1.27 2) (color 255 0 128 0.5) (thickness 0.3) bold italic (line_spacing 1.1)) (justify right top mirror) (href ""https://x.y/(z)"") hide)
          (render_cache ""ab\""c"" 0
            (polygon
              (pts
                (xy 1 2)                (xy 1.5 2)                (xy 0 -7)                (xy 0 0)
                (xy 9 9)
              )
            )
          )
        )
        (gr_line locked (start 2 3) (end 2 0.001) (layer ""F.Fab"") (width 1) (tstamp 7c2f5ab1-44ff-4a1c-b96d-28f9f3a0fd1e))
        (gr_poly locked (pts
            (xy 2 3)
            (xy 0.1 0)
            (xy 2 3)
            (xy -1.5 7)
          ) (layer ""F.Fab"") (width 0.15) (fill solid) (tstamp 7c2f5ab1-44ff-4a1c-b96d-28f9f3a0fd1e))
      ) (tstamp 7c2f5ab1-44ff-4a1c-b96d-28f9f3a0fd1e))
    (pad ""x"" smd rect (at 0.0 0.0) (size 0.0 0.0) (layers))
    (zone locked (net 12) (net_name ""Net \""(1)\"""") (layers ""F.Cu"" ""B.Cu"") (tstamp 7c2f5ab1-44ff-4a1c-b96d-28f9f3a0fd1e) (name ""my zone"") (hatch edge 0.508)
      (priority 3)
      (connect_pads thru_hole_only (clearance 0.2))
      (min_thickness 0.254) (filled_areas_thickness no)
      (keepout (tracks allowed) (vias not_allowed) (pads allowed ) (copperpour not-allowed) (footprints not-allowed))
      (fill yes (mode hatch) (thermal_gap 0.5) (thermal_bridge_width 0.508) (smoothing chamfer) (radius 1) (island_removal_mode 2) (island_area_min 10)
        (hatch_thickness 1) (hatch_gap 1.5) (hatch_orientation 45)
        (hatch_smoothing_level 1) (hatch_smoothing_value 0.1)
        (hatch_border_algorithm 0) (hatch_min_hole_area 0.3))
      (polygon
        (pts
          (xy 2 3)
          (xy 0.1 0)
          (xy 2 3)
          (xy -1.5 7)
        )
      )
      (polygon
        (pts
          (xy 1 2)
        )
      )
      (filled_polygon
        (layer ""F.Cu"")
        (island)
        (pts
          (xy 2 3)
          (xy 0.1 0)
          (xy 2 3)
          (xy -1.5 7)
        )
      )
    (fill_segments
      (layer ""B.Cu"")
      (pts
        (xy 2 3)
        (xy 0.1 0)
        (xy 2 3)
        (xy -1.5 7)
      )
    )
    )
    (model ""${KICAD6_3DMODEL_DIR}/a \""b\"".wrl"" hide
      (opacity 0.5)
      (offset (xyz 2.5 -3 1.0))
      (scale (xyz 1 1 0.1))
      (rotate (xyz 0 90 0))
    )
    (model ""${KICAD6_3DMODEL_DIR}/a \""b\"".wrl"" hide
      (opacity 0.5)
      (offset (xyz 2.5 -3 1.0))
      (scale (xyz 1 1 0.1))
      (rotate (xyz 0 90 0))
    )
    (group ""g \""1\"""" locked (id 6fe2b9d8-0001)
      (members
        0012
        abc-1
      )
    )
  )

  (footprint ""Package_SO:SOIC-8 \""x\"""" locked placed (version 20211014) (generator pcbnew) (layer ""B.Cu"")
    (tedit 5) (tstamp 7c2f5ab1-44ff-4a1c-b96d-28f9f3a0fd1e)
    (at 1 2 180)
    (descr ""d \""(1)\"""")
    (tags ""a b"")
    (property ""Sheetfile"" ""x.kicad_sch"")
    (property ""k 2"" """")
    (path ""/1/2"")
    (autoplace_cost90 1)
    (autoplace_cost180 2)
    (solder_mask_margin 0.1)
    (solder_paste_margin 0.2)
    (solder_paste_ratio 0.3)
    (clearance 0.4)
    (zone_connect 2)
    (thermal_width 0.5)
    (thermal_gap 0.6)
    (attr through_hole board_only exclude_from_pos_files exclude_from_bom allow_missing_courtyard)
    (private_layers ""User.1"")
    (net_tie_pad_groups ""1, 2"" ""3"")
    (fp_text user ""a \""(b)\"" \ c"" (at 1 2.5 90 unlocked) (layer ""F.SilkS"" knockout) hide
      (effects (font (face ""A \""b\"" \c"") (size 1.27 2) (color 255 0 128 0.5) (thickness 0.3) bold italic (line_spacing 1.1)) (justify right top mirror) (href ""https://x.y/(z)"") hide)
      (tstamp 7c2f5ab1-44ff-4a1c-b96d-28f9f3a0fd1e)
      (render_cache ""ab\""c"" 0
        (polygon
          (pts
            (xy 1 2)            (xy 1.5 2)            (xy 0 -7)            (xy 0 0)
            (xy 9 9)
          )
        )
      )
    )
    (fp_curve (pts
      (xy 2 3)
      (xy 0.1 0)
      (xy 2 3)
      (xy -1.5 7)
    ) (layer ""F.Fab"") (width 0.15) locked (tstamp 7c2f5ab1-44ff-4a1c-b96d-28f9f3a0fd1e))
    (image (at 12.34 5) (layer ""F.SilkS"") (scale 0.5)
      (uuid a-b-c)
      (data
        iVBORw0KGgo=
        12
      )
    )
    (pad ""A \""1\"""" thru_hole custom locked (at 1 2.5 90) (size 1 2) (drill oval 0.8 2 (offset 1 0.5)) (property pad_prop_bga) (layers *.Cu ""F.Mask"" F&B.Paste ""In1 (x)"") (remove_unused_layers) (keep_end_layers) (roundrect_rratio 0.25)
      (chamfer_ratio 0.1) (chamfer top_left bottom_right)
      (die_length 3)
      (net 17 ""Net-(U1-Pad3)"") (pinfunction ""fn"") (pintype ""bidirectional+no_connect"") (solder_mask_margin 0.1) (solder_paste_margin 0.2) (solder_paste_margin_ratio 0.3) (clearance 0.4) (zone_connect 2) (thermal_width 0.5) (thermal_gap 0.6)
      (options (clearance convexhull) (anchor circle))
      (primitives
        (gr_text ""a \""(b)\"" \ c"" (at 1 2.5 90) (layer ""F.SilkS"" knockout) (tstamp 7c2f5ab1-44ff-4a1c-b96d-28f9f3a0fd1e)
          (effects (font (face ""A \""b\"" \c"") (size 1.27 2) (color 255 0 128 0.5) (thickness 0.3) bold italic (line_spacing 1.1)) (justify right top mirror) (href ""https://x.y/(z)"") hide)
          (render_cache ""ab\""c"" 0
            (polygon
              (pts
                (xy 1 2)                (xy 1.5 2)                (xy 0 -7)                (xy 0 0)
                (xy 9 9)
              )
            )
          )
        )
        (gr_line locked (start 2 3) (end 2 0.001) (layer ""F.Fab"") (width 1) (tstamp 7c2f5ab1-44ff-4a1c-b96d-28f9f3a0fd1e))
        (gr_poly locked (pts
            (xy 2 3)
            (xy 0.1 0)
            (xy 2 3)
            (xy -1.5 7)
          ) (layer ""F.Fab"") (width 0.15) (fill solid) (tstamp 7c2f5ab1-44ff-4a1c-b96d-28f9f3a0fd1e))
      ) (tstamp 7c2f5ab1-44ff-4a1c-b96d-28f9f3a0fd1e))
    (pad ""x"" smd rect (at 0.0 0.0) (size 0.0 0.0) (layers))
    (zone locked (net 12) (net_name ""Net \""(1)\"""") (layers ""F.Cu"" ""B.Cu"") (tstamp 7c2f5ab1-44ff-4a1c-b96d-28f9f3a0fd1e) (name ""my zone"") (hatch edge 0.508)
      (priority 3)
      (connect_pads thru_hole_only (clearance 0.2))
      (min_thickness 0.254) (filled_areas_thickness no)
      (keepout (tracks allowed) (vias not_allowed) (pads allowed ) (copperpour not-allowed) (footprints not-allowed))
      (fill yes (mode hatch) (thermal_gap 0.5) (thermal_bridge_width 0.508) (smoothing chamfer) (radius 1) (island_removal_mode 2) (island_area_min 10)
        (hatch_thickness 1) (hatch_gap 1.5) (hatch_orientation 45)
        (hatch_smoothing_level 1) (hatch_smoothing_value 0.1)
        (hatch_border_algorithm 0) (hatch_min_hole_area 0.3))
      (polygon
        (pts
          (xy 2 3)
          (xy 0.1 0)
          (xy 2 3)
          (xy -1.5 7)
        )
      )
      (polygon
        (pts
          (xy 1 2)
        )
      )
      (filled_polygon
        (layer ""F.Cu"")
        (island)
        (pts
          (xy 2 3)
          (xy 0.1 0)
          (xy 2 3)
          (xy -1.5 7)
        )
      )
    (fill_segments
      (layer ""B.Cu"")
      (pts
        (xy 2 3)
        (xy 0.1 0)
        (xy 2 3)
        (xy -1.5 7)
      )
    )
    )
    (model ""${KICAD6_3DMODEL_DIR}/a \""b\"".wrl"" hide
      (opacity 0.5)
      (offset (xyz 2.5 -3 1.0))
      (scale (xyz 1 1 0.1))
      (rotate (xyz 0 90 0))
    )
    (model ""${KICAD6_3DMODEL_DIR}/a \""b\"".wrl"" hide
      (opacity 0.5)
      (offset (xyz 2.5 -3 1.0))
      (scale (xyz 1 1 0.1))
      (rotate (xyz 0 90 0))
    )
    (group ""g \""1\"""" locked (id 6fe2b9d8-0001)
      (members
        0012
        abc-1
      )
    )
  )

  (gr_text ""a \""(b)\"" \ c"" (at 1 2.5 90) (layer ""F.SilkS"" knockout) (tstamp 7c2f5ab1-44ff-4a1c-b96d-28f9f3a0fd1e)
    (effects (font (face ""A \""b\"" \c"") (size 1.27 2) (color 255 0 128 0.5) (thickness 0.3) bold italic (line_spacing 1.1)) (justify right top mirror) (href ""https://x.y/(z)"") hide)
    (render_cache ""ab\""c"" 0
      (polygon
        (pts
          (xy 1 2)          (xy 1.5 2)          (xy 0 -7)          (xy 0 0)
          (xy 9 9)
        )
      )
    )
  )
  (gr_line locked (start 2 3) (end 2 0.001) (layer ""F.Fab"") (width 1) (tstamp 7c2f5ab1-44ff-4a1c-b96d-28f9f3a0fd1e))
  (gr_poly locked
    (pts
      (xy 2 3)
      (xy 0.1 0)
      (xy 2 3)
      (xy -1.5 7)
    ) (layer ""F.Fab"") (width 0.15) (fill solid) (tstamp 7c2f5ab1-44ff-4a1c-b96d-28f9f3a0fd1e))
  (image (at 12.34 5) (layer ""F.SilkS"") (scale 0.5)
    (uuid a-b-c)
    (data
      iVBORw0KGgo=
      12
    )
  )
  (dimension (type orthogonal) (layer ""Dwgs.User (1)"") (tstamp 7c2f5ab1-44ff-4a1c-b96d-28f9f3a0fd1e)
    (pts (xy 2 3) (xy 0.1 0) (xy 2 3) (xy -1.5 7))
    (height -2.5)
    (orientation 1)
    (leader_length 2)
    (gr_text ""a \""(b)\"" \ c"" (at 1 2.5 90) (layer ""F.SilkS"" knockout) (tstamp 7c2f5ab1-44ff-4a1c-b96d-28f9f3a0fd1e)
      (effects (font (face ""A \""b\"" \c"") (size 1.27 2) (color 255 0 128 0.5) (thickness 0.3) bold italic (line_spacing 1.1)) (justify right top mirror) (href ""https://x.y/(z)"") hide)
      (render_cache ""ab\""c"" 0
        (polygon
          (pts
            (xy 1 2)            (xy 1.5 2)            (xy 0 -7)            (xy 0 0)
            (xy 9 9)
          )
        )
      )
    )
    (format (prefix ""a \""("") (suffix ""mm"") (units 2) (units_format 0) (precision 7) (override_value ""1 \ 2"") suppress_zeroes)
    (style (thickness 0.15) (arrow_length 1.27) (text_position_mode 2) (extension_height 0.58642) (text_frame 3) (extension_offset 0.5) keep_text_aligned)
  )
  (target x (at 1 2.5) (size 5) (width 0.05) (layer ""Edge.Cuts"") (tstamp 7c2f5ab1-44ff-4a1c-b96d-28f9f3a0fd1e))

  (segment locked (start 1 2.5) (end 3 4) (width 0.25) (layer ""F.Cu"") (net 7) (tstamp 7c2f5ab1-44ff-4a1c-b96d-28f9f3a0fd1e))
  (via blind locked (at 1 2.5) (size 0.8) (drill 0.4) (layers ""F.Cu"" ""In 1 \""(x)\"""") (remove_unused_layers) (keep_end_layers) (free) (net 3) (tstamp 7c2f5ab1-44ff-4a1c-b96d-28f9f3a0fd1e))
  (arc locked (start 1 2.5) (mid 3 4) (end 5 4) (width 0.25) (layer ""F \""Cu"") (net 7))
  (via (at 0.0 0.0) (size 0.0) (drill 0.0) (layers) (net 0))

  (zone locked (net 12) (net_name ""Net \""(1)\"""") (layers ""F.Cu"" ""B.Cu"") (tstamp 7c2f5ab1-44ff-4a1c-b96d-28f9f3a0fd1e) (name ""my zone"") (hatch edge 0.508)
    (priority 3)
    (connect_pads thru_hole_only (clearance 0.2))
    (min_thickness 0.254) (filled_areas_thickness no)
    (keepout (tracks allowed) (vias not_allowed) (pads allowed ) (copperpour not-allowed) (footprints not-allowed))
    (fill yes (mode hatch) (thermal_gap 0.5) (thermal_bridge_width 0.508) (smoothing chamfer) (radius 1) (island_removal_mode 2) (island_area_min 10)
      (hatch_thickness 1) (hatch_gap 1.5) (hatch_orientation 45)
      (hatch_smoothing_level 1) (hatch_smoothing_value 0.1)
      (hatch_border_algorithm 0) (hatch_min_hole_area 0.3))
    (polygon
      (pts
        (xy 2 3)
        (xy 0.1 0)
        (xy 2 3)
        (xy -1.5 7)
      )
    )
    (polygon
      (pts
        (xy 1 2)
      )
    )
    (filled_polygon
      (layer ""F.Cu"")
      (island)
      (pts
        (xy 2 3)
        (xy 0.1 0)
        (xy 2 3)
        (xy -1.5 7)
      )
    )
    (fill_segments
      (layer ""B.Cu"")
      (pts
        (xy 2 3)
        (xy 0.1 0)
        (xy 2 3)
        (xy -1.5 7)
      )
    )
  )
  (group ""g \""1\"""" locked (id 6fe2b9d8-0001)
    (members
      0012
      abc-1
    )
  )
)" = true.
Proof. vm_compute. reflexivity. Qed.

Theorem C57_BusEntry : survives_inside BusEntry_to BusEntry_from BusEntry_ok BusEntry_eqb.
Proof. apply (survive_inside _ _ _ _ _ BusEntry_q BusEntry_rt). Qed.
Print Assumptions C57_BusEntry.
Example C57_BusEntry_case : stands BusEntry_from BusEntry_ok (whole be_stroke (fun x o => o <| be_stroke := x |>)) Stroke_edits "(bus_entry (at 123.45 -7) (size 2.54 3)
  (stroke (width 0.254) (type dash_dot) (color 255 0 128 0.5))
  (uuid 7c2f5ab1-44ff-4a1c-b96d-28f9f3a0fd1e)
)" = true.
Proof. vm_compute. reflexivity. Qed.

Theorem C57_Connection : survives_inside Connection_to Connection_from Connection_ok Connection_eqb.
Proof. apply (survive_inside _ _ _ _ _ Connection_q Connection_rt). Qed.
Print Assumptions C57_Connection.
Example C57_Connection_case : stands Connection_from Connection_ok (whole cx_stroke (fun x o => o <| cx_stroke := x |>)) Stroke_edits "(bus (pts (xy 123.45 -7) (xy 1 0.5))
  (stroke (width 0.254) (type dash_dot) (color 255 0 128 0.5))
  (uuid 7c2f5ab1-44ff-4a1c-b96d-28f9f3a0fd1e)
)" = true.
Proof. vm_compute. reflexivity. Qed.

Theorem C57_PolyLine : survives_inside PolyLine_to PolyLine_from PolyLine_ok PolyLine_eqb.
Proof. apply (survive_inside _ _ _ _ _ PolyLine_q PolyLine_rt). Qed.
Print Assumptions C57_PolyLine.
Example C57_PolyLine_case : stands PolyLine_from PolyLine_ok (whole pl_stroke (fun x o => o <| pl_stroke := x |>)) Stroke_edits "(polyline (pts (xy 123.45 -7) (xy 1 0.5))
  (stroke (width 0.254) (type dash_dot) (color 255 0 128 0.5))
  (uuid 7c2f5ab1-44ff-4a1c-b96d-28f9f3a0fd1e)
)" = true.
Proof. vm_compute. reflexivity. Qed.

Theorem C57_Text : survives_inside Text_to Text_from Text_ok Text_eqb.
Proof. apply (survive_inside _ _ _ _ _ Text_q Text_rt). Qed.
Print Assumptions C57_Text.
Example C57_Text_case : stands Text_from Text_ok (whole tx_effects (fun x o => o <| tx_effects := x |>)) Effects_edits "(text ""0123456789 0123456789 0123456789 (\""0123456789\"") 0123456""
  (at 123.45 7 270)
  (effects (font (face ""A \""b\"" \c"") (size 1.27 2) (color 255 0 128 0.5) (thickness 0.3) bold italic (line_spacing 1.1)) (justify right top mirror) (href ""https://x.y/(z)"") hide)
  (uuid 7c2f5ab1-44ff-4a1c-b96d-28f9f3a0fd1e)
)" = true.
Proof. vm_compute. reflexivity. Qed.

Theorem C57_TextBox : survives_inside TextBox_to TextBox_from TextBox_ok TextBox_eqb.
Proof. apply (survive_inside _ _ _ _ _ TextBox_q TextBox_rt). Qed.
Print Assumptions C57_TextBox.
Example C57_TextBox_case : stands TextBox_from TextBox_ok (whole bx_effects (fun x o => o <| bx_effects := x |>)) Effects_edits "(text_box ""a \""b\""""
  (at 123.45 7 270) (size 3 0.001)
  (stroke (width 0.254) (type dash_dot) (color 255 0 128 0.5))
  (fill (type color) (color 255 0 128 0.5))
  (effects (font (face ""A \""b\"" \c"") (size 1.27 2) (color 255 0 128 0.5) (thickness 0.3) bold italic (line_spacing 1.1)) (justify right top mirror) (href ""https://x.y/(z)"") hide)
  (uuid 7c2f5ab1-44ff-4a1c-b96d-28f9f3a0fd1e)
)" = true.
Proof. vm_compute. reflexivity. Qed.

Theorem C57_LocalLabel : survives_inside LocalLabel_to LocalLabel_from LocalLabel_ok LocalLabel_eqb.
Proof. apply (survive_inside _ _ _ _ _ LocalLabel_q LocalLabel_rt). Qed.
Print Assumptions C57_LocalLabel.
Example C57_LocalLabel_case : stands LocalLabel_from LocalLabel_ok (whole ll_effects (fun x o => o <| ll_effects := x |>)) Effects_edits "(label ""a \""b\"""" (at 123.45 7 270) (fields_autoplaced)
  (effects (font (face ""A \""b\"" \c"") (size 1.27 2) (color 255 0 128 0.5) (thickness 0.3) bold italic (line_spacing 1.1)) (justify right top mirror) (href ""https://x.y/(z)"") hide)
  (uuid 7c2f5ab1-44ff-4a1c-b96d-28f9f3a0fd1e)
)" = true.
Proof. vm_compute. reflexivity. Qed.

Theorem C57_GlobalLabel : survives_inside GlobalLabel_to GlobalLabel_from GlobalLabel_ok GlobalLabel_eqb.
Proof. apply (survive_inside _ _ _ _ _ GlobalLabel_q GlobalLabel_rt). Qed.
Print Assumptions C57_GlobalLabel.
Example C57_GlobalLabel_case : stands GlobalLabel_from GlobalLabel_ok (nth_of gla_properties (fun x o => o <| gla_properties := x |>) 0) Property_edits "(global_label ""a \""b\"""" (shape bidirectional) (at 123.45 7 270) (fields_autoplaced)
  (effects (font (face ""A \""b\"" \c"") (size 1.27 2) (color 255 0 128 0.5) (thickness 0.3) bold italic (line_spacing 1.1)) (justify right top mirror) (href ""https://x.y/(z)"") hide)
  (uuid 7c2f5ab1-44ff-4a1c-b96d-28f9f3a0fd1e)
  (property ""Sheet name"" ""a\b\"""" (id 3) (at 1 2.5 90) (show_name)
    (effects (font (face ""A \""b\"" \c"") (size 1.27 2) (color 255 0 128 0.5) (thickness 0.3) bold italic (line_spacing 1.1)) (justify right top mirror) (href ""https://x.y/(z)"") hide)
  )
  (property ""Sheet name"" ""a\b\"""" (id 3) (at 1 2.5 90) (show_name)
    (effects (font (face ""A \""b\"" \c"") (size 1.27 2) (color 255 0 128 0.5) (thickness 0.3) bold italic (line_spacing 1.1)) (justify right top mirror) (href ""https://x.y/(z)"") hide)
  )
)" = true.
Proof. vm_compute. reflexivity. Qed.

Theorem C57_HierarchicalLabel : survives_inside HierarchicalLabel_to HierarchicalLabel_from HierarchicalLabel_ok HierarchicalLabel_eqb.
Proof. apply (survive_inside _ _ _ _ _ HierarchicalLabel_q HierarchicalLabel_rt). Qed.
Print Assumptions C57_HierarchicalLabel.
Example C57_HierarchicalLabel_case : stands HierarchicalLabel_from HierarchicalLabel_ok (whole hl_effects (fun x o => o <| hl_effects := x |>)) Effects_edits "(hierarchical_label ""a \""b\"""" (shape output) (at 123.45 7 270) (fields_autoplaced)
  (effects (font (face ""A \""b\"" \c"") (size 1.27 2) (color 255 0 128 0.5) (thickness 0.3) bold italic (line_spacing 1.1)) (justify right top mirror) (href ""https://x.y/(z)"") hide)
  (uuid 7c2f5ab1-44ff-4a1c-b96d-28f9f3a0fd1e)
)" = true.
Proof. vm_compute. reflexivity. Qed.

Theorem C57_SymbolProjectInstance : survives_inside SymbolProjectInstance_to SymbolProjectInstance_from SymbolProjectInstance_ok SymbolProjectInstance_eqb.
Proof. apply (survive_inside _ _ _ _ _ SymbolProjectInstance_q SymbolProjectInstance_rt). Qed.
Print Assumptions C57_SymbolProjectInstance.
Example C57_SymbolProjectInstance_case : stands SymbolProjectInstance_from SymbolProjectInstance_ok (nth_of spi_paths (fun x o => o <| spi_paths := x |>) 0) SymbolProjectPath_edits "(project ""my \""project\""""
  (path ""/00000000-0000-0000-0000-00005f325e1e""
    (reference ""U 1"") (unit 1)
  )
  (path ""/00000000-0000-0000-0000-00005f325e1e""
    (reference ""U 1"") (unit 2)
  )
)" = true.
Proof. vm_compute. reflexivity. Qed.

Theorem C57_SchematicSymbol : survives_inside SchematicSymbol_to SchematicSymbol_from SchematicSymbol_ok SchematicSymbol_eqb.
Proof. apply (survive_inside _ _ _ _ _ SchematicSymbol_q SchematicSymbol_rt). Qed.
Print Assumptions C57_SchematicSymbol.
Example C57_SchematicSymbol_case : stands SchematicSymbol_from SchematicSymbol_ok (nth_of ss_instances (fun x o => o <| ss_instances := x |>) 0) SymbolProjectInstance_edits "(symbol (lib_name ""R_1"") (lib_id ""Device:R:x_1_2"") (at 123.45 7 270) (mirror x) (unit 2)
  (in_bom yes) (on_board no) (dnp no) (fields_autoplaced)
  (uuid 7c2f5ab1-44ff-4a1c-b96d-28f9f3a0fd1e)
  (property ""Sheet name"" ""a\b\"""" (id 3) (at 1 2.5 90) (show_name)
    (effects (font (face ""A \""b\"" \c"") (size 1.27 2) (color 255 0 128 0.5) (thickness 0.3) bold italic (line_spacing 1.1)) (justify right top mirror) (href ""https://x.y/(z)"") hide)
  )
  (property ""Sheet name"" ""a\b\"""" (id 3) (at 1 2.5 90) (show_name)
    (effects (font (face ""A \""b\"" \c"") (size 1.27 2) (color 255 0 128 0.5) (thickness 0.3) bold italic (line_spacing 1.1)) (justify right top mirror) (href ""https://x.y/(z)"") hide)
  )
  (pin ""1"" (uuid 7c2f5ab1-44ff-4a1c-b96d-28f9f3a0fd1e))
  (pin ""A \""2\"""" (uuid abc-12))
  (instances
    (project ""my \""project\""""
      (path ""/00000000-0000-0000-0000-00005f325e1e""
        (reference ""U 1"") (unit 1)
      )
      (path ""/00000000-0000-0000-0000-00005f325e1e""
        (reference ""U 1"") (unit 2)
      )
    )
    (project """"
    )
  )
)" = true.
Proof. vm_compute. reflexivity. Qed.

Theorem C57_HierarchicalPin : survives_inside HierarchicalPin_to HierarchicalPin_from HierarchicalPin_ok HierarchicalPin_eqb.
Proof. apply (survive_inside _ _ _ _ _ HierarchicalPin_q HierarchicalPin_rt). Qed.
Print Assumptions C57_HierarchicalPin.
Example C57_HierarchicalPin_case : stands HierarchicalPin_from HierarchicalPin_ok (whole hp_effects (fun x o => o <| hp_effects := x |>)) Effects_edits "(pin ""a \""b\"""" tri_state (at 123.45 7 270)
  (effects (font (face ""A \""b\"" \c"") (size 1.27 2) (color 255 0 128 0.5) (thickness 0.3) bold italic (line_spacing 1.1)) (justify right top mirror) (href ""https://x.y/(z)"") hide)
  (uuid 7c2f5ab1-44ff-4a1c-b96d-28f9f3a0fd1e)
)" = true.
Proof. vm_compute. reflexivity. Qed.

Theorem C57_HierarchicalSheetProjectInstance : survives_inside HierarchicalSheetProjectInstance_to HierarchicalSheetProjectInstance_from HierarchicalSheetProjectInstance_ok HierarchicalSheetProjectInstance_eqb.
Proof. apply (survive_inside _ _ _ _ _ HierarchicalSheetProjectInstance_q HierarchicalSheetProjectInstance_rt). Qed.
Print Assumptions C57_HierarchicalSheetProjectInstance.
Example C57_HierarchicalSheetProjectInstance_case : stands HierarchicalSheetProjectInstance_from HierarchicalSheetProjectInstance_ok (nth_of hpi_paths (fun x o => o <| hpi_paths := x |>) 0) HierarchicalSheetProjectPath_edits "(project ""my \""project\""""
  (path ""/a b/c"" (page ""2 \""a\""""))
  (path ""/a b/c"" (page ""2 \""a\""""))
)" = true.
Proof. vm_compute. reflexivity. Qed.

Theorem C57_HierarchicalSheet : survives_inside HierarchicalSheet_to HierarchicalSheet_from HierarchicalSheet_ok HierarchicalSheet_eqb.
Proof. apply (survive_inside _ _ _ _ _ HierarchicalSheet_q HierarchicalSheet_rt). Qed.
Print Assumptions C57_HierarchicalSheet.
Example C57_HierarchicalSheet_case : stands HierarchicalSheet_from HierarchicalSheet_ok (nth_of hs_instances (fun x o => o <| hs_instances := x |>) 0) HierarchicalSheetProjectInstance_edits "(sheet (at 123.45 -7) (size 30 45.72) (fields_autoplaced)
  (stroke (width 0.254) (type dash_dot) (color 255 0 128 0.5))
  (fill (color 1 2 255 0.1234))
  (uuid 7c2f5ab1-44ff-4a1c-b96d-28f9f3a0fd1e)
  (property ""Sheetname"" ""a\b\"""" (id 3) (at 1 2.5 90) (show_name)
    (effects (font (face ""A \""b\"" \c"") (size 1.27 2) (color 255 0 128 0.5) (thickness 0.3) bold italic (line_spacing 1.1)) (justify right top mirror) (href ""https://x.y/(z)"") hide)
  )
  (property ""Sheet file"" ""a\b\"""" (id 3) (at 1 2.5 90) (show_name)
    (effects (font (face ""A \""b\"" \c"") (size 1.27 2) (color 255 0 128 0.5) (thickness 0.3) bold italic (line_spacing 1.1)) (justify right top mirror) (href ""https://x.y/(z)"") hide)
  )
  (property ""a \""b\"""" ""a\b\"""" (id 3) (at 1 2.5 90) (show_name)
    (effects (font (face ""A \""b\"" \c"") (size 1.27 2) (color 255 0 128 0.5) (thickness 0.3) bold italic (line_spacing 1.1)) (justify right top mirror) (href ""https://x.y/(z)"") hide)
  )
  (property ""Field2"" ""a\b\"""" (id 3) (at 1 2.5 90) (show_name)
    (effects (font (face ""A \""b\"" \c"") (size 1.27 2) (color 255 0 128 0.5) (thickness 0.3) bold italic (line_spacing 1.1)) (justify right top mirror) (href ""https://x.y/(z)"") hide)
  )
  (pin ""a \""b\"""" tri_state (at 123.45 7 270)
    (effects (font (face ""A \""b\"" \c"") (size 1.27 2) (color 255 0 128 0.5) (thickness 0.3) bold italic (line_spacing 1.1)) (justify right top mirror) (href ""https://x.y/(z)"") hide)
    (uuid 7c2f5ab1-44ff-4a1c-b96d-28f9f3a0fd1e)
  )
  (pin """" input (at 0.0 0.0)
    (effects (font (size 1.0 1.0)))
  )
  (instances
    (project ""my \""project\""""
      (path ""/a b/c"" (page ""2 \""a\""""))
      (path ""/a b/c"" (page ""2 \""a\""""))
    )
  )
)" = true.
Proof. vm_compute. reflexivity. Qed.

Theorem C57_Rectangle : survives_inside Rectangle_to Rectangle_from Rectangle_ok Rectangle_eqb.
Proof. apply (survive_inside _ _ _ _ _ Rectangle_q Rectangle_rt). Qed.
Print Assumptions C57_Rectangle.
Example C57_Rectangle_case : stands Rectangle_from Rectangle_ok (whole rct_fill (fun x o => o <| rct_fill := x |>)) Fill_edits "(rectangle (start 123.45 -7) (end 3 0.001)
  (stroke (width 0.254) (type dash_dot) (color 255 0 128 0.5))
  (fill (type color) (color 255 0 128 0.5))
  (uuid 7c2f5ab1-44ff-4a1c-b96d-28f9f3a0fd1e)
)" = true.
Proof. vm_compute. reflexivity. Qed.

Theorem C57_SchArc : survives_inside SchArc_to SchArc_from SchArc_ok SchArc_eqb.
Proof. apply (survive_inside _ _ _ _ _ SchArc_q SchArc_rt). Qed.
Print Assumptions C57_SchArc.
Example C57_SchArc_case : stands SchArc_from SchArc_ok (whole sar_fill (fun x o => o <| sar_fill := x |>)) Fill_edits "(arc (start 123.45 -7) (mid 3 0.001) (end 4 1.2)
  (stroke (width 0.254) (type dash_dot) (color 255 0 128 0.5))
  (fill (type color) (color 255 0 128 0.5))
  (uuid 7c2f5ab1-44ff-4a1c-b96d-28f9f3a0fd1e)
)" = true.
Proof. vm_compute. reflexivity. Qed.

Theorem C57_Circle : survives_inside Circle_to Circle_from Circle_ok Circle_eqb.
Proof. apply (survive_inside _ _ _ _ _ Circle_q Circle_rt). Qed.
Print Assumptions C57_Circle.
Example C57_Circle_case : stands Circle_from Circle_ok (whole cir_fill (fun x o => o <| cir_fill := x |>)) Fill_edits "(circle (center 123.45 -7) (radius 1.5)
  (stroke (width 0.254) (type dash_dot) (color 255 0 128 0.5))
  (fill (type color) (color 255 0 128 0.5))
  (uuid 7c2f5ab1-44ff-4a1c-b96d-28f9f3a0fd1e)
)" = true.
Proof. vm_compute. reflexivity. Qed.

Theorem C57_NetclassFlag : survives_inside NetclassFlag_to NetclassFlag_from NetclassFlag_ok NetclassFlag_eqb.
Proof. apply (survive_inside _ _ _ _ _ NetclassFlag_q NetclassFlag_rt). Qed.
Print Assumptions C57_NetclassFlag.
Example C57_NetclassFlag_case : stands NetclassFlag_from NetclassFlag_ok (nth_of nf_properties (fun x o => o <| nf_properties := x |>) 0) Property_edits "(netclass_flag ""a \""b\"""" (length 2.54) (shape dot) (at 123.45 7 270) (fields_autoplaced)
  (effects (font (face ""A \""b\"" \c"") (size 1.27 2) (color 255 0 128 0.5) (thickness 0.3) bold italic (line_spacing 1.1)) (justify right top mirror) (href ""https://x.y/(z)"") hide)
  (uuid 7c2f5ab1-44ff-4a1c-b96d-28f9f3a0fd1e)
  (property ""Sheet name"" ""a\b\"""" (id 3) (at 1 2.5 90) (show_name)
    (effects (font (face ""A \""b\"" \c"") (size 1.27 2) (color 255 0 128 0.5) (thickness 0.3) bold italic (line_spacing 1.1)) (justify right top mirror) (href ""https://x.y/(z)"") hide)
  )
  (property ""Sheet name"" ""a\b\"""" (id 3) (at 1 2.5 90) (show_name)
    (effects (font (face ""A \""b\"" \c"") (size 1.27 2) (color 255 0 128 0.5) (thickness 0.3) bold italic (line_spacing 1.1)) (justify right top mirror) (href ""https://x.y/(z)"") hide)
  )
)" = true.
Proof. vm_compute. reflexivity. Qed.

Theorem C57_Schematic : survives_inside Schematic_to Schematic_from Schematic_ok Schematic_eqb.
Proof. apply (survive_inside _ _ _ _ _ Schematic_q Schematic_rt). Qed.
Print Assumptions C57_Schematic.
Example C57_Schematic_case : stands Schematic_from Schematic_ok (nth_of sc_symbolInstances (fun x o => o <| sc_symbolInstances := x |>) 0) SymbolInstance_edits "(kicad_sch (version 20230121) (generator eeschema)

  (uuid 7c2f5ab1-44ff-4a1c-b96d-28f9f3a0fd1e)

  (paper ""A3"" portrait)

  (title_block
    (title ""T"")
    (rev ""1.0"")
    (company """")
    (comment 1 ""one"")
    (comment 4 ""four (4)"")
  )

  (lib_symbols
    (symbol ""Amplifier:LM 358"" (extends ""LM \""X\"""") (power) (pin_numbers hide) (pin_names (offset 0.5) hide) (in_bom yes) (on_board no)
      (property ""Sheet name"" ""a\b\"""" (id 3) (at 1 2.5 90) (show_name)
        (effects (font (face ""A \""b\"" \c"") (size 1.27 2) (color 255 0 128 0.5) (thickness 0.3) bold italic (line_spacing 1.1)) (justify right top mirror) (href ""https://x.y/(z)"") hide)
      )
      (property ""Sheet name"" ""a\b\"""" (id 3) (at 1 2.5 90) (show_name)
        (effects (font (face ""A \""b\"" \c"") (size 1.27 2) (color 255 0 128 0.5) (thickness 0.3) bold italic (line_spacing 1.1)) (justify right top mirror) (href ""https://x.y/(z)"") hide)
      )
      (circle (center 0.0 0.0) (radius 0.0)
        (stroke (width 0.0))
        (fill (type none))
      )
      (text """" (at 0.0 0.0)
        (effects (font (size 1.0 1.0)))
      )
      (pin power_in line (at 2 3 90) (length 2.54) hide
        (name ""~{RST}"" (effects (font (face ""A \""b\"" \c"") (size 1.27 2) (color 255 0 128 0.5) (thickness 0.3) bold italic (line_spacing 1.1)) (justify right top mirror) (href ""https://x.y/(z)"") hide))
        (number ""12"")
        (alternate """" input line)
        (alternate """" input line)
      )
      (pin input line (at 0.0 0.0) (length 0.254) (name """") (number ""0""))
      (symbol ""LM 358_0_1""
        (rectangle (start 0.0 0.0) (end 0.0 0.0)
          (stroke (width 0.0))
          (fill (type none))
        )
        (arc (start 0.0 0.0) (mid 0.0 0.0) (end 0.0 0.0)
          (stroke (width 0.0))
          (fill (type none))
        )
        (pin power_in line (at 2 3 90) (length 2.54) hide
          (name ""~{RST}"" (effects (font (face ""A \""b\"" \c"") (size 1.27 2) (color 255 0 128 0.5) (thickness 0.3) bold italic (line_spacing 1.1)) (justify right top mirror) (href ""https://x.y/(z)"") hide))
          (number ""12"")
          (alternate """" input line)
          (alternate """" input line)
        )
      )
      (symbol ""LM 358_1_1""
        (rectangle (start 0.0 0.0) (end 0.0 0.0)
          (stroke (width 0.0))
          (fill (type none))
        )
        (arc (start 0.0 0.0) (mid 0.0 0.0) (end 0.0 0.0)
          (stroke (width 0.0))
          (fill (type none))
        )
        (pin power_in line (at 2 3 90) (length 2.54) hide
          (name ""~{RST}"" (effects (font (face ""A \""b\"" \c"") (size 1.27 2) (color 255 0 128 0.5) (thickness 0.3) bold italic (line_spacing 1.1)) (justify right top mirror) (href ""https://x.y/(z)"") hide))
          (number ""12"")
          (alternate """" input line)
          (alternate """" input line)
        )
        (symbol ""LM 358_7_1""
          (rectangle (start 0.0 0.0) (end 0.0 0.0)
            (stroke (width 0.0))
            (fill (type none))
          )
          (arc (start 0.0 0.0) (mid 0.0 0.0) (end 0.0 0.0)
            (stroke (width 0.0))
            (fill (type none))
          )
          (pin power_in line (at 2 3 90) (length 2.54) hide
            (name ""~{RST}"" (effects (font (face ""A \""b\"" \c"") (size 1.27 2) (color 255 0 128 0.5) (thickness 0.3) bold italic (line_spacing 1.1)) (justify right top mirror) (href ""https://x.y/(z)"") hide))
            (number ""12"")
            (alternate """" input line)
            (alternate """" input line)
          )
        )
        (symbol ""LM 358_8_1""
          (rectangle (start 0.0 0.0) (end 0.0 0.0)
            (stroke (width 0.0))
            (fill (type none))
          )
          (arc (start 0.0 0.0) (mid 0.0 0.0) (end 0.0 0.0)
            (stroke (width 0.0))
            (fill (type none))
          )
          (pin power_in line (at 2 3 90) (length 2.54) hide
            (name ""~{RST}"" (effects (font (face ""A \""b\"" \c"") (size 1.27 2) (color 255 0 128 0.5) (thickness 0.3) bold italic (line_spacing 1.1)) (justify right top mirror) (href ""https://x.y/(z)"") hide))
            (number ""12"")
            (alternate """" input line)
            (alternate """" input line)
          )
        )
      )
    )

    (symbol ""Amplifier:LM 358"" (extends ""LM \""X\"""") (power) (pin_numbers hide) (pin_names (offset 0.5) hide) (in_bom yes) (on_board no)
      (property ""Sheet name"" ""a\b\"""" (id 3) (at 1 2.5 90) (show_name)
        (effects (font (face ""A \""b\"" \c"") (size 1.27 2) (color 255 0 128 0.5) (thickness 0.3) bold italic (line_spacing 1.1)) (justify right top mirror) (href ""https://x.y/(z)"") hide)
      )
      (property ""Sheet name"" ""a\b\"""" (id 3) (at 1 2.5 90) (show_name)
        (effects (font (face ""A \""b\"" \c"") (size 1.27 2) (color 255 0 128 0.5) (thickness 0.3) bold italic (line_spacing 1.1)) (justify right top mirror) (href ""https://x.y/(z)"") hide)
      )
      (circle (center 0.0 0.0) (radius 0.0)
        (stroke (width 0.0))
        (fill (type none))
      )
      (text """" (at 0.0 0.0)
        (effects (font (size 1.0 1.0)))
      )
      (pin power_in line (at 2 3 90) (length 2.54) hide
        (name ""~{RST}"" (effects (font (face ""A \""b\"" \c"") (size 1.27 2) (color 255 0 128 0.5) (thickness 0.3) bold italic (line_spacing 1.1)) (justify right top mirror) (href ""https://x.y/(z)"") hide))
        (number ""12"")
        (alternate """" input line)
        (alternate """" input line)
      )
      (pin input line (at 0.0 0.0) (length 0.254) (name """") (number ""0""))
      (symbol ""LM 358_0_1""
        (rectangle (start 0.0 0.0) (end 0.0 0.0)
          (stroke (width 0.0))
          (fill (type none))
        )
        (arc (start 0.0 0.0) (mid 0.0 0.0) (end 0.0 0.0)
          (stroke (width 0.0))
          (fill (type none))
        )
        (pin power_in line (at 2 3 90) (length 2.54) hide
          (name ""~{RST}"" (effects (font (face ""A \""b\"" \c"") (size 1.27 2) (color 255 0 128 0.5) (thickness 0.3) bold italic (line_spacing 1.1)) (justify right top mirror) (href ""https://x.y/(z)"") hide))
          (number ""12"")
          (alternate """" input line)
          (alternate """" input line)
        )
      )
      (symbol ""LM 358_1_1""
        (rectangle (start 0.0 0.0) (end 0.0 0.0)
          (stroke (width 0.0))
          (fill (type none))
        )
        (arc (start 0.0 0.0) (mid 0.0 0.0) (end 0.0 0.0)
          (stroke (width 0.0))
          (fill (type none))
        )
        (pin power_in line (at 2 3 90) (length 2.54) hide
          (name ""~{RST}"" (effects (font (face ""A \""b\"" \c"") (size 1.27 2) (color 255 0 128 0.5) (thickness 0.3) bold italic (line_spacing 1.1)) (justify right top mirror) (href ""https://x.y/(z)"") hide))
          (number ""12"")
          (alternate """" input line)
          (alternate """" input line)
        )
        (symbol ""LM 358_7_1""
          (rectangle (start 0.0 0.0) (end 0.0 0.0)
            (stroke (width 0.0))
            (fill (type none))
          )
          (arc (start 0.0 0.0) (mid 0.0 0.0) (end 0.0 0.0)
            (stroke (width 0.0))
            (fill (type none))
          )
          (pin power_in line (at 2 3 90) (length 2.54) hide
            (name ""~{RST}"" (effects (font (face ""A \""b\"" \c"") (size 1.27 2) (color 255 0 128 0.5) (thickness 0.3) bold italic (line_spacing 1.1)) (justify right top mirror) (href ""https://x.y/(z)"") hide))
            (number ""12"")
            (alternate """" input line)
            (alternate """" input line)
          )
        )
        (symbol ""LM 358_8_1""
          (rectangle (start 0.0 0.0) (end 0.0 0.0)
            (stroke (width 0.0))
            (fill (type none))
          )
          (arc (start 0.0 0.0) (mid 0.0 0.0) (end 0.0 0.0)
            (stroke (width 0.0))
            (fill (type none))
          )
          (pin power_in line (at 2 3 90) (length 2.54) hide
            (name ""~{RST}"" (effects (font (face ""A \""b\"" \c"") (size 1.27 2) (color 255 0 128 0.5) (thickness 0.3) bold italic (line_spacing 1.1)) (justify right top mirror) (href ""https://x.y/(z)"") hide))
            (number ""12"")
            (alternate """" input line)
            (alternate """" input line)
          )
        )
      )
    )
  )

  (junction (at 123.45 -7) (diameter 0) (color 255 0 128 0.5)
    (uuid 7c2f5ab1-44ff-4a1c-b96d-28f9f3a0fd1e)
  )
  (junction (at 0.0 0.0) (diameter 0) (color 0 0 0 0)  )

  (no_connect (at 123.45 -7) (uuid 7c2f5ab1-44ff-4a1c-b96d-28f9f3a0fd1e))

  (bus_entry (at 123.45 -7) (size 2.54 3)
    (stroke (width 0.254) (type dash_dot) (color 255 0 128 0.5))
    (uuid 7c2f5ab1-44ff-4a1c-b96d-28f9f3a0fd1e)
  )

  (bus_alias ""a \""b\"""" (members ""A[0..7]"" """"))

  (bus (pts (xy 123.45 -7) (xy 1 0.5))
    (stroke (width 0.254) (type dash_dot) (color 255 0 128 0.5))
    (uuid 7c2f5ab1-44ff-4a1c-b96d-28f9f3a0fd1e)
  )
  (polyline (pts (xy 123.45 -7) (xy 1 0.5))
    (stroke (width 0.254) (type dash_dot) (color 255 0 128 0.5))
    (uuid 7c2f5ab1-44ff-4a1c-b96d-28f9f3a0fd1e)
  )
  (wire (pts (xy 123.45 -7) (xy 1 0.5))
    (stroke (width 0.254) (type dash_dot) (color 255 0 128 0.5))
    (uuid 7c2f5ab1-44ff-4a1c-b96d-28f9f3a0fd1e)
  )

  (circle (center 123.45 -7) (radius 1.5)
    (stroke (width 0.254) (type dash_dot) (color 255 0 128 0.5))
    (fill (type color) (color 255 0 128 0.5))
    (uuid 7c2f5ab1-44ff-4a1c-b96d-28f9f3a0fd1e)
  )
  (arc (start 0.0 0.0) (mid 0.0 0.0) (end 0.0 0.0)
    (stroke (width 0.0))
    (fill (type none))
  )
  (rectangle (start 0.0 0.0) (end 0.0 0.0)
    (stroke (width 0.0))
    (fill (type none))
  )

  (image (at 12.34 5) (scale 0.5)
    (uuid a-b-c)
    (data
      iVBORw0KGgo=
      12
    )
  )

  (text_box ""a \""b\""""
    (at 123.45 7 270) (size 3 0.001)
    (stroke (width 0.254) (type dash_dot) (color 255 0 128 0.5))
    (fill (type color) (color 255 0 128 0.5))
    (effects (font (face ""A \""b\"" \c"") (size 1.27 2) (color 255 0 128 0.5) (thickness 0.3) bold italic (line_spacing 1.1)) (justify right top mirror) (href ""https://x.y/(z)"") hide)
    (uuid 7c2f5ab1-44ff-4a1c-b96d-28f9f3a0fd1e)
  )

  (text ""0123456789 0123456789 0123456789 (\""0123456789\"") 0123456""
    (at 123.45 7 270)
    (effects (font (face ""A \""b\"" \c"") (size 1.27 2) (color 255 0 128 0.5) (thickness 0.3) bold italic (line_spacing 1.1)) (justify right top mirror) (href ""https://x.y/(z)"") hide)
    (uuid 7c2f5ab1-44ff-4a1c-b96d-28f9f3a0fd1e)
  )

  (label ""a \""b\"""" (at 123.45 7 270) (fields_autoplaced)
    (effects (font (face ""A \""b\"" \c"") (size 1.27 2) (color 255 0 128 0.5) (thickness 0.3) bold italic (line_spacing 1.1)) (justify right top mirror) (href ""https://x.y/(z)"") hide)
    (uuid 7c2f5ab1-44ff-4a1c-b96d-28f9f3a0fd1e)
  )

  (global_label ""a \""b\"""" (shape bidirectional) (at 123.45 7 270) (fields_autoplaced)
    (effects (font (face ""A \""b\"" \c"") (size 1.27 2) (color 255 0 128 0.5) (thickness 0.3) bold italic (line_spacing 1.1)) (justify right top mirror) (href ""https://x.y/(z)"") hide)
    (uuid 7c2f5ab1-44ff-4a1c-b96d-28f9f3a0fd1e)
    (property ""Sheet name"" ""a\b\"""" (id 3) (at 1 2.5 90) (show_name)
      (effects (font (face ""A \""b\"" \c"") (size 1.27 2) (color 255 0 128 0.5) (thickness 0.3) bold italic (line_spacing 1.1)) (justify right top mirror) (href ""https://x.y/(z)"") hide)
    )
    (property ""Sheet name"" ""a\b\"""" (id 3) (at 1 2.5 90) (show_name)
      (effects (font (face ""A \""b\"" \c"") (size 1.27 2) (color 255 0 128 0.5) (thickness 0.3) bold italic (line_spacing 1.1)) (justify right top mirror) (href ""https://x.y/(z)"") hide)
    )
  )

  (hierarchical_label ""a \""b\"""" (shape output) (at 123.45 7 270) (fields_autoplaced)
    (effects (font (face ""A \""b\"" \c"") (size 1.27 2) (color 255 0 128 0.5) (thickness 0.3) bold italic (line_spacing 1.1)) (justify right top mirror) (href ""https://x.y/(z)"") hide)
    (uuid 7c2f5ab1-44ff-4a1c-b96d-28f9f3a0fd1e)
  )

  (netclass_flag ""a \""b\"""" (length 2.54) (shape dot) (at 123.45 7 270) (fields_autoplaced)
    (effects (font (face ""A \""b\"" \c"") (size 1.27 2) (color 255 0 128 0.5) (thickness 0.3) bold italic (line_spacing 1.1)) (justify right top mirror) (href ""https://x.y/(z)"") hide)
    (uuid 7c2f5ab1-44ff-4a1c-b96d-28f9f3a0fd1e)
    (property ""Sheet name"" ""a\b\"""" (id 3) (at 1 2.5 90) (show_name)
      (effects (font (face ""A \""b\"" \c"") (size 1.27 2) (color 255 0 128 0.5) (thickness 0.3) bold italic (line_spacing 1.1)) (justify right top mirror) (href ""https://x.y/(z)"") hide)
    )
    (property ""Sheet name"" ""a\b\"""" (id 3) (at 1 2.5 90) (show_name)
      (effects (font (face ""A \""b\"" \c"") (size 1.27 2) (color 255 0 128 0.5) (thickness 0.3) bold italic (line_spacing 1.1)) (justify right top mirror) (href ""https://x.y/(z)"") hide)
    )
  )

  (symbol (lib_name ""R_1"") (lib_id ""Device:R:x_1_2"") (at 123.45 7 270) (mirror x) (unit 2)
    (in_bom yes) (on_board no) (dnp no) (fields_autoplaced)
    (uuid 7c2f5ab1-44ff-4a1c-b96d-28f9f3a0fd1e)
    (property ""Sheet name"" ""a\b\"""" (id 3) (at 1 2.5 90) (show_name)
      (effects (font (face ""A \""b\"" \c"") (size 1.27 2) (color 255 0 128 0.5) (thickness 0.3) bold italic (line_spacing 1.1)) (justify right top mirror) (href ""https://x.y/(z)"") hide)
    )
    (property ""Sheet name"" ""a\b\"""" (id 3) (at 1 2.5 90) (show_name)
      (effects (font (face ""A \""b\"" \c"") (size 1.27 2) (color 255 0 128 0.5) (thickness 0.3) bold italic (line_spacing 1.1)) (justify right top mirror) (href ""https://x.y/(z)"") hide)
    )
    (pin ""1"" (uuid 7c2f5ab1-44ff-4a1c-b96d-28f9f3a0fd1e))
    (pin ""A \""2\"""" (uuid abc-12))
    (instances
      (project ""my \""project\""""
        (path ""/00000000-0000-0000-0000-00005f325e1e""
          (reference ""U 1"") (unit 1)
        )
        (path ""/00000000-0000-0000-0000-00005f325e1e""
          (reference ""U 1"") (unit 2)
        )
      )
      (project """"
      )
    )
  )

  (symbol (lib_name ""R_1"") (lib_id ""Device:R:x_1_2"") (at 123.45 7 270) (mirror x) (unit 2)
    (in_bom yes) (on_board no) (dnp no) (fields_autoplaced)
    (uuid 7c2f5ab1-44ff-4a1c-b96d-28f9f3a0fd1e)
    (property ""Sheet name"" ""a\b\"""" (id 3) (at 1 2.5 90) (show_name)
      (effects (font (face ""A \""b\"" \c"") (size 1.27 2) (color 255 0 128 0.5) (thickness 0.3) bold italic (line_spacing 1.1)) (justify right top mirror) (href ""https://x.y/(z)"") hide)
    )
    (property ""Sheet name"" ""a\b\"""" (id 3) (at 1 2.5 90) (show_name)
      (effects (font (face ""A \""b\"" \c"") (size 1.27 2) (color 255 0 128 0.5) (thickness 0.3) bold italic (line_spacing 1.1)) (justify right top mirror) (href ""https://x.y/(z)"") hide)
    )
    (pin ""1"" (uuid 7c2f5ab1-44ff-4a1c-b96d-28f9f3a0fd1e))
    (pin ""A \""2\"""" (uuid abc-12))
    (instances
      (project ""my \""project\""""
        (path ""/00000000-0000-0000-0000-00005f325e1e""
          (reference ""U 1"") (unit 1)
        )
        (path ""/00000000-0000-0000-0000-00005f325e1e""
          (reference ""U 1"") (unit 2)
        )
      )
      (project """"
      )
    )
  )

  (sheet (at 123.45 -7) (size 30 45.72) (fields_autoplaced)
    (stroke (width 0.254) (type dash_dot) (color 255 0 128 0.5))
    (fill (color 1 2 255 0.1234))
    (uuid 7c2f5ab1-44ff-4a1c-b96d-28f9f3a0fd1e)
    (property ""Sheetname"" ""a\b\"""" (id 3) (at 1 2.5 90) (show_name)
      (effects (font (face ""A \""b\"" \c"") (size 1.27 2) (color 255 0 128 0.5) (thickness 0.3) bold italic (line_spacing 1.1)) (justify right top mirror) (href ""https://x.y/(z)"") hide)
    )
    (property ""Sheet file"" ""a\b\"""" (id 3) (at 1 2.5 90) (show_name)
      (effects (font (face ""A \""b\"" \c"") (size 1.27 2) (color 255 0 128 0.5) (thickness 0.3) bold italic (line_spacing 1.1)) (justify right top mirror) (href ""https://x.y/(z)"") hide)
    )
    (property ""a \""b\"""" ""a\b\"""" (id 3) (at 1 2.5 90) (show_name)
      (effects (font (face ""A \""b\"" \c"") (size 1.27 2) (color 255 0 128 0.5) (thickness 0.3) bold italic (line_spacing 1.1)) (justify right top mirror) (href ""https://x.y/(z)"") hide)
    )
    (property ""Field2"" ""a\b\"""" (id 3) (at 1 2.5 90) (show_name)
      (effects (font (face ""A \""b\"" \c"") (size 1.27 2) (color 255 0 128 0.5) (thickness 0.3) bold italic (line_spacing 1.1)) (justify right top mirror) (href ""https://x.y/(z)"") hide)
    )
    (pin ""a \""b\"""" tri_state (at 123.45 7 270)
      (effects (font (face ""A \""b\"" \c"") (size 1.27 2) (color 255 0 128 0.5) (thickness 0.3) bold italic (line_spacing 1.1)) (justify right top mirror) (href ""https://x.y/(z)"") hide)
      (uuid 7c2f5ab1-44ff-4a1c-b96d-28f9f3a0fd1e)
    )
    (pin """" input (at 0.0 0.0)
      (effects (font (size 1.0 1.0)))
    )
    (instances
      (project ""my \""project\""""
        (path ""/a b/c"" (page ""2 \""a\""""))
        (path ""/a b/c"" (page ""2 \""a\""""))
      )
    )
  )

  (sheet (at 123.45 -7) (size 30 45.72) (fields_autoplaced)
    (stroke (width 0.254) (type dash_dot) (color 255 0 128 0.5))
    (fill (color 1 2 255 0.1234))
    (uuid 7c2f5ab1-44ff-4a1c-b96d-28f9f3a0fd1e)
    (property ""Sheetname"" ""a\b\"""" (id 3) (at 1 2.5 90) (show_name)
      (effects (font (face ""A \""b\"" \c"") (size 1.27 2) (color 255 0 128 0.5) (thickness 0.3) bold italic (line_spacing 1.1)) (justify right top mirror) (href ""https://x.y/(z)"") hide)
    )
    (property ""Sheet file"" ""a\b\"""" (id 3) (at 1 2.5 90) (show_name)
      (effects (font (face ""A \""b\"" \c"") (size 1.27 2) (color 255 0 128 0.5) (thickness 0.3) bold italic (line_spacing 1.1)) (justify right top mirror) (href ""https://x.y/(z)"") hide)
    )
    (property ""a \""b\"""" ""a\b\"""" (id 3) (at 1 2.5 90) (show_name)
      (effects (font (face ""A \""b\"" \c"") (size 1.27 2) (color 255 0 128 0.5) (thickness 0.3) bold italic (line_spacing 1.1)) (justify right top mirror) (href ""https://x.y/(z)"") hide)
    )
    (property ""Field2"" ""a\b\"""" (id 3) (at 1 2.5 90) (show_name)
      (effects (font (face ""A \""b\"" \c"") (size 1.27 2) (color 255 0 128 0.5) (thickness 0.3) bold italic (line_spacing 1.1)) (justify right top mirror) (href ""https://x.y/(z)"") hide)
    )
    (pin ""a \""b\"""" tri_state (at 123.45 7 270)
      (effects (font (face ""A \""b\"" \c"") (size 1.27 2) (color 255 0 128 0.5) (thickness 0.3) bold italic (line_spacing 1.1)) (justify right top mirror) (href ""https://x.y/(z)"") hide)
      (uuid 7c2f5ab1-44ff-4a1c-b96d-28f9f3a0fd1e)
    )
    (pin """" input (at 0.0 0.0)
      (effects (font (size 1.0 1.0)))
    )
    (instances
      (project ""my \""project\""""
        (path ""/a b/c"" (page ""2 \""a\""""))
        (path ""/a b/c"" (page ""2 \""a\""""))
      )
    )
  )

  (sheet_instances
    (path ""/"" (page ""1""))
    (path ""/a b/c"" (page ""2 \""a\""""))
  )

  (symbol_instances
    (path ""/a b/c""
      (reference ""U1"") (unit 2) (value ""1 \""k\"""") (footprint ""Lib:F (x)"")
    )
  )
)" = true.
Proof. vm_compute. reflexivity. Qed.

Theorem C57_Setup : survives_inside Setup_to Setup_from Setup_ok Setup_eqb.
Proof. apply (survive_inside _ _ _ _ _ Setup_q Setup_rt). Qed.
Print Assumptions C57_Setup.
Example C57_Setup_case : stands Setup_from Setup_ok (whole wu_textSize (fun x o => o <| wu_textSize := x |>)) TextSize_edits "(setup (textsize 1.5 2)(linewidth 0.15)(textlinewidth 1)
(left_margin 10)(right_margin 10.5)(top_margin 11)(bottom_margin 12))" = true.
Proof. vm_compute. reflexivity. Qed.

Theorem C57_WorkSheet : survives_inside WorkSheet_to WorkSheet_from WorkSheet_ok WorkSheet_eqb.
Proof. apply (survive_inside _ _ _ _ _ WorkSheet_q WorkSheet_rt). Qed.
Print Assumptions C57_WorkSheet.
Example C57_WorkSheet_case : stands WorkSheet_from WorkSheet_ok (whole wk_setup (fun x o => o <| wk_setup := x |>)) Setup_edits "(kicad_wks (version 20220228) (generator pl_editor)
  (setup (textsize 1.5 2)(linewidth 0.15)(textlinewidth 1)
  (left_margin 10)(right_margin 10.5)(top_margin 11)(bottom_margin 12))
  (tbtext ""Id: \""${#}\"" (x)"" (name ""n"") (pos 2.5 7 ltcorner) (option page1only) (rotate 90) (font (linewidth 0.15) (size 1.3 2) bold italic) (justify right top mirror) (maxlen 70) (maxheight 3.5) (repeat 2) (incrx 5) (incry 0.5) (incrlabel 1) (comment ""c (d)"")
)
  (line (name """") (start 0.0 0.0) (end 0.0 0.0))
  (rect (name """") (start 0.0 0.0) (end 0.0 0.0))
  (bitmap (name ""a \""b\"""") (pos 2.5 7 ltcorner) (option notonpage1) (scale 0.5) (repeat 2) (incrx 5) (incry 0.5)
 (comment ""c (d)"")
  (pngdata
    (data ""89 50 4E 47 "")
    (data ""0D 0A "")
    )
  )
  (tbtext """" (name """") (pos 0.0 0.0))
)" = true.
Proof. vm_compute. reflexivity. Qed.

(** Two places deep inside a board: the net of a pad, and the font of a text, which stands in a list with other drawings. *)
Definition pad_net (i j : nat) : place Board Net :=
  within (within (within itself (nth_of bd_footprints (fun x o => o <| bd_footprints := x |>) i)) (nth_of fd_pads (fun x o => o <| fd_pads := x |>) j))
    (if_there pd_net (fun x o => o <| pd_net := x |>)).
Definition text_font (i j : nat) : place Board Font :=
  within (within (within (within (within itself (nth_of bd_footprints (fun x o => o <| bd_footprints := x |>) i))
    (nth_of fd_graphicItems (fun x o => o <| fd_graphicItems := x |>) j)) (of_class (fun u => match u with FpItem_FpText x => Some x | _ => None end) FpItem_FpText))
    (whole ft_effects (fun x o => o <| ft_effects := x |>))) (whole ef_font (fun x o => o <| ef_font := x |>)).
Example C57_deep_places i j : inside Board_ok Board_eqb Net Net_ok Net_eqb (pad_net i j) /\ inside Board_ok Board_eqb Font Font_ok Font_eqb (text_font i j).
Proof.
  split.
  - exact (inside_part _ _ (inside_part _ _ (inside_part _ _ (inside_here _ _) (part_bd_footprints i)) (part_fd_pads j)) part_pd_net).
  - exact (inside_part _ _ (inside_part _ _ (inside_part _ _ (inside_part _ _ (inside_part _ _ (inside_here _ _) (part_bd_footprints i))
      (part_fd_graphicItems j)) part_FpItem_FpText) part_ft_effects) part_ef_font).
Qed.
(** So, for a board with a pad that has a net, the net can be renamed. *)
#[local] Transparent Net_eqb.
Theorem C57_rename_net now : forall o i j net name, Board_ok o = true -> view (pad_net i j) o = Some net -> txtb name = true ->
  forall indent newline, exists o' net', write_read Board_to (Board_from now) (over (pad_net i j) (net <| ne_name := name |>) o) indent newline = Ok o'
    /\ view (pad_net i j) o' = Some net' /\ py_eqb name (ne_name net') = true /\ py_eqb (ne_number net) (ne_number net') = true
    /\ Board_eqb o (over (pad_net i j) net o') = true.
Proof.
  intros o i j net name O V F indent newline.
  destruct (C57_Board now _ _ _ _ _ (proj1 (C57_deep_places i j)) of_Net _ _ _ _ _ (or_intror (or_introl eq_refl)) o net name O V F) as [_ H].
  destruct (H indent newline) as (o' & net' & W & V' & N & S & E). exists o', net'. repeat split; [exact W|exact V'|exact N| |exact E].
  destruct net as [a b], net' as [c d]. unfold Net_eqb in S. cbn in S. now apply andb_prop in S as [S _].
Qed.
Print Assumptions C57_rename_net.
Example C57_rename_net_case : match (let! v := parse_sexp (lit "(kicad_pcb (version 20221018) (generator pcbnew)

  (general
    (thickness 1.6)
  )

  (paper ""A3"" portrait)
  (title_block
    (title ""T"")
    (rev ""1.0"")
    (company """")
    (comment 1 ""one"")
    (comment 4 ""four (4)"")
  )

  (layers
    (0 ""F.Cu"" signal)
    (31 ""B.Cu"" signal)
    (32 ""B.Adhes"" user ""B.Adhesive"")
    (33 ""F.Adhes"" user ""F.Adhesive"")
    (34 ""B.Paste"" user)
    (35 ""F.Paste"" user)
    (36 ""B.SilkS"" user ""B.Silkscreen"")
    (37 ""F.SilkS"" user ""F.Silkscreen"")
    (38 ""B.Mask"" user)
    (39 ""F.Mask"" user)
    (40 ""Dwgs.User"" user ""User.Drawings"")
    (41 ""Cmts.User"" user ""User.Comments"")
    (42 ""Eco1.User"" user ""User.Eco1"")
    (43 ""Eco2.User"" user ""User.Eco2"")
    (44 ""Edge.Cuts"" user)
    (45 ""Margin"" user)
    (46 ""B.CrtYd"" user ""B.Courtyard"")
    (47 ""F.CrtYd"" user ""F.Courtyard"")
    (48 ""B.Fab"" user)
    (49 ""F.Fab"" user)
    (50 ""User.1"" user)
    (51 ""User.2"" user)
    (52 ""User.3"" user)
    (53 ""User.4"" user)
    (54 ""User.5"" user)
    (55 ""User.6"" user)
    (56 ""User.7"" user)
    (57 ""User.8"" user)
    (58 ""User.9"" user)
  )

  (setup
    (stackup
      (layer ""F.SilkS"" (type ""Top Silk Screen""))
      (layer ""dielectric 1"" (type ""core"") (color ""Green"") (thickness 1.51) (material ""FR4"") (epsilon_r 4.5)
        addsublayer (thickness 0.48) (material ""FR4 \""(x)\"""") (epsilon_r 4.5) (loss_tangent 0.02)
        addsublayer (thickness 1) (loss_tangent 0.02)
        addsublayer (thickness 0.48) (material ""FR4 \""(x)\"""") (epsilon_r 4.5) (loss_tangent 0.02))
      (copper_finish ""ENIG"")
      (dielectric_constraints no)
      (edge_connector bevelled)
      (castellated_pads yes)
    )
    (pad_to_mask_clearance 0.05)
    (solder_mask_min_width 0.1)
    (pad_to_paste_clearance_ratio -0.05)
    (aux_axis_origin 1 2.5)
    (pcbplotparams
      (layerselection 0x00010fc_ffffffff)
      (plot_on_all_layers_selection 0x0000000_00000000)
      (disableapertmacros false)
      (usegerberextensions false)
      (usegerberattributes false)
      (usegerberadvancedattributes false)
      (creategerberjobfile false)
      (dashed_line_dash_ratio 12.000000)
      (dashed_line_gap_ratio 3.000001)
      (svguseinch false)
      (svgprecision 0.0)
      (excludeedgelayer true)
      (plotframeref false)
      (viasonmask true)
      (mode 1)
      (useauxorigin false)
      (hpglpennumber 0)
      (hpglpenspeed 0)
      (hpglpendiameter 1.500000)
      (dxfpolygonmode false)
      (dxfimperialunits false)
      (dxfusepcbnewfont false)
      (psnegative false)
      (psa4output false)
      (plotreference false)
      (plotvalue false)
      (plotinvisibletext false)
      (sketchpadsonfab false)
      (subtractmaskfromsilk false)
      (outputformat 0)
      (mirror true)
      (drillshape 0)
      (scaleselection 1)
      (outputdirectory ""out \""(1)\""/"")
    )
  )

  (property ""LAYER"" ""top \""x\"""")
  (property ""k 2"" """")

  (net 0 """")
  (net 1 ""Net-(U1-Pad3)"")

  (footprint ""Package_SO:SOIC-8 \""x\"""" locked placed (version 20211014) (generator pcbnew) (layer ""B.Cu"")
    (tedit 65fa1b2c) (tstamp 7c2f5ab1-44ff-4a1c-b96d-28f9f3a0fd1e)
    (at 1 2 180)
    (descr ""d \""(1)\"""")
    (tags ""a b"")
    (property ""Sheetfile"" ""x.kicad_sch"")
    (property ""k 2"" """")
    (path ""/1/2"")
    (autoplace_cost90 1)
    (autoplace_cost180 2)
    (solder_mask_margin 0.1)
    (solder_paste_margin 0.2)
    (solder_paste_ratio 0.3)
    (clearance 0.4)
    (zone_connect 2)
    (thermal_width 0.5)
    (thermal_gap 0.6)
    (attr through_hole board_only exclude_from_pos_files exclude_from_bom allow_missing_courtyard)
    (private_layers ""User.1"")
    (net_tie_pad_groups ""1, 2"" ""3"")
    (fp_text user ""a \""(b)\"" \ c"" (at 1 2.5 90 unlocked) (layer ""F.SilkS"" knockout) hide
      (effects (font (face ""A \""b\"" \c"") (size 1.27 2) (color 255 0 128 0.5) (thickness 0.3) bold italic (line_spacing 1.1)) (justify right top mirror) (href ""https://x.y/(z)"") hide)
      (tstamp 7c2f5ab1-44ff-4a1c-b96d-28f9f3a0fd1e)
      (render_cache ""ab\""c"" 0
        (polygon
          (pts
            (xy 1 2)            (xy 1.5 2)            (xy 0 -7)            (xy 0 0)
            (xy 9 9)
          )
        )
      )
    )
    (fp_curve (pts
      (xy 2 3)
      (xy 0.1 0)
      (xy 2 3)
      (xy -1.5 7)
    ) (layer ""F.Fab"") (width 0.15) locked (tstamp 7c2f5ab1-44ff-4a1c-b96d-28f9f3a0fd1e))
    (image (at 12.34 5) (layer ""F.SilkS"") (scale 0.5)
      (uuid a-b-c)
      (data
        iVBORw0KGgo=
        12
      )
    )
    (pad ""A \""1\"""" thru_hole custom locked (at 1 2.5 90) (size 1 2) (drill oval 0.8 2 (offset 1 0.5)) (property pad_prop_bga) (layers *.Cu ""F.Mask"" F&B.Paste ""In1 (x)"") (remove_unused_layers) (keep_end_layers) (roundrect_rratio 0.25)
      (chamfer_ratio 0.1) (chamfer top_left bottom_right)
      (die_length 3)
      (net 17 ""Net-(U1-Pad3)"") (pinfunction ""fn"") (pintype ""bidirectional+no_connect"") (solder_mask_margin 0.1) (solder_paste_margin 0.2) (solder_paste_margin_ratio 0.3) (clearance 0.4) (zone_connect 2) (thermal_width 0.5) (thermal_gap 0.6)
      (options (clearance convexhull) (anchor circle))
      (primitives
        (gr_text ""a \""(b)\"" \ c"" (at 1 2.5 90) (layer ""F.SilkS"" knockout) (tstamp 7c2f5ab1-44ff-4a1c-b96d-28f9f3a0fd1e)
          (effects (font (face ""A \""b\"" \c"") (size 1.27 2) (color 255 0 128 0.5) (thickness 0.3) bold italic (line_spacing 1.1)) (justify right top mirror) (href ""https://x.y/(z)"") hide)
          (render_cache ""ab\""c"" 0
            (polygon
              (pts
                (xy 1 2)                (xy 1.5 2)                (xy 0 -7)                (xy 0 0)
                (xy 9 9)
              )
            )
          )
        )
        (gr_line locked (start 2 3) (end 2 0.001) (layer ""F.Fab"") (width 1) (tstamp 7c2f5ab1-44ff-4a1c-b96d-28f9f3a0fd1e))
        (gr_poly locked (pts
            (xy 2 3)
            (xy 0.1 0)
            (xy 2 3)
            (xy -1.5 7)
          ) (layer ""F.Fab"") (width 0.15) (fill solid) (tstamp 7c2f5ab1-44ff-4a1c-b96d-28f9f3a0fd1e))
      ) (tstamp 7c2f5ab1-44ff-4a1c-b96d-28f9f3a0fd1e))
    (pad ""x"" smd rect (at 0.0 0.0) (size 0.0 0.0) (layers))
    (zone locked (net 12) (net_name ""Net \""(1)\"""") (layers ""F.Cu"" ""B.Cu"") (tstamp 7c2f5ab1-44ff-4a1c-b96d-28f9f3a0fd1e) (name ""my zone"") (hatch edge 0.508)
      (priority 3)
      (connect_pads thru_hole_only (clearance 0.2))
      (min_thickness 0.254) (filled_areas_thickness no)
      (keepout (tracks allowed) (vias not_allowed) (pads allowed ) (copperpour not-allowed) (footprints not-allowed))
      (fill yes (mode hatch) (thermal_gap 0.5) (thermal_bridge_width 0.508) (smoothing chamfer) (radius 1) (island_removal_mode 2) (island_area_min 10)
        (hatch_thickness 1) (hatch_gap 1.5) (hatch_orientation 45)
        (hatch_smoothing_level 1) (hatch_smoothing_value 0.1)
        (hatch_border_algorithm 0) (hatch_min_hole_area 0.3))
      (polygon
        (pts
          (xy 2 3)
          (xy 0.1 0)
          (xy 2 3)
          (xy -1.5 7)
        )
      )
      (polygon
        (pts
          (xy 1 2)
        )
      )
      (filled_polygon
        (layer ""F.Cu"")
        (island)
        (pts
          (xy 2 3)
          (xy 0.1 0)
          (xy 2 3)
          (xy -1.5 7)
        )
      )
    (fill_segments
      (layer ""B.Cu"")
      (pts
        (xy 2 3)
        (xy 0.1 0)
        (xy 2 3)
        (xy -1.5 7)
      )
    )
    )
    (model ""${KICAD6_3DMODEL_DIR}/a \""b\"".wrl"" hide
      (opacity 0.5)
      (offset (xyz 2.5 -3 1.0))
      (scale (xyz 1 1 0.1))
      (rotate (xyz 0 90 0))
    )
    (model ""${KICAD6_3DMODEL_DIR}/a \""b\"".wrl"" hide
      (opacity 0.5)
      (offset (xyz 2.5 -3 1.0))
      (scale (xyz 1 1 0.1))
      (rotate (xyz 0 90 0))
    )
    (group ""g \""1\"""" locked (id 6fe2b9d8-0001)
      (members
        0012
        abc-1
      )
    )
  )

  (footprint ""Package_SO:SOIC-8 \""x\"""" locked placed (version 20211014) (generator pcbnew) (layer ""B.Cu"")
    (tedit 5) (tstamp 7c2f5ab1-44ff-4a1c-b96d-28f9f3a0fd1e)
    (at 1 2 180)
    (descr ""d \""(1)\"""")
    (tags ""a b"")
    (property ""Sheetfile"" ""x.kicad_sch"")
    (property ""k 2"" """")
    (path ""/1/2"")
    (autoplace_cost90 1)
    (autoplace_cost180 2)
    (solder_mask_margin 0.1)
    (solder_paste_margin 0.2)
    (solder_paste_ratio 0.3)
    (clearance 0.4)
    (zone_connect 2)
    (thermal_width 0.5)
    (thermal_gap 0.6)
    (attr through_hole board_only exclude_from_pos_files exclude_from_bom allow_missing_courtyard)
    (private_layers ""User.1"")
    (net_tie_pad_groups ""1, 2"" ""3"")
    (fp_text user ""a \""(b)\"" \ c"" (at 1 2.5 90 unlocked) (layer ""F.SilkS"" knockout) hide
      (effects (font (face ""A \""b\"" \c"") (size 1.27 2) (color 255 0 128 0.5) (thickness 0.3) bold italic (line_spacing 1.1)) (justify right top mirror) (href ""https://x.y/(z)"") hide)
      (tstamp 7c2f5ab1-44ff-4a1c-b96d-28f9f3a0fd1e)
      (render_cache ""ab\""c"" 0
        (polygon
          (pts
            (xy 1 2)            (xy 1.5 2)            (xy 0 -7)            (xy 0 0)
            (xy 9 9)
          )
        )
      )
    )
    (fp_curve (pts
      (xy 2 3)
      (xy 0.1 0)
      (xy 2 3)
      (xy -1.5 7)
    ) (layer ""F.Fab"") (width 0.15) locked (tstamp 7c2f5ab1-44ff-4a1c-b96d-28f9f3a0fd1e))
    (image (at 12.34 5) (layer ""F.SilkS"") (scale 0.5)
      (uuid a-b-c)
      (data
        iVBORw0KGgo=
        12
      )
    )
    (pad ""A \""1\"""" thru_hole custom locked (at 1 2.5 90) (size 1 2) (drill oval 0.8 2 (offset 1 0.5)) (property pad_prop_bga) (layers *.Cu ""F.Mask"" F&B.Paste ""In1 (x)"") (remove_unused_layers) (keep_end_layers) (roundrect_rratio 0.25)
      (chamfer_ratio 0.1) (chamfer top_left bottom_right)
      (die_length 3)
      (net 17 ""Net-(U1-Pad3)"") (pinfunction ""fn"") (pintype ""bidirectional+no_connect"") (solder_mask_margin 0.1) (solder_paste_margin 0.2) (solder_paste_margin_ratio 0.3) (clearance 0.4) (zone_connect 2) (thermal_width 0.5) (thermal_gap 0.6)
      (options (clearance convexhull) (anchor circle))
      (primitives
        (gr_text ""a \""(b)\"" \ c"" (at 1 2.5 90) (layer ""F.SilkS"" knockout) (tstamp 7c2f5ab1-44ff-4a1c-b96d-28f9f3a0fd1e)
          (effects (font (face ""A \""b\"" \c"") (size 1.27 2) (color 255 0 128 0.5) (thickness 0.3) bold italic (line_spacing 1.1)) (justify right top mirror) (href ""https://x.y/(z)"") hide)
          (render_cache ""ab\""c"" 0
            (polygon
              (pts
                (xy 1 2)                (xy 1.5 2)                (xy 0 -7)                (xy 0 0)
                (xy 9 9)
              )
            )
          )
        )
        (gr_line locked (start 2 3) (end 2 0.001) (layer ""F.Fab"") (width 1) (tstamp 7c2f5ab1-44ff-4a1c-b96d-28f9f3a0fd1e))
        (gr_poly locked (pts
            (xy 2 3)
            (xy 0.1 0)
            (xy 2 3)
            (xy -1.5 7)
          ) (layer ""F.Fab"") (width 0.15) (fill solid) (tstamp 7c2f5ab1-44ff-4a1c-b96d-28f9f3a0fd1e))
      ) (tstamp 7c2f5ab1-44ff-4a1c-b96d-28f9f3a0fd1e))
    (pad ""x"" smd rect (at 0.0 0.0) (size 0.0 0.0) (layers))
    (zone locked (net 12) (net_name ""Net \""(1)\"""") (layers ""F.Cu"" ""B.Cu"") (tstamp 7c2f5ab1-44ff-4a1c-b96d-28f9f3a0fd1e) (name ""my zone"") (hatch edge 0.508)
      (priority 3)
      (connect_pads thru_hole_only (clearance 0.2))
      (min_thickness 0.254) (filled_areas_thickness no)
      (keepout (tracks allowed) (vias not_allowed) (pads allowed ) (copperpour not-allowed) (footprints not-allowed))
      (fill yes (mode hatch) (thermal_gap 0.5) (thermal_bridge_width 0.508) (smoothing chamfer) (radius 1) (island_removal_mode 2) (island_area_min 10)
        (hatch_thickness 1) (hatch_gap 1.5) (hatch_orientation 45)
        (hatch_smoothing_level 1) (hatch_smoothing_value 0.1)
        (hatch_border_algorithm 0) (hatch_min_hole_area 0.3))
      (polygon
        (pts
          (xy 2 3)
          (xy 0.1 0)
          (xy 2 3)
          (xy -1.5 7)
        )
      )
      (polygon
        (pts
          (xy 1 2)
        )
      )
      (filled_polygon
        (layer ""F.Cu"")
        (island)
        (pts
          (xy 2 3)
          (xy 0.1 0)
          (xy 2 3)
          (xy -1.5 7)
        )
      )
    (fill_segments
      (layer ""B.Cu"")
      (pts
        (xy 2 3)
        (xy 0.1 0)
        (xy 2 3)
        (xy -1.5 7)
      )
    )
    )
    (model ""${KICAD6_3DMODEL_DIR}/a \""b\"".wrl"" hide
      (opacity 0.5)
      (offset (xyz 2.5 -3 1.0))
      (scale (xyz 1 1 0.1))
      (rotate (xyz 0 90 0))
    )
    (model ""${KICAD6_3DMODEL_DIR}/a \""b\"".wrl"" hide
      (opacity 0.5)
      (offset (xyz 2.5 -3 1.0))
      (scale (xyz 1 1 0.1))
      (rotate (xyz 0 90 0))
    )
    (group ""g \""1\"""" locked (id 6fe2b9d8-0001)
      (members
        0012
        abc-1
      )
    )
  )

  (gr_text ""a \""(b)\"" \ c"" (at 1 2.5 90) (layer ""F.SilkS"" knockout) (tstamp 7c2f5ab1-44ff-4a1c-b96d-28f9f3a0fd1e)
    (effects (font (face ""A \""b\"" \c"") (size 1.27 2) (color 255 0 128 0.5) (thickness 0.3) bold italic (line_spacing 1.1)) (justify right top mirror) (href ""https://x.y/(z)"") hide)
    (render_cache ""ab\""c"" 0
      (polygon
        (pts
          (xy 1 2)          (xy 1.5 2)          (xy 0 -7)          (xy 0 0)
          (xy 9 9)
        )
      )
    )
  )
  (gr_line locked (start 2 3) (end 2 0.001) (layer ""F.Fab"") (width 1) (tstamp 7c2f5ab1-44ff-4a1c-b96d-28f9f3a0fd1e))
  (gr_poly locked
    (pts
      (xy 2 3)
      (xy 0.1 0)
      (xy 2 3)
      (xy -1.5 7)
    ) (layer ""F.Fab"") (width 0.15) (fill solid) (tstamp 7c2f5ab1-44ff-4a1c-b96d-28f9f3a0fd1e))
  (image (at 12.34 5) (layer ""F.SilkS"") (scale 0.5)
    (uuid a-b-c)
    (data
      iVBORw0KGgo=
      12
    )
  )
  (dimension (type orthogonal) (layer ""Dwgs.User (1)"") (tstamp 7c2f5ab1-44ff-4a1c-b96d-28f9f3a0fd1e)
    (pts (xy 2 3) (xy 0.1 0) (xy 2 3) (xy -1.5 7))
    (height -2.5)
    (orientation 1)
    (leader_length 2)
    (gr_text ""a \""(b)\"" \ c"" (at 1 2.5 90) (layer ""F.SilkS"" knockout) (tstamp 7c2f5ab1-44ff-4a1c-b96d-28f9f3a0fd1e)
      (effects (font (face ""A \""b\"" \c"") (size 1.27 2) (color 255 0 128 0.5) (thickness 0.3) bold italic (line_spacing 1.1)) (justify right top mirror) (href ""https://x.y/(z)"") hide)
      (render_cache ""ab\""c"" 0
        (polygon
          (pts
            (xy 1 2)            (xy 1.5 2)            (xy 0 -7)            (xy 0 0)
            (xy 9 9)
          )
        )
      )
    )
    (format (prefix ""a \""("") (suffix ""mm"") (units 2) (units_format 0) (precision 7) (override_value ""1 \ 2"") suppress_zeroes)
    (style (thickness 0.15) (arrow_length 1.27) (text_position_mode 2) (extension_height 0.58642) (text_frame 3) (extension_offset 0.5) keep_text_aligned)
  )
  (target x (at 1 2.5) (size 5) (width 0.05) (layer ""Edge.Cuts"") (tstamp 7c2f5ab1-44ff-4a1c-b96d-28f9f3a0fd1e))

  (segment locked (start 1 2.5) (end 3 4) (width 0.25) (layer ""F.Cu"") (net 7) (tstamp 7c2f5ab1-44ff-4a1c-b96d-28f9f3a0fd1e))
  (via blind locked (at 1 2.5) (size 0.8) (drill 0.4) (layers ""F.Cu"" ""In 1 \""(x)\"""") (remove_unused_layers) (keep_end_layers) (free) (net 3) (tstamp 7c2f5ab1-44ff-4a1c-b96d-28f9f3a0fd1e))
  (arc locked (start 1 2.5) (mid 3 4) (end 5 4) (width 0.25) (layer ""F \""Cu"") (net 7))
  (via (at 0.0 0.0) (size 0.0) (drill 0.0) (layers) (net 0))

  (zone locked (net 12) (net_name ""Net \""(1)\"""") (layers ""F.Cu"" ""B.Cu"") (tstamp 7c2f5ab1-44ff-4a1c-b96d-28f9f3a0fd1e) (name ""my zone"") (hatch edge 0.508)
    (priority 3)
    (connect_pads thru_hole_only (clearance 0.2))
    (min_thickness 0.254) (filled_areas_thickness no)
    (keepout (tracks allowed) (vias not_allowed) (pads allowed ) (copperpour not-allowed) (footprints not-allowed))
    (fill yes (mode hatch) (thermal_gap 0.5) (thermal_bridge_width 0.508) (smoothing chamfer) (radius 1) (island_removal_mode 2) (island_area_min 10)
      (hatch_thickness 1) (hatch_gap 1.5) (hatch_orientation 45)
      (hatch_smoothing_level 1) (hatch_smoothing_value 0.1)
      (hatch_border_algorithm 0) (hatch_min_hole_area 0.3))
    (polygon
      (pts
        (xy 2 3)
        (xy 0.1 0)
        (xy 2 3)
        (xy -1.5 7)
      )
    )
    (polygon
      (pts
        (xy 1 2)
      )
    )
    (filled_polygon
      (layer ""F.Cu"")
      (island)
      (pts
        (xy 2 3)
        (xy 0.1 0)
        (xy 2 3)
        (xy -1.5 7)
      )
    )
    (fill_segments
      (layer ""B.Cu"")
      (pts
        (xy 2 3)
        (xy 0.1 0)
        (xy 2 3)
        (xy -1.5 7)
      )
    )
  )
  (group ""g \""1\"""" locked (id 6fe2b9d8-0001)
    (members
      0012
      abc-1
    )
  )
)") in Board_from (VStr $"0") v) with
  | Ok o => Board_ok o && match view (pad_net 0 0) o with Some _ => true | None => false end | Err _ => false end = true.
Proof. vm_compute. reflexivity. Qed.
