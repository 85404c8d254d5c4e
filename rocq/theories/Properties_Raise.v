(** * C49: which exception is raised

    For each class the exception that [from_sexpr] raises is characterised exactly, for every
    expression: [X_raises] (in S_Raise.v) looks only at the expression.  [None] is an expression that
    is read.  Beside each theorem stand an expression that is read, with every row of the table, the
    empty list, an expression with another head, and one with a faulty item. *)
From Coq Require Import String.
From Verif Require Import PyBase PyNum PyStr Sexpr M_Common M_Lib M_Sym M_Fp M_Gr M_Zone M_Footprint M_Dim M_Brd M_Board M_Sch M_Schematic M_Wks S_Raise L_Raise L_RaiseA.

Definition outcome (f : val -> fault) (t : string) : fault := match parse_sexp (lit t) with Ok v => f v | Err _ => Some EKey end.
Definition outcomes (f : val -> fault) (l : list string) : list fault := map (outcome f) l.

Theorem C49_Position v e : Position_from v = Err e <-> Position_raises v = Some e.
Proof. exact (raised _ _ e (Position_e v)). Qed.
Print Assumptions C49_Position.
Example C49_Position_cases : outcomes Position_raises
  ["(at 1 2 90 unlocked)";
   "()";
   "(at)";
   "(at 1)"]%string =
  [None; Some EException; Some EException; Some EException]. Proof. vm_compute. reflexivity. Qed.

Theorem C49_Coordinate v e : Coordinate_from v = Err e <-> Coordinate_raises v = Some e.
Proof. exact (raised _ _ e (Coordinate_e v)). Qed.
Print Assumptions C49_Coordinate.
Example C49_Coordinate_cases : outcomes Coordinate_raises
  ["(xyz 1 2 3)";
   "()";
   "(xyz)";
   "(wrong 1 2 3)";
   "(xyz 1 2)"]%string =
  [None; Some EException; Some EException; Some EException; Some EException]. Proof. vm_compute. reflexivity. Qed.

Theorem C49_ColorRGBA v e : ColorRGBA_from v = Err e <-> ColorRGBA_raises v = Some e.
Proof. exact (raised _ _ e (ColorRGBA_e v)). Qed.
Print Assumptions C49_ColorRGBA.
Example C49_ColorRGBA_cases : outcomes ColorRGBA_raises
  ["(color 1 2 3 4)";
   "()";
   "(color)";
   "(wrong 1 2 3 4)";
   "(color 1 2 3)"]%string =
  [None; Some EException; Some EException; Some EException; Some EException]. Proof. vm_compute. reflexivity. Qed.

Theorem C49_Stroke v e : Stroke_from v = Err e <-> Stroke_raises v = Some e.
Proof. exact (raised _ _ e (Stroke_e v)). Qed.
Print Assumptions C49_Stroke.
Example C49_Stroke_cases : outcomes Stroke_raises
  ["(stroke ""x"" (width 1) (type 1) (color 1 2 3 4))";
   "()";
   "(stroke)";
   "(wrong ""x"" (width 1) (type 1) (color 1 2 3 4))";
   "(stroke ""x"" (width 1) (type 1) (color))"]%string =
  [None; Some EException; Some EException; Some EException; Some EException]. Proof. vm_compute. reflexivity. Qed.

Theorem C49_Font v e : Font_from v = Err e <-> Font_raises v = Some e.
Proof. exact (raised _ _ e (Font_e v)). Qed.
Print Assumptions C49_Font.
Example C49_Font_cases : outcomes Font_raises
  ["(font (face 1) (size 1 1) (thickness 1) (line_spacing 1) (color 1 2 3 4))";
   "()";
   "(font)";
   "(wrong (face 1) (size 1 1) (thickness 1) (line_spacing 1) (color 1 2 3 4))";
   "(font (face 1) (size 1 1) (thickness 1) (line_spacing 1) (color))"]%string =
  [None; Some EIndex; None; Some EException; Some EException]. Proof. vm_compute. reflexivity. Qed.

Theorem C49_Justify v e : Justify_from v = Err e <-> Justify_raises v = Some e.
Proof. exact (raised _ _ e (Justify_e v)). Qed.
Print Assumptions C49_Justify.
Example C49_Justify_cases : outcomes Justify_raises
  ["(justify left top mirror)";
   "()";
   "(justify)";
   "(wrong left top mirror)";
   "(justified left)"]%string =
  [None; Some EIndex; None; Some EException; Some EException]. Proof. vm_compute. reflexivity. Qed.

Theorem C49_Effects v e : Effects_from v = Err e <-> Effects_raises v = Some e.
Proof. exact (raised _ _ e (Effects_e v)). Qed.
Print Assumptions C49_Effects.
Example C49_Effects_cases : outcomes Effects_raises
  ["(effects (font) (justify) (href 1))";
   "()";
   "(effects)";
   "(wrong (font) (justify) (href 1))";
   "(effects (font) (justify) (href))"]%string =
  [None; Some EIndex; None; Some EException; Some EIndex]. Proof. vm_compute. reflexivity. Qed.

Theorem C49_Net v e : Net_from v = Err e <-> Net_raises v = Some e.
Proof. exact (raised _ _ e (Net_e v)). Qed.
Print Assumptions C49_Net.
Example C49_Net_cases : outcomes Net_raises
  ["(net 1 ""GND"")";
   "()";
   "(net)";
   "(wrong 1 ""GND"")";
   "(net 1)"]%string =
  [None; Some EIndex; Some EIndex; Some EException; Some EIndex]. Proof. vm_compute. reflexivity. Qed.

Theorem C49_Group v e : Group_from v = Err e <-> Group_raises v = Some e.
Proof. exact (raised _ _ e (Group_e v)). Qed.
Print Assumptions C49_Group.
Example C49_Group_cases : outcomes Group_raises
  ["(group ""x"" (id 1) (members))";
   "()";
   "(group)";
   "(wrong ""x"" (id 1) (members))";
   "(group ""x"" (id) (members))"]%string =
  [None; Some EIndex; Some EIndex; Some EException; Some EIndex]. Proof. vm_compute. reflexivity. Qed.

Theorem C49_PageSettings v e : PageSettings_from v = Err e <-> PageSettings_raises v = Some e.
Proof. exact (raised _ _ e (PageSettings_e v)). Qed.
Print Assumptions C49_PageSettings.
Example C49_PageSettings_cases : outcomes PageSettings_raises
  ["(paper ""User"" 100 200 portrait)";
   "()";
   "(paper)";
   "(wrong ""User"" 100 200 portrait)";
   "(paper ""User"" 100)"]%string =
  [None; Some EIndex; Some EIndex; Some EException; Some EException]. Proof. vm_compute. reflexivity. Qed.

Theorem C49_TitleBlock v e : TitleBlock_from v = Err e <-> TitleBlock_raises v = Some e.
Proof. exact (raised _ _ e (TitleBlock_e v)). Qed.
Print Assumptions C49_TitleBlock.
Example C49_TitleBlock_cases : outcomes TitleBlock_raises
  ["(title_block (title 1) (date 1) (rev 1) (company 1) (comment ""k"" ""v""))";
   "()";
   "(title_block)";
   "(wrong (title 1) (date 1) (rev 1) (company 1) (comment ""k"" ""v""))";
   "(title_block (title 1) (date 1) (rev 1) (company 1) (comment))"]%string =
  [None; Some EIndex; None; Some EException; Some EIndex]. Proof. vm_compute. reflexivity. Qed.

Theorem C49_Property v e : Property_from v = Err e <-> Property_raises v = Some e.
Proof. exact (raised _ _ e (Property_e v)). Qed.
Print Assumptions C49_Property.
Example C49_Property_cases : outcomes Property_raises
  ["(property ""x"" ""x"" (id 1) (at 1 2) (effects) (show_name))";
   "()";
   "(property)";
   "(wrong ""x"" ""x"" (id 1) (at 1 2) (effects) (show_name))";
   "(wrong ""x"" ""x"")"]%string =
  [None; Some EIndex; Some EIndex; Some EException; Some EException]. Proof. vm_compute. reflexivity. Qed.

Theorem C49_RenderCachePolygon v e : RenderCachePolygon_from v = Err e <-> RenderCachePolygon_raises v = Some e.
Proof. exact (raised _ _ e (RenderCachePolygon_e v)). Qed.
Print Assumptions C49_RenderCachePolygon.
Example C49_RenderCachePolygon_cases : outcomes RenderCachePolygon_raises
  ["(polygon (pts (xy 1 2) (xy 1 2)))";
   "()";
   "(polygon)";
   "(wrong (pts (xy 1 2) (xy 1 2)))";
   "(polygon (pts 1))"]%string =
  [None; Some EIndex; None; Some EException; Some EException]. Proof. vm_compute. reflexivity. Qed.

Theorem C49_RenderCache v e : RenderCache_from v = Err e <-> RenderCache_raises v = Some e.
Proof. exact (raised _ _ e (RenderCache_e v)). Qed.
Print Assumptions C49_RenderCache.
Example C49_RenderCache_cases : outcomes RenderCache_raises
  ["(render_cache ""x"" ""x"" (polygon))";
   "()";
   "(render_cache)";
   "(wrong ""x"" ""x"" (polygon))";
   "(wrong ""x"" ""x"")"]%string =
  [None; Some EException; Some EException; Some EException; Some EException]. Proof. vm_compute. reflexivity. Qed.

Theorem C49_Fill v e : Fill_from v = Err e <-> Fill_raises v = Some e.
Proof. exact (raised _ _ e (Fill_e v)). Qed.
Print Assumptions C49_Fill.
Example C49_Fill_cases : outcomes Fill_raises
  ["(fill (type 1) (color 1 2 3 4))";
   "()";
   "(fill)";
   "(wrong (type 1) (color 1 2 3 4))";
   "(fill (type 1) (color))"]%string =
  [None; Some EIndex; None; Some EException; Some EException]. Proof. vm_compute. reflexivity. Qed.

Theorem C49_Image v e : Image_from v = Err e <-> Image_raises v = Some e.
Proof. exact (raised _ _ e (Image_e v)). Qed.
Print Assumptions C49_Image.
Example C49_Image_cases : outcomes Image_raises
  ["(image (at 1 2) (scale 1) (uuid 1) (layer 1) (data))";
   "()";
   "(image)";
   "(wrong (at 1 2) (scale 1) (uuid 1) (layer 1) (data))";
   "(image (at 1 2) (scale 1) (uuid 1) (layer) (data))"]%string =
  [None; Some EIndex; None; Some EException; Some EIndex]. Proof. vm_compute. reflexivity. Qed.

Theorem C49_Library v e : Library_from v = Err e <-> Library_raises v = Some e.
Proof. exact (raised _ _ e (Library_e v)). Qed.
Print Assumptions C49_Library.
Example C49_Library_cases : outcomes Library_raises
  ["(lib (name 1) (type 1) (uri 1) (options 1) (descr 1) (disabled))";
   "()";
   "(lib)";
   "(wrong (name 1) (type 1) (uri 1) (options 1) (descr 1) (disabled))";
   "(lib (name 1) (type 1) (uri 1) (options 1) (descr) (disabled))"]%string =
  [None; Some EIndex; None; Some EException; Some EIndex]. Proof. vm_compute. reflexivity. Qed.

Theorem C49_LibTable v e : LibTable_from v = Err e <-> LibTable_raises v = Some e.
Proof. exact (raised _ _ e (LibTable_e v)). Qed.
Print Assumptions C49_LibTable.
Example C49_LibTable_cases : outcomes LibTable_raises
  ["(sym_lib_table (lib))";
   "()";
   "(sym_lib_table)";
   "(wrong (lib))";
   "(wrong)"]%string =
  [None; Some EIndex; None; Some EException; Some EException]. Proof. vm_compute. reflexivity. Qed.

Theorem C49_Constraint v e : Constraint_from v = Err e <-> Constraint_raises v = Some e.
Proof. exact (raised _ _ e (Constraint_e v)). Qed.
Print Assumptions C49_Constraint.
Example C49_Constraint_cases : outcomes Constraint_raises
  ["(constraint ""x"" (min 1) (opt 1) (max 1))";
   "()";
   "(constraint)";
   "(wrong ""x"" (min 1) (opt 1) (max 1))";
   "(constraint ""x"" (min 1) (opt 1) (max))"]%string =
  [None; Some EIndex; Some EIndex; Some EException; Some EIndex]. Proof. vm_compute. reflexivity. Qed.

Theorem C49_Rule v e : Rule_from v = Err e <-> Rule_raises v = Some e.
Proof. exact (raised _ _ e (Rule_e v)). Qed.
Print Assumptions C49_Rule.
Example C49_Rule_cases : outcomes Rule_raises
  ["(rule ""x"" (constraint ""x"") (condition 1) (layer 1) (severity 1))";
   "()";
   "(rule)";
   "(wrong ""x"" (constraint ""x"") (condition 1) (layer 1) (severity 1))";
   "(rule ""x"" (constraint ""x"") (condition 1) (layer 1) (severity))"]%string =
  [None; Some EIndex; Some EIndex; Some EException; Some EIndex]. Proof. vm_compute. reflexivity. Qed.

Theorem C49_DesignRules v e : DesignRules_from v = Err e <-> DesignRules_raises v = Some e.
Proof. exact (raised _ _ e (DesignRules_e v)). Qed.
Print Assumptions C49_DesignRules.
Example C49_DesignRules_cases : outcomes DesignRules_raises
  ["((version 1) (rule ""a"" (condition ""c"")))";
   "()";
   "(version)";
   "((rule ""a""))";
   "((rule ""a"") (version 1))"]%string =
  [None; Some EIndex; Some EException; Some EException; Some EException]. Proof. vm_compute. reflexivity. Qed.

Theorem C49_SyArc v e : SyArc_from v = Err e <-> SyArc_raises v = Some e.
Proof. exact (raised _ _ e (SyArc_e v)). Qed.
Print Assumptions C49_SyArc.
Example C49_SyArc_cases : outcomes SyArc_raises
  ["(arc (start 1 2) (mid 1 2) (end 1 2) (stroke ""x"") (fill))";
   "()";
   "(arc)";
   "(wrong (start 1 2) (mid 1 2) (end 1 2) (stroke ""x"") (fill))";
   "(wrong)"]%string =
  [None; Some EIndex; None; Some EException; Some EException]. Proof. vm_compute. reflexivity. Qed.

Theorem C49_SyCircle v e : SyCircle_from v = Err e <-> SyCircle_raises v = Some e.
Proof. exact (raised _ _ e (SyCircle_e v)). Qed.
Print Assumptions C49_SyCircle.
Example C49_SyCircle_cases : outcomes SyCircle_raises
  ["(circle (center 1 2) (radius 1) (stroke ""x"") (fill))";
   "()";
   "(circle)";
   "(wrong (center 1 2) (radius 1) (stroke ""x"") (fill))";
   "(wrong)"]%string =
  [None; Some EIndex; None; Some EException; Some EException]. Proof. vm_compute. reflexivity. Qed.

Theorem C49_SyCurve v e : SyCurve_from v = Err e <-> SyCurve_raises v = Some e.
Proof. exact (raised _ _ e (SyCurve_e v)). Qed.
Print Assumptions C49_SyCurve.
Example C49_SyCurve_cases : outcomes SyCurve_raises
  ["(curve (stroke ""x"") (fill) (pts (xy 1 2) (xy 1 2)))";
   "()";
   "(curve)";
   "(wrong (stroke ""x"") (fill) (pts (xy 1 2) (xy 1 2)))";
   "(wrong)"]%string =
  [None; Some EIndex; None; Some EException; Some EException]. Proof. vm_compute. reflexivity. Qed.

Theorem C49_SyPolyLine v e : SyPolyLine_from v = Err e <-> SyPolyLine_raises v = Some e.
Proof. exact (raised _ _ e (SyPolyLine_e v)). Qed.
Print Assumptions C49_SyPolyLine.
Example C49_SyPolyLine_cases : outcomes SyPolyLine_raises
  ["(polyline (stroke ""x"") (fill) (pts (xy 1 2) (xy 1 2)))";
   "()";
   "(polyline)";
   "(wrong (stroke ""x"") (fill) (pts (xy 1 2) (xy 1 2)))";
   "(wrong)"]%string =
  [None; Some EIndex; None; Some EException; Some EException]. Proof. vm_compute. reflexivity. Qed.

Theorem C49_SyRect v e : SyRect_from v = Err e <-> SyRect_raises v = Some e.
Proof. exact (raised _ _ e (SyRect_e v)). Qed.
Print Assumptions C49_SyRect.
Example C49_SyRect_cases : outcomes SyRect_raises
  ["(rectangle (start 1 2) (end 1 2) (stroke ""x"") (fill))";
   "()";
   "(rectangle)";
   "(wrong (start 1 2) (end 1 2) (stroke ""x"") (fill))";
   "(wrong)"]%string =
  [None; Some EIndex; None; Some EException; Some EException]. Proof. vm_compute. reflexivity. Qed.

Theorem C49_SyText v e : SyText_from v = Err e <-> SyText_raises v = Some e.
Proof. exact (raised _ _ e (SyText_e v)). Qed.
Print Assumptions C49_SyText.
Example C49_SyText_cases : outcomes SyText_raises
  ["(text ""x"" (at 1 2) (effects))";
   "()";
   "(text)";
   "(wrong ""x"" (at 1 2) (effects))";
   "(wrong ""x"")"]%string =
  [None; Some EIndex; Some EIndex; Some EException; Some EException]. Proof. vm_compute. reflexivity. Qed.

Theorem C49_SyTextBox v e : SyTextBox_from v = Err e <-> SyTextBox_raises v = Some e.
Proof. exact (raised _ _ e (SyTextBox_e v)). Qed.
Print Assumptions C49_SyTextBox.
Example C49_SyTextBox_cases : outcomes SyTextBox_raises
  ["(text_box private ""t"" (at 1 2) (size 1 2) (effects) (stroke ""x"") (fill) (uuid 1))";
   "()";
   "(text_box)";
   "(wrong private ""t"" (at 1 2) (size 1 2) (effects) (stroke ""x"") (fill) (uuid 1))";
   "(text_box private ""t"" (at 1 2) (size 1 2) (effects) (stroke ""x"") (fill) (uuid))"]%string =
  [None; Some EIndex; Some EIndex; Some EException; Some EIndex]. Proof. vm_compute. reflexivity. Qed.

Theorem C49_SymbolAlternativePin v e : SymbolAlternativePin_from v = Err e <-> SymbolAlternativePin_raises v = Some e.
Proof. exact (raised _ _ e (SymbolAlternativePin_e v)). Qed.
Print Assumptions C49_SymbolAlternativePin.
Example C49_SymbolAlternativePin_cases : outcomes SymbolAlternativePin_raises
  ["(alternate ""a"" input line)";
   "()";
   "(alternate)";
   "(wrong ""a"" input line)";
   "(alternate ""a"" input)"]%string =
  [None; Some EIndex; Some EIndex; Some EException; Some EIndex]. Proof. vm_compute. reflexivity. Qed.

Theorem C49_SymbolPin v e : SymbolPin_from v = Err e <-> SymbolPin_raises v = Some e.
Proof. exact (raised _ _ e (SymbolPin_e v)). Qed.
Print Assumptions C49_SymbolPin.
Example C49_SymbolPin_cases : outcomes SymbolPin_raises
  ["(pin ""x"" ""x"" (at 1 2) (length 1) (name ""n"" (effects)) (number ""n"" (effects)) (alternate ""x"" ""x"" ""x""))";
   "()";
   "(pin)";
   "(wrong ""x"" ""x"" (at 1 2) (length 1) (name ""n"" (effects)) (number ""n"" (effects)) (alternate ""x"" ""x"" ""x""))";
   "(pin ""x"" ""x"" (at 1 2) (length 1) (name ""n"" (effects)) (number ""n"" (effects)) (alternate))"]%string =
  [None; Some EIndex; Some EIndex; Some EException; Some EIndex]. Proof. vm_compute. reflexivity. Qed.

Theorem C49_Symbol v e : Symbol_from v = Err e <-> Symbol_raises v = Some e.
Proof. exact (raised _ _ e (Symbol_e v)). Qed.
Print Assumptions C49_Symbol.
Example C49_Symbol_cases : outcomes Symbol_raises
  ["(symbol ""R"" (extends 1) (pin_numbers 1) (pin_names hide (offset 1)) (in_bom 1) (on_board 1) (power) (property ""x"" ""x"") (pin ""x"" ""x"") (arc) (circle) (curve) (polyline) (rectangle) (text ""x"") (text_box ""t"") (symbol ""R_1_1"" (pin input line)))";
   "()";
   "(symbol)";
   "(wrong ""R"" (extends 1) (pin_numbers 1) (pin_names hide (offset 1)) (in_bom 1) (on_board 1) (power) (property ""x"" ""x"") (pin ""x"" ""x"") (arc) (circle) (curve) (polyline) (rectangle) (text ""x"") (text_box ""t"") (symbol ""R_1_1"" (pin input line)))";
   "(symbol ""R"" (extends 1) (pin_numbers 1) (pin_names hide (offset 1)) (in_bom 1) (on_board 1) (power) (property ""x"" ""x"") (pin ""x"" ""x"") (arc) (circle) (curve) (polyline) (rectangle) (text ""x"") (text_box ""t"") (symbol))"]%string =
  [None; Some EIndex; Some EIndex; Some EException; Some EIndex]. Proof. vm_compute. reflexivity. Qed.

Theorem C49_SymbolLib v e : SymbolLib_from v = Err e <-> SymbolLib_raises v = Some e.
Proof. exact (raised _ _ e (SymbolLib_e v)). Qed.
Print Assumptions C49_SymbolLib.
Example C49_SymbolLib_cases : outcomes SymbolLib_raises
  ["(kicad_symbol_lib (version 1) (generator 1) (symbol ""R""))";
   "()";
   "(kicad_symbol_lib)";
   "(wrong (version 1) (generator 1) (symbol ""R""))";
   "(kicad_symbol_lib (version 1) (generator 1) (symbol))"]%string =
  [None; Some EIndex; None; Some EException; Some EIndex]. Proof. vm_compute. reflexivity. Qed.

Theorem C49_FpText v e : FpText_from v = Err e <-> FpText_raises v = Some e.
Proof. exact (raised _ _ e (FpText_e v)). Qed.
Print Assumptions C49_FpText.
Example C49_FpText_cases : outcomes FpText_raises
  ["(fp_text ""x"" ""x"" (at 1 2) (layer 1) (effects) (tstamp 1) (render_cache ""x"" ""x""))";
   "()";
   "(fp_text)";
   "(wrong ""x"" ""x"" (at 1 2) (layer 1) (effects) (tstamp 1) (render_cache ""x"" ""x""))";
   "(fp_text ""x"" ""x"" (at 1 2) (layer 1) (effects) (tstamp 1) (render_cache))"]%string =
  [None; Some EIndex; Some EIndex; Some EException; Some EException]. Proof. vm_compute. reflexivity. Qed.

Theorem C49_FpLine v e : FpLine_from v = Err e <-> FpLine_raises v = Some e.
Proof. exact (raised _ _ e (FpLine_e v)). Qed.
Print Assumptions C49_FpLine.
Example C49_FpLine_cases : outcomes FpLine_raises
  ["(fp_line (start 1 2) (end 1 2) (layer 1) (tstamp 1) (width 1) (stroke ""x""))";
   "()";
   "(fp_line)";
   "(wrong (start 1 2) (end 1 2) (layer 1) (tstamp 1) (width 1) (stroke ""x""))";
   "(fp_line (start 1 2) (end 1 2) (layer 1) (tstamp 1) (width 1) (stroke))"]%string =
  [None; Some EIndex; None; Some EException; Some EException]. Proof. vm_compute. reflexivity. Qed.

Theorem C49_FpRect v e : FpRect_from v = Err e <-> FpRect_raises v = Some e.
Proof. exact (raised _ _ e (FpRect_e v)). Qed.
Print Assumptions C49_FpRect.
Example C49_FpRect_cases : outcomes FpRect_raises
  ["(fp_rect (start 1 2) (end 1 2) (layer 1) (tstamp 1) (fill 1) (width 1) (stroke ""x""))";
   "()";
   "(fp_rect)";
   "(wrong (start 1 2) (end 1 2) (layer 1) (tstamp 1) (fill 1) (width 1) (stroke ""x""))";
   "(fp_rect (start 1 2) (end 1 2) (layer 1) (tstamp 1) (fill 1) (width 1) (stroke))"]%string =
  [None; Some EIndex; None; Some EException; Some EException]. Proof. vm_compute. reflexivity. Qed.

Theorem C49_FpTextBox v e : FpTextBox_from v = Err e <-> FpTextBox_raises v = Some e.
Proof. exact (raised _ _ e (FpTextBox_e v)). Qed.
Print Assumptions C49_FpTextBox.
Example C49_FpTextBox_cases : outcomes FpTextBox_raises
  ["(fp_text_box locked ""t"" (start 1 2) (end 1 2) (pts (xy 1 2) (xy 1 2)) (angle 1) (layer 1) (tstamp 1) (effects) (stroke ""x"") (render_cache ""x"" ""x""))";
   "()";
   "(fp_text_box)";
   "(wrong locked ""t"" (start 1 2) (end 1 2) (pts (xy 1 2) (xy 1 2)) (angle 1) (layer 1) (tstamp 1) (effects) (stroke ""x"") (render_cache ""x"" ""x""))";
   "(fp_text_box locked ""t"" (start 1 2) (end 1 2) (pts (xy 1 2) (xy 1 2)) (angle 1) (layer 1) (tstamp 1) (effects) (stroke ""x"") (render_cache))"]%string =
  [None; Some EException; Some EException; Some EException; Some EException]. Proof. vm_compute. reflexivity. Qed.

Theorem C49_FpCircle v e : FpCircle_from v = Err e <-> FpCircle_raises v = Some e.
Proof. exact (raised _ _ e (FpCircle_e v)). Qed.
Print Assumptions C49_FpCircle.
Example C49_FpCircle_cases : outcomes FpCircle_raises
  ["(fp_circle (center 1 2) (end 1 2) (layer 1) (tstamp 1) (fill 1) (width 1) (stroke ""x""))";
   "()";
   "(fp_circle)";
   "(wrong (center 1 2) (end 1 2) (layer 1) (tstamp 1) (fill 1) (width 1) (stroke ""x""))";
   "(fp_circle (center 1 2) (end 1 2) (layer 1) (tstamp 1) (fill 1) (width 1) (stroke))"]%string =
  [None; Some EIndex; None; Some EException; Some EException]. Proof. vm_compute. reflexivity. Qed.

Theorem C49_FpArc v e : FpArc_from v = Err e <-> FpArc_raises v = Some e.
Proof. exact (raised _ _ e (FpArc_e v)). Qed.
Print Assumptions C49_FpArc.
Example C49_FpArc_cases : outcomes FpArc_raises
  ["(fp_arc (start 1 2) (mid 1 2) (end 1 2) (layer 1) (tstamp 1) (width 1) (stroke ""x""))";
   "()";
   "(fp_arc)";
   "(wrong (start 1 2) (mid 1 2) (end 1 2) (layer 1) (tstamp 1) (width 1) (stroke ""x""))";
   "(fp_arc (start 1 2) (mid 1 2) (end 1 2) (layer 1) (tstamp 1) (width 1) (stroke))"]%string =
  [None; Some EIndex; None; Some EException; Some EException]. Proof. vm_compute. reflexivity. Qed.

Theorem C49_FpPoly v e : FpPoly_from v = Err e <-> FpPoly_raises v = Some e.
Proof. exact (raised _ _ e (FpPoly_e v)). Qed.
Print Assumptions C49_FpPoly.
Example C49_FpPoly_cases : outcomes FpPoly_raises
  ["(fp_poly (pts (xy 1 2) (xy 1 2)) (layer 1) (tstamp 1) (fill 1) (width 1) (stroke ""x""))";
   "()";
   "(fp_poly)";
   "(wrong (pts (xy 1 2) (xy 1 2)) (layer 1) (tstamp 1) (fill 1) (width 1) (stroke ""x""))";
   "(fp_poly (pts (xy 1 2) (xy 1 2)) (layer 1) (tstamp 1) (fill 1) (width 1) (stroke))"]%string =
  [None; Some EIndex; None; Some EException; Some EException]. Proof. vm_compute. reflexivity. Qed.

Theorem C49_FpCurve v e : FpCurve_from v = Err e <-> FpCurve_raises v = Some e.
Proof. exact (raised _ _ e (FpCurve_e v)). Qed.
Print Assumptions C49_FpCurve.
Example C49_FpCurve_cases : outcomes FpCurve_raises
  ["(fp_curve (pts (xy 1 2) (xy 1 2)) (layer 1) (tstamp 1) (width 1) (stroke ""x""))";
   "()";
   "(fp_curve)";
   "(wrong (pts (xy 1 2) (xy 1 2)) (layer 1) (tstamp 1) (width 1) (stroke ""x""))";
   "(fp_curve (pts (xy 1 2) (xy 1 2)) (layer 1) (tstamp 1) (width 1) (stroke))"]%string =
  [None; Some EIndex; None; Some EException; Some EException]. Proof. vm_compute. reflexivity. Qed.

Theorem C49_GrText v e : GrText_from v = Err e <-> GrText_raises v = Some e.
Proof. exact (raised _ _ e (GrText_e v)). Qed.
Print Assumptions C49_GrText.
Example C49_GrText_cases : outcomes GrText_raises
  ["(gr_text ""x"" (at 1 2) (layer 1) (effects) (tstamp 1) (render_cache ""x"" ""x""))";
   "()";
   "(gr_text)";
   "(wrong ""x"" (at 1 2) (layer 1) (effects) (tstamp 1) (render_cache ""x"" ""x""))";
   "(gr_text ""x"" (at 1 2) (layer 1) (effects) (tstamp 1) (render_cache))"]%string =
  [None; Some EIndex; Some EIndex; Some EException; Some EException]. Proof. vm_compute. reflexivity. Qed.

Theorem C49_GrTextBox v e : GrTextBox_from v = Err e <-> GrTextBox_raises v = Some e.
Proof. exact (raised _ _ e (GrTextBox_e v)). Qed.
Print Assumptions C49_GrTextBox.
Example C49_GrTextBox_cases : outcomes GrTextBox_raises
  ["(gr_text_box locked ""t"" (start 1 2) (end 1 2) (pts (xy 1 2) (xy 1 2)) (angle 1) (layer 1) (tstamp 1) (effects) (stroke ""x"") (render_cache ""x"" ""x""))";
   "()";
   "(gr_text_box)";
   "(wrong locked ""t"" (start 1 2) (end 1 2) (pts (xy 1 2) (xy 1 2)) (angle 1) (layer 1) (tstamp 1) (effects) (stroke ""x"") (render_cache ""x"" ""x""))";
   "(gr_text_box locked ""t"" (start 1 2) (end 1 2) (pts (xy 1 2) (xy 1 2)) (angle 1) (layer 1) (tstamp 1) (effects) (stroke ""x"") (render_cache))"]%string =
  [None; Some EException; Some EException; Some EException; Some EException]. Proof. vm_compute. reflexivity. Qed.

Theorem C49_GrLine v e : GrLine_from v = Err e <-> GrLine_raises v = Some e.
Proof. exact (raised _ _ e (GrLine_e v)). Qed.
Print Assumptions C49_GrLine.
Example C49_GrLine_cases : outcomes GrLine_raises
  ["(gr_line (start 1 2) (end 1 2) (layer 1) (tstamp 1) (width 1))";
   "()";
   "(gr_line)";
   "(wrong (start 1 2) (end 1 2) (layer 1) (tstamp 1) (width 1))";
   "(gr_line (start 1 2) (end 1 2) (layer 1) (tstamp 1) (width))"]%string =
  [None; Some EIndex; None; Some EException; Some EIndex]. Proof. vm_compute. reflexivity. Qed.

Theorem C49_GrRect v e : GrRect_from v = Err e <-> GrRect_raises v = Some e.
Proof. exact (raised _ _ e (GrRect_e v)). Qed.
Print Assumptions C49_GrRect.
Example C49_GrRect_cases : outcomes GrRect_raises
  ["(gr_rect (start 1 2) (end 1 2) (layer 1) (tstamp 1) (fill 1) (width 1))";
   "()";
   "(gr_rect)";
   "(wrong (start 1 2) (end 1 2) (layer 1) (tstamp 1) (fill 1) (width 1))";
   "(gr_rect (start 1 2) (end 1 2) (layer 1) (tstamp 1) (fill 1) (width))"]%string =
  [None; Some EIndex; None; Some EException; Some EIndex]. Proof. vm_compute. reflexivity. Qed.

Theorem C49_GrCircle v e : GrCircle_from v = Err e <-> GrCircle_raises v = Some e.
Proof. exact (raised _ _ e (GrCircle_e v)). Qed.
Print Assumptions C49_GrCircle.
Example C49_GrCircle_cases : outcomes GrCircle_raises
  ["(gr_circle (center 1 2) (end 1 2) (layer 1) (tstamp 1) (fill 1) (width 1))";
   "()";
   "(gr_circle)";
   "(wrong (center 1 2) (end 1 2) (layer 1) (tstamp 1) (fill 1) (width 1))";
   "(gr_circle (center 1 2) (end 1 2) (layer 1) (tstamp 1) (fill 1) (width))"]%string =
  [None; Some EIndex; None; Some EException; Some EIndex]. Proof. vm_compute. reflexivity. Qed.

Theorem C49_GrArc v e : GrArc_from v = Err e <-> GrArc_raises v = Some e.
Proof. exact (raised _ _ e (GrArc_e v)). Qed.
Print Assumptions C49_GrArc.
Example C49_GrArc_cases : outcomes GrArc_raises
  ["(gr_arc (start 1 2) (mid 1 2) (end 1 2) (layer 1) (tstamp 1) (width 1))";
   "()";
   "(gr_arc)";
   "(wrong (start 1 2) (mid 1 2) (end 1 2) (layer 1) (tstamp 1) (width 1))";
   "(gr_arc (start 1 2) (mid 1 2) (end 1 2) (layer 1) (tstamp 1) (width))"]%string =
  [None; Some EIndex; None; Some EException; Some EIndex]. Proof. vm_compute. reflexivity. Qed.

Theorem C49_GrPoly v e : GrPoly_from v = Err e <-> GrPoly_raises v = Some e.
Proof. exact (raised _ _ e (GrPoly_e v)). Qed.
Print Assumptions C49_GrPoly.
Example C49_GrPoly_cases : outcomes GrPoly_raises
  ["(gr_poly (pts (xy 1 2) (xy 1 2)) (layer 1) (tstamp 1) (fill 1) (width 1))";
   "()";
   "(gr_poly)";
   "(wrong (pts (xy 1 2) (xy 1 2)) (layer 1) (tstamp 1) (fill 1) (width 1))";
   "(gr_poly (pts (xy 1 2) (xy 1 2)) (layer 1) (tstamp 1) (fill 1) (width))"]%string =
  [None; Some EIndex; None; Some EException; Some EIndex]. Proof. vm_compute. reflexivity. Qed.

Theorem C49_GrCurve v e : GrCurve_from v = Err e <-> GrCurve_raises v = Some e.
Proof. exact (raised _ _ e (GrCurve_e v)). Qed.
Print Assumptions C49_GrCurve.
Example C49_GrCurve_cases : outcomes GrCurve_raises
  ["(gr_curve (pts (xy 1 2) (xy 1 2)) (layer 1) (tstamp 1) (width 1))";
   "()";
   "(gr_curve)";
   "(wrong (pts (xy 1 2) (xy 1 2)) (layer 1) (tstamp 1) (width 1))";
   "(gr_curve (pts (xy 1 2) (xy 1 2)) (layer 1) (tstamp 1) (width))"]%string =
  [None; Some EIndex; None; Some EException; Some EIndex]. Proof. vm_compute. reflexivity. Qed.

Theorem C49_KeepoutSettings v e : KeepoutSettings_from v = Err e <-> KeepoutSettings_raises v = Some e.
Proof. exact (raised _ _ e (KeepoutSettings_e v)). Qed.
Print Assumptions C49_KeepoutSettings.
Example C49_KeepoutSettings_cases : outcomes KeepoutSettings_raises
  ["(keepout (tracks 1) (vias 1) (pads 1) (copperpour 1) (footprints 1))";
   "()";
   "(keepout)";
   "(wrong (tracks 1) (vias 1) (pads 1) (copperpour 1) (footprints 1))";
   "(keepout (tracks 1) (vias 1) (pads 1) (copperpour 1) (footprints))"]%string =
  [None; Some EIndex; None; Some EException; Some EIndex]. Proof. vm_compute. reflexivity. Qed.

Theorem C49_FillSettings v e : FillSettings_from v = Err e <-> FillSettings_raises v = Some e.
Proof. exact (raised _ _ e (FillSettings_e v)). Qed.
Print Assumptions C49_FillSettings.
Example C49_FillSettings_cases : outcomes FillSettings_raises
  ["(fill (mode 1) (thermal_gap 1) (thermal_bridge_width 1) (smoothing 1) (radius 1) (island_removal_mode 1) (island_area_min 1) (hatch_thickness 1) (hatch_gap 1) (hatch_orientation 1) (hatch_smoothing_level 1) (hatch_smoothing_value 1) (hatch_border_algorithm 1) (hatch_min_hole_area 1))";
   "()";
   "(fill)";
   "(wrong (mode 1) (thermal_gap 1) (thermal_bridge_width 1) (smoothing 1) (radius 1) (island_removal_mode 1) (island_area_min 1) (hatch_thickness 1) (hatch_gap 1) (hatch_orientation 1) (hatch_smoothing_level 1) (hatch_smoothing_value 1) (hatch_border_algorithm 1) (hatch_min_hole_area 1))";
   "(fill (mode 1) (thermal_gap 1) (thermal_bridge_width 1) (smoothing 1) (radius 1) (island_removal_mode 1) (island_area_min 1) (hatch_thickness 1) (hatch_gap 1) (hatch_orientation 1) (hatch_smoothing_level 1) (hatch_smoothing_value 1) (hatch_border_algorithm 1) (hatch_min_hole_area))"]%string =
  [None; Some EIndex; None; Some EException; Some EIndex]. Proof. vm_compute. reflexivity. Qed.

Theorem C49_ZonePolygon v e : ZonePolygon_from v = Err e <-> ZonePolygon_raises v = Some e.
Proof. exact (raised _ _ e (ZonePolygon_e v)). Qed.
Print Assumptions C49_ZonePolygon.
Example C49_ZonePolygon_cases : outcomes ZonePolygon_raises
  ["(polygon (pts (xy 1 2) (xy 1 2)))";
   "()";
   "(polygon)";
   "(wrong (pts (xy 1 2) (xy 1 2)))";
   "(polygon (pts 1))"]%string =
  [None; Some EIndex; None; Some EException; Some EException]. Proof. vm_compute. reflexivity. Qed.

Theorem C49_FilledPolygon v e : FilledPolygon_from v = Err e <-> FilledPolygon_raises v = Some e.
Proof. exact (raised _ _ e (FilledPolygon_e v)). Qed.
Print Assumptions C49_FilledPolygon.
Example C49_FilledPolygon_cases : outcomes FilledPolygon_raises
  ["(filled_polygon (layer 1) (island) (pts (xy 1 2) (xy 1 2)))";
   "()";
   "(filled_polygon)";
   "(wrong (layer 1) (island) (pts (xy 1 2) (xy 1 2)))";
   "(filled_polygon (layer) (island) (pts (xy 1 2) (xy 1 2)))"]%string =
  [None; Some EIndex; None; Some EException; Some EIndex]. Proof. vm_compute. reflexivity. Qed.

Theorem C49_FillSegments v e : FillSegments_from v = Err e <-> FillSegments_raises v = Some e.
Proof. exact (raised _ _ e (FillSegments_e v)). Qed.
Print Assumptions C49_FillSegments.
Example C49_FillSegments_cases : outcomes FillSegments_raises
  ["(fill_segments (layer 1) (pts (xy 1 2) (xy 1 2)))";
   "()";
   "(fill_segments)";
   "(wrong (layer 1) (pts (xy 1 2) (xy 1 2)))";
   "(fill_segments (layer) (pts (xy 1 2) (xy 1 2)))"]%string =
  [None; Some EIndex; None; Some EException; Some EIndex]. Proof. vm_compute. reflexivity. Qed.

Theorem C49_Zone v e : Zone_from v = Err e <-> Zone_raises v = Some e.
Proof. exact (raised _ _ e (Zone_e v)). Qed.
Print Assumptions C49_Zone.
Example C49_Zone_cases : outcomes Zone_raises
  ["(zone (net 1) (net_name 1) (layers) (layer) (tstamp 1) (name 1) (hatch 1 1) (priority 1) (connect_pads no (clearance 1)) (min_thickness 1) (filled_areas_thickness 1) (keepout) (fill) (polygon) (filled_polygon) (fill_segments))";
   "()";
   "(zone)";
   "(wrong (net 1) (net_name 1) (layers) (layer) (tstamp 1) (name 1) (hatch 1 1) (priority 1) (connect_pads no (clearance 1)) (min_thickness 1) (filled_areas_thickness 1) (keepout) (fill) (polygon) (filled_polygon) (fill_segments))";
   "(wrong)"]%string =
  [None; Some EIndex; None; Some EException; Some EException]. Proof. vm_compute. reflexivity. Qed.

Theorem C49_Attributes v e : Attributes_from v = Err e <-> Attributes_raises v = Some e.
Proof. exact (raised _ _ e (Attributes_e v)). Qed.
Print Assumptions C49_Attributes.
Example C49_Attributes_cases : outcomes Attributes_raises
  ["(attr smd exclude_from_bom)";
   "()";
   "(attr)";
   "(wrong smd exclude_from_bom)";
   "(attributes smd)"]%string =
  [None; Some EIndex; None; Some EException; Some EException]. Proof. vm_compute. reflexivity. Qed.

Theorem C49_Model v e : Model_from v = Err e <-> Model_raises v = Some e.
Proof. exact (raised _ _ e (Model_e v)). Qed.
Print Assumptions C49_Model.
Example C49_Model_cases : outcomes Model_raises
  ["(model ""m"" (opacity 1) (offset (xyz 1 2 3)) (scale (xyz 1 2 3)) (rotate (xyz 1 2 3)))";
   "()";
   "(model)";
   "(wrong ""m"" (opacity 1) (offset (xyz 1 2 3)) (scale (xyz 1 2 3)) (rotate (xyz 1 2 3)))";
   "(model ""m"" (offset (xyz 0 0)) (scale (xyz 1 1 1)) (rotate (xyz 0 0 0)))"]%string =
  [None; Some EException; Some EException; Some EException; Some EException]. Proof. vm_compute. reflexivity. Qed.

Theorem C49_DrillDefinition v e : DrillDefinition_from v = Err e <-> DrillDefinition_raises v = Some e.
Proof. exact (raised _ _ e (DrillDefinition_e v)). Qed.
Print Assumptions C49_DrillDefinition.
Example C49_DrillDefinition_cases : outcomes DrillDefinition_raises
  ["(drill oval 1 2 (offset 1 2))";
   "()";
   "(drill)";
   "(wrong oval 1 2 (offset 1 2))";
   "(drill oval 1)"]%string =
  [None; Some EIndex; Some EIndex; Some EException; Some EIndex]. Proof. vm_compute. reflexivity. Qed.

Theorem C49_PadOptions v e : PadOptions_from v = Err e <-> PadOptions_raises v = Some e.
Proof. exact (raised _ _ e (PadOptions_e v)). Qed.
Print Assumptions C49_PadOptions.
Example C49_PadOptions_cases : outcomes PadOptions_raises
  ["(options (clearance 1) (anchor 1))";
   "()";
   "(options)";
   "(wrong (clearance 1) (anchor 1))";
   "(options (clearance 1) (anchor))"]%string =
  [None; Some EIndex; None; Some EException; Some EIndex]. Proof. vm_compute. reflexivity. Qed.

Theorem C49_Pad v e : Pad_from v = Err e <-> Pad_raises v = Some e.
Proof. exact (raised _ _ e (Pad_e v)). Qed.
Print Assumptions C49_Pad.
Example C49_Pad_cases : outcomes Pad_raises
  ["(pad ""x"" ""x"" ""x"" (at 1 2) (size 1 2) (drill 1) (layers) (property 1) (remove_unused_layers) (keep_end_layers) (roundrect_rratio 1) (chamfer_ratio 1) (chamfer) (net ""x"" ""x"") (tstamp 1) (pinfunction 1) (pintype 1) (die_length 1) (solder_mask_margin 1) (solder_paste_margin 1) (solder_paste_margin_ratio 1) (clearance 1) (zone_connect 1) (thermal_width 1) (thermal_gap 1) (options) (primitives (gr_line) (gr_circle)))";
   "()";
   "(pad)";
   "(wrong ""x"" ""x"" ""x"" (at 1 2) (size 1 2) (drill 1) (layers) (property 1) (remove_unused_layers) (keep_end_layers) (roundrect_rratio 1) (chamfer_ratio 1) (chamfer) (net ""x"" ""x"") (tstamp 1) (pinfunction 1) (pintype 1) (die_length 1) (solder_mask_margin 1) (solder_paste_margin 1) (solder_paste_margin_ratio 1) (clearance 1) (zone_connect 1) (thermal_width 1) (thermal_gap 1) (options) (primitives (gr_line) (gr_circle)))";
   "(wrong ""x"" ""x"" ""x"")"]%string =
  [None; Some EIndex; Some EIndex; Some EException; Some EException]. Proof. vm_compute. reflexivity. Qed.

Theorem C49_Footprint now v e : Footprint_from now v = Err e <-> Footprint_raises v = Some e.
Proof. exact (raised _ _ e (Footprint_e now v)). Qed.
Print Assumptions C49_Footprint.
Example C49_Footprint_cases : outcomes Footprint_raises
  ["(footprint ""x"" (version 1) (generator 1) (layer 1) (tedit 1) (tstamp 1) (descr 1) (tags 1) (path 1) (at 1 2) (autoplace_cost90 1) (autoplace_cost180 1) (solder_mask_margin 1) (solder_paste_margin 1) (solder_paste_ratio 1) (clearance 1) (zone_connect 1) (thermal_width 1) (thermal_gap 1) (attr smd) (model ""m"" (offset (xyz 0 0 0)) (scale (xyz 1 1 1)) (rotate (xyz 0 0 0))) (fp_text ""x"" ""x"") (fp_text_box ""t"") (fp_line) (fp_rect) (fp_circle) (fp_arc) (fp_poly) (fp_curve) (image) (pad ""x"" ""x"" ""x"") (zone) (property ""k"" ""v"") (group ""x"") (private_layers) (net_tie_pad_groups))";
   "()";
   "(footprint)";
   "(wrong ""x"" (version 1) (generator 1) (layer 1) (tedit 1) (tstamp 1) (descr 1) (tags 1) (path 1) (at 1 2) (autoplace_cost90 1) (autoplace_cost180 1) (solder_mask_margin 1) (solder_paste_margin 1) (solder_paste_ratio 1) (clearance 1) (zone_connect 1) (thermal_width 1) (thermal_gap 1) (attr smd) (model ""m"" (offset (xyz 0 0 0)) (scale (xyz 1 1 1)) (rotate (xyz 0 0 0))) (fp_text ""x"" ""x"") (fp_text_box ""t"") (fp_line) (fp_rect) (fp_circle) (fp_arc) (fp_poly) (fp_curve) (image) (pad ""x"" ""x"" ""x"") (zone) (property ""k"" ""v"") (group ""x"") (private_layers) (net_tie_pad_groups))";
   "(footprint ""x"" (dimension 1))"]%string =
  [None; Some EIndex; Some EIndex; Some EException; Some ENotImplemented]. Proof. vm_compute. reflexivity. Qed.

Theorem C49_DimensionFormat v e : DimensionFormat_from v = Err e <-> DimensionFormat_raises v = Some e.
Proof. exact (raised _ _ e (DimensionFormat_e v)). Qed.
Print Assumptions C49_DimensionFormat.
Example C49_DimensionFormat_cases : outcomes DimensionFormat_raises
  ["(format (prefix 1) (suffix 1) (units 1) (units_format 1) (precision 1) (override_value 1))";
   "()";
   "(format)";
   "(wrong (prefix 1) (suffix 1) (units 1) (units_format 1) (precision 1) (override_value 1))";
   "(format (prefix 1) (suffix 1) (units 1) (units_format 1) (precision 1) (override_value))"]%string =
  [None; Some EIndex; None; Some EException; Some EIndex]. Proof. vm_compute. reflexivity. Qed.

Theorem C49_DimensionStyle v e : DimensionStyle_from v = Err e <-> DimensionStyle_raises v = Some e.
Proof. exact (raised _ _ e (DimensionStyle_e v)). Qed.
Print Assumptions C49_DimensionStyle.
Example C49_DimensionStyle_cases : outcomes DimensionStyle_raises
  ["(style (thickness 1) (arrow_length 1) (text_position_mode 1) (extension_height 1) (text_frame 1) (extension_offset 1))";
   "()";
   "(style)";
   "(wrong (thickness 1) (arrow_length 1) (text_position_mode 1) (extension_height 1) (text_frame 1) (extension_offset 1))";
   "(style (thickness 1) (arrow_length 1) (text_position_mode 1) (extension_height 1) (text_frame 1) (extension_offset))"]%string =
  [None; Some EIndex; None; Some EException; Some EIndex]. Proof. vm_compute. reflexivity. Qed.

Theorem C49_Dimension v e : Dimension_from v = Err e <-> Dimension_raises v = Some e.
Proof. exact (raised _ _ e (Dimension_e v)). Qed.
Print Assumptions C49_Dimension.
Example C49_Dimension_cases : outcomes Dimension_raises
  ["(dimension (type 1) (layer 1) (tstamp 1) (height 1) (orientation 1) (leader_length 1) (gr_text ""x"") (format) (style) (pts (xy 1 2) (xy 1 2)))";
   "()";
   "(dimension)";
   "(wrong (type 1) (layer 1) (tstamp 1) (height 1) (orientation 1) (leader_length 1) (gr_text ""x"") (format) (style) (pts (xy 1 2) (xy 1 2)))";
   "(wrong)"]%string =
  [None; Some EIndex; None; Some EException; Some EException]. Proof. vm_compute. reflexivity. Qed.

Theorem C49_GeneralSettings v e : GeneralSettings_from v = Err e <-> GeneralSettings_raises v = Some e.
Proof. exact (raised _ _ e (GeneralSettings_e v)). Qed.
Print Assumptions C49_GeneralSettings.
Example C49_GeneralSettings_cases : outcomes GeneralSettings_raises
  ["(general (thickness 1))";
   "()";
   "(general)";
   "(wrong (thickness 1))";
   "(general (thickness))"]%string =
  [None; Some EIndex; None; Some EException; Some EIndex]. Proof. vm_compute. reflexivity. Qed.

Theorem C49_LayerToken v e : LayerToken_from v = Err e <-> LayerToken_raises v = Some e.
Proof. exact (raised _ _ e (LayerToken_e v)). Qed.
Print Assumptions C49_LayerToken.
Example C49_LayerToken_cases : outcomes LayerToken_raises
  ["(0 ""F.Cu"" signal ""top"")";
   "()";
   "(0)";
   "(0 a b c d)";
   "(0 ""F.Cu"")"]%string =
  [None; Some EException; Some EException; Some EException; Some EException]. Proof. vm_compute. reflexivity. Qed.

Theorem C49_StackupSubLayer v e : StackupSubLayer_from v = Err e <-> StackupSubLayer_raises v = Some e.
Proof. exact (raised _ _ e (StackupSubLayer_e v)). Qed.
Print Assumptions C49_StackupSubLayer.
Example C49_StackupSubLayer_cases : outcomes StackupSubLayer_raises
  ["()";
   "(polygon 1)"]%string =
  [Some ENotImplemented; Some ENotImplemented]. Proof. vm_compute. reflexivity. Qed.

Theorem C49_StackupLayer v e : StackupLayer_from v = Err e <-> StackupLayer_raises v = Some e.
Proof. exact (raised _ _ e (StackupLayer_e v)). Qed.
Print Assumptions C49_StackupLayer.
Example C49_StackupLayer_cases : outcomes StackupLayer_raises
  ["(layer ""d"" (type ""core"") (thickness 1) addsublayer (thickness 2))";
   "()";
   "(layer)";
   "(wrong ""d"" (type ""core"") (thickness 1) addsublayer (thickness 2))";
   "(layer ""d"" (type))"]%string =
  [None; Some EIndex; Some EIndex; Some EException; Some EIndex]. Proof. vm_compute. reflexivity. Qed.

Theorem C49_Stackup v e : Stackup_from v = Err e <-> Stackup_raises v = Some e.
Proof. exact (raised _ _ e (Stackup_e v)). Qed.
Print Assumptions C49_Stackup.
Example C49_Stackup_cases : outcomes Stackup_raises
  ["(stackup (layer ""F.Cu"") (copper_finish 1) (dielectric_constraints 1) (edge_connector 1) (castellated_pads) (edge_plating))";
   "()";
   "(stackup)";
   "(wrong (layer ""F.Cu"") (copper_finish 1) (dielectric_constraints 1) (edge_connector 1) (castellated_pads) (edge_plating))";
   "(stackup (layer ""F.Cu"") (copper_finish 1) (dielectric_constraints 1) (edge_connector) (castellated_pads) (edge_plating))"]%string =
  [None; Some EIndex; None; Some EException; Some EIndex]. Proof. vm_compute. reflexivity. Qed.

Theorem C49_PlotSettings v e : PlotSettings_from v = Err e <-> PlotSettings_raises v = Some e.
Proof. exact (raised _ _ e (PlotSettings_e v)). Qed.
Print Assumptions C49_PlotSettings.
Example C49_PlotSettings_cases : outcomes PlotSettings_raises
  ["(pcbplotparams (layerselection 1) (plot_on_all_layers_selection 1) (disableapertmacros 1) (usegerberextensions 1) (usegerberattributes 1) (usegerberadvancedattributes 1) (creategerberjobfile 1) (dashed_line_dash_ratio 1) (dashed_line_gap_ratio 1) (svguseinch 1) (svgprecision 1) (excludeedgelayer 1) (plotframeref 1) (viasonmask 1) (mode 1) (useauxorigin 1) (hpglpennumber 1) (hpglpenspeed 1) (hpglpendiameter 1) (dxfpolygonmode 1) (dxfimperialunits 1) (dxfusepcbnewfont 1) (psnegative 1) (psa4output 1) (plotreference 1) (plotvalue 1) (plotinvisibletext 1) (sketchpadsonfab 1) (subtractmaskfromsilk 1) (outputformat 1) (mirror 1) (drillshape 1) (scaleselection 1) (outputdirectory 1))";
   "()";
   "(pcbplotparams)";
   "(wrong (layerselection 1) (plot_on_all_layers_selection 1) (disableapertmacros 1) (usegerberextensions 1) (usegerberattributes 1) (usegerberadvancedattributes 1) (creategerberjobfile 1) (dashed_line_dash_ratio 1) (dashed_line_gap_ratio 1) (svguseinch 1) (svgprecision 1) (excludeedgelayer 1) (plotframeref 1) (viasonmask 1) (mode 1) (useauxorigin 1) (hpglpennumber 1) (hpglpenspeed 1) (hpglpendiameter 1) (dxfpolygonmode 1) (dxfimperialunits 1) (dxfusepcbnewfont 1) (psnegative 1) (psa4output 1) (plotreference 1) (plotvalue 1) (plotinvisibletext 1) (sketchpadsonfab 1) (subtractmaskfromsilk 1) (outputformat 1) (mirror 1) (drillshape 1) (scaleselection 1) (outputdirectory 1))";
   "(pcbplotparams (layerselection 1) (plot_on_all_layers_selection 1) (disableapertmacros 1) (usegerberextensions 1) (usegerberattributes 1) (usegerberadvancedattributes 1) (creategerberjobfile 1) (dashed_line_dash_ratio 1) (dashed_line_gap_ratio 1) (svguseinch 1) (svgprecision 1) (excludeedgelayer 1) (plotframeref 1) (viasonmask 1) (mode 1) (useauxorigin 1) (hpglpennumber 1) (hpglpenspeed 1) (hpglpendiameter 1) (dxfpolygonmode 1) (dxfimperialunits 1) (dxfusepcbnewfont 1) (psnegative 1) (psa4output 1) (plotreference 1) (plotvalue 1) (plotinvisibletext 1) (sketchpadsonfab 1) (subtractmaskfromsilk 1) (outputformat 1) (mirror 1) (drillshape 1) (scaleselection 1) (outputdirectory))"]%string =
  [None; Some EIndex; None; Some EException; Some EIndex]. Proof. vm_compute. reflexivity. Qed.

Theorem C49_SetupData v e : SetupData_from v = Err e <-> SetupData_raises v = Some e.
Proof. exact (raised _ _ e (SetupData_e v)). Qed.
Print Assumptions C49_SetupData.
Example C49_SetupData_cases : outcomes SetupData_raises
  ["(setup (stackup) (pcbplotparams) (pad_to_mask_clearance 1) (solder_mask_min_width 1) (pad_to_paste_clearance 1) (pad_to_paste_clearance_ratio 1) (aux_axis_origin 1 2) (grid_origin 1 2) (pcbplotparams))";
   "()";
   "(setup)";
   "(wrong (stackup) (pcbplotparams) (pad_to_mask_clearance 1) (solder_mask_min_width 1) (pad_to_paste_clearance 1) (pad_to_paste_clearance_ratio 1) (aux_axis_origin 1 2) (grid_origin 1 2) (pcbplotparams))";
   "(wrong)"]%string =
  [None; Some EIndex; None; Some EException; Some EException]. Proof. vm_compute. reflexivity. Qed.

Theorem C49_Segment v e : Segment_from v = Err e <-> Segment_raises v = Some e.
Proof. exact (raised _ _ e (Segment_e v)). Qed.
Print Assumptions C49_Segment.
Example C49_Segment_cases : outcomes Segment_raises
  ["(segment (start 1 2) (end 1 2) (width 1) (layer 1) (net 1) (tstamp 1))";
   "()";
   "(segment)";
   "(wrong (start 1 2) (end 1 2) (width 1) (layer 1) (net 1) (tstamp 1))";
   "(segment (start 1 2) (end 1 2) (width 1) (layer 1) (net 1) (tstamp))"]%string =
  [None; Some EIndex; None; Some EException; Some EIndex]. Proof. vm_compute. reflexivity. Qed.

Theorem C49_Via v e : Via_from v = Err e <-> Via_raises v = Some e.
Proof. exact (raised _ _ e (Via_e v)). Qed.
Print Assumptions C49_Via.
Example C49_Via_cases : outcomes Via_raises
  ["(via (at 1 2) (size 1) (drill 1) (layers) (remove_unused_layers) (keep_end_layers) (free) (net 1) (tstamp 1))";
   "()";
   "(via)";
   "(wrong (at 1 2) (size 1) (drill 1) (layers) (remove_unused_layers) (keep_end_layers) (free) (net 1) (tstamp 1))";
   "(via (at 1 2) (size 1) (drill 1) (layers) (remove_unused_layers) (keep_end_layers) (free) (net 1) (tstamp))"]%string =
  [None; Some EIndex; None; Some EException; Some EIndex]. Proof. vm_compute. reflexivity. Qed.

Theorem C49_Arc v e : Arc_from v = Err e <-> Arc_raises v = Some e.
Proof. exact (raised _ _ e (Arc_e v)). Qed.
Print Assumptions C49_Arc.
Example C49_Arc_cases : outcomes Arc_raises
  ["(arc (start 1 2) (mid 1 2) (end 1 2) (width 1) (layer 1) (net 1) (tstamp 1))";
   "()";
   "(arc)";
   "(wrong (start 1 2) (mid 1 2) (end 1 2) (width 1) (layer 1) (net 1) (tstamp 1))";
   "(arc (start 1 2) (mid 1 2) (end 1 2) (width 1) (layer 1) (net 1) (tstamp))"]%string =
  [None; Some EIndex; None; Some EException; Some EIndex]. Proof. vm_compute. reflexivity. Qed.

Theorem C49_Target v e : Target_from v = Err e <-> Target_raises v = Some e.
Proof. exact (raised _ _ e (Target_e v)). Qed.
Print Assumptions C49_Target.
Example C49_Target_cases : outcomes Target_raises
  ["(target ""x"" (at 1 2) (size 1) (width 1) (layer 1) (tstamp 1))";
   "()";
   "(target)";
   "(wrong ""x"" (at 1 2) (size 1) (width 1) (layer 1) (tstamp 1))";
   "(target ""x"" (at 1 2) (size 1) (width 1) (layer 1) (tstamp))"]%string =
  [None; Some EIndex; Some EIndex; Some EException; Some EIndex]. Proof. vm_compute. reflexivity. Qed.

Theorem C49_Board now v e : Board_from now v = Err e <-> Board_raises v = Some e.
Proof. exact (raised _ _ e (Board_e now v)). Qed.
Print Assumptions C49_Board.
Example C49_Board_cases : outcomes Board_raises
  ["(kicad_pcb (version 1) (generator 1) (general) (paper ""A4"") (title_block) (layers (0 ""F.Cu"" signal) (0 ""F.Cu"" signal)) (setup) (property ""k"" ""v"") (net ""x"" ""x"") (footprint ""x"") (gr_text ""x"") (gr_text_box ""t"") (gr_line) (gr_rect) (gr_circle) (gr_arc) (gr_poly) (gr_curve) (image) (dimension) (target ""x"") (segment) (arc) (via) (zone) (group ""x""))";
   "()";
   "(kicad_pcb)";
   "(wrong (version 1) (generator 1) (general) (paper ""A4"") (title_block) (layers (0 ""F.Cu"" signal) (0 ""F.Cu"" signal)) (setup) (property ""k"" ""v"") (net ""x"" ""x"") (footprint ""x"") (gr_text ""x"") (gr_text_box ""t"") (gr_line) (gr_rect) (gr_circle) (gr_arc) (gr_poly) (gr_curve) (image) (dimension) (target ""x"") (segment) (arc) (via) (zone) (group ""x""))";
   "(kicad_pcb (version 1) (generator 1) (general) (paper ""A4"") (title_block) (layers (0 ""F.Cu"" signal) (0 ""F.Cu"" signal)) (setup) (property ""k"" ""v"") (net ""x"" ""x"") (footprint ""x"") (gr_text ""x"") (gr_text_box ""t"") (gr_line) (gr_rect) (gr_circle) (gr_arc) (gr_poly) (gr_curve) (image) (dimension) (target ""x"") (segment) (arc) (via) (zone) (group))"]%string =
  [None; Some EIndex; None; Some EException; Some EIndex]. Proof. vm_compute. reflexivity. Qed.

Theorem C49_Junction v e : Junction_from v = Err e <-> Junction_raises v = Some e.
Proof. exact (raised _ _ e (Junction_e v)). Qed.
Print Assumptions C49_Junction.
Example C49_Junction_cases : outcomes Junction_raises
  ["(junction (at 1 2) (color 1 2 3 4) (diameter 1) (uuid 1))";
   "()";
   "(junction)";
   "(wrong (at 1 2) (color 1 2 3 4) (diameter 1) (uuid 1))";
   "(junction (at 1 2) (color 1 2 3 4) (diameter 1) (uuid))"]%string =
  [None; Some EIndex; None; Some EException; Some EIndex]. Proof. vm_compute. reflexivity. Qed.

Theorem C49_NoConnect v e : NoConnect_from v = Err e <-> NoConnect_raises v = Some e.
Proof. exact (raised _ _ e (NoConnect_e v)). Qed.
Print Assumptions C49_NoConnect.
Example C49_NoConnect_cases : outcomes NoConnect_raises
  ["(no_connect (at 1 2) (uuid 1))";
   "()";
   "(no_connect)";
   "(wrong (at 1 2) (uuid 1))";
   "(no_connect (at 1 2) (uuid))"]%string =
  [None; Some EIndex; None; Some EException; Some EIndex]. Proof. vm_compute. reflexivity. Qed.

Theorem C49_BusEntry v e : BusEntry_from v = Err e <-> BusEntry_raises v = Some e.
Proof. exact (raised _ _ e (BusEntry_e v)). Qed.
Print Assumptions C49_BusEntry.
Example C49_BusEntry_cases : outcomes BusEntry_raises
  ["(bus_entry (at 1 2) (stroke ""x"") (size 1 2) (uuid 1))";
   "()";
   "(bus_entry)";
   "(wrong (at 1 2) (stroke ""x"") (size 1 2) (uuid 1))";
   "(bus_entry (at 1 2) (stroke ""x"") (size 1 2) (uuid))"]%string =
  [None; Some EIndex; None; Some EException; Some EIndex]. Proof. vm_compute. reflexivity. Qed.

Theorem C49_BusAlias v e : BusAlias_from v = Err e <-> BusAlias_raises v = Some e.
Proof. exact (raised _ _ e (BusAlias_e v)). Qed.
Print Assumptions C49_BusAlias.
Example C49_BusAlias_cases : outcomes BusAlias_raises
  ["(bus_alias ""B"" (members ""a"" ""b""))";
   "()";
   "(bus_alias)";
   "(wrong ""B"" (members ""a"" ""b""))";
   "(bus_alias ""B"" ""a"")"]%string =
  [None; Some EIndex; Some EException; Some EException; Some EException]. Proof. vm_compute. reflexivity. Qed.

Theorem C49_Connection v e : Connection_from v = Err e <-> Connection_raises v = Some e.
Proof. exact (raised _ _ e (Connection_e v)). Qed.
Print Assumptions C49_Connection.
Example C49_Connection_cases : outcomes Connection_raises
  ["(bus (pts (xy 1 2) (xy 1 2)) (stroke ""x"") (uuid 1))";
   "()";
   "(bus)";
   "(wrong (pts (xy 1 2) (xy 1 2)) (stroke ""x"") (uuid 1))";
   "(bus (pts (xy 1 2) (xy 1 2)) (stroke ""x"") (uuid))"]%string =
  [None; Some EIndex; None; Some EException; Some EIndex]. Proof. vm_compute. reflexivity. Qed.

Theorem C49_PolyLine v e : PolyLine_from v = Err e <-> PolyLine_raises v = Some e.
Proof. exact (raised _ _ e (PolyLine_e v)). Qed.
Print Assumptions C49_PolyLine.
Example C49_PolyLine_cases : outcomes PolyLine_raises
  ["(polyline (pts (xy 1 2) (xy 1 2)) (stroke ""x"") (uuid 1))";
   "()";
   "(polyline)";
   "(wrong (pts (xy 1 2) (xy 1 2)) (stroke ""x"") (uuid 1))";
   "(polyline (pts (xy 1 2) (xy 1 2)) (stroke ""x"") (uuid))"]%string =
  [None; Some EIndex; None; Some EException; Some EIndex]. Proof. vm_compute. reflexivity. Qed.

Theorem C49_Text v e : Text_from v = Err e <-> Text_raises v = Some e.
Proof. exact (raised _ _ e (Text_e v)). Qed.
Print Assumptions C49_Text.
Example C49_Text_cases : outcomes Text_raises
  ["(text ""x"" (at 1 2) (effects) (uuid 1))";
   "()";
   "(text)";
   "(wrong ""x"" (at 1 2) (effects) (uuid 1))";
   "(text ""x"" (at 1 2) (effects) (uuid))"]%string =
  [None; Some EIndex; Some EIndex; Some EException; Some EIndex]. Proof. vm_compute. reflexivity. Qed.

Theorem C49_TextBox v e : TextBox_from v = Err e <-> TextBox_raises v = Some e.
Proof. exact (raised _ _ e (TextBox_e v)). Qed.
Print Assumptions C49_TextBox.
Example C49_TextBox_cases : outcomes TextBox_raises
  ["(text_box ""x"" (at 1 2) (size 1 2) (effects) (stroke ""x"") (fill) (uuid 1))";
   "()";
   "(text_box)";
   "(wrong ""x"" (at 1 2) (size 1 2) (effects) (stroke ""x"") (fill) (uuid 1))";
   "(text_box ""x"" (at 1 2) (size 1 2) (effects) (stroke ""x"") (fill) (uuid))"]%string =
  [None; Some EIndex; Some EIndex; Some EException; Some EIndex]. Proof. vm_compute. reflexivity. Qed.

Theorem C49_LocalLabel v e : LocalLabel_from v = Err e <-> LocalLabel_raises v = Some e.
Proof. exact (raised _ _ e (LocalLabel_e v)). Qed.
Print Assumptions C49_LocalLabel.
Example C49_LocalLabel_cases : outcomes LocalLabel_raises
  ["(label ""x"" (at 1 2) (effects) (uuid 1) (fields_autoplaced))";
   "()";
   "(label)";
   "(wrong ""x"" (at 1 2) (effects) (uuid 1) (fields_autoplaced))";
   "(label ""x"" (at 1 2) (effects) (uuid) (fields_autoplaced))"]%string =
  [None; Some EIndex; Some EIndex; Some EException; Some EIndex]. Proof. vm_compute. reflexivity. Qed.

Theorem C49_GlobalLabel v e : GlobalLabel_from v = Err e <-> GlobalLabel_raises v = Some e.
Proof. exact (raised _ _ e (GlobalLabel_e v)). Qed.
Print Assumptions C49_GlobalLabel.
Example C49_GlobalLabel_cases : outcomes GlobalLabel_raises
  ["(global_label ""x"" (fields_autoplaced) (at 1 2) (effects) (property ""x"" ""x"") (shape 1) (uuid 1))";
   "()";
   "(global_label)";
   "(wrong ""x"" (fields_autoplaced) (at 1 2) (effects) (property ""x"" ""x"") (shape 1) (uuid 1))";
   "(global_label ""x"" (fields_autoplaced) (at 1 2) (effects) (property ""x"" ""x"") (shape 1) (uuid))"]%string =
  [None; Some EIndex; Some EIndex; Some EException; Some EIndex]. Proof. vm_compute. reflexivity. Qed.

Theorem C49_HierarchicalLabel v e : HierarchicalLabel_from v = Err e <-> HierarchicalLabel_raises v = Some e.
Proof. exact (raised _ _ e (HierarchicalLabel_e v)). Qed.
Print Assumptions C49_HierarchicalLabel.
Example C49_HierarchicalLabel_cases : outcomes HierarchicalLabel_raises
  ["(hierarchical_label ""x"" (at 1 2) (effects) (shape 1) (uuid 1) (fields_autoplaced))";
   "()";
   "(hierarchical_label)";
   "(wrong ""x"" (at 1 2) (effects) (shape 1) (uuid 1) (fields_autoplaced))";
   "(hierarchical_label ""x"" (at 1 2) (effects) (shape 1) (uuid) (fields_autoplaced))"]%string =
  [None; Some EIndex; Some EIndex; Some EException; Some EIndex]. Proof. vm_compute. reflexivity. Qed.

Theorem C49_SymbolProjectPath v e : SymbolProjectPath_from v = Err e <-> SymbolProjectPath_raises v = Some e.
Proof. exact (raised _ _ e (SymbolProjectPath_e v)). Qed.
Print Assumptions C49_SymbolProjectPath.
Example C49_SymbolProjectPath_cases : outcomes SymbolProjectPath_raises
  ["(path ""x"" (reference 1) (unit 1))";
   "()";
   "(path)";
   "(wrong ""x"" (reference 1) (unit 1))";
   "(path ""x"" (reference 1) (unit))"]%string =
  [None; Some EException; Some EException; Some EException; Some EIndex]. Proof. vm_compute. reflexivity. Qed.

Theorem C49_SymbolProjectInstance v e : SymbolProjectInstance_from v = Err e <-> SymbolProjectInstance_raises v = Some e.
Proof. exact (raised _ _ e (SymbolProjectInstance_e v)). Qed.
Print Assumptions C49_SymbolProjectInstance.
Example C49_SymbolProjectInstance_cases : outcomes SymbolProjectInstance_raises
  ["(project ""x"" (path ""x""))";
   "()";
   "(project)";
   "(wrong ""x"" (path ""x""))";
   "(project ""x"" (path))"]%string =
  [None; Some EException; Some EException; Some EException; Some EException]. Proof. vm_compute. reflexivity. Qed.

Theorem C49_SchematicSymbol v e : SchematicSymbol_from v = Err e <-> SchematicSymbol_raises v = Some e.
Proof. exact (raised _ _ e (SchematicSymbol_e v)). Qed.
Print Assumptions C49_SchematicSymbol.
Example C49_SchematicSymbol_cases : outcomes SchematicSymbol_raises
  ["(symbol (fields_autoplaced) (lib_id ""Device:R"") (lib_name 1) (uuid 1) (unit 1) (in_bom 1) (on_board 1) (dnp 1) (at 1 2) (property ""x"" ""x"") (pin ""1"" (uuid u)) (mirror 1) (instances (project ""x"") (project ""x"")))";
   "()";
   "(symbol)";
   "(wrong (fields_autoplaced) (lib_id ""Device:R"") (lib_name 1) (uuid 1) (unit 1) (in_bom 1) (on_board 1) (dnp 1) (at 1 2) (property ""x"" ""x"") (pin ""1"" (uuid u)) (mirror 1) (instances (project ""x"") (project ""x"")))";
   "(symbol (fields_autoplaced) (lib_id ""Device:R"") (lib_name 1) (uuid 1) (unit 1) (in_bom 1) (on_board 1) (dnp 1) (at 1 2) (property ""x"" ""x"") (pin ""1"" (uuid u)) (mirror) (instances (project ""x"") (project ""x"")))"]%string =
  [None; Some EIndex; None; Some EException; Some EIndex]. Proof. vm_compute. reflexivity. Qed.

Theorem C49_HierarchicalPin v e : HierarchicalPin_from v = Err e <-> HierarchicalPin_raises v = Some e.
Proof. exact (raised _ _ e (HierarchicalPin_e v)). Qed.
Print Assumptions C49_HierarchicalPin.
Example C49_HierarchicalPin_cases : outcomes HierarchicalPin_raises
  ["(pin ""x"" ""x"" (at 1 2) (effects) (uuid 1))";
   "()";
   "(pin)";
   "(wrong ""x"" ""x"" (at 1 2) (effects) (uuid 1))";
   "(pin ""x"" ""x"" (at 1 2) (effects) (uuid))"]%string =
  [None; Some EIndex; Some EIndex; Some EException; Some EIndex]. Proof. vm_compute. reflexivity. Qed.

Theorem C49_HierarchicalSheetProjectPath v e : HierarchicalSheetProjectPath_from v = Err e <-> HierarchicalSheetProjectPath_raises v = Some e.
Proof. exact (raised _ _ e (HierarchicalSheetProjectPath_e v)). Qed.
Print Assumptions C49_HierarchicalSheetProjectPath.
Example C49_HierarchicalSheetProjectPath_cases : outcomes HierarchicalSheetProjectPath_raises
  ["(path ""x"" (page 1))";
   "()";
   "(path)";
   "(wrong ""x"" (page 1))";
   "(path ""x"" (page))"]%string =
  [None; Some EException; Some EException; Some EException; Some EIndex]. Proof. vm_compute. reflexivity. Qed.

Theorem C49_HierarchicalSheetProjectInstance v e : HierarchicalSheetProjectInstance_from v = Err e <-> HierarchicalSheetProjectInstance_raises v = Some e.
Proof. exact (raised _ _ e (HierarchicalSheetProjectInstance_e v)). Qed.
Print Assumptions C49_HierarchicalSheetProjectInstance.
Example C49_HierarchicalSheetProjectInstance_cases : outcomes HierarchicalSheetProjectInstance_raises
  ["(project ""x"" (path ""x""))";
   "()";
   "(project)";
   "(wrong ""x"" (path ""x""))";
   "(project ""x"" (path))"]%string =
  [None; Some EException; Some EException; Some EException; Some EException]. Proof. vm_compute. reflexivity. Qed.

Theorem C49_HierarchicalSheet v e : HierarchicalSheet_from v = Err e <-> HierarchicalSheet_raises v = Some e.
Proof. exact (raised _ _ e (HierarchicalSheet_e v)). Qed.
Print Assumptions C49_HierarchicalSheet.
Example C49_HierarchicalSheet_cases : outcomes HierarchicalSheet_raises
  ["(sheet (fields_autoplaced) (at 1 2) (stroke ""x"") (size 1 1) (fill (color 1 2 3 4)) (uuid 1) (property ""x"" ""x"") (pin ""x"" ""x"") (instances (project ""x"") (project ""x"")))";
   "()";
   "(sheet)";
   "(wrong (fields_autoplaced) (at 1 2) (stroke ""x"") (size 1 1) (fill (color 1 2 3 4)) (uuid 1) (property ""x"" ""x"") (pin ""x"" ""x"") (instances (project ""x"") (project ""x"")))";
   "(sheet (fields_autoplaced) (at 1 2) (stroke ""x"") (size 1 1) (fill (color 1 2 3 4)) (uuid 1) (property ""x"" ""x"") (pin) (instances (project ""x"") (project ""x"")))"]%string =
  [None; Some EIndex; None; Some EException; Some EIndex]. Proof. vm_compute. reflexivity. Qed.

Theorem C49_HierarchicalSheetInstance v e : HierarchicalSheetInstance_from v = Err e <-> HierarchicalSheetInstance_raises v = Some e.
Proof. exact (raised _ _ e (HierarchicalSheetInstance_e v)). Qed.
Print Assumptions C49_HierarchicalSheetInstance.
Example C49_HierarchicalSheetInstance_cases : outcomes HierarchicalSheetInstance_raises
  ["(path ""x"" (page 1))";
   "()";
   "(path)";
   "(wrong ""x"" (page 1))";
   "(path ""x"" (page))"]%string =
  [None; Some EIndex; Some EIndex; Some EException; Some EIndex]. Proof. vm_compute. reflexivity. Qed.

Theorem C49_SymbolInstance v e : SymbolInstance_from v = Err e <-> SymbolInstance_raises v = Some e.
Proof. exact (raised _ _ e (SymbolInstance_e v)). Qed.
Print Assumptions C49_SymbolInstance.
Example C49_SymbolInstance_cases : outcomes SymbolInstance_raises
  ["(path ""x"" (reference 1) (unit 1) (value 1) (footprint 1))";
   "()";
   "(path)";
   "(wrong ""x"" (reference 1) (unit 1) (value 1) (footprint 1))";
   "(path ""x"" (reference 1) (unit 1) (value 1) (footprint))"]%string =
  [None; Some EIndex; Some EIndex; Some EException; Some EIndex]. Proof. vm_compute. reflexivity. Qed.

Theorem C49_Rectangle v e : Rectangle_from v = Err e <-> Rectangle_raises v = Some e.
Proof. exact (raised _ _ e (Rectangle_e v)). Qed.
Print Assumptions C49_Rectangle.
Example C49_Rectangle_cases : outcomes Rectangle_raises
  ["(rectangle (start 1 2) (end 1 2) (stroke ""x"") (fill) (uuid 1))";
   "()";
   "(rectangle)";
   "(wrong (start 1 2) (end 1 2) (stroke ""x"") (fill) (uuid 1))";
   "(rectangle (start 1 2) (end 1 2) (stroke ""x"") (fill) (uuid))"]%string =
  [None; Some EIndex; None; Some EException; Some EIndex]. Proof. vm_compute. reflexivity. Qed.

Theorem C49_SchArc v e : SchArc_from v = Err e <-> SchArc_raises v = Some e.
Proof. exact (raised _ _ e (SchArc_e v)). Qed.
Print Assumptions C49_SchArc.
Example C49_SchArc_cases : outcomes SchArc_raises
  ["(arc (start 1 2) (mid 1 2) (end 1 2) (stroke ""x"") (fill) (uuid 1))";
   "()";
   "(arc)";
   "(wrong (start 1 2) (mid 1 2) (end 1 2) (stroke ""x"") (fill) (uuid 1))";
   "(arc (start 1 2) (mid 1 2) (end 1 2) (stroke ""x"") (fill) (uuid))"]%string =
  [None; Some EIndex; None; Some EException; Some EIndex]. Proof. vm_compute. reflexivity. Qed.

Theorem C49_Circle v e : Circle_from v = Err e <-> Circle_raises v = Some e.
Proof. exact (raised _ _ e (Circle_e v)). Qed.
Print Assumptions C49_Circle.
Example C49_Circle_cases : outcomes Circle_raises
  ["(circle (center 1 2) (radius 1) (stroke ""x"") (fill) (uuid 1))";
   "()";
   "(circle)";
   "(wrong (center 1 2) (radius 1) (stroke ""x"") (fill) (uuid 1))";
   "(circle (center 1 2) (radius 1) (stroke ""x"") (fill) (uuid))"]%string =
  [None; Some EIndex; None; Some EException; Some EIndex]. Proof. vm_compute. reflexivity. Qed.

Theorem C49_NetclassFlag v e : NetclassFlag_from v = Err e <-> NetclassFlag_raises v = Some e.
Proof. exact (raised _ _ e (NetclassFlag_e v)). Qed.
Print Assumptions C49_NetclassFlag.
Example C49_NetclassFlag_cases : outcomes NetclassFlag_raises
  ["(netclass_flag ""x"" (length 1) (shape 1) (at 1 2) (fields_autoplaced) (effects) (uuid 1) (property ""x"" ""x""))";
   "()";
   "(netclass_flag)";
   "(wrong ""x"" (length 1) (shape 1) (at 1 2) (fields_autoplaced) (effects) (uuid 1) (property ""x"" ""x""))";
   "(netclass_flag ""x"" (length 1) (shape 1) (at 1 2) (fields_autoplaced) (effects) (uuid 1) (property))"]%string =
  [None; Some EIndex; Some EIndex; Some EException; Some EIndex]. Proof. vm_compute. reflexivity. Qed.

Theorem C49_Schematic v e : Schematic_from v = Err e <-> Schematic_raises v = Some e.
Proof. exact (raised _ _ e (Schematic_e v)). Qed.
Print Assumptions C49_Schematic.
Example C49_Schematic_cases : outcomes Schematic_raises
  ["(kicad_sch (version 1) (generator 1) (uuid 1) (paper ""A4"") (title_block) (lib_symbols (symbol ""R"") (symbol ""R"")) (junction) (no_connect) (bus_entry) (bus_alias ""B"" (members ""a"" ""b"")) (wire) (bus) (polyline) (arc) (circle) (rectangle) (image) (text ""x"") (text_box ""x"") (label ""x"") (global_label ""x"") (hierarchical_label ""x"") (netclass_flag ""x"") (symbol) (sheet) (sheet_instances (path ""x"") (path ""x"")) (symbol_instances (path ""x"") (path ""x"")))";
   "()";
   "(kicad_sch)";
   "(wrong (version 1) (generator 1) (uuid 1) (paper ""A4"") (title_block) (lib_symbols (symbol ""R"") (symbol ""R"")) (junction) (no_connect) (bus_entry) (bus_alias ""B"" (members ""a"" ""b"")) (wire) (bus) (polyline) (arc) (circle) (rectangle) (image) (text ""x"") (text_box ""x"") (label ""x"") (global_label ""x"") (hierarchical_label ""x"") (netclass_flag ""x"") (symbol) (sheet) (sheet_instances (path ""x"") (path ""x"")) (symbol_instances (path ""x"") (path ""x"")))";
   "(wrong)"]%string =
  [None; Some EIndex; None; Some EException; Some EException]. Proof. vm_compute. reflexivity. Qed.

Theorem C49_WksFontSize v e : WksFontSize_from v = Err e <-> WksFontSize_raises v = Some e.
Proof. exact (raised _ _ e (WksFontSize_e v)). Qed.
Print Assumptions C49_WksFontSize.
Example C49_WksFontSize_cases : outcomes WksFontSize_raises
  ["(size 1 2)";
   "()";
   "(size)";
   "(wrong 1 2)";
   "(size 1)"]%string =
  [None; Some EException; Some EException; Some EException; Some EException]. Proof. vm_compute. reflexivity. Qed.

Theorem C49_WksFont v e : WksFont_from v = Err e <-> WksFont_raises v = Some e.
Proof. exact (raised _ _ e (WksFont_e v)). Qed.
Print Assumptions C49_WksFont.
Example C49_WksFont_cases : outcomes WksFont_raises
  ["(font (linewidth 1) (size 1 2))";
   "()";
   "(font)";
   "(wrong (linewidth 1) (size 1 2))";
   "(font (linewidth 1) (size))"]%string =
  [None; Some EIndex; None; Some EException; Some EException]. Proof. vm_compute. reflexivity. Qed.

Theorem C49_WksPosition v e : WksPosition_from v = Err e <-> WksPosition_raises v = Some e.
Proof. exact (raised _ _ e (WksPosition_e v)). Qed.
Print Assumptions C49_WksPosition.
Example C49_WksPosition_cases : outcomes WksPosition_raises
  ["(pos 1 2 ltcorner)";
   "()";
   "(pos)";
   "(at)";
   "(pos 1)"]%string =
  [None; Some EException; Some EException; Some EException; Some EException]. Proof. vm_compute. reflexivity. Qed.

Theorem C49_Line v e : Line_from v = Err e <-> Line_raises v = Some e.
Proof. exact (raised _ _ e (Line_e v)). Qed.
Print Assumptions C49_Line.
Example C49_Line_cases : outcomes Line_raises
  ["(line (name 1) (start 1 2) (end 1 2) (option 1) (linewidth 1) (repeat 1) (incrx 1) (incry 1) (comment 1))";
   "()";
   "(line)";
   "(wrong (name 1) (start 1 2) (end 1 2) (option 1) (linewidth 1) (repeat 1) (incrx 1) (incry 1) (comment 1))";
   "(line (name 1) (start 1 2) (end 1 2) (option 1) (linewidth 1) (repeat 1) (incrx 1) (incry 1) (comment))"]%string =
  [None; Some EIndex; None; Some EException; Some EIndex]. Proof. vm_compute. reflexivity. Qed.

Theorem C49_Rect v e : Rect_from v = Err e <-> Rect_raises v = Some e.
Proof. exact (raised _ _ e (Rect_e v)). Qed.
Print Assumptions C49_Rect.
Example C49_Rect_cases : outcomes Rect_raises
  ["(rect (name 1) (start 1 2) (end 1 2) (option 1) (linewidth 1) (repeat 1) (incrx 1) (incry 1) (comment 1))";
   "()";
   "(rect)";
   "(wrong (name 1) (start 1 2) (end 1 2) (option 1) (linewidth 1) (repeat 1) (incrx 1) (incry 1) (comment 1))";
   "(rect (name 1) (start 1 2) (end 1 2) (option 1) (linewidth 1) (repeat 1) (incrx 1) (incry 1) (comment))"]%string =
  [None; Some EIndex; None; Some EException; Some EIndex]. Proof. vm_compute. reflexivity. Qed.

Theorem C49_Polygon v e : Polygon_from v = Err e <-> Polygon_raises v = Some e.
Proof. exact (raised _ _ e (Polygon_e v)). Qed.
Print Assumptions C49_Polygon.
Example C49_Polygon_cases : outcomes Polygon_raises
  ["()";
   "(polygon 1)"]%string =
  [Some ENotImplemented; Some ENotImplemented]. Proof. vm_compute. reflexivity. Qed.

Theorem C49_Bitmap v e : Bitmap_from v = Err e <-> Bitmap_raises v = Some e.
Proof. exact (raised _ _ e (Bitmap_e v)). Qed.
Print Assumptions C49_Bitmap.
Example C49_Bitmap_cases : outcomes Bitmap_raises
  ["(bitmap (name 1) (pos 1 2) (option 1) (scale 1) (repeat 1) (incrx 1) (incry 1) (comment 1) (pngdata (data a) (data b)))";
   "()";
   "(bitmap)";
   "(wrong (name 1) (pos 1 2) (option 1) (scale 1) (repeat 1) (incrx 1) (incry 1) (comment 1) (pngdata (data a) (data b)))";
   "(bitmap (name 1) (pos 1 2) (option 1) (scale 1) (repeat 1) (incrx 1) (incry 1) (comment) (pngdata (data a) (data b)))"]%string =
  [None; Some EIndex; None; Some EException; Some EIndex]. Proof. vm_compute. reflexivity. Qed.

Theorem C49_TbText v e : TbText_from v = Err e <-> TbText_raises v = Some e.
Proof. exact (raised _ _ e (TbText_e v)). Qed.
Print Assumptions C49_TbText.
Example C49_TbText_cases : outcomes TbText_raises
  ["(tbtext ""x"" (name 1) (pos 1 2) (option 1) (rotate 1) (font) (justify) (maxlen 1) (maxheight 1) (repeat 1) (incrx 1) (incry 1) (incrlabel 1) (comment 1))";
   "()";
   "(tbtext)";
   "(wrong ""x"" (name 1) (pos 1 2) (option 1) (rotate 1) (font) (justify) (maxlen 1) (maxheight 1) (repeat 1) (incrx 1) (incry 1) (incrlabel 1) (comment 1))";
   "(tbtext ""x"" (name 1) (pos 1 2) (option 1) (rotate 1) (font) (justify) (maxlen 1) (maxheight 1) (repeat 1) (incrx 1) (incry 1) (incrlabel 1) (comment))"]%string =
  [None; Some EIndex; Some EIndex; Some EException; Some EIndex]. Proof. vm_compute. reflexivity. Qed.

Theorem C49_TextSize v e : TextSize_from v = Err e <-> TextSize_raises v = Some e.
Proof. exact (raised _ _ e (TextSize_e v)). Qed.
Print Assumptions C49_TextSize.
Example C49_TextSize_cases : outcomes TextSize_raises
  ["(textsize 1 2)";
   "()";
   "(textsize)";
   "(wrong 1 2)";
   "(textsize 1 2 3)"]%string =
  [None; Some EException; Some EException; Some EException; Some EException]. Proof. vm_compute. reflexivity. Qed.

Theorem C49_Setup v e : Setup_from v = Err e <-> Setup_raises v = Some e.
Proof. exact (raised _ _ e (Setup_e v)). Qed.
Print Assumptions C49_Setup.
Example C49_Setup_cases : outcomes Setup_raises
  ["(setup (textsize 1 2) (linewidth 1) (textlinewidth 1) (left_margin 1) (right_margin 1) (top_margin 1) (bottom_margin 1))";
   "()";
   "(setup)";
   "(wrong (textsize 1 2) (linewidth 1) (textlinewidth 1) (left_margin 1) (right_margin 1) (top_margin 1) (bottom_margin 1))";
   "(setup (textsize 1 2) (linewidth 1) (textlinewidth 1) (left_margin 1) (right_margin 1) (top_margin 1) (bottom_margin))"]%string =
  [None; Some EIndex; None; Some EException; Some EIndex]. Proof. vm_compute. reflexivity. Qed.

Theorem C49_WorkSheet v e : WorkSheet_from v = Err e <-> WorkSheet_raises v = Some e.
Proof. exact (raised _ _ e (WorkSheet_e v)). Qed.
Print Assumptions C49_WorkSheet.
Example C49_WorkSheet_cases : outcomes WorkSheet_raises
  ["(kicad_wks (version 1) (generator 1) (setup) (rect) (line) (tbtext ""x"") (bitmap))";
   "()";
   "(kicad_wks)";
   "(wrong (version 1) (generator 1) (setup) (rect) (line) (tbtext ""x"") (bitmap))";
   "(kicad_wks (polygon 1))"]%string =
  [None; Some EIndex; None; Some EException; Some ENotImplemented]. Proof. vm_compute. reflexivity. Qed.
