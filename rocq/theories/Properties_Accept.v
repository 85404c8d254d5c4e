(** * C48: which expressions are read

    For each class the expressions for which [from_sexpr] returns an object are characterised exactly:
    [X_reads] (in S_Accept.v) looks only at the expression, row by row through a table of heads.
    Beside each theorem stand an expression that is read, with every row of the table, and one that is
    refused. *)
From Coq Require Import String.
From Verif Require Import PyBase PyNum PyStr Sexpr M_Common M_Lib M_Sym M_Fp M_Gr M_Zone M_Footprint M_Dim M_Brd M_Board M_Sch M_Schematic M_Wks S_Write L_Write S_Accept L_Accept L_AcceptA.

Definition holds (f : val -> bool) (t : string) : bool := match parse_sexp (lit t) with Ok v => f v | Err _ => false end.
Definition refused (f : val -> bool) (t : string) : bool := match parse_sexp (lit t) with Ok v => negb (f v) | Err _ => false end.
Arguments refused _ _%string.
Arguments holds _ _%string.

Theorem C48_Position v : (exists o, Position_from v = Ok o) <-> Position_reads v = true.
Proof. exact (when _ _ (Position_a v)). Qed.
Print Assumptions C48_Position.
Example C48_Position_reads : holds Position_reads "(at 1 2 90 unlocked)" = true. Proof. vm_compute. reflexivity. Qed.
Example C48_Position_refuses : refused Position_reads "(at 1)" = true. Proof. vm_compute. reflexivity. Qed.

Theorem C48_Coordinate v : (exists o, Coordinate_from v = Ok o) <-> Coordinate_reads v = true.
Proof. exact (when _ _ (Coordinate_a v)). Qed.
Print Assumptions C48_Coordinate.
Example C48_Coordinate_reads : holds Coordinate_reads "(xyz 1 2 3)" = true. Proof. vm_compute. reflexivity. Qed.
Example C48_Coordinate_refuses : refused Coordinate_reads "(xyz 1 2)" = true. Proof. vm_compute. reflexivity. Qed.

Theorem C48_ColorRGBA v : (exists o, ColorRGBA_from v = Ok o) <-> ColorRGBA_reads v = true.
Proof. exact (when _ _ (ColorRGBA_a v)). Qed.
Print Assumptions C48_ColorRGBA.
Example C48_ColorRGBA_reads : holds ColorRGBA_reads "(color 1 2 3 4)" = true. Proof. vm_compute. reflexivity. Qed.
Example C48_ColorRGBA_refuses : refused ColorRGBA_reads "(color 1 2 3)" = true. Proof. vm_compute. reflexivity. Qed.

Theorem C48_Stroke v : (exists o, Stroke_from v = Ok o) <-> Stroke_reads v = true.
Proof. exact (when _ _ (Stroke_a v)). Qed.
Print Assumptions C48_Stroke.
Example C48_Stroke_reads : holds Stroke_reads "(stroke ""x"" (width 1) (type 1) (color 1 2 3 4))" = true. Proof. vm_compute. reflexivity. Qed.
Example C48_Stroke_refuses : refused Stroke_reads "(stroke ""x"" (width 1) (type 1) (color))" = true. Proof. vm_compute. reflexivity. Qed.

Theorem C48_Font v : (exists o, Font_from v = Ok o) <-> Font_reads v = true.
Proof. exact (when _ _ (Font_a v)). Qed.
Print Assumptions C48_Font.
Example C48_Font_reads : holds Font_reads "(font (face 1) (size 1 1) (thickness 1) (line_spacing 1) (color 1 2 3 4))" = true. Proof. vm_compute. reflexivity. Qed.
Example C48_Font_refuses : refused Font_reads "(font (face 1) (size 1 1) (thickness 1) (line_spacing 1) (color))" = true. Proof. vm_compute. reflexivity. Qed.

Theorem C48_Justify v : (exists o, Justify_from v = Ok o) <-> Justify_reads v = true.
Proof. exact (when _ _ (Justify_a v)). Qed.
Print Assumptions C48_Justify.
Example C48_Justify_reads : holds Justify_reads "(justify left top mirror)" = true. Proof. vm_compute. reflexivity. Qed.
Example C48_Justify_refuses : refused Justify_reads "(justified left)" = true. Proof. vm_compute. reflexivity. Qed.

Theorem C48_Effects v : (exists o, Effects_from v = Ok o) <-> Effects_reads v = true.
Proof. exact (when _ _ (Effects_a v)). Qed.
Print Assumptions C48_Effects.
Example C48_Effects_reads : holds Effects_reads "(effects (font) (justify) (href 1))" = true. Proof. vm_compute. reflexivity. Qed.
Example C48_Effects_refuses : refused Effects_reads "(effects (font) (justify) (href))" = true. Proof. vm_compute. reflexivity. Qed.

Theorem C48_Net v : (exists o, Net_from v = Ok o) <-> Net_reads v = true.
Proof. exact (when _ _ (Net_a v)). Qed.
Print Assumptions C48_Net.
Example C48_Net_reads : holds Net_reads "(net 1 ""GND"")" = true. Proof. vm_compute. reflexivity. Qed.
Example C48_Net_refuses : refused Net_reads "(net 1)" = true. Proof. vm_compute. reflexivity. Qed.

Theorem C48_Group v : (exists o, Group_from v = Ok o) <-> Group_reads v = true.
Proof. exact (when _ _ (Group_a v)). Qed.
Print Assumptions C48_Group.
Example C48_Group_reads : holds Group_reads "(group ""x"" (id 1) (members))" = true. Proof. vm_compute. reflexivity. Qed.
Example C48_Group_refuses : refused Group_reads "(group ""x"" (id) (members))" = true. Proof. vm_compute. reflexivity. Qed.

Theorem C48_PageSettings v : (exists o, PageSettings_from v = Ok o) <-> PageSettings_reads v = true.
Proof. exact (when _ _ (PageSettings_a v)). Qed.
Print Assumptions C48_PageSettings.
Example C48_PageSettings_reads : holds PageSettings_reads "(paper ""User"" 100 200 portrait)" = true. Proof. vm_compute. reflexivity. Qed.
Example C48_PageSettings_refuses : refused PageSettings_reads "(paper ""User"" 100)" = true. Proof. vm_compute. reflexivity. Qed.

Theorem C48_TitleBlock v : (exists o, TitleBlock_from v = Ok o) <-> TitleBlock_reads v = true.
Proof. exact (when _ _ (TitleBlock_a v)). Qed.
Print Assumptions C48_TitleBlock.
Example C48_TitleBlock_reads : holds TitleBlock_reads "(title_block (title 1) (date 1) (rev 1) (company 1) (comment ""k"" ""v""))" = true. Proof. vm_compute. reflexivity. Qed.
Example C48_TitleBlock_refuses : refused TitleBlock_reads "(title_block (title 1) (date 1) (rev 1) (company 1) (comment))" = true. Proof. vm_compute. reflexivity. Qed.

Theorem C48_Property v : (exists o, Property_from v = Ok o) <-> Property_reads v = true.
Proof. exact (when _ _ (Property_a v)). Qed.
Print Assumptions C48_Property.
Example C48_Property_reads : holds Property_reads "(property ""x"" ""x"" (id 1) (at 1 2) (effects) (show_name))" = true. Proof. vm_compute. reflexivity. Qed.
Example C48_Property_refuses : refused Property_reads "(wrong ""x"" ""x"")" = true. Proof. vm_compute. reflexivity. Qed.

Theorem C48_RenderCachePolygon v : (exists o, RenderCachePolygon_from v = Ok o) <-> RenderCachePolygon_reads v = true.
Proof. exact (when _ _ (RenderCachePolygon_a v)). Qed.
Print Assumptions C48_RenderCachePolygon.
Example C48_RenderCachePolygon_reads : holds RenderCachePolygon_reads "(polygon (pts (xy 1 2) (xy 1 2)))" = true. Proof. vm_compute. reflexivity. Qed.
Example C48_RenderCachePolygon_refuses : refused RenderCachePolygon_reads "(polygon (pts 1))" = true. Proof. vm_compute. reflexivity. Qed.

Theorem C48_RenderCache v : (exists o, RenderCache_from v = Ok o) <-> RenderCache_reads v = true.
Proof. exact (when _ _ (RenderCache_a v)). Qed.
Print Assumptions C48_RenderCache.
Example C48_RenderCache_reads : holds RenderCache_reads "(render_cache ""x"" ""x"" (polygon))" = true. Proof. vm_compute. reflexivity. Qed.
Example C48_RenderCache_refuses : refused RenderCache_reads "(wrong ""x"" ""x"")" = true. Proof. vm_compute. reflexivity. Qed.

Theorem C48_Fill v : (exists o, Fill_from v = Ok o) <-> Fill_reads v = true.
Proof. exact (when _ _ (Fill_a v)). Qed.
Print Assumptions C48_Fill.
Example C48_Fill_reads : holds Fill_reads "(fill (type 1) (color 1 2 3 4))" = true. Proof. vm_compute. reflexivity. Qed.
Example C48_Fill_refuses : refused Fill_reads "(fill (type 1) (color))" = true. Proof. vm_compute. reflexivity. Qed.

Theorem C48_Image v : (exists o, Image_from v = Ok o) <-> Image_reads v = true.
Proof. exact (when _ _ (Image_a v)). Qed.
Print Assumptions C48_Image.
Example C48_Image_reads : holds Image_reads "(image (at 1 2) (scale 1) (uuid 1) (layer 1) (data))" = true. Proof. vm_compute. reflexivity. Qed.
Example C48_Image_refuses : refused Image_reads "(image (at 1 2) (scale 1) (uuid 1) (layer) (data))" = true. Proof. vm_compute. reflexivity. Qed.

Theorem C48_Library v : (exists o, Library_from v = Ok o) <-> Library_reads v = true.
Proof. exact (when _ _ (Library_a v)). Qed.
Print Assumptions C48_Library.
Example C48_Library_reads : holds Library_reads "(lib (name 1) (type 1) (uri 1) (options 1) (descr 1) (disabled))" = true. Proof. vm_compute. reflexivity. Qed.
Example C48_Library_refuses : refused Library_reads "(lib (name 1) (type 1) (uri 1) (options 1) (descr) (disabled))" = true. Proof. vm_compute. reflexivity. Qed.

Theorem C48_LibTable v : (exists o, LibTable_from v = Ok o) <-> LibTable_reads v = true.
Proof. exact (when _ _ (LibTable_a v)). Qed.
Print Assumptions C48_LibTable.
Example C48_LibTable_reads : holds LibTable_reads "(sym_lib_table (lib))" = true. Proof. vm_compute. reflexivity. Qed.
Example C48_LibTable_refuses : refused LibTable_reads "(wrong)" = true. Proof. vm_compute. reflexivity. Qed.

Theorem C48_Constraint v : (exists o, Constraint_from v = Ok o) <-> Constraint_reads v = true.
Proof. exact (when _ _ (Constraint_a v)). Qed.
Print Assumptions C48_Constraint.
Example C48_Constraint_reads : holds Constraint_reads "(constraint ""x"" (min 1) (opt 1) (max 1))" = true. Proof. vm_compute. reflexivity. Qed.
Example C48_Constraint_refuses : refused Constraint_reads "(constraint ""x"" (min 1) (opt 1) (max))" = true. Proof. vm_compute. reflexivity. Qed.

Theorem C48_Rule v : (exists o, Rule_from v = Ok o) <-> Rule_reads v = true.
Proof. exact (when _ _ (Rule_a v)). Qed.
Print Assumptions C48_Rule.
Example C48_Rule_reads : holds Rule_reads "(rule ""x"" (constraint ""x"") (condition 1) (layer 1) (severity 1))" = true. Proof. vm_compute. reflexivity. Qed.
Example C48_Rule_refuses : refused Rule_reads "(rule ""x"" (constraint ""x"") (condition 1) (layer 1) (severity))" = true. Proof. vm_compute. reflexivity. Qed.

Theorem C48_DesignRules v : (exists o, DesignRules_from v = Ok o) <-> DesignRules_reads v = true.
Proof. exact (when _ _ (DesignRules_a v)). Qed.
Print Assumptions C48_DesignRules.
Example C48_DesignRules_reads : holds DesignRules_reads "((version 1) (rule ""a"" (condition ""c"")))" = true. Proof. vm_compute. reflexivity. Qed.
Example C48_DesignRules_refuses : refused DesignRules_reads "((rule ""a"") (version 1))" = true. Proof. vm_compute. reflexivity. Qed.

Theorem C48_SyArc v : (exists o, SyArc_from v = Ok o) <-> SyArc_reads v = true.
Proof. exact (when _ _ (SyArc_a v)). Qed.
Print Assumptions C48_SyArc.
Example C48_SyArc_reads : holds SyArc_reads "(arc (start 1 2) (mid 1 2) (end 1 2) (stroke ""x"") (fill))" = true. Proof. vm_compute. reflexivity. Qed.
Example C48_SyArc_refuses : refused SyArc_reads "(wrong)" = true. Proof. vm_compute. reflexivity. Qed.

Theorem C48_SyCircle v : (exists o, SyCircle_from v = Ok o) <-> SyCircle_reads v = true.
Proof. exact (when _ _ (SyCircle_a v)). Qed.
Print Assumptions C48_SyCircle.
Example C48_SyCircle_reads : holds SyCircle_reads "(circle (center 1 2) (radius 1) (stroke ""x"") (fill))" = true. Proof. vm_compute. reflexivity. Qed.
Example C48_SyCircle_refuses : refused SyCircle_reads "(wrong)" = true. Proof. vm_compute. reflexivity. Qed.

Theorem C48_SyCurve v : (exists o, SyCurve_from v = Ok o) <-> SyCurve_reads v = true.
Proof. exact (when _ _ (SyCurve_a v)). Qed.
Print Assumptions C48_SyCurve.
Example C48_SyCurve_reads : holds SyCurve_reads "(curve (stroke ""x"") (fill) (pts (xy 1 2) (xy 1 2)))" = true. Proof. vm_compute. reflexivity. Qed.
Example C48_SyCurve_refuses : refused SyCurve_reads "(wrong)" = true. Proof. vm_compute. reflexivity. Qed.

Theorem C48_SyPolyLine v : (exists o, SyPolyLine_from v = Ok o) <-> SyPolyLine_reads v = true.
Proof. exact (when _ _ (SyPolyLine_a v)). Qed.
Print Assumptions C48_SyPolyLine.
Example C48_SyPolyLine_reads : holds SyPolyLine_reads "(polyline (stroke ""x"") (fill) (pts (xy 1 2) (xy 1 2)))" = true. Proof. vm_compute. reflexivity. Qed.
Example C48_SyPolyLine_refuses : refused SyPolyLine_reads "(wrong)" = true. Proof. vm_compute. reflexivity. Qed.

Theorem C48_SyRect v : (exists o, SyRect_from v = Ok o) <-> SyRect_reads v = true.
Proof. exact (when _ _ (SyRect_a v)). Qed.
Print Assumptions C48_SyRect.
Example C48_SyRect_reads : holds SyRect_reads "(rectangle (start 1 2) (end 1 2) (stroke ""x"") (fill))" = true. Proof. vm_compute. reflexivity. Qed.
Example C48_SyRect_refuses : refused SyRect_reads "(wrong)" = true. Proof. vm_compute. reflexivity. Qed.

Theorem C48_SyText v : (exists o, SyText_from v = Ok o) <-> SyText_reads v = true.
Proof. exact (when _ _ (SyText_a v)). Qed.
Print Assumptions C48_SyText.
Example C48_SyText_reads : holds SyText_reads "(text ""x"" (at 1 2) (effects))" = true. Proof. vm_compute. reflexivity. Qed.
Example C48_SyText_refuses : refused SyText_reads "(wrong ""x"")" = true. Proof. vm_compute. reflexivity. Qed.

Theorem C48_SyTextBox v : (exists o, SyTextBox_from v = Ok o) <-> SyTextBox_reads v = true.
Proof. exact (when _ _ (SyTextBox_a v)). Qed.
Print Assumptions C48_SyTextBox.
Example C48_SyTextBox_reads : holds SyTextBox_reads "(text_box private ""t"" (at 1 2) (size 1 2) (effects) (stroke ""x"") (fill) (uuid 1))" = true. Proof. vm_compute. reflexivity. Qed.
Example C48_SyTextBox_refuses : refused SyTextBox_reads "(text_box private ""t"" (at 1 2) (size 1 2) (effects) (stroke ""x"") (fill) (uuid))" = true. Proof. vm_compute. reflexivity. Qed.

Theorem C48_SymbolAlternativePin v : (exists o, SymbolAlternativePin_from v = Ok o) <-> SymbolAlternativePin_reads v = true.
Proof. exact (when _ _ (SymbolAlternativePin_a v)). Qed.
Print Assumptions C48_SymbolAlternativePin.
Example C48_SymbolAlternativePin_reads : holds SymbolAlternativePin_reads "(alternate ""a"" input line)" = true. Proof. vm_compute. reflexivity. Qed.
Example C48_SymbolAlternativePin_refuses : refused SymbolAlternativePin_reads "(alternate ""a"" input)" = true. Proof. vm_compute. reflexivity. Qed.

Theorem C48_SymbolPin v : (exists o, SymbolPin_from v = Ok o) <-> SymbolPin_reads v = true.
Proof. exact (when _ _ (SymbolPin_a v)). Qed.
Print Assumptions C48_SymbolPin.
Example C48_SymbolPin_reads : holds SymbolPin_reads "(pin ""x"" ""x"" (at 1 2) (length 1) (name ""n"" (effects)) (number ""n"" (effects)) (alternate ""x"" ""x"" ""x""))" = true. Proof. vm_compute. reflexivity. Qed.
Example C48_SymbolPin_refuses : refused SymbolPin_reads "(pin ""x"" ""x"" (at 1 2) (length 1) (name ""n"" (effects)) (number ""n"" (effects)) (alternate))" = true. Proof. vm_compute. reflexivity. Qed.

Theorem C48_Symbol v : (exists o, Symbol_from v = Ok o) <-> Symbol_reads v = true.
Proof. exact (when _ _ (Symbol_a v)). Qed.
Print Assumptions C48_Symbol.
Example C48_Symbol_reads : holds Symbol_reads "(symbol ""R"" (extends 1) (pin_numbers 1) (pin_names hide (offset 1)) (in_bom 1) (on_board 1) (power) (property ""x"" ""x"") (pin ""x"" ""x"") (arc) (circle) (curve) (polyline) (rectangle) (text ""x"") (text_box ""t"") (symbol ""R_1_1"" (pin input line)))" = true. Proof. vm_compute. reflexivity. Qed.
Example C48_Symbol_refuses : refused Symbol_reads "(symbol ""R"" (extends 1) (pin_numbers 1) (pin_names hide (offset 1)) (in_bom 1) (on_board 1) (power) (property ""x"" ""x"") (pin ""x"" ""x"") (arc) (circle) (curve) (polyline) (rectangle) (text ""x"") (text_box ""t"") (symbol))" = true. Proof. vm_compute. reflexivity. Qed.

Theorem C48_SymbolLib v : (exists o, SymbolLib_from v = Ok o) <-> SymbolLib_reads v = true.
Proof. exact (when _ _ (SymbolLib_a v)). Qed.
Print Assumptions C48_SymbolLib.
Example C48_SymbolLib_reads : holds SymbolLib_reads "(kicad_symbol_lib (version 1) (generator 1) (symbol ""R""))" = true. Proof. vm_compute. reflexivity. Qed.
Example C48_SymbolLib_refuses : refused SymbolLib_reads "(kicad_symbol_lib (version 1) (generator 1) (symbol))" = true. Proof. vm_compute. reflexivity. Qed.

Theorem C48_FpText v : (exists o, FpText_from v = Ok o) <-> FpText_reads v = true.
Proof. exact (when _ _ (FpText_a v)). Qed.
Print Assumptions C48_FpText.
Example C48_FpText_reads : holds FpText_reads "(fp_text ""x"" ""x"" (at 1 2) (layer 1) (effects) (tstamp 1) (render_cache ""x"" ""x""))" = true. Proof. vm_compute. reflexivity. Qed.
Example C48_FpText_refuses : refused FpText_reads "(fp_text ""x"" ""x"" (at 1 2) (layer 1) (effects) (tstamp 1) (render_cache))" = true. Proof. vm_compute. reflexivity. Qed.

Theorem C48_FpLine v : (exists o, FpLine_from v = Ok o) <-> FpLine_reads v = true.
Proof. exact (when _ _ (FpLine_a v)). Qed.
Print Assumptions C48_FpLine.
Example C48_FpLine_reads : holds FpLine_reads "(fp_line (start 1 2) (end 1 2) (layer 1) (tstamp 1) (width 1) (stroke ""x""))" = true. Proof. vm_compute. reflexivity. Qed.
Example C48_FpLine_refuses : refused FpLine_reads "(fp_line (start 1 2) (end 1 2) (layer 1) (tstamp 1) (width 1) (stroke))" = true. Proof. vm_compute. reflexivity. Qed.

Theorem C48_FpRect v : (exists o, FpRect_from v = Ok o) <-> FpRect_reads v = true.
Proof. exact (when _ _ (FpRect_a v)). Qed.
Print Assumptions C48_FpRect.
Example C48_FpRect_reads : holds FpRect_reads "(fp_rect (start 1 2) (end 1 2) (layer 1) (tstamp 1) (fill 1) (width 1) (stroke ""x""))" = true. Proof. vm_compute. reflexivity. Qed.
Example C48_FpRect_refuses : refused FpRect_reads "(fp_rect (start 1 2) (end 1 2) (layer 1) (tstamp 1) (fill 1) (width 1) (stroke))" = true. Proof. vm_compute. reflexivity. Qed.

Theorem C48_FpTextBox v : (exists o, FpTextBox_from v = Ok o) <-> FpTextBox_reads v = true.
Proof. exact (when _ _ (FpTextBox_a v)). Qed.
Print Assumptions C48_FpTextBox.
Example C48_FpTextBox_reads : holds FpTextBox_reads "(fp_text_box locked ""t"" (start 1 2) (end 1 2) (pts (xy 1 2) (xy 1 2)) (angle 1) (layer 1) (tstamp 1) (effects) (stroke ""x"") (render_cache ""x"" ""x""))" = true. Proof. vm_compute. reflexivity. Qed.
Example C48_FpTextBox_refuses : refused FpTextBox_reads "(fp_text_box locked ""t"" (start 1 2) (end 1 2) (pts (xy 1 2) (xy 1 2)) (angle 1) (layer 1) (tstamp 1) (effects) (stroke ""x"") (render_cache))" = true. Proof. vm_compute. reflexivity. Qed.

Theorem C48_FpCircle v : (exists o, FpCircle_from v = Ok o) <-> FpCircle_reads v = true.
Proof. exact (when _ _ (FpCircle_a v)). Qed.
Print Assumptions C48_FpCircle.
Example C48_FpCircle_reads : holds FpCircle_reads "(fp_circle (center 1 2) (end 1 2) (layer 1) (tstamp 1) (fill 1) (width 1) (stroke ""x""))" = true. Proof. vm_compute. reflexivity. Qed.
Example C48_FpCircle_refuses : refused FpCircle_reads "(fp_circle (center 1 2) (end 1 2) (layer 1) (tstamp 1) (fill 1) (width 1) (stroke))" = true. Proof. vm_compute. reflexivity. Qed.

Theorem C48_FpArc v : (exists o, FpArc_from v = Ok o) <-> FpArc_reads v = true.
Proof. exact (when _ _ (FpArc_a v)). Qed.
Print Assumptions C48_FpArc.
Example C48_FpArc_reads : holds FpArc_reads "(fp_arc (start 1 2) (mid 1 2) (end 1 2) (layer 1) (tstamp 1) (width 1) (stroke ""x""))" = true. Proof. vm_compute. reflexivity. Qed.
Example C48_FpArc_refuses : refused FpArc_reads "(fp_arc (start 1 2) (mid 1 2) (end 1 2) (layer 1) (tstamp 1) (width 1) (stroke))" = true. Proof. vm_compute. reflexivity. Qed.

Theorem C48_FpPoly v : (exists o, FpPoly_from v = Ok o) <-> FpPoly_reads v = true.
Proof. exact (when _ _ (FpPoly_a v)). Qed.
Print Assumptions C48_FpPoly.
Example C48_FpPoly_reads : holds FpPoly_reads "(fp_poly (pts (xy 1 2) (xy 1 2)) (layer 1) (tstamp 1) (fill 1) (width 1) (stroke ""x""))" = true. Proof. vm_compute. reflexivity. Qed.
Example C48_FpPoly_refuses : refused FpPoly_reads "(fp_poly (pts (xy 1 2) (xy 1 2)) (layer 1) (tstamp 1) (fill 1) (width 1) (stroke))" = true. Proof. vm_compute. reflexivity. Qed.

Theorem C48_FpCurve v : (exists o, FpCurve_from v = Ok o) <-> FpCurve_reads v = true.
Proof. exact (when _ _ (FpCurve_a v)). Qed.
Print Assumptions C48_FpCurve.
Example C48_FpCurve_reads : holds FpCurve_reads "(fp_curve (pts (xy 1 2) (xy 1 2)) (layer 1) (tstamp 1) (width 1) (stroke ""x""))" = true. Proof. vm_compute. reflexivity. Qed.
Example C48_FpCurve_refuses : refused FpCurve_reads "(fp_curve (pts (xy 1 2) (xy 1 2)) (layer 1) (tstamp 1) (width 1) (stroke))" = true. Proof. vm_compute. reflexivity. Qed.

Theorem C48_GrText v : (exists o, GrText_from v = Ok o) <-> GrText_reads v = true.
Proof. exact (when _ _ (GrText_a v)). Qed.
Print Assumptions C48_GrText.
Example C48_GrText_reads : holds GrText_reads "(gr_text ""x"" (at 1 2) (layer 1) (effects) (tstamp 1) (render_cache ""x"" ""x""))" = true. Proof. vm_compute. reflexivity. Qed.
Example C48_GrText_refuses : refused GrText_reads "(gr_text ""x"" (at 1 2) (layer 1) (effects) (tstamp 1) (render_cache))" = true. Proof. vm_compute. reflexivity. Qed.

Theorem C48_GrTextBox v : (exists o, GrTextBox_from v = Ok o) <-> GrTextBox_reads v = true.
Proof. exact (when _ _ (GrTextBox_a v)). Qed.
Print Assumptions C48_GrTextBox.
Example C48_GrTextBox_reads : holds GrTextBox_reads "(gr_text_box locked ""t"" (start 1 2) (end 1 2) (pts (xy 1 2) (xy 1 2)) (angle 1) (layer 1) (tstamp 1) (effects) (stroke ""x"") (render_cache ""x"" ""x""))" = true. Proof. vm_compute. reflexivity. Qed.
Example C48_GrTextBox_refuses : refused GrTextBox_reads "(gr_text_box locked ""t"" (start 1 2) (end 1 2) (pts (xy 1 2) (xy 1 2)) (angle 1) (layer 1) (tstamp 1) (effects) (stroke ""x"") (render_cache))" = true. Proof. vm_compute. reflexivity. Qed.

Theorem C48_GrLine v : (exists o, GrLine_from v = Ok o) <-> GrLine_reads v = true.
Proof. exact (when _ _ (GrLine_a v)). Qed.
Print Assumptions C48_GrLine.
Example C48_GrLine_reads : holds GrLine_reads "(gr_line (start 1 2) (end 1 2) (layer 1) (tstamp 1) (width 1))" = true. Proof. vm_compute. reflexivity. Qed.
Example C48_GrLine_refuses : refused GrLine_reads "(gr_line (start 1 2) (end 1 2) (layer 1) (tstamp 1) (width))" = true. Proof. vm_compute. reflexivity. Qed.

Theorem C48_GrRect v : (exists o, GrRect_from v = Ok o) <-> GrRect_reads v = true.
Proof. exact (when _ _ (GrRect_a v)). Qed.
Print Assumptions C48_GrRect.
Example C48_GrRect_reads : holds GrRect_reads "(gr_rect (start 1 2) (end 1 2) (layer 1) (tstamp 1) (fill 1) (width 1))" = true. Proof. vm_compute. reflexivity. Qed.
Example C48_GrRect_refuses : refused GrRect_reads "(gr_rect (start 1 2) (end 1 2) (layer 1) (tstamp 1) (fill 1) (width))" = true. Proof. vm_compute. reflexivity. Qed.

Theorem C48_GrCircle v : (exists o, GrCircle_from v = Ok o) <-> GrCircle_reads v = true.
Proof. exact (when _ _ (GrCircle_a v)). Qed.
Print Assumptions C48_GrCircle.
Example C48_GrCircle_reads : holds GrCircle_reads "(gr_circle (center 1 2) (end 1 2) (layer 1) (tstamp 1) (fill 1) (width 1))" = true. Proof. vm_compute. reflexivity. Qed.
Example C48_GrCircle_refuses : refused GrCircle_reads "(gr_circle (center 1 2) (end 1 2) (layer 1) (tstamp 1) (fill 1) (width))" = true. Proof. vm_compute. reflexivity. Qed.

Theorem C48_GrArc v : (exists o, GrArc_from v = Ok o) <-> GrArc_reads v = true.
Proof. exact (when _ _ (GrArc_a v)). Qed.
Print Assumptions C48_GrArc.
Example C48_GrArc_reads : holds GrArc_reads "(gr_arc (start 1 2) (mid 1 2) (end 1 2) (layer 1) (tstamp 1) (width 1))" = true. Proof. vm_compute. reflexivity. Qed.
Example C48_GrArc_refuses : refused GrArc_reads "(gr_arc (start 1 2) (mid 1 2) (end 1 2) (layer 1) (tstamp 1) (width))" = true. Proof. vm_compute. reflexivity. Qed.

Theorem C48_GrPoly v : (exists o, GrPoly_from v = Ok o) <-> GrPoly_reads v = true.
Proof. exact (when _ _ (GrPoly_a v)). Qed.
Print Assumptions C48_GrPoly.
Example C48_GrPoly_reads : holds GrPoly_reads "(gr_poly (pts (xy 1 2) (xy 1 2)) (layer 1) (tstamp 1) (fill 1) (width 1))" = true. Proof. vm_compute. reflexivity. Qed.
Example C48_GrPoly_refuses : refused GrPoly_reads "(gr_poly (pts (xy 1 2) (xy 1 2)) (layer 1) (tstamp 1) (fill 1) (width))" = true. Proof. vm_compute. reflexivity. Qed.

Theorem C48_GrCurve v : (exists o, GrCurve_from v = Ok o) <-> GrCurve_reads v = true.
Proof. exact (when _ _ (GrCurve_a v)). Qed.
Print Assumptions C48_GrCurve.
Example C48_GrCurve_reads : holds GrCurve_reads "(gr_curve (pts (xy 1 2) (xy 1 2)) (layer 1) (tstamp 1) (width 1))" = true. Proof. vm_compute. reflexivity. Qed.
Example C48_GrCurve_refuses : refused GrCurve_reads "(gr_curve (pts (xy 1 2) (xy 1 2)) (layer 1) (tstamp 1) (width))" = true. Proof. vm_compute. reflexivity. Qed.

Theorem C48_KeepoutSettings v : (exists o, KeepoutSettings_from v = Ok o) <-> KeepoutSettings_reads v = true.
Proof. exact (when _ _ (KeepoutSettings_a v)). Qed.
Print Assumptions C48_KeepoutSettings.
Example C48_KeepoutSettings_reads : holds KeepoutSettings_reads "(keepout (tracks 1) (vias 1) (pads 1) (copperpour 1) (footprints 1))" = true. Proof. vm_compute. reflexivity. Qed.
Example C48_KeepoutSettings_refuses : refused KeepoutSettings_reads "(keepout (tracks 1) (vias 1) (pads 1) (copperpour 1) (footprints))" = true. Proof. vm_compute. reflexivity. Qed.

Theorem C48_FillSettings v : (exists o, FillSettings_from v = Ok o) <-> FillSettings_reads v = true.
Proof. exact (when _ _ (FillSettings_a v)). Qed.
Print Assumptions C48_FillSettings.
Example C48_FillSettings_reads : holds FillSettings_reads "(fill (mode 1) (thermal_gap 1) (thermal_bridge_width 1) (smoothing 1) (radius 1) (island_removal_mode 1) (island_area_min 1) (hatch_thickness 1) (hatch_gap 1) (hatch_orientation 1) (hatch_smoothing_level 1) (hatch_smoothing_value 1) (hatch_border_algorithm 1) (hatch_min_hole_area 1))" = true. Proof. vm_compute. reflexivity. Qed.
Example C48_FillSettings_refuses : refused FillSettings_reads "(fill (mode 1) (thermal_gap 1) (thermal_bridge_width 1) (smoothing 1) (radius 1) (island_removal_mode 1) (island_area_min 1) (hatch_thickness 1) (hatch_gap 1) (hatch_orientation 1) (hatch_smoothing_level 1) (hatch_smoothing_value 1) (hatch_border_algorithm 1) (hatch_min_hole_area))" = true. Proof. vm_compute. reflexivity. Qed.

Theorem C48_ZonePolygon v : (exists o, ZonePolygon_from v = Ok o) <-> ZonePolygon_reads v = true.
Proof. exact (when _ _ (ZonePolygon_a v)). Qed.
Print Assumptions C48_ZonePolygon.
Example C48_ZonePolygon_reads : holds ZonePolygon_reads "(polygon (pts (xy 1 2) (xy 1 2)))" = true. Proof. vm_compute. reflexivity. Qed.
Example C48_ZonePolygon_refuses : refused ZonePolygon_reads "(polygon (pts 1))" = true. Proof. vm_compute. reflexivity. Qed.

Theorem C48_FilledPolygon v : (exists o, FilledPolygon_from v = Ok o) <-> FilledPolygon_reads v = true.
Proof. exact (when _ _ (FilledPolygon_a v)). Qed.
Print Assumptions C48_FilledPolygon.
Example C48_FilledPolygon_reads : holds FilledPolygon_reads "(filled_polygon (layer 1) (island) (pts (xy 1 2) (xy 1 2)))" = true. Proof. vm_compute. reflexivity. Qed.
Example C48_FilledPolygon_refuses : refused FilledPolygon_reads "(filled_polygon (layer) (island) (pts (xy 1 2) (xy 1 2)))" = true. Proof. vm_compute. reflexivity. Qed.

Theorem C48_FillSegments v : (exists o, FillSegments_from v = Ok o) <-> FillSegments_reads v = true.
Proof. exact (when _ _ (FillSegments_a v)). Qed.
Print Assumptions C48_FillSegments.
Example C48_FillSegments_reads : holds FillSegments_reads "(fill_segments (layer 1) (pts (xy 1 2) (xy 1 2)))" = true. Proof. vm_compute. reflexivity. Qed.
Example C48_FillSegments_refuses : refused FillSegments_reads "(fill_segments (layer) (pts (xy 1 2) (xy 1 2)))" = true. Proof. vm_compute. reflexivity. Qed.

Theorem C48_Zone v : (exists o, Zone_from v = Ok o) <-> Zone_reads v = true.
Proof. exact (when _ _ (Zone_a v)). Qed.
Print Assumptions C48_Zone.
Example C48_Zone_reads : holds Zone_reads "(zone (net 1) (net_name 1) (layers) (layer) (tstamp 1) (name 1) (hatch 1 1) (priority 1) (connect_pads no (clearance 1)) (min_thickness 1) (filled_areas_thickness 1) (keepout) (fill) (polygon) (filled_polygon) (fill_segments))" = true. Proof. vm_compute. reflexivity. Qed.
Example C48_Zone_refuses : refused Zone_reads "(wrong)" = true. Proof. vm_compute. reflexivity. Qed.

Theorem C48_Attributes v : (exists o, Attributes_from v = Ok o) <-> Attributes_reads v = true.
Proof. exact (when _ _ (Attributes_a v)). Qed.
Print Assumptions C48_Attributes.
Example C48_Attributes_reads : holds Attributes_reads "(attr smd exclude_from_bom)" = true. Proof. vm_compute. reflexivity. Qed.
Example C48_Attributes_refuses : refused Attributes_reads "(attributes smd)" = true. Proof. vm_compute. reflexivity. Qed.

Theorem C48_Model v : (exists o, Model_from v = Ok o) <-> Model_reads v = true.
Proof. exact (when _ _ (Model_a v)). Qed.
Print Assumptions C48_Model.
Example C48_Model_reads : holds Model_reads "(model ""m"" (opacity 1) (offset (xyz 1 2 3)) (scale (xyz 1 2 3)) (rotate (xyz 1 2 3)))" = true. Proof. vm_compute. reflexivity. Qed.
Example C48_Model_refuses : refused Model_reads "(model ""m"" (offset (xyz 0 0)) (scale (xyz 1 1 1)) (rotate (xyz 0 0 0)))" = true. Proof. vm_compute. reflexivity. Qed.

Theorem C48_DrillDefinition v : (exists o, DrillDefinition_from v = Ok o) <-> DrillDefinition_reads v = true.
Proof. exact (when _ _ (DrillDefinition_a v)). Qed.
Print Assumptions C48_DrillDefinition.
Example C48_DrillDefinition_reads : holds DrillDefinition_reads "(drill oval 1 2 (offset 1 2))" = true. Proof. vm_compute. reflexivity. Qed.
Example C48_DrillDefinition_refuses : refused DrillDefinition_reads "(drill oval 1)" = true. Proof. vm_compute. reflexivity. Qed.

Theorem C48_PadOptions v : (exists o, PadOptions_from v = Ok o) <-> PadOptions_reads v = true.
Proof. exact (when _ _ (PadOptions_a v)). Qed.
Print Assumptions C48_PadOptions.
Example C48_PadOptions_reads : holds PadOptions_reads "(options (clearance 1) (anchor 1))" = true. Proof. vm_compute. reflexivity. Qed.
Example C48_PadOptions_refuses : refused PadOptions_reads "(options (clearance 1) (anchor))" = true. Proof. vm_compute. reflexivity. Qed.

Theorem C48_Pad v : (exists o, Pad_from v = Ok o) <-> Pad_reads v = true.
Proof. exact (when _ _ (Pad_a v)). Qed.
Print Assumptions C48_Pad.
Example C48_Pad_reads : holds Pad_reads "(pad ""x"" ""x"" ""x"" (at 1 2) (size 1 2) (drill 1) (layers) (property 1) (remove_unused_layers) (keep_end_layers) (roundrect_rratio 1) (chamfer_ratio 1) (chamfer) (net ""x"" ""x"") (tstamp 1) (pinfunction 1) (pintype 1) (die_length 1) (solder_mask_margin 1) (solder_paste_margin 1) (solder_paste_margin_ratio 1) (clearance 1) (zone_connect 1) (thermal_width 1) (thermal_gap 1) (options) (primitives (gr_line) (gr_circle)))" = true. Proof. vm_compute. reflexivity. Qed.
Example C48_Pad_refuses : refused Pad_reads "(wrong ""x"" ""x"" ""x"")" = true. Proof. vm_compute. reflexivity. Qed.

Theorem C48_Footprint now v : (exists o, Footprint_from now v = Ok o) <-> Footprint_reads v = true.
Proof. exact (when _ _ (Footprint_a now v)). Qed.
Print Assumptions C48_Footprint.
Example C48_Footprint_reads : holds Footprint_reads "(footprint ""x"" (version 1) (generator 1) (layer 1) (tedit 1) (tstamp 1) (descr 1) (tags 1) (path 1) (at 1 2) (autoplace_cost90 1) (autoplace_cost180 1) (solder_mask_margin 1) (solder_paste_margin 1) (solder_paste_ratio 1) (clearance 1) (zone_connect 1) (thermal_width 1) (thermal_gap 1) (attr smd) (model ""m"" (offset (xyz 0 0 0)) (scale (xyz 1 1 1)) (rotate (xyz 0 0 0))) (fp_text ""x"" ""x"") (fp_text_box ""t"") (fp_line) (fp_rect) (fp_circle) (fp_arc) (fp_poly) (fp_curve) (image) (pad ""x"" ""x"" ""x"") (zone) (property ""k"" ""v"") (group ""x"") (private_layers) (net_tie_pad_groups))" = true. Proof. vm_compute. reflexivity. Qed.
Example C48_Footprint_refuses : refused Footprint_reads "(footprint ""x"" (dimension 1))" = true. Proof. vm_compute. reflexivity. Qed.

Theorem C48_DimensionFormat v : (exists o, DimensionFormat_from v = Ok o) <-> DimensionFormat_reads v = true.
Proof. exact (when _ _ (DimensionFormat_a v)). Qed.
Print Assumptions C48_DimensionFormat.
Example C48_DimensionFormat_reads : holds DimensionFormat_reads "(format (prefix 1) (suffix 1) (units 1) (units_format 1) (precision 1) (override_value 1))" = true. Proof. vm_compute. reflexivity. Qed.
Example C48_DimensionFormat_refuses : refused DimensionFormat_reads "(format (prefix 1) (suffix 1) (units 1) (units_format 1) (precision 1) (override_value))" = true. Proof. vm_compute. reflexivity. Qed.

Theorem C48_DimensionStyle v : (exists o, DimensionStyle_from v = Ok o) <-> DimensionStyle_reads v = true.
Proof. exact (when _ _ (DimensionStyle_a v)). Qed.
Print Assumptions C48_DimensionStyle.
Example C48_DimensionStyle_reads : holds DimensionStyle_reads "(style (thickness 1) (arrow_length 1) (text_position_mode 1) (extension_height 1) (text_frame 1) (extension_offset 1))" = true. Proof. vm_compute. reflexivity. Qed.
Example C48_DimensionStyle_refuses : refused DimensionStyle_reads "(style (thickness 1) (arrow_length 1) (text_position_mode 1) (extension_height 1) (text_frame 1) (extension_offset))" = true. Proof. vm_compute. reflexivity. Qed.

Theorem C48_Dimension v : (exists o, Dimension_from v = Ok o) <-> Dimension_reads v = true.
Proof. exact (when _ _ (Dimension_a v)). Qed.
Print Assumptions C48_Dimension.
Example C48_Dimension_reads : holds Dimension_reads "(dimension (type 1) (layer 1) (tstamp 1) (height 1) (orientation 1) (leader_length 1) (gr_text ""x"") (format) (style) (pts (xy 1 2) (xy 1 2)))" = true. Proof. vm_compute. reflexivity. Qed.
Example C48_Dimension_refuses : refused Dimension_reads "(wrong)" = true. Proof. vm_compute. reflexivity. Qed.

Theorem C48_GeneralSettings v : (exists o, GeneralSettings_from v = Ok o) <-> GeneralSettings_reads v = true.
Proof. exact (when _ _ (GeneralSettings_a v)). Qed.
Print Assumptions C48_GeneralSettings.
Example C48_GeneralSettings_reads : holds GeneralSettings_reads "(general (thickness 1))" = true. Proof. vm_compute. reflexivity. Qed.
Example C48_GeneralSettings_refuses : refused GeneralSettings_reads "(general (thickness))" = true. Proof. vm_compute. reflexivity. Qed.

Theorem C48_LayerToken v : (exists o, LayerToken_from v = Ok o) <-> LayerToken_reads v = true.
Proof. exact (when _ _ (LayerToken_a v)). Qed.
Print Assumptions C48_LayerToken.
Example C48_LayerToken_reads : holds LayerToken_reads "(0 ""F.Cu"" signal ""top"")" = true. Proof. vm_compute. reflexivity. Qed.
Example C48_LayerToken_refuses : refused LayerToken_reads "(0 ""F.Cu"")" = true. Proof. vm_compute. reflexivity. Qed.

Theorem C48_StackupSubLayer v : ~ exists o, StackupSubLayer_from v = Ok o.
Proof. intros [o H]. discriminate H. Qed.
Print Assumptions C48_StackupSubLayer.

Theorem C48_StackupLayer v : (exists o, StackupLayer_from v = Ok o) <-> StackupLayer_reads v = true.
Proof. exact (when _ _ (StackupLayer_a v)). Qed.
Print Assumptions C48_StackupLayer.
Example C48_StackupLayer_reads : holds StackupLayer_reads "(layer ""d"" (type ""core"") (thickness 1) addsublayer (thickness 2))" = true. Proof. vm_compute. reflexivity. Qed.
Example C48_StackupLayer_refuses : refused StackupLayer_reads "(layer ""d"" (type))" = true. Proof. vm_compute. reflexivity. Qed.

Theorem C48_Stackup v : (exists o, Stackup_from v = Ok o) <-> Stackup_reads v = true.
Proof. exact (when _ _ (Stackup_a v)). Qed.
Print Assumptions C48_Stackup.
Example C48_Stackup_reads : holds Stackup_reads "(stackup (layer ""F.Cu"") (copper_finish 1) (dielectric_constraints 1) (edge_connector 1) (castellated_pads) (edge_plating))" = true. Proof. vm_compute. reflexivity. Qed.
Example C48_Stackup_refuses : refused Stackup_reads "(stackup (layer ""F.Cu"") (copper_finish 1) (dielectric_constraints 1) (edge_connector) (castellated_pads) (edge_plating))" = true. Proof. vm_compute. reflexivity. Qed.

Theorem C48_PlotSettings v : (exists o, PlotSettings_from v = Ok o) <-> PlotSettings_reads v = true.
Proof. exact (when _ _ (PlotSettings_a v)). Qed.
Print Assumptions C48_PlotSettings.
Example C48_PlotSettings_reads : holds PlotSettings_reads "(pcbplotparams (layerselection 1) (plot_on_all_layers_selection 1) (disableapertmacros 1) (usegerberextensions 1) (usegerberattributes 1) (usegerberadvancedattributes 1) (creategerberjobfile 1) (dashed_line_dash_ratio 1) (dashed_line_gap_ratio 1) (svguseinch 1) (svgprecision 1) (excludeedgelayer 1) (plotframeref 1) (viasonmask 1) (mode 1) (useauxorigin 1) (hpglpennumber 1) (hpglpenspeed 1) (hpglpendiameter 1) (dxfpolygonmode 1) (dxfimperialunits 1) (dxfusepcbnewfont 1) (psnegative 1) (psa4output 1) (plotreference 1) (plotvalue 1) (plotinvisibletext 1) (sketchpadsonfab 1) (subtractmaskfromsilk 1) (outputformat 1) (mirror 1) (drillshape 1) (scaleselection 1) (outputdirectory 1))" = true. Proof. vm_compute. reflexivity. Qed.
Example C48_PlotSettings_refuses : refused PlotSettings_reads "(pcbplotparams (layerselection 1) (plot_on_all_layers_selection 1) (disableapertmacros 1) (usegerberextensions 1) (usegerberattributes 1) (usegerberadvancedattributes 1) (creategerberjobfile 1) (dashed_line_dash_ratio 1) (dashed_line_gap_ratio 1) (svguseinch 1) (svgprecision 1) (excludeedgelayer 1) (plotframeref 1) (viasonmask 1) (mode 1) (useauxorigin 1) (hpglpennumber 1) (hpglpenspeed 1) (hpglpendiameter 1) (dxfpolygonmode 1) (dxfimperialunits 1) (dxfusepcbnewfont 1) (psnegative 1) (psa4output 1) (plotreference 1) (plotvalue 1) (plotinvisibletext 1) (sketchpadsonfab 1) (subtractmaskfromsilk 1) (outputformat 1) (mirror 1) (drillshape 1) (scaleselection 1) (outputdirectory))" = true. Proof. vm_compute. reflexivity. Qed.

Theorem C48_SetupData v : (exists o, SetupData_from v = Ok o) <-> SetupData_reads v = true.
Proof. exact (when _ _ (SetupData_a v)). Qed.
Print Assumptions C48_SetupData.
Example C48_SetupData_reads : holds SetupData_reads "(setup (stackup) (pcbplotparams) (pad_to_mask_clearance 1) (solder_mask_min_width 1) (pad_to_paste_clearance 1) (pad_to_paste_clearance_ratio 1) (aux_axis_origin 1 2) (grid_origin 1 2) (pcbplotparams))" = true. Proof. vm_compute. reflexivity. Qed.
Example C48_SetupData_refuses : refused SetupData_reads "(wrong)" = true. Proof. vm_compute. reflexivity. Qed.

Theorem C48_Segment v : (exists o, Segment_from v = Ok o) <-> Segment_reads v = true.
Proof. exact (when _ _ (Segment_a v)). Qed.
Print Assumptions C48_Segment.
Example C48_Segment_reads : holds Segment_reads "(segment (start 1 2) (end 1 2) (width 1) (layer 1) (net 1) (tstamp 1))" = true. Proof. vm_compute. reflexivity. Qed.
Example C48_Segment_refuses : refused Segment_reads "(segment (start 1 2) (end 1 2) (width 1) (layer 1) (net 1) (tstamp))" = true. Proof. vm_compute. reflexivity. Qed.

Theorem C48_Via v : (exists o, Via_from v = Ok o) <-> Via_reads v = true.
Proof. exact (when _ _ (Via_a v)). Qed.
Print Assumptions C48_Via.
Example C48_Via_reads : holds Via_reads "(via (at 1 2) (size 1) (drill 1) (layers) (remove_unused_layers) (keep_end_layers) (free) (net 1) (tstamp 1))" = true. Proof. vm_compute. reflexivity. Qed.
Example C48_Via_refuses : refused Via_reads "(via (at 1 2) (size 1) (drill 1) (layers) (remove_unused_layers) (keep_end_layers) (free) (net 1) (tstamp))" = true. Proof. vm_compute. reflexivity. Qed.

Theorem C48_Arc v : (exists o, Arc_from v = Ok o) <-> Arc_reads v = true.
Proof. exact (when _ _ (Arc_a v)). Qed.
Print Assumptions C48_Arc.
Example C48_Arc_reads : holds Arc_reads "(arc (start 1 2) (mid 1 2) (end 1 2) (width 1) (layer 1) (net 1) (tstamp 1))" = true. Proof. vm_compute. reflexivity. Qed.
Example C48_Arc_refuses : refused Arc_reads "(arc (start 1 2) (mid 1 2) (end 1 2) (width 1) (layer 1) (net 1) (tstamp))" = true. Proof. vm_compute. reflexivity. Qed.

Theorem C48_Target v : (exists o, Target_from v = Ok o) <-> Target_reads v = true.
Proof. exact (when _ _ (Target_a v)). Qed.
Print Assumptions C48_Target.
Example C48_Target_reads : holds Target_reads "(target ""x"" (at 1 2) (size 1) (width 1) (layer 1) (tstamp 1))" = true. Proof. vm_compute. reflexivity. Qed.
Example C48_Target_refuses : refused Target_reads "(target ""x"" (at 1 2) (size 1) (width 1) (layer 1) (tstamp))" = true. Proof. vm_compute. reflexivity. Qed.

Theorem C48_Board now v : (exists o, Board_from now v = Ok o) <-> Board_reads v = true.
Proof. exact (when _ _ (Board_a now v)). Qed.
Print Assumptions C48_Board.
Example C48_Board_reads : holds Board_reads "(kicad_pcb (version 1) (generator 1) (general) (paper ""A4"") (title_block) (layers (0 ""F.Cu"" signal) (0 ""F.Cu"" signal)) (setup) (property ""k"" ""v"") (net ""x"" ""x"") (footprint ""x"") (gr_text ""x"") (gr_text_box ""t"") (gr_line) (gr_rect) (gr_circle) (gr_arc) (gr_poly) (gr_curve) (image) (dimension) (target ""x"") (segment) (arc) (via) (zone) (group ""x""))" = true. Proof. vm_compute. reflexivity. Qed.
Example C48_Board_refuses : refused Board_reads "(kicad_pcb (version 1) (generator 1) (general) (paper ""A4"") (title_block) (layers (0 ""F.Cu"" signal) (0 ""F.Cu"" signal)) (setup) (property ""k"" ""v"") (net ""x"" ""x"") (footprint ""x"") (gr_text ""x"") (gr_text_box ""t"") (gr_line) (gr_rect) (gr_circle) (gr_arc) (gr_poly) (gr_curve) (image) (dimension) (target ""x"") (segment) (arc) (via) (zone) (group))" = true. Proof. vm_compute. reflexivity. Qed.

Theorem C48_Junction v : (exists o, Junction_from v = Ok o) <-> Junction_reads v = true.
Proof. exact (when _ _ (Junction_a v)). Qed.
Print Assumptions C48_Junction.
Example C48_Junction_reads : holds Junction_reads "(junction (at 1 2) (color 1 2 3 4) (diameter 1) (uuid 1))" = true. Proof. vm_compute. reflexivity. Qed.
Example C48_Junction_refuses : refused Junction_reads "(junction (at 1 2) (color 1 2 3 4) (diameter 1) (uuid))" = true. Proof. vm_compute. reflexivity. Qed.

Theorem C48_NoConnect v : (exists o, NoConnect_from v = Ok o) <-> NoConnect_reads v = true.
Proof. exact (when _ _ (NoConnect_a v)). Qed.
Print Assumptions C48_NoConnect.
Example C48_NoConnect_reads : holds NoConnect_reads "(no_connect (at 1 2) (uuid 1))" = true. Proof. vm_compute. reflexivity. Qed.
Example C48_NoConnect_refuses : refused NoConnect_reads "(no_connect (at 1 2) (uuid))" = true. Proof. vm_compute. reflexivity. Qed.

Theorem C48_BusEntry v : (exists o, BusEntry_from v = Ok o) <-> BusEntry_reads v = true.
Proof. exact (when _ _ (BusEntry_a v)). Qed.
Print Assumptions C48_BusEntry.
Example C48_BusEntry_reads : holds BusEntry_reads "(bus_entry (at 1 2) (stroke ""x"") (size 1 2) (uuid 1))" = true. Proof. vm_compute. reflexivity. Qed.
Example C48_BusEntry_refuses : refused BusEntry_reads "(bus_entry (at 1 2) (stroke ""x"") (size 1 2) (uuid))" = true. Proof. vm_compute. reflexivity. Qed.

Theorem C48_BusAlias v : (exists o, BusAlias_from v = Ok o) <-> BusAlias_reads v = true.
Proof. exact (when _ _ (BusAlias_a v)). Qed.
Print Assumptions C48_BusAlias.
Example C48_BusAlias_reads : holds BusAlias_reads "(bus_alias ""B"" (members ""a"" ""b""))" = true. Proof. vm_compute. reflexivity. Qed.
Example C48_BusAlias_refuses : refused BusAlias_reads "(bus_alias ""B"" ""a"")" = true. Proof. vm_compute. reflexivity. Qed.

Theorem C48_Connection v : (exists o, Connection_from v = Ok o) <-> Connection_reads v = true.
Proof. exact (when _ _ (Connection_a v)). Qed.
Print Assumptions C48_Connection.
Example C48_Connection_reads : holds Connection_reads "(bus (pts (xy 1 2) (xy 1 2)) (stroke ""x"") (uuid 1))" = true. Proof. vm_compute. reflexivity. Qed.
Example C48_Connection_refuses : refused Connection_reads "(bus (pts (xy 1 2) (xy 1 2)) (stroke ""x"") (uuid))" = true. Proof. vm_compute. reflexivity. Qed.

Theorem C48_PolyLine v : (exists o, PolyLine_from v = Ok o) <-> PolyLine_reads v = true.
Proof. exact (when _ _ (PolyLine_a v)). Qed.
Print Assumptions C48_PolyLine.
Example C48_PolyLine_reads : holds PolyLine_reads "(polyline (pts (xy 1 2) (xy 1 2)) (stroke ""x"") (uuid 1))" = true. Proof. vm_compute. reflexivity. Qed.
Example C48_PolyLine_refuses : refused PolyLine_reads "(polyline (pts (xy 1 2) (xy 1 2)) (stroke ""x"") (uuid))" = true. Proof. vm_compute. reflexivity. Qed.

Theorem C48_Text v : (exists o, Text_from v = Ok o) <-> Text_reads v = true.
Proof. exact (when _ _ (Text_a v)). Qed.
Print Assumptions C48_Text.
Example C48_Text_reads : holds Text_reads "(text ""x"" (at 1 2) (effects) (uuid 1))" = true. Proof. vm_compute. reflexivity. Qed.
Example C48_Text_refuses : refused Text_reads "(text ""x"" (at 1 2) (effects) (uuid))" = true. Proof. vm_compute. reflexivity. Qed.

Theorem C48_TextBox v : (exists o, TextBox_from v = Ok o) <-> TextBox_reads v = true.
Proof. exact (when _ _ (TextBox_a v)). Qed.
Print Assumptions C48_TextBox.
Example C48_TextBox_reads : holds TextBox_reads "(text_box ""x"" (at 1 2) (size 1 2) (effects) (stroke ""x"") (fill) (uuid 1))" = true. Proof. vm_compute. reflexivity. Qed.
Example C48_TextBox_refuses : refused TextBox_reads "(text_box ""x"" (at 1 2) (size 1 2) (effects) (stroke ""x"") (fill) (uuid))" = true. Proof. vm_compute. reflexivity. Qed.

Theorem C48_LocalLabel v : (exists o, LocalLabel_from v = Ok o) <-> LocalLabel_reads v = true.
Proof. exact (when _ _ (LocalLabel_a v)). Qed.
Print Assumptions C48_LocalLabel.
Example C48_LocalLabel_reads : holds LocalLabel_reads "(label ""x"" (at 1 2) (effects) (uuid 1) (fields_autoplaced))" = true. Proof. vm_compute. reflexivity. Qed.
Example C48_LocalLabel_refuses : refused LocalLabel_reads "(label ""x"" (at 1 2) (effects) (uuid) (fields_autoplaced))" = true. Proof. vm_compute. reflexivity. Qed.

Theorem C48_GlobalLabel v : (exists o, GlobalLabel_from v = Ok o) <-> GlobalLabel_reads v = true.
Proof. exact (when _ _ (GlobalLabel_a v)). Qed.
Print Assumptions C48_GlobalLabel.
Example C48_GlobalLabel_reads : holds GlobalLabel_reads "(global_label ""x"" (fields_autoplaced) (at 1 2) (effects) (property ""x"" ""x"") (shape 1) (uuid 1))" = true. Proof. vm_compute. reflexivity. Qed.
Example C48_GlobalLabel_refuses : refused GlobalLabel_reads "(global_label ""x"" (fields_autoplaced) (at 1 2) (effects) (property ""x"" ""x"") (shape 1) (uuid))" = true. Proof. vm_compute. reflexivity. Qed.

Theorem C48_HierarchicalLabel v : (exists o, HierarchicalLabel_from v = Ok o) <-> HierarchicalLabel_reads v = true.
Proof. exact (when _ _ (HierarchicalLabel_a v)). Qed.
Print Assumptions C48_HierarchicalLabel.
Example C48_HierarchicalLabel_reads : holds HierarchicalLabel_reads "(hierarchical_label ""x"" (at 1 2) (effects) (shape 1) (uuid 1) (fields_autoplaced))" = true. Proof. vm_compute. reflexivity. Qed.
Example C48_HierarchicalLabel_refuses : refused HierarchicalLabel_reads "(hierarchical_label ""x"" (at 1 2) (effects) (shape 1) (uuid) (fields_autoplaced))" = true. Proof. vm_compute. reflexivity. Qed.

Theorem C48_SymbolProjectPath v : (exists o, SymbolProjectPath_from v = Ok o) <-> SymbolProjectPath_reads v = true.
Proof. exact (when _ _ (SymbolProjectPath_a v)). Qed.
Print Assumptions C48_SymbolProjectPath.
Example C48_SymbolProjectPath_reads : holds SymbolProjectPath_reads "(path ""x"" (reference 1) (unit 1))" = true. Proof. vm_compute. reflexivity. Qed.
Example C48_SymbolProjectPath_refuses : refused SymbolProjectPath_reads "(path ""x"" (reference 1) (unit))" = true. Proof. vm_compute. reflexivity. Qed.

Theorem C48_SymbolProjectInstance v : (exists o, SymbolProjectInstance_from v = Ok o) <-> SymbolProjectInstance_reads v = true.
Proof. exact (when _ _ (SymbolProjectInstance_a v)). Qed.
Print Assumptions C48_SymbolProjectInstance.
Example C48_SymbolProjectInstance_reads : holds SymbolProjectInstance_reads "(project ""x"" (path ""x""))" = true. Proof. vm_compute. reflexivity. Qed.
Example C48_SymbolProjectInstance_refuses : refused SymbolProjectInstance_reads "(project ""x"" (path))" = true. Proof. vm_compute. reflexivity. Qed.

Theorem C48_SchematicSymbol v : (exists o, SchematicSymbol_from v = Ok o) <-> SchematicSymbol_reads v = true.
Proof. exact (when _ _ (SchematicSymbol_a v)). Qed.
Print Assumptions C48_SchematicSymbol.
Example C48_SchematicSymbol_reads : holds SchematicSymbol_reads "(symbol (fields_autoplaced) (lib_id ""Device:R"") (lib_name 1) (uuid 1) (unit 1) (in_bom 1) (on_board 1) (dnp 1) (at 1 2) (property ""x"" ""x"") (pin ""1"" (uuid u)) (mirror 1) (instances (project ""x"") (project ""x"")))" = true. Proof. vm_compute. reflexivity. Qed.
Example C48_SchematicSymbol_refuses : refused SchematicSymbol_reads "(symbol (fields_autoplaced) (lib_id ""Device:R"") (lib_name 1) (uuid 1) (unit 1) (in_bom 1) (on_board 1) (dnp 1) (at 1 2) (property ""x"" ""x"") (pin ""1"" (uuid u)) (mirror) (instances (project ""x"") (project ""x"")))" = true. Proof. vm_compute. reflexivity. Qed.

Theorem C48_HierarchicalPin v : (exists o, HierarchicalPin_from v = Ok o) <-> HierarchicalPin_reads v = true.
Proof. exact (when _ _ (HierarchicalPin_a v)). Qed.
Print Assumptions C48_HierarchicalPin.
Example C48_HierarchicalPin_reads : holds HierarchicalPin_reads "(pin ""x"" ""x"" (at 1 2) (effects) (uuid 1))" = true. Proof. vm_compute. reflexivity. Qed.
Example C48_HierarchicalPin_refuses : refused HierarchicalPin_reads "(pin ""x"" ""x"" (at 1 2) (effects) (uuid))" = true. Proof. vm_compute. reflexivity. Qed.

Theorem C48_HierarchicalSheetProjectPath v : (exists o, HierarchicalSheetProjectPath_from v = Ok o) <-> HierarchicalSheetProjectPath_reads v = true.
Proof. exact (when _ _ (HierarchicalSheetProjectPath_a v)). Qed.
Print Assumptions C48_HierarchicalSheetProjectPath.
Example C48_HierarchicalSheetProjectPath_reads : holds HierarchicalSheetProjectPath_reads "(path ""x"" (page 1))" = true. Proof. vm_compute. reflexivity. Qed.
Example C48_HierarchicalSheetProjectPath_refuses : refused HierarchicalSheetProjectPath_reads "(path ""x"" (page))" = true. Proof. vm_compute. reflexivity. Qed.

Theorem C48_HierarchicalSheetProjectInstance v : (exists o, HierarchicalSheetProjectInstance_from v = Ok o) <-> HierarchicalSheetProjectInstance_reads v = true.
Proof. exact (when _ _ (HierarchicalSheetProjectInstance_a v)). Qed.
Print Assumptions C48_HierarchicalSheetProjectInstance.
Example C48_HierarchicalSheetProjectInstance_reads : holds HierarchicalSheetProjectInstance_reads "(project ""x"" (path ""x""))" = true. Proof. vm_compute. reflexivity. Qed.
Example C48_HierarchicalSheetProjectInstance_refuses : refused HierarchicalSheetProjectInstance_reads "(project ""x"" (path))" = true. Proof. vm_compute. reflexivity. Qed.

Theorem C48_HierarchicalSheet v : (exists o, HierarchicalSheet_from v = Ok o) <-> HierarchicalSheet_reads v = true.
Proof. exact (when _ _ (HierarchicalSheet_a v)). Qed.
Print Assumptions C48_HierarchicalSheet.
Example C48_HierarchicalSheet_reads : holds HierarchicalSheet_reads "(sheet (fields_autoplaced) (at 1 2) (stroke ""x"") (size 1 1) (fill (color 1 2 3 4)) (uuid 1) (property ""x"" ""x"") (pin ""x"" ""x"") (instances (project ""x"") (project ""x"")))" = true. Proof. vm_compute. reflexivity. Qed.
Example C48_HierarchicalSheet_refuses : refused HierarchicalSheet_reads "(sheet (fields_autoplaced) (at 1 2) (stroke ""x"") (size 1 1) (fill (color 1 2 3 4)) (uuid 1) (property ""x"" ""x"") (pin) (instances (project ""x"") (project ""x"")))" = true. Proof. vm_compute. reflexivity. Qed.

Theorem C48_HierarchicalSheetInstance v : (exists o, HierarchicalSheetInstance_from v = Ok o) <-> HierarchicalSheetInstance_reads v = true.
Proof. exact (when _ _ (HierarchicalSheetInstance_a v)). Qed.
Print Assumptions C48_HierarchicalSheetInstance.
Example C48_HierarchicalSheetInstance_reads : holds HierarchicalSheetInstance_reads "(path ""x"" (page 1))" = true. Proof. vm_compute. reflexivity. Qed.
Example C48_HierarchicalSheetInstance_refuses : refused HierarchicalSheetInstance_reads "(path ""x"" (page))" = true. Proof. vm_compute. reflexivity. Qed.

Theorem C48_SymbolInstance v : (exists o, SymbolInstance_from v = Ok o) <-> SymbolInstance_reads v = true.
Proof. exact (when _ _ (SymbolInstance_a v)). Qed.
Print Assumptions C48_SymbolInstance.
Example C48_SymbolInstance_reads : holds SymbolInstance_reads "(path ""x"" (reference 1) (unit 1) (value 1) (footprint 1))" = true. Proof. vm_compute. reflexivity. Qed.
Example C48_SymbolInstance_refuses : refused SymbolInstance_reads "(path ""x"" (reference 1) (unit 1) (value 1) (footprint))" = true. Proof. vm_compute. reflexivity. Qed.

Theorem C48_Rectangle v : (exists o, Rectangle_from v = Ok o) <-> Rectangle_reads v = true.
Proof. exact (when _ _ (Rectangle_a v)). Qed.
Print Assumptions C48_Rectangle.
Example C48_Rectangle_reads : holds Rectangle_reads "(rectangle (start 1 2) (end 1 2) (stroke ""x"") (fill) (uuid 1))" = true. Proof. vm_compute. reflexivity. Qed.
Example C48_Rectangle_refuses : refused Rectangle_reads "(rectangle (start 1 2) (end 1 2) (stroke ""x"") (fill) (uuid))" = true. Proof. vm_compute. reflexivity. Qed.

Theorem C48_SchArc v : (exists o, SchArc_from v = Ok o) <-> SchArc_reads v = true.
Proof. exact (when _ _ (SchArc_a v)). Qed.
Print Assumptions C48_SchArc.
Example C48_SchArc_reads : holds SchArc_reads "(arc (start 1 2) (mid 1 2) (end 1 2) (stroke ""x"") (fill) (uuid 1))" = true. Proof. vm_compute. reflexivity. Qed.
Example C48_SchArc_refuses : refused SchArc_reads "(arc (start 1 2) (mid 1 2) (end 1 2) (stroke ""x"") (fill) (uuid))" = true. Proof. vm_compute. reflexivity. Qed.

Theorem C48_Circle v : (exists o, Circle_from v = Ok o) <-> Circle_reads v = true.
Proof. exact (when _ _ (Circle_a v)). Qed.
Print Assumptions C48_Circle.
Example C48_Circle_reads : holds Circle_reads "(circle (center 1 2) (radius 1) (stroke ""x"") (fill) (uuid 1))" = true. Proof. vm_compute. reflexivity. Qed.
Example C48_Circle_refuses : refused Circle_reads "(circle (center 1 2) (radius 1) (stroke ""x"") (fill) (uuid))" = true. Proof. vm_compute. reflexivity. Qed.

Theorem C48_NetclassFlag v : (exists o, NetclassFlag_from v = Ok o) <-> NetclassFlag_reads v = true.
Proof. exact (when _ _ (NetclassFlag_a v)). Qed.
Print Assumptions C48_NetclassFlag.
Example C48_NetclassFlag_reads : holds NetclassFlag_reads "(netclass_flag ""x"" (length 1) (shape 1) (at 1 2) (fields_autoplaced) (effects) (uuid 1) (property ""x"" ""x""))" = true. Proof. vm_compute. reflexivity. Qed.
Example C48_NetclassFlag_refuses : refused NetclassFlag_reads "(netclass_flag ""x"" (length 1) (shape 1) (at 1 2) (fields_autoplaced) (effects) (uuid 1) (property))" = true. Proof. vm_compute. reflexivity. Qed.

Theorem C48_Schematic v : (exists o, Schematic_from v = Ok o) <-> Schematic_reads v = true.
Proof. exact (when _ _ (Schematic_a v)). Qed.
Print Assumptions C48_Schematic.
Example C48_Schematic_reads : holds Schematic_reads "(kicad_sch (version 1) (generator 1) (uuid 1) (paper ""A4"") (title_block) (lib_symbols (symbol ""R"") (symbol ""R"")) (junction) (no_connect) (bus_entry) (bus_alias ""B"" (members ""a"" ""b"")) (wire) (bus) (polyline) (arc) (circle) (rectangle) (image) (text ""x"") (text_box ""x"") (label ""x"") (global_label ""x"") (hierarchical_label ""x"") (netclass_flag ""x"") (symbol) (sheet) (sheet_instances (path ""x"") (path ""x"")) (symbol_instances (path ""x"") (path ""x"")))" = true. Proof. vm_compute. reflexivity. Qed.
Example C48_Schematic_refuses : refused Schematic_reads "(wrong)" = true. Proof. vm_compute. reflexivity. Qed.

Theorem C48_WksFontSize v : (exists o, WksFontSize_from v = Ok o) <-> WksFontSize_reads v = true.
Proof. exact (when _ _ (WksFontSize_a v)). Qed.
Print Assumptions C48_WksFontSize.
Example C48_WksFontSize_reads : holds WksFontSize_reads "(size 1 2)" = true. Proof. vm_compute. reflexivity. Qed.
Example C48_WksFontSize_refuses : refused WksFontSize_reads "(size 1)" = true. Proof. vm_compute. reflexivity. Qed.

Theorem C48_WksFont v : (exists o, WksFont_from v = Ok o) <-> WksFont_reads v = true.
Proof. exact (when _ _ (WksFont_a v)). Qed.
Print Assumptions C48_WksFont.
Example C48_WksFont_reads : holds WksFont_reads "(font (linewidth 1) (size 1 2))" = true. Proof. vm_compute. reflexivity. Qed.
Example C48_WksFont_refuses : refused WksFont_reads "(font (linewidth 1) (size))" = true. Proof. vm_compute. reflexivity. Qed.

Theorem C48_WksPosition v : (exists o, WksPosition_from v = Ok o) <-> WksPosition_reads v = true.
Proof. exact (when _ _ (WksPosition_a v)). Qed.
Print Assumptions C48_WksPosition.
Example C48_WksPosition_reads : holds WksPosition_reads "(pos 1 2 ltcorner)" = true. Proof. vm_compute. reflexivity. Qed.
Example C48_WksPosition_refuses : refused WksPosition_reads "(pos 1)" = true. Proof. vm_compute. reflexivity. Qed.

Theorem C48_Line v : (exists o, Line_from v = Ok o) <-> Line_reads v = true.
Proof. exact (when _ _ (Line_a v)). Qed.
Print Assumptions C48_Line.
Example C48_Line_reads : holds Line_reads "(line (name 1) (start 1 2) (end 1 2) (option 1) (linewidth 1) (repeat 1) (incrx 1) (incry 1) (comment 1))" = true. Proof. vm_compute. reflexivity. Qed.
Example C48_Line_refuses : refused Line_reads "(line (name 1) (start 1 2) (end 1 2) (option 1) (linewidth 1) (repeat 1) (incrx 1) (incry 1) (comment))" = true. Proof. vm_compute. reflexivity. Qed.

Theorem C48_Rect v : (exists o, Rect_from v = Ok o) <-> Rect_reads v = true.
Proof. exact (when _ _ (Rect_a v)). Qed.
Print Assumptions C48_Rect.
Example C48_Rect_reads : holds Rect_reads "(rect (name 1) (start 1 2) (end 1 2) (option 1) (linewidth 1) (repeat 1) (incrx 1) (incry 1) (comment 1))" = true. Proof. vm_compute. reflexivity. Qed.
Example C48_Rect_refuses : refused Rect_reads "(rect (name 1) (start 1 2) (end 1 2) (option 1) (linewidth 1) (repeat 1) (incrx 1) (incry 1) (comment))" = true. Proof. vm_compute. reflexivity. Qed.

Theorem C48_Polygon v : ~ exists o, Polygon_from v = Ok o.
Proof. intros [o H]. discriminate H. Qed.
Print Assumptions C48_Polygon.

Theorem C48_Bitmap v : (exists o, Bitmap_from v = Ok o) <-> Bitmap_reads v = true.
Proof. exact (when _ _ (Bitmap_a v)). Qed.
Print Assumptions C48_Bitmap.
Example C48_Bitmap_reads : holds Bitmap_reads "(bitmap (name 1) (pos 1 2) (option 1) (scale 1) (repeat 1) (incrx 1) (incry 1) (comment 1) (pngdata (data a) (data b)))" = true. Proof. vm_compute. reflexivity. Qed.
Example C48_Bitmap_refuses : refused Bitmap_reads "(bitmap (name 1) (pos 1 2) (option 1) (scale 1) (repeat 1) (incrx 1) (incry 1) (comment) (pngdata (data a) (data b)))" = true. Proof. vm_compute. reflexivity. Qed.

Theorem C48_TbText v : (exists o, TbText_from v = Ok o) <-> TbText_reads v = true.
Proof. exact (when _ _ (TbText_a v)). Qed.
Print Assumptions C48_TbText.
Example C48_TbText_reads : holds TbText_reads "(tbtext ""x"" (name 1) (pos 1 2) (option 1) (rotate 1) (font) (justify) (maxlen 1) (maxheight 1) (repeat 1) (incrx 1) (incry 1) (incrlabel 1) (comment 1))" = true. Proof. vm_compute. reflexivity. Qed.
Example C48_TbText_refuses : refused TbText_reads "(tbtext ""x"" (name 1) (pos 1 2) (option 1) (rotate 1) (font) (justify) (maxlen 1) (maxheight 1) (repeat 1) (incrx 1) (incry 1) (incrlabel 1) (comment))" = true. Proof. vm_compute. reflexivity. Qed.

Theorem C48_TextSize v : (exists o, TextSize_from v = Ok o) <-> TextSize_reads v = true.
Proof. exact (when _ _ (TextSize_a v)). Qed.
Print Assumptions C48_TextSize.
Example C48_TextSize_reads : holds TextSize_reads "(textsize 1 2)" = true. Proof. vm_compute. reflexivity. Qed.
Example C48_TextSize_refuses : refused TextSize_reads "(textsize 1 2 3)" = true. Proof. vm_compute. reflexivity. Qed.

Theorem C48_Setup v : (exists o, Setup_from v = Ok o) <-> Setup_reads v = true.
Proof. exact (when _ _ (Setup_a v)). Qed.
Print Assumptions C48_Setup.
Example C48_Setup_reads : holds Setup_reads "(setup (textsize 1 2) (linewidth 1) (textlinewidth 1) (left_margin 1) (right_margin 1) (top_margin 1) (bottom_margin 1))" = true. Proof. vm_compute. reflexivity. Qed.
Example C48_Setup_refuses : refused Setup_reads "(setup (textsize 1 2) (linewidth 1) (textlinewidth 1) (left_margin 1) (right_margin 1) (top_margin 1) (bottom_margin))" = true. Proof. vm_compute. reflexivity. Qed.

Theorem C48_WorkSheet v : (exists o, WorkSheet_from v = Ok o) <-> WorkSheet_reads v = true.
Proof. exact (when _ _ (WorkSheet_a v)). Qed.
Print Assumptions C48_WorkSheet.
Example C48_WorkSheet_reads : holds WorkSheet_reads "(kicad_wks (version 1) (generator 1) (setup) (rect) (line) (tbtext ""x"") (bitmap))" = true. Proof. vm_compute. reflexivity. Qed.
Example C48_WorkSheet_refuses : refused WorkSheet_reads "(kicad_wks (polygon 1))" = true. Proof. vm_compute. reflexivity. Qed.
