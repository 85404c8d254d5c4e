(** Specification for C47: which objects can be written.

    [X_writable o] says, from the attributes of [o] alone, whether [to_sexpr] returns a text.  It
    mentions neither the text nor the indentation.  A class that is not listed here has no
    condition: each of its objects can be written. *)
From Verif Require Import PyBase PyNum PyStr M_Common M_Lib M_Sym M_Fp M_Gr M_Zone M_Footprint M_Dim M_Brd M_Board M_Sch M_Schematic M_Wks.

(** a condition on an object that may be [None] *)
Definition if_set {A} (f : A -> bool) (o : option A) : bool := match o with Some x => f x | None => true end.
Definition is_set {A} (o : option A) : bool := match o with Some _ => true | None => false end.

(** [format(v, '.6f')] takes numbers; an int must not be rounded to 2^1024 or more *)
Definition number (v : val) : bool :=
  match v with
  | VFloat _ | VBool _ => true
  | VInt z => (Z.abs z <? 2 ^ 1024 - 2 ^ 970)%Z
  | _ => false
  end.
(** [format(v, '.pf')] for the precision [p] of a colour *)
Definition ColorRGBA_writable (o : ColorRGBA) : bool :=
  match ca_precision o with
  | VNone => true
  | VInt p => (0 <=? p)%Z && number (ca_A o)
  | _ => false
  end.
Definition Stroke_writable (o : Stroke) : bool := if_set ColorRGBA_writable (st_color o).
Definition Font_writable (o : Font) : bool := if_set ColorRGBA_writable (fo_color o).
Definition Fill_writable (o : Fill) : bool := if_set ColorRGBA_writable (fi_color o).
Definition Effects_writable (o : Effects) : bool := Font_writable (ef_font o).
Definition Property_writable (o : Property) : bool := if_set Effects_writable (pr_effects o).
(** a page with its own size needs both numbers *)
Definition PageSettings_writable (o : PageSettings) : bool :=
  match pg_paperSize o, pg_width o, pg_height o with
  | VStr s, VNone, _ | VStr s, _, VNone => negb (str_eqb s $"User")
  | _, _, _ => true
  end.

(** the elements of a constraint are joined *)
Definition is_text (v : val) : bool := match v with VStr _ => true | _ => false end.
Definition Constraint_writable (o : Constraint) : bool := forallb is_text (cn_elements o).
Definition Rule_writable (o : Rule) : bool := forallb Constraint_writable (ru_constraints o).
Definition DesignRules_writable (o : DesignRules) : bool := forallb Rule_writable (dr_rules o).

Definition SyArc_writable (o : SyArc) : bool := Stroke_writable (sa_stroke o) && Fill_writable (sa_fill o).
Definition SyCircle_writable (o : SyCircle) : bool := Stroke_writable (si_stroke o) && Fill_writable (si_fill o).
Definition SyCurve_writable (o : SyCurve) : bool := Stroke_writable (M_Sym.sc_stroke o) && Fill_writable (M_Sym.sc_fill o).
Definition SyPolyLine_writable (o : SyPolyLine) : bool := Stroke_writable (sl_stroke o) && Fill_writable (sl_fill o).
Definition SyRect_writable (o : SyRect) : bool := Stroke_writable (sr_stroke o) && Fill_writable (sr_fill o).
Definition SyText_writable (o : SyText) : bool := Effects_writable (sx_effects o).
Definition SyTextBox_writable (o : SyTextBox) : bool :=
  Stroke_writable (sb_stroke o) && Fill_writable (sb_fill o) && Effects_writable (sb_effects o).
Definition SymbolPin_writable (o : SymbolPin) : bool :=
  if_set Effects_writable (sp_nameEffects o) && if_set Effects_writable (sp_numberEffects o).
Definition SyItem_writable (o : SyItem) : bool :=
  match o with
  | SyItem_SyArc x => SyArc_writable x
  | SyItem_SyCircle x => SyCircle_writable x
  | SyItem_SyCurve x => SyCurve_writable x
  | SyItem_SyPolyLine x => SyPolyLine_writable x
  | SyItem_SyRect x => SyRect_writable x
  | SyItem_SyText x => SyText_writable x
  | SyItem_SyTextBox x => SyTextBox_writable x
  end.
Fixpoint Symbol_writable (o : Symbol) : bool :=
  forallb Property_writable (sy_properties o) && forallb SyItem_writable (sy_graphicItems o)
  && forallb SymbolPin_writable (sy_pins o) && forallb Symbol_writable (sy_units o).
Definition SymbolLib_writable (o : SymbolLib) : bool := forallb Symbol_writable (sj_symbols o).

(** a stroke is only written when there is no width *)
Definition outline (width : val) (stroke : option Stroke) : bool :=
  match width with VNone => if_set Stroke_writable stroke | _ => true end.
Definition FpText_writable (o : FpText) : bool := Effects_writable (ft_effects o).
Definition FpLine_writable (o : FpLine) : bool := outline (fl_width o) (fl_stroke o).
Definition FpRect_writable (o : FpRect) : bool := outline (fr_width o) (fr_stroke o).
Definition FpCircle_writable (o : FpCircle) : bool := outline (fc_width o) (fc_stroke o).
Definition FpArc_writable (o : FpArc) : bool := outline (fa_width o) (fa_stroke o).
Definition FpPoly_writable (o : FpPoly) : bool := match fp_coordinates o with [] => true | _ => outline (fp_width o) (fp_stroke o) end.
Definition FpCurve_writable (o : FpCurve) : bool := match fv_coordinates o with [] => true | _ => outline (fv_width o) (fv_stroke o) end.
(** an upright text box needs two corners, a turned one needs four points *)
Definition upright (angle : val) : bool :=
  match angle with VNone => true | _ => existsb (py_eqb angle) [fdec 0 0; fdec 90 0; fdec 180 0; fdec 270 0] end.
Definition four {A} (l : list A) : bool := match l with [_; _; _; _] => true | _ => false end.
Definition FpTextBox_writable (o : FpTextBox) : bool :=
  (if upright (fb_angle o) then is_set (fb_start o) && is_set (fb_end o) else four (fb_pts o))
  && if_set Effects_writable (fb_effects o) && if_set Stroke_writable (fb_stroke o).
Definition GrTextBox_writable (o : GrTextBox) : bool :=
  (if upright (gb_angle o) then is_set (gb_start o) && is_set (gb_end o) else four (gb_pts o))
  && if_set Effects_writable (gb_effects o) && if_set Stroke_writable (gb_stroke o).
Definition GrText_writable (o : GrText) : bool := Effects_writable (gt_effects o).
Definition Zone_writable (o : Zone) : bool := match zo_layers o with [] => false | _ => true end.
Definition PadPrimitive_writable (o : PadPrimitive) : bool :=
  match o with
  | PadPrimitive_GrText x => GrText_writable x
  | PadPrimitive_GrTextBox x => GrTextBox_writable x
  | _ => true
  end.
(** the name of each layer is searched for a star *)
Definition searchable (v : val) : bool := match v with VStr _ | VList _ => true | _ => false end.
Definition Pad_writable (o : Pad) : bool :=
  forallb searchable (pd_layers o) && forallb PadPrimitive_writable (pd_customPadPrimitives o).
Definition FpItem_writable (o : FpItem) : bool :=
  match o with
  | FpItem_FpText x => FpText_writable x
  | FpItem_FpTextBox x => FpTextBox_writable x
  | FpItem_FpLine x => FpLine_writable x
  | FpItem_FpRect x => FpRect_writable x
  | FpItem_FpCircle x => FpCircle_writable x
  | FpItem_FpArc x => FpArc_writable x
  | FpItem_FpPoly x => FpPoly_writable x
  | FpItem_FpCurve x => FpCurve_writable x
  | FpItem_Image _ => true
  end.
Definition Footprint_writable (o : Footprint) : bool :=
  forallb FpItem_writable (fd_graphicItems o) && forallb Pad_writable (fd_pads o) && forallb Zone_writable (fd_zones o).
(** a dimension needs points *)
Definition Dimension_writable (o : Dimension) : bool :=
  match di_pts o with [] => false | _ => if_set GrText_writable (di_grText o) end.

(** three numbers of the plot settings are written with six digits after the point *)
Definition no_or_number (v : val) : bool := match v with VNone => true | _ => number v end.
Definition PlotSettings_writable (o : PlotSettings) : bool :=
  no_or_number (ps_dashedLineDashRatio o) && no_or_number (ps_dashedLineGapRatio o) && number (ps_hpglPenDiameter o).
Definition SetupData_writable (o : SetupData) : bool := if_set PlotSettings_writable (sd_plotSettings o).
Definition BdItem_writable (o : BdItem) : bool :=
  match o with
  | BdItem_GrText x => GrText_writable x
  | BdItem_GrTextBox x => GrTextBox_writable x
  | _ => true
  end.
Definition Board_writable (o : Board) : bool :=
  PageSettings_writable (bd_paper o) && SetupData_writable (bd_setup o) && forallb Footprint_writable (bd_footprints o)
  && forallb BdItem_writable (bd_graphicItems o) && forallb Dimension_writable (bd_dimensions o) && forallb Zone_writable (bd_zones o).

(** a junction that was read with a diameter has a number where its colour should be *)
Definition Junction_writable (o : Junction) : bool := match jn_color o with JColor_obj c => ColorRGBA_writable c | JColor_val _ => false end.
Definition BusEntry_writable (o : BusEntry) : bool := Stroke_writable (be_stroke o).
Definition Connection_writable (o : Connection) : bool := Stroke_writable (cx_stroke o).
Definition PolyLine_writable (o : PolyLine) : bool := Stroke_writable (pl_stroke o).
(** the length of a text is taken *)
Definition sized (v : val) : bool := match v with VStr _ | VList _ => true | _ => false end.
Definition Text_writable (o : Text) : bool :=
  sized (tx_text o) && Effects_writable (tx_effects o).
Definition TextBox_writable (o : TextBox) : bool :=
  Stroke_writable (bx_stroke o) && Fill_writable (bx_fill o) && Effects_writable (bx_effects o).
Definition LocalLabel_writable (o : LocalLabel) : bool := Effects_writable (ll_effects o).
Definition GlobalLabel_writable (o : GlobalLabel) : bool :=
  Effects_writable (gla_effects o) && forallb Property_writable (gla_properties o).
Definition HierarchicalLabel_writable (o : HierarchicalLabel) : bool := Effects_writable (hl_effects o).
Definition SchematicSymbol_writable (o : SchematicSymbol) : bool := forallb Property_writable (ss_properties o).
Definition HierarchicalPin_writable (o : HierarchicalPin) : bool := Effects_writable (hp_effects o).
Definition HierarchicalSheet_writable (o : HierarchicalSheet) : bool :=
  Stroke_writable (hs_stroke o) && ColorRGBA_writable (hs_fill o) && Property_writable (hs_sheetName o)
  && Property_writable (hs_fileName o) && forallb Property_writable (hs_properties o) && forallb HierarchicalPin_writable (hs_pins o).
Definition Rectangle_writable (o : Rectangle) : bool := Stroke_writable (rct_stroke o) && Fill_writable (rct_fill o).
Definition SchArc_writable (o : SchArc) : bool := Stroke_writable (sar_stroke o) && Fill_writable (sar_fill o).
Definition Circle_writable (o : Circle) : bool := Stroke_writable (cir_stroke o) && Fill_writable (cir_fill o).
(** a netclass flag without effects cannot be written, and one that was just made has none *)
Definition NetclassFlag_writable (o : NetclassFlag) : bool :=
  match nf_effects o with Some e => Effects_writable e && forallb Property_writable (nf_properties o) | None => false end.
Definition ScLine_writable (o : ScLine) : bool :=
  match o with ScLine_Connection x => Connection_writable x | ScLine_PolyLine x => PolyLine_writable x end.
Definition ScShape_writable (o : ScShape) : bool :=
  match o with ScShape_SchArc x => SchArc_writable x | ScShape_Circle x => Circle_writable x | ScShape_Rectangle x => Rectangle_writable x end.
Definition Schematic_writable (o : Schematic) : bool :=
  PageSettings_writable (sc_paper o) && forallb Symbol_writable (sc_libSymbols o) && forallb Junction_writable (sc_junctions o)
  && forallb BusEntry_writable (sc_busEntries o) && forallb ScLine_writable (sc_graphicalItems o) && forallb ScShape_writable (sc_shapes o)
  && forallb TextBox_writable (sc_textBoxes o) && forallb Text_writable (sc_texts o) && forallb LocalLabel_writable (sc_labels o)
  && forallb GlobalLabel_writable (sc_globalLabels o) && forallb HierarchicalLabel_writable (sc_hierarchicalLabels o)
  && forallb NetclassFlag_writable (sc_netclassFlags o) && forallb SchematicSymbol_writable (sc_schematicSymbols o)
  && forallb HierarchicalSheet_writable (sc_sheets o).

(** positions and polygons of a worksheet have no writer *)
Definition WksPosition_writable (o : WksPosition) : bool := false.
Definition Polygon_writable (o : Polygon) : bool := false.
Definition WkItem_writable (o : WkItem) : bool := match o with WkItem_Polygon _ => false | _ => true end.
Definition WorkSheet_writable (o : WorkSheet) : bool := forallb WkItem_writable (wk_drawingObjects o).
