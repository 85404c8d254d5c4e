(** Specification for C54: editing one attribute of an object, saving and loading it.

    [X_edits] lists the attributes of each class that can be edited, with the values that fit.  Left out are
    only attributes that are not saved (the path of a file) and the six that are lost when saved (the
    _refuted theorems of Properties_EditA.v, Properties_EditB.v and C19_GrLine_angle_refuted). *)
From Coq Require Import String.
From Verif Require Import PyBase PyNum PyStr Sexpr RecordSet S_Leaf S_Tree S_Fix.
From Verif Require Import M_Common M_Lib M_Sym M_Fp M_Gr M_Zone M_Footprint M_Dim M_Brd M_Board M_Sch M_Schematic M_Wks.
From Verif Require Import S_Common S_Lib S_Sym S_Fp S_Gr S_Zone S_Footprint S_Dim S_Brd S_Board S_Sch S_Schematic S_Wks.

(** An attribute: how to get it, how to set it, which values fit into an object, when two values are equal *)
Inductive edit (A : Type) := Edit (B : Type) (get : A -> B) (put : B -> A -> A) (fit : A -> B -> bool) (alike : B -> B -> bool).
Arguments Edit {A B}.

(** The attribute of a printable object is set to a value that fits; the result is saved and loaded again.
    Then the attribute has that value, and putting the old value back gives an object equal to the first:
    nothing else has changed.  The edited object is printable too, so that it can be edited further. *)
Definition survives {A} (to : A -> nat -> bool -> res str) (from : val -> res A) (ok : A -> bool) (same : A -> A -> bool) (e : edit A) : Prop :=
  match e with
  | Edit get put fit alike => forall o x, ok o = true -> fit o x = true -> ok (put x o) = true /\ forall indent newline, exists o',
      write_read to from (put x o) indent newline = Ok o' /\ alike x (get o') = true /\ same o (put (get o) o') = true
  end.
Definition edits_survive {A} (to : A -> nat -> bool -> res str) (from : val -> res A) (ok : A -> bool) (same : A -> A -> bool) (es : list (edit A)) : Prop :=
  Forall (survives to from ok same) es.

(** [edited es o o'] : [o'] comes from [o] by any number of edits in any order, each with a value that fits *)
Inductive edited {A} (es : list (edit A)) (o : A) : A -> Prop :=
| unedited : edited es o o
| edited_once {B} (get : A -> B) put fit alike o' x : edited es o o' -> In (Edit get put fit alike) es -> fit o' x = true -> edited es o (put x o').
(** Each single edit survives, and so does every object that edits lead to. *)
Definition editable {A} (to : A -> nat -> bool -> res str) (from : val -> res A) (ok : A -> bool) (same : A -> A -> bool) (es : list (edit A)) : Prop :=
  edits_survive to from ok same es
  /\ forall o o', ok o = true -> edited es o o' -> forall indent newline, exists o'', write_read to from o' indent newline = Ok o'' /\ same o' o'' = true.

Definition Coordinate_edits : list (edit Coordinate) :=
  [Edit co_X (fun x o => o <| co_X := x |>) (fun _ => numb) py_eqb;
   Edit co_Y (fun x o => o <| co_Y := x |>) (fun _ => numb) py_eqb;
   Edit co_Z (fun x o => o <| co_Z := x |>) (fun _ => numb) py_eqb].

Definition ColorRGBA_edits : list (edit ColorRGBA) :=
  [Edit ca_R (fun x o => o <| ca_R := x |>) (fun _ => numb) py_eqb;
   Edit ca_G (fun x o => o <| ca_G := x |>) (fun _ => numb) py_eqb;
   Edit ca_B (fun x o => o <| ca_B := x |>) (fun _ => numb) py_eqb;
   Edit ca_A (fun x o => o <| ca_A := x |>) (fun _ => numb) py_eqb].

Definition Stroke_edits : list (edit Stroke) :=
  [Edit st_width (fun x o => o <| st_width := x |>) (fun _ => numb) py_eqb;
   Edit st_type (fun x o => o <| st_type := x |>) (fun _ x => optb wordv x) py_eqb;
   Edit st_color (fun x o => o <| st_color := x |>) (fun _ x => optok ColorRGBA_ok x) (oeqb ColorRGBA_eqb)].

Definition Font_edits : list (edit Font) :=
  [Edit fo_face (fun x o => o <| fo_face := x |>) (fun _ x => optb txtb x) py_eqb;
   Edit fo_height (fun x o => o <| fo_height := x |>) (fun _ => numb) py_eqb;
   Edit fo_width (fun x o => o <| fo_width := x |>) (fun _ => numb) py_eqb;
   Edit fo_thickness (fun x o => o <| fo_thickness := x |>) (fun _ x => optb numb x) py_eqb;
   Edit fo_bold (fun x o => o <| fo_bold := x |>) (fun _ _ => true) Bool.eqb;
   Edit fo_italic (fun x o => o <| fo_italic := x |>) (fun _ _ => true) Bool.eqb;
   Edit fo_lineSpacing (fun x o => o <| fo_lineSpacing := x |>) (fun _ x => optb numb x) py_eqb;
   Edit fo_color (fun x o => o <| fo_color := x |>) (fun _ x => optok ColorRGBA_ok x) (oeqb ColorRGBA_eqb)].

Definition Justify_edits : list (edit Justify) :=
  [Edit ju_horizontally (fun x o => o <| ju_horizontally := x |>) (fun o x => Justify_ok1 (o <| ju_horizontally := x |>)) py_eqb;
   Edit ju_vertically (fun x o => o <| ju_vertically := x |>) (fun o x => Justify_ok1 (o <| ju_vertically := x |>)) py_eqb;
   Edit ju_mirror (fun x o => o <| ju_mirror := x |>) (fun o x => Justify_ok1 (o <| ju_mirror := x |>)) Bool.eqb].

Definition Effects_edits : list (edit Effects) :=
  [Edit ef_font (fun x o => o <| ef_font := x |>) (fun _ => Font_ok) Font_eqb;
   Edit ef_justify (fun x o => o <| ef_justify := x |>) (fun _ => Justify_ok) Justify_eqb;
   Edit ef_hide (fun x o => o <| ef_hide := x |>) (fun _ _ => true) Bool.eqb;
   Edit ef_href (fun x o => o <| ef_href := x |>) (fun _ x => optb txtb x) py_eqb].

Definition Net_edits : list (edit Net) :=
  [Edit ne_number (fun x o => o <| ne_number := x |>) (fun _ => numb) py_eqb;
   Edit ne_name (fun x o => o <| ne_name := x |>) (fun _ => txtb) py_eqb].

Definition Group_edits : list (edit Group) :=
  [Edit gr_name (fun x o => o <| gr_name := x |>) (fun _ x => (txtb x) && (negb (x =s "locked"))) py_eqb;
   Edit M_Common.gr_locked (fun x o => o <| M_Common.gr_locked := x |>) (fun _ _ => true) Bool.eqb;
   Edit gr_id (fun x o => o <| gr_id := x |>) (fun _ => atomb) py_eqb;
   Edit gr_members (fun x o => o <| gr_members := x |>) (fun _ x => forallb word0v x) (leqb py_eqb)].

Definition PageSettings_edits : list (edit PageSettings) :=
  [Edit pg_paperSize (fun x o => o <| pg_paperSize := x |>) (fun o x => (txtb x) && (negb (x =s "portrait")) && (if x =s "User" then numb (pg_width o) && numb (pg_height o) else is_none (pg_width o) && is_none (pg_height o))) py_eqb;
   Edit pg_width (fun x o => o <| pg_width := x |>) (fun o x => (optb numb x) && (if pg_paperSize o =s "User" then numb x && numb (pg_height o) else is_none x && is_none (pg_height o))) py_eqb;
   Edit pg_height (fun x o => o <| pg_height := x |>) (fun o x => (optb numb x) && (if pg_paperSize o =s "User" then numb (pg_width o) && numb x else is_none (pg_width o) && is_none x)) py_eqb;
   Edit pg_portrait (fun x o => o <| pg_portrait := x |>) (fun _ _ => true) Bool.eqb].

Definition TitleBlock_edits : list (edit TitleBlock) :=
  [Edit tb_title (fun x o => o <| tb_title := x |>) (fun _ x => optb txtb x) py_eqb;
   Edit tb_date (fun x o => o <| tb_date := x |>) (fun _ x => optb txtb x) py_eqb;
   Edit tb_revision (fun x o => o <| tb_revision := x |>) (fun _ x => optb txtb x) py_eqb;
   Edit tb_company (fun x o => o <| tb_company := x |>) (fun _ x => optb txtb x) py_eqb;
   Edit tb_comments (fun x o => o <| tb_comments := x |>) (fun _ => dict_ok) (leqb kveqb)].

Definition Property_edits : list (edit Property) :=
  [Edit pr_key (fun x o => o <| pr_key := x |>) (fun _ => txtb) py_eqb;
   Edit pr_value (fun x o => o <| pr_value := x |>) (fun _ => txtb) py_eqb;
   Edit pr_id (fun x o => o <| pr_id := x |>) (fun _ x => optb numb x) py_eqb;
   Edit pr_position (fun x o => o <| pr_position := x |>) (fun _ => pos3_ok) Position_eqb;
   Edit pr_effects (fun x o => o <| pr_effects := x |>) (fun _ x => optok Effects_ok x) (oeqb Effects_eqb);
   Edit pr_showName (fun x o => o <| pr_showName := x |>) (fun _ _ => true) Bool.eqb].

Definition RenderCachePolygon_edits : list (edit RenderCachePolygon) :=
  [Edit rp_pts (fun x o => o <| rp_pts := x |>) (fun _ x => forallb pos2_ok x) (leqb Position_eqb)].

Definition RenderCache_edits : list (edit RenderCache) :=
  [Edit rc_text (fun x o => o <| rc_text := x |>) (fun _ x => (txtb x) && (negb (x =s ""))) py_eqb;
   Edit rc_id (fun x o => o <| rc_id := x |>) (fun _ => word0v) py_eqb;
   Edit rc_polygons (fun x o => o <| rc_polygons := x |>) (fun _ x => forallb RenderCachePolygon_ok x) (leqb RenderCachePolygon_eqb)].

Definition Fill_edits : list (edit Fill) :=
  [Edit fi_type (fun x o => o <| fi_type := x |>) (fun _ => wordv) py_eqb;
   Edit fi_color (fun x o => o <| fi_color := x |>) (fun _ x => optok ColorRGBA_ok x) (oeqb ColorRGBA_eqb)].

Definition Image_edits : list (edit Image) :=
  [Edit im_position (fun x o => o <| im_position := x |>) (fun _ => pos2_ok) Position_eqb;
   Edit im_scale (fun x o => o <| im_scale := x |>) (fun _ x => optb numb x) py_eqb;
   Edit im_data (fun x o => o <| im_data := x |>) (fun _ x => forallb word0v x) (leqb py_eqb);
   Edit im_uuid (fun x o => o <| im_uuid := x |>) (fun _ x => optb atomb x) py_eqb;
   Edit im_layer (fun x o => o <| im_layer := x |>) (fun _ x => optb txtb x) py_eqb].

Definition Library_edits : list (edit Library) :=
  [Edit lb_name (fun x o => o <| lb_name := x |>) (fun _ => txtb) py_eqb;
   Edit lb_type (fun x o => o <| lb_type := x |>) (fun _ => txtb) py_eqb;
   Edit lb_uri (fun x o => o <| lb_uri := x |>) (fun _ => txtb) py_eqb;
   Edit lb_options (fun x o => o <| lb_options := x |>) (fun _ => txtb) py_eqb;
   Edit lb_description (fun x o => o <| lb_description := x |>) (fun _ => txtb) py_eqb;
   Edit lb_active (fun x o => o <| lb_active := x |>) (fun _ _ => true) Bool.eqb].

Definition LibTable_edits : list (edit LibTable) :=
  [Edit M_Lib.lt_type (fun x o => o <| M_Lib.lt_type := x |>) (fun _ x => enumb ["fp_lib_table"%string; "sym_lib_table"%string] x) py_eqb;
   Edit lt_libs (fun x o => o <| lt_libs := x |>) (fun _ x => forallb Library_ok x) (leqb Library_eqb)].

Definition Constraint_edits : list (edit Constraint) :=
  [Edit cn_type (fun x o => o <| cn_type := x |>) (fun _ => wordv) py_eqb;
   Edit cn_min (fun x o => o <| cn_min := x |>) (fun _ x => optb txtb x) py_eqb;
   Edit cn_opt (fun x o => o <| cn_opt := x |>) (fun _ x => optb txtb x) py_eqb;
   Edit cn_max (fun x o => o <| cn_max := x |>) (fun _ x => optb txtb x) py_eqb;
   Edit cn_elements (fun x o => o <| cn_elements := x |>) (fun _ x => forallb wordv x) (leqb py_eqb)].

Definition Rule_edits : list (edit Rule) :=
  [Edit ru_name (fun x o => o <| ru_name := x |>) (fun _ => txtb) py_eqb;
   Edit ru_constraints (fun x o => o <| ru_constraints := x |>) (fun _ x => forallb Constraint_ok x) (leqb Constraint_eqb);
   Edit ru_condition (fun x o => o <| ru_condition := x |>) (fun _ => txtb) py_eqb;
   Edit ru_layer (fun x o => o <| ru_layer := x |>) (fun _ x => optb txtb x) py_eqb;
   Edit ru_severity (fun x o => o <| ru_severity := x |>) (fun _ x => optb plainv x) py_eqb].

Definition DesignRules_edits : list (edit DesignRules) :=
  [Edit dr_version (fun x o => o <| dr_version := x |>) (fun _ => numb) py_eqb;
   Edit dr_rules (fun x o => o <| dr_rules := x |>) (fun _ x => forallb Rule_ok x) (leqb Rule_eqb)].

Definition SyArc_edits : list (edit SyArc) :=
  [Edit sa_private (fun x o => o <| sa_private := x |>) (fun _ _ => true) Bool.eqb;
   Edit sa_start (fun x o => o <| sa_start := x |>) (fun _ => pos3_ok) Position_eqb;
   Edit sa_mid (fun x o => o <| sa_mid := x |>) (fun _ => pos3_ok) Position_eqb;
   Edit sa_end (fun x o => o <| sa_end := x |>) (fun _ => pos3_ok) Position_eqb;
   Edit sa_stroke (fun x o => o <| sa_stroke := x |>) (fun _ => Stroke_ok) Stroke_eqb;
   Edit sa_fill (fun x o => o <| sa_fill := x |>) (fun _ => Fill_ok) Fill_eqb].

Definition SyCircle_edits : list (edit SyCircle) :=
  [Edit si_private (fun x o => o <| si_private := x |>) (fun _ _ => true) Bool.eqb;
   Edit si_center (fun x o => o <| si_center := x |>) (fun _ => pos2_ok) Position_eqb;
   Edit si_radius (fun x o => o <| si_radius := x |>) (fun _ => numb) py_eqb;
   Edit si_stroke (fun x o => o <| si_stroke := x |>) (fun _ => Stroke_ok) Stroke_eqb;
   Edit si_fill (fun x o => o <| si_fill := x |>) (fun _ => Fill_ok) Fill_eqb].

Definition SyPolyLine_edits : list (edit SyPolyLine) :=
  [Edit sl_points (fun x o => o <| sl_points := x |>) (fun _ x => forallb pos2_ok x) (leqb Position_eqb);
   Edit sl_stroke (fun x o => o <| sl_stroke := x |>) (fun _ => Stroke_ok) Stroke_eqb;
   Edit sl_fill (fun x o => o <| sl_fill := x |>) (fun _ => Fill_ok) Fill_eqb].

Definition SyRect_edits : list (edit SyRect) :=
  [Edit sr_private (fun x o => o <| sr_private := x |>) (fun _ _ => true) Bool.eqb;
   Edit sr_start (fun x o => o <| sr_start := x |>) (fun _ => pos2_ok) Position_eqb;
   Edit sr_end (fun x o => o <| sr_end := x |>) (fun _ => pos2_ok) Position_eqb;
   Edit sr_stroke (fun x o => o <| sr_stroke := x |>) (fun _ => Stroke_ok) Stroke_eqb;
   Edit sr_fill (fun x o => o <| sr_fill := x |>) (fun _ => Fill_ok) Fill_eqb].

Definition SyText_edits : list (edit SyText) :=
  [Edit sx_text (fun x o => o <| sx_text := x |>) (fun _ => txtb) py_eqb;
   Edit sx_position (fun x o => o <| sx_position := x |>) (fun _ => pos3_ok) Position_eqb;
   Edit sx_effects (fun x o => o <| sx_effects := x |>) (fun _ => Effects_ok) Effects_eqb].

Definition SyTextBox_edits : list (edit SyTextBox) :=
  [Edit sb_text (fun x o => o <| sb_text := x |>) (fun _ => txtb) py_eqb;
   Edit sb_private (fun x o => o <| sb_private := x |>) (fun _ _ => true) Bool.eqb;
   Edit sb_position (fun x o => o <| sb_position := x |>) (fun _ => pos3_ok) Position_eqb;
   Edit sb_size (fun x o => o <| sb_size := x |>) (fun _ => pos2_ok) Position_eqb;
   Edit sb_stroke (fun x o => o <| sb_stroke := x |>) (fun _ => Stroke_ok) Stroke_eqb;
   Edit sb_fill (fun x o => o <| sb_fill := x |>) (fun _ => Fill_ok) Fill_eqb;
   Edit sb_effects (fun x o => o <| sb_effects := x |>) (fun _ => Effects_ok) Effects_eqb;
   Edit sb_uuid (fun x o => o <| sb_uuid := x |>) (fun _ x => optb atomb x) py_eqb].

Definition SymbolAlternativePin_edits : list (edit SymbolAlternativePin) :=
  [Edit ap_pinName (fun x o => o <| ap_pinName := x |>) (fun _ => txtb) py_eqb;
   Edit ap_electricalType (fun x o => o <| ap_electricalType := x |>) (fun _ => wordv) py_eqb;
   Edit ap_graphicalStyle (fun x o => o <| ap_graphicalStyle := x |>) (fun _ => wordv) py_eqb].

Definition SymbolPin_edits : list (edit SymbolPin) :=
  [Edit sp_electricalType (fun x o => o <| sp_electricalType := x |>) (fun _ => wordv) py_eqb;
   Edit sp_graphicalStyle (fun x o => o <| sp_graphicalStyle := x |>) (fun _ => wordv) py_eqb;
   Edit sp_position (fun x o => o <| sp_position := x |>) (fun _ => pos3_ok) Position_eqb;
   Edit sp_length (fun x o => o <| sp_length := x |>) (fun _ => numb) py_eqb;
   Edit sp_name (fun x o => o <| sp_name := x |>) (fun _ => txtb) py_eqb;
   Edit sp_nameEffects (fun x o => o <| sp_nameEffects := x |>) (fun _ x => optok Effects_ok x) (oeqb Effects_eqb);
   Edit sp_number (fun x o => o <| sp_number := x |>) (fun _ => txtb) py_eqb;
   Edit sp_numberEffects (fun x o => o <| sp_numberEffects := x |>) (fun _ x => optok Effects_ok x) (oeqb Effects_eqb);
   Edit sp_hide (fun x o => o <| sp_hide := x |>) (fun _ _ => true) Bool.eqb;
   Edit sp_alternatePins (fun x o => o <| sp_alternatePins := x |>) (fun _ x => forallb SymbolAlternativePin_ok x) (leqb SymbolAlternativePin_eqb)].

Definition Symbol_edits : list (edit Symbol) :=
  [Edit sy_libraryNickname (fun x o => o <| sy_libraryNickname := x |>) (fun o x => id_ok x (sy_entryName o) (sy_unitId o) (sy_styleId o)) py_eqb;
   Edit sy_entryName (fun x o => o <| sy_entryName := x |>) (fun o x => id_ok (sy_libraryNickname o) x (sy_unitId o) (sy_styleId o)) py_eqb;
   Edit sy_unitId (fun x o => o <| sy_unitId := x |>) (fun o x => id_ok (sy_libraryNickname o) (sy_entryName o) x (sy_styleId o)) py_eqb;
   Edit sy_styleId (fun x o => o <| sy_styleId := x |>) (fun o x => id_ok (sy_libraryNickname o) (sy_entryName o) (sy_unitId o) x) py_eqb;
   Edit sy_extends (fun x o => o <| sy_extends := x |>) (fun _ x => optb txtb x) py_eqb;
   Edit sy_hidePinNumbers (fun x o => o <| sy_hidePinNumbers := x |>) (fun _ _ => true) Bool.eqb;
   Edit sy_pinNames (fun x o => o <| sy_pinNames := x |>) (fun o x => x || (is_none (sy_pinNamesOffset o) && negb (sy_pinNamesHide o))) Bool.eqb;
   Edit sy_pinNamesHide (fun x o => o <| sy_pinNamesHide := x |>) (fun o x => sy_pinNames o || (is_none (sy_pinNamesOffset o) && negb x)) Bool.eqb;
   Edit sy_pinNamesOffset (fun x o => o <| sy_pinNamesOffset := x |>) (fun o x => (optb numb x) && (sy_pinNames o || (is_none x && negb (sy_pinNamesHide o)))) py_eqb;
   Edit sy_inBom (fun x o => o <| sy_inBom := x |>) (fun _ _ => true) (oeqb Bool.eqb);
   Edit sy_onBoard (fun x o => o <| sy_onBoard := x |>) (fun _ _ => true) (oeqb Bool.eqb);
   Edit sy_isPower (fun x o => o <| sy_isPower := x |>) (fun _ _ => true) Bool.eqb;
   Edit sy_properties (fun x o => o <| sy_properties := x |>) (fun _ x => forallb Property_ok x) (leqb Property_eqb);
   Edit sy_graphicItems (fun x o => o <| sy_graphicItems := x |>) (fun _ x => forallb SyItem_ok x) (leqb SyItem_eqb);
   Edit sy_pins (fun x o => o <| sy_pins := x |>) (fun _ x => forallb SymbolPin_ok x) (leqb SymbolPin_eqb);
   Edit sy_units (fun x o => o <| sy_units := x |>) (fun _ x => forallb Symbol_ok x) (leqb Symbol_eqb)].

Definition SymbolLib_edits : list (edit SymbolLib) :=
  [Edit sj_version (fun x o => o <| sj_version := x |>) (fun _ => numb) py_eqb;
   Edit sj_generator (fun x o => o <| sj_generator := x |>) (fun _ => atomb) py_eqb;
   Edit sj_symbols (fun x o => o <| sj_symbols := x |>) (fun _ x => forallb Symbol_ok x) (leqb Symbol_eqb)].

Definition FpText_edits : list (edit FpText) :=
  [Edit ft_type (fun x o => o <| ft_type := x |>) (fun _ => wordv) py_eqb;
   Edit ft_text (fun x o => o <| ft_text := x |>) (fun _ => txtb) py_eqb;
   Edit ft_position (fun x o => o <| ft_position := x |>) (fun _ => pos4_ok) Position_eqb;
   Edit ft_layer (fun x o => o <| ft_layer := x |>) (fun _ => txtb) py_eqb;
   Edit ft_knockout (fun x o => o <| ft_knockout := x |>) (fun _ _ => true) Bool.eqb;
   Edit ft_hide (fun x o => o <| ft_hide := x |>) (fun _ _ => true) Bool.eqb;
   Edit ft_effects (fun x o => o <| ft_effects := x |>) (fun _ => Effects_ok) Effects_eqb;
   Edit ft_tstamp (fun x o => o <| ft_tstamp := x |>) (fun _ x => optb wordv x) py_eqb;
   Edit ft_renderCache (fun x o => o <| ft_renderCache := x |>) (fun _ x => optok RenderCache_ok x) (oeqb RenderCache_eqb)].

Definition FpLine_edits : list (edit FpLine) :=
  [Edit fl_start (fun x o => o <| fl_start := x |>) (fun _ => pos2_ok) Position_eqb;
   Edit fl_end (fun x o => o <| fl_end := x |>) (fun _ => pos2_ok) Position_eqb;
   Edit fl_layer (fun x o => o <| fl_layer := x |>) (fun _ => txtb) py_eqb;
   Edit fl_width (fun x o => o <| fl_width := x |>) (fun o x => (optb numb x) && (width_ok x (fl_stroke o))) py_eqb;
   Edit fl_stroke (fun x o => o <| fl_stroke := x |>) (fun o x => (optok Stroke_ok x) && (width_ok (fl_width o) x)) (oeqb Stroke_eqb);
   Edit fl_tstamp (fun x o => o <| fl_tstamp := x |>) (fun _ x => optb wordv x) py_eqb].

Definition FpRect_edits : list (edit FpRect) :=
  [Edit fr_start (fun x o => o <| fr_start := x |>) (fun _ => pos2_ok) Position_eqb;
   Edit fr_end (fun x o => o <| fr_end := x |>) (fun _ => pos2_ok) Position_eqb;
   Edit fr_layer (fun x o => o <| fr_layer := x |>) (fun _ => txtb) py_eqb;
   Edit fr_width (fun x o => o <| fr_width := x |>) (fun o x => (optb numb x) && (width_ok x (fr_stroke o))) py_eqb;
   Edit fr_stroke (fun x o => o <| fr_stroke := x |>) (fun o x => (optok Stroke_ok x) && (width_ok (fr_width o) x)) (oeqb Stroke_eqb);
   Edit fr_fill (fun x o => o <| fr_fill := x |>) (fun _ x => optb wordv x) py_eqb;
   Edit fr_locked (fun x o => o <| fr_locked := x |>) (fun _ _ => true) Bool.eqb;
   Edit fr_tstamp (fun x o => o <| fr_tstamp := x |>) (fun _ x => optb wordv x) py_eqb].

Definition FpCircle_edits : list (edit FpCircle) :=
  [Edit fc_center (fun x o => o <| fc_center := x |>) (fun _ => pos2_ok) Position_eqb;
   Edit fc_end (fun x o => o <| fc_end := x |>) (fun _ => pos2_ok) Position_eqb;
   Edit fc_layer (fun x o => o <| fc_layer := x |>) (fun _ => txtb) py_eqb;
   Edit fc_width (fun x o => o <| fc_width := x |>) (fun o x => (optb numb x) && (width_ok x (fc_stroke o))) py_eqb;
   Edit fc_stroke (fun x o => o <| fc_stroke := x |>) (fun o x => (optok Stroke_ok x) && (width_ok (fc_width o) x)) (oeqb Stroke_eqb);
   Edit fc_fill (fun x o => o <| fc_fill := x |>) (fun _ x => optb wordv x) py_eqb;
   Edit fc_locked (fun x o => o <| fc_locked := x |>) (fun _ _ => true) Bool.eqb;
   Edit fc_tstamp (fun x o => o <| fc_tstamp := x |>) (fun _ x => optb wordv x) py_eqb].

Definition FpArc_edits : list (edit FpArc) :=
  [Edit fa_start (fun x o => o <| fa_start := x |>) (fun _ => pos2_ok) Position_eqb;
   Edit fa_mid (fun x o => o <| fa_mid := x |>) (fun _ => pos2_ok) Position_eqb;
   Edit fa_end (fun x o => o <| fa_end := x |>) (fun _ => pos2_ok) Position_eqb;
   Edit fa_layer (fun x o => o <| fa_layer := x |>) (fun _ => txtb) py_eqb;
   Edit fa_width (fun x o => o <| fa_width := x |>) (fun o x => (optb numb x) && (width_ok x (fa_stroke o))) py_eqb;
   Edit fa_stroke (fun x o => o <| fa_stroke := x |>) (fun o x => (optok Stroke_ok x) && (width_ok (fa_width o) x)) (oeqb Stroke_eqb);
   Edit fa_locked (fun x o => o <| fa_locked := x |>) (fun _ _ => true) Bool.eqb;
   Edit fa_tstamp (fun x o => o <| fa_tstamp := x |>) (fun _ x => optb wordv x) py_eqb].

Definition FpPoly_edits : list (edit FpPoly) :=
  [Edit fp_layer (fun x o => o <| fp_layer := x |>) (fun _ => txtb) py_eqb;
   Edit fp_coordinates (fun x o => o <| fp_coordinates := x |>) (fun _ x => (forallb pos2_ok x) && (negb (Nat.eqb (length x) 0))) (leqb Position_eqb);
   Edit fp_width (fun x o => o <| fp_width := x |>) (fun o x => (optb numb x) && (width_ok x (fp_stroke o))) py_eqb;
   Edit fp_stroke (fun x o => o <| fp_stroke := x |>) (fun o x => (optok Stroke_ok x) && (width_ok (fp_width o) x)) (oeqb Stroke_eqb);
   Edit fp_fill (fun x o => o <| fp_fill := x |>) (fun _ x => optb wordv x) py_eqb;
   Edit fp_locked (fun x o => o <| fp_locked := x |>) (fun _ _ => true) Bool.eqb;
   Edit fp_tstamp (fun x o => o <| fp_tstamp := x |>) (fun _ x => optb wordv x) py_eqb].

Definition FpCurve_edits : list (edit FpCurve) :=
  [Edit fv_coordinates (fun x o => o <| fv_coordinates := x |>) (fun _ x => (forallb pos2_ok x) && (negb (Nat.eqb (length x) 0))) (leqb Position_eqb);
   Edit fv_layer (fun x o => o <| fv_layer := x |>) (fun _ => txtb) py_eqb;
   Edit fv_width (fun x o => o <| fv_width := x |>) (fun o x => (optb numb x) && (width_ok x (fv_stroke o))) py_eqb;
   Edit fv_stroke (fun x o => o <| fv_stroke := x |>) (fun o x => (optok Stroke_ok x) && (width_ok (fv_width o) x)) (oeqb Stroke_eqb);
   Edit fv_locked (fun x o => o <| fv_locked := x |>) (fun _ _ => true) Bool.eqb;
   Edit fv_tstamp (fun x o => o <| fv_tstamp := x |>) (fun _ x => optb wordv x) py_eqb].

Definition FpTextBox_edits : list (edit FpTextBox) :=
  [Edit fb_locked (fun x o => o <| fb_locked := x |>) (fun _ _ => true) Bool.eqb;
   Edit fb_text (fun x o => o <| fb_text := x |>) (fun _ => txtb) py_eqb;
   Edit fb_start (fun x o => o <| fb_start := x |>) (fun o x => (optok pos2_ok x) && (text_box_ok (fb_angle o) (fb_pts o) x (fb_end o))) (oeqb Position_eqb);
   Edit fb_end (fun x o => o <| fb_end := x |>) (fun o x => (optok pos2_ok x) && (text_box_ok (fb_angle o) (fb_pts o) (fb_start o) x)) (oeqb Position_eqb);
   Edit fb_pts (fun x o => o <| fb_pts := x |>) (fun o x => (forallb pos2_ok x) && (text_box_ok (fb_angle o) x (fb_start o) (fb_end o))) (leqb Position_eqb);
   Edit fb_angle (fun x o => o <| fb_angle := x |>) (fun o x => (optb numb x) && (text_box_ok x (fb_pts o) (fb_start o) (fb_end o))) py_eqb;
   Edit fb_layer (fun x o => o <| fb_layer := x |>) (fun _ => txtb) py_eqb;
   Edit fb_tstamp (fun x o => o <| fb_tstamp := x |>) (fun _ x => optb wordv x) py_eqb;
   Edit fb_effects (fun x o => o <| fb_effects := x |>) (fun _ x => optok Effects_ok x) (oeqb Effects_eqb);
   Edit fb_stroke (fun x o => o <| fb_stroke := x |>) (fun _ x => optok Stroke_ok x) (oeqb Stroke_eqb);
   Edit fb_renderCache (fun x o => o <| fb_renderCache := x |>) (fun _ x => optok RenderCache_ok x) (oeqb RenderCache_eqb)].

Definition GrText_edits : list (edit GrText) :=
  [Edit gt_text (fun x o => o <| gt_text := x |>) (fun _ => txtb) py_eqb;
   Edit gt_knockout (fun x o => o <| gt_knockout := x |>) (fun o x => layer_ok (gt_layer o) x) Bool.eqb;
   Edit gt_position (fun x o => o <| gt_position := x |>) (fun _ => pos3_ok) Position_eqb;
   Edit gt_layer (fun x o => o <| gt_layer := x |>) (fun o x => (optb txtb x) && (layer_ok x (gt_knockout o))) py_eqb;
   Edit gt_effects (fun x o => o <| gt_effects := x |>) (fun _ => Effects_ok) Effects_eqb;
   Edit gt_tstamp (fun x o => o <| gt_tstamp := x |>) (fun _ x => optb wordv x) py_eqb;
   Edit gt_renderCache (fun x o => o <| gt_renderCache := x |>) (fun _ x => optok RenderCache_ok x) (oeqb RenderCache_eqb)].

Definition GrLine_edits : list (edit GrLine) :=
  [Edit gl_start (fun x o => o <| gl_start := x |>) (fun _ => pos2_ok) Position_eqb;
   Edit gl_end (fun x o => o <| gl_end := x |>) (fun _ => pos2_ok) Position_eqb;
   Edit gl_layer (fun x o => o <| gl_layer := x |>) (fun _ x => optb txtb x) py_eqb;
   Edit gl_width (fun x o => o <| gl_width := x |>) (fun _ => numb) py_eqb;
   Edit gl_tstamp (fun x o => o <| gl_tstamp := x |>) (fun _ x => optb wordv x) py_eqb;
   Edit gl_locked (fun x o => o <| gl_locked := x |>) (fun _ _ => true) Bool.eqb].

Definition GrRect_edits : list (edit GrRect) :=
  [Edit gr_start (fun x o => o <| gr_start := x |>) (fun _ => pos2_ok) Position_eqb;
   Edit gr_end (fun x o => o <| gr_end := x |>) (fun _ => pos2_ok) Position_eqb;
   Edit gr_layer (fun x o => o <| gr_layer := x |>) (fun _ x => optb txtb x) py_eqb;
   Edit gr_width (fun x o => o <| gr_width := x |>) (fun _ => numb) py_eqb;
   Edit gr_fill (fun x o => o <| gr_fill := x |>) (fun _ x => optb wordv x) py_eqb;
   Edit gr_tstamp (fun x o => o <| gr_tstamp := x |>) (fun _ x => optb wordv x) py_eqb;
   Edit M_Gr.gr_locked (fun x o => o <| M_Gr.gr_locked := x |>) (fun _ _ => true) Bool.eqb].

Definition GrCircle_edits : list (edit GrCircle) :=
  [Edit gc_center (fun x o => o <| gc_center := x |>) (fun _ => pos2_ok) Position_eqb;
   Edit gc_end (fun x o => o <| gc_end := x |>) (fun _ => pos2_ok) Position_eqb;
   Edit gc_layer (fun x o => o <| gc_layer := x |>) (fun _ x => optb txtb x) py_eqb;
   Edit gc_width (fun x o => o <| gc_width := x |>) (fun _ => numb) py_eqb;
   Edit gc_fill (fun x o => o <| gc_fill := x |>) (fun _ x => optb wordv x) py_eqb;
   Edit gc_tstamp (fun x o => o <| gc_tstamp := x |>) (fun _ x => optb wordv x) py_eqb;
   Edit gc_locked (fun x o => o <| gc_locked := x |>) (fun _ _ => true) Bool.eqb].

Definition GrArc_edits : list (edit GrArc) :=
  [Edit ga_start (fun x o => o <| ga_start := x |>) (fun _ => pos2_ok) Position_eqb;
   Edit ga_mid (fun x o => o <| ga_mid := x |>) (fun _ => pos2_ok) Position_eqb;
   Edit ga_end (fun x o => o <| ga_end := x |>) (fun _ => pos2_ok) Position_eqb;
   Edit ga_layer (fun x o => o <| ga_layer := x |>) (fun _ x => optb txtb x) py_eqb;
   Edit ga_width (fun x o => o <| ga_width := x |>) (fun _ => numb) py_eqb;
   Edit ga_tstamp (fun x o => o <| ga_tstamp := x |>) (fun _ x => optb wordv x) py_eqb;
   Edit ga_locked (fun x o => o <| ga_locked := x |>) (fun _ _ => true) Bool.eqb].

Definition GrPoly_edits : list (edit GrPoly) :=
  [Edit gp_layer (fun x o => o <| gp_layer := x |>) (fun _ x => optb txtb x) py_eqb;
   Edit gp_coordinates (fun x o => o <| gp_coordinates := x |>) (fun _ x => (forallb pos2_ok x) && (negb (Nat.eqb (length x) 0))) (leqb Position_eqb);
   Edit gp_width (fun x o => o <| gp_width := x |>) (fun _ => numb) py_eqb;
   Edit gp_fill (fun x o => o <| gp_fill := x |>) (fun _ x => optb wordv x) py_eqb;
   Edit gp_tstamp (fun x o => o <| gp_tstamp := x |>) (fun _ x => optb wordv x) py_eqb;
   Edit gp_locked (fun x o => o <| gp_locked := x |>) (fun _ _ => true) Bool.eqb].

Definition GrCurve_edits : list (edit GrCurve) :=
  [Edit gv_coordinates (fun x o => o <| gv_coordinates := x |>) (fun _ x => (forallb pos2_ok x) && (negb (Nat.eqb (length x) 0))) (leqb Position_eqb);
   Edit gv_layer (fun x o => o <| gv_layer := x |>) (fun _ x => optb txtb x) py_eqb;
   Edit gv_width (fun x o => o <| gv_width := x |>) (fun _ => numb) py_eqb;
   Edit gv_tstamp (fun x o => o <| gv_tstamp := x |>) (fun _ x => optb wordv x) py_eqb;
   Edit gv_locked (fun x o => o <| gv_locked := x |>) (fun _ _ => true) Bool.eqb].

Definition GrTextBox_edits : list (edit GrTextBox) :=
  [Edit gb_locked (fun x o => o <| gb_locked := x |>) (fun _ _ => true) Bool.eqb;
   Edit gb_text (fun x o => o <| gb_text := x |>) (fun _ => txtb) py_eqb;
   Edit gb_start (fun x o => o <| gb_start := x |>) (fun o x => (optok pos2_ok x) && (text_box_ok (gb_angle o) (gb_pts o) x (gb_end o))) (oeqb Position_eqb);
   Edit gb_end (fun x o => o <| gb_end := x |>) (fun o x => (optok pos2_ok x) && (text_box_ok (gb_angle o) (gb_pts o) (gb_start o) x)) (oeqb Position_eqb);
   Edit gb_pts (fun x o => o <| gb_pts := x |>) (fun o x => (forallb pos2_ok x) && (text_box_ok (gb_angle o) x (gb_start o) (gb_end o))) (leqb Position_eqb);
   Edit gb_angle (fun x o => o <| gb_angle := x |>) (fun o x => (optb numb x) && (text_box_ok x (gb_pts o) (gb_start o) (gb_end o))) py_eqb;
   Edit gb_layer (fun x o => o <| gb_layer := x |>) (fun _ => txtb) py_eqb;
   Edit gb_tstamp (fun x o => o <| gb_tstamp := x |>) (fun _ x => optb wordv x) py_eqb;
   Edit gb_effects (fun x o => o <| gb_effects := x |>) (fun _ x => optok Effects_ok x) (oeqb Effects_eqb);
   Edit gb_stroke (fun x o => o <| gb_stroke := x |>) (fun _ x => optok Stroke_ok x) (oeqb Stroke_eqb);
   Edit gb_renderCache (fun x o => o <| gb_renderCache := x |>) (fun _ x => optok RenderCache_ok x) (oeqb RenderCache_eqb)].

Definition KeepoutSettings_edits : list (edit KeepoutSettings) :=
  [Edit ks_tracks (fun x o => o <| ks_tracks := x |>) (fun _ => wordv) py_eqb;
   Edit ks_vias (fun x o => o <| ks_vias := x |>) (fun _ => wordv) py_eqb;
   Edit ks_pads (fun x o => o <| ks_pads := x |>) (fun _ => wordv) py_eqb;
   Edit ks_copperpour (fun x o => o <| ks_copperpour := x |>) (fun _ => wordv) py_eqb;
   Edit ks_footprints (fun x o => o <| ks_footprints := x |>) (fun _ => wordv) py_eqb].

Definition FillSettings_edits : list (edit FillSettings) :=
  [Edit fs_yes (fun x o => o <| fs_yes := x |>) (fun _ _ => true) Bool.eqb;
   Edit fs_mode (fun x o => o <| fs_mode := x |>) (fun _ x => optb wordv x) py_eqb;
   Edit fs_thermalGap (fun x o => o <| fs_thermalGap := x |>) (fun _ => numb) py_eqb;
   Edit fs_thermalBridgeWidth (fun x o => o <| fs_thermalBridgeWidth := x |>) (fun _ => numb) py_eqb;
   Edit fs_smoothingStyle (fun x o => o <| fs_smoothingStyle := x |>) (fun _ x => optb wordv x) py_eqb;
   Edit fs_smoothingRadius (fun x o => o <| fs_smoothingRadius := x |>) (fun _ x => optb numb x) py_eqb;
   Edit fs_islandRemovalMode (fun x o => o <| fs_islandRemovalMode := x |>) (fun _ x => optb numb x) py_eqb;
   Edit fs_islandAreaMin (fun x o => o <| fs_islandAreaMin := x |>) (fun _ x => optb numb x) py_eqb;
   Edit fs_hatchThickness (fun x o => o <| fs_hatchThickness := x |>) (fun _ x => optb numb x) py_eqb;
   Edit fs_hatchGap (fun x o => o <| fs_hatchGap := x |>) (fun _ x => optb numb x) py_eqb;
   Edit fs_hatchOrientation (fun x o => o <| fs_hatchOrientation := x |>) (fun _ x => optb numb x) py_eqb;
   Edit fs_hatchSmoothingLevel (fun x o => o <| fs_hatchSmoothingLevel := x |>) (fun _ x => optb numb x) py_eqb;
   Edit fs_hatchSmoothingValue (fun x o => o <| fs_hatchSmoothingValue := x |>) (fun _ x => optb numb x) py_eqb;
   Edit fs_hatchBorderAlgorithm (fun x o => o <| fs_hatchBorderAlgorithm := x |>) (fun _ x => optb numb x) py_eqb;
   Edit fs_hatchMinHoleArea (fun x o => o <| fs_hatchMinHoleArea := x |>) (fun _ x => optb numb x) py_eqb].

Definition ZonePolygon_edits : list (edit ZonePolygon) :=
  [Edit zp_coordinates (fun x o => o <| zp_coordinates := x |>) (fun _ x => (forallb pos2_ok x) && (negb (Nat.eqb (length x) 0))) (leqb Position_eqb)].

Definition FilledPolygon_edits : list (edit FilledPolygon) :=
  [Edit zf_layer (fun x o => o <| zf_layer := x |>) (fun _ => txtb) py_eqb;
   Edit zf_island (fun x o => o <| zf_island := x |>) (fun _ _ => true) Bool.eqb;
   Edit zf_coordinates (fun x o => o <| zf_coordinates := x |>) (fun _ x => (forallb pos2_ok x) && (negb (Nat.eqb (length x) 0))) (leqb Position_eqb)].

Definition FillSegments_edits : list (edit FillSegments) :=
  [Edit zs_layer (fun x o => o <| zs_layer := x |>) (fun _ => txtb) py_eqb;
   Edit zs_coordinates (fun x o => o <| zs_coordinates := x |>) (fun _ x => (forallb pos2_ok x) && (negb (Nat.eqb (length x) 0))) (leqb Position_eqb)].

Definition Zone_edits : list (edit Zone) :=
  [Edit zo_locked (fun x o => o <| zo_locked := x |>) (fun _ _ => true) Bool.eqb;
   Edit zo_net (fun x o => o <| zo_net := x |>) (fun _ => numb) py_eqb;
   Edit zo_netName (fun x o => o <| zo_netName := x |>) (fun _ => txtb) py_eqb;
   Edit zo_layers (fun x o => o <| zo_layers := x |>) (fun _ x => (forallb txtb x) && (negb (Nat.eqb (length x) 0))) (leqb py_eqb);
   Edit zo_tstamp (fun x o => o <| zo_tstamp := x |>) (fun _ x => optb wordv x) py_eqb;
   Edit zo_name (fun x o => o <| zo_name := x |>) (fun _ x => optb txtb x) py_eqb;
   Edit zo_hatch (fun x o => o <| zo_hatch := x |>) (fun _ => Hatch_ok) Hatch_eqb;
   Edit zo_priority (fun x o => o <| zo_priority := x |>) (fun _ x => optb numb x) py_eqb;
   Edit zo_connectPads (fun x o => o <| zo_connectPads := x |>) (fun _ x => optb wordv x) py_eqb;
   Edit zo_clearance (fun x o => o <| zo_clearance := x |>) (fun _ => numb) py_eqb;
   Edit zo_minThickness (fun x o => o <| zo_minThickness := x |>) (fun _ => numb) py_eqb;
   Edit zo_filledAreasThickness (fun x o => o <| zo_filledAreasThickness := x |>) (fun _ x => optb wordv x) py_eqb;
   Edit zo_keepoutSettings (fun x o => o <| zo_keepoutSettings := x |>) (fun _ x => optok KeepoutSettings_ok x) (oeqb KeepoutSettings_eqb);
   Edit zo_fillSettings (fun x o => o <| zo_fillSettings := x |>) (fun _ x => optok FillSettings_ok x) (oeqb FillSettings_eqb);
   Edit zo_polygons (fun x o => o <| zo_polygons := x |>) (fun _ x => forallb ZonePolygon_ok x) (leqb ZonePolygon_eqb);
   Edit zo_filledPolygons (fun x o => o <| zo_filledPolygons := x |>) (fun _ x => forallb FilledPolygon_ok x) (leqb FilledPolygon_eqb);
   Edit zo_fillSegments (fun x o => o <| zo_fillSegments := x |>) (fun _ x => optok FillSegments_ok x) (oeqb FillSegments_eqb)].

Definition Attributes_edits : list (edit Attributes) :=
  [Edit fx_type (fun x o => o <| fx_type := x |>) (fun o x => Attributes_ok1 (o <| fx_type := x |>)) py_eqb;
   Edit fx_boardOnly (fun x o => o <| fx_boardOnly := x |>) (fun o x => Attributes_ok1 (o <| fx_boardOnly := x |>)) Bool.eqb;
   Edit fx_excludeFromPosFiles (fun x o => o <| fx_excludeFromPosFiles := x |>) (fun o x => Attributes_ok1 (o <| fx_excludeFromPosFiles := x |>)) Bool.eqb;
   Edit fx_excludeFromBom (fun x o => o <| fx_excludeFromBom := x |>) (fun o x => Attributes_ok1 (o <| fx_excludeFromBom := x |>)) Bool.eqb;
   Edit fx_allowMissingCourtyard (fun x o => o <| fx_allowMissingCourtyard := x |>) (fun o x => Attributes_ok1 (o <| fx_allowMissingCourtyard := x |>)) Bool.eqb].

Definition Model_edits : list (edit Model) :=
  [Edit mo_path (fun x o => o <| mo_path := x |>) (fun _ => txtb) py_eqb;
   Edit mo_pos (fun x o => o <| mo_pos := x |>) (fun _ => Coordinate_ok) Coordinate_eqb;
   Edit mo_scale (fun x o => o <| mo_scale := x |>) (fun _ => Coordinate_ok) Coordinate_eqb;
   Edit mo_rotate (fun x o => o <| mo_rotate := x |>) (fun _ => Coordinate_ok) Coordinate_eqb;
   Edit mo_hide (fun x o => o <| mo_hide := x |>) (fun _ _ => true) Bool.eqb;
   Edit mo_opacity (fun x o => o <| mo_opacity := x |>) (fun _ x => optb numb x) py_eqb].

Definition DrillDefinition_edits : list (edit DrillDefinition) :=
  [Edit dd_oval (fun x o => o <| dd_oval := x |>) (fun o x => if x then negb (is_none (dd_width o)) else is_none (dd_width o) && no_object (dd_offset o)) Bool.eqb;
   Edit dd_diameter (fun x o => o <| dd_diameter := x |>) (fun _ => numb) py_eqb;
   Edit dd_width (fun x o => o <| dd_width := x |>) (fun o x => (optb numb x) && (if dd_oval o then negb (is_none x) else is_none x && no_object (dd_offset o))) py_eqb;
   Edit dd_offset (fun x o => o <| dd_offset := x |>) (fun o x => (optok pos2_ok x) && (if dd_oval o then negb (is_none (dd_width o)) else is_none (dd_width o) && no_object x)) (oeqb Position_eqb)].

Definition PadOptions_edits : list (edit PadOptions) :=
  [Edit pq_clearance (fun x o => o <| pq_clearance := x |>) (fun _ => wordv) py_eqb;
   Edit pq_anchor (fun x o => o <| pq_anchor := x |>) (fun _ => wordv) py_eqb].

Definition Pad_edits : list (edit Pad) :=
  [Edit pd_number (fun x o => o <| pd_number := x |>) (fun _ => txtb) py_eqb;
   Edit pd_type (fun x o => o <| pd_type := x |>) (fun _ => wordv) py_eqb;
   Edit pd_shape (fun x o => o <| pd_shape := x |>) (fun _ x => (wordv x) && (negb (x =s "locked"))) py_eqb;
   Edit pd_position (fun x o => o <| pd_position := x |>) (fun _ => pos3_ok) Position_eqb;
   Edit pd_locked (fun x o => o <| pd_locked := x |>) (fun _ _ => true) Bool.eqb;
   Edit pd_size (fun x o => o <| pd_size := x |>) (fun _ => pos2_ok) Position_eqb;
   Edit pd_drill (fun x o => o <| pd_drill := x |>) (fun _ x => optok DrillDefinition_ok x) (oeqb DrillDefinition_eqb);
   Edit pd_layers (fun x o => o <| pd_layers := x |>) (fun _ x => forallb pad_layer_ok x) (leqb py_eqb);
   Edit pd_property (fun x o => o <| pd_property := x |>) (fun _ x => optb wordv x) py_eqb;
   Edit pd_removeUnusedLayers (fun x o => o <| pd_removeUnusedLayers := x |>) (fun _ _ => true) Bool.eqb;
   Edit pd_keepEndLayers (fun x o => o <| pd_keepEndLayers := x |>) (fun _ _ => true) Bool.eqb;
   Edit pd_roundrectRatio (fun x o => o <| pd_roundrectRatio := x |>) (fun _ x => optb numb x) py_eqb;
   Edit pd_chamferRatio (fun x o => o <| pd_chamferRatio := x |>) (fun _ x => optb numb x) py_eqb;
   Edit pd_chamfer (fun x o => o <| pd_chamfer := x |>) (fun _ x => forallb wordv x) (leqb py_eqb);
   Edit pd_net (fun x o => o <| pd_net := x |>) (fun _ x => optok Net_ok x) (oeqb Net_eqb);
   Edit pd_tstamp (fun x o => o <| pd_tstamp := x |>) (fun _ x => optb wordv x) py_eqb;
   Edit pd_pinFunction (fun x o => o <| pd_pinFunction := x |>) (fun _ x => optb txtb x) py_eqb;
   Edit pd_pinType (fun x o => o <| pd_pinType := x |>) (fun _ x => optb txtb x) py_eqb;
   Edit pd_dieLength (fun x o => o <| pd_dieLength := x |>) (fun _ x => optb numb x) py_eqb;
   Edit pd_solderMaskMargin (fun x o => o <| pd_solderMaskMargin := x |>) (fun _ x => optb numb x) py_eqb;
   Edit pd_solderPasteMargin (fun x o => o <| pd_solderPasteMargin := x |>) (fun _ x => optb numb x) py_eqb;
   Edit pd_solderPasteMarginRatio (fun x o => o <| pd_solderPasteMarginRatio := x |>) (fun _ x => optb numb x) py_eqb;
   Edit pd_clearance (fun x o => o <| pd_clearance := x |>) (fun _ x => optb numb x) py_eqb;
   Edit pd_zoneConnect (fun x o => o <| pd_zoneConnect := x |>) (fun _ x => optb numb x) py_eqb;
   Edit pd_thermalWidth (fun x o => o <| pd_thermalWidth := x |>) (fun _ x => optb numb x) py_eqb;
   Edit pd_thermalGap (fun x o => o <| pd_thermalGap := x |>) (fun _ x => optb numb x) py_eqb;
   Edit pd_customPadOptions (fun x o => o <| pd_customPadOptions := x |>) (fun _ x => optok PadOptions_ok x) (oeqb PadOptions_eqb);
   Edit pd_customPadPrimitives (fun x o => o <| pd_customPadPrimitives := x |>) (fun _ x => forallb PadPrimitive_ok x) (leqb PadPrimitive_eqb)].

Definition Footprint_edits : list (edit Footprint) :=
  [Edit fd_libraryNickname (fun x o => o <| fd_libraryNickname := x |>) (fun o x => fp_id_ok x (fd_entryName o)) py_eqb;
   Edit fd_entryName (fun x o => o <| fd_entryName := x |>) (fun o x => fp_id_ok (fd_libraryNickname o) x) py_eqb;
   Edit fd_version (fun x o => o <| fd_version := x |>) (fun _ x => optb atomb x) py_eqb;
   Edit fd_generator (fun x o => o <| fd_generator := x |>) (fun _ x => optb atomb x) py_eqb;
   Edit fd_locked (fun x o => o <| fd_locked := x |>) (fun _ _ => true) Bool.eqb;
   Edit fd_placed (fun x o => o <| fd_placed := x |>) (fun _ _ => true) Bool.eqb;
   Edit fd_layer (fun x o => o <| fd_layer := x |>) (fun _ => txtb) py_eqb;
   Edit fd_tedit (fun x o => o <| fd_tedit := x |>) (fun _ => atomb) py_eqb;
   Edit fd_tstamp (fun x o => o <| fd_tstamp := x |>) (fun _ x => optb wordv x) py_eqb;
   Edit fd_position (fun x o => o <| fd_position := x |>) (fun _ x => optok pos3_ok x) (oeqb Position_eqb);
   Edit fd_description (fun x o => o <| fd_description := x |>) (fun _ x => optb txtb x) py_eqb;
   Edit fd_tags (fun x o => o <| fd_tags := x |>) (fun _ x => optb txtb x) py_eqb;
   Edit fd_properties (fun x o => o <| fd_properties := x |>) (fun _ => text_dict_ok) (leqb kveqb);
   Edit fd_path (fun x o => o <| fd_path := x |>) (fun _ x => optb txtb x) py_eqb;
   Edit fd_autoplaceCost90 (fun x o => o <| fd_autoplaceCost90 := x |>) (fun _ x => optb numb x) py_eqb;
   Edit fd_autoplaceCost180 (fun x o => o <| fd_autoplaceCost180 := x |>) (fun _ x => optb numb x) py_eqb;
   Edit fd_solderMaskMargin (fun x o => o <| fd_solderMaskMargin := x |>) (fun _ x => optb numb x) py_eqb;
   Edit fd_solderPasteMargin (fun x o => o <| fd_solderPasteMargin := x |>) (fun _ x => optb numb x) py_eqb;
   Edit fd_solderPasteRatio (fun x o => o <| fd_solderPasteRatio := x |>) (fun _ x => optb numb x) py_eqb;
   Edit fd_clearance (fun x o => o <| fd_clearance := x |>) (fun _ x => optb numb x) py_eqb;
   Edit fd_zoneConnect (fun x o => o <| fd_zoneConnect := x |>) (fun _ x => optb numb x) py_eqb;
   Edit fd_thermalWidth (fun x o => o <| fd_thermalWidth := x |>) (fun _ x => optb numb x) py_eqb;
   Edit fd_thermalGap (fun x o => o <| fd_thermalGap := x |>) (fun _ x => optb numb x) py_eqb;
   Edit fd_attributes (fun x o => o <| fd_attributes := x |>) (fun _ => Attributes_ok) Attributes_eqb;
   Edit fd_privateLayers (fun x o => o <| fd_privateLayers := x |>) (fun _ x => forallb txtb x) (leqb py_eqb);
   Edit fd_netTiePadGroups (fun x o => o <| fd_netTiePadGroups := x |>) (fun _ x => forallb txtb x) (leqb py_eqb);
   Edit fd_graphicItems (fun x o => o <| fd_graphicItems := x |>) (fun _ x => forallb FpItem_ok x) (leqb FpItem_eqb);
   Edit fd_pads (fun x o => o <| fd_pads := x |>) (fun _ x => forallb Pad_ok x) (leqb Pad_eqb);
   Edit fd_zones (fun x o => o <| fd_zones := x |>) (fun _ x => forallb Zone_ok x) (leqb Zone_eqb);
   Edit fd_groups (fun x o => o <| fd_groups := x |>) (fun _ x => forallb Group_ok x) (leqb Group_eqb);
   Edit fd_models (fun x o => o <| fd_models := x |>) (fun _ x => forallb Model_ok x) (leqb Model_eqb)].

Definition DimensionFormat_edits : list (edit DimensionFormat) :=
  [Edit df_prefix (fun x o => o <| df_prefix := x |>) (fun _ x => optb txtb x) py_eqb;
   Edit df_suffix (fun x o => o <| df_suffix := x |>) (fun _ x => optb txtb x) py_eqb;
   Edit df_units (fun x o => o <| df_units := x |>) (fun _ => numb) py_eqb;
   Edit df_unitsFormat (fun x o => o <| df_unitsFormat := x |>) (fun _ => numb) py_eqb;
   Edit df_precision (fun x o => o <| df_precision := x |>) (fun _ => numb) py_eqb;
   Edit df_overrideValue (fun x o => o <| df_overrideValue := x |>) (fun _ x => optb txtb x) py_eqb;
   Edit df_suppressZeroes (fun x o => o <| df_suppressZeroes := x |>) (fun _ _ => true) Bool.eqb].

Definition DimensionStyle_edits : list (edit DimensionStyle) :=
  [Edit ds_thickness (fun x o => o <| ds_thickness := x |>) (fun _ => numb) py_eqb;
   Edit ds_arrowLength (fun x o => o <| ds_arrowLength := x |>) (fun _ => numb) py_eqb;
   Edit ds_textPositionMode (fun x o => o <| ds_textPositionMode := x |>) (fun _ => numb) py_eqb;
   Edit ds_extensionHeight (fun x o => o <| ds_extensionHeight := x |>) (fun _ x => optb numb x) py_eqb;
   Edit ds_textFrame (fun x o => o <| ds_textFrame := x |>) (fun _ x => optb numb x) py_eqb;
   Edit ds_extensionOffset (fun x o => o <| ds_extensionOffset := x |>) (fun _ x => optb numb x) py_eqb;
   Edit ds_keepTextAligned (fun x o => o <| ds_keepTextAligned := x |>) (fun _ _ => true) Bool.eqb].

Definition Dimension_edits : list (edit Dimension) :=
  [Edit di_type (fun x o => o <| di_type := x |>) (fun _ => atomb) py_eqb;
   Edit di_layer (fun x o => o <| di_layer := x |>) (fun _ => rawtxtb) py_eqb;
   Edit di_tstamp (fun x o => o <| di_tstamp := x |>) (fun _ => atomb) py_eqb;
   Edit di_pts (fun x o => o <| di_pts := x |>) (fun _ x => (forallb pos2_ok x) && (negb (Nat.eqb (length x) 0))) (leqb Position_eqb);
   Edit di_height (fun x o => o <| di_height := x |>) (fun _ x => optb numb x) py_eqb;
   Edit di_orientation (fun x o => o <| di_orientation := x |>) (fun _ x => optb numb x) py_eqb;
   Edit di_leaderLength (fun x o => o <| di_leaderLength := x |>) (fun _ x => optb numb x) py_eqb;
   Edit di_grText (fun x o => o <| di_grText := x |>) (fun _ x => optok GrText_ok x) (oeqb GrText_eqb);
   Edit di_format (fun x o => o <| di_format := x |>) (fun _ x => optok DimensionFormat_ok x) (oeqb DimensionFormat_eqb);
   Edit di_style (fun x o => o <| di_style := x |>) (fun _ => DimensionStyle_ok) DimensionStyle_eqb].

Definition GeneralSettings_edits : list (edit GeneralSettings) :=
  [Edit gs_thickness (fun x o => o <| gs_thickness := x |>) (fun _ => numb) py_eqb].

Definition LayerToken_edits : list (edit LayerToken) :=
  [Edit lt_ordinal (fun x o => o <| lt_ordinal := x |>) (fun _ => numb) py_eqb;
   Edit lt_name (fun x o => o <| lt_name := x |>) (fun _ => txtb) py_eqb;
   Edit M_Brd.lt_type (fun x o => o <| M_Brd.lt_type := x |>) (fun _ => atomb) py_eqb;
   Edit lt_userName (fun x o => o <| lt_userName := x |>) (fun _ x => optb txtb x) py_eqb].

Definition StackupLayer_edits : list (edit StackupLayer) :=
  [Edit sl_name (fun x o => o <| sl_name := x |>) (fun _ => txtb) py_eqb;
   Edit sl_type (fun x o => o <| sl_type := x |>) (fun _ => rawtxtb) py_eqb;
   Edit sl_color (fun x o => o <| sl_color := x |>) (fun _ x => optb txtb x) py_eqb;
   Edit sl_thickness (fun x o => o <| sl_thickness := x |>) (fun _ x => optb numb x) py_eqb;
   Edit sl_material (fun x o => o <| sl_material := x |>) (fun _ x => optb txtb x) py_eqb;
   Edit sl_epsilonR (fun x o => o <| sl_epsilonR := x |>) (fun _ x => optb numb x) py_eqb;
   Edit sl_lossTangent (fun x o => o <| sl_lossTangent := x |>) (fun _ x => optb numb x) py_eqb;
   Edit sl_subLayers (fun x o => o <| sl_subLayers := x |>) (fun _ x => forallb StackupSubLayer_ok x) (leqb StackupSubLayer_eqb)].

Definition Stackup_edits : list (edit Stackup) :=
  [Edit sk_layers (fun x o => o <| sk_layers := x |>) (fun _ x => forallb StackupLayer_ok x) (leqb StackupLayer_eqb);
   Edit sk_copperFinish (fun x o => o <| sk_copperFinish := x |>) (fun _ x => optb txtb x) py_eqb;
   Edit sk_dielectricContraints (fun x o => o <| sk_dielectricContraints := x |>) (fun _ x => optb atomb x) py_eqb;
   Edit sk_edgeConnector (fun x o => o <| sk_edgeConnector := x |>) (fun _ x => optb atomb x) py_eqb;
   Edit sk_castellatedPads (fun x o => o <| sk_castellatedPads := x |>) (fun _ _ => true) Bool.eqb;
   Edit sk_edgePlating (fun x o => o <| sk_edgePlating := x |>) (fun _ _ => true) Bool.eqb].

Definition PlotSettings_edits : list (edit PlotSettings) :=
  [Edit ps_layerSelection (fun x o => o <| ps_layerSelection := x |>) (fun _ => atomb) py_eqb;
   Edit ps_plotOnAllLayersSelection (fun x o => o <| ps_plotOnAllLayersSelection := x |>) (fun _ x => optb atomb x) py_eqb;
   Edit ps_disableApertMacros (fun x o => o <| ps_disableApertMacros := x |>) (fun _ _ => true) Bool.eqb;
   Edit ps_useGerberExtensions (fun x o => o <| ps_useGerberExtensions := x |>) (fun _ _ => true) Bool.eqb;
   Edit ps_useGerberAttributes (fun x o => o <| ps_useGerberAttributes := x |>) (fun _ _ => true) Bool.eqb;
   Edit ps_useGerberAdvancedAttributes (fun x o => o <| ps_useGerberAdvancedAttributes := x |>) (fun _ _ => true) Bool.eqb;
   Edit ps_createGerberJobFile (fun x o => o <| ps_createGerberJobFile := x |>) (fun _ _ => true) Bool.eqb;
   Edit ps_dashedLineDashRatio (fun x o => o <| ps_dashedLineDashRatio := x |>) (fun _ x => optb (fixb 6) x) py_eqb;
   Edit ps_dashedLineGapRatio (fun x o => o <| ps_dashedLineGapRatio := x |>) (fun _ x => optb (fixb 6) x) py_eqb;
   Edit ps_svgUseInch (fun x o => o <| ps_svgUseInch := x |>) (fun _ _ => true) (oeqb Bool.eqb);
   Edit ps_svgPrecision (fun x o => o <| ps_svgPrecision := x |>) (fun _ => numb) py_eqb;
   Edit ps_excludeEdgeLayer (fun x o => o <| ps_excludeEdgeLayer := x |>) (fun _ _ => true) (oeqb Bool.eqb);
   Edit ps_plotFameRef (fun x o => o <| ps_plotFameRef := x |>) (fun _ _ => true) Bool.eqb;
   Edit ps_viasOnMask (fun x o => o <| ps_viasOnMask := x |>) (fun _ _ => true) Bool.eqb;
   Edit ps_mode (fun x o => o <| ps_mode := x |>) (fun _ => numb) py_eqb;
   Edit ps_hpglPenNumber (fun x o => o <| ps_hpglPenNumber := x |>) (fun _ => numb) py_eqb;
   Edit ps_hpglPenSpeed (fun x o => o <| ps_hpglPenSpeed := x |>) (fun _ => numb) py_eqb;
   Edit ps_hpglPenDiameter (fun x o => o <| ps_hpglPenDiameter := x |>) (fun _ x => fixb 6 x) py_eqb;
   Edit ps_dxfPolygonMode (fun x o => o <| ps_dxfPolygonMode := x |>) (fun _ _ => true) Bool.eqb;
   Edit ps_dxfImperialUnits (fun x o => o <| ps_dxfImperialUnits := x |>) (fun _ _ => true) Bool.eqb;
   Edit ps_dxfUsePcbnewFont (fun x o => o <| ps_dxfUsePcbnewFont := x |>) (fun _ _ => true) Bool.eqb;
   Edit ps_psNegative (fun x o => o <| ps_psNegative := x |>) (fun _ _ => true) Bool.eqb;
   Edit ps_psA4Output (fun x o => o <| ps_psA4Output := x |>) (fun _ _ => true) Bool.eqb;
   Edit ps_plotReference (fun x o => o <| ps_plotReference := x |>) (fun _ _ => true) Bool.eqb;
   Edit ps_plotValue (fun x o => o <| ps_plotValue := x |>) (fun _ _ => true) Bool.eqb;
   Edit ps_plotInvisibleText (fun x o => o <| ps_plotInvisibleText := x |>) (fun _ _ => true) Bool.eqb;
   Edit ps_sketchPadsOnFab (fun x o => o <| ps_sketchPadsOnFab := x |>) (fun _ _ => true) Bool.eqb;
   Edit ps_subtractMaskFromSilk (fun x o => o <| ps_subtractMaskFromSilk := x |>) (fun _ _ => true) Bool.eqb;
   Edit ps_outputFormat (fun x o => o <| ps_outputFormat := x |>) (fun _ => numb) py_eqb;
   Edit ps_mirror (fun x o => o <| ps_mirror := x |>) (fun _ _ => true) Bool.eqb;
   Edit ps_drillShape (fun x o => o <| ps_drillShape := x |>) (fun _ => numb) py_eqb;
   Edit ps_scaleSelection (fun x o => o <| ps_scaleSelection := x |>) (fun _ => numb) py_eqb;
   Edit ps_outputDirectory (fun x o => o <| ps_outputDirectory := x |>) (fun _ => txtb) py_eqb].

Definition SetupData_edits : list (edit SetupData) :=
  [Edit sd_stackup (fun x o => o <| sd_stackup := x |>) (fun _ x => optok Stackup_ok x) (oeqb Stackup_eqb);
   Edit sd_packToMaskClearance (fun x o => o <| sd_packToMaskClearance := x |>) (fun _ => numb) py_eqb;
   Edit sd_solderMaskMinWidth (fun x o => o <| sd_solderMaskMinWidth := x |>) (fun _ x => optb numb x) py_eqb;
   Edit sd_padToPasteClearance (fun x o => o <| sd_padToPasteClearance := x |>) (fun _ x => optb numb x) py_eqb;
   Edit sd_padToPasteClearanceRatio (fun x o => o <| sd_padToPasteClearanceRatio := x |>) (fun _ x => optb numb x) py_eqb;
   Edit sd_auxAxisOrigin (fun x o => o <| sd_auxAxisOrigin := x |>) (fun _ x => optok pos2_ok x) (oeqb Position_eqb);
   Edit sd_gridOrigin (fun x o => o <| sd_gridOrigin := x |>) (fun _ x => optok pos2_ok x) (oeqb Position_eqb);
   Edit sd_plotSettings (fun x o => o <| sd_plotSettings := x |>) (fun _ x => optok PlotSettings_ok x) (oeqb PlotSettings_eqb)].

Definition Segment_edits : list (edit Segment) :=
  [Edit sg_start (fun x o => o <| sg_start := x |>) (fun _ => pos2_ok) Position_eqb;
   Edit sg_end (fun x o => o <| sg_end := x |>) (fun _ => pos2_ok) Position_eqb;
   Edit sg_width (fun x o => o <| sg_width := x |>) (fun _ => numb) py_eqb;
   Edit sg_layer (fun x o => o <| sg_layer := x |>) (fun _ => txtb) py_eqb;
   Edit sg_locked (fun x o => o <| sg_locked := x |>) (fun _ _ => true) Bool.eqb;
   Edit sg_net (fun x o => o <| sg_net := x |>) (fun _ => numb) py_eqb;
   Edit sg_tstamp (fun x o => o <| sg_tstamp := x |>) (fun _ => atomb) py_eqb].

Definition Via_edits : list (edit Via) :=
  [Edit vi_type (fun x o => o <| vi_type := x |>) (fun _ x => optb (enumb ["micro"%string; "blind"%string]) x) py_eqb;
   Edit vi_locked (fun x o => o <| vi_locked := x |>) (fun _ _ => true) Bool.eqb;
   Edit vi_position (fun x o => o <| vi_position := x |>) (fun _ => pos2_ok) Position_eqb;
   Edit vi_size (fun x o => o <| vi_size := x |>) (fun _ => numb) py_eqb;
   Edit vi_drill (fun x o => o <| vi_drill := x |>) (fun _ => numb) py_eqb;
   Edit vi_layers (fun x o => o <| vi_layers := x |>) (fun _ x => forallb txtb x) (leqb py_eqb);
   Edit vi_removeUnusedLayers (fun x o => o <| vi_removeUnusedLayers := x |>) (fun _ _ => true) Bool.eqb;
   Edit vi_keepEndLayers (fun x o => o <| vi_keepEndLayers := x |>) (fun _ _ => true) Bool.eqb;
   Edit vi_free (fun x o => o <| vi_free := x |>) (fun _ _ => true) Bool.eqb;
   Edit vi_net (fun x o => o <| vi_net := x |>) (fun _ => numb) py_eqb;
   Edit vi_tstamp (fun x o => o <| vi_tstamp := x |>) (fun _ x => optb atomb x) py_eqb].

Definition Arc_edits : list (edit Arc) :=
  [Edit ac_start (fun x o => o <| ac_start := x |>) (fun _ => pos2_ok) Position_eqb;
   Edit ac_mid (fun x o => o <| ac_mid := x |>) (fun _ => pos2_ok) Position_eqb;
   Edit ac_end (fun x o => o <| ac_end := x |>) (fun _ => pos2_ok) Position_eqb;
   Edit ac_width (fun x o => o <| ac_width := x |>) (fun _ => numb) py_eqb;
   Edit ac_layer (fun x o => o <| ac_layer := x |>) (fun _ => txtb) py_eqb;
   Edit ac_locked (fun x o => o <| ac_locked := x |>) (fun _ _ => true) Bool.eqb;
   Edit ac_net (fun x o => o <| ac_net := x |>) (fun _ => numb) py_eqb;
   Edit ac_tstamp (fun x o => o <| ac_tstamp := x |>) (fun _ x => optb atomb x) py_eqb].

Definition Target_edits : list (edit Target) :=
  [Edit tg_type (fun x o => o <| tg_type := x |>) (fun _ => atomb) py_eqb;
   Edit tg_position (fun x o => o <| tg_position := x |>) (fun _ => pos2_ok) Position_eqb;
   Edit tg_size (fun x o => o <| tg_size := x |>) (fun _ => numb) py_eqb;
   Edit tg_width (fun x o => o <| tg_width := x |>) (fun _ => numb) py_eqb;
   Edit tg_layer (fun x o => o <| tg_layer := x |>) (fun _ => rawtxtb) py_eqb;
   Edit tg_tstamp (fun x o => o <| tg_tstamp := x |>) (fun _ => atomb) py_eqb].

Definition Board_edits : list (edit Board) :=
  [Edit bd_version (fun x o => o <| bd_version := x |>) (fun _ => atomb) py_eqb;
   Edit bd_generator (fun x o => o <| bd_generator := x |>) (fun _ => atomb) py_eqb;
   Edit bd_general (fun x o => o <| bd_general := x |>) (fun _ => GeneralSettings_ok) GeneralSettings_eqb;
   Edit bd_paper (fun x o => o <| bd_paper := x |>) (fun _ => PageSettings_ok) PageSettings_eqb;
   Edit bd_titleBlock (fun x o => o <| bd_titleBlock := x |>) (fun _ x => optok TitleBlock_ok x) (oeqb TitleBlock_eqb);
   Edit bd_layers (fun x o => o <| bd_layers := x |>) (fun _ x => forallb LayerToken_ok x) (leqb LayerToken_eqb);
   Edit bd_setup (fun x o => o <| bd_setup := x |>) (fun _ => SetupData_ok) SetupData_eqb;
   Edit bd_properties (fun x o => o <| bd_properties := x |>) (fun _ => text_dict_ok) (leqb kveqb);
   Edit bd_nets (fun x o => o <| bd_nets := x |>) (fun _ x => forallb Net_ok x) (leqb Net_eqb);
   Edit bd_footprints (fun x o => o <| bd_footprints := x |>) (fun _ x => forallb Footprint_ok x) (leqb Footprint_eqb);
   Edit bd_graphicItems (fun x o => o <| bd_graphicItems := x |>) (fun _ x => forallb BdItem_ok x) (leqb BdItem_eqb);
   Edit bd_traceItems (fun x o => o <| bd_traceItems := x |>) (fun _ x => forallb TrItem_ok x) (leqb TrItem_eqb);
   Edit bd_zones (fun x o => o <| bd_zones := x |>) (fun _ x => forallb Zone_ok x) (leqb Zone_eqb);
   Edit bd_dimensions (fun x o => o <| bd_dimensions := x |>) (fun _ x => forallb Dimension_ok x) (leqb Dimension_eqb);
   Edit bd_targets (fun x o => o <| bd_targets := x |>) (fun _ x => forallb Target_ok x) (leqb Target_eqb);
   Edit bd_groups (fun x o => o <| bd_groups := x |>) (fun _ x => forallb Group_ok x) (leqb Group_eqb)].

Definition Junction_edits : list (edit Junction) :=
  [Edit jn_position (fun x o => o <| jn_position := x |>) (fun _ => pos2_ok) Position_eqb;
   Edit jn_diameter (fun x o => o <| jn_diameter := x |>) (fun _ => zerov) py_eqb;
   Edit jn_color (fun x o => o <| jn_color := x |>) (fun _ => JColor_ok) JColor_eqb;
   Edit jn_uuid (fun x o => o <| jn_uuid := x |>) (fun _ x => optb wordv x) py_eqb].

Definition NoConnect_edits : list (edit NoConnect) :=
  [Edit nc_position (fun x o => o <| nc_position := x |>) (fun _ => pos2_ok) Position_eqb;
   Edit nc_uuid (fun x o => o <| nc_uuid := x |>) (fun _ x => optb wordv x) py_eqb].

Definition BusEntry_edits : list (edit BusEntry) :=
  [Edit be_position (fun x o => o <| be_position := x |>) (fun _ => pos2_ok) Position_eqb;
   Edit be_uuid (fun x o => o <| be_uuid := x |>) (fun _ x => optb wordv x) py_eqb;
   Edit be_size (fun x o => o <| be_size := x |>) (fun _ => pos2_ok) Position_eqb;
   Edit be_stroke (fun x o => o <| be_stroke := x |>) (fun _ => Stroke_ok) Stroke_eqb].

Definition BusAlias_edits : list (edit BusAlias) :=
  [Edit ba_name (fun x o => o <| ba_name := x |>) (fun _ => txtb) py_eqb;
   Edit ba_members (fun x o => o <| ba_members := x |>) (fun _ x => forallb txtb x) (leqb py_eqb)].

Definition Connection_edits : list (edit Connection) :=
  [Edit cx_type (fun x o => o <| cx_type := x |>) (fun _ x => enumb ["wire"%string; "bus"%string] x) py_eqb;
   Edit cx_points (fun x o => o <| cx_points := x |>) (fun _ x => forallb pos2_ok x) (leqb Position_eqb);
   Edit cx_stroke (fun x o => o <| cx_stroke := x |>) (fun _ => Stroke_ok) Stroke_eqb;
   Edit cx_uuid (fun x o => o <| cx_uuid := x |>) (fun _ x => optb wordv x) py_eqb].

Definition PolyLine_edits : list (edit PolyLine) :=
  [Edit pl_points (fun x o => o <| pl_points := x |>) (fun _ x => forallb pos2_ok x) (leqb Position_eqb);
   Edit pl_stroke (fun x o => o <| pl_stroke := x |>) (fun _ => Stroke_ok) Stroke_eqb;
   Edit pl_uuid (fun x o => o <| pl_uuid := x |>) (fun _ x => optb wordv x) py_eqb].

Definition Text_edits : list (edit Text) :=
  [Edit tx_text (fun x o => o <| tx_text := x |>) (fun _ => txtb) py_eqb;
   Edit tx_position (fun x o => o <| tx_position := x |>) (fun _ => pos3_ok) Position_eqb;
   Edit tx_effects (fun x o => o <| tx_effects := x |>) (fun _ => Effects_ok) Effects_eqb;
   Edit tx_uuid (fun x o => o <| tx_uuid := x |>) (fun _ x => optb wordv x) py_eqb].

Definition TextBox_edits : list (edit TextBox) :=
  [Edit bx_text (fun x o => o <| bx_text := x |>) (fun _ => txtb) py_eqb;
   Edit bx_position (fun x o => o <| bx_position := x |>) (fun _ => pos3_ok) Position_eqb;
   Edit bx_size (fun x o => o <| bx_size := x |>) (fun _ => pos2_ok) Position_eqb;
   Edit bx_stroke (fun x o => o <| bx_stroke := x |>) (fun _ => Stroke_ok) Stroke_eqb;
   Edit bx_fill (fun x o => o <| bx_fill := x |>) (fun _ => Fill_ok) Fill_eqb;
   Edit bx_effects (fun x o => o <| bx_effects := x |>) (fun _ => Effects_ok) Effects_eqb;
   Edit bx_uuid (fun x o => o <| bx_uuid := x |>) (fun _ x => optb wordv x) py_eqb].

Definition LocalLabel_edits : list (edit LocalLabel) :=
  [Edit ll_text (fun x o => o <| ll_text := x |>) (fun _ => txtb) py_eqb;
   Edit ll_position (fun x o => o <| ll_position := x |>) (fun _ => pos3_ok) Position_eqb;
   Edit ll_effects (fun x o => o <| ll_effects := x |>) (fun _ => Effects_ok) Effects_eqb;
   Edit ll_uuid (fun x o => o <| ll_uuid := x |>) (fun _ x => optb wordv x) py_eqb;
   Edit ll_fieldsAutoplaced (fun x o => o <| ll_fieldsAutoplaced := x |>) (fun _ _ => true) Bool.eqb].

Definition GlobalLabel_edits : list (edit GlobalLabel) :=
  [Edit gla_text (fun x o => o <| gla_text := x |>) (fun _ => txtb) py_eqb;
   Edit gla_shape (fun x o => o <| gla_shape := x |>) (fun _ => atomb) py_eqb;
   Edit gla_fieldsAutoplaced (fun x o => o <| gla_fieldsAutoplaced := x |>) (fun _ _ => true) Bool.eqb;
   Edit gla_position (fun x o => o <| gla_position := x |>) (fun _ => pos3_ok) Position_eqb;
   Edit gla_effects (fun x o => o <| gla_effects := x |>) (fun _ => Effects_ok) Effects_eqb;
   Edit gla_uuid (fun x o => o <| gla_uuid := x |>) (fun _ x => optb wordv x) py_eqb;
   Edit gla_properties (fun x o => o <| gla_properties := x |>) (fun _ x => forallb Property_ok x) (leqb Property_eqb)].

Definition HierarchicalLabel_edits : list (edit HierarchicalLabel) :=
  [Edit hl_text (fun x o => o <| hl_text := x |>) (fun _ => txtb) py_eqb;
   Edit hl_shape (fun x o => o <| hl_shape := x |>) (fun _ => atomb) py_eqb;
   Edit hl_position (fun x o => o <| hl_position := x |>) (fun _ => pos3_ok) Position_eqb;
   Edit hl_effects (fun x o => o <| hl_effects := x |>) (fun _ => Effects_ok) Effects_eqb;
   Edit hl_uuid (fun x o => o <| hl_uuid := x |>) (fun _ x => optb wordv x) py_eqb;
   Edit hl_fieldsAutoplaced (fun x o => o <| hl_fieldsAutoplaced := x |>) (fun _ _ => true) Bool.eqb].

Definition SymbolProjectPath_edits : list (edit SymbolProjectPath) :=
  [Edit spp_sheetInstancePath (fun x o => o <| spp_sheetInstancePath := x |>) (fun _ => txtb) py_eqb;
   Edit spp_reference (fun x o => o <| spp_reference := x |>) (fun _ => txtb) py_eqb;
   Edit spp_unit (fun x o => o <| spp_unit := x |>) (fun _ => atomb) py_eqb].

Definition SymbolProjectInstance_edits : list (edit SymbolProjectInstance) :=
  [Edit spi_name (fun x o => o <| spi_name := x |>) (fun _ => txtb) py_eqb;
   Edit spi_paths (fun x o => o <| spi_paths := x |>) (fun _ x => forallb SymbolProjectPath_ok x) (leqb SymbolProjectPath_eqb)].

Definition SchematicSymbol_edits : list (edit SchematicSymbol) :=
  [Edit ss_libraryNickname (fun x o => o <| ss_libraryNickname := x |>) (fun o x => fp_id_ok x (ss_entryName o)) py_eqb;
   Edit ss_entryName (fun x o => o <| ss_entryName := x |>) (fun o x => fp_id_ok (ss_libraryNickname o) x) py_eqb;
   Edit ss_libName (fun x o => o <| ss_libName := x |>) (fun _ x => optb txtb x) py_eqb;
   Edit ss_position (fun x o => o <| ss_position := x |>) (fun _ => pos3_ok) Position_eqb;
   Edit ss_unit (fun x o => o <| ss_unit := x |>) (fun _ x => optb numb x) py_eqb;
   Edit ss_inBom (fun x o => o <| ss_inBom := x |>) (fun _ _ => true) Bool.eqb;
   Edit ss_onBoard (fun x o => o <| ss_onBoard := x |>) (fun _ _ => true) Bool.eqb;
   Edit ss_dnp (fun x o => o <| ss_dnp := x |>) (fun _ _ => true) (oeqb Bool.eqb);
   Edit ss_fieldsAutoplaced (fun x o => o <| ss_fieldsAutoplaced := x |>) (fun _ _ => true) Bool.eqb;
   Edit ss_uuid (fun x o => o <| ss_uuid := x |>) (fun _ => uuid0_ok) py_eqb;
   Edit ss_properties (fun x o => o <| ss_properties := x |>) (fun _ x => forallb Property_ok x) (leqb Property_eqb);
   Edit ss_pins (fun x o => o <| ss_pins := x |>) (fun _ => pin_dict_ok) (leqb kveqb);
   Edit ss_mirror (fun x o => o <| ss_mirror := x |>) (fun _ x => optb wordv x) py_eqb;
   Edit ss_instances (fun x o => o <| ss_instances := x |>) (fun _ x => forallb SymbolProjectInstance_ok x) (leqb SymbolProjectInstance_eqb)].

Definition HierarchicalPin_edits : list (edit HierarchicalPin) :=
  [Edit hp_name (fun x o => o <| hp_name := x |>) (fun _ => txtb) py_eqb;
   Edit hp_connectionType (fun x o => o <| hp_connectionType := x |>) (fun _ => atomb) py_eqb;
   Edit hp_position (fun x o => o <| hp_position := x |>) (fun _ => pos3_ok) Position_eqb;
   Edit hp_effects (fun x o => o <| hp_effects := x |>) (fun _ => Effects_ok) Effects_eqb;
   Edit hp_uuid (fun x o => o <| hp_uuid := x |>) (fun _ x => optb wordv x) py_eqb].

Definition HierarchicalSheetProjectPath_edits : list (edit HierarchicalSheetProjectPath) :=
  [Edit hpp_sheetInstancePath (fun x o => o <| hpp_sheetInstancePath := x |>) (fun _ => txtb) py_eqb;
   Edit hpp_page (fun x o => o <| hpp_page := x |>) (fun _ => txtb) py_eqb].

Definition HierarchicalSheetProjectInstance_edits : list (edit HierarchicalSheetProjectInstance) :=
  [Edit hpi_name (fun x o => o <| hpi_name := x |>) (fun _ => txtb) py_eqb;
   Edit hpi_paths (fun x o => o <| hpi_paths := x |>) (fun _ x => forallb HierarchicalSheetProjectPath_ok x) (leqb HierarchicalSheetProjectPath_eqb)].

Definition HierarchicalSheet_edits : list (edit HierarchicalSheet) :=
  [Edit hs_position (fun x o => o <| hs_position := x |>) (fun _ => pos2_ok) Position_eqb;
   Edit hs_width (fun x o => o <| hs_width := x |>) (fun _ => numb) py_eqb;
   Edit hs_height (fun x o => o <| hs_height := x |>) (fun _ => numb) py_eqb;
   Edit hs_fieldsAutoplaced (fun x o => o <| hs_fieldsAutoplaced := x |>) (fun _ _ => true) Bool.eqb;
   Edit hs_stroke (fun x o => o <| hs_stroke := x |>) (fun _ => Stroke_ok) Stroke_eqb;
   Edit hs_fill (fun x o => o <| hs_fill := x |>) (fun _ => fill4_ok) ColorRGBA_eqb;
   Edit hs_uuid (fun x o => o <| hs_uuid := x |>) (fun _ x => optb wordv x) py_eqb;
   Edit hs_sheetName (fun x o => o <| hs_sheetName := x |>) (fun o x => (Property_ok x) && (sheet_keys_ok x (hs_fileName o) (hs_properties o))) Property_eqb;
   Edit hs_fileName (fun x o => o <| hs_fileName := x |>) (fun o x => (Property_ok x) && (sheet_keys_ok (hs_sheetName o) x (hs_properties o))) Property_eqb;
   Edit hs_properties (fun x o => o <| hs_properties := x |>) (fun o x => (forallb Property_ok x) && (sheet_keys_ok (hs_sheetName o) (hs_fileName o) x)) (leqb Property_eqb);
   Edit hs_pins (fun x o => o <| hs_pins := x |>) (fun _ x => forallb HierarchicalPin_ok x) (leqb HierarchicalPin_eqb);
   Edit hs_instances (fun x o => o <| hs_instances := x |>) (fun _ x => forallb HierarchicalSheetProjectInstance_ok x) (leqb HierarchicalSheetProjectInstance_eqb)].

Definition HierarchicalSheetInstance_edits : list (edit HierarchicalSheetInstance) :=
  [Edit hi_instancePath (fun x o => o <| hi_instancePath := x |>) (fun _ => txtb) py_eqb;
   Edit hi_page (fun x o => o <| hi_page := x |>) (fun _ => txtb) py_eqb].

Definition SymbolInstance_edits : list (edit SymbolInstance) :=
  [Edit syi_path (fun x o => o <| syi_path := x |>) (fun _ => txtb) py_eqb;
   Edit syi_reference (fun x o => o <| syi_reference := x |>) (fun _ => txtb) py_eqb;
   Edit syi_unit (fun x o => o <| syi_unit := x |>) (fun _ => atomb) py_eqb;
   Edit syi_value (fun x o => o <| syi_value := x |>) (fun _ => txtb) py_eqb;
   Edit syi_footprint (fun x o => o <| syi_footprint := x |>) (fun _ => txtb) py_eqb].

Definition Rectangle_edits : list (edit Rectangle) :=
  [Edit rct_start (fun x o => o <| rct_start := x |>) (fun _ => pos2_ok) Position_eqb;
   Edit rct_end (fun x o => o <| rct_end := x |>) (fun _ => pos2_ok) Position_eqb;
   Edit rct_stroke (fun x o => o <| rct_stroke := x |>) (fun _ => Stroke_ok) Stroke_eqb;
   Edit rct_fill (fun x o => o <| rct_fill := x |>) (fun _ => Fill_ok) Fill_eqb;
   Edit rct_uuid (fun x o => o <| rct_uuid := x |>) (fun _ x => optb wordv x) py_eqb].

Definition SchArc_edits : list (edit SchArc) :=
  [Edit sar_start (fun x o => o <| sar_start := x |>) (fun _ => pos2_ok) Position_eqb;
   Edit sar_mid (fun x o => o <| sar_mid := x |>) (fun _ => pos2_ok) Position_eqb;
   Edit sar_end (fun x o => o <| sar_end := x |>) (fun _ => pos2_ok) Position_eqb;
   Edit sar_stroke (fun x o => o <| sar_stroke := x |>) (fun _ => Stroke_ok) Stroke_eqb;
   Edit sar_fill (fun x o => o <| sar_fill := x |>) (fun _ => Fill_ok) Fill_eqb;
   Edit sar_uuid (fun x o => o <| sar_uuid := x |>) (fun _ x => optb wordv x) py_eqb].

Definition Circle_edits : list (edit Circle) :=
  [Edit cir_center (fun x o => o <| cir_center := x |>) (fun _ => pos2_ok) Position_eqb;
   Edit cir_radius (fun x o => o <| cir_radius := x |>) (fun _ => numb) py_eqb;
   Edit cir_stroke (fun x o => o <| cir_stroke := x |>) (fun _ => Stroke_ok) Stroke_eqb;
   Edit cir_fill (fun x o => o <| cir_fill := x |>) (fun _ => Fill_ok) Fill_eqb;
   Edit cir_uuid (fun x o => o <| cir_uuid := x |>) (fun _ x => optb wordv x) py_eqb].

Definition NetclassFlag_edits : list (edit NetclassFlag) :=
  [Edit nf_text (fun x o => o <| nf_text := x |>) (fun _ => txtb) py_eqb;
   Edit nf_length (fun x o => o <| nf_length := x |>) (fun _ => numb) py_eqb;
   Edit nf_shape (fun x o => o <| nf_shape := x |>) (fun _ => atomb) py_eqb;
   Edit nf_position (fun x o => o <| nf_position := x |>) (fun _ x => some_ok pos3_ok x) (oeqb Position_eqb);
   Edit nf_effects (fun x o => o <| nf_effects := x |>) (fun _ x => some_ok Effects_ok x) (oeqb Effects_eqb);
   Edit nf_properties (fun x o => o <| nf_properties := x |>) (fun _ x => forallb Property_ok x) (leqb Property_eqb);
   Edit nf_uuid (fun x o => o <| nf_uuid := x |>) (fun _ x => optb wordv x) py_eqb;
   Edit nf_fieldsAutoplaced (fun x o => o <| nf_fieldsAutoplaced := x |>) (fun _ _ => true) Bool.eqb].

Definition Schematic_edits : list (edit Schematic) :=
  [Edit sc_version (fun x o => o <| sc_version := x |>) (fun _ => atomb) py_eqb;
   Edit sc_generator (fun x o => o <| sc_generator := x |>) (fun _ => atomb) py_eqb;
   Edit sc_uuid (fun x o => o <| sc_uuid := x |>) (fun _ x => optb atomb x) py_eqb;
   Edit sc_paper (fun x o => o <| sc_paper := x |>) (fun _ => PageSettings_ok) PageSettings_eqb;
   Edit sc_titleBlock (fun x o => o <| sc_titleBlock := x |>) (fun _ x => optok TitleBlock_ok x) (oeqb TitleBlock_eqb);
   Edit sc_libSymbols (fun x o => o <| sc_libSymbols := x |>) (fun _ x => forallb Symbol_ok x) (leqb Symbol_eqb);
   Edit sc_schematicSymbols (fun x o => o <| sc_schematicSymbols := x |>) (fun _ x => forallb SchematicSymbol_ok x) (leqb SchematicSymbol_eqb);
   Edit sc_junctions (fun x o => o <| sc_junctions := x |>) (fun _ x => forallb Junction_ok x) (leqb Junction_eqb);
   Edit sc_noConnects (fun x o => o <| sc_noConnects := x |>) (fun _ x => forallb NoConnect_ok x) (leqb NoConnect_eqb);
   Edit sc_busEntries (fun x o => o <| sc_busEntries := x |>) (fun _ x => forallb BusEntry_ok x) (leqb BusEntry_eqb);
   Edit sc_busAliases (fun x o => o <| sc_busAliases := x |>) (fun _ x => forallb BusAlias_ok x) (leqb BusAlias_eqb);
   Edit sc_graphicalItems (fun x o => o <| sc_graphicalItems := x |>) (fun _ x => forallb ScLine_ok x) (leqb ScLine_eqb);
   Edit sc_shapes (fun x o => o <| sc_shapes := x |>) (fun _ x => forallb ScShape_ok x) (leqb ScShape_eqb);
   Edit sc_images (fun x o => o <| sc_images := x |>) (fun _ x => forallb Image_ok x) (leqb Image_eqb);
   Edit sc_texts (fun x o => o <| sc_texts := x |>) (fun _ x => forallb Text_ok x) (leqb Text_eqb);
   Edit sc_textBoxes (fun x o => o <| sc_textBoxes := x |>) (fun _ x => forallb TextBox_ok x) (leqb TextBox_eqb);
   Edit sc_labels (fun x o => o <| sc_labels := x |>) (fun _ x => forallb LocalLabel_ok x) (leqb LocalLabel_eqb);
   Edit sc_globalLabels (fun x o => o <| sc_globalLabels := x |>) (fun _ x => forallb GlobalLabel_ok x) (leqb GlobalLabel_eqb);
   Edit sc_hierarchicalLabels (fun x o => o <| sc_hierarchicalLabels := x |>) (fun _ x => forallb HierarchicalLabel_ok x) (leqb HierarchicalLabel_eqb);
   Edit sc_netclassFlags (fun x o => o <| sc_netclassFlags := x |>) (fun _ x => forallb NetclassFlag_ok x) (leqb NetclassFlag_eqb);
   Edit sc_sheets (fun x o => o <| sc_sheets := x |>) (fun _ x => forallb HierarchicalSheet_ok x) (leqb HierarchicalSheet_eqb);
   Edit sc_sheetInstances (fun x o => o <| sc_sheetInstances := x |>) (fun _ x => forallb HierarchicalSheetInstance_ok x) (leqb HierarchicalSheetInstance_eqb);
   Edit sc_symbolInstances (fun x o => o <| sc_symbolInstances := x |>) (fun _ x => forallb SymbolInstance_ok x) (leqb SymbolInstance_eqb)].

Definition WksFontSize_edits : list (edit WksFontSize) :=
  [Edit wz_width (fun x o => o <| wz_width := x |>) (fun _ => numb) py_eqb;
   Edit wz_height (fun x o => o <| wz_height := x |>) (fun _ => numb) py_eqb].

Definition WksFont_edits : list (edit WksFont) :=
  [Edit wf_linewidth (fun x o => o <| wf_linewidth := x |>) (fun o x => WksFont_ok1 (o <| wf_linewidth := x |>)) py_eqb;
   Edit wf_size (fun x o => o <| wf_size := x |>) (fun o x => WksFont_ok1 (o <| wf_size := x |>)) (oeqb WksFontSize_eqb);
   Edit wf_bold (fun x o => o <| wf_bold := x |>) (fun o x => WksFont_ok1 (o <| wf_bold := x |>)) Bool.eqb;
   Edit wf_italic (fun x o => o <| wf_italic := x |>) (fun o x => WksFont_ok1 (o <| wf_italic := x |>)) Bool.eqb].

Definition Line_edits : list (edit Line) :=
  [Edit wl_name (fun x o => o <| wl_name := x |>) (fun _ => txtb) py_eqb;
   Edit wl_start (fun x o => o <| wl_start := x |>) (fun _ => WksPosition_ok) WksPosition_eqb;
   Edit wl_end (fun x o => o <| wl_end := x |>) (fun _ => WksPosition_ok) WksPosition_eqb;
   Edit wl_option (fun x o => o <| wl_option := x |>) (fun _ x => optb atomb x) py_eqb;
   Edit wl_lineWidth (fun x o => o <| wl_lineWidth := x |>) (fun _ x => optb numb x) py_eqb;
   Edit wl_repeat (fun x o => o <| wl_repeat := x |>) (fun _ x => optb numb x) py_eqb;
   Edit wl_incrx (fun x o => o <| wl_incrx := x |>) (fun _ x => optb numb x) py_eqb;
   Edit wl_incry (fun x o => o <| wl_incry := x |>) (fun _ x => optb numb x) py_eqb;
   Edit wl_comment (fun x o => o <| wl_comment := x |>) (fun _ x => optb txtb x) py_eqb].

Definition Rect_edits : list (edit Rect) :=
  [Edit wr_name (fun x o => o <| wr_name := x |>) (fun _ => txtb) py_eqb;
   Edit wr_start (fun x o => o <| wr_start := x |>) (fun _ => WksPosition_ok) WksPosition_eqb;
   Edit wr_end (fun x o => o <| wr_end := x |>) (fun _ => WksPosition_ok) WksPosition_eqb;
   Edit wr_option (fun x o => o <| wr_option := x |>) (fun _ x => optb atomb x) py_eqb;
   Edit wr_lineWidth (fun x o => o <| wr_lineWidth := x |>) (fun _ x => optb numb x) py_eqb;
   Edit wr_repeat (fun x o => o <| wr_repeat := x |>) (fun _ x => optb numb x) py_eqb;
   Edit wr_incrx (fun x o => o <| wr_incrx := x |>) (fun _ x => optb numb x) py_eqb;
   Edit wr_incry (fun x o => o <| wr_incry := x |>) (fun _ x => optb numb x) py_eqb;
   Edit wr_comment (fun x o => o <| wr_comment := x |>) (fun _ x => optb txtb x) py_eqb].

Definition Bitmap_edits : list (edit Bitmap) :=
  [Edit wb_name (fun x o => o <| wb_name := x |>) (fun _ => txtb) py_eqb;
   Edit wb_position (fun x o => o <| wb_position := x |>) (fun _ => WksPosition_ok) WksPosition_eqb;
   Edit wb_option (fun x o => o <| wb_option := x |>) (fun _ x => optb atomb x) py_eqb;
   Edit wb_scale (fun x o => o <| wb_scale := x |>) (fun _ => numb) py_eqb;
   Edit wb_repeat (fun x o => o <| wb_repeat := x |>) (fun _ x => optb numb x) py_eqb;
   Edit wb_incrx (fun x o => o <| wb_incrx := x |>) (fun _ x => optb numb x) py_eqb;
   Edit wb_incry (fun x o => o <| wb_incry := x |>) (fun _ x => optb numb x) py_eqb;
   Edit wb_comment (fun x o => o <| wb_comment := x |>) (fun _ x => optb txtb x) py_eqb;
   Edit wb_pngdata (fun x o => o <| wb_pngdata := x |>) (fun _ x => forallb rawtxtb x) (leqb py_eqb)].

Definition TbText_edits : list (edit TbText) :=
  [Edit tt_text (fun x o => o <| tt_text := x |>) (fun _ => txtb) py_eqb;
   Edit tt_name (fun x o => o <| tt_name := x |>) (fun _ => txtb) py_eqb;
   Edit tt_position (fun x o => o <| tt_position := x |>) (fun _ => WksPosition_ok) WksPosition_eqb;
   Edit tt_option (fun x o => o <| tt_option := x |>) (fun _ x => optb atomb x) py_eqb;
   Edit tt_rotate (fun x o => o <| tt_rotate := x |>) (fun _ x => optb numb x) py_eqb;
   Edit tt_font (fun x o => o <| tt_font := x |>) (fun _ => WksFont_ok) WksFont_eqb;
   Edit tt_justify (fun x o => o <| tt_justify := x |>) (fun _ x => (optok Justify_ok x) && (optok Justify_ok1 x)) (oeqb Justify_eqb);
   Edit tt_maxlen (fun x o => o <| tt_maxlen := x |>) (fun _ x => optb numb x) py_eqb;
   Edit tt_maxheight (fun x o => o <| tt_maxheight := x |>) (fun _ x => optb numb x) py_eqb;
   Edit tt_repeat (fun x o => o <| tt_repeat := x |>) (fun _ x => optb numb x) py_eqb;
   Edit tt_incrx (fun x o => o <| tt_incrx := x |>) (fun _ x => optb numb x) py_eqb;
   Edit tt_incry (fun x o => o <| tt_incry := x |>) (fun _ x => optb numb x) py_eqb;
   Edit tt_incrlabel (fun x o => o <| tt_incrlabel := x |>) (fun _ x => optb numb x) py_eqb;
   Edit tt_comment (fun x o => o <| tt_comment := x |>) (fun _ x => optb txtb x) py_eqb].

Definition TextSize_edits : list (edit TextSize) :=
  [Edit tz_width (fun x o => o <| tz_width := x |>) (fun _ => numb) py_eqb;
   Edit tz_height (fun x o => o <| tz_height := x |>) (fun _ => numb) py_eqb].

Definition Setup_edits : list (edit Setup) :=
  [Edit wu_textSize (fun x o => o <| wu_textSize := x |>) (fun _ => TextSize_ok) TextSize_eqb;
   Edit wu_lineWidth (fun x o => o <| wu_lineWidth := x |>) (fun _ => numb) py_eqb;
   Edit wu_textLineWidth (fun x o => o <| wu_textLineWidth := x |>) (fun _ => numb) py_eqb;
   Edit wu_leftMargin (fun x o => o <| wu_leftMargin := x |>) (fun _ => numb) py_eqb;
   Edit wu_rightMargin (fun x o => o <| wu_rightMargin := x |>) (fun _ => numb) py_eqb;
   Edit wu_topMargin (fun x o => o <| wu_topMargin := x |>) (fun _ => numb) py_eqb;
   Edit wu_bottomMargin (fun x o => o <| wu_bottomMargin := x |>) (fun _ => numb) py_eqb].

Definition WorkSheet_edits : list (edit WorkSheet) :=
  [Edit wk_version (fun x o => o <| wk_version := x |>) (fun _ => atomb) py_eqb;
   Edit wk_generator (fun x o => o <| wk_generator := x |>) (fun _ => atomb) py_eqb;
   Edit wk_setup (fun x o => o <| wk_setup := x |>) (fun _ => Setup_ok) Setup_eqb;
   Edit wk_drawingObjects (fun x o => o <| wk_drawingObjects := x |>) (fun _ x => forallb WkItem_ok x) (leqb WkItem_eqb)].
