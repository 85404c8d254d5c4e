(** Model of items/schitems.py.  Arc is called SchArc here, as items/brditems.py has an Arc as well. *)
From Verif Require Import PyBase PyNum PyStr PyRe Sexpr M_Common M_Sym.

(** The attribute [color] of a junction: an object, or whatever the reader put there. *)
Inductive JColor := JColor_obj (c : ColorRGBA) | JColor_val (v : val).
(** items/schitems.py:25-45: attributes of Junction and their defaults *)
Record Junction := mkJunction {
  jn_position : Position;
  jn_diameter : val;
  jn_color : JColor;
  jn_uuid : val }.
#[export] Instance eta_Junction : Settable Junction :=
  settable! mkJunction <jn_position; jn_diameter; jn_color; jn_uuid>.
Definition Junction_default : Junction :=
  mkJunction Position_default (VInt 0) (JColor_obj ColorRGBA_default) VNone.

(** schitems.py:69-72: the diameter is stored in the attribute [color] *)
Definition Junction_step (o : Junction) (item : val) : res Junction :=
  let! h := item@0 in
  let! o := on (h =s "at") (setf jn_position (Position_from item)) o in
  let! o := on (h =s "color") (setf jn_color (let! c := ColorRGBA_from item in Ok (JColor_obj c))) o in
  let! o := on (h =s "diameter") (setf jn_color (let! d := item@1 in Ok (JColor_val d))) o in
  let! o := on (h =s "uuid") (setf jn_uuid (item@1)) o in
  Ok o.
(** schitems.py:47-73 *)
Definition Junction_from (exp : val) : res Junction :=
  let! l := need_head "junction" exp in foldM Junction_step Junction_default l.
(** schitems.py:75-89 *)
Definition Junction_to (o : Junction) (indent : nat) (newline : bool) : res str :=
  let indents := spaces indent in
  let uuid := if is_none (jn_uuid o) then [] else nl ++ indents ++ $"  (uuid " ++ fmt (jn_uuid o) ++ $")" ++ nl in
  let! color := match jn_color o with JColor_obj c => ColorRGBA_to c 0 false | JColor_val _ => Err EAttribute end in
  Ok (indents ++ $"(junction (at " ++ fmt (po_X (jn_position o)) ++ $" " ++ fmt (po_Y (jn_position o)) ++ $") (diameter " ++ fmt (jn_diameter o) ++ $") "
      ++ color ++ uuid ++ indents ++ $")" ++ eol newline).

(** items/schitems.py:91-103: attributes of NoConnect and their defaults *)
Record NoConnect := mkNoConnect {
  nc_position : Position;
  nc_uuid : val }.
#[export] Instance eta_NoConnect : Settable NoConnect :=
  settable! mkNoConnect <nc_position; nc_uuid>.
Definition NoConnect_default : NoConnect :=
  mkNoConnect Position_default VNone.

(** schitems.py:127-128 *)
Definition NoConnect_step (o : NoConnect) (item : val) : res NoConnect :=
  let! h := item@0 in
  let! o := on (h =s "at") (setf nc_position (Position_from item)) o in
  let! o := on (h =s "uuid") (setf nc_uuid (item@1)) o in
  Ok o.
(** schitems.py:105-129 *)
Definition NoConnect_from (exp : val) : res NoConnect :=
  let! l := need_head "no_connect" exp in foldM NoConnect_step NoConnect_default l.
(** schitems.py:131-145 *)
Definition NoConnect_to (o : NoConnect) (indent : nat) (newline : bool) : res str :=
  let uuid := if is_none (nc_uuid o) then [] else $" (uuid " ++ fmt (nc_uuid o) ++ $")" in
  Ok (spaces indent ++ $"(no_connect (at " ++ fmt (po_X (nc_position o)) ++ $" " ++ fmt (po_Y (nc_position o)) ++ $")" ++ uuid ++ $")" ++ eol newline).

(** items/schitems.py:147-166: attributes of BusEntry and their defaults *)
Record BusEntry := mkBusEntry {
  be_position : Position;
  be_uuid : val;
  be_size : Position;
  be_stroke : Stroke }.
#[export] Instance eta_BusEntry : Settable BusEntry :=
  settable! mkBusEntry <be_position; be_uuid; be_size; be_stroke>.
Definition BusEntry_default : BusEntry :=
  mkBusEntry Position_default VNone Position_default Stroke_default.

(** schitems.py:190-193 *)
Definition BusEntry_step (o : BusEntry) (item : val) : res BusEntry :=
  let! h := item@0 in
  let! o := on (h =s "at") (setf be_position (Position_from item)) o in
  let! o := on (h =s "stroke") (setf be_stroke (Stroke_from item)) o in
  let! o := on (h =s "size") (setf be_size (Position_from item)) o in
  let! o := on (h =s "uuid") (setf be_uuid (item@1)) o in
  Ok o.
(** schitems.py:168-194 *)
Definition BusEntry_from (exp : val) : res BusEntry :=
  let! l := need_head "bus_entry" exp in foldM BusEntry_step BusEntry_default l.
(** schitems.py:196-214 *)
Definition BusEntry_to (o : BusEntry) (indent : nat) (newline : bool) : res str :=
  let indents := spaces indent in
  let! stroke := Stroke_to (be_stroke o) (indent + 2) true in
  Ok (indents ++ $"(bus_entry (at " ++ fmt (po_X (be_position o)) ++ $" " ++ fmt (po_Y (be_position o)) ++ $") (size " ++ fmt (po_X (be_size o)) ++ $" " ++ fmt (po_Y (be_size o)) ++ $")" ++ nl
      ++ stroke ++ (if is_none (be_uuid o) then [] else indents ++ $"  (uuid " ++ fmt (be_uuid o) ++ $")" ++ nl) ++ indents ++ $")" ++ eol newline).

(** items/schitems.py:216-229: attributes of BusAlias and their defaults *)
Record BusAlias := mkBusAlias {
  ba_name : val;
  ba_members : list val }.
#[export] Instance eta_BusAlias : Settable BusAlias :=
  settable! mkBusAlias <ba_name; ba_members>.
Definition BusAlias_default : BusAlias :=
  mkBusAlias (VStr []) [].

(** schitems.py:231-262 *)
Definition BusAlias_from (exp : val) : res BusAlias :=
  let! l := need_head "bus_alias" exp in
  if negb (Nat.eqb (length l) 3) then Err EException else
  let! m := exp@2 in
  if negb (is_list m) then Err EException else
  let! h := m@0 in
  if negb (h =s "members") then Err EException else
  let o := BusAlias_default in
  let! o := setf ba_name (exp@1) o in
  setf ba_members (from_ m 1) o.
(** schitems.py:277-278: the members with a blank between them *)
Fixpoint quoted_join (l : list val) : str :=
  match l with
  | [] => []
  | [v] => quoted v
  | v :: r => quoted v ++ $" " ++ quoted_join r
  end.
(** schitems.py:264-279 *)
Definition BusAlias_to (o : BusAlias) (indent : nat) (newline : bool) : res str :=
  Ok (spaces indent ++ $"(bus_alias " ++ quoted (ba_name o) ++ $" (members " ++ quoted_join (ba_members o) ++ $"))" ++ eol newline).

(** schitems.py:345-347 and 416-418 *)
Definition sch_pts (l : list Position) : res str :=
  concatM (fun p => Ok ($" (xy " ++ fmt (po_X p) ++ $" " ++ fmt (po_Y p) ++ $")")) l.

(** items/schitems.py:281-300: attributes of Connection and their defaults *)
Record Connection := mkConnection {
  cx_type : val;
  cx_points : list Position;
  cx_stroke : Stroke;
  cx_uuid : val }.
#[export] Instance eta_Connection : Settable Connection :=
  settable! mkConnection <cx_type; cx_points; cx_stroke; cx_uuid>.
Definition Connection_default : Connection :=
  mkConnection (VStr $"wire") [] Stroke_default VNone.

(** schitems.py:325-329 *)
Definition Connection_step (o : Connection) (item : val) : res Connection :=
  let! h := item@0 in
  let! o := on (h =s "pts") (extf cx_points (let! l := from_ item 1 in mapM Position_from l)) o in
  let! o := on (h =s "stroke") (setf cx_stroke (Stroke_from item)) o in
  let! o := on (h =s "uuid") (setf cx_uuid (item@1)) o in
  Ok o.
(** schitems.py:302-330 *)
Definition Connection_from (exp : val) : res Connection :=
  let! l := need_list exp in
  let! h := exp@0 in
  if negb ((h =s "wire") || (h =s "bus")) then Err EException else
  foldM Connection_step (Connection_default <| cx_type := h |>) l.
(** schitems.py:332-354 *)
Definition Connection_to (o : Connection) (indent : nat) (newline : bool) : res str :=
  let indents := spaces indent in
  let! points := sch_pts (cx_points o) in
  let! stroke := Stroke_to (cx_stroke o) (indent + 2) true in
  Ok (indents ++ $"(" ++ fmt (cx_type o) ++ $" (pts" ++ points ++ $")" ++ nl ++ stroke
      ++ (if is_none (cx_uuid o) then [] else indents ++ $"  (uuid " ++ fmt (cx_uuid o) ++ $")" ++ nl) ++ indents ++ $")" ++ eol newline).

(** items/schitems.py:356-372: attributes of PolyLine and their defaults *)
Record PolyLine := mkPolyLine {
  pl_points : list Position;
  pl_stroke : Stroke;
  pl_uuid : val }.
#[export] Instance eta_PolyLine : Settable PolyLine :=
  settable! mkPolyLine <pl_points; pl_stroke; pl_uuid>.
Definition PolyLine_default : PolyLine :=
  mkPolyLine [] Stroke_default VNone.

(** schitems.py:396-400 *)
Definition PolyLine_step (o : PolyLine) (item : val) : res PolyLine :=
  let! h := item@0 in
  let! o := on (h =s "pts") (extf pl_points (let! l := from_ item 1 in mapM Position_from l)) o in
  let! o := on (h =s "stroke") (setf pl_stroke (Stroke_from item)) o in
  let! o := on (h =s "uuid") (setf pl_uuid (item@1)) o in
  Ok o.
(** schitems.py:374-401 *)
Definition PolyLine_from (exp : val) : res PolyLine :=
  let! l := need_head "polyline" exp in foldM PolyLine_step PolyLine_default l.
(** schitems.py:403-425 *)
Definition PolyLine_to (o : PolyLine) (indent : nat) (newline : bool) : res str :=
  let indents := spaces indent in
  let! points := sch_pts (pl_points o) in
  let! stroke := Stroke_to (pl_stroke o) (indent + 2) true in
  Ok (indents ++ $"(polyline (pts" ++ points ++ $")" ++ nl ++ stroke
      ++ (if is_none (pl_uuid o) then [] else indents ++ $"  (uuid " ++ fmt (pl_uuid o) ++ $")" ++ nl) ++ indents ++ $")" ++ eol newline).

(** items/schitems.py:427-445: attributes of Text and their defaults *)
Record Text := mkText {
  tx_text : val;
  tx_position : Position;
  tx_effects : Effects;
  tx_uuid : val }.
#[export] Instance eta_Text : Settable Text :=
  settable! mkText <tx_text; tx_position; tx_effects; tx_uuid>.
Definition Text_default : Text :=
  mkText (VStr []) Position_default Effects_default VNone.

(** schitems.py:470-472 *)
Definition Text_step (o : Text) (item : val) : res Text :=
  let! h := item@0 in
  let! o := on (h =s "at") (setf tx_position (Position_from item)) o in
  let! o := on (h =s "effects") (setf tx_effects (Effects_from item)) o in
  let! o := on (h =s "uuid") (setf tx_uuid (item@1)) o in
  Ok o.
(** schitems.py:447-473 *)
Definition Text_from (exp : val) : res Text :=
  let! l := need_head "text" exp in
  let! o := setf tx_text (exp@1) Text_default in
  foldM Text_step o (skipn 2 l).
(** schitems.py:475-502 *)
Definition Text_to (o : Text) (indent : nat) (newline : bool) : res str :=
  let indents := spaces indent in
  let! len := len_ (tx_text o) in
  let! effects := Effects_to (tx_effects o) (indent + 2) true in
  Ok (indents ++ $"(text " ++ quoted (tx_text o) ++ (if Nat.leb 50 len then nl ++ indents ++ $"  " else $" ")
      ++ $"(at " ++ fmt (po_X (tx_position o)) ++ $" " ++ fmt (po_Y (tx_position o)) ++ angle_str (tx_position o) ++ $")" ++ nl ++ effects
      ++ (if is_none (tx_uuid o) then [] else indents ++ $"  (uuid " ++ fmt (tx_uuid o) ++ $")" ++ nl) ++ indents ++ $")" ++ eol newline).

(** items/schitems.py:504-532: attributes of TextBox and their defaults *)
Record TextBox := mkTextBox {
  bx_text : val;
  bx_position : Position;
  bx_size : Position;
  bx_stroke : Stroke;
  bx_fill : Fill;
  bx_effects : Effects;
  bx_uuid : val }.
#[export] Instance eta_TextBox : Settable TextBox :=
  settable! mkTextBox <bx_text; bx_position; bx_size; bx_stroke; bx_fill; bx_effects; bx_uuid>.
Definition TextBox_default : TextBox :=
  mkTextBox (VStr []) Position_default Position_default Stroke_default Fill_default Effects_default VNone.

(** schitems.py:557-562 *)
Definition TextBox_step (o : TextBox) (item : val) : res TextBox :=
  let! h := item@0 in
  let! o := on (h =s "at") (setf bx_position (Position_from item)) o in
  let! o := on (h =s "size") (setf bx_size (Position_from item)) o in
  let! o := on (h =s "effects") (setf bx_effects (Effects_from item)) o in
  let! o := on (h =s "stroke") (setf bx_stroke (Stroke_from item)) o in
  let! o := on (h =s "fill") (setf bx_fill (Fill_from item)) o in
  let! o := on (h =s "uuid") (setf bx_uuid (item@1)) o in
  Ok o.
(** schitems.py:534-563 *)
Definition TextBox_from (exp : val) : res TextBox :=
  let! l := need_head "text_box" exp in
  let! o := setf bx_text (exp@1) TextBox_default in
  foldM TextBox_step o (skipn 2 l).
(** schitems.py:565-588 *)
Definition TextBox_to (o : TextBox) (indent : nat) (newline : bool) : res str :=
  let indents := spaces indent in
  let! stroke := Stroke_to (bx_stroke o) (indent + 2) true in
  let! fill := Fill_to (bx_fill o) (indent + 2) true in
  let! effects := Effects_to (bx_effects o) (indent + 2) true in
  Ok (indents ++ $"(text_box " ++ quoted (bx_text o) ++ nl
      ++ indents ++ $"  (at " ++ fmt (po_X (bx_position o)) ++ $" " ++ fmt (po_Y (bx_position o)) ++ angle_str (bx_position o)
      ++ $") (size " ++ fmt (po_X (bx_size o)) ++ $" " ++ fmt (po_Y (bx_size o)) ++ $")" ++ nl ++ stroke ++ fill ++ effects
      ++ (if is_none (bx_uuid o) then [] else indents ++ $"  (uuid " ++ fmt (bx_uuid o) ++ $")" ++ nl) ++ indents ++ $")" ++ eol newline).

(** items/schitems.py:590-612: attributes of LocalLabel and their defaults *)
Record LocalLabel := mkLocalLabel {
  ll_text : val;
  ll_position : Position;
  ll_effects : Effects;
  ll_uuid : val;
  ll_fieldsAutoplaced : bool }.
#[export] Instance eta_LocalLabel : Settable LocalLabel :=
  settable! mkLocalLabel <ll_text; ll_position; ll_effects; ll_uuid; ll_fieldsAutoplaced>.
Definition LocalLabel_default : LocalLabel :=
  mkLocalLabel (VStr []) Position_default Effects_default VNone false.

(** schitems.py:637-640 *)
Definition LocalLabel_step (o : LocalLabel) (item : val) : res LocalLabel :=
  let! h := item@0 in
  let! o := on (h =s "at") (setf ll_position (Position_from item)) o in
  let! o := on (h =s "effects") (setf ll_effects (Effects_from item)) o in
  let! o := on (h =s "uuid") (setf ll_uuid (item@1)) o in
  let! o := on (h =s "fields_autoplaced") (setf ll_fieldsAutoplaced (Ok true)) o in
  Ok o.
(** schitems.py:614-641 *)
Definition LocalLabel_from (exp : val) : res LocalLabel :=
  let! l := need_head "label" exp in
  let! o := setf ll_text (exp@1) LocalLabel_default in
  foldM LocalLabel_step o (skipn 2 l).
(** schitems.py:643-664 *)
Definition LocalLabel_to (o : LocalLabel) (indent : nat) (newline : bool) : res str :=
  let indents := spaces indent in
  let fa := if ll_fieldsAutoplaced o then $" (fields_autoplaced)" else [] in
  let! effects := Effects_to (ll_effects o) (indent + 2) true in
  Ok (indents ++ $"(label " ++ quoted (ll_text o) ++ $" (at " ++ fmt (po_X (ll_position o)) ++ $" " ++ fmt (po_Y (ll_position o)) ++ angle_str (ll_position o) ++ $")" ++ fa ++ nl
      ++ effects ++ (if is_none (ll_uuid o) then [] else indents ++ $"  (uuid " ++ fmt (ll_uuid o) ++ $")" ++ nl) ++ indents ++ $")" ++ eol newline).

(** items/schitems.py:666-696: attributes of GlobalLabel and their defaults *)
Record GlobalLabel := mkGlobalLabel {
  gla_text : val;
  gla_shape : val;
  gla_fieldsAutoplaced : bool;
  gla_position : Position;
  gla_effects : Effects;
  gla_uuid : val;
  gla_properties : list Property }.
#[export] Instance eta_GlobalLabel : Settable GlobalLabel :=
  settable! mkGlobalLabel <gla_text; gla_shape; gla_fieldsAutoplaced; gla_position; gla_effects; gla_uuid; gla_properties>.
Definition GlobalLabel_default : GlobalLabel :=
  mkGlobalLabel (VStr []) (VStr $"input") false Position_default Effects_default VNone [].

(** schitems.py:721-726 *)
Definition GlobalLabel_step (o : GlobalLabel) (item : val) : res GlobalLabel :=
  let! h := item@0 in
  let! o := on (h =s "fields_autoplaced") (setf gla_fieldsAutoplaced (Ok true)) o in
  let! o := on (h =s "at") (setf gla_position (Position_from item)) o in
  let! o := on (h =s "effects") (setf gla_effects (Effects_from item)) o in
  let! o := on (h =s "property") (addf gla_properties (Property_from item)) o in
  let! o := on (h =s "shape") (setf gla_shape (item@1)) o in
  let! o := on (h =s "uuid") (setf gla_uuid (item@1)) o in
  Ok o.
(** schitems.py:698-727 *)
Definition GlobalLabel_from (exp : val) : res GlobalLabel :=
  let! l := need_head "global_label" exp in
  let! o := setf gla_text (exp@1) GlobalLabel_default in
  foldM GlobalLabel_step o (skipn 2 l).
(** schitems.py:729-752 *)
Definition GlobalLabel_to (o : GlobalLabel) (indent : nat) (newline : bool) : res str :=
  let indents := spaces indent in
  let fa := if gla_fieldsAutoplaced o then $" (fields_autoplaced)" else [] in
  let! effects := Effects_to (gla_effects o) (indent + 2) true in
  let! properties := concatM (fun x => Property_to x (indent + 2) true) (gla_properties o) in
  Ok (indents ++ $"(global_label " ++ quoted (gla_text o) ++ $" (shape " ++ fmt (gla_shape o) ++ $") (at " ++ fmt (po_X (gla_position o)) ++ $" " ++ fmt (po_Y (gla_position o)) ++ angle_str (gla_position o) ++ $")" ++ fa ++ nl
      ++ effects ++ (if is_none (gla_uuid o) then [] else indents ++ $"  (uuid " ++ fmt (gla_uuid o) ++ $")" ++ nl) ++ properties ++ indents ++ $")" ++ eol newline).

(** items/schitems.py:754-781: attributes of HierarchicalLabel and their defaults *)
Record HierarchicalLabel := mkHierarchicalLabel {
  hl_text : val;
  hl_shape : val;
  hl_position : Position;
  hl_effects : Effects;
  hl_uuid : val;
  hl_fieldsAutoplaced : bool }.
#[export] Instance eta_HierarchicalLabel : Settable HierarchicalLabel :=
  settable! mkHierarchicalLabel <hl_text; hl_shape; hl_position; hl_effects; hl_uuid; hl_fieldsAutoplaced>.
Definition HierarchicalLabel_default : HierarchicalLabel :=
  mkHierarchicalLabel (VStr []) (VStr $"input") Position_default Effects_default VNone false.

(** schitems.py:806-810 *)
Definition HierarchicalLabel_step (o : HierarchicalLabel) (item : val) : res HierarchicalLabel :=
  let! h := item@0 in
  let! o := on (h =s "at") (setf hl_position (Position_from item)) o in
  let! o := on (h =s "effects") (setf hl_effects (Effects_from item)) o in
  let! o := on (h =s "shape") (setf hl_shape (item@1)) o in
  let! o := on (h =s "uuid") (setf hl_uuid (item@1)) o in
  let! o := on (h =s "fields_autoplaced") (setf hl_fieldsAutoplaced (Ok true)) o in
  Ok o.
(** schitems.py:783-811 *)
Definition HierarchicalLabel_from (exp : val) : res HierarchicalLabel :=
  let! l := need_head "hierarchical_label" exp in
  let! o := setf hl_text (exp@1) HierarchicalLabel_default in
  foldM HierarchicalLabel_step o (skipn 2 l).
(** schitems.py:813-834 *)
Definition HierarchicalLabel_to (o : HierarchicalLabel) (indent : nat) (newline : bool) : res str :=
  let indents := spaces indent in
  let fa := if hl_fieldsAutoplaced o then $" (fields_autoplaced)" else [] in
  let! effects := Effects_to (hl_effects o) (indent + 2) true in
  Ok (indents ++ $"(hierarchical_label " ++ quoted (hl_text o) ++ $" (shape " ++ fmt (hl_shape o) ++ $") (at " ++ fmt (po_X (hl_position o)) ++ $" " ++ fmt (po_Y (hl_position o)) ++ angle_str (hl_position o) ++ $")" ++ fa ++ nl
      ++ effects ++ (if is_none (hl_uuid o) then [] else indents ++ $"  (uuid " ++ fmt (hl_uuid o) ++ $")" ++ nl) ++ indents ++ $")" ++ eol newline).

(** items/schitems.py:836-856: attributes of SymbolProjectPath and their defaults *)
Record SymbolProjectPath := mkSymbolProjectPath {
  spp_sheetInstancePath : val;
  spp_reference : val;
  spp_unit : val }.
#[export] Instance eta_SymbolProjectPath : Settable SymbolProjectPath :=
  settable! mkSymbolProjectPath <spp_sheetInstancePath; spp_reference; spp_unit>.
Definition SymbolProjectPath_default : SymbolProjectPath :=
  mkSymbolProjectPath (VStr []) (VStr []) (VInt 1).

(** schitems.py:881-882 *)
Definition SymbolProjectPath_step (o : SymbolProjectPath) (item : val) : res SymbolProjectPath :=
  let! h := item@0 in
  let! o := on (h =s "reference") (setf spp_reference (item@1)) o in
  let! o := on (h =s "unit") (setf spp_unit (item@1)) o in
  Ok o.
(** schitems.py:858-883 *)
Definition SymbolProjectPath_from (exp : val) : res SymbolProjectPath :=
  let! l := need_list exp in
  if Nat.ltb (length l) 2 then Err EException else
  let! h := exp@0 in
  if negb (h =s "path") then Err EException else
  let! o := setf spp_sheetInstancePath (exp@1) SymbolProjectPath_default in
  foldM SymbolProjectPath_step o (skipn 2 l).
(** schitems.py:885-900 *)
Definition SymbolProjectPath_to (o : SymbolProjectPath) (indent : nat) (newline : bool) : res str :=
  let indents := spaces indent in
  Ok (indents ++ $"(path " ++ quoted (spp_sheetInstancePath o) ++ nl
      ++ indents ++ $"  (reference " ++ quoted (spp_reference o) ++ $") (unit " ++ fmt (spp_unit o) ++ $")" ++ nl ++ indents ++ $")" ++ eol newline).

(** [name] is inherited from ProjectInstance, common.py:1170 *)
(** items/schitems.py:902-916: attributes of SymbolProjectInstance and their defaults *)
Record SymbolProjectInstance := mkSymbolProjectInstance {
  spi_name : val;
  spi_paths : list SymbolProjectPath }.
#[export] Instance eta_SymbolProjectInstance : Settable SymbolProjectInstance :=
  settable! mkSymbolProjectInstance <spi_name; spi_paths>.
Definition SymbolProjectInstance_default : SymbolProjectInstance :=
  mkSymbolProjectInstance (VStr []) [].

(** schitems.py:941 *)
Definition SymbolProjectInstance_step (o : SymbolProjectInstance) (item : val) : res SymbolProjectInstance :=
  let! h := item@0 in
  let! o := on (h =s "path") (addf spi_paths (SymbolProjectPath_from item)) o in
  Ok o.
(** schitems.py:918-942 *)
Definition SymbolProjectInstance_from (exp : val) : res SymbolProjectInstance :=
  let! l := need_list exp in
  if Nat.ltb (length l) 2 then Err EException else
  let! h := exp@0 in
  if negb (h =s "project") then Err EException else
  let! o := setf spi_name (exp@1) SymbolProjectInstance_default in
  foldM SymbolProjectInstance_step o (skipn 2 l).
(** schitems.py:944-960 *)
Definition SymbolProjectInstance_to (o : SymbolProjectInstance) (indent : nat) (newline : bool) : res str :=
  let indents := spaces indent in
  let! paths := concatM (fun x => SymbolProjectPath_to x (indent + 2) true) (spi_paths o) in
  Ok (indents ++ $"(project " ++ quoted (spi_name o) ++ nl ++ paths ++ indents ++ $")" ++ eol newline).

(** items/schitems.py:962-1060: attributes of SchematicSymbol and their defaults *)
Record SchematicSymbol := mkSchematicSymbol {
  ss_libraryNickname : val;
  ss_entryName : val;
  ss_libName : val;
  ss_position : Position;
  ss_unit : val;
  ss_inBom : bool;
  ss_onBoard : bool;
  ss_dnp : option bool;
  ss_fieldsAutoplaced : bool;
  ss_uuid : val;
  ss_properties : list Property;
  ss_pins : list (val * val);
  ss_mirror : val;
  ss_instances : list SymbolProjectInstance }.
#[export] Instance eta_SchematicSymbol : Settable SchematicSymbol :=
  settable! mkSchematicSymbol <ss_libraryNickname; ss_entryName; ss_libName; ss_position; ss_unit; ss_inBom; ss_onBoard; ss_dnp; ss_fieldsAutoplaced; ss_uuid; ss_properties; ss_pins; ss_mirror; ss_instances>.
Definition SchematicSymbol_default : SchematicSymbol :=
  mkSchematicSymbol VNone VNone VNone Position_default VNone false false None false (VStr []) [] [] VNone [].

(** schitems.py:971-985, the getter of libId *)
Definition SchematicSymbol_libId (o : SchematicSymbol) : str :=
  if truthy (ss_libraryNickname o) then fmt (ss_libraryNickname o) ++ $":" ++ fmt (ss_entryName o)
  else fmt (ss_entryName o).
(** schitems.py:987-1002, the setter of libId; re.match refuses anything but a text *)
Definition SchematicSymbol_set_libId (symbol_id : val) (o : SchematicSymbol) : res SchematicSymbol :=
  let! s := as_text symbol_id in
  match re_match re_nick s with
  | Some m => Ok (o <| ss_libraryNickname := VStr (group 1 m) |> <| ss_entryName := VStr (group 2 m) |>)
  | None => Ok (o <| ss_libraryNickname := VNone |> <| ss_entryName := symbol_id |>)
  end.
(** schitems.py:1084-1098 *)
Definition SchematicSymbol_step (o : SchematicSymbol) (item : val) : res SchematicSymbol :=
  let! h := item@0 in
  let! o := on (h =s "fields_autoplaced") (setf ss_fieldsAutoplaced (Ok true)) o in
  let! o := on (h =s "lib_id") (fun o => let! id := item@1 in SchematicSymbol_set_libId id o) o in
  let! o := on (h =s "lib_name") (setf ss_libName (item@1)) o in
  let! o := on (h =s "uuid") (setf ss_uuid (item@1)) o in
  let! o := on (h =s "unit") (setf ss_unit (item@1)) o in
  let! o := on (h =s "in_bom") (setf ss_inBom (let! x := item@1 in Ok (x =s "yes"))) o in
  let! o := on (h =s "on_board") (setf ss_onBoard (let! x := item@1 in Ok (x =s "yes"))) o in
  let! o := on (h =s "dnp") (setf ss_dnp (let! x := item@1 in Ok (Some (x =s "yes")))) o in
  let! o := on (h =s "at") (setf ss_position (Position_from item)) o in
  let! o := on (h =s "property") (addf ss_properties (Property_from item)) o in
  let! o := on (h =s "pin") (fun o =>
    let! k := item@1 in let! u := item@2 in let! v := u@1 in let! d := dict_set (ss_pins o) k v in Ok (o <| ss_pins := d |>)) o in
  let! o := on (h =s "mirror") (setf ss_mirror (item@1)) o in
  let! o := on (h =s "instances") (extf ss_instances (let! l := from_ item 1 in mapM SymbolProjectInstance_from l)) o in
  Ok o.
(** schitems.py:1062-1100 *)
Definition SchematicSymbol_from (exp : val) : res SchematicSymbol :=
  let! l := need_head "symbol" exp in foldM SchematicSymbol_step SchematicSymbol_default (skipn 1 l).
(** schitems.py:1102-1141 *)
Definition SchematicSymbol_to (o : SchematicSymbol) (indent : nat) (newline : bool) : res str :=
  let indents := spaces indent in
  let fa := if ss_fieldsAutoplaced o then $" (fields_autoplaced)" else [] in
  let inBom := if ss_inBom o then $"yes" else $"no" in
  let onBoard := if ss_onBoard o then $"yes" else $"no" in
  let mirror := if is_none (ss_mirror o) then [] else $" (mirror " ++ fmt (ss_mirror o) ++ $")" in
  let unit := if is_none (ss_unit o) then [] else $" (unit " ++ fmt (ss_unit o) ++ $")" in
  let lib_name := if is_none (ss_libName o) then [] else $" (lib_name " ++ quoted (ss_libName o) ++ $")" in
  let dnp := match ss_dnp o with Some b => if b then $" (dnp yes)" else $" (dnp no)" | None => [] end in
  let uuid := if truthy (ss_uuid o) then indents ++ $"  (uuid " ++ fmt (ss_uuid o) ++ $")" ++ nl else [] in
  let! properties := concatM (fun x => Property_to x (indent + 2) true) (ss_properties o) in
  let! pins := concatM (fun kv => Ok (indents ++ $"  (pin " ++ quoted (fst kv) ++ $" (uuid " ++ fmt (snd kv) ++ $"))" ++ nl)) (ss_pins o) in
  let! instances := concatM (fun x => SymbolProjectInstance_to x (indent + 4) true) (ss_instances o) in
  Ok (indents ++ $"(symbol" ++ lib_name ++ $" (lib_id " ++ quoted (VStr (SchematicSymbol_libId o)) ++ $") (at " ++ fmt (po_X (ss_position o)) ++ $" " ++ fmt (po_Y (ss_position o))
      ++ angle_str (ss_position o) ++ $")" ++ mirror ++ unit ++ nl
      ++ indents ++ $"  (in_bom " ++ inBom ++ $") (on_board " ++ onBoard ++ $")" ++ dnp ++ fa ++ nl ++ uuid ++ properties ++ pins
      ++ (if Nat.eqb (length (ss_instances o)) 0 then [] else indents ++ $"  (instances" ++ nl ++ instances ++ indents ++ $"  )" ++ nl)
      ++ indents ++ $")" ++ eol newline).

(** items/schitems.py:1143-1167: attributes of HierarchicalPin and their defaults *)
Record HierarchicalPin := mkHierarchicalPin {
  hp_name : val;
  hp_connectionType : val;
  hp_position : Position;
  hp_effects : Effects;
  hp_uuid : val }.
#[export] Instance eta_HierarchicalPin : Settable HierarchicalPin :=
  settable! mkHierarchicalPin <hp_name; hp_connectionType; hp_position; hp_effects; hp_uuid>.
Definition HierarchicalPin_default : HierarchicalPin :=
  mkHierarchicalPin (VStr []) (VStr $"input") Position_default Effects_default VNone.

(** schitems.py:1193-1195 *)
Definition HierarchicalPin_step (o : HierarchicalPin) (item : val) : res HierarchicalPin :=
  let! h := item@0 in
  let! o := on (h =s "at") (setf hp_position (Position_from item)) o in
  let! o := on (h =s "effects") (setf hp_effects (Effects_from item)) o in
  let! o := on (h =s "uuid") (setf hp_uuid (item@1)) o in
  Ok o.
(** schitems.py:1169-1196 *)
Definition HierarchicalPin_from (exp : val) : res HierarchicalPin :=
  let! l := need_head "pin" exp in
  let! o := setf hp_name (exp@1) HierarchicalPin_default in
  let! o := setf hp_connectionType (exp@2) o in
  foldM HierarchicalPin_step o (skipn 3 l).
(** schitems.py:1198-1218 *)
Definition HierarchicalPin_to (o : HierarchicalPin) (indent : nat) (newline : bool) : res str :=
  let indents := spaces indent in
  let! effects := Effects_to (hp_effects o) (indent + 2) true in
  Ok (indents ++ $"(pin " ++ quoted (hp_name o) ++ $" " ++ fmt (hp_connectionType o) ++ $" (at " ++ fmt (po_X (hp_position o)) ++ $" " ++ fmt (po_Y (hp_position o)) ++ angle_str (hp_position o) ++ $")" ++ nl
      ++ effects ++ (if is_none (hp_uuid o) then [] else indents ++ $"  (uuid " ++ fmt (hp_uuid o) ++ $")" ++ nl) ++ indents ++ $")" ++ eol newline).

(** items/schitems.py:1221-1236: attributes of HierarchicalSheetProjectPath and their defaults *)
Record HierarchicalSheetProjectPath := mkHierarchicalSheetProjectPath {
  hpp_sheetInstancePath : val;
  hpp_page : val }.
#[export] Instance eta_HierarchicalSheetProjectPath : Settable HierarchicalSheetProjectPath :=
  settable! mkHierarchicalSheetProjectPath <hpp_sheetInstancePath; hpp_page>.
Definition HierarchicalSheetProjectPath_default : HierarchicalSheetProjectPath :=
  mkHierarchicalSheetProjectPath (VStr []) (VStr []).

(** schitems.py:1261 *)
Definition HierarchicalSheetProjectPath_step (o : HierarchicalSheetProjectPath) (item : val) : res HierarchicalSheetProjectPath :=
  let! h := item@0 in
  let! o := on (h =s "page") (setf hpp_page (item@1)) o in
  Ok o.
(** schitems.py:1238-1262 *)
Definition HierarchicalSheetProjectPath_from (exp : val) : res HierarchicalSheetProjectPath :=
  let! l := need_list exp in
  if Nat.ltb (length l) 2 then Err EException else
  let! h := exp@0 in
  if negb (h =s "path") then Err EException else
  let! o := setf hpp_sheetInstancePath (exp@1) HierarchicalSheetProjectPath_default in
  foldM HierarchicalSheetProjectPath_step o (skipn 2 l).
(** schitems.py:1264-1276 *)
Definition HierarchicalSheetProjectPath_to (o : HierarchicalSheetProjectPath) (indent : nat) (newline : bool) : res str :=
  Ok (spaces indent ++ $"(path " ++ quoted (hpp_sheetInstancePath o) ++ $" (page " ++ quoted (hpp_page o) ++ $"))" ++ eol newline).

(** items/schitems.py:1278-1292: attributes of HierarchicalSheetProjectInstance and their defaults *)
Record HierarchicalSheetProjectInstance := mkHierarchicalSheetProjectInstance {
  hpi_name : val;
  hpi_paths : list HierarchicalSheetProjectPath }.
#[export] Instance eta_HierarchicalSheetProjectInstance : Settable HierarchicalSheetProjectInstance :=
  settable! mkHierarchicalSheetProjectInstance <hpi_name; hpi_paths>.
Definition HierarchicalSheetProjectInstance_default : HierarchicalSheetProjectInstance :=
  mkHierarchicalSheetProjectInstance (VStr []) [].

(** schitems.py:1317 *)
Definition HierarchicalSheetProjectInstance_step (o : HierarchicalSheetProjectInstance) (item : val) : res HierarchicalSheetProjectInstance :=
  let! h := item@0 in
  let! o := on (h =s "path") (addf hpi_paths (HierarchicalSheetProjectPath_from item)) o in
  Ok o.
(** schitems.py:1294-1318 *)
Definition HierarchicalSheetProjectInstance_from (exp : val) : res HierarchicalSheetProjectInstance :=
  let! l := need_list exp in
  if Nat.ltb (length l) 2 then Err EException else
  let! h := exp@0 in
  if negb (h =s "project") then Err EException else
  let! o := setf hpi_name (exp@1) HierarchicalSheetProjectInstance_default in
  foldM HierarchicalSheetProjectInstance_step o (skipn 2 l).
(** schitems.py:1320-1336 *)
Definition HierarchicalSheetProjectInstance_to (o : HierarchicalSheetProjectInstance) (indent : nat) (newline : bool) : res str :=
  let indents := spaces indent in
  let! paths := concatM (fun x => HierarchicalSheetProjectPath_to x (indent + 2) true) (hpi_paths o) in
  Ok (indents ++ $"(project " ++ quoted (hpi_name o) ++ nl ++ paths ++ indents ++ $")" ++ eol newline).

(** items/schitems.py:1338-1388: attributes of HierarchicalSheet and their defaults *)
Record HierarchicalSheet := mkHierarchicalSheet {
  hs_position : Position;
  hs_width : val;
  hs_height : val;
  hs_fieldsAutoplaced : bool;
  hs_stroke : Stroke;
  hs_fill : ColorRGBA;
  hs_uuid : val;
  hs_sheetName : Property;
  hs_fileName : Property;
  hs_properties : list Property;
  hs_pins : list HierarchicalPin;
  hs_instances : list HierarchicalSheetProjectInstance }.
#[export] Instance eta_HierarchicalSheet : Settable HierarchicalSheet :=
  settable! mkHierarchicalSheet <hs_position; hs_width; hs_height; hs_fieldsAutoplaced; hs_stroke; hs_fill; hs_uuid; hs_sheetName; hs_fileName; hs_properties; hs_pins; hs_instances>.
Definition HierarchicalSheet_default : HierarchicalSheet :=
  mkHierarchicalSheet Position_default (VInt 0) (VInt 0) false Stroke_default ColorRGBA_default VNone (Property_default <| pr_key := VStr $"Sheet name" |>) (Property_default <| pr_key := VStr $"Sheet file" |>) [] [] [].

(** schitems.py:1422-1426 *)
Definition HierarchicalSheet_property (item : val) (o : HierarchicalSheet) : res HierarchicalSheet :=
  let! p := Property_from item in
  let! k := item@1 in
  if (k =s "Sheet name") || (k =s "Sheetname") then Ok (o <| hs_sheetName := p |>)
  else if (k =s "Sheet file") || (k =s "Sheetfile") then Ok (o <| hs_fileName := p |>)
  else Ok (o <| hs_properties := hs_properties o ++ [p] |>).
(** schitems.py:1412-1430 *)
Definition HierarchicalSheet_step (o : HierarchicalSheet) (item : val) : res HierarchicalSheet :=
  let! h := item@0 in
  let! o := on (h =s "fields_autoplaced") (setf hs_fieldsAutoplaced (Ok true)) o in
  let! o := on (h =s "at") (setf hs_position (Position_from item)) o in
  let! o := on (h =s "stroke") (setf hs_stroke (Stroke_from item)) o in
  let! o := on (h =s "size") (fun o => let! o := setf hs_width (item@1) o in setf hs_height (item@2) o) o in
  let! o := on (h =s "fill") (setf hs_fill (let! f := item@1 in let! c := ColorRGBA_from f in Ok (c <| ca_precision := VInt 4 |>))) o in
  let! o := on (h =s "uuid") (setf hs_uuid (item@1)) o in
  let! o := on (h =s "property") (HierarchicalSheet_property item) o in
  let! o := on (h =s "pin") (addf hs_pins (HierarchicalPin_from item)) o in
  let! o := on (h =s "instances") (extf hs_instances (let! l := from_ item 1 in mapM HierarchicalSheetProjectInstance_from l)) o in
  Ok o.
(** schitems.py:1390-1431 *)
Definition HierarchicalSheet_from (exp : val) : res HierarchicalSheet :=
  let! l := need_head "sheet" exp in foldM HierarchicalSheet_step HierarchicalSheet_default (skipn 1 l).
(** schitems.py:1433-1465 *)
Definition HierarchicalSheet_to (o : HierarchicalSheet) (indent : nat) (newline : bool) : res str :=
  let indents := spaces indent in
  let fa := if hs_fieldsAutoplaced o then $" (fields_autoplaced)" else [] in
  let! stroke := Stroke_to (hs_stroke o) (indent + 2) true in
  let! fill := ColorRGBA_to (hs_fill o) 0 false in
  let! sheetName := Property_to (hs_sheetName o) (indent + 2) true in
  let! fileName := Property_to (hs_fileName o) (indent + 2) true in
  let! properties := concatM (fun x => Property_to x (indent + 2) true) (hs_properties o) in
  let! pins := concatM (fun x => HierarchicalPin_to x (indent + 2) true) (hs_pins o) in
  let! instances := concatM (fun x => HierarchicalSheetProjectInstance_to x (indent + 4) true) (hs_instances o) in
  Ok (indents ++ $"(sheet (at " ++ fmt (po_X (hs_position o)) ++ $" " ++ fmt (po_Y (hs_position o)) ++ $") (size " ++ fmt (hs_width o) ++ $" " ++ fmt (hs_height o) ++ $")" ++ fa ++ nl
      ++ stroke ++ indents ++ $"  (fill " ++ fill ++ $")" ++ nl
      ++ (if is_none (hs_uuid o) then [] else indents ++ $"  (uuid " ++ fmt (hs_uuid o) ++ $")" ++ nl) ++ sheetName ++ fileName ++ properties ++ pins
      ++ (if Nat.eqb (length (hs_instances o)) 0 then [] else indents ++ $"  (instances" ++ nl ++ instances ++ indents ++ $"  )" ++ nl)
      ++ indents ++ $")" ++ eol newline).

(** items/schitems.py:1467-1481: attributes of HierarchicalSheetInstance and their defaults *)
Record HierarchicalSheetInstance := mkHierarchicalSheetInstance {
  hi_instancePath : val;
  hi_page : val }.
#[export] Instance eta_HierarchicalSheetInstance : Settable HierarchicalSheetInstance :=
  settable! mkHierarchicalSheetInstance <hi_instancePath; hi_page>.
Definition HierarchicalSheetInstance_default : HierarchicalSheetInstance :=
  mkHierarchicalSheetInstance (VStr $"/") (VStr $"1").

(** schitems.py:1506 *)
Definition HierarchicalSheetInstance_step (o : HierarchicalSheetInstance) (item : val) : res HierarchicalSheetInstance :=
  let! h := item@0 in
  let! o := on (h =s "page") (setf hi_page (item@1)) o in
  Ok o.
(** schitems.py:1483-1507 *)
Definition HierarchicalSheetInstance_from (exp : val) : res HierarchicalSheetInstance :=
  let! l := need_head "path" exp in
  let! o := setf hi_instancePath (exp@1) HierarchicalSheetInstance_default in
  foldM HierarchicalSheetInstance_step o (skipn 2 l).
(** schitems.py:1509-1522 *)
Definition HierarchicalSheetInstance_to (o : HierarchicalSheetInstance) (indent : nat) (newline : bool) : res str :=
  Ok (spaces indent ++ $"(path " ++ quoted (hi_instancePath o) ++ $" (page " ++ quoted (hi_page o) ++ $"))" ++ eol newline).

(** items/schitems.py:1524-1547: attributes of SymbolInstance and their defaults *)
Record SymbolInstance := mkSymbolInstance {
  syi_path : val;
  syi_reference : val;
  syi_unit : val;
  syi_value : val;
  syi_footprint : val }.
#[export] Instance eta_SymbolInstance : Settable SymbolInstance :=
  settable! mkSymbolInstance <syi_path; syi_reference; syi_unit; syi_value; syi_footprint>.
Definition SymbolInstance_default : SymbolInstance :=
  mkSymbolInstance (VStr $"/") (VStr []) (VInt 0) (VStr []) (VStr []).

(** schitems.py:1572-1575 *)
Definition SymbolInstance_step (o : SymbolInstance) (item : val) : res SymbolInstance :=
  let! h := item@0 in
  let! o := on (h =s "reference") (setf syi_reference (item@1)) o in
  let! o := on (h =s "unit") (setf syi_unit (item@1)) o in
  let! o := on (h =s "value") (setf syi_value (item@1)) o in
  let! o := on (h =s "footprint") (setf syi_footprint (item@1)) o in
  Ok o.
(** schitems.py:1549-1576 *)
Definition SymbolInstance_from (exp : val) : res SymbolInstance :=
  let! l := need_head "path" exp in
  let! o := setf syi_path (exp@1) SymbolInstance_default in
  foldM SymbolInstance_step o (skipn 2 l).
(** schitems.py:1578-1594 *)
Definition SymbolInstance_to (o : SymbolInstance) (indent : nat) (newline : bool) : res str :=
  let indents := spaces indent in
  Ok (indents ++ $"(path " ++ quoted (syi_path o) ++ nl
      ++ indents ++ $"  (reference " ++ quoted (syi_reference o) ++ $") (unit " ++ fmt (syi_unit o) ++ $") (value " ++ quoted (syi_value o)
      ++ $") (footprint " ++ quoted (syi_footprint o) ++ $")" ++ nl ++ indents ++ $")" ++ eol newline).

(** items/schitems.py:1596-1619: attributes of Rectangle and their defaults *)
Record Rectangle := mkRectangle {
  rct_start : Position;
  rct_end : Position;
  rct_stroke : Stroke;
  rct_fill : Fill;
  rct_uuid : val }.
#[export] Instance eta_Rectangle : Settable Rectangle :=
  settable! mkRectangle <rct_start; rct_end; rct_stroke; rct_fill; rct_uuid>.
Definition Rectangle_default : Rectangle :=
  mkRectangle Position_default Position_default Stroke_default Fill_default VNone.

(** schitems.py:1644-1648 *)
Definition Rectangle_step (o : Rectangle) (item : val) : res Rectangle :=
  let! h := item@0 in
  let! o := on (h =s "start") (setf rct_start (Position_from item)) o in
  let! o := on (h =s "end") (setf rct_end (Position_from item)) o in
  let! o := on (h =s "stroke") (setf rct_stroke (Stroke_from item)) o in
  let! o := on (h =s "fill") (setf rct_fill (Fill_from item)) o in
  let! o := on (h =s "uuid") (setf rct_uuid (item@1)) o in
  Ok o.
(** schitems.py:1621-1649 *)
Definition Rectangle_from (exp : val) : res Rectangle :=
  let! l := need_head "rectangle" exp in foldM Rectangle_step Rectangle_default l.
(** schitems.py:1651-1670 *)
Definition Rectangle_to (o : Rectangle) (indent : nat) (newline : bool) : res str :=
  let indents := spaces indent in
  let! stroke := Stroke_to (rct_stroke o) (indent + 2) true in
  let! fill := Fill_to (rct_fill o) (indent + 2) true in
  Ok (indents ++ $"(rectangle (start " ++ fmt (po_X (rct_start o)) ++ $" " ++ fmt (po_Y (rct_start o)) ++ $") (end " ++ fmt (po_X (rct_end o)) ++ $" " ++ fmt (po_Y (rct_end o)) ++ $")" ++ nl
      ++ stroke ++ fill ++ (if is_none (rct_uuid o) then [] else indents ++ $"  (uuid " ++ fmt (rct_uuid o) ++ $")" ++ nl) ++ indents ++ $")" ++ eol newline).

(** items/schitems.py:1672-1698: attributes of SchArc and their defaults *)
Record SchArc := mkSchArc {
  sar_start : Position;
  sar_mid : Position;
  sar_end : Position;
  sar_stroke : Stroke;
  sar_fill : Fill;
  sar_uuid : val }.
#[export] Instance eta_SchArc : Settable SchArc :=
  settable! mkSchArc <sar_start; sar_mid; sar_end; sar_stroke; sar_fill; sar_uuid>.
Definition SchArc_default : SchArc :=
  mkSchArc Position_default Position_default Position_default Stroke_default Fill_default VNone.

(** schitems.py:1723-1728 *)
Definition SchArc_step (o : SchArc) (item : val) : res SchArc :=
  let! h := item@0 in
  let! o := on (h =s "start") (setf sar_start (Position_from item)) o in
  let! o := on (h =s "mid") (setf sar_mid (Position_from item)) o in
  let! o := on (h =s "end") (setf sar_end (Position_from item)) o in
  let! o := on (h =s "stroke") (setf sar_stroke (Stroke_from item)) o in
  let! o := on (h =s "fill") (setf sar_fill (Fill_from item)) o in
  let! o := on (h =s "uuid") (setf sar_uuid (item@1)) o in
  Ok o.
(** schitems.py:1700-1729 *)
Definition SchArc_from (exp : val) : res SchArc :=
  let! l := need_head "arc" exp in foldM SchArc_step SchArc_default l.
(** schitems.py:1731-1750 *)
Definition SchArc_to (o : SchArc) (indent : nat) (newline : bool) : res str :=
  let indents := spaces indent in
  let! stroke := Stroke_to (sar_stroke o) (indent + 2) true in
  let! fill := Fill_to (sar_fill o) (indent + 2) true in
  Ok (indents ++ $"(arc (start " ++ fmt (po_X (sar_start o)) ++ $" " ++ fmt (po_Y (sar_start o)) ++ $") (mid " ++ fmt (po_X (sar_mid o)) ++ $" " ++ fmt (po_Y (sar_mid o))
      ++ $") (end " ++ fmt (po_X (sar_end o)) ++ $" " ++ fmt (po_Y (sar_end o)) ++ $")" ++ nl
      ++ stroke ++ fill ++ (if is_none (sar_uuid o) then [] else indents ++ $"  (uuid " ++ fmt (sar_uuid o) ++ $")" ++ nl) ++ indents ++ $")" ++ eol newline).

(** items/schitems.py:1752-1775: attributes of Circle and their defaults *)
Record Circle := mkCircle {
  cir_center : Position;
  cir_radius : val;
  cir_stroke : Stroke;
  cir_fill : Fill;
  cir_uuid : val }.
#[export] Instance eta_Circle : Settable Circle :=
  settable! mkCircle <cir_center; cir_radius; cir_stroke; cir_fill; cir_uuid>.
Definition Circle_default : Circle :=
  mkCircle Position_default (fdec 0 0) Stroke_default Fill_default VNone.

(** schitems.py:1800-1804 *)
Definition Circle_step (o : Circle) (item : val) : res Circle :=
  let! h := item@0 in
  let! o := on (h =s "center") (setf cir_center (Position_from item)) o in
  let! o := on (h =s "radius") (setf cir_radius (item@1)) o in
  let! o := on (h =s "stroke") (setf cir_stroke (Stroke_from item)) o in
  let! o := on (h =s "fill") (setf cir_fill (Fill_from item)) o in
  let! o := on (h =s "uuid") (setf cir_uuid (item@1)) o in
  Ok o.
(** schitems.py:1777-1805 *)
Definition Circle_from (exp : val) : res Circle :=
  let! l := need_head "circle" exp in foldM Circle_step Circle_default l.
(** schitems.py:1807-1826 *)
Definition Circle_to (o : Circle) (indent : nat) (newline : bool) : res str :=
  let indents := spaces indent in
  let! stroke := Stroke_to (cir_stroke o) (indent + 2) true in
  let! fill := Fill_to (cir_fill o) (indent + 2) true in
  Ok (indents ++ $"(circle (center " ++ fmt (po_X (cir_center o)) ++ $" " ++ fmt (po_Y (cir_center o)) ++ $") (radius " ++ fmt (cir_radius o) ++ $")" ++ nl
      ++ stroke ++ fill ++ (if is_none (cir_uuid o) then [] else indents ++ $"  (uuid " ++ fmt (cir_uuid o) ++ $")" ++ nl) ++ indents ++ $")" ++ eol newline).

(** The defaults of [position] and [effects] are the classes themselves; they are [None] here.
    The attributes X, Y and angle of the class Position are the defaults of an object of it. *)
(** items/schitems.py:1828-1862: attributes of NetclassFlag and their defaults *)
Record NetclassFlag := mkNetclassFlag {
  nf_text : val;
  nf_length : val;
  nf_shape : val;
  nf_position : option Position;
  nf_effects : option Effects;
  nf_properties : list Property;
  nf_uuid : val;
  nf_fieldsAutoplaced : bool }.
#[export] Instance eta_NetclassFlag : Settable NetclassFlag :=
  settable! mkNetclassFlag <nf_text; nf_length; nf_shape; nf_position; nf_effects; nf_properties; nf_uuid; nf_fieldsAutoplaced>.
Definition NetclassFlag_default : NetclassFlag :=
  mkNetclassFlag (VStr []) (fdec 254 (-2)) (VStr $"round") None None [] VNone false.

(** schitems.py:1887-1893 *)
Definition NetclassFlag_step (o : NetclassFlag) (item : val) : res NetclassFlag :=
  let! h := item@0 in
  let! o := on (h =s "length") (setf nf_length (item@1)) o in
  let! o := on (h =s "shape") (setf nf_shape (item@1)) o in
  let! o := on (h =s "at") (setf nf_position (let! p := Position_from item in Ok (Some p))) o in
  let! o := on (h =s "fields_autoplaced") (setf nf_fieldsAutoplaced (Ok true)) o in
  let! o := on (h =s "effects") (setf nf_effects (let! e := Effects_from item in Ok (Some e))) o in
  let! o := on (h =s "uuid") (setf nf_uuid (item@1)) o in
  let! o := on (h =s "property") (addf nf_properties (Property_from item)) o in
  Ok o.
(** schitems.py:1864-1894 *)
Definition NetclassFlag_from (exp : val) : res NetclassFlag :=
  let! l := need_head "netclass_flag" exp in
  let! o := setf nf_text (exp@1) NetclassFlag_default in
  foldM NetclassFlag_step o (skipn 2 l).
(** schitems.py:1896-1919; [Effects.to_sexpr(indent+2)] of the class raises AttributeError *)
Definition NetclassFlag_to (o : NetclassFlag) (indent : nat) (newline : bool) : res str :=
  let indents := spaces indent in
  let p := match nf_position o with Some p => p | None => Position_default end in
  let fa := if nf_fieldsAutoplaced o then $" (fields_autoplaced)" else [] in
  let! effects := match nf_effects o with Some e => Effects_to e (indent + 2) true | None => Err EAttribute end in
  let! properties := concatM (fun x => Property_to x (indent + 2) true) (nf_properties o) in
  Ok (indents ++ $"(netclass_flag " ++ quoted (nf_text o) ++ $" (length " ++ fmt (nf_length o) ++ $") (shape " ++ fmt (nf_shape o) ++ $") (at "
      ++ fmt (po_X p) ++ $" " ++ fmt (po_Y p) ++ angle_str p ++ $")" ++ fa ++ nl
      ++ effects ++ (if is_none (nf_uuid o) then [] else indents ++ $"  (uuid " ++ fmt (nf_uuid o) ++ $")" ++ nl) ++ properties ++ indents ++ $")" ++ eol newline).
