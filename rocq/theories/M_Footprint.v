(** Model of footprint.py. *)
From Verif Require Import PyBase PyNum PyStr PyRe Sexpr M_Common M_Sym M_Fp M_Gr M_Zone.

(** footprint.py:33-61: attributes of Attributes and their defaults *)
Record Attributes := mkAttributes {
  fx_type : val;
  fx_boardOnly : bool;
  fx_excludeFromPosFiles : bool;
  fx_excludeFromBom : bool;
  fx_allowMissingCourtyard : bool }.
#[export] Instance eta_Attributes : Settable Attributes :=
  settable! mkAttributes <fx_type; fx_boardOnly; fx_excludeFromPosFiles; fx_excludeFromBom; fx_allowMissingCourtyard>.
Definition Attributes_default : Attributes :=
  mkAttributes VNone false false false false.

(** footprint.py:91-94 *)
Definition Attributes_item (o : Attributes) (item : val) : res Attributes :=
  let! o := on (item =s "board_only") (setf fx_boardOnly (Ok true)) o in
  let! o := on (item =s "exclude_from_pos_files") (setf fx_excludeFromPosFiles (Ok true)) o in
  let! o := on (item =s "exclude_from_bom") (setf fx_excludeFromBom (Ok true)) o in
  let! o := on (item =s "allow_missing_courtyard") (setf fx_allowMissingCourtyard (Ok true)) o in
  Ok o.
(** footprint.py:63-95 *)
Definition Attributes_from (exp : val) : res Attributes :=
  let! l := need_head "attr" exp in
  let o := Attributes_default in
  let! o := on (Nat.ltb 1 (length l)) (fun o =>
    let! x := exp@1 in on ((x =s "through_hole") || (x =s "smd")) (setf fx_type (Ok x)) o) o in
  foldM Attributes_item o l.
(** footprint.py:97-132; type == None is only true of None *)
Definition Attributes_to (o : Attributes) (indent : nat) (newline : bool) : res str :=
  if is_none (fx_type o) && negb (fx_boardOnly o) && negb (fx_excludeFromBom o) && negb (fx_excludeFromPosFiles o)
     && negb (fx_allowMissingCourtyard o) then Ok [] else
  let type := if is_none (fx_type o) then [] else $" " ++ fmt (fx_type o) in
  Ok (spaces indent ++ $"(attr" ++ type
      ++ (if fx_boardOnly o then $" board_only" else []) ++ (if fx_excludeFromPosFiles o then $" exclude_from_pos_files" else [])
      ++ (if fx_excludeFromBom o then $" exclude_from_bom" else []) ++ (if fx_allowMissingCourtyard o then $" allow_missing_courtyard" else [])
      ++ $")" ++ eol newline).

(** footprint.py:134-158: attributes of Model and their defaults *)
Record Model := mkModel {
  mo_path : val;
  mo_pos : Coordinate;
  mo_scale : Coordinate;
  mo_rotate : Coordinate;
  mo_hide : bool;
  mo_opacity : val }.
#[export] Instance eta_Model : Settable Model :=
  settable! mkModel <mo_path; mo_pos; mo_scale; mo_rotate; mo_hide; mo_opacity>.
Definition Model_default : Model :=
  mkModel (VStr []) ((mkCoordinate (fdec 0 0) (fdec 0 0) (fdec 0 0))) ((mkCoordinate (fdec 1 0) (fdec 1 0) (fdec 1 0))) ((mkCoordinate (fdec 0 0) (fdec 0 0) (fdec 0 0))) false VNone.

(** footprint.py:187-194 *)
Definition Model_step (o : Model) (e : val) : res Model :=
  let! h := e@0 in
  let! o := on (h =s "opacity") (setf mo_opacity (e@1)) o in
  let! o := on (h =s "offset") (setf mo_pos (let! c := e@1 in Coordinate_from c)) o in
  let! o := on (h =s "scale") (setf mo_scale (let! c := e@1 in Coordinate_from c)) o in
  let! o := on (h =s "rotate") (setf mo_rotate (let! c := e@1 in Coordinate_from c)) o in
  Ok o.
(** footprint.py:160-195 *)
Definition Model_from (exp : val) : res Model :=
  let! l := need_list exp in
  if Nat.ltb (length l) 5 then Err EException else
  let! h := exp@0 in
  if negb (h =s "model") then Err EException else
  let! o := setf mo_path (exp@1) Model_default in
  let! x := exp@2 in
  let! o := on (x =s "hide") (setf mo_hide (Ok true)) o in
  foldM Model_step o (skipn 2 l).
(** footprint.py:197-218 *)
Definition Model_to (o : Model) (indent : nat) (newline : bool) : res str :=
  let indents := spaces indent in
  let hide := if mo_hide o then $" hide" else [] in
  let opacity := if is_none (mo_opacity o) then [] else indents ++ $"  (opacity " ++ fmt (mo_opacity o) ++ $")" ++ nl in
  let! pos := Coordinate_to (mo_pos o) 0 false in
  let! scale := Coordinate_to (mo_scale o) 0 false in
  let! rotate := Coordinate_to (mo_rotate o) 0 false in
  Ok (indents ++ $"(model " ++ quoted (mo_path o) ++ hide ++ nl ++ opacity
      ++ indents ++ $"  (offset " ++ pos ++ $")" ++ nl ++ indents ++ $"  (scale " ++ scale ++ $")" ++ nl
      ++ indents ++ $"  (rotate " ++ rotate ++ $")" ++ nl ++ indents ++ $")" ++ eol newline).

(** footprint.py:220-238: attributes of DrillDefinition and their defaults *)
Record DrillDefinition := mkDrillDefinition {
  dd_oval : bool;
  dd_diameter : val;
  dd_width : val;
  dd_offset : option Position }.
#[export] Instance eta_DrillDefinition : Settable DrillDefinition :=
  settable! mkDrillDefinition <dd_oval; dd_diameter; dd_width; dd_offset>.
Definition DrillDefinition_default : DrillDefinition :=
  mkDrillDefinition false (fdec 0 0) VNone None.

(** footprint.py:272-274 *)
Definition DrillDefinition_step (o : DrillDefinition) (item : val) : res DrillDefinition :=
  if negb (is_list item) then Ok o else
  let! h := item@0 in
  let! o := on (h =s "offset") (setf dd_offset (let! p := Position_from item in Ok (Some p))) o in
  Ok o.
(** footprint.py:240-275 *)
Definition DrillDefinition_from (exp : val) : res DrillDefinition :=
  let! l := need_head "drill" exp in
  let o := DrillDefinition_default in
  let! x := exp@1 in
  let! o :=
    if x =s "oval" then
      let! o := setf dd_oval (Ok true) o in
      let! o := setf dd_diameter (exp@2) o in
      setf dd_width (exp@3) o
    else
      let! o := setf dd_diameter (Ok x) o in
      on (Nat.ltb 2 (length l)) (setf dd_width (exp@2)) o in
  foldM DrillDefinition_step o l.
(** footprint.py:277-294 *)
Definition DrillDefinition_to (o : DrillDefinition) (indent : nat) (newline : bool) : res str :=
  let oval := if dd_oval o then $" oval" else [] in
  let width := if dd_oval o && negb (is_none (dd_width o)) then $" " ++ fmt (dd_width o) else [] in
  let offset := match dd_offset o with Some p => $" (offset " ++ fmt (po_X p) ++ $" " ++ fmt (po_Y p) ++ $")" | None => [] end in
  Ok (spaces indent ++ $"(drill" ++ oval ++ $" " ++ fmt (dd_diameter o) ++ width ++ offset ++ $")" ++ eol newline).

(** footprint.py:296-310: attributes of PadOptions and their defaults *)
Record PadOptions := mkPadOptions {
  pq_clearance : val;
  pq_anchor : val }.
#[export] Instance eta_PadOptions : Settable PadOptions :=
  settable! mkPadOptions <pq_clearance; pq_anchor>.
Definition PadOptions_default : PadOptions :=
  mkPadOptions (VStr $"outline") (VStr $"rect").

(** footprint.py:333-335: the loop also visits the head *)
Definition PadOptions_step (o : PadOptions) (item : val) : res PadOptions :=
  let! h := item@0 in
  let! o := on (h =s "clearance") (setf pq_clearance (item@1)) o in
  let! o := on (h =s "anchor") (setf pq_anchor (item@1)) o in
  Ok o.
(** footprint.py:312-336 *)
Definition PadOptions_from (exp : val) : res PadOptions :=
  let! l := need_head "options" exp in foldM PadOptions_step PadOptions_default l.
(** footprint.py:338-351 *)
Definition PadOptions_to (o : PadOptions) (indent : nat) (newline : bool) : res str :=
  Ok (spaces indent ++ $"(options (clearance " ++ fmt (pq_clearance o) ++ $") (anchor " ++ fmt (pq_anchor o) ++ $"))" ++ eol newline).

(** footprint.py:475-478: a list element of one of several classes *)
Inductive PadPrimitive :=
| PadPrimitive_GrText (x : GrText)
| PadPrimitive_GrTextBox (x : GrTextBox)
| PadPrimitive_GrLine (x : GrLine)
| PadPrimitive_GrRect (x : GrRect)
| PadPrimitive_GrCircle (x : GrCircle)
| PadPrimitive_GrArc (x : GrArc)
| PadPrimitive_GrPoly (x : GrPoly)
| PadPrimitive_GrCurve (x : GrCurve).
Definition PadPrimitive_to (o : PadPrimitive) (indent : nat) (newline : bool) : res str :=
  match o with
  | PadPrimitive_GrText x => GrText_to x indent newline
  | PadPrimitive_GrTextBox x => GrTextBox_to x indent newline
  | PadPrimitive_GrLine x => GrLine_to x indent newline
  | PadPrimitive_GrRect x => GrRect_to x indent newline
  | PadPrimitive_GrCircle x => GrCircle_to x indent newline
  | PadPrimitive_GrArc x => GrArc_to x indent newline
  | PadPrimitive_GrPoly x => GrPoly_to x indent newline
  | PadPrimitive_GrCurve x => GrCurve_to x indent newline
  end.

(** footprint.py:537-547, one element of primitives; the tests exclude each other *)
Definition PadPrimitive_read (primitive : val) : res (list PadPrimitive) :=
  let! h := primitive@0 in
  if h =s "gr_text" then let! x := GrText_from primitive in Ok [PadPrimitive_GrText x] else
  if h =s "gr_text_box" then let! x := GrTextBox_from primitive in Ok [PadPrimitive_GrTextBox x] else
  if h =s "gr_line" then let! x := GrLine_from primitive in Ok [PadPrimitive_GrLine x] else
  if h =s "gr_rect" then let! x := GrRect_from primitive in Ok [PadPrimitive_GrRect x] else
  if h =s "gr_circle" then let! x := GrCircle_from primitive in Ok [PadPrimitive_GrCircle x] else
  if h =s "gr_arc" then let! x := GrArc_from primitive in Ok [PadPrimitive_GrArc x] else
  if h =s "gr_poly" then let! x := GrPoly_from primitive in Ok [PadPrimitive_GrPoly x] else
  if h =s "gr_curve" then let! x := GrCurve_from primitive in Ok [PadPrimitive_GrCurve x] else
  if h =s "dimension" then Err ENotImplemented else Ok [].
(** footprint.py:536-547, the elements that are appended *)
Definition PadPrimitives_read (l : list val) : res (list PadPrimitive) :=
  let! ll := mapM PadPrimitive_read l in Ok (concat ll).

(** footprint.py:353-478: attributes of Pad and their defaults *)
Record Pad := mkPad {
  pd_number : val;
  pd_type : val;
  pd_shape : val;
  pd_position : Position;
  pd_locked : bool;
  pd_size : Position;
  pd_drill : option DrillDefinition;
  pd_layers : list val;
  pd_property : val;
  pd_removeUnusedLayers : bool;
  pd_keepEndLayers : bool;
  pd_roundrectRatio : val;
  pd_chamferRatio : val;
  pd_chamfer : list val;
  pd_net : option Net;
  pd_tstamp : val;
  pd_pinFunction : val;
  pd_pinType : val;
  pd_dieLength : val;
  pd_solderMaskMargin : val;
  pd_solderPasteMargin : val;
  pd_solderPasteMarginRatio : val;
  pd_clearance : val;
  pd_zoneConnect : val;
  pd_thermalWidth : val;
  pd_thermalGap : val;
  pd_customPadOptions : option PadOptions;
  pd_customPadPrimitives : list PadPrimitive }.
#[export] Instance eta_Pad : Settable Pad :=
  settable! mkPad <pd_number; pd_type; pd_shape; pd_position; pd_locked; pd_size; pd_drill; pd_layers; pd_property; pd_removeUnusedLayers; pd_keepEndLayers; pd_roundrectRatio; pd_chamferRatio; pd_chamfer; pd_net; pd_tstamp; pd_pinFunction; pd_pinType; pd_dieLength; pd_solderMaskMargin; pd_solderPasteMargin; pd_solderPasteMarginRatio; pd_clearance; pd_zoneConnect; pd_thermalWidth; pd_thermalGap; pd_customPadOptions; pd_customPadPrimitives>.
Definition Pad_default : Pad :=
  mkPad (VStr $"x") (VStr $"smd") (VStr $"rect") Position_default false Position_default None [] VNone false false VNone VNone [] None VNone VNone VNone VNone VNone VNone VNone VNone VNone VNone VNone None [].

(** footprint.py:507-547: every item goes through all the tests, bare words by their first letter *)
Definition Pad_step (o : Pad) (item : val) : res Pad :=
  let! o := on (negb (is_list item) && (item =s "locked")) (setf pd_locked (Ok true)) o in
  let! h := item@0 in
  let! o := on (h =s "at") (setf pd_position (Position_from item)) o in
  let! o := on (h =s "size") (setf pd_size (Position_from item)) o in
  let! o := on (h =s "drill") (setf pd_drill (let! x := DrillDefinition_from item in Ok (Some x))) o in
  let! o := on (h =s "layers") (extf pd_layers (from_ item 1)) o in
  let! o := on (h =s "property") (setf pd_property (item@1)) o in
  let! o := on (h =s "remove_unused_layers") (setf pd_removeUnusedLayers (Ok true)) o in
  let! o := on (h =s "keep_end_layers") (setf pd_keepEndLayers (Ok true)) o in
  let! o := on (h =s "roundrect_rratio") (setf pd_roundrectRatio (item@1)) o in
  let! o := on (h =s "chamfer_ratio") (setf pd_chamferRatio (item@1)) o in
  let! o := on (h =s "chamfer") (extf pd_chamfer (from_ item 1)) o in
  let! o := on (h =s "net") (setf pd_net (let! x := Net_from item in Ok (Some x))) o in
  let! o := on (h =s "tstamp") (setf pd_tstamp (item@1)) o in
  let! o := on (h =s "pinfunction") (setf pd_pinFunction (item@1)) o in
  let! o := on (h =s "pintype") (setf pd_pinType (item@1)) o in
  let! o := on (h =s "die_length") (setf pd_dieLength (item@1)) o in
  let! o := on (h =s "solder_mask_margin") (setf pd_solderMaskMargin (item@1)) o in
  let! o := on (h =s "solder_paste_margin") (setf pd_solderPasteMargin (item@1)) o in
  let! o := on (h =s "solder_paste_margin_ratio") (setf pd_solderPasteMarginRatio (item@1)) o in
  let! o := on (h =s "clearance") (setf pd_clearance (item@1)) o in
  let! o := on (h =s "zone_connect") (setf pd_zoneConnect (item@1)) o in
  let! o := on (h =s "thermal_width") (setf pd_thermalWidth (item@1)) o in
  let! o := on (h =s "thermal_gap") (setf pd_thermalGap (item@1)) o in
  let! o := on (h =s "options") (setf pd_customPadOptions (let! x := PadOptions_from item in Ok (Some x))) o in
  let! o := on (h =s "primitives") (extf pd_customPadPrimitives (let! l := from_ item 1 in PadPrimitives_read l)) o in
  Ok o.
(** footprint.py:480-549 *)
Definition Pad_from (exp : val) : res Pad :=
  let! l := need_head "pad" exp in
  let o := Pad_default in
  let! o := setf pd_number (exp@1) o in
  let! o := setf pd_type (exp@2) o in
  let! o := setf pd_shape (exp@3) o in
  foldM Pad_step o (skipn 3 l).
(** ['text' in v]: part of a str, element of a list, TypeError for anything else *)
Fixpoint contains (p s : str) : bool :=
  is_prefix p s || match s with [] => false | _ :: s' => contains p s' end.
Definition py_in (p : String.string) (v : val) : res bool :=
  match v with
  | VStr s => Ok (contains (lit p) s)
  | VList l => Ok (existsb (fun x => x =s p) l)
  | _ => Err EType
  end.
(** footprint.py:569-574, one layer *)
Definition Pad_layer_text (layer : val) : res str :=
  let! a := py_in "*."%string layer in
  let! b := py_in "&"%string layer in
  if a || b then Ok ($" " ++ fmt layer) else Ok ($" " ++ quoted layer).
(** footprint.py:566-576 *)
Definition Pad_layers_text (layers : list val) : res str :=
  let! l := concatM Pad_layer_text layers in Ok ($" (layers" ++ l ++ $")").
(** footprint.py:596-598: [for chamfer in self.chamfer: c += f' {chamfer}'] *)
Definition word_list (l : list val) : str := flat_map (fun v => $" " ++ fmt v) l.
(** [text != ''] *)
Definition nonblank (s : str) : bool := match s with [] => false | _ => true end.
(** footprint.py:634-650: a line that is only written when one of its parts is *)
Definition extra_line (b : bool) (indent : nat) (s : str) : str := if b then nl ++ spaces indent ++ $" " ++ s else [].
(** footprint.py:551-661 *)
Definition Pad_to (o : Pad) (indent : nat) (newline : bool) : res str :=
  let indents := spaces indent in
  let! layers := Pad_layers_text (pd_layers o) in
  let locked := if pd_locked o then $" locked" else [] in
  let! drill := opt_str (pd_drill o) (fun d => let! s := DrillDefinition_to d 0 false in Ok ($" " ++ s)) in
  let ppty := if is_none (pd_property o) then [] else $" (property " ++ fmt (pd_property o) ++ $")" in
  let rul := if pd_removeUnusedLayers o then $" (remove_unused_layers)" else [] in
  let kel := if pd_keepEndLayers o then $" (keep_end_layers)" else [] in
  let rrr := if is_none (pd_roundrectRatio o) then [] else $" (roundrect_rratio " ++ fmt (pd_roundrectRatio o) ++ $")" in
  let! net := opt_str (pd_net o) (fun n => let! s := Net_to n 0 false in Ok ($" " ++ s)) in
  let pf := if is_none (pd_pinFunction o) then [] else $" (pinfunction " ++ quoted (pd_pinFunction o) ++ $")" in
  let pt := if is_none (pd_pinType o) then [] else $" (pintype " ++ quoted (pd_pinType o) ++ $")" in
  let symbol_associated := nonblank net || nonblank pf || nonblank pt in
  let tstamp := if is_none (pd_tstamp o) then [] else $" (tstamp " ++ fmt (pd_tstamp o) ++ $")" in
  let chamfer_found := negb (Nat.eqb (length (pd_chamfer o)) 0) || negb (is_none (pd_chamferRatio o)) in
  let c := if Nat.eqb (length (pd_chamfer o)) 0 then [] else $" (chamfer" ++ word_list (pd_chamfer o) ++ $")" in
  let cr := if is_none (pd_chamferRatio o) then [] else $" (chamfer_ratio " ++ fmt (pd_chamferRatio o) ++ $")" in
  let position := if is_none (po_angle (pd_position o))
    then $"(at " ++ fmt (po_X (pd_position o)) ++ $" " ++ fmt (po_Y (pd_position o)) ++ $")"
    else $"(at " ++ fmt (po_X (pd_position o)) ++ $" " ++ fmt (po_Y (pd_position o)) ++ $" " ++ fmt (po_angle (pd_position o)) ++ $")" in
  let margin_found := negb (is_none (pd_solderMaskMargin o)) || negb (is_none (pd_solderPasteMargin o)) || negb (is_none (pd_solderPasteMarginRatio o)) || negb (is_none (pd_clearance o)) || negb (is_none (pd_zoneConnect o)) || negb (is_none (pd_thermalWidth o)) || negb (is_none (pd_thermalGap o)) in
  let smm := if is_none (pd_solderMaskMargin o) then [] else $" (solder_mask_margin " ++ fmt (pd_solderMaskMargin o) ++ $")" in
  let spm := if is_none (pd_solderPasteMargin o) then [] else $" (solder_paste_margin " ++ fmt (pd_solderPasteMargin o) ++ $")" in
  let spmr := if is_none (pd_solderPasteMarginRatio o) then [] else $" (solder_paste_margin_ratio " ++ fmt (pd_solderPasteMarginRatio o) ++ $")" in
  let cl := if is_none (pd_clearance o) then [] else $" (clearance " ++ fmt (pd_clearance o) ++ $")" in
  let zc := if is_none (pd_zoneConnect o) then [] else $" (zone_connect " ++ fmt (pd_zoneConnect o) ++ $")" in
  let tw := if is_none (pd_thermalWidth o) then [] else $" (thermal_width " ++ fmt (pd_thermalWidth o) ++ $")" in
  let tg := if is_none (pd_thermalGap o) then [] else $" (thermal_gap " ++ fmt (pd_thermalGap o) ++ $")" in
  let! options := opt_str (pd_customPadOptions o) (fun p => let! s := PadOptions_to p 0 false in Ok (nl ++ indents ++ $"  " ++ s)) in
  let! primitives := concatM (fun p => let! s := PadPrimitive_to p (indent + 4) false in Ok (nl ++ s)) (pd_customPadPrimitives o) in
  Ok (indents ++ $"(pad " ++ quoted (pd_number o) ++ $" " ++ fmt (pd_type o) ++ $" " ++ fmt (pd_shape o) ++ locked ++ $" " ++ position
      ++ $" (size " ++ fmt (po_X (pd_size o)) ++ $" " ++ fmt (po_Y (pd_size o)) ++ $")" ++ drill ++ ppty ++ layers ++ rul ++ kel ++ rrr
      ++ extra_line chamfer_found indent (cr ++ c)
      ++ (if is_none (pd_dieLength o) then [] else nl ++ indents ++ $"  (die_length " ++ fmt (pd_dieLength o) ++ $")")
      ++ extra_line (margin_found || symbol_associated) indent (net ++ pf ++ pt ++ smm ++ spm ++ spmr ++ cl ++ zc ++ tw ++ tg)
      ++ options
      ++ (if Nat.eqb (length (pd_customPadPrimitives o)) 0 then [] else nl ++ indents ++ $"  (primitives" ++ primitives ++ nl ++ indents ++ $"  )")
      ++ tstamp ++ $")" ++ eol newline).

(** footprint.py:811-814: a list element of one of several classes *)
Inductive FpItem :=
| FpItem_FpText (x : FpText)
| FpItem_FpTextBox (x : FpTextBox)
| FpItem_FpLine (x : FpLine)
| FpItem_FpRect (x : FpRect)
| FpItem_FpCircle (x : FpCircle)
| FpItem_FpArc (x : FpArc)
| FpItem_FpPoly (x : FpPoly)
| FpItem_FpCurve (x : FpCurve)
| FpItem_Image (x : Image).
Definition FpItem_to (o : FpItem) (indent : nat) (newline : bool) : res str :=
  match o with
  | FpItem_FpText x => FpText_to x indent newline
  | FpItem_FpTextBox x => FpTextBox_to x indent newline
  | FpItem_FpLine x => FpLine_to x indent newline
  | FpItem_FpRect x => FpRect_to x indent newline
  | FpItem_FpCircle x => FpCircle_to x indent newline
  | FpItem_FpArc x => FpArc_to x indent newline
  | FpItem_FpPoly x => FpPoly_to x indent newline
  | FpItem_FpCurve x => FpCurve_to x indent newline
  | FpItem_Image x => Image_to x indent newline
  end.

(** The default of tedit is the time at which the module is loaded, in hexadecimal; it is the
    argument [now] of everything that makes a new Footprint. *)
(** footprint.py:663-838: attributes of Footprint and their defaults *)
Record Footprint := mkFootprint {
  fd_libraryNickname : val;
  fd_entryName : val;
  fd_version : val;
  fd_generator : val;
  fd_locked : bool;
  fd_placed : bool;
  fd_layer : val;
  fd_tedit : val;
  fd_tstamp : val;
  fd_position : option Position;
  fd_description : val;
  fd_tags : val;
  fd_properties : list (val * val);
  fd_path : val;
  fd_autoplaceCost90 : val;
  fd_autoplaceCost180 : val;
  fd_solderMaskMargin : val;
  fd_solderPasteMargin : val;
  fd_solderPasteRatio : val;
  fd_clearance : val;
  fd_zoneConnect : val;
  fd_thermalWidth : val;
  fd_thermalGap : val;
  fd_attributes : Attributes;
  fd_privateLayers : list val;
  fd_netTiePadGroups : list val;
  fd_graphicItems : list FpItem;
  fd_pads : list Pad;
  fd_zones : list Zone;
  fd_groups : list Group;
  fd_models : list Model;
  fd_filePath : val }.
#[export] Instance eta_Footprint : Settable Footprint :=
  settable! mkFootprint <fd_libraryNickname; fd_entryName; fd_version; fd_generator; fd_locked; fd_placed; fd_layer; fd_tedit; fd_tstamp; fd_position; fd_description; fd_tags; fd_properties; fd_path; fd_autoplaceCost90; fd_autoplaceCost180; fd_solderMaskMargin; fd_solderPasteMargin; fd_solderPasteRatio; fd_clearance; fd_zoneConnect; fd_thermalWidth; fd_thermalGap; fd_attributes; fd_privateLayers; fd_netTiePadGroups; fd_graphicItems; fd_pads; fd_zones; fd_groups; fd_models; fd_filePath>.
Definition Footprint_default (now : val) : Footprint :=
  mkFootprint VNone VNone VNone VNone false false (VStr $"F.Cu") now VNone None VNone VNone [] VNone VNone VNone VNone VNone VNone VNone VNone VNone VNone Attributes_default [] [] [] [] [] [] [] VNone.

(** footprint.py:671-686, the getter of libId *)
Definition Footprint_libId (o : Footprint) : str :=
  if truthy (fd_libraryNickname o) then fmt (fd_libraryNickname o) ++ $":" ++ fmt (fd_entryName o)
  else fmt (fd_entryName o).
(** footprint.py:688-704, the setter of libId *)
Definition Footprint_set_libId (symbol_id : val) (o : Footprint) : Footprint :=
  match re_match re_nick (fmt symbol_id) with
  | Some m => o <| fd_libraryNickname := VStr (group 1 m) |> <| fd_entryName := VStr (group 2 m) |>
  | None => o <| fd_libraryNickname := VNone |> <| fd_entryName := symbol_id |>
  end.
Definition Footprint_item {A} (c : A -> FpItem) (m : res A) (o : Footprint) : res Footprint :=
  addf fd_graphicItems (let! x := m in Ok (c x)) o.
(** footprint.py:863-908 *)
Definition Footprint_step (o : Footprint) (item : val) : res Footprint :=
  if negb (is_list item) then
    let! o := on (item =s "locked") (setf fd_locked (Ok true)) o in
    on (item =s "placed") (setf fd_placed (Ok true)) o
  else
  let! h := item@0 in
  let! o := on (h =s "version") (setf fd_version (item@1)) o in
  let! o := on (h =s "generator") (setf fd_generator (item@1)) o in
  let! o := on (h =s "layer") (setf fd_layer (item@1)) o in
  let! o := on (h =s "tedit") (setf fd_tedit (item@1)) o in
  let! o := on (h =s "tstamp") (setf fd_tstamp (item@1)) o in
  let! o := on (h =s "descr") (setf fd_description (item@1)) o in
  let! o := on (h =s "tags") (setf fd_tags (item@1)) o in
  let! o := on (h =s "path") (setf fd_path (item@1)) o in
  let! o := on (h =s "at") (setf fd_position (let! p := Position_from item in Ok (Some p))) o in
  let! o := on (h =s "autoplace_cost90") (setf fd_autoplaceCost90 (item@1)) o in
  let! o := on (h =s "autoplace_cost180") (setf fd_autoplaceCost180 (item@1)) o in
  let! o := on (h =s "solder_mask_margin") (setf fd_solderMaskMargin (item@1)) o in
  let! o := on (h =s "solder_paste_margin") (setf fd_solderPasteMargin (item@1)) o in
  let! o := on (h =s "solder_paste_ratio") (setf fd_solderPasteRatio (item@1)) o in
  let! o := on (h =s "clearance") (setf fd_clearance (item@1)) o in
  let! o := on (h =s "zone_connect") (setf fd_zoneConnect (item@1)) o in
  let! o := on (h =s "thermal_width") (setf fd_thermalWidth (item@1)) o in
  let! o := on (h =s "thermal_gap") (setf fd_thermalGap (item@1)) o in
  let! o := on (h =s "attr") (setf fd_attributes (Attributes_from item)) o in
  let! o := on (h =s "model") (addf fd_models (Model_from item)) o in
  let! o := on (h =s "fp_text") (Footprint_item FpItem_FpText (FpText_from item)) o in
  let! o := on (h =s "fp_text_box") (Footprint_item FpItem_FpTextBox (FpTextBox_from item)) o in
  let! o := on (h =s "fp_line") (Footprint_item FpItem_FpLine (FpLine_from item)) o in
  let! o := on (h =s "fp_rect") (Footprint_item FpItem_FpRect (FpRect_from item)) o in
  let! o := on (h =s "fp_circle") (Footprint_item FpItem_FpCircle (FpCircle_from item)) o in
  let! o := on (h =s "fp_arc") (Footprint_item FpItem_FpArc (FpArc_from item)) o in
  let! o := on (h =s "fp_poly") (Footprint_item FpItem_FpPoly (FpPoly_from item)) o in
  let! o := on (h =s "fp_curve") (Footprint_item FpItem_FpCurve (FpCurve_from item)) o in
  let! o := on (h =s "image") (Footprint_item FpItem_Image (Image_from item)) o in
  let! o := on (h =s "pad") (addf fd_pads (Pad_from item)) o in
  let! o := on (h =s "zone") (addf fd_zones (Zone_from item)) o in
  let! o := on (h =s "property") (fun o =>
    let! k := item@1 in let! v := item@2 in let! d := dict_set (fd_properties o) k v in Ok (o <| fd_properties := d |>)) o in
  let! o := on (h =s "group") (addf fd_groups (Group_from item)) o in
  let! o := on (h =s "private_layers") (extf fd_privateLayers (from_ item 1)) o in
  let! o := on (h =s "net_tie_pad_groups") (extf fd_netTiePadGroups (from_ item 1)) o in
  let! o := on (h =s "dimension") (fun o => Err ENotImplemented) o in
  Ok o.
(** footprint.py:840-910 *)
Definition Footprint_from (now exp : val) : res Footprint :=
  let! l := need_list exp in
  let! h := exp@0 in
  if negb (h =s "module") && negb (h =s "footprint") then Err EException else
  let! id := exp@1 in
  foldM Footprint_step (Footprint_set_libId id (Footprint_default now)) (skipn 2 l).
(** footprint.py:1009-1097 *)
Definition Footprint_to_layer (layerInFirstLine : bool) (o : Footprint) (indent : nat) (newline : bool) : res str :=
  let indents := spaces indent in
  let locked := if fd_locked o then $" locked" else [] in
  let placed := if fd_placed o then $" placed" else [] in
  let version := if is_none (fd_version o) then [] else $" (version " ++ fmt (fd_version o) ++ $")" in
  let generator := if is_none (fd_generator o) then [] else $" (generator " ++ fmt (fd_generator o) ++ $")" in
  let tstamp := if is_none (fd_tstamp o) then [] else $" (tstamp " ++ fmt (fd_tstamp o) ++ $")" in
  let layer := if layerInFirstLine then $" (layer " ++ quoted (fd_layer o) ++ $")" ++ nl
               else nl ++ indents ++ $"  (layer " ++ quoted (fd_layer o) ++ $")" ++ nl in
  let position := match fd_position o with
    | Some p => indents ++ $"  (at " ++ fmt (po_X p) ++ $" " ++ fmt (po_Y p)
                ++ (if is_none (po_angle p) then [] else $" " ++ fmt (po_angle p)) ++ $")" ++ nl
    | None => []
    end in
  let description := if is_none (fd_description o) then [] else indents ++ $"  (descr " ++ quoted (fd_description o) ++ $")" ++ nl in
  let tags := if is_none (fd_tags o) then [] else indents ++ $"  (tags " ++ quoted (fd_tags o) ++ $")" ++ nl in
  let! properties := concatM (fun kv => Ok (indents ++ $"  (property " ++ quoted (fst kv) ++ $" " ++ quoted (snd kv) ++ $")" ++ nl)) (fd_properties o) in
  let path := if is_none (fd_path o) then [] else indents ++ $"  (path " ++ quoted (fd_path o) ++ $")" ++ nl in
  let autoplaceCost90 := if is_none (fd_autoplaceCost90 o) then [] else indents ++ $"  (autoplace_cost90 " ++ fmt (fd_autoplaceCost90 o) ++ $")" ++ nl in
  let autoplaceCost180 := if is_none (fd_autoplaceCost180 o) then [] else indents ++ $"  (autoplace_cost180 " ++ fmt (fd_autoplaceCost180 o) ++ $")" ++ nl in
  let solderMaskMargin := if is_none (fd_solderMaskMargin o) then [] else indents ++ $"  (solder_mask_margin " ++ fmt (fd_solderMaskMargin o) ++ $")" ++ nl in
  let solderPasteMargin := if is_none (fd_solderPasteMargin o) then [] else indents ++ $"  (solder_paste_margin " ++ fmt (fd_solderPasteMargin o) ++ $")" ++ nl in
  let solderPasteRatio := if is_none (fd_solderPasteRatio o) then [] else indents ++ $"  (solder_paste_ratio " ++ fmt (fd_solderPasteRatio o) ++ $")" ++ nl in
  let clearance := if is_none (fd_clearance o) then [] else indents ++ $"  (clearance " ++ fmt (fd_clearance o) ++ $")" ++ nl in
  let zoneConnect := if is_none (fd_zoneConnect o) then [] else indents ++ $"  (zone_connect " ++ fmt (fd_zoneConnect o) ++ $")" ++ nl in
  let thermalWidth := if is_none (fd_thermalWidth o) then [] else indents ++ $"  (thermal_width " ++ fmt (fd_thermalWidth o) ++ $")" ++ nl in
  let thermalGap := if is_none (fd_thermalGap o) then [] else indents ++ $"  (thermal_gap " ++ fmt (fd_thermalGap o) ++ $")" ++ nl in
  let! attributes := Attributes_to (fd_attributes o) (indent + 2) true in
  let private := if Nat.eqb (length (fd_privateLayers o)) 0 then []
                 else indents ++ $"  (private_layers" ++ quoted_list (fd_privateLayers o) ++ $")" ++ nl in
  let net_tie := if Nat.eqb (length (fd_netTiePadGroups o)) 0 then []
                 else indents ++ $"  (net_tie_pad_groups" ++ quoted_list (fd_netTiePadGroups o) ++ $")" ++ nl in
  let! items := concatM (fun x => FpItem_to x (indent + 2) true) (fd_graphicItems o) in
  let! pads := concatM (fun x => Pad_to x (indent + 2) true) (fd_pads o) in
  let! zones := concatM (fun x => Zone_to x (indent + 2) true) (fd_zones o) in
  let! models := concatM (fun x => Model_to x (indent + 2) true) (fd_models o) in
  let! groups := concatM (fun x => Group_to x (indent + 2) true) (fd_groups o) in
  Ok (indents ++ $"(footprint " ++ quoted (VStr (Footprint_libId o)) ++ locked ++ placed ++ version ++ generator ++ layer
      ++ indents ++ $"  (tedit " ++ fmt (fd_tedit o) ++ $")" ++ tstamp ++ nl ++ position ++ description ++ tags ++ properties ++ path
      ++ autoplaceCost90 ++ autoplaceCost180 ++ solderMaskMargin ++ solderPasteMargin ++ solderPasteRatio ++ clearance ++ zoneConnect
      ++ thermalWidth ++ thermalGap ++ attributes ++ private ++ net_tie ++ items ++ pads ++ zones ++ models ++ groups
      ++ indents ++ $")" ++ eol newline).
Definition Footprint_to : Footprint -> nat -> bool -> res str := Footprint_to_layer false.
(** footprint.py:966-981: one of the three initial texts *)
Definition Footprint_new_text (type : str) (text : val) (layer : str) (y : val) : FpText :=
  FpText_default <| ft_type := VStr type |> <| ft_text := text |> <| ft_layer := VStr layer |>
    <| ft_effects := Effects_default <| ef_font := Font_default <| fo_thickness := fdec 15 (-2) |> |> |>
    <| ft_position := mkPosition (VInt 0) y VNone true |>.
(** footprint.py:937-987 *)
Definition Footprint_create_new (now library_id value type reference : val) : res Footprint :=
  if negb ((type =s "smd") || (type =s "through_hole") || (type =s "other")) then Err EException else
  let fp := Footprint_default now <| fd_version := VStr $"20211014" |> <| fd_generator := VStr $"kiutils" |> in
  let fp := Footprint_set_libId library_id fp in
  let fp := fp <| fd_graphicItems := fd_graphicItems fp ++ map FpItem_FpText
    [Footprint_new_text $"reference" reference $"F.SilkS" (fdec (-5) (-1)); Footprint_new_text $"value" value $"F.Fab" (VInt 1);
     Footprint_new_text $"user" (VStr $"${REFERENCE}") $"F.Fab" (fdec 25 (-1))] |> in
  Ok (if type =s "other" then fp else fp <| fd_attributes := fd_attributes fp <| fx_type := type |> |>).
