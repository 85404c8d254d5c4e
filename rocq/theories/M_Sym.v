(** Model of items/syitems.py and symbol.py. *)
From Verif Require Import PyBase PyNum PyStr PyRe Sexpr M_Common.

(** items/syitems.py:26-53: attributes of SyArc and their defaults *)
Record SyArc := mkSyArc {
  sa_private : bool;
  sa_start : Position;
  sa_mid : Position;
  sa_end : Position;
  sa_stroke : Stroke;
  sa_fill : Fill }.
#[export] Instance eta_SyArc : Settable SyArc :=
  settable! mkSyArc <sa_private; sa_start; sa_mid; sa_end; sa_stroke; sa_fill>.
Definition SyArc_default : SyArc :=
  mkSyArc false Position_default Position_default Position_default Stroke_default Fill_default.

(** syitems.py:78-85 *)
Definition SyArc_step (o : SyArc) (item : val) : res SyArc :=
  if is_text item then on (item =s "private") (setf sa_private (Ok true)) o else
  let! h := item@0 in
  let! o := on (h =s "start") (setf sa_start (Position_from item)) o in
  let! o := on (h =s "mid") (setf sa_mid (Position_from item)) o in
  let! o := on (h =s "end") (setf sa_end (Position_from item)) o in
  let! o := on (h =s "stroke") (setf sa_stroke (Stroke_from item)) o in
  let! o := on (h =s "fill") (setf sa_fill (Fill_from item)) o in
  Ok o.
(** syitems.py:55-86 *)
Definition SyArc_from (exp : val) : res SyArc :=
  let! l := need_head "arc" exp in foldM SyArc_step SyArc_default l.
(** syitems.py:88-110 *)
Definition SyArc_to (o : SyArc) (indent : nat) (newline : bool) : res str :=
  let indents := spaces indent in
  let startA := angle_str (sa_start o) in
  let midA := angle_str (sa_mid o) in
  let endA := angle_str (sa_end o) in
  let private := if sa_private o then $" private" else [] in
  let! stroke := Stroke_to (sa_stroke o) (indent + 2) true in
  let! fill := Fill_to (sa_fill o) (indent + 2) true in
  Ok (indents ++ $"(arc" ++ private ++ $" (start " ++ fmt (po_X (sa_start o)) ++ $" " ++ fmt (po_Y (sa_start o)) ++ startA
      ++ $") (mid " ++ fmt (po_X (sa_mid o)) ++ $" " ++ fmt (po_Y (sa_mid o)) ++ midA
      ++ $") (end " ++ fmt (po_X (sa_end o)) ++ $" " ++ fmt (po_Y (sa_end o)) ++ endA ++ $")" ++ nl
      ++ stroke ++ fill ++ indents ++ $")" ++ eol newline).

(** items/syitems.py:112-136: attributes of SyCircle and their defaults *)
Record SyCircle := mkSyCircle {
  si_private : bool;
  si_center : Position;
  si_radius : val;
  si_stroke : Stroke;
  si_fill : Fill }.
#[export] Instance eta_SyCircle : Settable SyCircle :=
  settable! mkSyCircle <si_private; si_center; si_radius; si_stroke; si_fill>.
Definition SyCircle_default : SyCircle :=
  mkSyCircle false Position_default (fdec 0 0) Stroke_default Fill_default.

(** syitems.py:161-167 *)
Definition SyCircle_step (o : SyCircle) (item : val) : res SyCircle :=
  if is_text item then on (item =s "private") (setf si_private (Ok true)) o else
  let! h := item@0 in
  let! o := on (h =s "center") (setf si_center (Position_from item)) o in
  let! o := on (h =s "radius") (setf si_radius (item@1)) o in
  let! o := on (h =s "stroke") (setf si_stroke (Stroke_from item)) o in
  let! o := on (h =s "fill") (setf si_fill (Fill_from item)) o in
  Ok o.
(** syitems.py:138-168 *)
Definition SyCircle_from (exp : val) : res SyCircle :=
  let! l := need_head "circle" exp in foldM SyCircle_step SyCircle_default l.
(** syitems.py:170-188 *)
Definition SyCircle_to (o : SyCircle) (indent : nat) (newline : bool) : res str :=
  let indents := spaces indent in
  let private := if si_private o then $" private" else [] in
  let! stroke := Stroke_to (si_stroke o) (indent + 2) true in
  let! fill := Fill_to (si_fill o) (indent + 2) true in
  Ok (indents ++ $"(circle" ++ private ++ $" (center " ++ fmt (po_X (si_center o)) ++ $" " ++ fmt (po_Y (si_center o))
      ++ $") (radius " ++ fmt (si_radius o) ++ $")" ++ nl
      ++ stroke ++ fill ++ indents ++ $")" ++ eol newline).

(** items/syitems.py:190-205: attributes of SyCurve and their defaults *)
Record SyCurve := mkSyCurve {
  sc_points : list Position;
  sc_stroke : Stroke;
  sc_fill : Fill }.
#[export] Instance eta_SyCurve : Settable SyCurve :=
  settable! mkSyCurve <sc_points; sc_stroke; sc_fill>.
Definition SyCurve_default : SyCurve :=
  mkSyCurve [] Stroke_default Fill_default.

(** syitems.py:229-233 *)
Definition SyCurve_step (o : SyCurve) (item : val) : res SyCurve :=
  let! h := item@0 in
  let! o := on (h =s "stroke") (setf sc_stroke (Stroke_from item)) o in
  let! o := on (h =s "fill") (setf sc_fill (Fill_from item)) o in
  let! o := on (h =s "pts") (extf sc_points (let! l := from_ item 1 in mapM Position_from l)) o in
  Ok o.
(** syitems.py:207-234 *)
Definition SyCurve_from (exp : val) : res SyCurve :=
  let! l := need_head "curve" exp in foldM SyCurve_step SyCurve_default l.
(** syitems.py:236-257: the first assignments to [expression] are overwritten by line 253
    ([expression = ] instead of [+=]), so only the closing line of the points remains *)
Definition SyCurve_to (o : SyCurve) (indent : nat) (newline : bool) : res str :=
  let indents := spaces indent in
  let! stroke := Stroke_to (sc_stroke o) (indent + 2) true in
  let! fill := Fill_to (sc_fill o) (indent + 2) true in
  Ok (indents ++ $"  )" ++ nl ++ stroke ++ fill ++ indents ++ $")" ++ eol newline).

(** items/syitems.py:259-274: attributes of SyPolyLine and their defaults *)
Record SyPolyLine := mkSyPolyLine {
  sl_points : list Position;
  sl_stroke : Stroke;
  sl_fill : Fill }.
#[export] Instance eta_SyPolyLine : Settable SyPolyLine :=
  settable! mkSyPolyLine <sl_points; sl_stroke; sl_fill>.
Definition SyPolyLine_default : SyPolyLine :=
  mkSyPolyLine [] Stroke_default Fill_default.

(** syitems.py:298-302 *)
Definition SyPolyLine_step (o : SyPolyLine) (item : val) : res SyPolyLine :=
  let! h := item@0 in
  let! o := on (h =s "stroke") (setf sl_stroke (Stroke_from item)) o in
  let! o := on (h =s "fill") (setf sl_fill (Fill_from item)) o in
  let! o := on (h =s "pts") (extf sl_points (let! l := from_ item 1 in mapM Position_from l)) o in
  Ok o.
(** syitems.py:276-303 *)
Definition SyPolyLine_from (exp : val) : res SyPolyLine :=
  let! l := need_head "polyline" exp in foldM SyPolyLine_step SyPolyLine_default l.
(** syitems.py:305-326 *)
Definition SyPolyLine_to (o : SyPolyLine) (indent : nat) (newline : bool) : res str :=
  let indents := spaces indent in
  let! pts := concatM (fun p => Ok (indents ++ $"    (xy " ++ fmt (po_X p) ++ $" " ++ fmt (po_Y p) ++ $")" ++ nl)) (sl_points o) in
  let! stroke := Stroke_to (sl_stroke o) (indent + 2) true in
  let! fill := Fill_to (sl_fill o) (indent + 2) true in
  Ok (indents ++ $"(polyline" ++ nl ++ indents ++ $"  (pts" ++ nl ++ pts ++ indents ++ $"  )" ++ nl
      ++ stroke ++ fill ++ indents ++ $")" ++ eol newline).

(** items/syitems.py:328-352: attributes of SyRect and their defaults *)
Record SyRect := mkSyRect {
  sr_private : bool;
  sr_start : Position;
  sr_end : Position;
  sr_stroke : Stroke;
  sr_fill : Fill }.
#[export] Instance eta_SyRect : Settable SyRect :=
  settable! mkSyRect <sr_private; sr_start; sr_end; sr_stroke; sr_fill>.
Definition SyRect_default : SyRect :=
  mkSyRect false Position_default Position_default Stroke_default Fill_default.

(** syitems.py:377-383 *)
Definition SyRect_step (o : SyRect) (item : val) : res SyRect :=
  if is_text item then on (item =s "private") (setf sr_private (Ok true)) o else
  let! h := item@0 in
  let! o := on (h =s "start") (setf sr_start (Position_from item)) o in
  let! o := on (h =s "end") (setf sr_end (Position_from item)) o in
  let! o := on (h =s "stroke") (setf sr_stroke (Stroke_from item)) o in
  let! o := on (h =s "fill") (setf sr_fill (Fill_from item)) o in
  Ok o.
(** syitems.py:354-384 *)
Definition SyRect_from (exp : val) : res SyRect :=
  let! l := need_head "rectangle" exp in foldM SyRect_step SyRect_default l.
(** syitems.py:386-404 *)
Definition SyRect_to (o : SyRect) (indent : nat) (newline : bool) : res str :=
  let indents := spaces indent in
  let private := if sr_private o then $" private" else [] in
  let! stroke := Stroke_to (sr_stroke o) (indent + 2) true in
  let! fill := Fill_to (sr_fill o) (indent + 2) true in
  Ok (indents ++ $"(rectangle" ++ private ++ $" (start " ++ fmt (po_X (sr_start o)) ++ $" " ++ fmt (po_Y (sr_start o))
      ++ $") (end " ++ fmt (po_X (sr_end o)) ++ $" " ++ fmt (po_Y (sr_end o)) ++ $")" ++ nl
      ++ stroke ++ fill ++ indents ++ $")" ++ eol newline).

(** items/syitems.py:406-421: attributes of SyText and their defaults *)
Record SyText := mkSyText {
  sx_text : val;
  sx_position : Position;
  sx_effects : Effects }.
#[export] Instance eta_SyText : Settable SyText :=
  settable! mkSyText <sx_text; sx_position; sx_effects>.
Definition SyText_default : SyText :=
  mkSyText (VStr []) Position_default Effects_default.

(** syitems.py:446-447 *)
Definition SyText_step (o : SyText) (item : val) : res SyText :=
  let! h := item@0 in
  let! o := on (h =s "at") (setf sx_position (Position_from item)) o in
  let! o := on (h =s "effects") (setf sx_effects (Effects_from item)) o in
  Ok o.
(** syitems.py:423-448 *)
Definition SyText_from (exp : val) : res SyText :=
  let! l := need_head "text" exp in
  let! o := setf sx_text (exp@1) SyText_default in
  foldM SyText_step o (skipn 2 l).
(** syitems.py:450-468; the effects are written with their default indentation 0 and a line break *)
Definition SyText_to (o : SyText) (indent : nat) (newline : bool) : res str :=
  let indents := spaces indent in
  let posA := angle_str (sx_position o) in
  let! effects := Effects_to (sx_effects o) 0 true in
  Ok (indents ++ $"(text " ++ quoted (sx_text o) ++ $" (at " ++ fmt (po_X (sx_position o)) ++ $" " ++ fmt (po_Y (sx_position o))
      ++ posA ++ $")" ++ nl ++ indents ++ $"  " ++ effects ++ indents ++ $")" ++ eol newline).

(** items/syitems.py:470-506: attributes of SyTextBox and their defaults *)
Record SyTextBox := mkSyTextBox {
  sb_text : val;
  sb_private : bool;
  sb_position : Position;
  sb_size : Position;
  sb_stroke : Stroke;
  sb_fill : Fill;
  sb_effects : Effects;
  sb_uuid : val }.
#[export] Instance eta_SyTextBox : Settable SyTextBox :=
  settable! mkSyTextBox <sb_text; sb_private; sb_position; sb_size; sb_stroke; sb_fill; sb_effects; sb_uuid>.
Definition SyTextBox_default : SyTextBox :=
  mkSyTextBox (VStr []) false Position_default Position_default Stroke_default Fill_default Effects_default VNone.

(** syitems.py:540-545 *)
Definition SyTextBox_step (o : SyTextBox) (item : val) : res SyTextBox :=
  let! h := item@0 in
  let! o := on (h =s "at") (setf sb_position (Position_from item)) o in
  let! o := on (h =s "size") (setf sb_size (Position_from item)) o in
  let! o := on (h =s "effects") (setf sb_effects (Effects_from item)) o in
  let! o := on (h =s "stroke") (setf sb_stroke (Stroke_from item)) o in
  let! o := on (h =s "fill") (setf sb_fill (Fill_from item)) o in
  let! o := on (h =s "uuid") (setf sb_uuid (item@1)) o in
  Ok o.
(** syitems.py:531 [exp[1] == "private" and not isinstance(exp[2], list)] *)
Definition SyTextBox_private (exp : val) : res bool :=
  let! t := exp@1 in
  if t =s "private" then let! u := exp@2 in Ok (negb (is_list u)) else Ok false.
(** syitems.py:508-546 *)
Definition SyTextBox_from (exp : val) : res SyTextBox :=
  let! l := need_head "text_box" exp in
  let! b := SyTextBox_private exp in
  if b : bool then
    let! o := setf sb_private (Ok true) SyTextBox_default in
    let! o := setf sb_text (exp@2) o in
    foldM SyTextBox_step o (skipn 3 l)
  else
    let! o := setf sb_text (exp@1) SyTextBox_default in
    foldM SyTextBox_step o (skipn 2 l).
(** syitems.py:548-572 *)
Definition SyTextBox_to (o : SyTextBox) (indent : nat) (newline : bool) : res str :=
  let indents := spaces indent in
  let posA := angle_str (sb_position o) in
  let private := if sb_private o then $" private" else [] in
  let! stroke := Stroke_to (sb_stroke o) (indent + 2) true in
  let! fill := Fill_to (sb_fill o) (indent + 2) true in
  let! effects := Effects_to (sb_effects o) (indent + 2) true in
  let uuid := if is_none (sb_uuid o) then [] else indents ++ $"  (uuid " ++ fmt (sb_uuid o) ++ $")" ++ nl in
  Ok (indents ++ $"(text_box" ++ private ++ $" " ++ quoted (sb_text o) ++ nl
      ++ indents ++ $"  (at " ++ fmt (po_X (sb_position o)) ++ $" " ++ fmt (po_Y (sb_position o)) ++ posA
      ++ $") (size " ++ fmt (po_X (sb_size o)) ++ $" " ++ fmt (po_Y (sb_size o)) ++ $")" ++ nl
      ++ stroke ++ fill ++ effects ++ uuid ++ indents ++ $")" ++ eol newline).

(** symbol.py:28-39: attributes of SymbolAlternativePin and their defaults *)
Record SymbolAlternativePin := mkSymbolAlternativePin {
  ap_pinName : val;
  ap_electricalType : val;
  ap_graphicalStyle : val }.
#[export] Instance eta_SymbolAlternativePin : Settable SymbolAlternativePin :=
  settable! mkSymbolAlternativePin <ap_pinName; ap_electricalType; ap_graphicalStyle>.
Definition SymbolAlternativePin_default : SymbolAlternativePin :=
  mkSymbolAlternativePin (VStr []) (VStr $"input") (VStr $"line").

(** symbol.py:41-65 *)
Definition SymbolAlternativePin_from (exp : val) : res SymbolAlternativePin :=
  let! l := need_head "alternate" exp in
  let! o := setf ap_pinName (exp@1) SymbolAlternativePin_default in
  let! o := setf ap_electricalType (exp@2) o in
  let! o := setf ap_graphicalStyle (exp@3) o in
  Ok o.
(** symbol.py:67-80 *)
Definition SymbolAlternativePin_to (o : SymbolAlternativePin) (indent : nat) (newline : bool) : res str :=
  Ok (spaces indent ++ $"(alternate " ++ quoted (ap_pinName o) ++ $" " ++ fmt (ap_electricalType o) ++ $" "
      ++ fmt (ap_graphicalStyle o) ++ $")" ++ eol newline).

(** symbol.py:82-123: attributes of SymbolPin and their defaults *)
Record SymbolPin := mkSymbolPin {
  sp_electricalType : val;
  sp_graphicalStyle : val;
  sp_position : Position;
  sp_length : val;
  sp_name : val;
  sp_nameEffects : option Effects;
  sp_number : val;
  sp_numberEffects : option Effects;
  sp_hide : bool;
  sp_alternatePins : list SymbolAlternativePin }.
#[export] Instance eta_SymbolPin : Settable SymbolPin :=
  settable! mkSymbolPin <sp_electricalType; sp_graphicalStyle; sp_position; sp_length; sp_name; sp_nameEffects; sp_number; sp_numberEffects; sp_hide; sp_alternatePins>.
Definition SymbolPin_default : SymbolPin :=
  mkSymbolPin (VStr $"input") (VStr $"line") Position_default (fdec 254 (-3)) (VStr []) None (VStr $"0") None false [].

(** symbol.py:149-162: a 'hide' item falls through to the tests of item[0] *)
Definition SymbolPin_step (o : SymbolPin) (item : val) : res SymbolPin :=
  if negb (is_list item) && negb (item =s "hide") then Ok o else
  let! o := on (negb (is_list item)) (setf sp_hide (Ok true)) o in
  let! h := item@0 in
  let! o := on (h =s "at") (setf sp_position (Position_from item)) o in
  let! o := on (h =s "length") (setf sp_length (item@1)) o in
  let! o := on (h =s "name")
              (fun o => let! o := setf sp_name (item@1) o in
                 let! n := len_ item in
                 on (Nat.ltb 2 n) (setf sp_nameEffects (let! x := item@2 in let! e := Effects_from x in Ok (Some e))) o) o in
  let! o := on (h =s "number")
              (fun o => let! o := setf sp_number (item@1) o in
                 let! n := len_ item in
                 on (Nat.ltb 2 n) (setf sp_numberEffects (let! x := item@2 in let! e := Effects_from x in Ok (Some e))) o) o in
  let! o := on (h =s "alternate") (addf sp_alternatePins (SymbolAlternativePin_from item)) o in
  Ok o.
(** symbol.py:125-163 *)
Definition SymbolPin_from (exp : val) : res SymbolPin :=
  let! l := need_head "pin" exp in
  let! o := setf sp_electricalType (exp@1) SymbolPin_default in
  let! o := setf sp_graphicalStyle (exp@2) o in
  foldM SymbolPin_step o (skipn 3 l).
(** symbol.py:165-208 *)
Definition SymbolPin_to (o : SymbolPin) (indent : nat) (newline : bool) : res str :=
  let indents := spaces indent in
  let hide := if sp_hide o then $" hide" else [] in
  let posA := angle_str (sp_position o) in
  let! nameEffects := opt_str (sp_nameEffects o) (fun e => let! s := Effects_to e 0 false in Ok ($" " ++ s)) in
  let! numberEffects := opt_str (sp_numberEffects o) (fun e => let! s := Effects_to e 0 false in Ok ($" " ++ s)) in
  let plain := no_object (sp_nameEffects o) && no_object (sp_numberEffects o) in
  let names := if plain
               then $" (name " ++ quoted (sp_name o) ++ $") (number " ++ quoted (sp_number o) ++ $")"
               else nl ++ indents ++ $"  (name " ++ quoted (sp_name o) ++ nameEffects ++ $")" ++ nl
                    ++ indents ++ $"  (number " ++ quoted (sp_number o) ++ numberEffects ++ $")" ++ nl in
  let alternates := Nat.ltb 0 (length (sp_alternatePins o)) in
  let! alts := (if alternates
                then let! a := concatM (fun a => SymbolAlternativePin_to a (indent + 2) true) (sp_alternatePins o) in
                     Ok ((if plain then nl else []) ++ a)
                else Ok []) in
  let newLineAdded := negb plain || alternates in
  Ok (indents ++ $"(pin " ++ fmt (sp_electricalType o) ++ $" " ++ fmt (sp_graphicalStyle o)
      ++ $" (at " ++ fmt (po_X (sp_position o)) ++ $" " ++ fmt (po_Y (sp_position o)) ++ posA
      ++ $") (length " ++ fmt (sp_length o) ++ $")" ++ hide ++ names ++ alts
      ++ (if newLineAdded then indents ++ $")" ++ eol newline else $")" ++ eol newline)).

(** symbol.py:347-350: a list element of one of several classes *)
Inductive SyItem :=
| SyItem_SyArc (x : SyArc)
| SyItem_SyCircle (x : SyCircle)
| SyItem_SyCurve (x : SyCurve)
| SyItem_SyPolyLine (x : SyPolyLine)
| SyItem_SyRect (x : SyRect)
| SyItem_SyText (x : SyText)
| SyItem_SyTextBox (x : SyTextBox).
Definition SyItem_to (o : SyItem) (indent : nat) (newline : bool) : res str :=
  match o with
  | SyItem_SyArc x => SyArc_to x indent newline
  | SyItem_SyCircle x => SyCircle_to x indent newline
  | SyItem_SyCurve x => SyCurve_to x indent newline
  | SyItem_SyPolyLine x => SyPolyLine_to x indent newline
  | SyItem_SyRect x => SyRect_to x indent newline
  | SyItem_SyText x => SyText_to x indent newline
  | SyItem_SyTextBox x => SyTextBox_to x indent newline
  end.


(** symbol.py:293-356: attributes of Symbol and their defaults *)
Inductive Symbol := mkSymbol {
  sy_libraryNickname : val;
  sy_entryName : val;
  sy_unitId : val;
  sy_styleId : val;
  sy_extends : val;
  sy_hidePinNumbers : bool;
  sy_pinNames : bool;
  sy_pinNamesHide : bool;
  sy_pinNamesOffset : val;
  sy_inBom : option bool;
  sy_onBoard : option bool;
  sy_isPower : bool;
  sy_properties : list Property;
  sy_graphicItems : list SyItem;
  sy_pins : list SymbolPin;
  sy_units : list Symbol }.
#[export] Instance eta_Symbol : Settable Symbol :=
  settable! mkSymbol <sy_libraryNickname; sy_entryName; sy_unitId; sy_styleId; sy_extends; sy_hidePinNumbers; sy_pinNames; sy_pinNamesHide; sy_pinNamesOffset; sy_inBom; sy_onBoard; sy_isPower; sy_properties; sy_graphicItems; sy_pins; sy_units>.
Definition Symbol_default : Symbol :=
  mkSymbol VNone VNone VNone VNone VNone false false false VNone None None false [] [] [] [].

(** symbol.py:241-249, the getter of libId *)
Definition Symbol_libId (o : Symbol) : str :=
  let unit_style_ids := if negb (is_none (sy_unitId o)) && negb (is_none (sy_styleId o))
                        then $"_" ++ fmt (sy_unitId o) ++ $"_" ++ fmt (sy_styleId o) else [] in
  if truthy (sy_libraryNickname o)
  then fmt (sy_libraryNickname o) ++ $":" ++ fmt (sy_entryName o)
  else fmt (sy_entryName o) ++ unit_style_ids.
(** symbol.py:267 ^(.+?):(.+?)$ *)
Definition re_nick : re :=
  RSeq RBol (RSeq (RGroup 1 (RPlus false r_dot)) (RSeq (r_char 58) (RSeq (RGroup 2 (RPlus false r_dot)) REol))).
(** symbol.py:275 ^(.+?)_(\d+?)_(\d+?)$ *)
Definition re_unit : re :=
  RSeq RBol (RSeq (RGroup 1 (RPlus false r_dot)) (RSeq (r_char 95) (RSeq (RGroup 2 (RPlus false (RChr is_digit)))
    (RSeq (r_char 95) (RSeq (RGroup 3 (RPlus false (RChr is_digit))) REol))))).
(** symbol.py:252-291, the setter of libId; re.match raises TypeError for anything but a str *)
Definition Symbol_set_libId (symbol_id : val) (o : Symbol) : res Symbol :=
  let! s := as_text symbol_id in
  let! o :=
    match re_match re_nick s with
    | Some m => Ok (o <| sy_libraryNickname := VStr (group 1 m) |> <| sy_entryName := VStr (group 2 m) |>
                      <| sy_unitId := VNone |> <| sy_styleId := VNone |>)
    | None =>
        match re_match re_unit s with
        | Some m => Ok (o <| sy_libraryNickname := VNone |> <| sy_entryName := VStr (group 1 m) |>
                          <| sy_unitId := VInt (digits_val (group 2 m)) |>
                          <| sy_styleId := VInt (digits_val (group 3 m)) |>)
        | None => Ok (o <| sy_libraryNickname := VNone |> <| sy_entryName := symbol_id |>
                        <| sy_unitId := VNone |> <| sy_styleId := VNone |>)
        end
    end in
  Ok (o <| sy_units := map (fun u => u <| sy_entryName := sy_entryName o |>) (sy_units o) |>).
(** symbol.py:388-392, the items of pin_names *)
Definition Symbol_pin_names_step (o : Symbol) (property : val) : res Symbol :=
  if is_list property
  then let! h := property@0 in on (h =s "offset") (setf sy_pinNamesOffset (property@1)) o
  else on (property =s "hide") (setf sy_pinNamesHide (Ok true)) o.
Definition Symbol_item {A} (c : A -> SyItem) (m : res A) (o : Symbol) : res Symbol :=
  addf sy_graphicItems (let! x := m in Ok (c x)) o.
(** symbol.py:381-406; [rec] is Symbol.from_sexpr *)
Definition Symbol_step (rec : val -> res Symbol) (o : Symbol) (item : val) : res Symbol :=
  let! h := item@0 in
  let! o := on (h =s "extends") (setf sy_extends (item@1)) o in
  let! o := on (h =s "pin_numbers") (fun o => let! x := item@1 in on (x =s "hide") (setf sy_hidePinNumbers (Ok true)) o) o in
  let! o := on (h =s "pin_names")
              (fun o => let! o := setf sy_pinNames (Ok true) o in
                        let! l := from_ item 1 in foldM Symbol_pin_names_step o l) o in
  let! o := on (h =s "in_bom") (setf sy_inBom (let! x := item@1 in Ok (Some (x =s "yes")))) o in
  let! o := on (h =s "on_board") (setf sy_onBoard (let! x := item@1 in Ok (Some (x =s "yes")))) o in
  let! o := on (h =s "power") (setf sy_isPower (Ok true)) o in
  let! o := on (h =s "symbol") (addf sy_units (rec item)) o in
  let! o := on (h =s "property") (addf sy_properties (Property_from item)) o in
  let! o := on (h =s "pin") (addf sy_pins (SymbolPin_from item)) o in
  let! o := on (h =s "arc") (Symbol_item SyItem_SyArc (SyArc_from item)) o in
  let! o := on (h =s "circle") (Symbol_item SyItem_SyCircle (SyCircle_from item)) o in
  let! o := on (h =s "curve") (Symbol_item SyItem_SyCurve (SyCurve_from item)) o in
  let! o := on (h =s "polyline") (Symbol_item SyItem_SyPolyLine (SyPolyLine_from item)) o in
  let! o := on (h =s "rectangle") (Symbol_item SyItem_SyRect (SyRect_from item)) o in
  let! o := on (h =s "text") (Symbol_item SyItem_SyText (SyText_from item)) o in
  let! o := on (h =s "text_box") (Symbol_item SyItem_SyTextBox (SyTextBox_from item)) o in
  Ok o.
(** symbol.py:358-408; written with nested matches so that the recursion into the units is
    structural: not a list / empty / wrong head / no exp[1] *)
Fixpoint Symbol_from (exp : val) : res Symbol :=
  match exp with
  | VList [] => Err EIndex
  | VList (h :: rest) =>
      if h =s "symbol" then
        match rest with
        | [] => Err EIndex
        | id :: items =>
            let! o := Symbol_set_libId id Symbol_default in
            foldM (fun o item => Symbol_step Symbol_from o item) o items
        end
      else Err EException
  | _ => Err EException
  end.
(** symbol.py:443-480 *)
Fixpoint Symbol_to (o : Symbol) (indent : nat) (newline : bool) : res str :=
  let indents := spaces indent in
  let inbom := match sy_inBom o with Some b => $" (in_bom " ++ (if b then $"yes" else $"no") ++ $")" | None => [] end in
  let onboard := match sy_onBoard o with Some b => $" (on_board " ++ (if b then $"yes" else $"no") ++ $")" | None => [] end in
  let power := if sy_isPower o then $" (power)" else [] in
  let pnhide := if sy_pinNamesHide o then $" hide" else [] in
  let pnoffset := if is_none (sy_pinNamesOffset o) then [] else $" (offset " ++ fmt (sy_pinNamesOffset o) ++ $")" in
  let pinnames := if sy_pinNames o then $" (pin_names" ++ pnoffset ++ pnhide ++ $")" else [] in
  let pinnumbers := if sy_hidePinNumbers o then $" (pin_numbers hide)" else [] in
  let extends := if is_none (sy_extends o) then [] else $" (extends " ++ quoted (sy_extends o) ++ $")" in
  let! properties := concatM (fun x => Property_to x (indent + 2) true) (sy_properties o) in
  let! graphics := concatM (fun x => SyItem_to x (indent + 2) true) (sy_graphicItems o) in
  let! pins := concatM (fun x => SymbolPin_to x (indent + 2) true) (sy_pins o) in
  let! units := concatM (fun x => Symbol_to x (indent + 2) true) (sy_units o) in
  Ok (indents ++ $"(symbol " ++ quoted (VStr (Symbol_libId o)) ++ extends ++ power ++ pinnumbers ++ pinnames ++ inbom ++ onboard ++ nl
      ++ properties ++ graphics ++ pins ++ units ++ indents ++ $")" ++ eol newline).
(** symbol.py:428-439: one of the four initial properties (the font is Font(width=1.27, height=1.27)) *)
Definition Symbol_new_property (key : str) (value : val) (id : Z) (hide : bool) : Property :=
  Property_default <| pr_key := VStr key |> <| pr_value := value |> <| pr_id := VInt id |>
    <| pr_effects := Some (Effects_default <| ef_font := Font_default <| fo_width := fdec 127 (-2) |> <| fo_height := fdec 127 (-2) |> |>
                                           <| ef_hide := hide |>) |>.
(** symbol.py:410-441 *)
Definition Symbol_create_new (id reference value footprint datasheet : val) : res Symbol :=
  let o := Symbol_default <| sy_inBom := Some true |> <| sy_onBoard := Some true |> in
  let! o := Symbol_set_libId id o in
  Ok (o <| sy_properties := sy_properties o ++
        [Symbol_new_property $"Reference" reference 0 false; Symbol_new_property $"Value" value 1 false;
         Symbol_new_property $"Footprint" footprint 2 true; Symbol_new_property $"Datasheet" datasheet 3 true] |>).

(** symbol.py:482-501: attributes of SymbolLib and their defaults *)
Record SymbolLib := mkSymbolLib {
  sj_version : val;
  sj_generator : val;
  sj_symbols : list Symbol;
  sj_filePath : val }.
#[export] Instance eta_SymbolLib : Settable SymbolLib :=
  settable! mkSymbolLib <sj_version; sj_generator; sj_symbols; sj_filePath>.
Definition SymbolLib_default : SymbolLib :=
  mkSymbolLib (VStr $"20211014") VNone [] VNone.

(** symbol.py:550-552 *)
Definition SymbolLib_step (o : SymbolLib) (item : val) : res SymbolLib :=
  let! h := item@0 in
  let! o := on (h =s "version") (setf sj_version (item@1)) o in
  let! o := on (h =s "generator") (setf sj_generator (item@1)) o in
  let! o := on (h =s "symbol") (addf sj_symbols (Symbol_from item)) o in
  Ok o.
(** symbol.py:527-553 *)
Definition SymbolLib_from (exp : val) : res SymbolLib :=
  let! l := need_head "kicad_symbol_lib" exp in foldM SymbolLib_step SymbolLib_default (skipn 1 l).
(** symbol.py:575-592 *)
Definition SymbolLib_to (o : SymbolLib) (indent : nat) (newline : bool) : res str :=
  let indents := spaces indent in
  let! symbols := concatM (fun x => let! s := Symbol_to x (indent + 2) true in Ok (indents ++ s)) (sj_symbols o) in
  Ok (indents ++ $"(kicad_symbol_lib (version " ++ fmt (sj_version o) ++ $") (generator " ++ fmt (sj_generator o) ++ $")" ++ nl
      ++ symbols ++ indents ++ $")" ++ eol newline).
