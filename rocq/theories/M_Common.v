(** Model of items/common.py. *)
From Verif Require Import PyBase PyNum PyStr Sexpr.

(** items/common.py:26-46: attributes of Position and their defaults *)
Record Position := mkPosition {
  po_X : val;
  po_Y : val;
  po_angle : val;
  po_unlocked : bool }.
#[export] Instance eta_Position : Settable Position :=
  settable! mkPosition <po_X; po_Y; po_angle; po_unlocked>.
Definition Position_default : Position :=
  mkPosition (fdec 0 0) (fdec 0 0) VNone false.

(** common.py:49-76 *)
Definition Position_from (exp : val) : res Position :=
  match exp with
  | VList l =>
      if Nat.ltb (length l) 3 then Err EException else
      let o := Position_default in
      let! o := setf po_X (exp@1) o in
      let! o := setf po_Y (exp@2) o in
      let! o := on (Nat.leb 4 (length l))
                  (fun o => let! a := exp@3 in on (negb (a =s "unlocked")) (setf po_angle (Ok a)) o) o in
      foldM (fun o item => on (item =s "unlocked") (setf po_unlocked (Ok true)) o) o l
  | _ => Err EException
  end.

(** The fragment [f' {p.angle}' if p.angle is not None else ''] that the writers repeat
    (e.g. items/syitems.py:101-103). *)
Definition angle_str (p : Position) : str := if is_none (po_angle p) then [] else $" " ++ fmt (po_angle p).

(** items/common.py:84-94: attributes of Coordinate and their defaults *)
Record Coordinate := mkCoordinate {
  co_X : val;
  co_Y : val;
  co_Z : val }.
#[export] Instance eta_Coordinate : Settable Coordinate :=
  settable! mkCoordinate <co_X; co_Y; co_Z>.
Definition Coordinate_default : Coordinate :=
  mkCoordinate (fdec 0 0) (fdec 0 0) (fdec 0 0).

(** common.py:97-120 *)
Definition Coordinate_from (exp : val) : res Coordinate :=
  let! l := need_list exp in
  if negb (Nat.eqb (length l) 4) then Err EException else
  let! h := exp@0 in
  if negb (h =s "xyz") then Err EException else
  let o := Coordinate_default in
  let! o := setf co_X (exp@1) o in
  let! o := setf co_Y (exp@2) o in
  let! o := setf co_Z (exp@3) o in
  Ok o.
(** common.py:122-134 *)
Definition Coordinate_to (o : Coordinate) (indent : nat) (newline : bool) : res str :=
  Ok (spaces indent ++ $"(xyz " ++ fmt (co_X o) ++ $" " ++ fmt (co_Y o) ++ $" " ++ fmt (co_Z o) ++ $")"
      ++ eol newline).

(** items/common.py:138-155: attributes of ColorRGBA and their defaults *)
Record ColorRGBA := mkColorRGBA {
  ca_R : val;
  ca_G : val;
  ca_B : val;
  ca_A : val;
  ca_precision : val }.
#[export] Instance eta_ColorRGBA : Settable ColorRGBA :=
  settable! mkColorRGBA <ca_R; ca_G; ca_B; ca_A; ca_precision>.
Definition ColorRGBA_default : ColorRGBA :=
  mkColorRGBA (VInt 0) (VInt 0) (VInt 0) (VInt 0) VNone.

(** common.py:158-182 *)
Definition ColorRGBA_from (exp : val) : res ColorRGBA :=
  let! l := need_list exp in
  if negb (Nat.eqb (length l) 5) then Err EException else
  let! h := exp@0 in
  if negb (h =s "color") then Err EException else
  let o := ColorRGBA_default in
  let! o := setf ca_R (exp@1) o in
  let! o := setf ca_G (exp@2) o in
  let! o := setf ca_B (exp@3) o in
  let! o := setf ca_A (exp@4) o in
  Ok o.
(** common.py:197-200; a precision that is not an int, or negative, is a ValueError *)
Definition ColorRGBA_alpha (o : ColorRGBA) : res str :=
  match ca_precision o with
  | VNone => Ok (fmt (ca_A o))
  | VInt p => if (p <? 0)%Z then Err EValue else fmt_fixed p (ca_A o)
  | _ => Err EValue
  end.
(** common.py:184-202 *)
Definition ColorRGBA_to (o : ColorRGBA) (indent : nat) (newline : bool) : res str :=
  let! alpha := ColorRGBA_alpha o in
  Ok (spaces indent ++ $"(color " ++ fmt (ca_R o) ++ $" " ++ fmt (ca_G o) ++ $" " ++ fmt (ca_B o)
      ++ $" " ++ alpha ++ $")" ++ eol newline).

(** items/common.py:205-223: attributes of Stroke and their defaults *)
Record Stroke := mkStroke {
  st_width : val;
  st_type : val;
  st_color : option ColorRGBA }.
#[export] Instance eta_Stroke : Settable Stroke :=
  settable! mkStroke <st_width; st_type; st_color>.
Definition Stroke_default : Stroke :=
  mkStroke (fdec 0 0) VNone None.

(** common.py:246-251, the loop body *)
Definition Stroke_step (o : Stroke) (item : val) : res Stroke :=
  if negb (is_list item) then Ok o else
  let! h := item@0 in
  let! o := on (h =s "width") (setf st_width (item@1)) o in
  let! o := on (h =s "type") (setf st_type (item@1)) o in
  let! o := on (h =s "color") (setf st_color (let! c := ColorRGBA_from item in Ok (Some c))) o in
  Ok o.
(** common.py:226-252 *)
Definition Stroke_from (exp : val) : res Stroke :=
  let! l := need_list exp in
  if Nat.ltb (length l) 2 then Err EException else
  let! h := exp@0 in
  if negb (h =s "stroke") then Err EException else
  foldM Stroke_step Stroke_default l.
(** common.py:254-268 *)
Definition Stroke_to (o : Stroke) (indent : nat) (newline : bool) : res str :=
  let! color := opt_str (st_color o) (fun c => let! s := ColorRGBA_to c 0 false in Ok ($" " ++ s)) in
  let the_type := if is_none (st_type o) then [] else $" (type " ++ fmt (st_type o) ++ $")" in
  Ok (spaces indent ++ $"(stroke (width " ++ fmt (st_width o) ++ $")" ++ the_type ++ color ++ $")" ++ eol newline).

(** items/common.py:273-305: attributes of Font and their defaults *)
Record Font := mkFont {
  fo_face : val;
  fo_height : val;
  fo_width : val;
  fo_thickness : val;
  fo_bold : bool;
  fo_italic : bool;
  fo_lineSpacing : val;
  fo_color : option ColorRGBA }.
#[export] Instance eta_Font : Settable Font :=
  settable! mkFont <fo_face; fo_height; fo_width; fo_thickness; fo_bold; fo_italic; fo_lineSpacing; fo_color>.
Definition Font_default : Font :=
  mkFont VNone (fdec 1 0) (fdec 1 0) VNone false false VNone None.

(** common.py:328-339 *)
Definition Font_step (o : Font) (item : val) : res Font :=
  if negb (is_list item) then
    let! o := on (item =s "bold") (setf fo_bold (Ok true)) o in
    let! o := on (item =s "italic") (setf fo_italic (Ok true)) o in
    Ok o
  else
  let! h := item@0 in
  let! o := on (h =s "face") (setf fo_face (item@1)) o in
  let! o := on (h =s "size") (fun o => let! o := setf fo_height (item@1) o in setf fo_width (item@2) o) o in
  let! o := on (h =s "thickness") (setf fo_thickness (item@1)) o in
  let! o := on (h =s "line_spacing") (setf fo_lineSpacing (item@1)) o in
  let! o := on (h =s "color") (setf fo_color (let! c := ColorRGBA_from item in Ok (Some c))) o in
  Ok o.
(** common.py:308-340 *)
Definition Font_from (exp : val) : res Font :=
  let! l := need_head "font" exp in foldM Font_step Font_default l.
(** common.py:342-364 *)
Definition Font_to (o : Font) (indent : nat) (newline : bool) : res str :=
  let face_name := if is_none (fo_face o) then [] else $"(face " ++ quoted (fo_face o) ++ $") " in
  let thickness := if is_none (fo_thickness o) then [] else $" (thickness " ++ fmt (fo_thickness o) ++ $")" in
  let bold := if fo_bold o then $" bold" else [] in
  let italic := if fo_italic o then $" italic" else [] in
  let linespacing := if is_none (fo_lineSpacing o) then []
                     else $" (line_spacing " ++ fmt (fo_lineSpacing o) ++ $")" in
  let! color := opt_str (fo_color o) (fun c => let! s := ColorRGBA_to c 0 false in Ok ($" " ++ s)) in
  Ok (spaces indent ++ $"(font " ++ face_name ++ $"(size " ++ fmt (fo_height o) ++ $" " ++ fmt (fo_width o) ++ $")"
      ++ color ++ thickness ++ bold ++ italic ++ linespacing ++ $")" ++ eol newline).

(** items/common.py:367-381: attributes of Justify and their defaults *)
Record Justify := mkJustify {
  ju_horizontally : val;
  ju_vertically : val;
  ju_mirror : bool }.
#[export] Instance eta_Justify : Settable Justify :=
  settable! mkJustify <ju_horizontally; ju_vertically; ju_mirror>.
Definition Justify_default : Justify :=
  mkJustify VNone VNone false.

(** common.py:404-408 *)
Definition Justify_step (o : Justify) (item : val) : res Justify :=
  let! o := on ((item =s "left") || (item =s "right") || (item =s "center"))
              (setf ju_horizontally (Ok item)) o in
  let! o := on ((item =s "top") || (item =s "bottom")) (setf ju_vertically (Ok item)) o in
  let! o := on (item =s "mirror") (setf ju_mirror (Ok true)) o in
  Ok o.
(** common.py:384-409 *)
Definition Justify_from (exp : val) : res Justify :=
  let! l := need_head "justify" exp in foldM Justify_step Justify_default l.
(** common.py:411-436 *)
Definition Justify_to (o : Justify) (indent : nat) (newline : bool) : res str :=
  if is_none (ju_horizontally o) && is_none (ju_vertically o) && negb (ju_mirror o)
  then Ok (spaces indent ++ eol newline)
  else
  let horizontally := if is_none (ju_horizontally o) then [] else $" " ++ fmt (ju_horizontally o) in
  let vertically := if is_none (ju_vertically o) then [] else $" " ++ fmt (ju_vertically o) in
  let mirror := if ju_mirror o then $" mirror" else [] in
  Ok (spaces indent ++ $"(justify" ++ horizontally ++ vertically ++ mirror ++ $")" ++ eol newline).

(** items/common.py:439-458: attributes of Effects and their defaults *)
Record Effects := mkEffects {
  ef_font : Font;
  ef_justify : Justify;
  ef_hide : bool;
  ef_href : val }.
#[export] Instance eta_Effects : Settable Effects :=
  settable! mkEffects <ef_font; ef_justify; ef_hide; ef_href>.
Definition Effects_default : Effects :=
  mkEffects Font_default Justify_default false VNone.

(** common.py:481-487: a 'hide' item falls through to the tests of item[0] *)
Definition Effects_step (o : Effects) (item : val) : res Effects :=
  if negb (is_list item) && negb (item =s "hide") then Ok o else
  let! o := on (negb (is_list item)) (setf ef_hide (Ok true)) o in
  let! h := item@0 in
  let! o := on (h =s "font") (setf ef_font (Font_from item)) o in
  let! o := on (h =s "justify") (setf ef_justify (Justify_from item)) o in
  let! o := on (h =s "href") (setf ef_href (item@1)) o in
  Ok o.
(** common.py:461-488 *)
Definition Effects_from (exp : val) : res Effects :=
  let! l := need_head "effects" exp in foldM Effects_step Effects_default l.
(** common.py:490-508 *)
Definition Effects_to (o : Effects) (indent : nat) (newline : bool) : res str :=
  let! justify := (let! j := Justify_to (ef_justify o) 0 false in
                   match j with [] => Ok [] | _ => Ok ($" " ++ j) end) in
  let hide := if ef_hide o then $" hide" else [] in
  let href := if is_none (ef_href o) then [] else $" (href " ++ quoted (ef_href o) ++ $")" in
  let! font := Font_to (ef_font o) 0 false in
  Ok (spaces indent ++ $"(effects " ++ font ++ justify ++ href ++ hide ++ $")" ++ eol newline).

(** items/common.py:512-519: attributes of Net and their defaults *)
Record Net := mkNet {
  ne_number : val;
  ne_name : val }.
#[export] Instance eta_Net : Settable Net :=
  settable! mkNet <ne_number; ne_name>.
Definition Net_default : Net :=
  mkNet (VInt 0) (VStr []).

(** common.py:522-544 *)
Definition Net_from (exp : val) : res Net :=
  let! l := need_head "net" exp in
  let o := Net_default in
  let! o := setf ne_number (exp@1) o in
  let! o := setf ne_name (exp@2) o in
  Ok o.
(** common.py:546-559 *)
Definition Net_to (o : Net) (indent : nat) (newline : bool) : res str :=
  Ok (spaces indent ++ $"(net " ++ fmt (ne_number o) ++ $" " ++ quoted (ne_name o) ++ $")" ++ eol newline).

(** items/common.py:562-579: attributes of Group and their defaults *)
Record Group := mkGroup {
  gr_name : val;
  gr_locked : bool;
  gr_id : val;
  gr_members : list val }.
#[export] Instance eta_Group : Settable Group :=
  settable! mkGroup <gr_name; gr_locked; gr_id; gr_members>.
Definition Group_default : Group :=
  mkGroup (VStr []) false (VStr []) [].

(** common.py:603-610 *)
Definition Group_step (o : Group) (item : val) : res Group :=
  if negb (is_list item) then on (item =s "locked") (setf gr_locked (Ok true)) o else
  let! h := item@0 in
  let! o := on (h =s "id") (setf gr_id (item@1)) o in
  let! o := on (h =s "members") (extf gr_members (from_ item 1)) o in
  Ok o.
(** common.py:582-611 *)
Definition Group_from (exp : val) : res Group :=
  let! l := need_head "group" exp in
  let! o := setf gr_name (exp@1) Group_default in
  foldM Group_step o l.
(** common.py:613-634 *)
Definition Group_to (o : Group) (indent : nat) (newline : bool) : res str :=
  let indents := spaces indent in
  let locked := if gr_locked o then $" locked" else [] in
  let! members := concatM (fun m => Ok (indents ++ $"    " ++ fmt m ++ nl)) (gr_members o) in
  Ok (indents ++ $"(group " ++ quoted (gr_name o) ++ locked ++ $" (id " ++ fmt (gr_id o) ++ $")" ++ nl
      ++ indents ++ $"  (members" ++ nl ++ members
      ++ indents ++ $"  )" ++ nl ++ indents ++ $")" ++ eol newline).

(** items/common.py:637-655: attributes of PageSettings and their defaults *)
Record PageSettings := mkPageSettings {
  pg_paperSize : val;
  pg_width : val;
  pg_height : val;
  pg_portrait : bool }.
#[export] Instance eta_PageSettings : Settable PageSettings :=
  settable! mkPageSettings <pg_paperSize; pg_width; pg_height; pg_portrait>.
Definition PageSettings_default : PageSettings :=
  mkPageSettings (VStr $"A4") VNone VNone false.

(** common.py:687-688 *)
Definition PageSettings_step (o : PageSettings) (item : val) : res PageSettings :=
  on (item =s "portrait") (setf pg_portrait (Ok true)) o.
(** common.py:658-690 *)
Definition PageSettings_from (exp : val) : res PageSettings :=
  let! l := need_head "paper" exp in
  let! o := setf pg_paperSize (exp@1) PageSettings_default in
  let! o := on (pg_paperSize o =s "User")
              (fun o => if Nat.ltb (length l) 4 then Err EException else
                 let! o := setf pg_width (exp@2) o in setf pg_height (exp@3) o) o in
  foldM PageSettings_step o l.
(** common.py:692-715 *)
Definition PageSettings_to (o : PageSettings) (indent : nat) (newline : bool) : res str :=
  let portrait := if pg_portrait o then $" portrait" else [] in
  let! size := (if pg_paperSize o =s "User" then
                  if is_none (pg_width o) || is_none (pg_height o) then Err EException
                  else Ok ($" " ++ fmt (pg_width o) ++ $" " ++ fmt (pg_height o))
                else Ok []) in
  Ok (spaces indent ++ $"(paper " ++ quoted (pg_paperSize o) ++ size ++ portrait ++ $")" ++ eol newline).

(** items/common.py:718-739: attributes of TitleBlock and their defaults *)
Record TitleBlock := mkTitleBlock {
  tb_title : val;
  tb_date : val;
  tb_revision : val;
  tb_company : val;
  tb_comments : list (val * val) }.
#[export] Instance eta_TitleBlock : Settable TitleBlock :=
  settable! mkTitleBlock <tb_title; tb_date; tb_revision; tb_company; tb_comments>.
Definition TitleBlock_default : TitleBlock :=
  mkTitleBlock VNone VNone VNone VNone [].

(** common.py:762-767 *)
Definition TitleBlock_step (o : TitleBlock) (item : val) : res TitleBlock :=
  let! h := item@0 in
  let! o := on (h =s "title") (setf tb_title (item@1)) o in
  let! o := on (h =s "date") (setf tb_date (item@1)) o in
  let! o := on (h =s "rev") (setf tb_revision (item@1)) o in
  let! o := on (h =s "company") (setf tb_company (item@1)) o in
  let! o := on (h =s "comment")
              (fun o => let! k := item@1 in let! v := item@2 in
                        setf tb_comments (dict_set (tb_comments o) k v) o) o in
  Ok o.
(** common.py:742-768 *)
Definition TitleBlock_from (exp : val) : res TitleBlock :=
  let! l := need_head "title_block" exp in foldM TitleBlock_step TitleBlock_default l.
(** common.py:770-799 *)
Definition TitleBlock_to (o : TitleBlock) (indent : nat) (newline : bool) : res str :=
  let indents := spaces indent in
  let title := if is_none (tb_title o) then [] else indents ++ $"  (title " ++ quoted (tb_title o) ++ $")" ++ nl in
  let date := if is_none (tb_date o) then [] else indents ++ $"  (date " ++ quoted (tb_date o) ++ $")" ++ nl in
  let rev := if is_none (tb_revision o) then [] else indents ++ $"  (rev " ++ quoted (tb_revision o) ++ $")" ++ nl in
  let company := if is_none (tb_company o) then []
                 else indents ++ $"  (company " ++ quoted (tb_company o) ++ $")" ++ nl in
  let! comments := concatM (fun nc => Ok (indents ++ $"  (comment " ++ fmt (fst nc) ++ $" " ++ quoted (snd nc)
                                          ++ $")" ++ nl)) (tb_comments o) in
  Ok (indents ++ $"(title_block" ++ nl ++ title ++ date ++ rev ++ company ++ comments
      ++ indents ++ $")" ++ eol newline).

(** items/common.py:802-831: attributes of Property and their defaults *)
Record Property := mkProperty {
  pr_key : val;
  pr_value : val;
  pr_id : val;
  pr_position : Position;
  pr_effects : option Effects;
  pr_showName : bool }.
#[export] Instance eta_Property : Settable Property :=
  settable! mkProperty <pr_key; pr_value; pr_id; pr_position; pr_effects; pr_showName>.
Definition Property_default : Property :=
  mkProperty (VStr []) (VStr []) VNone (Position_default <| po_angle := VInt 0 |>) None false.

(** common.py:856-860 *)
Definition Property_step (o : Property) (item : val) : res Property :=
  let! h := item@0 in
  let! o := on (h =s "id") (setf pr_id (item@1)) o in
  let! o := on (h =s "at") (setf pr_position (Position_from item)) o in
  let! o := on (h =s "effects") (setf pr_effects (let! e := Effects_from item in Ok (Some e))) o in
  let! o := on (h =s "show_name") (setf pr_showName (Ok true)) o in
  Ok o.
(** common.py:834-861 *)
Definition Property_from (exp : val) : res Property :=
  let! l := need_head "property" exp in
  let! o := setf pr_key (exp@1) Property_default in
  let! o := setf pr_value (exp@2) o in
  foldM Property_step o (skipn 3 l).
(** common.py:863-886 *)
Definition Property_to (o : Property) (indent : nat) (newline : bool) : res str :=
  let indents := spaces indent in
  let posA := if is_none (po_angle (pr_position o)) then [] else $" " ++ fmt (po_angle (pr_position o)) in
  let id := if is_none (pr_id o) then [] else $" (id " ++ fmt (pr_id o) ++ $")" in
  let sn := if pr_showName o then $" (show_name)" else [] in
  let! tail := match pr_effects o with
               | Some e => let! s := Effects_to e (indent + 2) true in
                           Ok (nl ++ s ++ indents ++ $")" ++ eol newline)
               | None => Ok ($")" ++ eol newline)
               end in
  Ok (indents ++ $"(property " ++ quoted (pr_key o) ++ $" " ++ quoted (pr_value o) ++ id
      ++ $" (at " ++ fmt (po_X (pr_position o)) ++ $" " ++ fmt (po_Y (pr_position o)) ++ posA ++ $")" ++ sn ++ tail).

(** items/common.py:889-896: attributes of RenderCachePolygon and their defaults *)
Record RenderCachePolygon := mkRenderCachePolygon {
  rp_pts : list Position }.
#[export] Instance eta_RenderCachePolygon : Settable RenderCachePolygon :=
  settable! mkRenderCachePolygon <rp_pts>.
Definition RenderCachePolygon_default : RenderCachePolygon :=
  mkRenderCachePolygon [].

(** common.py:919-922 *)
Definition RenderCachePolygon_step (o : RenderCachePolygon) (item : val) : res RenderCachePolygon :=
  let! h := item@0 in
  let! o := on (h =s "pts") (extf rp_pts (let! l := from_ item 1 in mapM Position_from l)) o in
  Ok o.
(** common.py:899-923 *)
Definition RenderCachePolygon_from (exp : val) : res RenderCachePolygon :=
  let! l := need_head "polygon" exp in foldM RenderCachePolygon_step RenderCachePolygon_default l.
(** common.py:941-945, the enumeration; [i] is the running index *)
Fixpoint RenderCachePolygon_pts (indents : str) (i : nat) (l : list Position) : str :=
  match l with
  | [] => []
  | p :: l' => (if Nat.eqb (Nat.modulo i 4) 0 then nl else []) ++ indents ++ $"    "
               ++ $"(xy " ++ fmt (po_X p) ++ $" " ++ fmt (po_Y p) ++ $")"
               ++ RenderCachePolygon_pts indents (S i) l'
  end.
(** common.py:925-951 *)
Definition RenderCachePolygon_to (o : RenderCachePolygon) (indent : nat) (newline : bool) : res str :=
  let indents := spaces indent in
  Ok (indents ++ $"(polygon" ++ nl ++ indents ++ $"  (pts" ++ RenderCachePolygon_pts indents 0 (rp_pts o)
      ++ nl ++ indents ++ $"  )" ++ nl ++ indents ++ $")" ++ eol newline).

(** items/common.py:954-970: attributes of RenderCache and their defaults *)
Record RenderCache := mkRenderCache {
  rc_text : val;
  rc_id : val;
  rc_polygons : list RenderCachePolygon }.
#[export] Instance eta_RenderCache : Settable RenderCache :=
  settable! mkRenderCache <rc_text; rc_id; rc_polygons>.
Definition RenderCache_default : RenderCache :=
  mkRenderCache (VStr []) (VInt 0) [].

(** common.py:995-996 *)
Definition RenderCache_step (o : RenderCache) (item : val) : res RenderCache :=
  let! h := item@0 in
  let! o := on (h =s "polygon") (addf rc_polygons (RenderCachePolygon_from item)) o in
  Ok o.
(** common.py:973-997 *)
Definition RenderCache_from (exp : val) : res RenderCache :=
  let! l := need_list exp in
  if Nat.ltb (length l) 3 then Err EException else
  let! h := exp@0 in
  if negb (h =s "render_cache") then Err EException else
  let! o := setf rc_text (exp@1) RenderCache_default in
  let! o := setf rc_id (exp@2) o in
  foldM RenderCache_step o l.
(** common.py:999-1016 *)
Definition RenderCache_to (o : RenderCache) (indent : nat) (newline : bool) : res str :=
  let indents := spaces indent in
  let! polys := concatM (fun p => RenderCachePolygon_to p (indent + 2) true) (rc_polygons o) in
  Ok (indents ++ $"(render_cache " ++ quoted (rc_text o) ++ $" " ++ fmt (rc_id o) ++ nl ++ polys
      ++ indents ++ $")" ++ eol newline).

(** items/common.py:1019-1036: attributes of Fill and their defaults *)
Record Fill := mkFill {
  fi_type : val;
  fi_color : option ColorRGBA }.
#[export] Instance eta_Fill : Settable Fill :=
  settable! mkFill <fi_type; fi_color>.
Definition Fill_default : Fill :=
  mkFill (VStr $"none") None.

(** common.py:1059-1061 *)
Definition Fill_step (o : Fill) (item : val) : res Fill :=
  let! h := item@0 in
  let! o := on (h =s "type") (setf fi_type (item@1)) o in
  let! o := on (h =s "color") (setf fi_color (let! c := ColorRGBA_from item in Ok (Some c))) o in
  Ok o.
(** common.py:1039-1062 *)
Definition Fill_from (exp : val) : res Fill :=
  let! l := need_head "fill" exp in foldM Fill_step Fill_default l.
(** common.py:1064-1079 *)
Definition Fill_to (o : Fill) (indent : nat) (newline : bool) : res str :=
  let! color := opt_str (fi_color o) (fun c => let! s := ColorRGBA_to c 0 false in Ok ($" " ++ s)) in
  Ok (spaces indent ++ $"(fill (type " ++ fmt (fi_type o) ++ $")" ++ color ++ $")" ++ eol newline).

(** items/common.py:1082-1104: attributes of Image and their defaults *)
Record Image := mkImage {
  im_position : Position;
  im_scale : val;
  im_data : list val;
  im_uuid : val;
  im_layer : val }.
#[export] Instance eta_Image : Settable Image :=
  settable! mkImage <im_position; im_scale; im_data; im_uuid; im_layer>.
Definition Image_default : Image :=
  mkImage Position_default VNone [] VNone VNone.

(** common.py:1127-1134 *)
Definition Image_step (o : Image) (item : val) : res Image :=
  let! h := item@0 in
  let! o := on (h =s "at") (setf im_position (Position_from item)) o in
  let! o := on (h =s "scale") (setf im_scale (item@1)) o in
  let! o := on (h =s "uuid") (setf im_uuid (item@1)) o in
  let! o := on (h =s "layer") (setf im_layer (item@1)) o in
  let! o := on (h =s "data") (extf im_data (from_ item 1)) o in
  Ok o.
(** common.py:1107-1135 *)
Definition Image_from (exp : val) : res Image :=
  let! l := need_head "image" exp in foldM Image_step Image_default l.
(** common.py:1137-1161 *)
Definition Image_to (o : Image) (indent : nat) (newline : bool) : res str :=
  let indents := spaces indent in
  let scale := if is_none (im_scale o) then [] else $" (scale " ++ fmt (im_scale o) ++ $")" in
  let layer := if is_none (im_layer o) then [] else $" (layer " ++ quoted (im_layer o) ++ $")" in
  let uuid := if is_none (im_uuid o) then [] else indents ++ $"  (uuid " ++ fmt (im_uuid o) ++ $")" ++ nl in
  let! data := concatM (fun b => Ok (indents ++ $"    " ++ fmt b ++ nl)) (im_data o) in
  Ok (indents ++ $"(image (at " ++ fmt (po_X (im_position o)) ++ $" " ++ fmt (po_Y (im_position o)) ++ $")"
      ++ layer ++ scale ++ nl ++ uuid ++ indents ++ $"  (data" ++ nl ++ data
      ++ indents ++ $"  )" ++ nl ++ indents ++ $")" ++ eol newline).
