(** Model of items/common.py. *)
From Verif Require Import PyBase PyNum PyStr Sexpr.

@record Position po items/common.py:26-46
X num fdec 0 0
Y num fdec 0 0
angle onum VNone
unlocked flag false
@end
(** common.py:49-76 *)
Definition Position_from (exp : val) : res Position :=
  match exp with
  | VList l =>
      if Nat.ltb (length l) 3 then Err EException else
      let o := Position_default in
      let! o := setf po_X (exp@1) o in
      let! o := setf po_Y (exp@2) o in
      let! o := on (Nat.leb 4 (length l))
                  (fun o => let! a := exp@3 in on (negb (a =s "unlocked")) (setf po_angle (Ok a)) o) o in
      foldM (fun o item => on (item =s "unlocked") (setf po_unlocked (Ok true)) o) o l
  | _ => Err EException
  end.

(** The fragment [f' {p.angle}' if p.angle is not None else ''] that the writers repeat
    (e.g. items/syitems.py:101-103). *)
Definition angle_str (p : Position) : str := if is_none (po_angle p) then [] else $" " ++ fmt (po_angle p).

@record Coordinate co items/common.py:84-94
X num fdec 0 0
Y num fdec 0 0
Z num fdec 0 0
@end
(** common.py:97-120 *)
Definition Coordinate_from (exp : val) : res Coordinate :=
  let! l := need_list exp in
  if negb (Nat.eqb (length l) 4) then Err EException else
  let! h := exp@0 in
  if negb (h =s "xyz") then Err EException else
  let o := Coordinate_default in
  let! o := setf co_X (exp@1) o in
  let! o := setf co_Y (exp@2) o in
  let! o := setf co_Z (exp@3) o in
  Ok o.
(** common.py:122-134 *)
Definition Coordinate_to (o : Coordinate) (indent : nat) (newline : bool) : res str :=
  Ok (spaces indent ++ $"(xyz " ++ fmt (co_X o) ++ $" " ++ fmt (co_Y o) ++ $" " ++ fmt (co_Z o) ++ $")"
      ++ eol newline).

@record ColorRGBA ca items/common.py:138-155
R num VInt 0
G num VInt 0
B num VInt 0
A num VInt 0
precision none VNone
@end
(** common.py:158-182 *)
Definition ColorRGBA_from (exp : val) : res ColorRGBA :=
  let! l := need_list exp in
  if negb (Nat.eqb (length l) 5) then Err EException else
  let! h := exp@0 in
  if negb (h =s "color") then Err EException else
  let o := ColorRGBA_default in
  let! o := setf ca_R (exp@1) o in
  let! o := setf ca_G (exp@2) o in
  let! o := setf ca_B (exp@3) o in
  let! o := setf ca_A (exp@4) o in
  Ok o.
(** common.py:197-200; a precision that is not an int, or negative, is a ValueError *)
Definition ColorRGBA_alpha (o : ColorRGBA) : res str :=
  match ca_precision o with
  | VNone => Ok (fmt (ca_A o))
  | VInt p => if (p <? 0)%Z then Err EValue else fmt_fixed p (ca_A o)
  | _ => Err EValue
  end.
(** common.py:184-202 *)
Definition ColorRGBA_to (o : ColorRGBA) (indent : nat) (newline : bool) : res str :=
  let! alpha := ColorRGBA_alpha o in
  Ok (spaces indent ++ $"(color " ++ fmt (ca_R o) ++ $" " ++ fmt (ca_G o) ++ $" " ++ fmt (ca_B o)
      ++ $" " ++ alpha ++ $")" ++ eol newline).

@record Stroke st items/common.py:205-223
width num fdec 0 0
type oword VNone
color oobj/ColorRGBA None
@end
(** common.py:246-251, the loop body *)
Definition Stroke_step (o : Stroke) (item : val) : res Stroke :=
  if negb (is_list item) then Ok o else
  let! h := item@0 in
  let! o := on (h =s "width") (setf st_width (item@1)) o in
  let! o := on (h =s "type") (setf st_type (item@1)) o in
  let! o := on (h =s "color") (setf st_color (let! c := ColorRGBA_from item in Ok (Some c))) o in
  Ok o.
(** common.py:226-252 *)
Definition Stroke_from (exp : val) : res Stroke :=
  let! l := need_list exp in
  if Nat.ltb (length l) 2 then Err EException else
  let! h := exp@0 in
  if negb (h =s "stroke") then Err EException else
  foldM Stroke_step Stroke_default l.
(** common.py:254-268 *)
Definition Stroke_to (o : Stroke) (indent : nat) (newline : bool) : res str :=
  let! color := opt_str (st_color o) (fun c => let! s := ColorRGBA_to c 0 false in Ok ($" " ++ s)) in
  let the_type := if is_none (st_type o) then [] else $" (type " ++ fmt (st_type o) ++ $")" in
  Ok (spaces indent ++ $"(stroke (width " ++ fmt (st_width o) ++ $")" ++ the_type ++ color ++ $")" ++ eol newline).

@record Font fo items/common.py:273-305
face otxt VNone
height num fdec 1 0
width num fdec 1 0
thickness onum VNone
bold flag false
italic flag false
lineSpacing onum VNone
color oobj/ColorRGBA None
@end
(** common.py:328-339 *)
Definition Font_step (o : Font) (item : val) : res Font :=
  if negb (is_list item) then
    let! o := on (item =s "bold") (setf fo_bold (Ok true)) o in
    let! o := on (item =s "italic") (setf fo_italic (Ok true)) o in
    Ok o
  else
  let! h := item@0 in
  let! o := on (h =s "face") (setf fo_face (item@1)) o in
  let! o := on (h =s "size") (fun o => let! o := setf fo_height (item@1) o in setf fo_width (item@2) o) o in
  let! o := on (h =s "thickness") (setf fo_thickness (item@1)) o in
  let! o := on (h =s "line_spacing") (setf fo_lineSpacing (item@1)) o in
  let! o := on (h =s "color") (setf fo_color (let! c := ColorRGBA_from item in Ok (Some c))) o in
  Ok o.
(** common.py:308-340 *)
Definition Font_from (exp : val) : res Font :=
  let! l := need_head "font" exp in foldM Font_step Font_default l.
(** common.py:342-364 *)
Definition Font_to (o : Font) (indent : nat) (newline : bool) : res str :=
  let face_name := if is_none (fo_face o) then [] else $"(face " ++ quoted (fo_face o) ++ $") " in
  let thickness := if is_none (fo_thickness o) then [] else $" (thickness " ++ fmt (fo_thickness o) ++ $")" in
  let bold := if fo_bold o then $" bold" else [] in
  let italic := if fo_italic o then $" italic" else [] in
  let linespacing := if is_none (fo_lineSpacing o) then []
                     else $" (line_spacing " ++ fmt (fo_lineSpacing o) ++ $")" in
  let! color := opt_str (fo_color o) (fun c => let! s := ColorRGBA_to c 0 false in Ok ($" " ++ s)) in
  Ok (spaces indent ++ $"(font " ++ face_name ++ $"(size " ++ fmt (fo_height o) ++ $" " ++ fmt (fo_width o) ++ $")"
      ++ color ++ thickness ++ bold ++ italic ++ linespacing ++ $")" ++ eol newline).

@record Justify ju items/common.py:367-381
horizontally oenum/left,right,center VNone
vertically oenum/top,bottom VNone
mirror flag false
@end
(** common.py:404-408 *)
Definition Justify_step (o : Justify) (item : val) : res Justify :=
  let! o := on ((item =s "left") || (item =s "right") || (item =s "center"))
              (setf ju_horizontally (Ok item)) o in
  let! o := on ((item =s "top") || (item =s "bottom")) (setf ju_vertically (Ok item)) o in
  let! o := on (item =s "mirror") (setf ju_mirror (Ok true)) o in
  Ok o.
(** common.py:384-409 *)
Definition Justify_from (exp : val) : res Justify :=
  let! l := need_head "justify" exp in foldM Justify_step Justify_default l.
(** common.py:411-436 *)
Definition Justify_to (o : Justify) (indent : nat) (newline : bool) : res str :=
  if is_none (ju_horizontally o) && is_none (ju_vertically o) && negb (ju_mirror o)
  then Ok (spaces indent ++ eol newline)
  else
  let horizontally := if is_none (ju_horizontally o) then [] else $" " ++ fmt (ju_horizontally o) in
  let vertically := if is_none (ju_vertically o) then [] else $" " ++ fmt (ju_vertically o) in
  let mirror := if ju_mirror o then $" mirror" else [] in
  Ok (spaces indent ++ $"(justify" ++ horizontally ++ vertically ++ mirror ++ $")" ++ eol newline).

@record Effects ef items/common.py:439-458
font obj/Font Font_default
justify obj/Justify Justify_default
hide flag false
href otxt VNone
@end
(** common.py:481-487: a 'hide' item falls through to the tests of item[0] *)
Definition Effects_step (o : Effects) (item : val) : res Effects :=
  if negb (is_list item) && negb (item =s "hide") then Ok o else
  let! o := on (negb (is_list item)) (setf ef_hide (Ok true)) o in
  let! h := item@0 in
  let! o := on (h =s "font") (setf ef_font (Font_from item)) o in
  let! o := on (h =s "justify") (setf ef_justify (Justify_from item)) o in
  let! o := on (h =s "href") (setf ef_href (item@1)) o in
  Ok o.
(** common.py:461-488 *)
Definition Effects_from (exp : val) : res Effects :=
  let! l := need_head "effects" exp in foldM Effects_step Effects_default l.
(** common.py:490-508 *)
Definition Effects_to (o : Effects) (indent : nat) (newline : bool) : res str :=
  let! justify := (let! j := Justify_to (ef_justify o) 0 false in
                   match j with [] => Ok [] | _ => Ok ($" " ++ j) end) in
  let hide := if ef_hide o then $" hide" else [] in
  let href := if is_none (ef_href o) then [] else $" (href " ++ quoted (ef_href o) ++ $")" in
  let! font := Font_to (ef_font o) 0 false in
  Ok (spaces indent ++ $"(effects " ++ font ++ justify ++ href ++ hide ++ $")" ++ eol newline).

@record Net ne items/common.py:512-519
number num VInt 0
name txt VStr []
@end
(** common.py:522-544 *)
Definition Net_from (exp : val) : res Net :=
  let! l := need_head "net" exp in
  let o := Net_default in
  let! o := setf ne_number (exp@1) o in
  let! o := setf ne_name (exp@2) o in
  Ok o.
(** common.py:546-559 *)
Definition Net_to (o : Net) (indent : nat) (newline : bool) : res str :=
  Ok (spaces indent ++ $"(net " ++ fmt (ne_number o) ++ $" " ++ quoted (ne_name o) ++ $")" ++ eol newline).

@record Group gr items/common.py:562-579
name txt VStr []
locked flag false
id atom VStr []
members lword0 []
@end
(** common.py:603-610 *)
Definition Group_step (o : Group) (item : val) : res Group :=
  if negb (is_list item) then on (item =s "locked") (setf gr_locked (Ok true)) o else
  let! h := item@0 in
  let! o := on (h =s "id") (setf gr_id (item@1)) o in
  let! o := on (h =s "members") (extf gr_members (from_ item 1)) o in
  Ok o.
(** common.py:582-611 *)
Definition Group_from (exp : val) : res Group :=
  let! l := need_head "group" exp in
  let! o := setf gr_name (exp@1) Group_default in
  foldM Group_step o l.
(** common.py:613-634 *)
Definition Group_to (o : Group) (indent : nat) (newline : bool) : res str :=
  let indents := spaces indent in
  let locked := if gr_locked o then $" locked" else [] in
  let! members := concatM (fun m => Ok (indents ++ $"    " ++ fmt m ++ nl)) (gr_members o) in
  Ok (indents ++ $"(group " ++ quoted (gr_name o) ++ locked ++ $" (id " ++ fmt (gr_id o) ++ $")" ++ nl
      ++ indents ++ $"  (members" ++ nl ++ members
      ++ indents ++ $"  )" ++ nl ++ indents ++ $")" ++ eol newline).

@record PageSettings pg items/common.py:637-655
paperSize txt VStr $"A4"
width onum VNone
height onum VNone
portrait flag false
@end
(** common.py:687-688 *)
Definition PageSettings_step (o : PageSettings) (item : val) : res PageSettings :=
  on (item =s "portrait") (setf pg_portrait (Ok true)) o.
(** common.py:658-690 *)
Definition PageSettings_from (exp : val) : res PageSettings :=
  let! l := need_head "paper" exp in
  let! o := setf pg_paperSize (exp@1) PageSettings_default in
  let! o := on (pg_paperSize o =s "User")
              (fun o => if Nat.ltb (length l) 4 then Err EException else
                 let! o := setf pg_width (exp@2) o in setf pg_height (exp@3) o) o in
  foldM PageSettings_step o l.
(** common.py:692-715 *)
Definition PageSettings_to (o : PageSettings) (indent : nat) (newline : bool) : res str :=
  let portrait := if pg_portrait o then $" portrait" else [] in
  let! size := (if pg_paperSize o =s "User" then
                  if is_none (pg_width o) || is_none (pg_height o) then Err EException
                  else Ok ($" " ++ fmt (pg_width o) ++ $" " ++ fmt (pg_height o))
                else Ok []) in
  Ok (spaces indent ++ $"(paper " ++ quoted (pg_paperSize o) ++ size ++ portrait ++ $")" ++ eol newline).

@record TitleBlock tb items/common.py:718-739
title otxt VNone
date otxt VNone
revision otxt VNone
company otxt VNone
comments cust/list~(val~*~val)/dict_ok/dict_norm []
@end
(** common.py:762-767 *)
Definition TitleBlock_step (o : TitleBlock) (item : val) : res TitleBlock :=
  let! h := item@0 in
  let! o := on (h =s "title") (setf tb_title (item@1)) o in
  let! o := on (h =s "date") (setf tb_date (item@1)) o in
  let! o := on (h =s "rev") (setf tb_revision (item@1)) o in
  let! o := on (h =s "company") (setf tb_company (item@1)) o in
  let! o := on (h =s "comment")
              (fun o => let! k := item@1 in let! v := item@2 in
                        setf tb_comments (dict_set (tb_comments o) k v) o) o in
  Ok o.
(** common.py:742-768 *)
Definition TitleBlock_from (exp : val) : res TitleBlock :=
  let! l := need_head "title_block" exp in foldM TitleBlock_step TitleBlock_default l.
(** common.py:770-799 *)
Definition TitleBlock_to (o : TitleBlock) (indent : nat) (newline : bool) : res str :=
  let indents := spaces indent in
  let title := if is_none (tb_title o) then [] else indents ++ $"  (title " ++ quoted (tb_title o) ++ $")" ++ nl in
  let date := if is_none (tb_date o) then [] else indents ++ $"  (date " ++ quoted (tb_date o) ++ $")" ++ nl in
  let rev := if is_none (tb_revision o) then [] else indents ++ $"  (rev " ++ quoted (tb_revision o) ++ $")" ++ nl in
  let company := if is_none (tb_company o) then []
                 else indents ++ $"  (company " ++ quoted (tb_company o) ++ $")" ++ nl in
  let! comments := concatM (fun nc => Ok (indents ++ $"  (comment " ++ fmt (fst nc) ++ $" " ++ quoted (snd nc)
                                          ++ $")" ++ nl)) (tb_comments o) in
  Ok (indents ++ $"(title_block" ++ nl ++ title ++ date ++ rev ++ company ++ comments
      ++ indents ++ $")" ++ eol newline).

@record Property pr items/common.py:802-831
key txt VStr []
value txt VStr []
id onum VNone
position pos3 Position_default <| po_angle := VInt 0 |>
effects oobj/Effects None
showName flag false
@end
(** common.py:856-860 *)
Definition Property_step (o : Property) (item : val) : res Property :=
  let! h := item@0 in
  let! o := on (h =s "id") (setf pr_id (item@1)) o in
  let! o := on (h =s "at") (setf pr_position (Position_from item)) o in
  let! o := on (h =s "effects") (setf pr_effects (let! e := Effects_from item in Ok (Some e))) o in
  let! o := on (h =s "show_name") (setf pr_showName (Ok true)) o in
  Ok o.
(** common.py:834-861 *)
Definition Property_from (exp : val) : res Property :=
  let! l := need_head "property" exp in
  let! o := setf pr_key (exp@1) Property_default in
  let! o := setf pr_value (exp@2) o in
  foldM Property_step o (skipn 3 l).
(** common.py:863-886 *)
Definition Property_to (o : Property) (indent : nat) (newline : bool) : res str :=
  let indents := spaces indent in
  let posA := if is_none (po_angle (pr_position o)) then [] else $" " ++ fmt (po_angle (pr_position o)) in
  let id := if is_none (pr_id o) then [] else $" (id " ++ fmt (pr_id o) ++ $")" in
  let sn := if pr_showName o then $" (show_name)" else [] in
  let! tail := match pr_effects o with
               | Some e => let! s := Effects_to e (indent + 2) true in
                           Ok (nl ++ s ++ indents ++ $")" ++ eol newline)
               | None => Ok ($")" ++ eol newline)
               end in
  Ok (indents ++ $"(property " ++ quoted (pr_key o) ++ $" " ++ quoted (pr_value o) ++ id
      ++ $" (at " ++ fmt (po_X (pr_position o)) ++ $" " ++ fmt (po_Y (pr_position o)) ++ posA ++ $")" ++ sn ++ tail).

@record RenderCachePolygon rp items/common.py:889-896
pts lpos2 []
@end
(** common.py:919-922 *)
Definition RenderCachePolygon_step (o : RenderCachePolygon) (item : val) : res RenderCachePolygon :=
  let! h := item@0 in
  let! o := on (h =s "pts") (extf rp_pts (let! l := from_ item 1 in mapM Position_from l)) o in
  Ok o.
(** common.py:899-923 *)
Definition RenderCachePolygon_from (exp : val) : res RenderCachePolygon :=
  let! l := need_head "polygon" exp in foldM RenderCachePolygon_step RenderCachePolygon_default l.
(** common.py:941-945, the enumeration; [i] is the running index *)
Fixpoint RenderCachePolygon_pts (indents : str) (i : nat) (l : list Position) : str :=
  match l with
  | [] => []
  | p :: l' => (if Nat.eqb (Nat.modulo i 4) 0 then nl else []) ++ indents ++ $"    "
               ++ $"(xy " ++ fmt (po_X p) ++ $" " ++ fmt (po_Y p) ++ $")"
               ++ RenderCachePolygon_pts indents (S i) l'
  end.
(** common.py:925-951 *)
Definition RenderCachePolygon_to (o : RenderCachePolygon) (indent : nat) (newline : bool) : res str :=
  let indents := spaces indent in
  Ok (indents ++ $"(polygon" ++ nl ++ indents ++ $"  (pts" ++ RenderCachePolygon_pts indents 0 (rp_pts o)
      ++ nl ++ indents ++ $"  )" ++ nl ++ indents ++ $")" ++ eol newline).

@record RenderCache rc items/common.py:954-970
text txt VStr []
id word0 VInt 0
polygons list/RenderCachePolygon []
@end
(** common.py:995-996 *)
Definition RenderCache_step (o : RenderCache) (item : val) : res RenderCache :=
  let! h := item@0 in
  let! o := on (h =s "polygon") (addf rc_polygons (RenderCachePolygon_from item)) o in
  Ok o.
(** common.py:973-997 *)
Definition RenderCache_from (exp : val) : res RenderCache :=
  let! l := need_list exp in
  if Nat.ltb (length l) 3 then Err EException else
  let! h := exp@0 in
  if negb (h =s "render_cache") then Err EException else
  let! o := setf rc_text (exp@1) RenderCache_default in
  let! o := setf rc_id (exp@2) o in
  foldM RenderCache_step o l.
(** common.py:999-1016 *)
Definition RenderCache_to (o : RenderCache) (indent : nat) (newline : bool) : res str :=
  let indents := spaces indent in
  let! polys := concatM (fun p => RenderCachePolygon_to p (indent + 2) true) (rc_polygons o) in
  Ok (indents ++ $"(render_cache " ++ quoted (rc_text o) ++ $" " ++ fmt (rc_id o) ++ nl ++ polys
      ++ indents ++ $")" ++ eol newline).

@record Fill fi items/common.py:1019-1036
type word VStr $"none"
color oobj/ColorRGBA None
@end
(** common.py:1059-1061 *)
Definition Fill_step (o : Fill) (item : val) : res Fill :=
  let! h := item@0 in
  let! o := on (h =s "type") (setf fi_type (item@1)) o in
  let! o := on (h =s "color") (setf fi_color (let! c := ColorRGBA_from item in Ok (Some c))) o in
  Ok o.
(** common.py:1039-1062 *)
Definition Fill_from (exp : val) : res Fill :=
  let! l := need_head "fill" exp in foldM Fill_step Fill_default l.
(** common.py:1064-1079 *)
Definition Fill_to (o : Fill) (indent : nat) (newline : bool) : res str :=
  let! color := opt_str (fi_color o) (fun c => let! s := ColorRGBA_to c 0 false in Ok ($" " ++ s)) in
  Ok (spaces indent ++ $"(fill (type " ++ fmt (fi_type o) ++ $")" ++ color ++ $")" ++ eol newline).

@record Image im items/common.py:1082-1104
position pos2 Position_default
scale onum VNone
data lword0 []
uuid oatom VNone
layer otxt VNone
@end
(** common.py:1127-1134 *)
Definition Image_step (o : Image) (item : val) : res Image :=
  let! h := item@0 in
  let! o := on (h =s "at") (setf im_position (Position_from item)) o in
  let! o := on (h =s "scale") (setf im_scale (item@1)) o in
  let! o := on (h =s "uuid") (setf im_uuid (item@1)) o in
  let! o := on (h =s "layer") (setf im_layer (item@1)) o in
  let! o := on (h =s "data") (extf im_data (from_ item 1)) o in
  Ok o.
(** common.py:1107-1135 *)
Definition Image_from (exp : val) : res Image :=
  let! l := need_head "image" exp in foldM Image_step Image_default l.
(** common.py:1137-1161 *)
Definition Image_to (o : Image) (indent : nat) (newline : bool) : res str :=
  let indents := spaces indent in
  let scale := if is_none (im_scale o) then [] else $" (scale " ++ fmt (im_scale o) ++ $")" in
  let layer := if is_none (im_layer o) then [] else $" (layer " ++ quoted (im_layer o) ++ $")" in
  let uuid := if is_none (im_uuid o) then [] else indents ++ $"  (uuid " ++ fmt (im_uuid o) ++ $")" ++ nl in
  let! data := concatM (fun b => Ok (indents ++ $"    " ++ fmt b ++ nl)) (im_data o) in
  Ok (indents ++ $"(image (at " ++ fmt (po_X (im_position o)) ++ $" " ++ fmt (po_Y (im_position o)) ++ $")"
      ++ layer ++ scale ++ nl ++ uuid ++ indents ++ $"  (data" ++ nl ++ data
      ++ indents ++ $"  )" ++ nl ++ indents ++ $")" ++ eol newline).
