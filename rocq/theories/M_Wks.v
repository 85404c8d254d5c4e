(** Model of wks.py. *)
From Verif Require Import PyBase PyNum PyStr Sexpr M_Common.

(** wks.py:27-35: attributes of WksFontSize and their defaults *)
Record WksFontSize := mkWksFontSize {
  wz_width : val;
  wz_height : val }.
#[export] Instance eta_WksFontSize : Settable WksFontSize :=
  settable! mkWksFontSize <wz_width; wz_height>.
Definition WksFontSize_default : WksFontSize :=
  mkWksFontSize (fdec 1 0) (fdec 1 0).

(** wks.py:37-60 *)
Definition WksFontSize_from (exp : val) : res WksFontSize :=
  let! l := need_list exp in
  if negb (Nat.eqb (length l) 3) then Err EException else
  let! h := exp@0 in
  if negb (h =s "size") then Err EException else
  let o := WksFontSize_default in
  let! o := setf wz_width (exp@1) o in
  let! o := setf wz_height (exp@2) o in
  Ok o.
(** wks.py:62-74 *)
Definition WksFontSize_to (o : WksFontSize) (indent : nat) (newline : bool) : res str :=
  Ok (spaces indent ++ $"(size " ++ fmt (wz_width o) ++ $" " ++ fmt (wz_height o) ++ $")" ++ eol newline).

(** wks.py:76-90: attributes of WksFont and their defaults *)
Record WksFont := mkWksFont {
  wf_linewidth : val;
  wf_size : option WksFontSize;
  wf_bold : bool;
  wf_italic : bool }.
#[export] Instance eta_WksFont : Settable WksFont :=
  settable! mkWksFont <wf_linewidth; wf_size; wf_bold; wf_italic>.
Definition WksFont_default : WksFont :=
  mkWksFont VNone None false false.

(** wks.py:113-119 *)
Definition WksFont_step (o : WksFont) (item : val) : res WksFont :=
  if negb (is_list item) then
    let! o := on (item =s "bold") (setf wf_bold (Ok true)) o in
    let! o := on (item =s "italic") (setf wf_italic (Ok true)) o in
    Ok o
  else
  let! h := item@0 in
  let! o := on (h =s "linewidth") (setf wf_linewidth (item@1)) o in
  let! o := on (h =s "size") (setf wf_size (let! s := WksFontSize_from item in Ok (Some s))) o in
  Ok o.
(** wks.py:92-120 *)
Definition WksFont_from (exp : val) : res WksFont :=
  let! l := need_head "font" exp in foldM WksFont_step WksFont_default l.
(** wks.py:122-144 *)
Definition WksFont_to (o : WksFont) (indent : nat) (newline : bool) : res str :=
  let lw := if is_none (wf_linewidth o) then [] else $" (linewidth " ++ fmt (wf_linewidth o) ++ $")" in
  let! size := opt_str (wf_size o) (fun z => let! s := WksFontSize_to z 0 false in Ok ($" " ++ s)) in
  let bold := if wf_bold o then $" bold" else [] in
  let italic := if wf_italic o then $" italic" else [] in
  if Nat.eqb (length lw) 0 && Nat.eqb (length size) 0 && Nat.eqb (length bold) 0 && Nat.eqb (length italic) 0 then Ok [] else
  Ok (spaces indent ++ $"(font" ++ lw ++ size ++ bold ++ italic ++ $")" ++ eol newline).

(** wks.py:146-159: attributes of WksPosition and their defaults *)
Record WksPosition := mkWksPosition {
  wp_X : val;
  wp_Y : val;
  wp_corner : val }.
#[export] Instance eta_WksPosition : Settable WksPosition :=
  settable! mkWksPosition <wp_X; wp_Y; wp_corner>.
Definition WksPosition_default : WksPosition :=
  mkWksPosition (fdec 0 0) (fdec 0 0) VNone.

(** wks.py:161-186: the first element is not looked at *)
Definition WksPosition_from (exp : val) : res WksPosition :=
  let! l := need_list exp in
  if Nat.ltb (length l) 3 then Err EException else
  let o := WksPosition_default in
  let! o := setf wp_X (exp@1) o in
  let! o := setf wp_Y (exp@2) o in
  on (Nat.ltb 3 (length l)) (setf wp_corner (exp@3)) o.
(** wks.py:188-190 *)
Definition WksPosition_to (o : WksPosition) (indent : nat) (newline : bool) : res str := Err ENotImplemented.
(** wks.py:276, 286: a position between its token and the closing bracket *)
Definition wks_pos (p : WksPosition) : str :=
  fmt (wp_X p) ++ $" " ++ fmt (wp_Y p) ++ (if is_none (wp_corner p) then [] else $" " ++ fmt (wp_corner p)).

(** wks.py:192-228: attributes of Line and their defaults *)
Record Line := mkLine {
  wl_name : val;
  wl_start : WksPosition;
  wl_end : WksPosition;
  wl_option : val;
  wl_lineWidth : val;
  wl_repeat : val;
  wl_incrx : val;
  wl_incry : val;
  wl_comment : val }.
#[export] Instance eta_Line : Settable Line :=
  settable! mkLine <wl_name; wl_start; wl_end; wl_option; wl_lineWidth; wl_repeat; wl_incrx; wl_incry; wl_comment>.
Definition Line_default : Line :=
  mkLine (VStr []) WksPosition_default WksPosition_default VNone VNone VNone VNone VNone VNone.

(** wks.py:251-260 *)
Definition Line_step (o : Line) (item : val) : res Line :=
  let! h := item@0 in
  let! o := on (h =s "name") (setf wl_name (item@1)) o in
  let! o := on (h =s "start") (setf wl_start (WksPosition_from item)) o in
  let! o := on (h =s "end") (setf wl_end (WksPosition_from item)) o in
  let! o := on (h =s "option") (setf wl_option (item@1)) o in
  let! o := on (h =s "linewidth") (setf wl_lineWidth (item@1)) o in
  let! o := on (h =s "repeat") (setf wl_repeat (item@1)) o in
  let! o := on (h =s "incrx") (setf wl_incrx (item@1)) o in
  let! o := on (h =s "incry") (setf wl_incry (item@1)) o in
  let! o := on (h =s "comment") (setf wl_comment (item@1)) o in
  Ok o.
(** wks.py:230-261 *)
Definition Line_from (exp : val) : res Line :=
  let! l := need_head "line" exp in foldM Line_step Line_default (skipn 1 l).
(** wks.py:263-289 *)
Definition Line_to (o : Line) (indent : nat) (newline : bool) : res str :=
  let option := if is_none (wl_option o) then [] else $" (option " ++ fmt (wl_option o) ++ $")" in
  let lw := if is_none (wl_lineWidth o) then [] else $" (linewidth " ++ fmt (wl_lineWidth o) ++ $")" in
  let repeat := if is_none (wl_repeat o) then [] else $" (repeat " ++ fmt (wl_repeat o) ++ $")" in
  let incrx := if is_none (wl_incrx o) then [] else $" (incrx " ++ fmt (wl_incrx o) ++ $")" in
  let incry := if is_none (wl_incry o) then [] else $" (incry " ++ fmt (wl_incry o) ++ $")" in
  let comment := if is_none (wl_comment o) then [] else $" (comment " ++ quoted (wl_comment o) ++ $")" ++ nl in
  Ok (spaces indent ++ $"(line (name " ++ quoted (wl_name o) ++ $") (start " ++ wks_pos (wl_start o) ++ $") (end " ++ wks_pos (wl_end o) ++ $")"
      ++ option ++ lw ++ repeat ++ incrx ++ incry ++ comment ++ $")" ++ eol newline).

(** wks.py:291-327: attributes of Rect and their defaults *)
Record Rect := mkRect {
  wr_name : val;
  wr_start : WksPosition;
  wr_end : WksPosition;
  wr_option : val;
  wr_lineWidth : val;
  wr_repeat : val;
  wr_incrx : val;
  wr_incry : val;
  wr_comment : val }.
#[export] Instance eta_Rect : Settable Rect :=
  settable! mkRect <wr_name; wr_start; wr_end; wr_option; wr_lineWidth; wr_repeat; wr_incrx; wr_incry; wr_comment>.
Definition Rect_default : Rect :=
  mkRect (VStr []) WksPosition_default WksPosition_default VNone VNone VNone VNone VNone VNone.

(** wks.py:350-359 *)
Definition Rect_step (o : Rect) (item : val) : res Rect :=
  let! h := item@0 in
  let! o := on (h =s "name") (setf wr_name (item@1)) o in
  let! o := on (h =s "start") (setf wr_start (WksPosition_from item)) o in
  let! o := on (h =s "end") (setf wr_end (WksPosition_from item)) o in
  let! o := on (h =s "option") (setf wr_option (item@1)) o in
  let! o := on (h =s "linewidth") (setf wr_lineWidth (item@1)) o in
  let! o := on (h =s "repeat") (setf wr_repeat (item@1)) o in
  let! o := on (h =s "incrx") (setf wr_incrx (item@1)) o in
  let! o := on (h =s "incry") (setf wr_incry (item@1)) o in
  let! o := on (h =s "comment") (setf wr_comment (item@1)) o in
  Ok o.
(** wks.py:329-360 *)
Definition Rect_from (exp : val) : res Rect :=
  let! l := need_head "rect" exp in foldM Rect_step Rect_default (skipn 1 l).
(** wks.py:362-388 *)
Definition Rect_to (o : Rect) (indent : nat) (newline : bool) : res str :=
  let option := if is_none (wr_option o) then [] else $" (option " ++ fmt (wr_option o) ++ $")" in
  let lw := if is_none (wr_lineWidth o) then [] else $" (linewidth " ++ fmt (wr_lineWidth o) ++ $")" in
  let repeat := if is_none (wr_repeat o) then [] else $" (repeat " ++ fmt (wr_repeat o) ++ $")" in
  let incrx := if is_none (wr_incrx o) then [] else $" (incrx " ++ fmt (wr_incrx o) ++ $")" in
  let incry := if is_none (wr_incry o) then [] else $" (incry " ++ fmt (wr_incry o) ++ $")" in
  let comment := if is_none (wr_comment o) then [] else $" (comment " ++ quoted (wr_comment o) ++ $")" ++ nl in
  Ok (spaces indent ++ $"(rect (name " ++ quoted (wr_name o) ++ $") (start " ++ wks_pos (wr_start o) ++ $") (end " ++ wks_pos (wr_end o) ++ $")"
      ++ option ++ lw ++ repeat ++ incrx ++ incry ++ comment ++ $")" ++ eol newline).

(** wks.py:390-427: attributes of Polygon and their defaults *)
Record Polygon := mkPolygon {
  wg_name : val;
  wg_position : WksPosition;
  wg_option : val;
  wg_rotate : val;
  wg_coordinates : list WksPosition;
  wg_repeat : val;
  wg_incrx : val;
  wg_incry : val;
  wg_comment : val }.
#[export] Instance eta_Polygon : Settable Polygon :=
  settable! mkPolygon <wg_name; wg_position; wg_option; wg_rotate; wg_coordinates; wg_repeat; wg_incrx; wg_incry; wg_comment>.
Definition Polygon_default : Polygon :=
  mkPolygon (VStr []) WksPosition_default VNone VNone [] VNone VNone VNone VNone.

(** wks.py:429-444 *)
Definition Polygon_from (exp : val) : res Polygon := Err ENotImplemented.
(** wks.py:446-456 *)
Definition Polygon_to (o : Polygon) (indent : nat) (newline : bool) : res str := Err ENotImplemented.

(** wks.py:458-505: attributes of Bitmap and their defaults *)
Record Bitmap := mkBitmap {
  wb_name : val;
  wb_position : WksPosition;
  wb_option : val;
  wb_scale : val;
  wb_repeat : val;
  wb_incrx : val;
  wb_incry : val;
  wb_comment : val;
  wb_pngdata : list val }.
#[export] Instance eta_Bitmap : Settable Bitmap :=
  settable! mkBitmap <wb_name; wb_position; wb_option; wb_scale; wb_repeat; wb_incrx; wb_incry; wb_comment; wb_pngdata>.
Definition Bitmap_default : Bitmap :=
  mkBitmap (VStr []) WksPosition_default VNone (fdec 1 0) VNone VNone VNone VNone [].

(** wks.py:539-541: children other than [data] are skipped *)
Definition Bitmap_data (acc : list val) (data : val) : res (list val) :=
  let! h := data@0 in
  if h =s "data" then let! d := data@1 in Ok (acc ++ [d]) else Ok acc.
(** wks.py:528-541 *)
Definition Bitmap_step (o : Bitmap) (item : val) : res Bitmap :=
  let! h := item@0 in
  let! o := on (h =s "name") (setf wb_name (item@1)) o in
  let! o := on (h =s "pos") (setf wb_position (WksPosition_from item)) o in
  let! o := on (h =s "option") (setf wb_option (item@1)) o in
  let! o := on (h =s "scale") (setf wb_scale (item@1)) o in
  let! o := on (h =s "repeat") (setf wb_repeat (item@1)) o in
  let! o := on (h =s "incrx") (setf wb_incrx (item@1)) o in
  let! o := on (h =s "incry") (setf wb_incry (item@1)) o in
  let! o := on (h =s "comment") (setf wb_comment (item@1)) o in
  let! o := on (h =s "pngdata") (extf wb_pngdata (let! l := from_ item 1 in foldM Bitmap_data [] l)) o in
  Ok o.
(** wks.py:507-542 *)
Definition Bitmap_from (exp : val) : res Bitmap :=
  let! l := need_head "bitmap" exp in foldM Bitmap_step Bitmap_default (skipn 1 l).
(** wks.py:544-574 *)
Definition Bitmap_to (o : Bitmap) (indent : nat) (newline : bool) : res str :=
  let indents := spaces indent in
  let repeat := if is_none (wb_repeat o) then [] else $" (repeat " ++ fmt (wb_repeat o) ++ $")" in
  let incrx := if is_none (wb_incrx o) then [] else $" (incrx " ++ fmt (wb_incrx o) ++ $")" in
  let incry := if is_none (wb_incry o) then [] else $" (incry " ++ fmt (wb_incry o) ++ $")" in
  let option := if is_none (wb_option o) then [] else $" (option " ++ fmt (wb_option o) ++ $")" in
  let comment := if is_none (wb_comment o) then [] else $" (comment " ++ quoted (wb_comment o) ++ $")" ++ nl in
  let! data := concatM (fun d => Ok (indents ++ $"  (data " ++ rawq d ++ $")" ++ nl)) (wb_pngdata o) in
  Ok (indents ++ $"(bitmap (name " ++ quoted (wb_name o) ++ $") (pos " ++ wks_pos (wb_position o) ++ $")" ++ option ++ $" (scale " ++ fmt (wb_scale o) ++ $")"
      ++ repeat ++ incrx ++ incry ++ nl ++ comment ++ indents ++ $"(pngdata" ++ nl ++ data ++ indents ++ $"  )" ++ nl ++ indents ++ $")" ++ eol newline).

(** wks.py:577-629: attributes of TbText and their defaults *)
Record TbText := mkTbText {
  tt_text : val;
  tt_name : val;
  tt_position : WksPosition;
  tt_option : val;
  tt_rotate : val;
  tt_font : WksFont;
  tt_justify : option Justify;
  tt_maxlen : val;
  tt_maxheight : val;
  tt_repeat : val;
  tt_incrx : val;
  tt_incry : val;
  tt_incrlabel : val;
  tt_comment : val }.
#[export] Instance eta_TbText : Settable TbText :=
  settable! mkTbText <tt_text; tt_name; tt_position; tt_option; tt_rotate; tt_font; tt_justify; tt_maxlen; tt_maxheight; tt_repeat; tt_incrx; tt_incry; tt_incrlabel; tt_comment>.
Definition TbText_default : TbText :=
  mkTbText (VStr []) (VStr []) WksPosition_default VNone VNone WksFont_default None VNone VNone VNone VNone VNone VNone VNone.

(** wks.py:653-666 *)
Definition TbText_step (o : TbText) (item : val) : res TbText :=
  let! h := item@0 in
  let! o := on (h =s "name") (setf tt_name (item@1)) o in
  let! o := on (h =s "pos") (setf tt_position (WksPosition_from item)) o in
  let! o := on (h =s "option") (setf tt_option (item@1)) o in
  let! o := on (h =s "rotate") (setf tt_rotate (item@1)) o in
  let! o := on (h =s "font") (setf tt_font (WksFont_from item)) o in
  let! o := on (h =s "justify") (setf tt_justify (let! j := Justify_from item in Ok (Some j))) o in
  let! o := on (h =s "maxlen") (setf tt_maxlen (item@1)) o in
  let! o := on (h =s "maxheight") (setf tt_maxheight (item@1)) o in
  let! o := on (h =s "repeat") (setf tt_repeat (item@1)) o in
  let! o := on (h =s "incrx") (setf tt_incrx (item@1)) o in
  let! o := on (h =s "incry") (setf tt_incry (item@1)) o in
  let! o := on (h =s "incrlabel") (setf tt_incrlabel (item@1)) o in
  let! o := on (h =s "comment") (setf tt_comment (item@1)) o in
  Ok o.
(** wks.py:631-667 *)
Definition TbText_from (exp : val) : res TbText :=
  let! l := need_head "tbtext" exp in
  let! o := setf tt_text (exp@1) TbText_default in
  foldM TbText_step o (skipn 2 l).
(** wks.py:669-700 *)
Definition TbText_to (o : TbText) (indent : nat) (newline : bool) : res str :=
  let repeat := if is_none (tt_repeat o) then [] else $" (repeat " ++ fmt (tt_repeat o) ++ $")" in
  let incrx := if is_none (tt_incrx o) then [] else $" (incrx " ++ fmt (tt_incrx o) ++ $")" in
  let incry := if is_none (tt_incry o) then [] else $" (incry " ++ fmt (tt_incry o) ++ $")" in
  let option := if is_none (tt_option o) then [] else $" (option " ++ fmt (tt_option o) ++ $")" in
  let rotate := if is_none (tt_rotate o) then [] else $" (rotate " ++ fmt (tt_rotate o) ++ $")" in
  let! justify := opt_str (tt_justify o) (fun j => let! s := Justify_to j 0 false in Ok ($" " ++ s)) in
  let maxlen := if is_none (tt_maxlen o) then [] else $" (maxlen " ++ fmt (tt_maxlen o) ++ $")" in
  let maxheight := if is_none (tt_maxheight o) then [] else $" (maxheight " ++ fmt (tt_maxheight o) ++ $")" in
  let incrlabel := if is_none (tt_incrlabel o) then [] else $" (incrlabel " ++ fmt (tt_incrlabel o) ++ $")" in
  let! font := (let! f := WksFont_to (tt_font o) 0 false in
                match f with [] => Ok [] | _ => Ok ($" " ++ f) end) in
  let comment := if is_none (tt_comment o) then [] else $" (comment " ++ quoted (tt_comment o) ++ $")" ++ nl in
  Ok (spaces indent ++ $"(tbtext " ++ quoted (tt_text o) ++ $" (name " ++ quoted (tt_name o) ++ $") (pos " ++ wks_pos (tt_position o) ++ $")" ++ option ++ rotate
      ++ font ++ justify ++ maxlen ++ maxheight ++ repeat ++ incrx ++ incry ++ incrlabel ++ comment ++ $")" ++ eol newline).

(** wks.py:703-711: attributes of TextSize and their defaults *)
Record TextSize := mkTextSize {
  tz_width : val;
  tz_height : val }.
#[export] Instance eta_TextSize : Settable TextSize :=
  settable! mkTextSize <tz_width; tz_height>.
Definition TextSize_default : TextSize :=
  mkTextSize (fdec 15 (-1)) (fdec 15 (-1)).

(** wks.py:713-736 *)
Definition TextSize_from (exp : val) : res TextSize :=
  let! l := need_list exp in
  if negb (Nat.eqb (length l) 3) then Err EException else
  let! h := exp@0 in
  if negb (h =s "textsize") then Err EException else
  let o := TextSize_default in
  let! o := setf tz_width (exp@1) o in
  let! o := setf tz_height (exp@2) o in
  Ok o.
(** wks.py:738-750 *)
Definition TextSize_to (o : TextSize) (indent : nat) (newline : bool) : res str :=
  Ok (spaces indent ++ $"(textsize " ++ fmt (tz_width o) ++ $" " ++ fmt (tz_height o) ++ $")" ++ eol newline).

(** wks.py:752-779: attributes of Setup and their defaults *)
Record Setup := mkSetup {
  wu_textSize : TextSize;
  wu_lineWidth : val;
  wu_textLineWidth : val;
  wu_leftMargin : val;
  wu_rightMargin : val;
  wu_topMargin : val;
  wu_bottomMargin : val }.
#[export] Instance eta_Setup : Settable Setup :=
  settable! mkSetup <wu_textSize; wu_lineWidth; wu_textLineWidth; wu_leftMargin; wu_rightMargin; wu_topMargin; wu_bottomMargin>.
Definition Setup_default : Setup :=
  mkSetup TextSize_default (fdec 15 (-2)) (fdec 15 (-2)) (fdec 10 0) (fdec 10 0) (fdec 10 0) (fdec 10 0).

(** wks.py:802-809 *)
Definition Setup_step (o : Setup) (item : val) : res Setup :=
  let! h := item@0 in
  let! o := on (h =s "textsize") (setf wu_textSize (TextSize_from item)) o in
  let! o := on (h =s "linewidth") (setf wu_lineWidth (item@1)) o in
  let! o := on (h =s "textlinewidth") (setf wu_textLineWidth (item@1)) o in
  let! o := on (h =s "left_margin") (setf wu_leftMargin (item@1)) o in
  let! o := on (h =s "right_margin") (setf wu_rightMargin (item@1)) o in
  let! o := on (h =s "top_margin") (setf wu_topMargin (item@1)) o in
  let! o := on (h =s "bottom_margin") (setf wu_bottomMargin (item@1)) o in
  Ok o.
(** wks.py:781-810 *)
Definition Setup_from (exp : val) : res Setup :=
  let! l := need_head "setup" exp in foldM Setup_step Setup_default (skipn 1 l).
(** wks.py:812-832 *)
Definition Setup_to (o : Setup) (indent : nat) (newline : bool) : res str :=
  let! size := TextSize_to (wu_textSize o) 0 false in
  Ok (spaces indent ++ $"(setup " ++ size ++ $"(linewidth " ++ fmt (wu_lineWidth o) ++ $")(textlinewidth " ++ fmt (wu_textLineWidth o) ++ $")" ++ nl ++ spaces indent
      ++ $"(left_margin " ++ fmt (wu_leftMargin o) ++ $")(right_margin " ++ fmt (wu_rightMargin o) ++ $")(top_margin " ++ fmt (wu_topMargin o)
      ++ $")(bottom_margin " ++ fmt (wu_bottomMargin o) ++ $"))" ++ eol newline).

(** wks.py:850: a list element of one of several classes *)
Inductive WkItem :=
| WkItem_Line (x : Line)
| WkItem_Rect (x : Rect)
| WkItem_Polygon (x : Polygon)
| WkItem_Bitmap (x : Bitmap)
| WkItem_TbText (x : TbText).
Definition WkItem_to (o : WkItem) (indent : nat) (newline : bool) : res str :=
  match o with
  | WkItem_Line x => Line_to x indent newline
  | WkItem_Rect x => Rect_to x indent newline
  | WkItem_Polygon x => Polygon_to x indent newline
  | WkItem_Bitmap x => Bitmap_to x indent newline
  | WkItem_TbText x => TbText_to x indent newline
  end.

(** wks.py:834-855: attributes of WorkSheet and their defaults *)
Record WorkSheet := mkWorkSheet {
  wk_version : val;
  wk_generator : val;
  wk_setup : Setup;
  wk_drawingObjects : list WkItem;
  wk_filePath : val }.
#[export] Instance eta_WorkSheet : Settable WorkSheet :=
  settable! mkWorkSheet <wk_version; wk_generator; wk_setup; wk_drawingObjects; wk_filePath>.
Definition WorkSheet_default : WorkSheet :=
  mkWorkSheet (VStr $"20211014") (VStr $"kiutils") Setup_default [] VNone.

Definition WorkSheet_item {A} (c : A -> WkItem) (m : res A) (o : WorkSheet) : res WorkSheet :=
  addf wk_drawingObjects (let! x := m in Ok (c x)) o.
(** wks.py:878-886 *)
Definition WorkSheet_step (o : WorkSheet) (item : val) : res WorkSheet :=
  let! h := item@0 in
  let! o := on (h =s "version") (setf wk_version (item@1)) o in
  let! o := on (h =s "generator") (setf wk_generator (item@1)) o in
  let! o := on (h =s "setup") (setf wk_setup (Setup_from item)) o in
  let! o := on (h =s "rect") (WorkSheet_item WkItem_Rect (Rect_from item)) o in
  let! o := on (h =s "line") (WorkSheet_item WkItem_Line (Line_from item)) o in
  let! o := on (h =s "polygon") (WorkSheet_item WkItem_Polygon (Polygon_from item)) o in
  let! o := on (h =s "tbtext") (WorkSheet_item WkItem_TbText (TbText_from item)) o in
  let! o := on (h =s "bitmap") (WorkSheet_item WkItem_Bitmap (Bitmap_from item)) o in
  Ok o.
(** wks.py:857-887 *)
Definition WorkSheet_from (exp : val) : res WorkSheet :=
  let! l := need_head "kicad_wks" exp in foldM WorkSheet_step WorkSheet_default (skipn 1 l).
(** wks.py:943-962 *)
Definition WorkSheet_to (o : WorkSheet) (indent : nat) (newline : bool) : res str :=
  let! setup := Setup_to (wk_setup o) (indent + 2) true in
  let! items := concatM (fun x => WkItem_to x (indent + 2) true) (wk_drawingObjects o) in
  Ok (spaces indent ++ $"(kicad_wks (version " ++ fmt (wk_version o) ++ $") (generator " ++ fmt (wk_generator o) ++ $")" ++ nl ++ setup ++ items
      ++ spaces indent ++ $")" ++ eol newline).
(** wks.py:913-923; misc/config.py for the two constants *)
Definition WorkSheet_create_new : WorkSheet :=
  WorkSheet_default <| wk_version := VStr $"20211014" |> <| wk_generator := VStr $"kiutils" |>.
