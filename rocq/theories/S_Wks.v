(** Specification of wks.py. *)
From Verif Require Import PyBase PyNum PyStr Sexpr S_Leaf S_Tree M_Common S_Common M_Wks.

Definition WksFontSize_tree (o : WksFontSize) : val := node "size" [wz_width o; wz_height o].
Definition WksFontSize_norm (o : WksFontSize) : WksFontSize :=
  mkWksFontSize (nrm (wz_width o)) (nrm (wz_height o)).
(** dataclass == on WksFontSize *)
Definition WksFontSize_eqb (a b : WksFontSize) : bool :=
  py_eqb (wz_width a) (wz_width b)
  && py_eqb (wz_height a) (wz_height b).
Definition WksFontSize_ok (o : WksFontSize) : bool :=
  numb (wz_width o)
  && numb (wz_height o).

Definition WksFont_tree (o : WksFont) : val :=
  node "font" (optn "linewidth" (wf_linewidth o) ++ opto WksFontSize_tree (wf_size o) ++ optw "bold" (wf_bold o) ++ optw "italic" (wf_italic o)).
(** a font that is not written at all *)
Definition WksFont_empty (o : WksFont) : bool :=
  is_none (wf_linewidth o) && (match wf_size o with None => true | Some _ => false end) && negb (wf_bold o) && negb (wf_italic o).
Definition WksFont_norm (o : WksFont) : WksFont :=
  mkWksFont (nrm (wf_linewidth o)) (option_map WksFontSize_norm (wf_size o)) (wf_bold o) (wf_italic o).
(** dataclass == on WksFont *)
Definition WksFont_eqb (a b : WksFont) : bool :=
  py_eqb (wf_linewidth a) (wf_linewidth b)
  && oeqb WksFontSize_eqb (wf_size a) (wf_size b)
  && Bool.eqb (wf_bold a) (wf_bold b)
  && Bool.eqb (wf_italic a) (wf_italic b).
Definition WksFont_ok (o : WksFont) : bool :=
  optb numb (wf_linewidth o)
  && optok WksFontSize_ok (wf_size o).

(** a font that is written *)
Definition WksFont_ok1 (o : WksFont) : bool := WksFont_ok o && negb (WksFont_empty o).
(** [(key X Y)] or [(key X Y corner)] *)
Definition wpos_tree (key : String.string) (p : WksPosition) : val := node key ([wp_X p; wp_Y p] ++ optv (wp_corner p)).
Arguments wpos_tree key%string p.
Definition WksPosition_norm (o : WksPosition) : WksPosition :=
  mkWksPosition (nrm (wp_X o)) (nrm (wp_Y o)) (nrm (wp_corner o)).
(** dataclass == on WksPosition *)
Definition WksPosition_eqb (a b : WksPosition) : bool :=
  py_eqb (wp_X a) (wp_X b)
  && py_eqb (wp_Y a) (wp_Y b)
  && py_eqb (wp_corner a) (wp_corner b).
Definition WksPosition_ok (o : WksPosition) : bool :=
  numb (wp_X o)
  && numb (wp_Y o)
  && optb atomb (wp_corner o).


Definition Line_tree (o : Line) : val :=
  node "line" ([node "name" [wl_name o]; wpos_tree "start" (wl_start o); wpos_tree "end" (wl_end o)] ++ optn "option" (wl_option o)
    ++ optn "linewidth" (wl_lineWidth o) ++ optn "repeat" (wl_repeat o) ++ optn "incrx" (wl_incrx o) ++ optn "incry" (wl_incry o)
    ++ optn "comment" (wl_comment o)).
Definition Line_norm (o : Line) : Line :=
  mkLine (wl_name o) (WksPosition_norm (wl_start o)) (WksPosition_norm (wl_end o)) (nrm (wl_option o)) (nrm (wl_lineWidth o)) (nrm (wl_repeat o)) (nrm (wl_incrx o)) (nrm (wl_incry o)) (wl_comment o).
(** dataclass == on Line *)
Definition Line_eqb (a b : Line) : bool :=
  py_eqb (wl_name a) (wl_name b)
  && WksPosition_eqb (wl_start a) (wl_start b)
  && WksPosition_eqb (wl_end a) (wl_end b)
  && py_eqb (wl_option a) (wl_option b)
  && py_eqb (wl_lineWidth a) (wl_lineWidth b)
  && py_eqb (wl_repeat a) (wl_repeat b)
  && py_eqb (wl_incrx a) (wl_incrx b)
  && py_eqb (wl_incry a) (wl_incry b)
  && py_eqb (wl_comment a) (wl_comment b).
Definition Line_ok (o : Line) : bool :=
  txtb (wl_name o)
  && WksPosition_ok (wl_start o)
  && WksPosition_ok (wl_end o)
  && optb atomb (wl_option o)
  && optb numb (wl_lineWidth o)
  && optb numb (wl_repeat o)
  && optb numb (wl_incrx o)
  && optb numb (wl_incry o)
  && optb txtb (wl_comment o).


Definition Rect_tree (o : Rect) : val :=
  node "rect" ([node "name" [wr_name o]; wpos_tree "start" (wr_start o); wpos_tree "end" (wr_end o)] ++ optn "option" (wr_option o)
    ++ optn "linewidth" (wr_lineWidth o) ++ optn "repeat" (wr_repeat o) ++ optn "incrx" (wr_incrx o) ++ optn "incry" (wr_incry o)
    ++ optn "comment" (wr_comment o)).
Definition Rect_norm (o : Rect) : Rect :=
  mkRect (wr_name o) (WksPosition_norm (wr_start o)) (WksPosition_norm (wr_end o)) (nrm (wr_option o)) (nrm (wr_lineWidth o)) (nrm (wr_repeat o)) (nrm (wr_incrx o)) (nrm (wr_incry o)) (wr_comment o).
(** dataclass == on Rect *)
Definition Rect_eqb (a b : Rect) : bool :=
  py_eqb (wr_name a) (wr_name b)
  && WksPosition_eqb (wr_start a) (wr_start b)
  && WksPosition_eqb (wr_end a) (wr_end b)
  && py_eqb (wr_option a) (wr_option b)
  && py_eqb (wr_lineWidth a) (wr_lineWidth b)
  && py_eqb (wr_repeat a) (wr_repeat b)
  && py_eqb (wr_incrx a) (wr_incrx b)
  && py_eqb (wr_incry a) (wr_incry b)
  && py_eqb (wr_comment a) (wr_comment b).
Definition Rect_ok (o : Rect) : bool :=
  txtb (wr_name o)
  && WksPosition_ok (wr_start o)
  && WksPosition_ok (wr_end o)
  && optb atomb (wr_option o)
  && optb numb (wr_lineWidth o)
  && optb numb (wr_repeat o)
  && optb numb (wr_incrx o)
  && optb numb (wr_incry o)
  && optb txtb (wr_comment o).


(** polygons are not supported: no polygon is printable *)
Definition Polygon_tree (o : Polygon) : val := node "polygon" [].
Definition Polygon_norm (o : Polygon) : Polygon :=
  mkPolygon (wg_name o) (WksPosition_norm (wg_position o)) (nrm (wg_option o)) (nrm (wg_rotate o)) (map WksPosition_norm (wg_coordinates o)) (nrm (wg_repeat o)) (nrm (wg_incrx o)) (nrm (wg_incry o)) (wg_comment o).
(** dataclass == on Polygon *)
Definition Polygon_eqb (a b : Polygon) : bool :=
  py_eqb (wg_name a) (wg_name b)
  && WksPosition_eqb (wg_position a) (wg_position b)
  && py_eqb (wg_option a) (wg_option b)
  && py_eqb (wg_rotate a) (wg_rotate b)
  && leqb WksPosition_eqb (wg_coordinates a) (wg_coordinates b)
  && py_eqb (wg_repeat a) (wg_repeat b)
  && py_eqb (wg_incrx a) (wg_incrx b)
  && py_eqb (wg_incry a) (wg_incry b)
  && py_eqb (wg_comment a) (wg_comment b).
Definition Polygon_ok (o : Polygon) : bool :=
  txtb (wg_name o)
  && WksPosition_ok (wg_position o)
  && optb atomb (wg_option o)
  && optb numb (wg_rotate o)
  && forallb WksPosition_ok (wg_coordinates o)
  && optb numb (wg_repeat o)
  && optb numb (wg_incrx o)
  && optb numb (wg_incry o)
  && optb txtb (wg_comment o)
  && (false).

Definition Bitmap_tree (o : Bitmap) : val :=
  node "bitmap" ([node "name" [wb_name o]; wpos_tree "pos" (wb_position o)] ++ optn "option" (wb_option o) ++ [node "scale" [wb_scale o]]
    ++ optn "repeat" (wb_repeat o) ++ optn "incrx" (wb_incrx o) ++ optn "incry" (wb_incry o) ++ optn "comment" (wb_comment o)
    ++ [node "pngdata" (map (fun d => node "data" [d]) (wb_pngdata o))]).
Definition Bitmap_norm (o : Bitmap) : Bitmap :=
  mkBitmap (wb_name o) (WksPosition_norm (wb_position o)) (nrm (wb_option o)) (nrm (wb_scale o)) (nrm (wb_repeat o)) (nrm (wb_incrx o)) (nrm (wb_incry o)) (wb_comment o) (wb_pngdata o).
(** dataclass == on Bitmap *)
Definition Bitmap_eqb (a b : Bitmap) : bool :=
  py_eqb (wb_name a) (wb_name b)
  && WksPosition_eqb (wb_position a) (wb_position b)
  && py_eqb (wb_option a) (wb_option b)
  && py_eqb (wb_scale a) (wb_scale b)
  && py_eqb (wb_repeat a) (wb_repeat b)
  && py_eqb (wb_incrx a) (wb_incrx b)
  && py_eqb (wb_incry a) (wb_incry b)
  && py_eqb (wb_comment a) (wb_comment b)
  && leqb py_eqb (wb_pngdata a) (wb_pngdata b).
Definition Bitmap_ok (o : Bitmap) : bool :=
  txtb (wb_name o)
  && WksPosition_ok (wb_position o)
  && optb atomb (wb_option o)
  && numb (wb_scale o)
  && optb numb (wb_repeat o)
  && optb numb (wb_incrx o)
  && optb numb (wb_incry o)
  && optb txtb (wb_comment o)
  && forallb rawtxtb (wb_pngdata o).

Definition TbText_tree (o : TbText) : val :=
  node "tbtext" ([tt_text o; node "name" [tt_name o]; wpos_tree "pos" (tt_position o)] ++ optn "option" (tt_option o) ++ optn "rotate" (tt_rotate o)
    ++ (if WksFont_empty (tt_font o) then [] else [WksFont_tree (tt_font o)]) ++ opto Justify_tree (tt_justify o)
    ++ optn "maxlen" (tt_maxlen o) ++ optn "maxheight" (tt_maxheight o) ++ optn "repeat" (tt_repeat o) ++ optn "incrx" (tt_incrx o) ++ optn "incry" (tt_incry o)
    ++ optn "incrlabel" (tt_incrlabel o) ++ optn "comment" (tt_comment o)).
Definition TbText_norm (o : TbText) : TbText :=
  mkTbText (tt_text o) (tt_name o) (WksPosition_norm (tt_position o)) (nrm (tt_option o)) (nrm (tt_rotate o)) (WksFont_norm (tt_font o)) (option_map Justify_norm (tt_justify o)) (nrm (tt_maxlen o)) (nrm (tt_maxheight o)) (nrm (tt_repeat o)) (nrm (tt_incrx o)) (nrm (tt_incry o)) (nrm (tt_incrlabel o)) (tt_comment o).
(** dataclass == on TbText *)
Definition TbText_eqb (a b : TbText) : bool :=
  py_eqb (tt_text a) (tt_text b)
  && py_eqb (tt_name a) (tt_name b)
  && WksPosition_eqb (tt_position a) (tt_position b)
  && py_eqb (tt_option a) (tt_option b)
  && py_eqb (tt_rotate a) (tt_rotate b)
  && WksFont_eqb (tt_font a) (tt_font b)
  && oeqb Justify_eqb (tt_justify a) (tt_justify b)
  && py_eqb (tt_maxlen a) (tt_maxlen b)
  && py_eqb (tt_maxheight a) (tt_maxheight b)
  && py_eqb (tt_repeat a) (tt_repeat b)
  && py_eqb (tt_incrx a) (tt_incrx b)
  && py_eqb (tt_incry a) (tt_incry b)
  && py_eqb (tt_incrlabel a) (tt_incrlabel b)
  && py_eqb (tt_comment a) (tt_comment b).
Definition TbText_ok (o : TbText) : bool :=
  txtb (tt_text o)
  && txtb (tt_name o)
  && WksPosition_ok (tt_position o)
  && optb atomb (tt_option o)
  && optb numb (tt_rotate o)
  && WksFont_ok (tt_font o)
  && optok Justify_ok (tt_justify o)
  && optb numb (tt_maxlen o)
  && optb numb (tt_maxheight o)
  && optb numb (tt_repeat o)
  && optb numb (tt_incrx o)
  && optb numb (tt_incry o)
  && optb numb (tt_incrlabel o)
  && optb txtb (tt_comment o)
  && (optok Justify_ok1 (tt_justify o)).

Definition TextSize_tree (o : TextSize) : val := node "textsize" [tz_width o; tz_height o].
Definition TextSize_norm (o : TextSize) : TextSize :=
  mkTextSize (nrm (tz_width o)) (nrm (tz_height o)).
(** dataclass == on TextSize *)
Definition TextSize_eqb (a b : TextSize) : bool :=
  py_eqb (tz_width a) (tz_width b)
  && py_eqb (tz_height a) (tz_height b).
Definition TextSize_ok (o : TextSize) : bool :=
  numb (tz_width o)
  && numb (tz_height o).

Definition Setup_tree (o : Setup) : val :=
  node "setup" [TextSize_tree (wu_textSize o); node "linewidth" [wu_lineWidth o]; node "textlinewidth" [wu_textLineWidth o]; node "left_margin" [wu_leftMargin o];
    node "right_margin" [wu_rightMargin o]; node "top_margin" [wu_topMargin o]; node "bottom_margin" [wu_bottomMargin o]].
Definition Setup_norm (o : Setup) : Setup :=
  mkSetup (TextSize_norm (wu_textSize o)) (nrm (wu_lineWidth o)) (nrm (wu_textLineWidth o)) (nrm (wu_leftMargin o)) (nrm (wu_rightMargin o)) (nrm (wu_topMargin o)) (nrm (wu_bottomMargin o)).
(** dataclass == on Setup *)
Definition Setup_eqb (a b : Setup) : bool :=
  TextSize_eqb (wu_textSize a) (wu_textSize b)
  && py_eqb (wu_lineWidth a) (wu_lineWidth b)
  && py_eqb (wu_textLineWidth a) (wu_textLineWidth b)
  && py_eqb (wu_leftMargin a) (wu_leftMargin b)
  && py_eqb (wu_rightMargin a) (wu_rightMargin b)
  && py_eqb (wu_topMargin a) (wu_topMargin b)
  && py_eqb (wu_bottomMargin a) (wu_bottomMargin b).
Definition Setup_ok (o : Setup) : bool :=
  TextSize_ok (wu_textSize o)
  && numb (wu_lineWidth o)
  && numb (wu_textLineWidth o)
  && numb (wu_leftMargin o)
  && numb (wu_rightMargin o)
  && numb (wu_topMargin o)
  && numb (wu_bottomMargin o).

Definition WkItem_tree (o : WkItem) : val :=
  match o with
  | WkItem_Line x => Line_tree x
  | WkItem_Rect x => Rect_tree x
  | WkItem_Polygon x => Polygon_tree x
  | WkItem_Bitmap x => Bitmap_tree x
  | WkItem_TbText x => TbText_tree x
  end.
Definition WkItem_norm (o : WkItem) : WkItem :=
  match o with
  | WkItem_Line x => WkItem_Line (Line_norm x)
  | WkItem_Rect x => WkItem_Rect (Rect_norm x)
  | WkItem_Polygon x => WkItem_Polygon (Polygon_norm x)
  | WkItem_Bitmap x => WkItem_Bitmap (Bitmap_norm x)
  | WkItem_TbText x => WkItem_TbText (TbText_norm x)
  end.
Definition WkItem_ok (o : WkItem) : bool :=
  match o with
  | WkItem_Line x => Line_ok x
  | WkItem_Rect x => Rect_ok x
  | WkItem_Polygon x => Polygon_ok x
  | WkItem_Bitmap x => Bitmap_ok x
  | WkItem_TbText x => TbText_ok x
  end.
Definition WkItem_eqb (a b : WkItem) : bool :=
  match a, b with
  | WkItem_Line x, WkItem_Line y => Line_eqb x y
  | WkItem_Rect x, WkItem_Rect y => Rect_eqb x y
  | WkItem_Polygon x, WkItem_Polygon y => Polygon_eqb x y
  | WkItem_Bitmap x, WkItem_Bitmap y => Bitmap_eqb x y
  | WkItem_TbText x, WkItem_TbText y => TbText_eqb x y
  | _, _ => false
  end.

Definition WorkSheet_tree (o : WorkSheet) : val :=
  node "kicad_wks" ([node "version" [wk_version o]; node "generator" [wk_generator o]; Setup_tree (wk_setup o)] ++ map WkItem_tree (wk_drawingObjects o) ++ []).
Definition WorkSheet_norm (o : WorkSheet) : WorkSheet :=
  mkWorkSheet (nrm (wk_version o)) (nrm (wk_generator o)) (Setup_norm (wk_setup o)) (map WkItem_norm (wk_drawingObjects o)) (wk_filePath o).
(** dataclass == on WorkSheet *)
Definition WorkSheet_eqb (a b : WorkSheet) : bool :=
  py_eqb (wk_version a) (wk_version b)
  && py_eqb (wk_generator a) (wk_generator b)
  && Setup_eqb (wk_setup a) (wk_setup b)
  && leqb WkItem_eqb (wk_drawingObjects a) (wk_drawingObjects b)
  && py_eqb (wk_filePath a) (wk_filePath b).
Definition WorkSheet_ok (o : WorkSheet) : bool :=
  atomb (wk_version o)
  && atomb (wk_generator o)
  && Setup_ok (wk_setup o)
  && forallb WkItem_ok (wk_drawingObjects o)
  && is_none (wk_filePath o).

