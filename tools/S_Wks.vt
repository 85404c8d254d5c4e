(** Specification of wks.py. *)
From Verif Require Import PyBase PyNum PyStr Sexpr S_Leaf S_Tree M_Common S_Common M_Wks.

Definition WksFontSize_tree (o : WksFontSize) : val := node "size" [wz_width o; wz_height o].
@ok WksFontSize
Definition WksFont_tree (o : WksFont) : val :=
  node "font" (optn "linewidth" (wf_linewidth o) ++ opto WksFontSize_tree (wf_size o) ++ optw "bold" (wf_bold o) ++ optw "italic" (wf_italic o)).
(** a font that is not written at all *)
Definition WksFont_empty (o : WksFont) : bool :=
  is_none (wf_linewidth o) && (match wf_size o with None => true | Some _ => false end) && negb (wf_bold o) && negb (wf_italic o).
@ok WksFont
(** a font that is written *)
Definition WksFont_ok1 (o : WksFont) : bool := WksFont_ok o && negb (WksFont_empty o).
(** [(key X Y)] or [(key X Y corner)] *)
Definition wpos_tree (key : String.string) (p : WksPosition) : val := node key ([wp_X p; wp_Y p] ++ optv (wp_corner p)).
Arguments wpos_tree key%string p.
@ok WksPosition

Definition Line_tree (o : Line) : val :=
  node "line" ([node "name" [wl_name o]; wpos_tree "start" (wl_start o); wpos_tree "end" (wl_end o)] ++ optn "option" (wl_option o)
    ++ optn "linewidth" (wl_lineWidth o) ++ optn "repeat" (wl_repeat o) ++ optn "incrx" (wl_incrx o) ++ optn "incry" (wl_incry o)
    ++ optn "comment" (wl_comment o)).
@ok Line

Definition Rect_tree (o : Rect) : val :=
  node "rect" ([node "name" [wr_name o]; wpos_tree "start" (wr_start o); wpos_tree "end" (wr_end o)] ++ optn "option" (wr_option o)
    ++ optn "linewidth" (wr_lineWidth o) ++ optn "repeat" (wr_repeat o) ++ optn "incrx" (wr_incrx o) ++ optn "incry" (wr_incry o)
    ++ optn "comment" (wr_comment o)).
@ok Rect

(** polygons are not supported: no polygon is printable *)
Definition Polygon_tree (o : Polygon) : val := node "polygon" [].
@ok Polygon false
Definition Bitmap_tree (o : Bitmap) : val :=
  node "bitmap" ([node "name" [wb_name o]; wpos_tree "pos" (wb_position o)] ++ optn "option" (wb_option o) ++ [node "scale" [wb_scale o]]
    ++ optn "repeat" (wb_repeat o) ++ optn "incrx" (wb_incrx o) ++ optn "incry" (wb_incry o) ++ optn "comment" (wb_comment o)
    ++ [node "pngdata" (map (fun d => node "data" [d]) (wb_pngdata o))]).
@ok Bitmap
Definition TbText_tree (o : TbText) : val :=
  node "tbtext" ([tt_text o; node "name" [tt_name o]; wpos_tree "pos" (tt_position o)] ++ optn "option" (tt_option o) ++ optn "rotate" (tt_rotate o)
    ++ (if WksFont_empty (tt_font o) then [] else [WksFont_tree (tt_font o)]) ++ opto Justify_tree (tt_justify o)
    ++ optn "maxlen" (tt_maxlen o) ++ optn "maxheight" (tt_maxheight o) ++ optn "repeat" (tt_repeat o) ++ optn "incrx" (tt_incrx o) ++ optn "incry" (tt_incry o)
    ++ optn "incrlabel" (tt_incrlabel o) ++ optn "comment" (tt_comment o)).
@ok TbText optok Justify_ok1 (tt_justify o)
Definition TextSize_tree (o : TextSize) : val := node "textsize" [tz_width o; tz_height o].
@ok TextSize
Definition Setup_tree (o : Setup) : val :=
  node "setup" [TextSize_tree (wu_textSize o); node "linewidth" [wu_lineWidth o]; node "textlinewidth" [wu_textLineWidth o]; node "left_margin" [wu_leftMargin o];
    node "right_margin" [wu_rightMargin o]; node "top_margin" [wu_topMargin o]; node "bottom_margin" [wu_bottomMargin o]].
@ok Setup
@uspec WkItem
Definition WorkSheet_tree (o : WorkSheet) : val :=
  node "kicad_wks" ([node "version" [wk_version o]; node "generator" [wk_generator o]; Setup_tree (wk_setup o)] ++ map WkItem_tree (wk_drawingObjects o) ++ []).
@ok WorkSheet
