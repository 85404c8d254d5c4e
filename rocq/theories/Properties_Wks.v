(** Property theorems C26: work sheets (wks.py); C34 for a new work sheet. *)
From Verif Require Import PyBase PyNum PyStr Sexpr S_Leaf S_Tree S_Fix M_Common S_Common M_Wks S_Wks
  L_Lex L_Num L_Seq L_Tac L_Fp L_Footprint L_Wks Properties_Common.

Definition ex_wpos : WksPosition := mkWksPosition (fdec 25 (-1)) (VInt 7) (VStr $"ltcorner").
Definition ex_wsize : WksFontSize := mkWksFontSize (fdec 13 (-1)) (VInt 2).
Definition ex_wfont : WksFont := mkWksFont (fdec 15 (-2)) (Some ex_wsize) true true.
Theorem C26_WksFontSize : roundtrips WksFontSize_to WksFontSize_from WksFontSize_ok WksFontSize_norm WksFontSize_eqb.
Proof. exact WksFontSize_rt. Qed.
Print Assumptions C26_WksFontSize.
Theorem C36_WksFontSize : conforms WksFontSize_to WksFontSize_from WksFontSize_ok WksFontSize_norm WksFontSize_tree.
Proof. exact WksFontSize_fmt. Qed.
Print Assumptions C36_WksFontSize.
Theorem C27_WksFontSize : refuses WksFontSize_from ["size"%string].
Proof. exact WksFontSize_ref. Qed.
Print Assumptions C27_WksFontSize.
Example C26_WksFontSize_ex : WksFontSize_ok (ex_wsize) = true.
Proof. vm_compute. reflexivity. Qed.

(** A font without any attribute is not written at all. *)
Theorem C26_WksFont : roundtrips WksFont_to WksFont_from WksFont_ok1 WksFont_norm WksFont_eqb.
Proof. exact WksFont_rt1. Qed.
Print Assumptions C26_WksFont.
Example C26_WksFont_ex : WksFont_ok1 ex_wfont = true. Proof. vm_compute. reflexivity. Qed.
Theorem C36_WksFont : conforms WksFont_to WksFont_from WksFont_ok1 WksFont_norm WksFont_tree.
Proof. exact WksFont_fmt1. Qed.
Print Assumptions C36_WksFont.
Theorem C27_WksFont : refuses WksFont_from ["font"%string].
Proof. exact WksFont_ref. Qed.
Print Assumptions C27_WksFont.
Theorem C28_WksFont : ignores WksFont_from 0 ["linewidth"%string; "size"%string].
Proof. exact WksFont_ign. Qed.
Print Assumptions C28_WksFont.
Theorem C30_WksFont : last_wins WksFont_from 0 ["linewidth"%string; "size"%string].
Proof. exact WksFont_win. Qed.
Print Assumptions C30_WksFont.
Theorem C26_Line : roundtrips Line_to Line_from Line_ok Line_norm Line_eqb.
Proof. exact Line_rt. Qed.
Print Assumptions C26_Line.
Theorem C36_Line : conforms Line_to Line_from Line_ok Line_norm Line_tree.
Proof. exact Line_fmt. Qed.
Print Assumptions C36_Line.
Theorem C27_Line : refuses Line_from ["line"%string].
Proof. exact Line_ref. Qed.
Print Assumptions C27_Line.
Theorem C28_Line : ignores Line_from 0 ["name"%string; "start"%string; "end"%string; "option"%string; "linewidth"%string; "repeat"%string; "incrx"%string; "incry"%string; "comment"%string].
Proof. exact Line_ign. Qed.
Print Assumptions C28_Line.
Theorem C30_Line : last_wins Line_from 0 ["name"%string; "start"%string; "end"%string; "option"%string; "linewidth"%string; "repeat"%string; "incrx"%string; "incry"%string; "comment"%string].
Proof. exact Line_win. Qed.
Print Assumptions C30_Line.
Example C26_Line_ex : Line_ok (mkLine (VStr $"a ""b""") ex_wpos (ex_wpos <| wp_corner := VNone |>) (VStr $"page1only") (fdec 15 (-2)) (VInt 3) (VInt 5) (fdec 5 (-1)) (VStr $"c (d)")) = true.
Proof. vm_compute. reflexivity. Qed.

Theorem C26_Rect : roundtrips Rect_to Rect_from Rect_ok Rect_norm Rect_eqb.
Proof. exact Rect_rt. Qed.
Print Assumptions C26_Rect.
Theorem C36_Rect : conforms Rect_to Rect_from Rect_ok Rect_norm Rect_tree.
Proof. exact Rect_fmt. Qed.
Print Assumptions C36_Rect.
Theorem C27_Rect : refuses Rect_from ["rect"%string].
Proof. exact Rect_ref. Qed.
Print Assumptions C27_Rect.
Theorem C28_Rect : ignores Rect_from 0 ["name"%string; "start"%string; "end"%string; "option"%string; "linewidth"%string; "repeat"%string; "incrx"%string; "incry"%string; "comment"%string].
Proof. exact Rect_ign. Qed.
Print Assumptions C28_Rect.
Theorem C30_Rect : last_wins Rect_from 0 ["name"%string; "start"%string; "end"%string; "option"%string; "linewidth"%string; "repeat"%string; "incrx"%string; "incry"%string; "comment"%string].
Proof. exact Rect_win. Qed.
Print Assumptions C30_Rect.
Example C26_Rect_ex : Rect_ok (mkRect (VStr $"a ""b""") ex_wpos (ex_wpos <| wp_corner := VNone |>) (VStr $"page1only") (fdec 15 (-2)) (VInt 3) (VInt 5) (fdec 5 (-1)) (VStr $"c (d)")) = true.
Proof. vm_compute. reflexivity. Qed.

Definition ex_bitmap : Bitmap :=
  mkBitmap (VStr $"a ""b""") ex_wpos (VStr $"notonpage1") (fdec 5 (-1)) (VInt 2) (VInt 5) (fdec 5 (-1)) (VStr $"c (d)") [VStr $"89 50 4E 47 "; VStr $"0D 0A "].
Theorem C26_Bitmap : roundtrips Bitmap_to Bitmap_from Bitmap_ok Bitmap_norm Bitmap_eqb.
Proof. exact Bitmap_rt. Qed.
Print Assumptions C26_Bitmap.
Theorem C36_Bitmap : conforms Bitmap_to Bitmap_from Bitmap_ok Bitmap_norm Bitmap_tree.
Proof. exact Bitmap_fmt. Qed.
Print Assumptions C36_Bitmap.
Theorem C27_Bitmap : refuses Bitmap_from ["bitmap"%string].
Proof. exact Bitmap_ref. Qed.
Print Assumptions C27_Bitmap.
Theorem C28_Bitmap : ignores Bitmap_from 0 ["name"%string; "pos"%string; "option"%string; "scale"%string; "repeat"%string; "incrx"%string; "incry"%string; "comment"%string; "pngdata"%string].
Proof. exact Bitmap_ign. Qed.
Print Assumptions C28_Bitmap.
Theorem C30_Bitmap : last_wins Bitmap_from 0 ["name"%string; "pos"%string; "option"%string; "scale"%string; "repeat"%string; "incrx"%string; "incry"%string; "comment"%string].
Proof. exact Bitmap_win. Qed.
Print Assumptions C30_Bitmap.
Example C26_Bitmap_ex : Bitmap_ok (ex_bitmap) = true.
Proof. vm_compute. reflexivity. Qed.

Definition ex_tbtext : TbText :=
  mkTbText (VStr $"Id: ""${#}"" (x)") (VStr $"n") ex_wpos (VStr $"page1only") (VInt 90) ex_wfont (Some ex_justify) (VInt 70) (fdec 35 (-1)) (VInt 2) (VInt 5) (fdec 5 (-1))
    (VInt 1) (VStr $"c (d)").
Theorem C26_TbText : roundtrips TbText_to TbText_from TbText_ok TbText_norm TbText_eqb.
Proof. exact TbText_rt. Qed.
Print Assumptions C26_TbText.
Theorem C36_TbText : conforms TbText_to TbText_from TbText_ok TbText_norm TbText_tree.
Proof. exact TbText_fmt. Qed.
Print Assumptions C36_TbText.
Theorem C27_TbText : refuses TbText_from ["tbtext"%string].
Proof. exact TbText_ref. Qed.
Print Assumptions C27_TbText.
Theorem C28_TbText : ignores TbText_from 1 ["name"%string; "pos"%string; "option"%string; "rotate"%string; "font"%string; "justify"%string; "maxlen"%string; "maxheight"%string; "repeat"%string; "incrx"%string; "incry"%string; "incrlabel"%string; "comment"%string].
Proof. exact TbText_ign. Qed.
Print Assumptions C28_TbText.
Theorem C30_TbText : last_wins TbText_from 1 ["name"%string; "pos"%string; "option"%string; "rotate"%string; "font"%string; "justify"%string; "maxlen"%string; "maxheight"%string; "repeat"%string; "incrx"%string; "incry"%string; "incrlabel"%string; "comment"%string].
Proof. exact TbText_win. Qed.
Print Assumptions C30_TbText.
Example C26_TbText_ex : TbText_ok (ex_tbtext) = true.
Proof. vm_compute. reflexivity. Qed.

Theorem C26_TextSize : roundtrips TextSize_to TextSize_from TextSize_ok TextSize_norm TextSize_eqb.
Proof. exact TextSize_rt. Qed.
Print Assumptions C26_TextSize.
Theorem C36_TextSize : conforms TextSize_to TextSize_from TextSize_ok TextSize_norm TextSize_tree.
Proof. exact TextSize_fmt. Qed.
Print Assumptions C36_TextSize.
Theorem C27_TextSize : refuses TextSize_from ["textsize"%string].
Proof. exact TextSize_ref. Qed.
Print Assumptions C27_TextSize.
Example C26_TextSize_ex : TextSize_ok (mkTextSize (fdec 15 (-1)) (VInt 2)) = true.
Proof. vm_compute. reflexivity. Qed.

Definition ex_wsetup : Setup := mkSetup (mkTextSize (fdec 15 (-1)) (VInt 2)) (fdec 15 (-2)) (VInt 1) (VInt 10) (fdec 105 (-1)) (VInt 11) (VInt 12).
Theorem C26_Setup : roundtrips Setup_to Setup_from Setup_ok Setup_norm Setup_eqb.
Proof. exact Setup_rt. Qed.
Print Assumptions C26_Setup.
Theorem C36_Setup : conforms Setup_to Setup_from Setup_ok Setup_norm Setup_tree.
Proof. exact Setup_fmt. Qed.
Print Assumptions C36_Setup.
Theorem C27_Setup : refuses Setup_from ["setup"%string].
Proof. exact Setup_ref. Qed.
Print Assumptions C27_Setup.
Theorem C28_Setup : ignores Setup_from 0 ["textsize"%string; "linewidth"%string; "textlinewidth"%string; "left_margin"%string; "right_margin"%string; "top_margin"%string; "bottom_margin"%string].
Proof. exact Setup_ign. Qed.
Print Assumptions C28_Setup.
Theorem C30_Setup : last_wins Setup_from 0 ["textsize"%string; "linewidth"%string; "textlinewidth"%string; "left_margin"%string; "right_margin"%string; "top_margin"%string; "bottom_margin"%string].
Proof. exact Setup_win. Qed.
Print Assumptions C30_Setup.
Example C26_Setup_ex : Setup_ok (ex_wsetup) = true.
Proof. vm_compute. reflexivity. Qed.

Definition ex_worksheet : WorkSheet :=
  mkWorkSheet (VInt 20220228) (VStr $"pl_editor") ex_wsetup [WkItem_TbText ex_tbtext; WkItem_Line Line_default; WkItem_Rect Rect_default; WkItem_Bitmap ex_bitmap; WkItem_TbText TbText_default] VNone.
Theorem C26_WorkSheet : roundtrips WorkSheet_to WorkSheet_from WorkSheet_ok WorkSheet_norm WorkSheet_eqb.
Proof. exact WorkSheet_rt. Qed.
Print Assumptions C26_WorkSheet.
Theorem C36_WorkSheet : conforms WorkSheet_to WorkSheet_from WorkSheet_ok WorkSheet_norm WorkSheet_tree.
Proof. exact WorkSheet_fmt. Qed.
Print Assumptions C36_WorkSheet.
Theorem C27_WorkSheet : refuses WorkSheet_from ["kicad_wks"%string].
Proof. exact WorkSheet_ref. Qed.
Print Assumptions C27_WorkSheet.
Theorem C28_WorkSheet : ignores WorkSheet_from 0 ["version"%string; "generator"%string; "setup"%string; "rect"%string; "line"%string; "polygon"%string; "tbtext"%string; "bitmap"%string].
Proof. exact WorkSheet_ign. Qed.
Print Assumptions C28_WorkSheet.
Theorem C30_WorkSheet : last_wins WorkSheet_from 0 ["version"%string; "generator"%string; "setup"%string].
Proof. exact WorkSheet_win. Qed.
Print Assumptions C30_WorkSheet.
Example C26_WorkSheet_ex : WorkSheet_ok (ex_worksheet) = true.
Proof. vm_compute. reflexivity. Qed.

(** the position of an item: the token is not looked at, an optional corner follows the coordinates *)
Theorem C26_WksPosition : forall key p, WksPosition_ok p = true -> WksPosition_from (wpos_tree key p) = Ok p.
Proof. exact wpos_rd. Qed.
Print Assumptions C26_WksPosition.
Example C26_WksPosition_ex : WksPosition_ok ex_wpos = true. Proof. vm_compute. reflexivity. Qed.
Theorem C27_WksPosition : forall exp o, WksPosition_from exp = Ok o -> exists h x y rest, exp = VList (h :: x :: y :: rest).
Proof. exact WksPosition_shape. Qed.
Print Assumptions C27_WksPosition.

(** ** What is lost or refused *)
(** A justification without attributes is not written, so it is absent afterwards. *)
Theorem C26_TbText_justify_refuted : forall o indent newline, TbText_ok (o <| tt_justify := None |>) = true -> tt_justify o = Some Justify_default ->
  write_read TbText_to TbText_from o indent newline = Ok (TbText_norm (o <| tt_justify := None |>)).
Proof. exact TbText_justify. Qed.
Print Assumptions C26_TbText_justify_refuted.
Example C26_TbText_justify_ex : TbText_ok (ex_tbtext <| tt_justify := Some Justify_default |> <| tt_justify := None |>) = true.
Proof. vm_compute. reflexivity. Qed.
(** A work sheet with a polygon can be neither read nor written. *)
Theorem C26_polygon_refuted : (forall before args after, exists e, WorkSheet_from (node "kicad_wks" (before ++ node "polygon" args :: after)) = Err e)
  /\ (forall o p indent newline, In (WkItem_Polygon p) (wk_drawingObjects o) -> exists e, WorkSheet_to o indent newline = Err e).
Proof. split; [exact WorkSheet_polygon|intros o p i n; exact (WorkSheet_polygon_to o p i n)]. Qed.
Print Assumptions C26_polygon_refuted.
(** The data of a bitmap is not escaped. *)
Theorem C26_Bitmap_data_refuted : exists o, write_read Bitmap_to Bitmap_from (Bitmap_default <| wb_pngdata := [VStr $"a"") (data ""b"] |>) 0 true = Ok o
  /\ wb_pngdata o = [VStr $"a"; VStr $"b"].
Proof. eexists. split; [vm_compute; reflexivity|reflexivity]. Qed.
Print Assumptions C26_Bitmap_data_refuted.
(** A version given as a text of digits comes back as a number. *)
Theorem C26_version_text : forall o indent newline, wk_version o = VStr $"20211014" -> WorkSheet_ok (o <| wk_version := VInt 20211014 |>) = true ->
  write_read WorkSheet_to WorkSheet_from o indent newline = Ok (WorkSheet_norm (o <| wk_version := VInt 20211014 |>)).
Proof. exact WorkSheet_version_rt. Qed.
Print Assumptions C26_version_text.
Example C26_version_text_ex : WorkSheet_ok (ex_worksheet <| wk_version := VInt 20211014 |>) = true.
Proof. vm_compute. reflexivity. Qed.

(** ** C34: a new work sheet *)
Theorem C34_WorkSheet : wk_version WorkSheet_create_new = VStr $"20211014" /\ wk_generator WorkSheet_create_new = VStr $"kiutils"
  /\ wk_drawingObjects WorkSheet_create_new = []
  /\ forall indent newline, exists o', write_read WorkSheet_to WorkSheet_from WorkSheet_create_new indent newline = Ok o'
    /\ WorkSheet_eqb (WorkSheet_create_new <| wk_version := VInt 20211014 |>) o' = true.
Proof. repeat (split; [reflexivity|]). exact WorkSheet_new_rt. Qed.
Print Assumptions C34_WorkSheet.
