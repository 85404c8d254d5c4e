(** Property theorems C26: work sheets (wks.py); C34 for a new work sheet. *)
From Verif Require Import PyBase PyNum PyStr Sexpr S_Leaf S_Tree S_Fix M_Common S_Common M_Wks S_Wks
  L_Lex L_Num L_Seq L_Tac L_Fp L_Footprint L_Wks Properties_Common.

Definition ex_wpos : WksPosition := mkWksPosition (fdec 25 (-1)) (VInt 7) (VStr $"ltcorner").
Definition ex_wsize : WksFontSize := mkWksFontSize (fdec 13 (-1)) (VInt 2).
Definition ex_wfont : WksFont := mkWksFont (fdec 15 (-2)) (Some ex_wsize) true true.
@prop C26 WksFontSize ex_wsize
(** A font without any attribute is not written at all. *)
Theorem C26_WksFont : roundtrips WksFont_to WksFont_from WksFont_ok1 WksFont_norm WksFont_eqb.
Proof. exact WksFont_rt1. Qed.
Print Assumptions C26_WksFont.
Example C26_WksFont_ex : WksFont_ok1 ex_wfont = true. Proof. vm_compute. reflexivity. Qed.
Theorem C36_WksFont : conforms WksFont_to WksFont_from WksFont_ok1 WksFont_norm WksFont_tree.
Proof. exact WksFont_fmt1. Qed.
Print Assumptions C36_WksFont.
Theorem C27_WksFont : refuses WksFont_from ["font"%string].
Proof. exact WksFont_ref. Qed.
Print Assumptions C27_WksFont.
Theorem C28_WksFont : ignores WksFont_from 0 ["linewidth"%string; "size"%string].
Proof. exact WksFont_ign. Qed.
Print Assumptions C28_WksFont.
Theorem C30_WksFont : last_wins WksFont_from 0 ["linewidth"%string; "size"%string].
Proof. exact WksFont_win. Qed.
Print Assumptions C30_WksFont.
@prop C26 Line mkLine (VStr $"a ""b""") ex_wpos (ex_wpos <| wp_corner := VNone |>) (VStr $"page1only") (fdec 15 (-2)) (VInt 3) (VInt 5) (fdec 5 (-1)) (VStr $"c (d)")
@prop C26 Rect mkRect (VStr $"a ""b""") ex_wpos (ex_wpos <| wp_corner := VNone |>) (VStr $"page1only") (fdec 15 (-2)) (VInt 3) (VInt 5) (fdec 5 (-1)) (VStr $"c (d)")
Definition ex_bitmap : Bitmap :=
  mkBitmap (VStr $"a ""b""") ex_wpos (VStr $"notonpage1") (fdec 5 (-1)) (VInt 2) (VInt 5) (fdec 5 (-1)) (VStr $"c (d)") [VStr $"89 50 4E 47 "; VStr $"0D 0A "].
@prop C26 Bitmap ex_bitmap
Definition ex_tbtext : TbText :=
  mkTbText (VStr $"Id: ""${#}"" (x)") (VStr $"n") ex_wpos (VStr $"page1only") (VInt 90) ex_wfont (Some ex_justify) (VInt 70) (fdec 35 (-1)) (VInt 2) (VInt 5) (fdec 5 (-1))
    (VInt 1) (VStr $"c (d)").
@prop C26 TbText ex_tbtext
@prop C26 TextSize mkTextSize (fdec 15 (-1)) (VInt 2)
Definition ex_wsetup : Setup := mkSetup (mkTextSize (fdec 15 (-1)) (VInt 2)) (fdec 15 (-2)) (VInt 1) (VInt 10) (fdec 105 (-1)) (VInt 11) (VInt 12).
@prop C26 Setup ex_wsetup
Definition ex_worksheet : WorkSheet :=
  mkWorkSheet (VInt 20220228) (VStr $"pl_editor") ex_wsetup [WkItem_TbText ex_tbtext; WkItem_Line Line_default; WkItem_Rect Rect_default; WkItem_Bitmap ex_bitmap; WkItem_TbText TbText_default] VNone.
@prop C26 WorkSheet ex_worksheet
(** the position of an item: the token is not looked at, an optional corner follows the coordinates *)
Theorem C26_WksPosition : forall key p, WksPosition_ok p = true -> WksPosition_from (wpos_tree key p) = Ok p.
Proof. exact wpos_rd. Qed.
Print Assumptions C26_WksPosition.
Example C26_WksPosition_ex : WksPosition_ok ex_wpos = true. Proof. vm_compute. reflexivity. Qed.
Theorem C27_WksPosition : forall exp o, WksPosition_from exp = Ok o -> exists h x y rest, exp = VList (h :: x :: y :: rest).
Proof. exact WksPosition_shape. Qed.
Print Assumptions C27_WksPosition.

(** ** What is lost or refused *)
(** A justification without attributes is not written, so it is absent afterwards. *)
Theorem C26_TbText_justify_refuted : forall o indent newline, TbText_ok (o <| tt_justify := None |>) = true -> tt_justify o = Some Justify_default ->
  write_read TbText_to TbText_from o indent newline = Ok (TbText_norm (o <| tt_justify := None |>)).
Proof. exact TbText_justify. Qed.
Print Assumptions C26_TbText_justify_refuted.
Example C26_TbText_justify_ex : TbText_ok (ex_tbtext <| tt_justify := Some Justify_default |> <| tt_justify := None |>) = true.
Proof. vm_compute. reflexivity. Qed.
(** A work sheet with a polygon can be neither read nor written. *)
Theorem C26_polygon_refuted : (forall before args after, exists e, WorkSheet_from (node "kicad_wks" (before ++ node "polygon" args :: after)) = Err e)
  /\ (forall o p indent newline, In (WkItem_Polygon p) (wk_drawingObjects o) -> exists e, WorkSheet_to o indent newline = Err e).
Proof. split; [exact WorkSheet_polygon|intros o p i n; exact (WorkSheet_polygon_to o p i n)]. Qed.
Print Assumptions C26_polygon_refuted.
(** The data of a bitmap is not escaped. *)
Theorem C26_Bitmap_data_refuted : exists o, write_read Bitmap_to Bitmap_from (Bitmap_default <| wb_pngdata := [VStr $"a"") (data ""b"] |>) 0 true = Ok o
  /\ wb_pngdata o = [VStr $"a"; VStr $"b"].
Proof. eexists. split; [vm_compute; reflexivity|reflexivity]. Qed.
Print Assumptions C26_Bitmap_data_refuted.
(** A version given as a text of digits comes back as a number. *)
Theorem C26_version_text : forall o indent newline, wk_version o = VStr $"20211014" -> WorkSheet_ok (o <| wk_version := VInt 20211014 |>) = true ->
  write_read WorkSheet_to WorkSheet_from o indent newline = Ok (WorkSheet_norm (o <| wk_version := VInt 20211014 |>)).
Proof. exact WorkSheet_version_rt. Qed.
Print Assumptions C26_version_text.
Example C26_version_text_ex : WorkSheet_ok (ex_worksheet <| wk_version := VInt 20211014 |>) = true.
Proof. vm_compute. reflexivity. Qed.

(** ** C34: a new work sheet *)
Theorem C34_WorkSheet : wk_version WorkSheet_create_new = VStr $"20211014" /\ wk_generator WorkSheet_create_new = VStr $"kiutils"
  /\ wk_drawingObjects WorkSheet_create_new = []
  /\ forall indent newline, exists o', write_read WorkSheet_to WorkSheet_from WorkSheet_create_new indent newline = Ok o'
    /\ WorkSheet_eqb (WorkSheet_create_new <| wk_version := VInt 20211014 |>) o' = true.
Proof. repeat (split; [reflexivity|]). exact WorkSheet_new_rt. Qed.
Print Assumptions C34_WorkSheet.
