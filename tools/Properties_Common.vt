(** Property theorems C09: the elementary items of items/common.py. *)
From Verif Require Import PyBase PyNum PyStr Sexpr S_Leaf S_Tree M_Common S_Common L_Common.

(** ** C09: round trips.  See [roundtrips] in S_Tree.v and the [_ok] predicates in S_Common.v. *)
@prop C09 Coordinate mkCoordinate (fdec 25 (-1)) (VInt (-3)) (fdec 1 0)
Definition ex_color : ColorRGBA := mkColorRGBA (VInt 255) (VInt 0) (VInt 128) (fdec 5 (-1)) VNone.
@prop C09 ColorRGBA ex_color
Definition ex_stroke : Stroke := mkStroke (fdec 254 (-3)) (VStr $"dash_dot") (Some ex_color).
@prop C09 Stroke ex_stroke
Definition ex_font : Font := mkFont (VStr $"A ""b"" \c") (fdec 127 (-2)) (VInt 2) (fdec 3 (-1)) true true (fdec 11 (-1)) (Some ex_color).
@prop C09 Font ex_font
Theorem C09_Justify : roundtrips Justify_to Justify_from Justify_ok1 Justify_norm Justify_eqb.
Proof. exact Justify_rt1. Qed.
Print Assumptions C09_Justify.
Definition ex_justify : Justify := mkJustify (VStr $"right") (VStr $"top") true.
Example C09_Justify_ex : Justify_ok1 ex_justify = true. Proof. vm_compute. reflexivity. Qed.
Definition ex_effects : Effects := mkEffects ex_font ex_justify true (VStr $"https://x.y/(z)").
@prop C09 Effects ex_effects
@prop C09 Net mkNet (VInt 17) (VStr $"Net-(U1-Pad3)")
@prop C09 Group mkGroup (VStr $"g ""1""") true (VStr $"6fe2b9d8-0001") [VStr $"0012"; VStr $"abc-1"]
@prop C09 PageSettings mkPageSettings (VStr $"User") (fdec 2101 (-1)) (VInt 300) true
Example C09_PageSettings_ex2 : PageSettings_ok (mkPageSettings (VStr $"A3") VNone VNone true) = true.
Proof. vm_compute. reflexivity. Qed.
@prop C09 TitleBlock mkTitleBlock (VStr $"T") VNone (VStr $"1.0") (VStr []) \
  [(VInt 1, VStr $"one"); (VInt 4, VStr $"four (4)")]
Definition ex_property : Property :=
  mkProperty (VStr $"Sheet name") (VStr $"a\b""") (VInt 3) (mkPosition (VInt 1) (fdec 25 (-1)) (VInt 90) false) (Some ex_effects) true.
@prop C09 Property ex_property
Definition ex_xy (x y : val) : Position := mkPosition x y VNone false.
Definition ex_poly : RenderCachePolygon := mkRenderCachePolygon [ex_xy (VInt 1) (VInt 2); ex_xy (fdec 15 (-1)) (VInt 2); ex_xy (VInt 0) (VInt (-7)); ex_xy (VInt 0) (VInt 0); ex_xy (VInt 9) (VInt 9)].
@prop C09 RenderCachePolygon ex_poly
@prop C09 RenderCache mkRenderCache (VStr $"some text") (VStr $"0") [ex_poly; mkRenderCachePolygon []]
@prop C09 Fill mkFill (VStr $"background") (Some ex_color)
@prop C09 Image mkImage (ex_xy (fdec 1234 (-2)) (VInt 5)) (fdec 5 (-1)) [VStr $"iVBORw0KGgo="; VStr $"12"] (VStr $"a-b-c") (VStr $"F.SilkS")

(** ** C09: what is lost or corrupted, outside the printable objects *)
(** A group called "locked" comes back locked. *)
Theorem C09_group_named_locked_refuted : exists o o',
  gr_locked o = false /\ txtb (gr_name o) = true /\
  write_read Group_to Group_from o 0 true = Ok o' /\ gr_locked o' = true.
Proof.
  exists (mkGroup (VStr $"locked") false (VStr $"id") []), (mkGroup (VStr $"locked") true (VStr $"id") []).
  repeat split; vm_compute; reflexivity.
Qed.
Print Assumptions C09_group_named_locked_refuted.
(** The width and height of a page that is not of type User are dropped without notice. *)
Theorem C09_page_size_lost_refuted : exists o o',
  numb (pg_width o) = true /\ write_read PageSettings_to PageSettings_from o 0 true = Ok o' /\ pg_width o' = VNone.
Proof.
  exists (mkPageSettings (VStr $"A4") (VInt 210) (VInt 297) false), (mkPageSettings (VStr $"A4") VNone VNone false).
  repeat split; vm_compute; reflexivity.
Qed.
Print Assumptions C09_page_size_lost_refuted.
(** The default RenderCache (id 0) comes back with the id as a text; with an empty text it cannot be read at all. *)
Theorem C09_render_cache_id_refuted : exists o o',
  rc_id o = VInt 0 /\ write_read RenderCache_to RenderCache_from o 0 true = Ok o' /\ rc_id o' = VStr $"0".
Proof.
  exists (mkRenderCache (VStr $"t") (VInt 0) []), (mkRenderCache (VStr $"t") (VStr $"0") []).
  repeat split; vm_compute; reflexivity.
Qed.
Theorem C09_render_cache_empty_text_refuted :
  write_read RenderCache_to RenderCache_from RenderCache_default 0 true = Err EIndex.
Proof. vm_compute. reflexivity. Qed.
Print Assumptions C09_render_cache_id_refuted.
Print Assumptions C09_render_cache_empty_text_refuted.
(** A default Justify writes nothing but white space. *)
Example C09_default_justify_writes_nothing : forall i n, Justify_to Justify_default i n = Ok (spaces i ++ eol n).
Proof. reflexivity. Qed.
(** The precision of a colour is applied when writing and is not in the file. *)
Theorem C09_color_precision_refuted : exists o o',
  write_read ColorRGBA_to ColorRGBA_from o 0 false = Ok o' /\ ca_precision o = VInt 1 /\ ca_precision o' = VNone
  /\ py_eqb (ca_A o) (ca_A o') = false.
Proof.
  exists (mkColorRGBA (VInt 0) (VInt 0) (VInt 0) (fdec 55 (-2)) (VInt 1)).
  eexists. split; [vm_compute; reflexivity|]. repeat split; vm_compute; reflexivity.
Qed.
Print Assumptions C09_color_precision_refuted.
