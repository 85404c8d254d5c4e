(** Property theorems C09: the elementary items of items/common.py. *)
From Verif Require Import PyBase PyNum PyStr Sexpr S_Leaf S_Tree M_Common S_Common L_Common.

(** ** C09: round trips.  See [roundtrips] in S_Tree.v and the [_ok] predicates in S_Common.v. *)
Theorem C09_Coordinate : roundtrips Coordinate_to Coordinate_from Coordinate_ok Coordinate_norm Coordinate_eqb.
Proof. exact Coordinate_rt. Qed.
Print Assumptions C09_Coordinate.
Theorem C36_Coordinate : conforms Coordinate_to Coordinate_from Coordinate_ok Coordinate_norm Coordinate_tree.
Proof. exact Coordinate_fmt. Qed.
Print Assumptions C36_Coordinate.
Theorem C27_Coordinate : refuses Coordinate_from ["xyz"%string].
Proof. exact Coordinate_ref. Qed.
Print Assumptions C27_Coordinate.
Example C09_Coordinate_ex : Coordinate_ok (mkCoordinate (fdec 25 (-1)) (VInt (-3)) (fdec 1 0)) = true.
Proof. vm_compute. reflexivity. Qed.

Definition ex_color : ColorRGBA := mkColorRGBA (VInt 255) (VInt 0) (VInt 128) (fdec 5 (-1)) VNone.
Theorem C09_ColorRGBA : roundtrips ColorRGBA_to ColorRGBA_from ColorRGBA_ok ColorRGBA_norm ColorRGBA_eqb.
Proof. exact ColorRGBA_rt. Qed.
Print Assumptions C09_ColorRGBA.
Theorem C36_ColorRGBA : conforms ColorRGBA_to ColorRGBA_from ColorRGBA_ok ColorRGBA_norm ColorRGBA_tree.
Proof. exact ColorRGBA_fmt. Qed.
Print Assumptions C36_ColorRGBA.
Theorem C27_ColorRGBA : refuses ColorRGBA_from ["color"%string].
Proof. exact ColorRGBA_ref. Qed.
Print Assumptions C27_ColorRGBA.
Example C09_ColorRGBA_ex : ColorRGBA_ok (ex_color) = true.
Proof. vm_compute. reflexivity. Qed.

Definition ex_stroke : Stroke := mkStroke (fdec 254 (-3)) (VStr $"dash_dot") (Some ex_color).
Theorem C09_Stroke : roundtrips Stroke_to Stroke_from Stroke_ok Stroke_norm Stroke_eqb.
Proof. exact Stroke_rt. Qed.
Print Assumptions C09_Stroke.
Theorem C36_Stroke : conforms Stroke_to Stroke_from Stroke_ok Stroke_norm Stroke_tree.
Proof. exact Stroke_fmt. Qed.
Print Assumptions C36_Stroke.
Theorem C27_Stroke : refuses Stroke_from ["stroke"%string].
Proof. exact Stroke_ref. Qed.
Print Assumptions C27_Stroke.
Theorem C28_Stroke : ignores Stroke_from 1 ["width"%string; "type"%string; "color"%string].
Proof. exact Stroke_ign. Qed.
Print Assumptions C28_Stroke.
Theorem C30_Stroke : last_wins Stroke_from 1 ["width"%string; "type"%string; "color"%string].
Proof. exact Stroke_win. Qed.
Print Assumptions C30_Stroke.
Example C09_Stroke_ex : Stroke_ok (ex_stroke) = true.
Proof. vm_compute. reflexivity. Qed.

Definition ex_font : Font := mkFont (VStr $"A ""b"" \c") (fdec 127 (-2)) (VInt 2) (fdec 3 (-1)) true true (fdec 11 (-1)) (Some ex_color).
Theorem C09_Font : roundtrips Font_to Font_from Font_ok Font_norm Font_eqb.
Proof. exact Font_rt. Qed.
Print Assumptions C09_Font.
Theorem C36_Font : conforms Font_to Font_from Font_ok Font_norm Font_tree.
Proof. exact Font_fmt. Qed.
Print Assumptions C36_Font.
Theorem C27_Font : refuses Font_from ["font"%string].
Proof. exact Font_ref. Qed.
Print Assumptions C27_Font.
Theorem C28_Font : ignores Font_from 0 ["face"%string; "size"%string; "thickness"%string; "line_spacing"%string; "color"%string].
Proof. exact Font_ign. Qed.
Print Assumptions C28_Font.
Theorem C30_Font : last_wins Font_from 0 ["face"%string; "thickness"%string; "line_spacing"%string; "color"%string].
Proof. exact Font_win. Qed.
Print Assumptions C30_Font.
Example C09_Font_ex : Font_ok (ex_font) = true.
Proof. vm_compute. reflexivity. Qed.

Theorem C09_Justify : roundtrips Justify_to Justify_from Justify_ok1 Justify_norm Justify_eqb.
Proof. exact Justify_rt1. Qed.
Print Assumptions C09_Justify.
Definition ex_justify : Justify := mkJustify (VStr $"right") (VStr $"top") true.
Example C09_Justify_ex : Justify_ok1 ex_justify = true. Proof. vm_compute. reflexivity. Qed.
Definition ex_effects : Effects := mkEffects ex_font ex_justify true (VStr $"https://x.y/(z)").
Theorem C09_Effects : roundtrips Effects_to Effects_from Effects_ok Effects_norm Effects_eqb.
Proof. exact Effects_rt. Qed.
Print Assumptions C09_Effects.
Theorem C36_Effects : conforms Effects_to Effects_from Effects_ok Effects_norm Effects_tree.
Proof. exact Effects_fmt. Qed.
Print Assumptions C36_Effects.
Theorem C27_Effects : refuses Effects_from ["effects"%string].
Proof. exact Effects_ref. Qed.
Print Assumptions C27_Effects.
Theorem C28_Effects : ignores Effects_from 0 ["font"%string; "justify"%string; "href"%string].
Proof. exact Effects_ign. Qed.
Print Assumptions C28_Effects.
Theorem C30_Effects : last_wins Effects_from 0 ["font"%string; "justify"%string; "href"%string].
Proof. exact Effects_win. Qed.
Print Assumptions C30_Effects.
Example C09_Effects_ex : Effects_ok (ex_effects) = true.
Proof. vm_compute. reflexivity. Qed.

Theorem C09_Net : roundtrips Net_to Net_from Net_ok Net_norm Net_eqb.
Proof. exact Net_rt. Qed.
Print Assumptions C09_Net.
Theorem C36_Net : conforms Net_to Net_from Net_ok Net_norm Net_tree.
Proof. exact Net_fmt. Qed.
Print Assumptions C36_Net.
Theorem C27_Net : refuses Net_from ["net"%string].
Proof. exact Net_ref. Qed.
Print Assumptions C27_Net.
Example C09_Net_ex : Net_ok (mkNet (VInt 17) (VStr $"Net-(U1-Pad3)")) = true.
Proof. vm_compute. reflexivity. Qed.

Theorem C09_Group : roundtrips Group_to Group_from Group_ok Group_norm Group_eqb.
Proof. exact Group_rt. Qed.
Print Assumptions C09_Group.
Theorem C36_Group : conforms Group_to Group_from Group_ok Group_norm Group_tree.
Proof. exact Group_fmt. Qed.
Print Assumptions C36_Group.
Theorem C27_Group : refuses Group_from ["group"%string].
Proof. exact Group_ref. Qed.
Print Assumptions C27_Group.
Theorem C28_Group : ignores Group_from 1 ["id"%string; "members"%string].
Proof. exact Group_ign. Qed.
Print Assumptions C28_Group.
Theorem C30_Group : last_wins Group_from 1 ["id"%string].
Proof. exact Group_win. Qed.
Print Assumptions C30_Group.
Example C09_Group_ex : Group_ok (mkGroup (VStr $"g ""1""") true (VStr $"6fe2b9d8-0001") [VStr $"0012"; VStr $"abc-1"]) = true.
Proof. vm_compute. reflexivity. Qed.

Theorem C09_PageSettings : roundtrips PageSettings_to PageSettings_from PageSettings_ok PageSettings_norm PageSettings_eqb.
Proof. exact PageSettings_rt. Qed.
Print Assumptions C09_PageSettings.
Theorem C36_PageSettings : conforms PageSettings_to PageSettings_from PageSettings_ok PageSettings_norm PageSettings_tree.
Proof. exact PageSettings_fmt. Qed.
Print Assumptions C36_PageSettings.
Theorem C27_PageSettings : refuses PageSettings_from ["paper"%string].
Proof. exact PageSettings_ref. Qed.
Print Assumptions C27_PageSettings.
Example C09_PageSettings_ex : PageSettings_ok (mkPageSettings (VStr $"User") (fdec 2101 (-1)) (VInt 300) true) = true.
Proof. vm_compute. reflexivity. Qed.

Example C09_PageSettings_ex2 : PageSettings_ok (mkPageSettings (VStr $"A3") VNone VNone true) = true.
Proof. vm_compute. reflexivity. Qed.
Theorem C09_TitleBlock : roundtrips TitleBlock_to TitleBlock_from TitleBlock_ok TitleBlock_norm TitleBlock_eqb.
Proof. exact TitleBlock_rt. Qed.
Print Assumptions C09_TitleBlock.
Theorem C36_TitleBlock : conforms TitleBlock_to TitleBlock_from TitleBlock_ok TitleBlock_norm TitleBlock_tree.
Proof. exact TitleBlock_fmt. Qed.
Print Assumptions C36_TitleBlock.
Theorem C27_TitleBlock : refuses TitleBlock_from ["title_block"%string].
Proof. exact TitleBlock_ref. Qed.
Print Assumptions C27_TitleBlock.
Theorem C28_TitleBlock : ignores TitleBlock_from 0 ["title"%string; "date"%string; "rev"%string; "company"%string; "comment"%string].
Proof. exact TitleBlock_ign. Qed.
Print Assumptions C28_TitleBlock.
Theorem C30_TitleBlock : last_wins TitleBlock_from 0 ["title"%string; "date"%string; "rev"%string; "company"%string].
Proof. exact TitleBlock_win. Qed.
Print Assumptions C30_TitleBlock.
Example C09_TitleBlock_ex : TitleBlock_ok (mkTitleBlock (VStr $"T") VNone (VStr $"1.0") (VStr []) [(VInt 1, VStr $"one"); (VInt 4, VStr $"four (4)")]) = true.
Proof. vm_compute. reflexivity. Qed.

Definition ex_property : Property :=
  mkProperty (VStr $"Sheet name") (VStr $"a\b""") (VInt 3) (mkPosition (VInt 1) (fdec 25 (-1)) (VInt 90) false) (Some ex_effects) true.
Theorem C09_Property : roundtrips Property_to Property_from Property_ok Property_norm Property_eqb.
Proof. exact Property_rt. Qed.
Print Assumptions C09_Property.
Theorem C36_Property : conforms Property_to Property_from Property_ok Property_norm Property_tree.
Proof. exact Property_fmt. Qed.
Print Assumptions C36_Property.
Theorem C27_Property : refuses Property_from ["property"%string].
Proof. exact Property_ref. Qed.
Print Assumptions C27_Property.
Theorem C28_Property : ignores Property_from 2 ["id"%string; "at"%string; "effects"%string; "show_name"%string].
Proof. exact Property_ign. Qed.
Print Assumptions C28_Property.
Theorem C30_Property : last_wins Property_from 2 ["id"%string; "at"%string; "effects"%string; "show_name"%string].
Proof. exact Property_win. Qed.
Print Assumptions C30_Property.
Example C09_Property_ex : Property_ok (ex_property) = true.
Proof. vm_compute. reflexivity. Qed.

Definition ex_xy (x y : val) : Position := mkPosition x y VNone false.
Definition ex_poly : RenderCachePolygon := mkRenderCachePolygon [ex_xy (VInt 1) (VInt 2); ex_xy (fdec 15 (-1)) (VInt 2); ex_xy (VInt 0) (VInt (-7)); ex_xy (VInt 0) (VInt 0); ex_xy (VInt 9) (VInt 9)].
Theorem C09_RenderCachePolygon : roundtrips RenderCachePolygon_to RenderCachePolygon_from RenderCachePolygon_ok RenderCachePolygon_norm RenderCachePolygon_eqb.
Proof. exact RenderCachePolygon_rt. Qed.
Print Assumptions C09_RenderCachePolygon.
Theorem C36_RenderCachePolygon : conforms RenderCachePolygon_to RenderCachePolygon_from RenderCachePolygon_ok RenderCachePolygon_norm RenderCachePolygon_tree.
Proof. exact RenderCachePolygon_fmt. Qed.
Print Assumptions C36_RenderCachePolygon.
Theorem C27_RenderCachePolygon : refuses RenderCachePolygon_from ["polygon"%string].
Proof. exact RenderCachePolygon_ref. Qed.
Print Assumptions C27_RenderCachePolygon.
Theorem C28_RenderCachePolygon : ignores RenderCachePolygon_from 0 ["pts"%string].
Proof. exact RenderCachePolygon_ign. Qed.
Print Assumptions C28_RenderCachePolygon.
Example C09_RenderCachePolygon_ex : RenderCachePolygon_ok (ex_poly) = true.
Proof. vm_compute. reflexivity. Qed.

Theorem C09_RenderCache : roundtrips RenderCache_to RenderCache_from RenderCache_ok RenderCache_norm RenderCache_eqb.
Proof. exact RenderCache_rt. Qed.
Print Assumptions C09_RenderCache.
Theorem C36_RenderCache : conforms RenderCache_to RenderCache_from RenderCache_ok RenderCache_norm RenderCache_tree.
Proof. exact RenderCache_fmt. Qed.
Print Assumptions C36_RenderCache.
Theorem C27_RenderCache : refuses RenderCache_from ["render_cache"%string].
Proof. exact RenderCache_ref. Qed.
Print Assumptions C27_RenderCache.
Theorem C28_RenderCache : ignores RenderCache_from 2 ["polygon"%string].
Proof. exact RenderCache_ign. Qed.
Print Assumptions C28_RenderCache.
Example C09_RenderCache_ex : RenderCache_ok (mkRenderCache (VStr $"some text") (VStr $"0") [ex_poly; mkRenderCachePolygon []]) = true.
Proof. vm_compute. reflexivity. Qed.

Theorem C09_Fill : roundtrips Fill_to Fill_from Fill_ok Fill_norm Fill_eqb.
Proof. exact Fill_rt. Qed.
Print Assumptions C09_Fill.
Theorem C36_Fill : conforms Fill_to Fill_from Fill_ok Fill_norm Fill_tree.
Proof. exact Fill_fmt. Qed.
Print Assumptions C36_Fill.
Theorem C27_Fill : refuses Fill_from ["fill"%string].
Proof. exact Fill_ref. Qed.
Print Assumptions C27_Fill.
Theorem C28_Fill : ignores Fill_from 0 ["type"%string; "color"%string].
Proof. exact Fill_ign. Qed.
Print Assumptions C28_Fill.
Theorem C30_Fill : last_wins Fill_from 0 ["type"%string; "color"%string].
Proof. exact Fill_win. Qed.
Print Assumptions C30_Fill.
Example C09_Fill_ex : Fill_ok (mkFill (VStr $"background") (Some ex_color)) = true.
Proof. vm_compute. reflexivity. Qed.

Theorem C09_Image : roundtrips Image_to Image_from Image_ok Image_norm Image_eqb.
Proof. exact Image_rt. Qed.
Print Assumptions C09_Image.
Theorem C36_Image : conforms Image_to Image_from Image_ok Image_norm Image_tree.
Proof. exact Image_fmt. Qed.
Print Assumptions C36_Image.
Theorem C27_Image : refuses Image_from ["image"%string].
Proof. exact Image_ref. Qed.
Print Assumptions C27_Image.
Theorem C28_Image : ignores Image_from 0 ["at"%string; "scale"%string; "uuid"%string; "layer"%string; "data"%string].
Proof. exact Image_ign. Qed.
Print Assumptions C28_Image.
Theorem C30_Image : last_wins Image_from 0 ["at"%string; "scale"%string; "uuid"%string; "layer"%string].
Proof. exact Image_win. Qed.
Print Assumptions C30_Image.
Example C09_Image_ex : Image_ok (mkImage (ex_xy (fdec 1234 (-2)) (VInt 5)) (fdec 5 (-1)) [VStr $"iVBORw0KGgo="; VStr $"12"] (VStr $"a-b-c") (VStr $"F.SilkS")) = true.
Proof. vm_compute. reflexivity. Qed.


(** ** C09: what is lost or corrupted, outside the printable objects *)
(** A group called "locked" comes back locked. *)
Theorem C09_group_named_locked_refuted : exists o o',
  gr_locked o = false /\ txtb (gr_name o) = true /\
  write_read Group_to Group_from o 0 true = Ok o' /\ gr_locked o' = true.
Proof.
  exists (mkGroup (VStr $"locked") false (VStr $"id") []), (mkGroup (VStr $"locked") true (VStr $"id") []).
  repeat split; vm_compute; reflexivity.
Qed.
Print Assumptions C09_group_named_locked_refuted.
(** The width and height of a page that is not of type User are dropped without notice. *)
Theorem C09_page_size_lost_refuted : exists o o',
  numb (pg_width o) = true /\ write_read PageSettings_to PageSettings_from o 0 true = Ok o' /\ pg_width o' = VNone.
Proof.
  exists (mkPageSettings (VStr $"A4") (VInt 210) (VInt 297) false), (mkPageSettings (VStr $"A4") VNone VNone false).
  repeat split; vm_compute; reflexivity.
Qed.
Print Assumptions C09_page_size_lost_refuted.
(** The default RenderCache (id 0) comes back with the id as a text; with an empty text it cannot be read at all. *)
Theorem C09_render_cache_id_refuted : exists o o',
  rc_id o = VInt 0 /\ write_read RenderCache_to RenderCache_from o 0 true = Ok o' /\ rc_id o' = VStr $"0".
Proof.
  exists (mkRenderCache (VStr $"t") (VInt 0) []), (mkRenderCache (VStr $"t") (VStr $"0") []).
  repeat split; vm_compute; reflexivity.
Qed.
Theorem C09_render_cache_empty_text_refuted :
  write_read RenderCache_to RenderCache_from RenderCache_default 0 true = Err EIndex.
Proof. vm_compute. reflexivity. Qed.
Print Assumptions C09_render_cache_id_refuted.
Print Assumptions C09_render_cache_empty_text_refuted.
(** A default Justify writes nothing but white space. *)
Example C09_default_justify_writes_nothing : forall i n, Justify_to Justify_default i n = Ok (spaces i ++ eol n).
Proof. reflexivity. Qed.
(** The precision of a colour is applied when writing and is not in the file. *)
Theorem C09_color_precision_refuted : exists o o',
  write_read ColorRGBA_to ColorRGBA_from o 0 false = Ok o' /\ ca_precision o = VInt 1 /\ ca_precision o' = VNone
  /\ py_eqb (ca_A o) (ca_A o') = false.
Proof.
  exists (mkColorRGBA (VInt 0) (VInt 0) (VInt 0) (fdec 55 (-2)) (VInt 1)).
  eexists. split; [vm_compute; reflexivity|]. repeat split; vm_compute; reflexivity.
Qed.
Print Assumptions C09_color_precision_refuted.
