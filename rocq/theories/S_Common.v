(** Specification of the classes in items/common.py: the expression tree each object denotes,
    its normal form (integral floats as ints) and which objects are printable. *)
From Verif Require Import PyBase PyNum PyStr Sexpr S_Leaf S_Tree M_Common.

(** [(at X Y)], [(at X Y angle)], [(at X Y angle unlocked)] *)
Definition at_tree (key : String.string) (p : Position) : val :=
  node key ([po_X p; po_Y p] ++ optv (po_angle p) ++ optw "unlocked" (po_unlocked p)).
Definition at3_tree (key : String.string) (p : Position) : val :=
  node key ([po_X p; po_Y p] ++ optv (po_angle p)).
Definition xy_tree (key : String.string) (p : Position) : val := node key [po_X p; po_Y p].
Arguments at_tree key%string p.
Arguments xy_tree key%string p.
Arguments at3_tree key%string p.
Definition Position_norm (o : Position) : Position :=
  mkPosition (nrm (po_X o)) (nrm (po_Y o)) (nrm (po_angle o)) (po_unlocked o).
(** dataclass == on Position *)
Definition Position_eqb (a b : Position) : bool :=
  py_eqb (po_X a) (po_X b)
  && py_eqb (po_Y a) (po_Y b)
  && py_eqb (po_angle a) (po_angle b)
  && Bool.eqb (po_unlocked a) (po_unlocked b).
Definition Position_ok (o : Position) : bool :=
  numb (po_X o)
  && numb (po_Y o)
  && optb numb (po_angle o).

(** with optional angle and flag / with optional angle / only coordinates *)
Definition pos4_ok (o : Position) : bool := Position_ok o.
Definition pos3_ok (o : Position) : bool := Position_ok o && negb (po_unlocked o).
Definition pos2_ok (o : Position) : bool := Position_ok o && is_none (po_angle o) && negb (po_unlocked o).

Definition Coordinate_tree (o : Coordinate) : val := node "xyz" [co_X o; co_Y o; co_Z o].
Definition Coordinate_norm (o : Coordinate) : Coordinate :=
  mkCoordinate (nrm (co_X o)) (nrm (co_Y o)) (nrm (co_Z o)).
(** dataclass == on Coordinate *)
Definition Coordinate_eqb (a b : Coordinate) : bool :=
  py_eqb (co_X a) (co_X b)
  && py_eqb (co_Y a) (co_Y b)
  && py_eqb (co_Z a) (co_Z b).
Definition Coordinate_ok (o : Coordinate) : bool :=
  numb (co_X o)
  && numb (co_Y o)
  && numb (co_Z o).


Definition ColorRGBA_tree (o : ColorRGBA) : val := node "color" [ca_R o; ca_G o; ca_B o; ca_A o].
Definition ColorRGBA_norm (o : ColorRGBA) : ColorRGBA :=
  mkColorRGBA (nrm (ca_R o)) (nrm (ca_G o)) (nrm (ca_B o)) (nrm (ca_A o)) (ca_precision o).
(** dataclass == on ColorRGBA *)
Definition ColorRGBA_eqb (a b : ColorRGBA) : bool :=
  py_eqb (ca_R a) (ca_R b)
  && py_eqb (ca_G a) (ca_G b)
  && py_eqb (ca_B a) (ca_B b)
  && py_eqb (ca_A a) (ca_A b)
  && py_eqb (ca_precision a) (ca_precision b).
Definition ColorRGBA_ok (o : ColorRGBA) : bool :=
  numb (ca_R o)
  && numb (ca_G o)
  && numb (ca_B o)
  && numb (ca_A o)
  && is_none (ca_precision o).


Definition Stroke_tree (o : Stroke) : val :=
  node "stroke" ([node "width" [st_width o]] ++ optn "type" (st_type o) ++ opto ColorRGBA_tree (st_color o)).
Definition Stroke_norm (o : Stroke) : Stroke :=
  mkStroke (nrm (st_width o)) (st_type o) (option_map ColorRGBA_norm (st_color o)).
(** dataclass == on Stroke *)
Definition Stroke_eqb (a b : Stroke) : bool :=
  py_eqb (st_width a) (st_width b)
  && py_eqb (st_type a) (st_type b)
  && oeqb ColorRGBA_eqb (st_color a) (st_color b).
Definition Stroke_ok (o : Stroke) : bool :=
  numb (st_width o)
  && optb wordv (st_type o)
  && optok ColorRGBA_ok (st_color o).


Definition Font_tree (o : Font) : val :=
  node "font" (optn "face" (fo_face o) ++ [node "size" [fo_height o; fo_width o]]
    ++ opto ColorRGBA_tree (fo_color o) ++ optn "thickness" (fo_thickness o)
    ++ optw "bold" (fo_bold o) ++ optw "italic" (fo_italic o) ++ optn "line_spacing" (fo_lineSpacing o)).
Definition Font_norm (o : Font) : Font :=
  mkFont (fo_face o) (nrm (fo_height o)) (nrm (fo_width o)) (nrm (fo_thickness o)) (fo_bold o) (fo_italic o) (nrm (fo_lineSpacing o)) (option_map ColorRGBA_norm (fo_color o)).
(** dataclass == on Font *)
Definition Font_eqb (a b : Font) : bool :=
  py_eqb (fo_face a) (fo_face b)
  && py_eqb (fo_height a) (fo_height b)
  && py_eqb (fo_width a) (fo_width b)
  && py_eqb (fo_thickness a) (fo_thickness b)
  && Bool.eqb (fo_bold a) (fo_bold b)
  && Bool.eqb (fo_italic a) (fo_italic b)
  && py_eqb (fo_lineSpacing a) (fo_lineSpacing b)
  && oeqb ColorRGBA_eqb (fo_color a) (fo_color b).
Definition Font_ok (o : Font) : bool :=
  optb txtb (fo_face o)
  && numb (fo_height o)
  && numb (fo_width o)
  && optb numb (fo_thickness o)
  && optb numb (fo_lineSpacing o)
  && optok ColorRGBA_ok (fo_color o).


Definition Justify_tree (o : Justify) : val :=
  node "justify" (optv (ju_horizontally o) ++ optv (ju_vertically o) ++ optw "mirror" (ju_mirror o)).
(** a justification that is not written at all *)
Definition Justify_empty (o : Justify) : bool :=
  is_none (ju_horizontally o) && is_none (ju_vertically o) && negb (ju_mirror o).
Definition Justify_norm (o : Justify) : Justify :=
  mkJustify (ju_horizontally o) (ju_vertically o) (ju_mirror o).
(** dataclass == on Justify *)
Definition Justify_eqb (a b : Justify) : bool :=
  py_eqb (ju_horizontally a) (ju_horizontally b)
  && py_eqb (ju_vertically a) (ju_vertically b)
  && Bool.eqb (ju_mirror a) (ju_mirror b).
Definition Justify_ok (o : Justify) : bool :=
  optb (enumb ["left"%string; "right"%string; "center"%string]) (ju_horizontally o)
  && optb (enumb ["top"%string; "bottom"%string]) (ju_vertically o).

(** a justification that is written *)
Definition Justify_ok1 (o : Justify) : bool := Justify_ok o && negb (Justify_empty o).

Definition Effects_tree (o : Effects) : val :=
  node "effects" ([Font_tree (ef_font o)]
    ++ (if Justify_empty (ef_justify o) then [] else [Justify_tree (ef_justify o)])
    ++ optn "href" (ef_href o) ++ optw "hide" (ef_hide o)).
Definition Effects_norm (o : Effects) : Effects :=
  mkEffects (Font_norm (ef_font o)) (Justify_norm (ef_justify o)) (ef_hide o) (ef_href o).
(** dataclass == on Effects *)
Definition Effects_eqb (a b : Effects) : bool :=
  Font_eqb (ef_font a) (ef_font b)
  && Justify_eqb (ef_justify a) (ef_justify b)
  && Bool.eqb (ef_hide a) (ef_hide b)
  && py_eqb (ef_href a) (ef_href b).
Definition Effects_ok (o : Effects) : bool :=
  Font_ok (ef_font o)
  && Justify_ok (ef_justify o)
  && optb txtb (ef_href o).


Definition Net_tree (o : Net) : val := node "net" [ne_number o; ne_name o].
Definition Net_norm (o : Net) : Net :=
  mkNet (nrm (ne_number o)) (ne_name o).
(** dataclass == on Net *)
Definition Net_eqb (a b : Net) : bool :=
  py_eqb (ne_number a) (ne_number b)
  && py_eqb (ne_name a) (ne_name b).
Definition Net_ok (o : Net) : bool :=
  numb (ne_number o)
  && txtb (ne_name o).


Definition Group_tree (o : Group) : val :=
  node "group" ([gr_name o] ++ optw "locked" (gr_locked o) ++ [node "id" [gr_id o]; node "members" (gr_members o)]).
Definition Group_norm (o : Group) : Group :=
  mkGroup (gr_name o) (gr_locked o) (nrm (gr_id o)) (gr_members o).
(** dataclass == on Group *)
Definition Group_eqb (a b : Group) : bool :=
  py_eqb (gr_name a) (gr_name b)
  && Bool.eqb (gr_locked a) (gr_locked b)
  && py_eqb (gr_id a) (gr_id b)
  && leqb py_eqb (gr_members a) (gr_members b).
Definition Group_ok (o : Group) : bool :=
  txtb (gr_name o)
  && atomb (gr_id o)
  && forallb word0v (gr_members o)
  && (negb (gr_name o =s "locked")).


Definition PageSettings_tree (o : PageSettings) : val :=
  node "paper" ([pg_paperSize o] ++ (if pg_paperSize o =s "User" then [pg_width o; pg_height o] else [])
    ++ optw "portrait" (pg_portrait o)).
Definition PageSettings_norm (o : PageSettings) : PageSettings :=
  mkPageSettings (pg_paperSize o) (nrm (pg_width o)) (nrm (pg_height o)) (pg_portrait o).
(** dataclass == on PageSettings *)
Definition PageSettings_eqb (a b : PageSettings) : bool :=
  py_eqb (pg_paperSize a) (pg_paperSize b)
  && py_eqb (pg_width a) (pg_width b)
  && py_eqb (pg_height a) (pg_height b)
  && Bool.eqb (pg_portrait a) (pg_portrait b).
Definition PageSettings_ok (o : PageSettings) : bool :=
  txtb (pg_paperSize o)
  && optb numb (pg_width o)
  && optb numb (pg_height o)
  && (negb (pg_paperSize o =s "portrait") && (if pg_paperSize o =s "User" then numb (pg_width o) && numb (pg_height o)else is_none (pg_width o) && is_none (pg_height o))).


(** dictionaries: distinct keys *)
Fixpoint dict_keys_ok (d : list (val * val)) : bool :=
  match d with
  | [] => true
  | (k, _) :: d' => forallb (fun kv => negb (py_eqb k (fst kv))) d' && dict_keys_ok d'
  end.
Definition dict_norm (d : list (val * val)) : list (val * val) := map (fun kv => (nrm (fst kv), snd kv)) d.
Definition dict_ok (d : list (val * val)) : bool :=
  forallb (fun kv => atomb (fst kv) && txtb (snd kv)) d && dict_keys_ok d && dict_keys_ok (dict_norm d).
Definition TitleBlock_tree (o : TitleBlock) : val :=
  node "title_block" (optn "title" (tb_title o) ++ optn "date" (tb_date o) ++ optn "rev" (tb_revision o)
    ++ optn "company" (tb_company o) ++ map (fun kv => node "comment" [fst kv; snd kv]) (tb_comments o)).
Definition TitleBlock_norm (o : TitleBlock) : TitleBlock :=
  mkTitleBlock (tb_title o) (tb_date o) (tb_revision o) (tb_company o) (dict_norm (tb_comments o)).
(** dataclass == on TitleBlock *)
Definition TitleBlock_eqb (a b : TitleBlock) : bool :=
  py_eqb (tb_title a) (tb_title b)
  && py_eqb (tb_date a) (tb_date b)
  && py_eqb (tb_revision a) (tb_revision b)
  && py_eqb (tb_company a) (tb_company b)
  && leqb kveqb (tb_comments a) (tb_comments b).
Definition TitleBlock_ok (o : TitleBlock) : bool :=
  optb txtb (tb_title o)
  && optb txtb (tb_date o)
  && optb txtb (tb_revision o)
  && optb txtb (tb_company o)
  && dict_ok (tb_comments o).


Definition Property_tree (o : Property) : val :=
  node "property" ([pr_key o; pr_value o] ++ optn "id" (pr_id o)
    ++ [at3_tree "at" (pr_position o)]
    ++ optl "show_name" (pr_showName o) ++ opto Effects_tree (pr_effects o)).
Definition Property_norm (o : Property) : Property :=
  mkProperty (pr_key o) (pr_value o) (nrm (pr_id o)) (Position_norm (pr_position o)) (option_map Effects_norm (pr_effects o)) (pr_showName o).
(** dataclass == on Property *)
Definition Property_eqb (a b : Property) : bool :=
  py_eqb (pr_key a) (pr_key b)
  && py_eqb (pr_value a) (pr_value b)
  && py_eqb (pr_id a) (pr_id b)
  && Position_eqb (pr_position a) (pr_position b)
  && oeqb Effects_eqb (pr_effects a) (pr_effects b)
  && Bool.eqb (pr_showName a) (pr_showName b).
Definition Property_ok (o : Property) : bool :=
  txtb (pr_key o)
  && txtb (pr_value o)
  && optb numb (pr_id o)
  && pos3_ok (pr_position o)
  && optok Effects_ok (pr_effects o).


Definition RenderCachePolygon_tree (o : RenderCachePolygon) : val :=
  node "polygon" [node "pts" (map (xy_tree "xy") (rp_pts o))].
Definition RenderCachePolygon_norm (o : RenderCachePolygon) : RenderCachePolygon :=
  mkRenderCachePolygon (map Position_norm (rp_pts o)).
(** dataclass == on RenderCachePolygon *)
Definition RenderCachePolygon_eqb (a b : RenderCachePolygon) : bool :=
  leqb Position_eqb (rp_pts a) (rp_pts b).
Definition RenderCachePolygon_ok (o : RenderCachePolygon) : bool :=
  forallb pos2_ok (rp_pts o).


Definition RenderCache_tree (o : RenderCache) : val :=
  node "render_cache" ([rc_text o; rc_id o] ++ map RenderCachePolygon_tree (rc_polygons o)).
Definition RenderCache_norm (o : RenderCache) : RenderCache :=
  mkRenderCache (rc_text o) (rc_id o) (map RenderCachePolygon_norm (rc_polygons o)).
(** dataclass == on RenderCache *)
Definition RenderCache_eqb (a b : RenderCache) : bool :=
  py_eqb (rc_text a) (rc_text b)
  && py_eqb (rc_id a) (rc_id b)
  && leqb RenderCachePolygon_eqb (rc_polygons a) (rc_polygons b).
Definition RenderCache_ok (o : RenderCache) : bool :=
  txtb (rc_text o)
  && word0v (rc_id o)
  && forallb RenderCachePolygon_ok (rc_polygons o)
  && (negb (rc_text o =s "")).


Definition Fill_tree (o : Fill) : val :=
  node "fill" ([node "type" [fi_type o]] ++ opto ColorRGBA_tree (fi_color o)).
Definition Fill_norm (o : Fill) : Fill :=
  mkFill (fi_type o) (option_map ColorRGBA_norm (fi_color o)).
(** dataclass == on Fill *)
Definition Fill_eqb (a b : Fill) : bool :=
  py_eqb (fi_type a) (fi_type b)
  && oeqb ColorRGBA_eqb (fi_color a) (fi_color b).
Definition Fill_ok (o : Fill) : bool :=
  wordv (fi_type o)
  && optok ColorRGBA_ok (fi_color o).


Definition Image_tree (o : Image) : val :=
  node "image" ([xy_tree "at" (im_position o)] ++ optn "layer" (im_layer o) ++ optn "scale" (im_scale o)
    ++ optn "uuid" (im_uuid o) ++ [node "data" (im_data o)]).
Definition Image_norm (o : Image) : Image :=
  mkImage (Position_norm (im_position o)) (nrm (im_scale o)) (im_data o) (nrm (im_uuid o)) (im_layer o).
(** dataclass == on Image *)
Definition Image_eqb (a b : Image) : bool :=
  Position_eqb (im_position a) (im_position b)
  && py_eqb (im_scale a) (im_scale b)
  && leqb py_eqb (im_data a) (im_data b)
  && py_eqb (im_uuid a) (im_uuid b)
  && py_eqb (im_layer a) (im_layer b).
Definition Image_ok (o : Image) : bool :=
  pos2_ok (im_position o)
  && optb numb (im_scale o)
  && forallb word0v (im_data o)
  && optb atomb (im_uuid o)
  && optb txtb (im_layer o).

