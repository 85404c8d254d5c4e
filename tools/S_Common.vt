(** Specification of the classes in items/common.py: the expression tree each object denotes,
    its normal form (integral floats as ints) and which objects are printable. *)
From Verif Require Import PyBase PyNum PyStr Sexpr S_Leaf S_Tree M_Common.

(** [(at X Y)], [(at X Y angle)], [(at X Y angle unlocked)] *)
Definition at_tree (key : String.string) (p : Position) : val :=
  node key ([po_X p; po_Y p] ++ optv (po_angle p) ++ optw "unlocked" (po_unlocked p)).
Definition at3_tree (key : String.string) (p : Position) : val :=
  node key ([po_X p; po_Y p] ++ optv (po_angle p)).
Definition xy_tree (key : String.string) (p : Position) : val := node key [po_X p; po_Y p].
Arguments at_tree key%string p.
Arguments xy_tree key%string p.
Arguments at3_tree key%string p.
@ok Position
(** with optional angle and flag / with optional angle / only coordinates *)
Definition pos4_ok (o : Position) : bool := Position_ok o.
Definition pos3_ok (o : Position) : bool := Position_ok o && negb (po_unlocked o).
Definition pos2_ok (o : Position) : bool := Position_ok o && is_none (po_angle o) && negb (po_unlocked o).

Definition Coordinate_tree (o : Coordinate) : val := node "xyz" [co_X o; co_Y o; co_Z o].
@ok Coordinate

Definition ColorRGBA_tree (o : ColorRGBA) : val := node "color" [ca_R o; ca_G o; ca_B o; ca_A o].
@ok ColorRGBA

Definition Stroke_tree (o : Stroke) : val :=
  node "stroke" ([node "width" [st_width o]] ++ optn "type" (st_type o) ++ opto ColorRGBA_tree (st_color o)).
@ok Stroke

Definition Font_tree (o : Font) : val :=
  node "font" (optn "face" (fo_face o) ++ [node "size" [fo_height o; fo_width o]]
    ++ opto ColorRGBA_tree (fo_color o) ++ optn "thickness" (fo_thickness o)
    ++ optw "bold" (fo_bold o) ++ optw "italic" (fo_italic o) ++ optn "line_spacing" (fo_lineSpacing o)).
@ok Font

Definition Justify_tree (o : Justify) : val :=
  node "justify" (optv (ju_horizontally o) ++ optv (ju_vertically o) ++ optw "mirror" (ju_mirror o)).
(** a justification that is not written at all *)
Definition Justify_empty (o : Justify) : bool :=
  is_none (ju_horizontally o) && is_none (ju_vertically o) && negb (ju_mirror o).
@ok Justify
(** a justification that is written *)
Definition Justify_ok1 (o : Justify) : bool := Justify_ok o && negb (Justify_empty o).

Definition Effects_tree (o : Effects) : val :=
  node "effects" ([Font_tree (ef_font o)]
    ++ (if Justify_empty (ef_justify o) then [] else [Justify_tree (ef_justify o)])
    ++ optn "href" (ef_href o) ++ optw "hide" (ef_hide o)).
@ok Effects

Definition Net_tree (o : Net) : val := node "net" [ne_number o; ne_name o].
@ok Net

Definition Group_tree (o : Group) : val :=
  node "group" ([gr_name o] ++ optw "locked" (gr_locked o) ++ [node "id" [gr_id o]; node "members" (gr_members o)]).
@ok Group negb (gr_name o =s "locked")

Definition PageSettings_tree (o : PageSettings) : val :=
  node "paper" ([pg_paperSize o] ++ (if pg_paperSize o =s "User" then [pg_width o; pg_height o] else [])
    ++ optw "portrait" (pg_portrait o)).
@ok PageSettings negb (pg_paperSize o =s "portrait") \
   && (if pg_paperSize o =s "User" then numb (pg_width o) && numb (pg_height o)\
       else is_none (pg_width o) && is_none (pg_height o))

(** dictionaries: distinct keys *)
Fixpoint dict_keys_ok (d : list (val * val)) : bool :=
  match d with
  | [] => true
  | (k, _) :: d' => forallb (fun kv => negb (py_eqb k (fst kv))) d' && dict_keys_ok d'
  end.
Definition dict_norm (d : list (val * val)) : list (val * val) := map (fun kv => (nrm (fst kv), snd kv)) d.
Definition dict_ok (d : list (val * val)) : bool :=
  forallb (fun kv => atomb (fst kv) && txtb (snd kv)) d && dict_keys_ok d && dict_keys_ok (dict_norm d).
Definition TitleBlock_tree (o : TitleBlock) : val :=
  node "title_block" (optn "title" (tb_title o) ++ optn "date" (tb_date o) ++ optn "rev" (tb_revision o)
    ++ optn "company" (tb_company o) ++ map (fun kv => node "comment" [fst kv; snd kv]) (tb_comments o)).
@ok TitleBlock

Definition Property_tree (o : Property) : val :=
  node "property" ([pr_key o; pr_value o] ++ optn "id" (pr_id o)
    ++ [at3_tree "at" (pr_position o)]
    ++ optl "show_name" (pr_showName o) ++ opto Effects_tree (pr_effects o)).
@ok Property

Definition RenderCachePolygon_tree (o : RenderCachePolygon) : val :=
  node "polygon" [node "pts" (map (xy_tree "xy") (rp_pts o))].
@ok RenderCachePolygon

Definition RenderCache_tree (o : RenderCache) : val :=
  node "render_cache" ([rc_text o; rc_id o] ++ map RenderCachePolygon_tree (rc_polygons o)).
@ok RenderCache negb (rc_text o =s "")

Definition Fill_tree (o : Fill) : val :=
  node "fill" ([node "type" [fi_type o]] ++ opto ColorRGBA_tree (fi_color o)).
@ok Fill

Definition Image_tree (o : Image) : val :=
  node "image" ([xy_tree "at" (im_position o)] ++ optn "layer" (im_layer o) ++ optn "scale" (im_scale o)
    ++ optn "uuid" (im_uuid o) ++ [node "data" (im_data o)]).
@ok Image
