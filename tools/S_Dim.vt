(** Specification of items/dimensions.py. *)
From Verif Require Import PyBase PyNum PyStr Sexpr S_Leaf S_Tree M_Common S_Common M_Gr S_Gr M_Dim.

Definition DimensionFormat_tree (o : DimensionFormat) : val :=
  node "format" (optn "prefix" (df_prefix o) ++ optn "suffix" (df_suffix o)
    ++ [node "units" [df_units o]; node "units_format" [df_unitsFormat o]; node "precision" [df_precision o]]
    ++ optn "override_value" (df_overrideValue o) ++ optw "suppress_zeroes" (df_suppressZeroes o)).
@ok DimensionFormat
Definition DimensionStyle_tree (o : DimensionStyle) : val :=
  node "style" ([node "thickness" [ds_thickness o]; node "arrow_length" [ds_arrowLength o]; node "text_position_mode" [ds_textPositionMode o]]
    ++ optn "extension_height" (ds_extensionHeight o) ++ optn "text_frame" (ds_textFrame o) ++ optn "extension_offset" (ds_extensionOffset o)
    ++ optw "keep_text_aligned" (ds_keepTextAligned o)).
@ok DimensionStyle
Definition Dimension_tree (o : Dimension) : val :=
  node "dimension" ([node "type" [di_type o]; node "layer" [di_layer o]; node "tstamp" [di_tstamp o]; node "pts" (map (xy_tree "xy") (di_pts o))]
    ++ optn "height" (di_height o) ++ optn "orientation" (di_orientation o) ++ optn "leader_length" (di_leaderLength o)
    ++ opto GrText_tree (di_grText o) ++ opto DimensionFormat_tree (di_format o) ++ [DimensionStyle_tree (di_style o)]).
(** a dimension has at least one point *)
@ok Dimension negb (Nat.eqb (length (di_pts o)) 0)
