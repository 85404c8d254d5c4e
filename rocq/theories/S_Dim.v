(** Specification of items/dimensions.py. *)
From Verif Require Import PyBase PyNum PyStr Sexpr S_Leaf S_Tree M_Common S_Common M_Gr S_Gr M_Dim.

Definition DimensionFormat_tree (o : DimensionFormat) : val :=
  node "format" (optn "prefix" (df_prefix o) ++ optn "suffix" (df_suffix o)
    ++ [node "units" [df_units o]; node "units_format" [df_unitsFormat o]; node "precision" [df_precision o]]
    ++ optn "override_value" (df_overrideValue o) ++ optw "suppress_zeroes" (df_suppressZeroes o)).
Definition DimensionFormat_norm (o : DimensionFormat) : DimensionFormat :=
  mkDimensionFormat (df_prefix o) (df_suffix o) (nrm (df_units o)) (nrm (df_unitsFormat o)) (nrm (df_precision o)) (df_overrideValue o) (df_suppressZeroes o).
(** dataclass == on DimensionFormat *)
Definition DimensionFormat_eqb (a b : DimensionFormat) : bool :=
  py_eqb (df_prefix a) (df_prefix b)
  && py_eqb (df_suffix a) (df_suffix b)
  && py_eqb (df_units a) (df_units b)
  && py_eqb (df_unitsFormat a) (df_unitsFormat b)
  && py_eqb (df_precision a) (df_precision b)
  && py_eqb (df_overrideValue a) (df_overrideValue b)
  && Bool.eqb (df_suppressZeroes a) (df_suppressZeroes b).
Definition DimensionFormat_ok (o : DimensionFormat) : bool :=
  optb txtb (df_prefix o)
  && optb txtb (df_suffix o)
  && numb (df_units o)
  && numb (df_unitsFormat o)
  && numb (df_precision o)
  && optb txtb (df_overrideValue o).

Definition DimensionStyle_tree (o : DimensionStyle) : val :=
  node "style" ([node "thickness" [ds_thickness o]; node "arrow_length" [ds_arrowLength o]; node "text_position_mode" [ds_textPositionMode o]]
    ++ optn "extension_height" (ds_extensionHeight o) ++ optn "text_frame" (ds_textFrame o) ++ optn "extension_offset" (ds_extensionOffset o)
    ++ optw "keep_text_aligned" (ds_keepTextAligned o)).
Definition DimensionStyle_norm (o : DimensionStyle) : DimensionStyle :=
  mkDimensionStyle (nrm (ds_thickness o)) (nrm (ds_arrowLength o)) (nrm (ds_textPositionMode o)) (nrm (ds_extensionHeight o)) (nrm (ds_textFrame o)) (nrm (ds_extensionOffset o)) (ds_keepTextAligned o).
(** dataclass == on DimensionStyle *)
Definition DimensionStyle_eqb (a b : DimensionStyle) : bool :=
  py_eqb (ds_thickness a) (ds_thickness b)
  && py_eqb (ds_arrowLength a) (ds_arrowLength b)
  && py_eqb (ds_textPositionMode a) (ds_textPositionMode b)
  && py_eqb (ds_extensionHeight a) (ds_extensionHeight b)
  && py_eqb (ds_textFrame a) (ds_textFrame b)
  && py_eqb (ds_extensionOffset a) (ds_extensionOffset b)
  && Bool.eqb (ds_keepTextAligned a) (ds_keepTextAligned b).
Definition DimensionStyle_ok (o : DimensionStyle) : bool :=
  numb (ds_thickness o)
  && numb (ds_arrowLength o)
  && numb (ds_textPositionMode o)
  && optb numb (ds_extensionHeight o)
  && optb numb (ds_textFrame o)
  && optb numb (ds_extensionOffset o).

Definition Dimension_tree (o : Dimension) : val :=
  node "dimension" ([node "type" [di_type o]; node "layer" [di_layer o]; node "tstamp" [di_tstamp o]; node "pts" (map (xy_tree "xy") (di_pts o))]
    ++ optn "height" (di_height o) ++ optn "orientation" (di_orientation o) ++ optn "leader_length" (di_leaderLength o)
    ++ opto GrText_tree (di_grText o) ++ opto DimensionFormat_tree (di_format o) ++ [DimensionStyle_tree (di_style o)]).
(** a dimension has at least one point *)
Definition Dimension_norm (o : Dimension) : Dimension :=
  mkDimension (di_locked o) (nrm (di_type o)) (di_layer o) (nrm (di_tstamp o)) (map Position_norm (di_pts o)) (nrm (di_height o)) (nrm (di_orientation o)) (nrm (di_leaderLength o)) (option_map GrText_norm (di_grText o)) (option_map DimensionFormat_norm (di_format o)) (DimensionStyle_norm (di_style o)).
(** dataclass == on Dimension *)
Definition Dimension_eqb (a b : Dimension) : bool :=
  Bool.eqb (di_locked a) (di_locked b)
  && py_eqb (di_type a) (di_type b)
  && py_eqb (di_layer a) (di_layer b)
  && py_eqb (di_tstamp a) (di_tstamp b)
  && leqb Position_eqb (di_pts a) (di_pts b)
  && py_eqb (di_height a) (di_height b)
  && py_eqb (di_orientation a) (di_orientation b)
  && py_eqb (di_leaderLength a) (di_leaderLength b)
  && oeqb GrText_eqb (di_grText a) (di_grText b)
  && oeqb DimensionFormat_eqb (di_format a) (di_format b)
  && DimensionStyle_eqb (di_style a) (di_style b).
Definition Dimension_ok (o : Dimension) : bool :=
  negb (di_locked o)
  && atomb (di_type o)
  && rawtxtb (di_layer o)
  && atomb (di_tstamp o)
  && forallb pos2_ok (di_pts o)
  && optb numb (di_height o)
  && optb numb (di_orientation o)
  && optb numb (di_leaderLength o)
  && optok GrText_ok (di_grText o)
  && optok DimensionFormat_ok (di_format o)
  && DimensionStyle_ok (di_style o)
  && (negb (Nat.eqb (length (di_pts o)) 0)).

