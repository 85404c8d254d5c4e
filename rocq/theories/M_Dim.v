(** Model of items/dimensions.py. *)
From Verif Require Import PyBase PyNum PyStr Sexpr M_Common M_Gr.

(** items/dimensions.py:26-63: attributes of DimensionFormat and their defaults *)
Record DimensionFormat := mkDimensionFormat {
  df_prefix : val;
  df_suffix : val;
  df_units : val;
  df_unitsFormat : val;
  df_precision : val;
  df_overrideValue : val;
  df_suppressZeroes : bool }.
#[export] Instance eta_DimensionFormat : Settable DimensionFormat :=
  settable! mkDimensionFormat <df_prefix; df_suffix; df_units; df_unitsFormat; df_precision; df_overrideValue; df_suppressZeroes>.
Definition DimensionFormat_default : DimensionFormat :=
  mkDimensionFormat VNone VNone (VInt 3) (VInt 1) (VInt 4) VNone false.

(** dimensions.py:87-96 *)
Definition DimensionFormat_step (o : DimensionFormat) (item : val) : res DimensionFormat :=
  if negb (is_list item) then on (item =s "suppress_zeroes") (setf df_suppressZeroes (Ok true)) o else
  let! h := item@0 in
  let! o := on (h =s "prefix") (setf df_prefix (item@1)) o in
  let! o := on (h =s "suffix") (setf df_suffix (item@1)) o in
  let! o := on (h =s "units") (setf df_units (item@1)) o in
  let! o := on (h =s "units_format") (setf df_unitsFormat (item@1)) o in
  let! o := on (h =s "precision") (setf df_precision (item@1)) o in
  let! o := on (h =s "override_value") (setf df_overrideValue (item@1)) o in
  Ok o.
(** dimensions.py:65-97 *)
Definition DimensionFormat_from (exp : val) : res DimensionFormat :=
  let! l := need_head "format" exp in foldM DimensionFormat_step DimensionFormat_default (skipn 1 l).
(** dimensions.py:99-118 *)
Definition DimensionFormat_to (o : DimensionFormat) (indent : nat) (newline : bool) : res str :=
  let prefix := if is_none (df_prefix o) then [] else $" (prefix " ++ quoted (df_prefix o) ++ $")" in
  let suffix := if is_none (df_suffix o) then [] else $" (suffix " ++ quoted (df_suffix o) ++ $")" in
  let overwrite_val := if is_none (df_overrideValue o) then [] else $" (override_value " ++ quoted (df_overrideValue o) ++ $")" in
  let suppress_zeroes := if df_suppressZeroes o then $" suppress_zeroes" else [] in
  Ok (spaces indent ++ $"(format" ++ prefix ++ suffix ++ $" (units " ++ fmt (df_units o) ++ $") (units_format " ++ fmt (df_unitsFormat o)
      ++ $") (precision " ++ fmt (df_precision o) ++ $")" ++ overwrite_val ++ suppress_zeroes ++ $")" ++ eol newline).

(** items/dimensions.py:120-160: attributes of DimensionStyle and their defaults *)
Record DimensionStyle := mkDimensionStyle {
  ds_thickness : val;
  ds_arrowLength : val;
  ds_textPositionMode : val;
  ds_extensionHeight : val;
  ds_textFrame : val;
  ds_extensionOffset : val;
  ds_keepTextAligned : bool }.
#[export] Instance eta_DimensionStyle : Settable DimensionStyle :=
  settable! mkDimensionStyle <ds_thickness; ds_arrowLength; ds_textPositionMode; ds_extensionHeight; ds_textFrame; ds_extensionOffset; ds_keepTextAligned>.
Definition DimensionStyle_default : DimensionStyle :=
  mkDimensionStyle (fdec 0 0) (fdec 0 0) (VInt 0) VNone VNone VNone false.

(** dimensions.py:184-192 *)
Definition DimensionStyle_step (o : DimensionStyle) (item : val) : res DimensionStyle :=
  if negb (is_list item) then on (item =s "keep_text_aligned") (setf ds_keepTextAligned (Ok true)) o else
  let! h := item@0 in
  let! o := on (h =s "thickness") (setf ds_thickness (item@1)) o in
  let! o := on (h =s "arrow_length") (setf ds_arrowLength (item@1)) o in
  let! o := on (h =s "text_position_mode") (setf ds_textPositionMode (item@1)) o in
  let! o := on (h =s "extension_height") (setf ds_extensionHeight (item@1)) o in
  let! o := on (h =s "text_frame") (setf ds_textFrame (item@1)) o in
  let! o := on (h =s "extension_offset") (setf ds_extensionOffset (item@1)) o in
  Ok o.
(** dimensions.py:162-193 *)
Definition DimensionStyle_from (exp : val) : res DimensionStyle :=
  let! l := need_head "style" exp in foldM DimensionStyle_step DimensionStyle_default (skipn 1 l).
(** dimensions.py:195-214 *)
Definition DimensionStyle_to (o : DimensionStyle) (indent : nat) (newline : bool) : res str :=
  let extension_height := if is_none (ds_extensionHeight o) then [] else $" (extension_height " ++ fmt (ds_extensionHeight o) ++ $")" in
  let text_frame := if is_none (ds_textFrame o) then [] else $" (text_frame " ++ fmt (ds_textFrame o) ++ $")" in
  let extension_offset := if is_none (ds_extensionOffset o) then [] else $" (extension_offset " ++ fmt (ds_extensionOffset o) ++ $")" in
  let keep_aligned := if ds_keepTextAligned o then $" keep_text_aligned" else [] in
  Ok (spaces indent ++ $"(style (thickness " ++ fmt (ds_thickness o) ++ $") (arrow_length " ++ fmt (ds_arrowLength o) ++ $") (text_position_mode "
      ++ fmt (ds_textPositionMode o) ++ $")" ++ extension_height ++ text_frame ++ extension_offset ++ keep_aligned ++ $")" ++ eol newline).

(** items/dimensions.py:216-260: attributes of Dimension and their defaults *)
Record Dimension := mkDimension {
  di_locked : bool;
  di_type : val;
  di_layer : val;
  di_tstamp : val;
  di_pts : list Position;
  di_height : val;
  di_orientation : val;
  di_leaderLength : val;
  di_grText : option GrText;
  di_format : option DimensionFormat;
  di_style : DimensionStyle }.
#[export] Instance eta_Dimension : Settable Dimension :=
  settable! mkDimension <di_locked; di_type; di_layer; di_tstamp; di_pts; di_height; di_orientation; di_leaderLength; di_grText; di_format; di_style>.
Definition Dimension_default : Dimension :=
  mkDimension false (VStr $"aligned") (VStr $"F.Cu") VNone [] VNone VNone VNone None None DimensionStyle_default.

(** dimensions.py:284-298 *)
Definition Dimension_step (o : Dimension) (item : val) : res Dimension :=
  if negb (is_list item) then on (item =s "locked") (setf di_locked (Ok true)) o else
  let! h := item@0 in
  let! o := on (h =s "type") (setf di_type (item@1)) o in
  let! o := on (h =s "layer") (setf di_layer (item@1)) o in
  let! o := on (h =s "tstamp") (setf di_tstamp (item@1)) o in
  let! o := on (h =s "height") (setf di_height (item@1)) o in
  let! o := on (h =s "orientation") (setf di_orientation (item@1)) o in
  let! o := on (h =s "leader_length") (setf di_leaderLength (item@1)) o in
  let! o := on (h =s "gr_text") (setf di_grText (let! x := GrText_from item in Ok (Some x))) o in
  let! o := on (h =s "format") (setf di_format (let! x := DimensionFormat_from item in Ok (Some x))) o in
  let! o := on (h =s "style") (setf di_style (DimensionStyle_from item)) o in
  let! o := on (h =s "pts") (extf di_pts (let! l := from_ item 1 in mapM Position_from l)) o in
  Ok o.
(** dimensions.py:262-300 *)
Definition Dimension_from (exp : val) : res Dimension :=
  let! l := need_head "dimension" exp in foldM Dimension_step Dimension_default (skipn 1 l).
(** dimensions.py:302-337; the text of the points is empty exactly when there are none *)
Definition Dimension_to (o : Dimension) (indent : nat) (newline : bool) : res str :=
  let indents := spaces indent in
  let! points := concatM (fun p => Ok ($" (xy " ++ fmt (po_X p) ++ $" " ++ fmt (po_Y p) ++ $")")) (di_pts o) in
  if Nat.eqb (length points) 0 then Err EException else
  let height := if is_none (di_height o) then [] else indents ++ $"  (height " ++ fmt (di_height o) ++ $")" ++ nl in
  let orientation := if is_none (di_orientation o) then [] else indents ++ $"  (orientation " ++ fmt (di_orientation o) ++ $")" ++ nl in
  let leader := if is_none (di_leaderLength o) then [] else indents ++ $"  (leader_length " ++ fmt (di_leaderLength o) ++ $")" ++ nl in
  let! text := opt_str (di_grText o) (fun t => GrText_to t (indent + 2) true) in
  let! format := opt_str (di_format o) (fun t => DimensionFormat_to t (indent + 2) true) in
  let! style := DimensionStyle_to (di_style o) (indent + 2) true in
  Ok (indents ++ $"(dimension (type " ++ fmt (di_type o) ++ $") (layer " ++ rawq (di_layer o) ++ $") (tstamp " ++ fmt (di_tstamp o) ++ $")" ++ nl
      ++ indents ++ $"  (pts" ++ points ++ $")" ++ nl ++ height ++ orientation ++ leader ++ text ++ format ++ style
      ++ indents ++ $")" ++ eol newline).
