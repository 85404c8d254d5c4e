(** Specification of board.py. *)
From Verif Require Import PyBase PyNum PyStr Sexpr S_Leaf S_Tree S_Fix M_Common S_Common M_Gr S_Gr M_Zone S_Zone M_Footprint S_Footprint M_Dim S_Dim M_Brd S_Brd M_Board.

Definition BdItem_tree (o : BdItem) : val :=
  match o with
  | BdItem_GrText x => GrText_tree x
  | BdItem_GrTextBox x => GrTextBox_tree x
  | BdItem_GrLine x => GrLine_tree x
  | BdItem_GrRect x => GrRect_tree x
  | BdItem_GrCircle x => GrCircle_tree x
  | BdItem_GrArc x => GrArc_tree x
  | BdItem_GrPoly x => GrPoly_tree x
  | BdItem_GrCurve x => GrCurve_tree x
  | BdItem_Image x => Image_tree x
  end.
Definition BdItem_norm (o : BdItem) : BdItem :=
  match o with
  | BdItem_GrText x => BdItem_GrText (GrText_norm x)
  | BdItem_GrTextBox x => BdItem_GrTextBox (GrTextBox_norm x)
  | BdItem_GrLine x => BdItem_GrLine (GrLine_norm x)
  | BdItem_GrRect x => BdItem_GrRect (GrRect_norm x)
  | BdItem_GrCircle x => BdItem_GrCircle (GrCircle_norm x)
  | BdItem_GrArc x => BdItem_GrArc (GrArc_norm x)
  | BdItem_GrPoly x => BdItem_GrPoly (GrPoly_norm x)
  | BdItem_GrCurve x => BdItem_GrCurve (GrCurve_norm x)
  | BdItem_Image x => BdItem_Image (Image_norm x)
  end.
Definition BdItem_ok (o : BdItem) : bool :=
  match o with
  | BdItem_GrText x => GrText_ok x
  | BdItem_GrTextBox x => GrTextBox_ok x
  | BdItem_GrLine x => GrLine_ok x
  | BdItem_GrRect x => GrRect_ok x
  | BdItem_GrCircle x => GrCircle_ok x
  | BdItem_GrArc x => GrArc_ok x
  | BdItem_GrPoly x => GrPoly_ok x
  | BdItem_GrCurve x => GrCurve_ok x
  | BdItem_Image x => Image_ok x
  end.
Definition BdItem_eqb (a b : BdItem) : bool :=
  match a, b with
  | BdItem_GrText x, BdItem_GrText y => GrText_eqb x y
  | BdItem_GrTextBox x, BdItem_GrTextBox y => GrTextBox_eqb x y
  | BdItem_GrLine x, BdItem_GrLine y => GrLine_eqb x y
  | BdItem_GrRect x, BdItem_GrRect y => GrRect_eqb x y
  | BdItem_GrCircle x, BdItem_GrCircle y => GrCircle_eqb x y
  | BdItem_GrArc x, BdItem_GrArc y => GrArc_eqb x y
  | BdItem_GrPoly x, BdItem_GrPoly y => GrPoly_eqb x y
  | BdItem_GrCurve x, BdItem_GrCurve y => GrCurve_eqb x y
  | BdItem_Image x, BdItem_Image y => Image_eqb x y
  | _, _ => false
  end.

Definition TrItem_tree (o : TrItem) : val :=
  match o with
  | TrItem_Segment x => Segment_tree x
  | TrItem_Arc x => Arc_tree x
  | TrItem_Via x => Via_tree x
  end.
Definition TrItem_norm (o : TrItem) : TrItem :=
  match o with
  | TrItem_Segment x => TrItem_Segment (Segment_norm x)
  | TrItem_Arc x => TrItem_Arc (Arc_norm x)
  | TrItem_Via x => TrItem_Via (Via_norm x)
  end.
Definition TrItem_ok (o : TrItem) : bool :=
  match o with
  | TrItem_Segment x => Segment_ok x
  | TrItem_Arc x => Arc_ok x
  | TrItem_Via x => Via_ok x
  end.
Definition TrItem_eqb (a b : TrItem) : bool :=
  match a, b with
  | TrItem_Segment x, TrItem_Segment y => Segment_eqb x y
  | TrItem_Arc x, TrItem_Arc y => Arc_eqb x y
  | TrItem_Via x, TrItem_Via y => Via_eqb x y
  | _, _ => false
  end.

Definition Board_tree (o : Board) : val :=
  node "kicad_pcb" ([node "version" [bd_version o]; node "generator" [bd_generator o]; GeneralSettings_tree (bd_general o); PageSettings_tree (bd_paper o)]
    ++ opto TitleBlock_tree (bd_titleBlock o) ++ [node "layers" (map LayerToken_tree (bd_layers o)); SetupData_tree (bd_setup o)]
    ++ map (fun kv => node "property" [fst kv; snd kv]) (bd_properties o) ++ map Net_tree (bd_nets o) ++ map Footprint_tree (bd_footprints o)
    ++ map BdItem_tree (bd_graphicItems o) ++ map Dimension_tree (bd_dimensions o) ++ map Target_tree (bd_targets o) ++ map TrItem_tree (bd_traceItems o)
    ++ map Zone_tree (bd_zones o) ++ map Group_tree (bd_groups o)).
Definition Board_norm (o : Board) : Board :=
  mkBoard (nrm (bd_version o)) (nrm (bd_generator o)) (GeneralSettings_norm (bd_general o)) (PageSettings_norm (bd_paper o)) (option_map TitleBlock_norm (bd_titleBlock o)) (map LayerToken_norm (bd_layers o)) (SetupData_norm (bd_setup o)) (bd_properties o) (map Net_norm (bd_nets o)) (map Footprint_norm (bd_footprints o)) (map BdItem_norm (bd_graphicItems o)) (map TrItem_norm (bd_traceItems o)) (map Zone_norm (bd_zones o)) (map Dimension_norm (bd_dimensions o)) (map Target_norm (bd_targets o)) (map Group_norm (bd_groups o)) (bd_filePath o).
(** dataclass == on Board *)
Definition Board_eqb (a b : Board) : bool :=
  py_eqb (bd_version a) (bd_version b)
  && py_eqb (bd_generator a) (bd_generator b)
  && GeneralSettings_eqb (bd_general a) (bd_general b)
  && PageSettings_eqb (bd_paper a) (bd_paper b)
  && oeqb TitleBlock_eqb (bd_titleBlock a) (bd_titleBlock b)
  && leqb LayerToken_eqb (bd_layers a) (bd_layers b)
  && SetupData_eqb (bd_setup a) (bd_setup b)
  && leqb kveqb (bd_properties a) (bd_properties b)
  && leqb Net_eqb (bd_nets a) (bd_nets b)
  && leqb Footprint_eqb (bd_footprints a) (bd_footprints b)
  && leqb BdItem_eqb (bd_graphicItems a) (bd_graphicItems b)
  && leqb TrItem_eqb (bd_traceItems a) (bd_traceItems b)
  && leqb Zone_eqb (bd_zones a) (bd_zones b)
  && leqb Dimension_eqb (bd_dimensions a) (bd_dimensions b)
  && leqb Target_eqb (bd_targets a) (bd_targets b)
  && leqb Group_eqb (bd_groups a) (bd_groups b)
  && py_eqb (bd_filePath a) (bd_filePath b).
Definition Board_ok (o : Board) : bool :=
  atomb (bd_version o)
  && atomb (bd_generator o)
  && GeneralSettings_ok (bd_general o)
  && PageSettings_ok (bd_paper o)
  && optok TitleBlock_ok (bd_titleBlock o)
  && forallb LayerToken_ok (bd_layers o)
  && SetupData_ok (bd_setup o)
  && text_dict_ok (bd_properties o)
  && forallb Net_ok (bd_nets o)
  && forallb Footprint_ok (bd_footprints o)
  && forallb BdItem_ok (bd_graphicItems o)
  && forallb TrItem_ok (bd_traceItems o)
  && forallb Zone_ok (bd_zones o)
  && forallb Dimension_ok (bd_dimensions o)
  && forallb Target_ok (bd_targets o)
  && forallb Group_ok (bd_groups o)
  && is_none (bd_filePath o).

