(** Model of board.py. *)
From Verif Require Import PyBase PyNum PyStr Sexpr M_Common M_Gr M_Zone M_Footprint M_Dim M_Brd.

@union BdItem board.py:72-78 GrText GrTextBox GrLine GrRect GrCircle GrArc GrPoly GrCurve Image
@union TrItem board.py:80-81 Segment Arc Via
(** board.py:285-289: the points of a polygon start on a new line *)
Definition BdItem_write (x : BdItem) (indent : nat) (newline : bool) : res str :=
  match x with
  | BdItem_GrPoly p => GrPoly_to_pts true p indent newline
  | _ => BdItem_to x indent newline
  end.
@record Board bd board.py:32-94
version atom VStr []
generator atom VStr []
general obj/GeneralSettings GeneralSettings_default
paper obj/PageSettings PageSettings_default
titleBlock oobj/TitleBlock None
layers list/LayerToken []
setup obj/SetupData SetupData_default
properties cust/list~(val~*~val)/text_dict_ok/ []
nets list/Net []
footprints list/Footprint []
graphicItems list/BdItem []
traceItems list/TrItem []
zones list/Zone []
dimensions list/Dimension []
targets list/Target []
groups list/Group []
filePath none VNone
@end
Definition Board_item {A} (c : A -> BdItem) (m : res A) (o : Board) : res Board :=
  addf bd_graphicItems (let! x := m in Ok (c x)) o.
Definition Board_trace {A} (c : A -> TrItem) (m : res A) (o : Board) : res Board :=
  addf bd_traceItems (let! x := m in Ok (c x)) o.
(** board.py:118-145: no test of the item's type.  [now] is the default of a footprint's tedit. *)
Definition Board_step (now : val) (o : Board) (item : val) : res Board :=
  let! h := item@0 in
  let! o := on (h =s "version") (setf bd_version (item@1)) o in
  let! o := on (h =s "generator") (setf bd_generator (item@1)) o in
  let! o := on (h =s "general") (setf bd_general (GeneralSettings_from item)) o in
  let! o := on (h =s "paper") (setf bd_paper (PageSettings_from item)) o in
  let! o := on (h =s "title_block") (setf bd_titleBlock (let! t := TitleBlock_from item in Ok (Some t))) o in
  let! o := on (h =s "layers") (extf bd_layers (let! l := from_ item 1 in mapM LayerToken_from l)) o in
  let! o := on (h =s "setup") (setf bd_setup (SetupData_from item)) o in
  let! o := on (h =s "property") (fun o =>
    let! k := item@1 in let! v := item@2 in let! d := dict_set (bd_properties o) k v in Ok (o <| bd_properties := d |>)) o in
  let! o := on (h =s "net") (addf bd_nets (Net_from item)) o in
  let! o := on (h =s "footprint") (addf bd_footprints (Footprint_from now item)) o in
  let! o := on (h =s "gr_text") (Board_item BdItem_GrText (GrText_from item)) o in
  let! o := on (h =s "gr_text_box") (Board_item BdItem_GrTextBox (GrTextBox_from item)) o in
  let! o := on (h =s "gr_line") (Board_item BdItem_GrLine (GrLine_from item)) o in
  let! o := on (h =s "gr_rect") (Board_item BdItem_GrRect (GrRect_from item)) o in
  let! o := on (h =s "gr_circle") (Board_item BdItem_GrCircle (GrCircle_from item)) o in
  let! o := on (h =s "gr_arc") (Board_item BdItem_GrArc (GrArc_from item)) o in
  let! o := on (h =s "gr_poly") (Board_item BdItem_GrPoly (GrPoly_from item)) o in
  let! o := on (h =s "gr_curve") (Board_item BdItem_GrCurve (GrCurve_from item)) o in
  let! o := on (h =s "image") (Board_item BdItem_Image (Image_from item)) o in
  let! o := on (h =s "dimension") (addf bd_dimensions (Dimension_from item)) o in
  let! o := on (h =s "target") (addf bd_targets (Target_from item)) o in
  let! o := on (h =s "segment") (Board_trace TrItem_Segment (Segment_from item)) o in
  let! o := on (h =s "arc") (Board_trace TrItem_Arc (Arc_from item)) o in
  let! o := on (h =s "via") (Board_trace TrItem_Via (Via_from item)) o in
  let! o := on (h =s "zone") (addf bd_zones (Zone_from item)) o in
  let! o := on (h =s "group") (addf bd_groups (Group_from item)) o in
  Ok o.
(** board.py:96-147 *)
Definition Board_from (now exp : val) : res Board :=
  let! l := need_head "kicad_pcb" exp in foldM (Board_step now) Board_default l.
(** board.py:243-323 *)
Definition Board_to (o : Board) (indent : nat) (newline : bool) : res str :=
  let indents := spaces indent in
  let! general := GeneralSettings_to (bd_general o) (indent + 2) true in
  let! paper := PageSettings_to (bd_paper o) (indent + 2) true in
  let! title := opt_str (bd_titleBlock o) (fun t => let! s := TitleBlock_to t (indent + 2) true in Ok (s ++ nl)) in
  let! layers := concatM (fun x => LayerToken_to x (indent + 4) true) (bd_layers o) in
  let! setup := SetupData_to (bd_setup o) (indent + 2) true in
  let! properties := concatM (fun kv => Ok ($"  (property " ++ quoted (fst kv) ++ $" " ++ quoted (snd kv) ++ $")" ++ nl)) (bd_properties o) in
  let! nets := concatM (fun x => Net_to x (indent + 2) true) (bd_nets o) in
  let! footprints := concatM (fun x => let! s := Footprint_to_layer true x (indent + 2) true in Ok (s ++ nl)) (bd_footprints o) in
  let! items := concatM (fun x => BdItem_write x (indent + 2) true) (bd_graphicItems o) in
  let! dimensions := concatM (fun x => Dimension_to x (indent + 2) true) (bd_dimensions o) in
  let! targets := concatM (fun x => Target_to x (indent + 2) true) (bd_targets o) in
  let! traces := concatM (fun x => TrItem_to x (indent + 2) true) (bd_traceItems o) in
  let! zones := concatM (fun x => Zone_to x (indent + 2) true) (bd_zones o) in
  let! groups := concatM (fun x => Group_to x (indent + 2) true) (bd_groups o) in
  Ok (indents ++ $"(kicad_pcb (version " ++ fmt (bd_version o) ++ $") (generator " ++ fmt (bd_generator o) ++ $")" ++ nl ++ nl
      ++ general ++ nl ++ paper ++ title ++ indents ++ $"  (layers" ++ nl ++ layers ++ indents ++ $"  )" ++ nl ++ nl ++ setup ++ nl
      ++ properties ++ (if Nat.eqb (length (bd_properties o)) 0 then [] else nl)
      ++ nets ++ (if Nat.eqb (length (bd_nets o)) 0 then [] else nl)
      ++ footprints ++ items ++ dimensions ++ targets
      ++ (if Nat.eqb (length (bd_graphicItems o)) 0 && Nat.eqb (length (bd_dimensions o)) 0 && Nat.eqb (length (bd_targets o)) 0 then [] else nl)
      ++ traces ++ (if Nat.eqb (length (bd_traceItems o)) 0 then [] else nl)
      ++ zones ++ groups ++ indents ++ $")" ++ eol newline).
(** board.py:186-216 *)
Definition new_layer (n : Z) (name : String.string) : LayerToken := mkLayerToken (VInt n) (VStr $name) (VStr $"user") VNone.
Definition new_layer_as (n : Z) (name user : String.string) : LayerToken := mkLayerToken (VInt n) (VStr $name) (VStr $"user") (VStr $user).
Arguments new_layer n%Z name%string.
Arguments new_layer_as n%Z (name user)%string.
Definition standard_layers : list LayerToken :=
  [mkLayerToken (VInt 0) (VStr $"F.Cu") (VStr $"signal") VNone; mkLayerToken (VInt 31) (VStr $"B.Cu") (VStr $"signal") VNone;
   new_layer_as 32 "B.Adhes" "B.Adhesive"; new_layer_as 33 "F.Adhes" "F.Adhesive"; new_layer 34 "B.Paste"; new_layer 35 "F.Paste";
   new_layer_as 36 "B.SilkS" "B.Silkscreen"; new_layer_as 37 "F.SilkS" "F.Silkscreen"; new_layer 38 "B.Mask"; new_layer 39 "F.Mask";
   new_layer_as 40 "Dwgs.User" "User.Drawings"; new_layer_as 41 "Cmts.User" "User.Comments"; new_layer_as 42 "Eco1.User" "User.Eco1";
   new_layer_as 43 "Eco2.User" "User.Eco2"; new_layer 44 "Edge.Cuts"; new_layer 45 "Margin"; new_layer_as 46 "B.CrtYd" "B.Courtyard";
   new_layer_as 47 "F.CrtYd" "F.Courtyard"; new_layer 48 "B.Fab"; new_layer 49 "F.Fab"; new_layer 50 "User.1"; new_layer 51 "User.2";
   new_layer 52 "User.3"; new_layer 53 "User.4"; new_layer 54 "User.5"; new_layer 55 "User.6"; new_layer 56 "User.7"; new_layer 57 "User.8";
   new_layer 58 "User.9"].
(** board.py:173-221; misc/config.py for the two constants *)
Definition Board_create_new : Board :=
  Board_default <| bd_version := VStr $"20211014" |> <| bd_generator := VStr $"kiutils" |> <| bd_layers := standard_layers |> <| bd_nets := [Net_default] |>.
