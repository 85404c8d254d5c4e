(** Specification for C48: which expressions are read.

    [X_reads v] says whether [from_sexpr] of the class X returns an object for the expression [v].
    Nothing here mentions an object.  Each class has a table: for the head of an item, what the item
    must look like.  The tables were taken from the source text, not from the model. *)
From Coq Require Import String.
From Verif Require Import PyBase.

(** [v[n]] exists *)
Definition has (n : nat) (v : val) : bool :=
  match v with VList l => Nat.ltb n (length l) | VStr s => Nat.ltb n (length s) | _ => false end.
(** [v[n]] exists and is fine *)
Definition at_place (n : nat) (f : val -> bool) (v : val) : bool :=
  match v with VList l => match nth_error l n with Some x => f x | None => false end | _ => false end.
(** all of [v[n:]] are fine *)
Definition behind (n : nat) (f : val -> bool) (v : val) : bool :=
  match v with VList l => forallb f (skipn n l) | _ => false end.
Definition always (v : val) : bool := true.
Definition never (v : val) : bool := false.
Definition both (f g : val -> bool) (v : val) : bool := f v && g v.
(** may be the key of a dictionary *)
Definition hashable (v : val) : bool := match v with VList _ => false | _ => true end.
Definition text (v : val) : bool := match v with VStr _ => true | _ => false end.
(** [(name text effects?)] *)
Definition named (f : val -> bool) (v : val) : bool :=
  match v with VList (_ :: _ :: x :: _) => f x | VList [_; _] => true | _ => false end.

(** a list item must have a head, and meet the demands of the lines of the table with that head *)
Definition rows (t : list (string * (val -> bool))) (v : val) : bool :=
  match v with
  | VList (h :: _) => forallb (fun kr => if h =s fst kr then snd kr v else true) t
  | _ => false
  end.
(** items of a reader that passes over everything that is not a list *)
Definition lists (t : list (string * (val -> bool))) (v : val) : bool :=
  match v with VList _ => rows t v | _ => true end.
(** items of a reader that passes over text *)
Definition texts (t : list (string * (val -> bool))) (v : val) : bool :=
  match v with VList _ => rows t v | VStr _ => true | _ => false end.
(** items of a reader that looks at [item[0]] of everything *)
Definition strict (t : list (string * (val -> bool))) (v : val) : bool :=
  match v with VList _ => rows t v | VStr (_ :: _) => true | _ => false end.

(** a list with one of the heads, then at least [k] items; the items behind the first [j] are fine *)
Definition expr (heads : list string) (k j : nat) (item : val -> bool) (v : val) : bool :=
  match v with
  | VList (h :: l) => existsb (fun k => h =s k) heads && Nat.leb k (length l) && forallb item (skipn j l)
  | _ => false
  end.
(** a text behind an optional word; the word counts only if no list follows it *)
Definition flagged_expr (head word : string) (item : val -> bool) (v : val) : bool :=
  match v with
  | VList (h :: x :: l) =>
      (h =s head) &&
      (if x =s word
       then match l with [] => false | VList _ :: _ => forallb item l | _ :: l' => forallb item l' end
       else forallb item l)
  | _ => false
  end.

(** items/common.py:49-76 *)
Definition Position_reads (v : val) : bool := match v with VList (_ :: _ :: _ :: _) => true | _ => false end.

(** items/common.py:97-120 *)
Definition Coordinate_reads (v : val) : bool := match v with VList [h; _; _; _] => h =s "xyz" | _ => false end.

(** items/common.py:158-182 *)
Definition ColorRGBA_reads (v : val) : bool := match v with VList [h; _; _; _; _] => h =s "color" | _ => false end.

(** items/common.py:226-252 *)
Definition Stroke_table : list (string * (val -> bool)) :=
  [("width"%string, has 1);
   ("type"%string, has 1);
   ("color"%string, ColorRGBA_reads)].
Definition Stroke_reads : val -> bool := expr ["stroke"%string] 1 0 (lists Stroke_table).

(** items/common.py:308-340 *)
Definition Font_table : list (string * (val -> bool)) :=
  [("face"%string, has 1);
   ("size"%string, has 2);
   ("thickness"%string, has 1);
   ("line_spacing"%string, has 1);
   ("color"%string, ColorRGBA_reads)].
Definition Font_reads : val -> bool := expr ["font"%string] 0 0 (lists Font_table).

(** items/common.py:384-409 *)
Definition Justify_reads : val -> bool := expr ["justify"%string] 0 0 always.

(** items/common.py:461-488 *)
Definition Effects_table : list (string * (val -> bool)) :=
  [("font"%string, Font_reads);
   ("justify"%string, Justify_reads);
   ("href"%string, has 1)].
Definition Effects_reads : val -> bool := expr ["effects"%string] 0 0 (lists Effects_table).

(** items/common.py:522-544 *)
Definition Net_reads : val -> bool := expr ["net"%string] 2 0 always.

(** items/common.py:582-611 *)
Definition Group_table : list (string * (val -> bool)) :=
  [("id"%string, has 1);
   ("members"%string, always)].
Definition Group_reads : val -> bool := expr ["group"%string] 1 0 (lists Group_table).

(** items/common.py:658-690 *)
Definition PageSettings_reads (v : val) : bool :=
  match v with
  | VList (h :: size :: l) => (h =s "paper") && (if size =s "User" then Nat.leb 2 (length l) else true)
  | _ => false
  end.

(** items/common.py:742-768 *)
Definition TitleBlock_table : list (string * (val -> bool)) :=
  [("title"%string, has 1);
   ("date"%string, has 1);
   ("rev"%string, has 1);
   ("company"%string, has 1);
   ("comment"%string, both (has 2) (at_place 1 hashable))].
Definition TitleBlock_reads : val -> bool := expr ["title_block"%string] 0 0 (strict TitleBlock_table).

(** items/common.py:834-861 *)
Definition Property_table : list (string * (val -> bool)) :=
  [("id"%string, has 1);
   ("at"%string, Position_reads);
   ("effects"%string, Effects_reads);
   ("show_name"%string, always)].
Definition Property_reads : val -> bool := expr ["property"%string] 2 2 (strict Property_table).

(** items/common.py:899-923 *)
Definition RenderCachePolygon_table : list (string * (val -> bool)) :=
  [("pts"%string, behind 1 Position_reads)].
Definition RenderCachePolygon_reads : val -> bool := expr ["polygon"%string] 0 0 (strict RenderCachePolygon_table).

(** items/common.py:973-997 *)
Definition RenderCache_table : list (string * (val -> bool)) :=
  [("polygon"%string, RenderCachePolygon_reads)].
Definition RenderCache_reads : val -> bool := expr ["render_cache"%string] 2 0 (strict RenderCache_table).

(** items/common.py:1039-1062 *)
Definition Fill_table : list (string * (val -> bool)) :=
  [("type"%string, has 1);
   ("color"%string, ColorRGBA_reads)].
Definition Fill_reads : val -> bool := expr ["fill"%string] 0 0 (strict Fill_table).

(** items/common.py:1107-1135 *)
Definition Image_table : list (string * (val -> bool)) :=
  [("at"%string, Position_reads);
   ("scale"%string, has 1);
   ("uuid"%string, has 1);
   ("layer"%string, has 1);
   ("data"%string, always)].
Definition Image_reads : val -> bool := expr ["image"%string] 0 0 (strict Image_table).

(** items/common.py:1174-1175 *)
Definition ProjectInstance_reads : val -> bool := never.

(** libraries.py:46-73 *)
Definition Library_table : list (string * (val -> bool)) :=
  [("name"%string, has 1);
   ("type"%string, has 1);
   ("uri"%string, has 1);
   ("options"%string, has 1);
   ("descr"%string, has 1);
   ("disabled"%string, always)].
Definition Library_reads : val -> bool := expr ["lib"%string] 0 0 (strict Library_table).

(** libraries.py:118-141 *)
Definition LibTable_table : list (string * (val -> bool)) :=
  [("lib"%string, Library_reads)].
Definition LibTable_reads : val -> bool := expr ["fp_lib_table"%string; "sym_lib_table"%string] 0 0 (strict LibTable_table).

(** dru.py:72-99 *)
Definition Constraint_table : list (string * (val -> bool)) :=
  [("min"%string, has 1);
   ("opt"%string, has 1);
   ("max"%string, has 1)].
Definition Constraint_reads : val -> bool := expr ["constraint"%string] 1 1 (strict Constraint_table).

(** dru.py:147-173 *)
Definition Rule_table : list (string * (val -> bool)) :=
  [("constraint"%string, Constraint_reads);
   ("condition"%string, has 1);
   ("layer"%string, has 1);
   ("severity"%string, has 1)].
Definition Rule_reads : val -> bool := expr ["rule"%string] 1 1 (strict Rule_table).

(** dru.py:212-238 *)
Definition DesignRules_table : list (string * (val -> bool)) :=
  [("version"%string, has 1);
   ("rule"%string, Rule_reads)].
(** the expressions of a rule file; the first must be the version *)
Definition DesignRules_reads (v : val) : bool :=
  match v with
  | VList ((VList (h :: _) :: _) as l) => (h =s "version") && forallb (strict DesignRules_table) l
  | _ => false
  end.

(** items/syitems.py:56-86 *)
Definition SyArc_table : list (string * (val -> bool)) :=
  [("start"%string, Position_reads);
   ("mid"%string, Position_reads);
   ("end"%string, Position_reads);
   ("stroke"%string, Stroke_reads);
   ("fill"%string, Fill_reads)].
Definition SyArc_reads : val -> bool := expr ["arc"%string] 0 0 (texts SyArc_table).

(** items/syitems.py:139-168 *)
Definition SyCircle_table : list (string * (val -> bool)) :=
  [("center"%string, Position_reads);
   ("radius"%string, has 1);
   ("stroke"%string, Stroke_reads);
   ("fill"%string, Fill_reads)].
Definition SyCircle_reads : val -> bool := expr ["circle"%string] 0 0 (texts SyCircle_table).

(** items/syitems.py:208-234 *)
Definition SyCurve_table : list (string * (val -> bool)) :=
  [("stroke"%string, Stroke_reads);
   ("fill"%string, Fill_reads);
   ("pts"%string, behind 1 Position_reads)].
Definition SyCurve_reads : val -> bool := expr ["curve"%string] 0 0 (strict SyCurve_table).

(** items/syitems.py:277-303 *)
Definition SyPolyLine_table : list (string * (val -> bool)) :=
  [("stroke"%string, Stroke_reads);
   ("fill"%string, Fill_reads);
   ("pts"%string, behind 1 Position_reads)].
Definition SyPolyLine_reads : val -> bool := expr ["polyline"%string] 0 0 (strict SyPolyLine_table).

(** items/syitems.py:355-384 *)
Definition SyRect_table : list (string * (val -> bool)) :=
  [("start"%string, Position_reads);
   ("end"%string, Position_reads);
   ("stroke"%string, Stroke_reads);
   ("fill"%string, Fill_reads)].
Definition SyRect_reads : val -> bool := expr ["rectangle"%string] 0 0 (texts SyRect_table).

(** items/syitems.py:424-448 *)
Definition SyText_table : list (string * (val -> bool)) :=
  [("at"%string, Position_reads);
   ("effects"%string, Effects_reads)].
Definition SyText_reads : val -> bool := expr ["text"%string] 1 1 (strict SyText_table).

(** items/syitems.py:509-546 *)
Definition SyTextBox_table : list (string * (val -> bool)) :=
  [("at"%string, Position_reads);
   ("size"%string, Position_reads);
   ("effects"%string, Effects_reads);
   ("stroke"%string, Stroke_reads);
   ("fill"%string, Fill_reads);
   ("uuid"%string, has 1)].
Definition SyTextBox_reads : val -> bool := flagged_expr "text_box"%string "private"%string (strict SyTextBox_table).

(** symbol.py:42-65 *)
Definition SymbolAlternativePin_reads : val -> bool := expr ["alternate"%string] 3 0 always.

(** symbol.py:126-163 *)
Definition SymbolPin_table : list (string * (val -> bool)) :=
  [("at"%string, Position_reads);
   ("length"%string, has 1);
   ("name"%string, named Effects_reads);
   ("number"%string, named Effects_reads);
   ("alternate"%string, SymbolAlternativePin_reads)].
Definition SymbolPin_reads : val -> bool := expr ["pin"%string] 2 2 (lists SymbolPin_table).

(** symbol.py:359-408 *)
Definition Symbol_table : list (string * (val -> bool)) :=
  [("extends"%string, has 1);
   ("pin_numbers"%string, has 1);
   ("pin_names"%string, behind 1 (lists [("offset"%string, has 1)]));
   ("in_bom"%string, has 1);
   ("on_board"%string, has 1);
   ("power"%string, always);
   ("property"%string, Property_reads);
   ("pin"%string, SymbolPin_reads);
   ("arc"%string, SyArc_reads);
   ("circle"%string, SyCircle_reads);
   ("curve"%string, SyCurve_reads);
   ("polyline"%string, SyPolyLine_reads);
   ("rectangle"%string, SyRect_reads);
   ("text"%string, SyText_reads);
   ("text_box"%string, SyTextBox_reads)].
(** the id must be text; units are symbols again *)
Fixpoint Symbol_reads (v : val) : bool :=
  match v with
  | VList (h :: VStr _ :: l) =>
      (h =s "symbol") && forallb (fun x => (if at_place 0 (fun h => h =s "symbol") x then Symbol_reads x else true) && strict Symbol_table x) l
  | _ => false
  end.

(** symbol.py:528-553 *)
Definition SymbolLib_table : list (string * (val -> bool)) :=
  [("version"%string, has 1);
   ("generator"%string, has 1);
   ("symbol"%string, Symbol_reads)].
Definition SymbolLib_reads : val -> bool := expr ["kicad_symbol_lib"%string] 0 0 (strict SymbolLib_table).

(** items/fpitems.py:71-106 *)
Definition FpText_table : list (string * (val -> bool)) :=
  [("at"%string, Position_reads);
   ("layer"%string, has 1);
   ("effects"%string, Effects_reads);
   ("tstamp"%string, has 1);
   ("render_cache"%string, RenderCache_reads)].
Definition FpText_reads : val -> bool := expr ["fp_text"%string] 2 2 (lists FpText_table).

(** items/fpitems.py:167-203 *)
Definition FpLine_table : list (string * (val -> bool)) :=
  [("start"%string, Position_reads);
   ("end"%string, Position_reads);
   ("layer"%string, has 1);
   ("tstamp"%string, has 1);
   ("width"%string, has 1);
   ("stroke"%string, Stroke_reads)].
Definition FpLine_reads : val -> bool := expr ["fp_line"%string] 0 0 (lists FpLine_table).

(** items/fpitems.py:261-298 *)
Definition FpRect_table : list (string * (val -> bool)) :=
  [("start"%string, Position_reads);
   ("end"%string, Position_reads);
   ("layer"%string, has 1);
   ("tstamp"%string, has 1);
   ("fill"%string, has 1);
   ("width"%string, has 1);
   ("stroke"%string, Stroke_reads)].
Definition FpRect_reads : val -> bool := expr ["fp_rect"%string] 0 0 (lists FpRect_table).

(** items/fpitems.py:381-424 *)
Definition FpTextBox_table : list (string * (val -> bool)) :=
  [("start"%string, Position_reads);
   ("end"%string, Position_reads);
   ("pts"%string, behind 1 Position_reads);
   ("angle"%string, has 1);
   ("layer"%string, has 1);
   ("tstamp"%string, has 1);
   ("effects"%string, Effects_reads);
   ("stroke"%string, Stroke_reads);
   ("render_cache"%string, RenderCache_reads)].
Definition FpTextBox_reads : val -> bool := flagged_expr "fp_text_box"%string "locked"%string (strict FpTextBox_table).

(** items/fpitems.py:507-544 *)
Definition FpCircle_table : list (string * (val -> bool)) :=
  [("center"%string, Position_reads);
   ("end"%string, Position_reads);
   ("layer"%string, has 1);
   ("tstamp"%string, has 1);
   ("fill"%string, has 1);
   ("width"%string, has 1);
   ("stroke"%string, Stroke_reads)].
Definition FpCircle_reads : val -> bool := expr ["fp_circle"%string] 0 0 (lists FpCircle_table).

(** items/fpitems.py:605-642 *)
Definition FpArc_table : list (string * (val -> bool)) :=
  [("start"%string, Position_reads);
   ("mid"%string, Position_reads);
   ("end"%string, Position_reads);
   ("layer"%string, has 1);
   ("tstamp"%string, has 1);
   ("width"%string, has 1);
   ("stroke"%string, Stroke_reads)].
Definition FpArc_reads : val -> bool := expr ["fp_arc"%string] 0 0 (lists FpArc_table).

(** items/fpitems.py:700-739 *)
Definition FpPoly_table : list (string * (val -> bool)) :=
  [("pts"%string, behind 1 Position_reads);
   ("layer"%string, has 1);
   ("tstamp"%string, has 1);
   ("fill"%string, has 1);
   ("width"%string, has 1);
   ("stroke"%string, Stroke_reads)].
Definition FpPoly_reads : val -> bool := expr ["fp_poly"%string] 0 0 (lists FpPoly_table).

(** items/fpitems.py:801-838 *)
Definition FpCurve_table : list (string * (val -> bool)) :=
  [("pts"%string, behind 1 Position_reads);
   ("layer"%string, has 1);
   ("tstamp"%string, has 1);
   ("width"%string, has 1);
   ("stroke"%string, Stroke_reads)].
Definition FpCurve_reads : val -> bool := expr ["fp_curve"%string] 0 0 (lists FpCurve_table).

(** items/gritems.py:64-98 *)
Definition GrText_table : list (string * (val -> bool)) :=
  [("at"%string, Position_reads);
   ("layer"%string, has 1);
   ("effects"%string, Effects_reads);
   ("tstamp"%string, has 1);
   ("render_cache"%string, RenderCache_reads)].
Definition GrText_reads : val -> bool := expr ["gr_text"%string] 1 1 (lists GrText_table).

(** items/gritems.py:183-226 *)
Definition GrTextBox_table : list (string * (val -> bool)) :=
  [("start"%string, Position_reads);
   ("end"%string, Position_reads);
   ("pts"%string, behind 1 Position_reads);
   ("angle"%string, has 1);
   ("layer"%string, has 1);
   ("tstamp"%string, has 1);
   ("effects"%string, Effects_reads);
   ("stroke"%string, Stroke_reads);
   ("render_cache"%string, RenderCache_reads)].
Definition GrTextBox_reads : val -> bool := flagged_expr "gr_text_box"%string "locked"%string (strict GrTextBox_table).

(** items/gritems.py:305-334 *)
Definition GrLine_table : list (string * (val -> bool)) :=
  [("start"%string, Position_reads);
   ("end"%string, Position_reads);
   ("layer"%string, has 1);
   ("tstamp"%string, has 1);
   ("width"%string, has 1)].
Definition GrLine_reads : val -> bool := expr ["gr_line"%string] 0 0 (lists GrLine_table).

(** items/gritems.py:386-416 *)
Definition GrRect_table : list (string * (val -> bool)) :=
  [("start"%string, Position_reads);
   ("end"%string, Position_reads);
   ("layer"%string, has 1);
   ("tstamp"%string, has 1);
   ("fill"%string, has 1);
   ("width"%string, has 1)].
Definition GrRect_reads : val -> bool := expr ["gr_rect"%string] 0 0 (lists GrRect_table).

(** items/gritems.py:468-499 *)
Definition GrCircle_table : list (string * (val -> bool)) :=
  [("center"%string, Position_reads);
   ("end"%string, Position_reads);
   ("layer"%string, has 1);
   ("tstamp"%string, has 1);
   ("fill"%string, has 1);
   ("width"%string, has 1)].
Definition GrCircle_reads : val -> bool := expr ["gr_circle"%string] 0 0 (lists GrCircle_table).

(** items/gritems.py:551-582 *)
Definition GrArc_table : list (string * (val -> bool)) :=
  [("start"%string, Position_reads);
   ("mid"%string, Position_reads);
   ("end"%string, Position_reads);
   ("layer"%string, has 1);
   ("tstamp"%string, has 1);
   ("width"%string, has 1)].
Definition GrArc_reads : val -> bool := expr ["gr_arc"%string] 0 0 (lists GrArc_table).

(** items/gritems.py:630-663 *)
Definition GrPoly_table : list (string * (val -> bool)) :=
  [("pts"%string, behind 1 Position_reads);
   ("layer"%string, has 1);
   ("tstamp"%string, has 1);
   ("fill"%string, has 1);
   ("width"%string, has 1)].
Definition GrPoly_reads : val -> bool := expr ["gr_poly"%string] 0 0 (lists GrPoly_table).

(** items/gritems.py:723-754 *)
Definition GrCurve_table : list (string * (val -> bool)) :=
  [("pts"%string, behind 1 Position_reads);
   ("layer"%string, has 1);
   ("tstamp"%string, has 1);
   ("width"%string, has 1)].
Definition GrCurve_reads : val -> bool := expr ["gr_curve"%string] 0 0 (lists GrCurve_table).

(** items/zones.py:55-85 *)
Definition KeepoutSettings_table : list (string * (val -> bool)) :=
  [("tracks"%string, has 1);
   ("vias"%string, has 1);
   ("pads"%string, has 1);
   ("copperpour"%string, has 1);
   ("footprints"%string, has 1)].
Definition KeepoutSettings_reads : val -> bool := expr ["keepout"%string] 0 0 (lists KeepoutSettings_table).

(** items/zones.py:182-222 *)
Definition FillSettings_table : list (string * (val -> bool)) :=
  [("mode"%string, has 1);
   ("thermal_gap"%string, has 1);
   ("thermal_bridge_width"%string, has 1);
   ("smoothing"%string, has 1);
   ("radius"%string, has 1);
   ("island_removal_mode"%string, has 1);
   ("island_area_min"%string, has 1);
   ("hatch_thickness"%string, has 1);
   ("hatch_gap"%string, has 1);
   ("hatch_orientation"%string, has 1);
   ("hatch_smoothing_level"%string, has 1);
   ("hatch_smoothing_value"%string, has 1);
   ("hatch_border_algorithm"%string, has 1);
   ("hatch_min_hole_area"%string, has 1)].
Definition FillSettings_reads : val -> bool := expr ["fill"%string] 0 0 (lists FillSettings_table).

(** items/zones.py:262-289 *)
Definition ZonePolygon_table : list (string * (val -> bool)) :=
  [("pts"%string, behind 1 Position_reads)].
Definition ZonePolygon_reads : val -> bool := expr ["polygon"%string] 0 0 (lists ZonePolygon_table).

(** items/zones.py:335-365 *)
Definition FilledPolygon_table : list (string * (val -> bool)) :=
  [("layer"%string, has 1);
   ("island"%string, always);
   ("pts"%string, behind 1 Position_reads)].
Definition FilledPolygon_reads : val -> bool := expr ["filled_polygon"%string] 0 0 (lists FilledPolygon_table).

(** items/zones.py:412-441 *)
Definition FillSegments_table : list (string * (val -> bool)) :=
  [("layer"%string, has 1);
   ("pts"%string, behind 1 Position_reads)].
Definition FillSegments_reads : val -> bool := expr ["fill_segments"%string] 0 0 (lists FillSegments_table).

(** items/zones.py:586-591: [(connect_pads (clearance 1))] or [(connect_pads no (clearance 1))] *)
Definition Zone_pads (v : val) : bool :=
  match v with VList [_; x] => has 1 x | VList (_ :: _ :: x :: _) => has 1 x | _ => false end.

(** items/zones.py:554-603 *)
Definition Zone_table : list (string * (val -> bool)) :=
  [("net"%string, has 1);
   ("net_name"%string, has 1);
   ("layers"%string, always);
   ("layer"%string, always);
   ("tstamp"%string, has 1);
   ("name"%string, has 1);
   ("hatch"%string, has 2);
   ("priority"%string, has 1);
   ("connect_pads"%string, Zone_pads);
   ("min_thickness"%string, has 1);
   ("filled_areas_thickness"%string, has 1);
   ("keepout"%string, KeepoutSettings_reads);
   ("fill"%string, FillSettings_reads);
   ("polygon"%string, ZonePolygon_reads);
   ("filled_polygon"%string, FilledPolygon_reads);
   ("fill_segments"%string, FillSegments_reads)].
Definition Zone_reads : val -> bool := expr ["zone"%string] 0 0 (lists Zone_table).

(** footprint.py:64-95 *)
Definition Attributes_reads : val -> bool := expr ["attr"%string] 0 0 always.

(** footprint.py:161-195 *)
Definition Model_table : list (string * (val -> bool)) :=
  [("opacity"%string, has 1);
   ("offset"%string, at_place 1 Coordinate_reads);
   ("scale"%string, at_place 1 Coordinate_reads);
   ("rotate"%string, at_place 1 Coordinate_reads)].
Definition Model_reads : val -> bool := expr ["model"%string] 4 1 (strict Model_table).

(** footprint.py:241-275 *)
Definition DrillDefinition_table : list (string * (val -> bool)) :=
  [("offset"%string, Position_reads)].
(** an oval drill needs two numbers *)
Definition DrillDefinition_reads (v : val) : bool :=
  match v with
  | VList (h :: x :: l) => (h =s "drill") && (if x =s "oval" then Nat.leb 2 (length l) else true) && lists DrillDefinition_table x && forallb (lists DrillDefinition_table) l
  | _ => false
  end.

(** footprint.py:313-336 *)
Definition PadOptions_table : list (string * (val -> bool)) :=
  [("clearance"%string, has 1);
   ("anchor"%string, has 1)].
Definition PadOptions_reads : val -> bool := expr ["options"%string] 0 0 (strict PadOptions_table).

(** footprint.py:525-547: the primitives of a custom pad *)
Definition PadPrimitive_table : list (string * (val -> bool)) :=
  [("gr_text"%string, GrText_reads);
   ("gr_text_box"%string, GrTextBox_reads);
   ("gr_line"%string, GrLine_reads);
   ("gr_rect"%string, GrRect_reads);
   ("gr_circle"%string, GrCircle_reads);
   ("gr_arc"%string, GrArc_reads);
   ("gr_poly"%string, GrPoly_reads);
   ("gr_curve"%string, GrCurve_reads);
   ("dimension"%string, never)].

(** footprint.py:481-549 *)
Definition Pad_table : list (string * (val -> bool)) :=
  [("at"%string, Position_reads);
   ("size"%string, Position_reads);
   ("drill"%string, DrillDefinition_reads);
   ("layers"%string, always);
   ("property"%string, has 1);
   ("remove_unused_layers"%string, always);
   ("keep_end_layers"%string, always);
   ("roundrect_rratio"%string, has 1);
   ("chamfer_ratio"%string, has 1);
   ("chamfer"%string, always);
   ("net"%string, Net_reads);
   ("tstamp"%string, has 1);
   ("pinfunction"%string, has 1);
   ("pintype"%string, has 1);
   ("die_length"%string, has 1);
   ("solder_mask_margin"%string, has 1);
   ("solder_paste_margin"%string, has 1);
   ("solder_paste_margin_ratio"%string, has 1);
   ("clearance"%string, has 1);
   ("zone_connect"%string, has 1);
   ("thermal_width"%string, has 1);
   ("thermal_gap"%string, has 1);
   ("options"%string, PadOptions_reads);
   ("primitives"%string, behind 1 (strict PadPrimitive_table))].
Definition Pad_reads : val -> bool := expr ["pad"%string] 3 2 (strict Pad_table).

(** footprint.py:841-910 *)
Definition Footprint_table : list (string * (val -> bool)) :=
  [("version"%string, has 1);
   ("generator"%string, has 1);
   ("layer"%string, has 1);
   ("tedit"%string, has 1);
   ("tstamp"%string, has 1);
   ("descr"%string, has 1);
   ("tags"%string, has 1);
   ("path"%string, has 1);
   ("at"%string, Position_reads);
   ("autoplace_cost90"%string, has 1);
   ("autoplace_cost180"%string, has 1);
   ("solder_mask_margin"%string, has 1);
   ("solder_paste_margin"%string, has 1);
   ("solder_paste_ratio"%string, has 1);
   ("clearance"%string, has 1);
   ("zone_connect"%string, has 1);
   ("thermal_width"%string, has 1);
   ("thermal_gap"%string, has 1);
   ("attr"%string, Attributes_reads);
   ("model"%string, Model_reads);
   ("fp_text"%string, FpText_reads);
   ("fp_text_box"%string, FpTextBox_reads);
   ("fp_line"%string, FpLine_reads);
   ("fp_rect"%string, FpRect_reads);
   ("fp_circle"%string, FpCircle_reads);
   ("fp_arc"%string, FpArc_reads);
   ("fp_poly"%string, FpPoly_reads);
   ("fp_curve"%string, FpCurve_reads);
   ("image"%string, Image_reads);
   ("pad"%string, Pad_reads);
   ("zone"%string, Zone_reads);
   ("property"%string, both (has 2) (at_place 1 hashable));
   ("group"%string, Group_reads);
   ("private_layers"%string, always);
   ("net_tie_pad_groups"%string, always);
   ("dimension"%string, never)].
Definition Footprint_reads : val -> bool := expr ["module"%string; "footprint"%string] 1 1 (lists Footprint_table).

(** items/dimensions.py:66-97 *)
Definition DimensionFormat_table : list (string * (val -> bool)) :=
  [("prefix"%string, has 1);
   ("suffix"%string, has 1);
   ("units"%string, has 1);
   ("units_format"%string, has 1);
   ("precision"%string, has 1);
   ("override_value"%string, has 1)].
Definition DimensionFormat_reads : val -> bool := expr ["format"%string] 0 0 (lists DimensionFormat_table).

(** items/dimensions.py:163-193 *)
Definition DimensionStyle_table : list (string * (val -> bool)) :=
  [("thickness"%string, has 1);
   ("arrow_length"%string, has 1);
   ("text_position_mode"%string, has 1);
   ("extension_height"%string, has 1);
   ("text_frame"%string, has 1);
   ("extension_offset"%string, has 1)].
Definition DimensionStyle_reads : val -> bool := expr ["style"%string] 0 0 (lists DimensionStyle_table).

(** items/dimensions.py:263-300 *)
Definition Dimension_table : list (string * (val -> bool)) :=
  [("type"%string, has 1);
   ("layer"%string, has 1);
   ("tstamp"%string, has 1);
   ("height"%string, has 1);
   ("orientation"%string, has 1);
   ("leader_length"%string, has 1);
   ("gr_text"%string, GrText_reads);
   ("format"%string, DimensionFormat_reads);
   ("style"%string, DimensionStyle_reads);
   ("pts"%string, behind 1 Position_reads)].
Definition Dimension_reads : val -> bool := expr ["dimension"%string] 0 0 (lists Dimension_table).

(** items/brditems.py:36-58 *)
Definition GeneralSettings_table : list (string * (val -> bool)) :=
  [("thickness"%string, has 1)].
Definition GeneralSettings_reads : val -> bool := expr ["general"%string] 0 0 (strict GeneralSettings_table).

(** items/brditems.py:102-124 *)
Definition LayerToken_reads (v : val) : bool :=
  match v with VList [_; _; _] | VList [_; _; _; _] => true | _ => false end.

(** items/brditems.py:161-168 *)
Definition StackupSubLayer_reads : val -> bool := never.

(** items/brditems.py:233-290 *)
Definition StackupLayer_table : list (string * (val -> bool)) :=
  [("type"%string, has 1);
   ("thickness"%string, has 1);
   ("material"%string, has 1);
   ("epsilon_r"%string, has 1);
   ("loss_tangent"%string, has 1);
   ("color"%string, has 1)].
(** behind the first word [addsublayer] only four of the tokens are looked at *)
Definition StackupSubLayer_table : list (string * (val -> bool)) :=
  [("thickness"%string, has 1); ("material"%string, has 1); ("epsilon_r"%string, has 1); ("loss_tangent"%string, has 1)].
Fixpoint StackupLayer_items (l : list val) : bool :=
  match l with
  | [] => true
  | x :: l' => if x =s "addsublayer" then forallb (lists StackupSubLayer_table) l'
               else lists StackupLayer_table x && StackupLayer_items l'
  end.
Definition StackupLayer_reads (v : val) : bool :=
  match v with VList (h :: _ :: l) => (h =s "layer") && StackupLayer_items l | _ => false end.

(** items/brditems.py:351-378 *)
Definition Stackup_table : list (string * (val -> bool)) :=
  [("layer"%string, StackupLayer_reads);
   ("copper_finish"%string, has 1);
   ("dielectric_constraints"%string, has 1);
   ("edge_connector"%string, has 1);
   ("castellated_pads"%string, always);
   ("edge_plating"%string, always)].
Definition Stackup_reads : val -> bool := expr ["stackup"%string] 0 0 (strict Stackup_table).

(** items/brditems.py:543-598 *)
Definition PlotSettings_table : list (string * (val -> bool)) :=
  [("layerselection"%string, has 1);
   ("plot_on_all_layers_selection"%string, has 1);
   ("disableapertmacros"%string, has 1);
   ("usegerberextensions"%string, has 1);
   ("usegerberattributes"%string, has 1);
   ("usegerberadvancedattributes"%string, has 1);
   ("creategerberjobfile"%string, has 1);
   ("dashed_line_dash_ratio"%string, has 1);
   ("dashed_line_gap_ratio"%string, has 1);
   ("svguseinch"%string, has 1);
   ("svgprecision"%string, has 1);
   ("excludeedgelayer"%string, has 1);
   ("plotframeref"%string, has 1);
   ("viasonmask"%string, has 1);
   ("mode"%string, has 1);
   ("useauxorigin"%string, has 1);
   ("hpglpennumber"%string, has 1);
   ("hpglpenspeed"%string, has 1);
   ("hpglpendiameter"%string, has 1);
   ("dxfpolygonmode"%string, has 1);
   ("dxfimperialunits"%string, has 1);
   ("dxfusepcbnewfont"%string, has 1);
   ("psnegative"%string, has 1);
   ("psa4output"%string, has 1);
   ("plotreference"%string, has 1);
   ("plotvalue"%string, has 1);
   ("plotinvisibletext"%string, has 1);
   ("sketchpadsonfab"%string, has 1);
   ("subtractmaskfromsilk"%string, has 1);
   ("outputformat"%string, has 1);
   ("mirror"%string, has 1);
   ("drillshape"%string, has 1);
   ("scaleselection"%string, has 1);
   ("outputdirectory"%string, has 1)].
Definition PlotSettings_reads : val -> bool := expr ["pcbplotparams"%string] 0 0 (strict PlotSettings_table).

(** items/brditems.py:698-728 *)
Definition SetupData_table : list (string * (val -> bool)) :=
  [("stackup"%string, Stackup_reads);
   ("pcbplotparams"%string, PlotSettings_reads);
   ("pad_to_mask_clearance"%string, has 1);
   ("solder_mask_min_width"%string, has 1);
   ("pad_to_paste_clearance"%string, has 1);
   ("pad_to_paste_clearance_ratio"%string, has 1);
   ("aux_axis_origin"%string, Position_reads);
   ("grid_origin"%string, Position_reads);
   ("pcbplotparams"%string, PlotSettings_reads)].
Definition SetupData_reads : val -> bool := expr ["setup"%string] 0 0 (strict SetupData_table).

(** items/brditems.py:787-817 *)
Definition Segment_table : list (string * (val -> bool)) :=
  [("start"%string, Position_reads);
   ("end"%string, Position_reads);
   ("width"%string, has 1);
   ("layer"%string, has 1);
   ("net"%string, has 1);
   ("tstamp"%string, has 1)].
Definition Segment_reads : val -> bool := expr ["segment"%string] 0 0 (lists Segment_table).

(** items/brditems.py:880-916 *)
Definition Via_table : list (string * (val -> bool)) :=
  [("at"%string, Position_reads);
   ("size"%string, has 1);
   ("drill"%string, has 1);
   ("layers"%string, always);
   ("remove_unused_layers"%string, always);
   ("keep_end_layers"%string, always);
   ("free"%string, always);
   ("net"%string, has 1);
   ("tstamp"%string, has 1)].
Definition Via_reads : val -> bool := expr ["via"%string] 0 0 (lists Via_table).

(** items/brditems.py:979-1010 *)
Definition Arc_table : list (string * (val -> bool)) :=
  [("start"%string, Position_reads);
   ("mid"%string, Position_reads);
   ("end"%string, Position_reads);
   ("width"%string, has 1);
   ("layer"%string, has 1);
   ("net"%string, has 1);
   ("tstamp"%string, has 1)].
Definition Arc_reads : val -> bool := expr ["arc"%string] 0 0 (lists Arc_table).

(** items/brditems.py:1062-1089 *)
Definition Target_table : list (string * (val -> bool)) :=
  [("at"%string, Position_reads);
   ("size"%string, has 1);
   ("width"%string, has 1);
   ("layer"%string, has 1);
   ("tstamp"%string, has 1)].
Definition Target_reads : val -> bool := expr ["target"%string] 1 1 (strict Target_table).

(** board.py:97-147 *)
Definition Board_table : list (string * (val -> bool)) :=
  [("version"%string, has 1);
   ("generator"%string, has 1);
   ("general"%string, GeneralSettings_reads);
   ("paper"%string, PageSettings_reads);
   ("title_block"%string, TitleBlock_reads);
   ("layers"%string, behind 1 LayerToken_reads);
   ("setup"%string, SetupData_reads);
   ("property"%string, both (has 2) (at_place 1 hashable));
   ("net"%string, Net_reads);
   ("footprint"%string, Footprint_reads);
   ("gr_text"%string, GrText_reads);
   ("gr_text_box"%string, GrTextBox_reads);
   ("gr_line"%string, GrLine_reads);
   ("gr_rect"%string, GrRect_reads);
   ("gr_circle"%string, GrCircle_reads);
   ("gr_arc"%string, GrArc_reads);
   ("gr_poly"%string, GrPoly_reads);
   ("gr_curve"%string, GrCurve_reads);
   ("image"%string, Image_reads);
   ("dimension"%string, Dimension_reads);
   ("target"%string, Target_reads);
   ("segment"%string, Segment_reads);
   ("arc"%string, Arc_reads);
   ("via"%string, Via_reads);
   ("zone"%string, Zone_reads);
   ("group"%string, Group_reads)].
Definition Board_reads : val -> bool := expr ["kicad_pcb"%string] 0 0 (strict Board_table).

(** items/schitems.py:48-73 *)
Definition Junction_table : list (string * (val -> bool)) :=
  [("at"%string, Position_reads);
   ("color"%string, ColorRGBA_reads);
   ("diameter"%string, has 1);
   ("uuid"%string, has 1)].
Definition Junction_reads : val -> bool := expr ["junction"%string] 0 0 (strict Junction_table).

(** items/schitems.py:106-129 *)
Definition NoConnect_table : list (string * (val -> bool)) :=
  [("at"%string, Position_reads);
   ("uuid"%string, has 1)].
Definition NoConnect_reads : val -> bool := expr ["no_connect"%string] 0 0 (strict NoConnect_table).

(** items/schitems.py:169-194 *)
Definition BusEntry_table : list (string * (val -> bool)) :=
  [("at"%string, Position_reads);
   ("stroke"%string, Stroke_reads);
   ("size"%string, Position_reads);
   ("uuid"%string, has 1)].
Definition BusEntry_reads : val -> bool := expr ["bus_entry"%string] 0 0 (strict BusEntry_table).

(** items/schitems.py:232-262 *)
Definition BusAlias_reads (v : val) : bool :=
  match v with VList [h; _; VList (m :: _)] => (h =s "bus_alias") && (m =s "members") | _ => false end.

(** items/schitems.py:303-330 *)
Definition Connection_table : list (string * (val -> bool)) :=
  [("pts"%string, behind 1 Position_reads);
   ("stroke"%string, Stroke_reads);
   ("uuid"%string, has 1)].
Definition Connection_reads : val -> bool := expr ["wire"%string; "bus"%string] 0 0 (strict Connection_table).

(** items/schitems.py:375-401 *)
Definition PolyLine_table : list (string * (val -> bool)) :=
  [("pts"%string, behind 1 Position_reads);
   ("stroke"%string, Stroke_reads);
   ("uuid"%string, has 1)].
Definition PolyLine_reads : val -> bool := expr ["polyline"%string] 0 0 (strict PolyLine_table).

(** items/schitems.py:448-473 *)
Definition Text_table : list (string * (val -> bool)) :=
  [("at"%string, Position_reads);
   ("effects"%string, Effects_reads);
   ("uuid"%string, has 1)].
Definition Text_reads : val -> bool := expr ["text"%string] 1 1 (strict Text_table).

(** items/schitems.py:535-563 *)
Definition TextBox_table : list (string * (val -> bool)) :=
  [("at"%string, Position_reads);
   ("size"%string, Position_reads);
   ("effects"%string, Effects_reads);
   ("stroke"%string, Stroke_reads);
   ("fill"%string, Fill_reads);
   ("uuid"%string, has 1)].
Definition TextBox_reads : val -> bool := expr ["text_box"%string] 1 1 (strict TextBox_table).

(** items/schitems.py:615-641 *)
Definition LocalLabel_table : list (string * (val -> bool)) :=
  [("at"%string, Position_reads);
   ("effects"%string, Effects_reads);
   ("uuid"%string, has 1);
   ("fields_autoplaced"%string, always)].
Definition LocalLabel_reads : val -> bool := expr ["label"%string] 1 1 (strict LocalLabel_table).

(** items/schitems.py:699-727 *)
Definition GlobalLabel_table : list (string * (val -> bool)) :=
  [("fields_autoplaced"%string, always);
   ("at"%string, Position_reads);
   ("effects"%string, Effects_reads);
   ("property"%string, Property_reads);
   ("shape"%string, has 1);
   ("uuid"%string, has 1)].
Definition GlobalLabel_reads : val -> bool := expr ["global_label"%string] 1 1 (strict GlobalLabel_table).

(** items/schitems.py:784-811 *)
Definition HierarchicalLabel_table : list (string * (val -> bool)) :=
  [("at"%string, Position_reads);
   ("effects"%string, Effects_reads);
   ("shape"%string, has 1);
   ("uuid"%string, has 1);
   ("fields_autoplaced"%string, always)].
Definition HierarchicalLabel_reads : val -> bool := expr ["hierarchical_label"%string] 1 1 (strict HierarchicalLabel_table).

(** items/schitems.py:859-883 *)
Definition SymbolProjectPath_table : list (string * (val -> bool)) :=
  [("reference"%string, has 1);
   ("unit"%string, has 1)].
Definition SymbolProjectPath_reads : val -> bool := expr ["path"%string] 1 1 (strict SymbolProjectPath_table).

(** items/schitems.py:919-942 *)
Definition SymbolProjectInstance_table : list (string * (val -> bool)) :=
  [("path"%string, SymbolProjectPath_reads)].
Definition SymbolProjectInstance_reads : val -> bool := expr ["project"%string] 1 1 (strict SymbolProjectInstance_table).

(** items/schitems.py:1063-1100 *)
Definition SchematicSymbol_table : list (string * (val -> bool)) :=
  [("fields_autoplaced"%string, always);
   ("lib_id"%string, at_place 1 text);
   ("lib_name"%string, has 1);
   ("uuid"%string, has 1);
   ("unit"%string, has 1);
   ("in_bom"%string, has 1);
   ("on_board"%string, has 1);
   ("dnp"%string, has 1);
   ("at"%string, Position_reads);
   ("property"%string, Property_reads);
   ("pin"%string, both (at_place 1 hashable) (at_place 2 (has 1)));
   ("mirror"%string, has 1);
   ("instances"%string, behind 1 SymbolProjectInstance_reads)].
Definition SchematicSymbol_reads : val -> bool := expr ["symbol"%string] 0 0 (strict SchematicSymbol_table).

(** items/schitems.py:1170-1196 *)
Definition HierarchicalPin_table : list (string * (val -> bool)) :=
  [("at"%string, Position_reads);
   ("effects"%string, Effects_reads);
   ("uuid"%string, has 1)].
Definition HierarchicalPin_reads : val -> bool := expr ["pin"%string] 2 2 (strict HierarchicalPin_table).

(** items/schitems.py:1239-1262 *)
Definition HierarchicalSheetProjectPath_table : list (string * (val -> bool)) :=
  [("page"%string, has 1)].
Definition HierarchicalSheetProjectPath_reads : val -> bool := expr ["path"%string] 1 1 (strict HierarchicalSheetProjectPath_table).

(** items/schitems.py:1295-1318 *)
Definition HierarchicalSheetProjectInstance_table : list (string * (val -> bool)) :=
  [("path"%string, HierarchicalSheetProjectPath_reads)].
Definition HierarchicalSheetProjectInstance_reads : val -> bool := expr ["project"%string] 1 1 (strict HierarchicalSheetProjectInstance_table).

(** items/schitems.py:1391-1431 *)
Definition HierarchicalSheet_table : list (string * (val -> bool)) :=
  [("fields_autoplaced"%string, always);
   ("at"%string, Position_reads);
   ("stroke"%string, Stroke_reads);
   ("size"%string, has 2);
   ("fill"%string, at_place 1 ColorRGBA_reads);
   ("uuid"%string, has 1);
   ("property"%string, Property_reads);
   ("pin"%string, HierarchicalPin_reads);
   ("instances"%string, behind 1 HierarchicalSheetProjectInstance_reads)].
Definition HierarchicalSheet_reads : val -> bool := expr ["sheet"%string] 0 0 (strict HierarchicalSheet_table).

(** items/schitems.py:1484-1507 *)
Definition HierarchicalSheetInstance_table : list (string * (val -> bool)) :=
  [("page"%string, has 1)].
Definition HierarchicalSheetInstance_reads : val -> bool := expr ["path"%string] 1 1 (strict HierarchicalSheetInstance_table).

(** items/schitems.py:1550-1576 *)
Definition SymbolInstance_table : list (string * (val -> bool)) :=
  [("reference"%string, has 1);
   ("unit"%string, has 1);
   ("value"%string, has 1);
   ("footprint"%string, has 1)].
Definition SymbolInstance_reads : val -> bool := expr ["path"%string] 1 1 (strict SymbolInstance_table).

(** items/schitems.py:1622-1649 *)
Definition Rectangle_table : list (string * (val -> bool)) :=
  [("start"%string, Position_reads);
   ("end"%string, Position_reads);
   ("stroke"%string, Stroke_reads);
   ("fill"%string, Fill_reads);
   ("uuid"%string, has 1)].
Definition Rectangle_reads : val -> bool := expr ["rectangle"%string] 0 0 (strict Rectangle_table).

(** items/schitems.py:1701-1729 *)
Definition SchArc_table : list (string * (val -> bool)) :=
  [("start"%string, Position_reads);
   ("mid"%string, Position_reads);
   ("end"%string, Position_reads);
   ("stroke"%string, Stroke_reads);
   ("fill"%string, Fill_reads);
   ("uuid"%string, has 1)].
Definition SchArc_reads : val -> bool := expr ["arc"%string] 0 0 (strict SchArc_table).

(** items/schitems.py:1778-1805 *)
Definition Circle_table : list (string * (val -> bool)) :=
  [("center"%string, Position_reads);
   ("radius"%string, has 1);
   ("stroke"%string, Stroke_reads);
   ("fill"%string, Fill_reads);
   ("uuid"%string, has 1)].
Definition Circle_reads : val -> bool := expr ["circle"%string] 0 0 (strict Circle_table).

(** items/schitems.py:1865-1894 *)
Definition NetclassFlag_table : list (string * (val -> bool)) :=
  [("length"%string, has 1);
   ("shape"%string, has 1);
   ("at"%string, Position_reads);
   ("fields_autoplaced"%string, always);
   ("effects"%string, Effects_reads);
   ("uuid"%string, has 1);
   ("property"%string, Property_reads)].
Definition NetclassFlag_reads : val -> bool := expr ["netclass_flag"%string] 1 1 (strict NetclassFlag_table).

(** schematic.py:118-172 *)
Definition Schematic_table : list (string * (val -> bool)) :=
  [("version"%string, has 1);
   ("generator"%string, has 1);
   ("uuid"%string, has 1);
   ("paper"%string, PageSettings_reads);
   ("title_block"%string, TitleBlock_reads);
   ("lib_symbols"%string, behind 1 Symbol_reads);
   ("junction"%string, Junction_reads);
   ("no_connect"%string, NoConnect_reads);
   ("bus_entry"%string, BusEntry_reads);
   ("bus_alias"%string, BusAlias_reads);
   ("wire"%string, Connection_reads);
   ("bus"%string, Connection_reads);
   ("polyline"%string, PolyLine_reads);
   ("arc"%string, SchArc_reads);
   ("circle"%string, Circle_reads);
   ("rectangle"%string, Rectangle_reads);
   ("image"%string, Image_reads);
   ("text"%string, Text_reads);
   ("text_box"%string, TextBox_reads);
   ("label"%string, LocalLabel_reads);
   ("global_label"%string, GlobalLabel_reads);
   ("hierarchical_label"%string, HierarchicalLabel_reads);
   ("netclass_flag"%string, NetclassFlag_reads);
   ("symbol"%string, SchematicSymbol_reads);
   ("sheet"%string, HierarchicalSheet_reads);
   ("sheet_instances"%string, behind 1 HierarchicalSheetInstance_reads);
   ("symbol_instances"%string, behind 1 SymbolInstance_reads)].
Definition Schematic_reads : val -> bool := expr ["kicad_sch"%string] 0 0 (strict Schematic_table).

(** wks.py:38-60 *)
Definition WksFontSize_reads (v : val) : bool := match v with VList [h; _; _] => h =s "size" | _ => false end.

(** wks.py:93-120 *)
Definition WksFont_table : list (string * (val -> bool)) :=
  [("linewidth"%string, has 1);
   ("size"%string, WksFontSize_reads)].
Definition WksFont_reads : val -> bool := expr ["font"%string] 0 0 (lists WksFont_table).

(** wks.py:162-186 *)
Definition WksPosition_reads (v : val) : bool := match v with VList (_ :: _ :: _ :: _) => true | _ => false end.

(** wks.py:231-261 *)
Definition Line_table : list (string * (val -> bool)) :=
  [("name"%string, has 1);
   ("start"%string, WksPosition_reads);
   ("end"%string, WksPosition_reads);
   ("option"%string, has 1);
   ("linewidth"%string, has 1);
   ("repeat"%string, has 1);
   ("incrx"%string, has 1);
   ("incry"%string, has 1);
   ("comment"%string, has 1)].
Definition Line_reads : val -> bool := expr ["line"%string] 0 0 (strict Line_table).

(** wks.py:330-360 *)
Definition Rect_table : list (string * (val -> bool)) :=
  [("name"%string, has 1);
   ("start"%string, WksPosition_reads);
   ("end"%string, WksPosition_reads);
   ("option"%string, has 1);
   ("linewidth"%string, has 1);
   ("repeat"%string, has 1);
   ("incrx"%string, has 1);
   ("incry"%string, has 1);
   ("comment"%string, has 1)].
Definition Rect_reads : val -> bool := expr ["rect"%string] 0 0 (strict Rect_table).

(** wks.py:430-444 *)
Definition Polygon_reads : val -> bool := never.

(** wks.py:508-542 *)
Definition Bitmap_table : list (string * (val -> bool)) :=
  [("name"%string, has 1);
   ("pos"%string, WksPosition_reads);
   ("option"%string, has 1);
   ("scale"%string, has 1);
   ("repeat"%string, has 1);
   ("incrx"%string, has 1);
   ("incry"%string, has 1);
   ("comment"%string, has 1);
   ("pngdata"%string, behind 1 (strict [("data"%string, has 1)]))].
Definition Bitmap_reads : val -> bool := expr ["bitmap"%string] 0 0 (strict Bitmap_table).

(** wks.py:632-667 *)
Definition TbText_table : list (string * (val -> bool)) :=
  [("name"%string, has 1);
   ("pos"%string, WksPosition_reads);
   ("option"%string, has 1);
   ("rotate"%string, has 1);
   ("font"%string, WksFont_reads);
   ("justify"%string, Justify_reads);
   ("maxlen"%string, has 1);
   ("maxheight"%string, has 1);
   ("repeat"%string, has 1);
   ("incrx"%string, has 1);
   ("incry"%string, has 1);
   ("incrlabel"%string, has 1);
   ("comment"%string, has 1)].
Definition TbText_reads : val -> bool := expr ["tbtext"%string] 1 1 (strict TbText_table).

(** wks.py:714-736 *)
Definition TextSize_reads (v : val) : bool := match v with VList [h; _; _] => h =s "textsize" | _ => false end.

(** wks.py:782-810 *)
Definition Setup_table : list (string * (val -> bool)) :=
  [("textsize"%string, TextSize_reads);
   ("linewidth"%string, has 1);
   ("textlinewidth"%string, has 1);
   ("left_margin"%string, has 1);
   ("right_margin"%string, has 1);
   ("top_margin"%string, has 1);
   ("bottom_margin"%string, has 1)].
Definition Setup_reads : val -> bool := expr ["setup"%string] 0 0 (strict Setup_table).

(** wks.py:858-887 *)
Definition WorkSheet_table : list (string * (val -> bool)) :=
  [("version"%string, has 1);
   ("generator"%string, has 1);
   ("setup"%string, Setup_reads);
   ("rect"%string, Rect_reads);
   ("line"%string, Line_reads);
   ("polygon"%string, Polygon_reads);
   ("tbtext"%string, TbText_reads);
   ("bitmap"%string, Bitmap_reads)].
Definition WorkSheet_reads : val -> bool := expr ["kicad_wks"%string] 0 0 (strict WorkSheet_table).
