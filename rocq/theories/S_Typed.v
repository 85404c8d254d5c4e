(** Specification for C51: which expressions hold values of the right kinds, and which objects have all
    they need.

    [X_typed v] looks only at the expression.  Each class has a table: for the head of an item, what kind
    of value must stand behind it.  [X_whole o] looks only at the object and lists what no single item can
    ensure: attributes that may not be missing, and attributes that must fit together.  Together they give
    an object that is written and read back without loss.  The kinds are those of S_Leaf.v. *)
From Coq Require Import String.
From Verif Require Import PyBase PyNum PyStr Sexpr S_Leaf S_Tree S_Fix S_Accept.
From Verif Require Import M_Common S_Common M_Lib S_Lib M_Sym S_Sym M_Fp S_Fp M_Gr S_Gr M_Zone S_Zone M_Footprint S_Footprint M_Dim S_Dim M_Brd S_Brd M_Board S_Board M_Sch S_Sch M_Schematic S_Schematic M_Wks S_Wks.

(** What [from] reads from a typed expression is written and read back to an equal object, and the second
    time nothing changes. *)
Definition kept {A} (to : A -> nat -> bool -> res str) (from : val -> res A)
    (typed : val -> bool) (whole : A -> bool) (same : A -> A -> bool) : Prop :=
  forall v o, typed v = true -> from v = Ok o -> whole o = true ->
  forall indent newline, exists o',
    write_read to from o indent newline = Ok o' /\ same o o' = true
    /\ write_read to from o' indent newline = Ok o'.

(** not missing *)
Definition given (v : val) : bool := match v with VNone | VStr [] => false | _ => true end.
(** a text of the kind [k] behind an optional word; the word counts only if no list follows it *)
Definition flagged_typed (k : val -> bool) (head word : string) (item : val -> bool) (v : val) : bool :=
  match v with
  | VList (h :: x :: l) =>
      (h =s head) &&
      (if x =s word
       then match l with [] => false | VList _ :: _ => k x && forallb item l | y :: l' => k y && forallb item l' end
       else k x && forallb item l)
  | _ => false
  end.

(** items/common.py:49-76 *)
(** [(at X Y)], [(at X Y angle)], [(at X Y angle unlocked)] *)
Definition xy (v : val) : bool := match v with VList [h; x; y] => negb (h =s "unlocked") && numb x && numb y | _ => false end.
Definition xya (v : val) : bool := match v with VList [h; x; y; a] => negb (h =s "unlocked") && numb x && numb y && numb a | _ => xy v end.
Definition xyau (v : val) : bool :=
  match v with
  | VList [_; x; y; a; u] => numb x && numb y && numb a && (u =s "unlocked")
  | VList [_; x; y; a] => numb x && numb y && (numb a || (a =s "unlocked"))
  | _ => xy v
  end.

(** items/common.py:97-120 *)
Definition Coordinate_typed (v : val) : bool := match v with VList [h; a; b; c] => (h =s "xyz") && numb a && numb b && numb c | _ => false end.

(** items/common.py:158-182 *)
Definition ColorRGBA_typed (v : val) : bool := match v with VList [h; a; b; c; d] => (h =s "color") && numb a && numb b && numb c && numb d | _ => false end.
(** the transparency of a sheet is written with four decimals *)
Definition color4 (v : val) : bool := match v with VList [h; a; b; c; d] => (h =s "color") && numb a && numb b && numb c && fixb 4 d | _ => false end.

(** items/common.py:226-252 *)
Definition Stroke_kinds : list (string * (val -> bool)) :=
  [("width"%string, at_place 1 numb);
   ("type"%string, at_place 1 wordv);
   ("color"%string, ColorRGBA_typed)].
Definition Stroke_typed : val -> bool := expr ["stroke"%string] 1 0 (lists Stroke_kinds).

(** items/common.py:308-340 *)
Definition Font_kinds : list (string * (val -> bool)) :=
  [("face"%string, at_place 1 txtb);
   ("size"%string, both (at_place 1 numb) (at_place 2 numb));
   ("thickness"%string, at_place 1 numb);
   ("line_spacing"%string, at_place 1 numb);
   ("color"%string, ColorRGBA_typed)].
Definition Font_typed : val -> bool := expr ["font"%string] 0 0 (lists Font_kinds).

(** items/common.py:384-409 *)
Definition Justify_typed : val -> bool := expr ["justify"%string] 0 0 always.

(** items/common.py:461-488 *)
Definition Effects_kinds : list (string * (val -> bool)) :=
  [("font"%string, Font_typed);
   ("justify"%string, Justify_typed);
   ("href"%string, at_place 1 txtb)].
Definition Effects_typed : val -> bool := expr ["effects"%string] 0 0 (lists Effects_kinds).

(** items/common.py:522-544 *)
Definition Net_typed : val -> bool := both (at_place 1 numb) (both (at_place 2 txtb) (expr ["net"%string] 2 0 always)).

(** items/common.py:582-611 *)
Definition Group_kinds : list (string * (val -> bool)) :=
  [("id"%string, at_place 1 atomb);
   ("members"%string, behind 1 word0v)].
Definition Group_typed : val -> bool := both (at_place 1 txtb) (expr ["group"%string] 1 0 (lists Group_kinds)).

(** items/common.py:658-690 *)
(** [(paper "A4")], [(paper "A4" portrait)], [(paper "User" width height)] *)
Definition PageSettings_typed (v : val) : bool :=
  match v with
  | VList (h :: size :: l) =>
      (h =s "paper") && txtb size && (if size =s "User" then match l with w :: t :: _ => numb w && numb t | _ => false end else true)
  | _ => false
  end.

(** items/common.py:742-768 *)
Definition TitleBlock_kinds : list (string * (val -> bool)) :=
  [("title"%string, at_place 1 txtb);
   ("date"%string, at_place 1 txtb);
   ("rev"%string, at_place 1 txtb);
   ("company"%string, at_place 1 txtb);
   ("comment"%string, both (at_place 1 atomb) (at_place 2 txtb))].
Definition TitleBlock_typed : val -> bool := expr ["title_block"%string] 0 0 (strict TitleBlock_kinds).

(** items/common.py:834-861 *)
Definition Property_kinds : list (string * (val -> bool)) :=
  [("id"%string, at_place 1 numb);
   ("at"%string, xya);
   ("effects"%string, Effects_typed);
   ("show_name"%string, always)].
Definition Property_typed : val -> bool := both (at_place 1 txtb) (both (at_place 2 txtb) (expr ["property"%string] 2 2 (strict Property_kinds))).

(** items/common.py:899-923 *)
Definition RenderCachePolygon_kinds : list (string * (val -> bool)) :=
  [("pts"%string, behind 1 xy)].
Definition RenderCachePolygon_typed : val -> bool := expr ["polygon"%string] 0 0 (strict RenderCachePolygon_kinds).

(** items/common.py:973-997 *)
Definition RenderCache_kinds : list (string * (val -> bool)) :=
  [("polygon"%string, RenderCachePolygon_typed)].
Definition RenderCache_typed : val -> bool := both (at_place 1 txtb) (both (at_place 2 word0v) (expr ["render_cache"%string] 2 0 (strict RenderCache_kinds))).

(** items/common.py:1039-1062 *)
Definition Fill_kinds : list (string * (val -> bool)) :=
  [("type"%string, at_place 1 wordv);
   ("color"%string, ColorRGBA_typed)].
Definition Fill_typed : val -> bool := expr ["fill"%string] 0 0 (strict Fill_kinds).

(** items/common.py:1107-1135 *)
Definition Image_kinds : list (string * (val -> bool)) :=
  [("at"%string, xy);
   ("scale"%string, at_place 1 numb);
   ("uuid"%string, at_place 1 atomb);
   ("layer"%string, at_place 1 txtb);
   ("data"%string, behind 1 word0v)].
Definition Image_typed : val -> bool := expr ["image"%string] 0 0 (strict Image_kinds).

(** items/common.py:1174-1175 *)
Definition ProjectInstance_typed : val -> bool := never.

(** libraries.py:46-73 *)
Definition Library_kinds : list (string * (val -> bool)) :=
  [("name"%string, at_place 1 txtb);
   ("type"%string, at_place 1 txtb);
   ("uri"%string, at_place 1 txtb);
   ("options"%string, at_place 1 txtb);
   ("descr"%string, at_place 1 txtb);
   ("disabled"%string, always)].
Definition Library_typed : val -> bool := expr ["lib"%string] 0 0 (strict Library_kinds).

(** libraries.py:118-141 *)
Definition LibTable_kinds : list (string * (val -> bool)) :=
  [("lib"%string, Library_typed)].
Definition LibTable_typed : val -> bool := expr ["fp_lib_table"%string; "sym_lib_table"%string] 0 0 (strict LibTable_kinds).

(** dru.py:72-99 *)
Definition Constraint_kinds : list (string * (val -> bool)) :=
  [("min"%string, at_place 1 txtb);
   ("opt"%string, at_place 1 txtb);
   ("max"%string, at_place 1 txtb)].
(** the items are words or lists *)
Definition Constraint_item (v : val) : bool := strict Constraint_kinds v && match v with VStr _ => wordv v | _ => true end.
Definition Constraint_typed : val -> bool := both (at_place 1 wordv) (expr ["constraint"%string] 1 1 Constraint_item).

(** dru.py:147-173 *)
Definition Rule_kinds : list (string * (val -> bool)) :=
  [("constraint"%string, Constraint_typed);
   ("condition"%string, at_place 1 txtb);
   ("layer"%string, at_place 1 txtb);
   ("severity"%string, at_place 1 plainv)].
Definition Rule_typed : val -> bool := both (at_place 1 txtb) (expr ["rule"%string] 1 1 (strict Rule_kinds)).

(** dru.py:212-238 *)
Definition DesignRules_kinds : list (string * (val -> bool)) :=
  [("version"%string, at_place 1 numb);
   ("rule"%string, Rule_typed)].
(** the expressions of a rule file; the first must be the version *)
Definition DesignRules_typed (v : val) : bool :=
  match v with
  | VList ((VList (h :: _) :: _) as l) => (h =s "version") && forallb (strict DesignRules_kinds) l
  | _ => false
  end.

(** items/syitems.py:56-86 *)
Definition SyArc_kinds : list (string * (val -> bool)) :=
  [("start"%string, xya);
   ("mid"%string, xya);
   ("end"%string, xya);
   ("stroke"%string, Stroke_typed);
   ("fill"%string, Fill_typed)].
Definition SyArc_typed : val -> bool := expr ["arc"%string] 0 0 (texts SyArc_kinds).

(** items/syitems.py:139-168 *)
Definition SyCircle_kinds : list (string * (val -> bool)) :=
  [("center"%string, xy);
   ("radius"%string, at_place 1 numb);
   ("stroke"%string, Stroke_typed);
   ("fill"%string, Fill_typed)].
Definition SyCircle_typed : val -> bool := expr ["circle"%string] 0 0 (texts SyCircle_kinds).

(** items/syitems.py:208-234 *)
Definition SyCurve_kinds : list (string * (val -> bool)) :=
  [("stroke"%string, Stroke_typed);
   ("fill"%string, Fill_typed);
   ("pts"%string, behind 1 xy)].
Definition SyCurve_typed : val -> bool := expr ["curve"%string] 0 0 (strict SyCurve_kinds).

(** items/syitems.py:277-303 *)
Definition SyPolyLine_kinds : list (string * (val -> bool)) :=
  [("stroke"%string, Stroke_typed);
   ("fill"%string, Fill_typed);
   ("pts"%string, behind 1 xy)].
Definition SyPolyLine_typed : val -> bool := expr ["polyline"%string] 0 0 (strict SyPolyLine_kinds).

(** items/syitems.py:355-384 *)
Definition SyRect_kinds : list (string * (val -> bool)) :=
  [("start"%string, xy);
   ("end"%string, xy);
   ("stroke"%string, Stroke_typed);
   ("fill"%string, Fill_typed)].
Definition SyRect_typed : val -> bool := expr ["rectangle"%string] 0 0 (texts SyRect_kinds).

(** items/syitems.py:424-448 *)
Definition SyText_kinds : list (string * (val -> bool)) :=
  [("at"%string, xya);
   ("effects"%string, Effects_typed)].
Definition SyText_typed : val -> bool := both (at_place 1 txtb) (expr ["text"%string] 1 1 (strict SyText_kinds)).

(** items/syitems.py:509-546 *)
Definition SyTextBox_kinds : list (string * (val -> bool)) :=
  [("at"%string, xya);
   ("size"%string, xy);
   ("effects"%string, Effects_typed);
   ("stroke"%string, Stroke_typed);
   ("fill"%string, Fill_typed);
   ("uuid"%string, at_place 1 atomb)].
Definition SyTextBox_typed : val -> bool := flagged_typed txtb "text_box"%string "private"%string (strict SyTextBox_kinds).

(** symbol.py:42-65 *)
Definition SymbolAlternativePin_typed : val -> bool := both (at_place 1 txtb) (both (at_place 2 wordv) (both (at_place 3 wordv) (expr ["alternate"%string] 3 0 always))).

(** symbol.py:126-163 *)
Definition SymbolPin_kinds : list (string * (val -> bool)) :=
  [("at"%string, xya);
   ("length"%string, at_place 1 numb);
   ("name"%string, both (at_place 1 txtb) (named Effects_typed));
   ("number"%string, both (at_place 1 txtb) (named Effects_typed));
   ("alternate"%string, SymbolAlternativePin_typed)].
Definition SymbolPin_typed : val -> bool := both (at_place 1 wordv) (both (at_place 2 wordv) (expr ["pin"%string] 2 2 (lists SymbolPin_kinds))).

(** symbol.py:359-408 *)
Definition Symbol_kinds : list (string * (val -> bool)) :=
  [("extends"%string, at_place 1 txtb);
   ("pin_numbers"%string, has 1);
   ("pin_names"%string, behind 1 (lists [("offset"%string, at_place 1 numb)]));
   ("in_bom"%string, has 1);
   ("on_board"%string, has 1);
   ("power"%string, always);
   ("property"%string, Property_typed);
   ("pin"%string, SymbolPin_typed);
   ("arc"%string, SyArc_typed);
   ("circle"%string, SyCircle_typed);
   ("curve"%string, never);
   ("polyline"%string, SyPolyLine_typed);
   ("rectangle"%string, SyRect_typed);
   ("text"%string, SyText_typed);
   ("text_box"%string, SyTextBox_typed)].
(** the id must be text; units are symbols again *)
Fixpoint Symbol_typed (v : val) : bool :=
  match v with
  | VList (h :: VStr _ :: l) =>
      (h =s "symbol") && forallb (fun x => (if at_place 0 (fun h => h =s "symbol") x then Symbol_typed x else true) && strict Symbol_kinds x) l
  | _ => false
  end.

(** symbol.py:528-553 *)
Definition SymbolLib_kinds : list (string * (val -> bool)) :=
  [("version"%string, at_place 1 numb);
   ("generator"%string, at_place 1 atomb);
   ("symbol"%string, Symbol_typed)].
Definition SymbolLib_typed : val -> bool := expr ["kicad_symbol_lib"%string] 0 0 (strict SymbolLib_kinds).

(** items/fpitems.py:71-106 *)
Definition FpText_kinds : list (string * (val -> bool)) :=
  [("at"%string, xyau);
   ("layer"%string, at_place 1 txtb);
   ("effects"%string, Effects_typed);
   ("tstamp"%string, at_place 1 wordv);
   ("render_cache"%string, RenderCache_typed)].
Definition FpText_typed : val -> bool := both (at_place 1 wordv) (both (at_place 2 txtb) (expr ["fp_text"%string] 2 2 (lists FpText_kinds))).

(** items/fpitems.py:167-203 *)
Definition FpLine_kinds : list (string * (val -> bool)) :=
  [("start"%string, xy);
   ("end"%string, xy);
   ("layer"%string, at_place 1 txtb);
   ("tstamp"%string, at_place 1 wordv);
   ("width"%string, at_place 1 numb);
   ("stroke"%string, Stroke_typed)].
Definition FpLine_typed : val -> bool := expr ["fp_line"%string] 0 0 (lists FpLine_kinds).

(** items/fpitems.py:261-298 *)
Definition FpRect_kinds : list (string * (val -> bool)) :=
  [("start"%string, xy);
   ("end"%string, xy);
   ("layer"%string, at_place 1 txtb);
   ("tstamp"%string, at_place 1 wordv);
   ("fill"%string, at_place 1 wordv);
   ("width"%string, at_place 1 numb);
   ("stroke"%string, Stroke_typed)].
Definition FpRect_typed : val -> bool := expr ["fp_rect"%string] 0 0 (lists FpRect_kinds).

(** items/fpitems.py:381-424 *)
Definition FpTextBox_kinds : list (string * (val -> bool)) :=
  [("start"%string, xy);
   ("end"%string, xy);
   ("pts"%string, behind 1 xy);
   ("angle"%string, at_place 1 numb);
   ("layer"%string, at_place 1 txtb);
   ("tstamp"%string, at_place 1 wordv);
   ("effects"%string, Effects_typed);
   ("stroke"%string, Stroke_typed);
   ("render_cache"%string, RenderCache_typed)].
Definition FpTextBox_typed : val -> bool := flagged_typed txtb "fp_text_box"%string "locked"%string (strict FpTextBox_kinds).

(** items/fpitems.py:507-544 *)
Definition FpCircle_kinds : list (string * (val -> bool)) :=
  [("center"%string, xy);
   ("end"%string, xy);
   ("layer"%string, at_place 1 txtb);
   ("tstamp"%string, at_place 1 wordv);
   ("fill"%string, at_place 1 wordv);
   ("width"%string, at_place 1 numb);
   ("stroke"%string, Stroke_typed)].
Definition FpCircle_typed : val -> bool := expr ["fp_circle"%string] 0 0 (lists FpCircle_kinds).

(** items/fpitems.py:605-642 *)
Definition FpArc_kinds : list (string * (val -> bool)) :=
  [("start"%string, xy);
   ("mid"%string, xy);
   ("end"%string, xy);
   ("layer"%string, at_place 1 txtb);
   ("tstamp"%string, at_place 1 wordv);
   ("width"%string, at_place 1 numb);
   ("stroke"%string, Stroke_typed)].
Definition FpArc_typed : val -> bool := expr ["fp_arc"%string] 0 0 (lists FpArc_kinds).

(** items/fpitems.py:700-739 *)
Definition FpPoly_kinds : list (string * (val -> bool)) :=
  [("pts"%string, behind 1 xy);
   ("layer"%string, at_place 1 txtb);
   ("tstamp"%string, at_place 1 wordv);
   ("fill"%string, at_place 1 wordv);
   ("width"%string, at_place 1 numb);
   ("stroke"%string, Stroke_typed)].
Definition FpPoly_typed : val -> bool := expr ["fp_poly"%string] 0 0 (lists FpPoly_kinds).

(** items/fpitems.py:801-838 *)
Definition FpCurve_kinds : list (string * (val -> bool)) :=
  [("pts"%string, behind 1 xy);
   ("layer"%string, at_place 1 txtb);
   ("tstamp"%string, at_place 1 wordv);
   ("width"%string, at_place 1 numb);
   ("stroke"%string, Stroke_typed)].
Definition FpCurve_typed : val -> bool := expr ["fp_curve"%string] 0 0 (lists FpCurve_kinds).

(** items/gritems.py:64-98 *)
Definition GrText_kinds : list (string * (val -> bool)) :=
  [("at"%string, xya);
   ("layer"%string, at_place 1 txtb);
   ("effects"%string, Effects_typed);
   ("tstamp"%string, at_place 1 wordv);
   ("render_cache"%string, RenderCache_typed)].
Definition GrText_typed : val -> bool := both (at_place 1 txtb) (expr ["gr_text"%string] 1 1 (lists GrText_kinds)).

(** items/gritems.py:183-226 *)
Definition GrTextBox_kinds : list (string * (val -> bool)) :=
  [("start"%string, xy);
   ("end"%string, xy);
   ("pts"%string, behind 1 xy);
   ("angle"%string, at_place 1 numb);
   ("layer"%string, at_place 1 txtb);
   ("tstamp"%string, at_place 1 wordv);
   ("effects"%string, Effects_typed);
   ("stroke"%string, Stroke_typed);
   ("render_cache"%string, RenderCache_typed)].
Definition GrTextBox_typed : val -> bool := flagged_typed txtb "gr_text_box"%string "locked"%string (strict GrTextBox_kinds).

(** items/gritems.py:305-334 *)
Definition GrLine_kinds : list (string * (val -> bool)) :=
  [("start"%string, xy);
   ("end"%string, xy);
   ("layer"%string, at_place 1 txtb);
   ("tstamp"%string, at_place 1 wordv);
   ("width"%string, at_place 1 numb)].
Definition GrLine_typed : val -> bool := expr ["gr_line"%string] 0 0 (lists GrLine_kinds).

(** items/gritems.py:386-416 *)
Definition GrRect_kinds : list (string * (val -> bool)) :=
  [("start"%string, xy);
   ("end"%string, xy);
   ("layer"%string, at_place 1 txtb);
   ("tstamp"%string, at_place 1 wordv);
   ("fill"%string, at_place 1 wordv);
   ("width"%string, at_place 1 numb)].
Definition GrRect_typed : val -> bool := expr ["gr_rect"%string] 0 0 (lists GrRect_kinds).

(** items/gritems.py:468-499 *)
Definition GrCircle_kinds : list (string * (val -> bool)) :=
  [("center"%string, xy);
   ("end"%string, xy);
   ("layer"%string, at_place 1 txtb);
   ("tstamp"%string, at_place 1 wordv);
   ("fill"%string, at_place 1 wordv);
   ("width"%string, at_place 1 numb)].
Definition GrCircle_typed : val -> bool := expr ["gr_circle"%string] 0 0 (lists GrCircle_kinds).

(** items/gritems.py:551-582 *)
Definition GrArc_kinds : list (string * (val -> bool)) :=
  [("start"%string, xy);
   ("mid"%string, xy);
   ("end"%string, xy);
   ("layer"%string, at_place 1 txtb);
   ("tstamp"%string, at_place 1 wordv);
   ("width"%string, at_place 1 numb)].
Definition GrArc_typed : val -> bool := expr ["gr_arc"%string] 0 0 (lists GrArc_kinds).

(** items/gritems.py:630-663 *)
Definition GrPoly_kinds : list (string * (val -> bool)) :=
  [("pts"%string, behind 1 xy);
   ("layer"%string, at_place 1 txtb);
   ("tstamp"%string, at_place 1 wordv);
   ("fill"%string, at_place 1 wordv);
   ("width"%string, at_place 1 numb)].
Definition GrPoly_typed : val -> bool := expr ["gr_poly"%string] 0 0 (lists GrPoly_kinds).

(** items/gritems.py:723-754 *)
Definition GrCurve_kinds : list (string * (val -> bool)) :=
  [("pts"%string, behind 1 xy);
   ("layer"%string, at_place 1 txtb);
   ("tstamp"%string, at_place 1 wordv);
   ("width"%string, at_place 1 numb)].
Definition GrCurve_typed : val -> bool := expr ["gr_curve"%string] 0 0 (lists GrCurve_kinds).

(** items/zones.py:55-85 *)
Definition KeepoutSettings_kinds : list (string * (val -> bool)) :=
  [("tracks"%string, at_place 1 wordv);
   ("vias"%string, at_place 1 wordv);
   ("pads"%string, at_place 1 wordv);
   ("copperpour"%string, at_place 1 wordv);
   ("footprints"%string, at_place 1 wordv)].
Definition KeepoutSettings_typed : val -> bool := expr ["keepout"%string] 0 0 (lists KeepoutSettings_kinds).

(** items/zones.py:182-222 *)
Definition FillSettings_kinds : list (string * (val -> bool)) :=
  [("mode"%string, at_place 1 wordv);
   ("thermal_gap"%string, at_place 1 numb);
   ("thermal_bridge_width"%string, at_place 1 numb);
   ("smoothing"%string, at_place 1 wordv);
   ("radius"%string, at_place 1 numb);
   ("island_removal_mode"%string, at_place 1 numb);
   ("island_area_min"%string, at_place 1 numb);
   ("hatch_thickness"%string, at_place 1 numb);
   ("hatch_gap"%string, at_place 1 numb);
   ("hatch_orientation"%string, at_place 1 numb);
   ("hatch_smoothing_level"%string, at_place 1 numb);
   ("hatch_smoothing_value"%string, at_place 1 numb);
   ("hatch_border_algorithm"%string, at_place 1 numb);
   ("hatch_min_hole_area"%string, at_place 1 numb)].
Definition FillSettings_typed : val -> bool := expr ["fill"%string] 0 0 (lists FillSettings_kinds).

(** items/zones.py:262-289 *)
Definition ZonePolygon_kinds : list (string * (val -> bool)) :=
  [("pts"%string, behind 1 xy)].
Definition ZonePolygon_typed : val -> bool := expr ["polygon"%string] 0 0 (lists ZonePolygon_kinds).

(** items/zones.py:335-365 *)
Definition FilledPolygon_kinds : list (string * (val -> bool)) :=
  [("layer"%string, at_place 1 txtb);
   ("island"%string, always);
   ("pts"%string, behind 1 xy)].
Definition FilledPolygon_typed : val -> bool := expr ["filled_polygon"%string] 0 0 (lists FilledPolygon_kinds).

(** items/zones.py:412-441 *)
Definition FillSegments_kinds : list (string * (val -> bool)) :=
  [("layer"%string, at_place 1 txtb);
   ("pts"%string, behind 1 xy)].
Definition FillSegments_typed : val -> bool := expr ["fill_segments"%string] 0 0 (lists FillSegments_kinds).

(** items/zones.py:586-591 *)
Definition Zone_pads (v : val) : bool :=
  match v with
  | VList [_; x] => at_place 1 numb x
  | VList (_ :: c :: x :: _) => wordv c && at_place 1 numb x
  | _ => false
  end.

(** items/zones.py:554-603 *)
Definition Zone_kinds : list (string * (val -> bool)) :=
  [("net"%string, at_place 1 numb);
   ("net_name"%string, at_place 1 txtb);
   ("layers"%string, behind 1 txtb);
   ("layer"%string, behind 1 txtb);
   ("tstamp"%string, at_place 1 wordv);
   ("name"%string, at_place 1 txtb);
   ("hatch"%string, both (at_place 1 wordv) (at_place 2 numb));
   ("priority"%string, at_place 1 numb);
   ("connect_pads"%string, Zone_pads);
   ("min_thickness"%string, at_place 1 numb);
   ("filled_areas_thickness"%string, at_place 1 wordv);
   ("keepout"%string, KeepoutSettings_typed);
   ("fill"%string, FillSettings_typed);
   ("polygon"%string, ZonePolygon_typed);
   ("filled_polygon"%string, FilledPolygon_typed);
   ("fill_segments"%string, FillSegments_typed)].
Definition Zone_typed : val -> bool := expr ["zone"%string] 0 0 (lists Zone_kinds).

(** footprint.py:64-95 *)
Definition Attributes_typed : val -> bool := expr ["attr"%string] 0 0 always.

(** footprint.py:161-195 *)
Definition Model_kinds : list (string * (val -> bool)) :=
  [("opacity"%string, at_place 1 numb);
   ("offset"%string, at_place 1 Coordinate_typed);
   ("scale"%string, at_place 1 Coordinate_typed);
   ("rotate"%string, at_place 1 Coordinate_typed)].
Definition Model_typed : val -> bool := both (at_place 1 txtb) (expr ["model"%string] 4 1 (strict Model_kinds)).

(** footprint.py:241-275 *)
Definition DrillDefinition_kinds : list (string * (val -> bool)) :=
  [("offset"%string, xy)].
(** [(drill 1)], [(drill oval 1 2)] *)
Definition DrillDefinition_typed (v : val) : bool :=
  match v with
  | VList (h :: x :: l) =>
      (h =s "drill")
      && (if x =s "oval" then match l with d :: w :: _ => numb d && numb w | _ => false end
          else numb x && match l with w :: _ => numb w | _ => true end)
      && forallb (lists DrillDefinition_kinds) (x :: l)
  | _ => false
  end.

(** footprint.py:313-336 *)
Definition PadOptions_kinds : list (string * (val -> bool)) :=
  [("clearance"%string, at_place 1 wordv);
   ("anchor"%string, at_place 1 wordv)].
Definition PadOptions_typed : val -> bool := expr ["options"%string] 0 0 (strict PadOptions_kinds).

(** footprint.py:525-547: the primitives of a custom pad *)
Definition PadPrimitive_kinds : list (string * (val -> bool)) :=
  [("gr_text"%string, GrText_typed);
   ("gr_text_box"%string, GrTextBox_typed);
   ("gr_line"%string, GrLine_typed);
   ("gr_rect"%string, GrRect_typed);
   ("gr_circle"%string, GrCircle_typed);
   ("gr_arc"%string, GrArc_typed);
   ("gr_poly"%string, GrPoly_typed);
   ("gr_curve"%string, GrCurve_typed);
   ("dimension"%string, never)].

(** footprint.py:481-549 *)
Definition Pad_kinds : list (string * (val -> bool)) :=
  [("at"%string, xya);
   ("size"%string, xy);
   ("drill"%string, DrillDefinition_typed);
   ("layers"%string, behind 1 pad_layer_ok);
   ("property"%string, at_place 1 wordv);
   ("remove_unused_layers"%string, always);
   ("keep_end_layers"%string, always);
   ("roundrect_rratio"%string, at_place 1 numb);
   ("chamfer_ratio"%string, at_place 1 numb);
   ("chamfer"%string, behind 1 wordv);
   ("net"%string, Net_typed);
   ("tstamp"%string, at_place 1 wordv);
   ("pinfunction"%string, at_place 1 txtb);
   ("pintype"%string, at_place 1 txtb);
   ("die_length"%string, at_place 1 numb);
   ("solder_mask_margin"%string, at_place 1 numb);
   ("solder_paste_margin"%string, at_place 1 numb);
   ("solder_paste_margin_ratio"%string, at_place 1 numb);
   ("clearance"%string, at_place 1 numb);
   ("zone_connect"%string, at_place 1 numb);
   ("thermal_width"%string, at_place 1 numb);
   ("thermal_gap"%string, at_place 1 numb);
   ("options"%string, PadOptions_typed);
   ("primitives"%string, behind 1 (strict PadPrimitive_kinds))].
Definition Pad_typed : val -> bool := both (at_place 1 txtb) (both (at_place 2 wordv) (both (at_place 3 wordv) (expr ["pad"%string] 3 2 (strict Pad_kinds)))).

(** footprint.py:841-910 *)
Definition Footprint_kinds : list (string * (val -> bool)) :=
  [("version"%string, at_place 1 atomb);
   ("generator"%string, at_place 1 atomb);
   ("layer"%string, at_place 1 txtb);
   ("tedit"%string, at_place 1 atomb);
   ("tstamp"%string, at_place 1 wordv);
   ("descr"%string, at_place 1 txtb);
   ("tags"%string, at_place 1 txtb);
   ("path"%string, at_place 1 txtb);
   ("at"%string, xya);
   ("autoplace_cost90"%string, at_place 1 numb);
   ("autoplace_cost180"%string, at_place 1 numb);
   ("solder_mask_margin"%string, at_place 1 numb);
   ("solder_paste_margin"%string, at_place 1 numb);
   ("solder_paste_ratio"%string, at_place 1 numb);
   ("clearance"%string, at_place 1 numb);
   ("zone_connect"%string, at_place 1 numb);
   ("thermal_width"%string, at_place 1 numb);
   ("thermal_gap"%string, at_place 1 numb);
   ("attr"%string, Attributes_typed);
   ("model"%string, Model_typed);
   ("fp_text"%string, FpText_typed);
   ("fp_text_box"%string, FpTextBox_typed);
   ("fp_line"%string, FpLine_typed);
   ("fp_rect"%string, FpRect_typed);
   ("fp_circle"%string, FpCircle_typed);
   ("fp_arc"%string, FpArc_typed);
   ("fp_poly"%string, FpPoly_typed);
   ("fp_curve"%string, FpCurve_typed);
   ("image"%string, Image_typed);
   ("pad"%string, Pad_typed);
   ("zone"%string, Zone_typed);
   ("property"%string, both (at_place 1 txtb) (at_place 2 txtb));
   ("group"%string, Group_typed);
   ("private_layers"%string, behind 1 txtb);
   ("net_tie_pad_groups"%string, behind 1 txtb);
   ("dimension"%string, never)].
Definition Footprint_typed : val -> bool := expr ["module"%string; "footprint"%string] 1 1 (lists Footprint_kinds).

(** items/dimensions.py:66-97 *)
Definition DimensionFormat_kinds : list (string * (val -> bool)) :=
  [("prefix"%string, at_place 1 txtb);
   ("suffix"%string, at_place 1 txtb);
   ("units"%string, at_place 1 numb);
   ("units_format"%string, at_place 1 numb);
   ("precision"%string, at_place 1 numb);
   ("override_value"%string, at_place 1 txtb)].
Definition DimensionFormat_typed : val -> bool := expr ["format"%string] 0 0 (lists DimensionFormat_kinds).

(** items/dimensions.py:163-193 *)
Definition DimensionStyle_kinds : list (string * (val -> bool)) :=
  [("thickness"%string, at_place 1 numb);
   ("arrow_length"%string, at_place 1 numb);
   ("text_position_mode"%string, at_place 1 numb);
   ("extension_height"%string, at_place 1 numb);
   ("text_frame"%string, at_place 1 numb);
   ("extension_offset"%string, at_place 1 numb)].
Definition DimensionStyle_typed : val -> bool := expr ["style"%string] 0 0 (lists DimensionStyle_kinds).

(** items/dimensions.py:263-300 *)
Definition Dimension_kinds : list (string * (val -> bool)) :=
  [("type"%string, at_place 1 atomb);
   ("layer"%string, at_place 1 rawtxtb);
   ("tstamp"%string, at_place 1 atomb);
   ("height"%string, at_place 1 numb);
   ("orientation"%string, at_place 1 numb);
   ("leader_length"%string, at_place 1 numb);
   ("gr_text"%string, GrText_typed);
   ("format"%string, DimensionFormat_typed);
   ("style"%string, DimensionStyle_typed);
   ("pts"%string, behind 1 xy)].
Definition Dimension_typed : val -> bool := expr ["dimension"%string] 0 0 (lists Dimension_kinds).

(** items/brditems.py:36-58 *)
Definition GeneralSettings_kinds : list (string * (val -> bool)) :=
  [("thickness"%string, at_place 1 numb)].
Definition GeneralSettings_typed : val -> bool := expr ["general"%string] 0 0 (strict GeneralSettings_kinds).

(** items/brditems.py:102-124 *)
Definition LayerToken_typed (v : val) : bool :=
  match v with
  | VList [n; name; t] => numb n && txtb name && atomb t
  | VList [n; name; t; user] => numb n && txtb name && atomb t && txtb user
  | _ => false
  end.

(** items/brditems.py:161-168 *)
Definition StackupSubLayer_typed : val -> bool := never.

(** items/brditems.py:233-290 *)
Definition StackupLayer_kinds : list (string * (val -> bool)) :=
  [("type"%string, at_place 1 rawtxtb);
   ("thickness"%string, at_place 1 numb);
   ("material"%string, at_place 1 txtb);
   ("epsilon_r"%string, at_place 1 numb);
   ("loss_tangent"%string, at_place 1 numb);
   ("color"%string, at_place 1 txtb)].
Definition StackupSubLayer_kinds : list (string * (val -> bool)) :=
  [("thickness"%string, at_place 1 numb);
   ("material"%string, at_place 1 txtb);
   ("epsilon_r"%string, at_place 1 numb);
   ("loss_tangent"%string, at_place 1 numb)].
Fixpoint StackupLayer_typed_items (l : list val) : bool :=
  match l with
  | [] => true
  | x :: l' => if x =s "addsublayer" then forallb (lists StackupSubLayer_kinds) l'
               else lists StackupLayer_kinds x && StackupLayer_typed_items l'
  end.
Definition StackupLayer_typed (v : val) : bool :=
  match v with VList (h :: n :: l) => (h =s "layer") && txtb n && StackupLayer_typed_items l | _ => false end.

(** items/brditems.py:351-378 *)
Definition Stackup_kinds : list (string * (val -> bool)) :=
  [("layer"%string, StackupLayer_typed);
   ("copper_finish"%string, at_place 1 txtb);
   ("dielectric_constraints"%string, at_place 1 atomb);
   ("edge_connector"%string, at_place 1 atomb);
   ("castellated_pads"%string, always);
   ("edge_plating"%string, always)].
Definition Stackup_typed : val -> bool := expr ["stackup"%string] 0 0 (strict Stackup_kinds).

(** items/brditems.py:543-598 *)
Definition PlotSettings_kinds : list (string * (val -> bool)) :=
  [("layerselection"%string, at_place 1 atomb);
   ("plot_on_all_layers_selection"%string, at_place 1 atomb);
   ("disableapertmacros"%string, has 1);
   ("usegerberextensions"%string, has 1);
   ("usegerberattributes"%string, has 1);
   ("usegerberadvancedattributes"%string, has 1);
   ("creategerberjobfile"%string, has 1);
   ("dashed_line_dash_ratio"%string, at_place 1 (fixb 6));
   ("dashed_line_gap_ratio"%string, at_place 1 (fixb 6));
   ("svguseinch"%string, has 1);
   ("svgprecision"%string, at_place 1 numb);
   ("excludeedgelayer"%string, has 1);
   ("plotframeref"%string, has 1);
   ("viasonmask"%string, has 1);
   ("mode"%string, at_place 1 numb);
   ("useauxorigin"%string, has 1);
   ("hpglpennumber"%string, at_place 1 numb);
   ("hpglpenspeed"%string, at_place 1 numb);
   ("hpglpendiameter"%string, at_place 1 (fixb 6));
   ("dxfpolygonmode"%string, has 1);
   ("dxfimperialunits"%string, has 1);
   ("dxfusepcbnewfont"%string, has 1);
   ("psnegative"%string, has 1);
   ("psa4output"%string, has 1);
   ("plotreference"%string, has 1);
   ("plotvalue"%string, has 1);
   ("plotinvisibletext"%string, has 1);
   ("sketchpadsonfab"%string, has 1);
   ("subtractmaskfromsilk"%string, has 1);
   ("outputformat"%string, at_place 1 numb);
   ("mirror"%string, has 1);
   ("drillshape"%string, at_place 1 numb);
   ("scaleselection"%string, at_place 1 numb);
   ("outputdirectory"%string, at_place 1 txtb)].
Definition PlotSettings_typed : val -> bool := expr ["pcbplotparams"%string] 0 0 (strict PlotSettings_kinds).

(** items/brditems.py:698-728 *)
Definition SetupData_kinds : list (string * (val -> bool)) :=
  [("stackup"%string, Stackup_typed);
   ("pcbplotparams"%string, PlotSettings_typed);
   ("pad_to_mask_clearance"%string, at_place 1 numb);
   ("solder_mask_min_width"%string, at_place 1 numb);
   ("pad_to_paste_clearance"%string, at_place 1 numb);
   ("pad_to_paste_clearance_ratio"%string, at_place 1 numb);
   ("aux_axis_origin"%string, xy);
   ("grid_origin"%string, xy);
   ("pcbplotparams"%string, PlotSettings_typed)].
Definition SetupData_typed : val -> bool := expr ["setup"%string] 0 0 (strict SetupData_kinds).

(** items/brditems.py:787-817 *)
Definition Segment_kinds : list (string * (val -> bool)) :=
  [("start"%string, xy);
   ("end"%string, xy);
   ("width"%string, at_place 1 numb);
   ("layer"%string, at_place 1 txtb);
   ("net"%string, at_place 1 numb);
   ("tstamp"%string, at_place 1 atomb)].
Definition Segment_typed : val -> bool := expr ["segment"%string] 0 0 (lists Segment_kinds).

(** items/brditems.py:880-916 *)
Definition Via_kinds : list (string * (val -> bool)) :=
  [("at"%string, xy);
   ("size"%string, at_place 1 numb);
   ("drill"%string, at_place 1 numb);
   ("layers"%string, behind 1 txtb);
   ("remove_unused_layers"%string, always);
   ("keep_end_layers"%string, always);
   ("free"%string, always);
   ("net"%string, at_place 1 numb);
   ("tstamp"%string, at_place 1 atomb)].
Definition Via_typed : val -> bool := expr ["via"%string] 0 0 (lists Via_kinds).

(** items/brditems.py:979-1010 *)
Definition Arc_kinds : list (string * (val -> bool)) :=
  [("start"%string, xy);
   ("mid"%string, xy);
   ("end"%string, xy);
   ("width"%string, at_place 1 numb);
   ("layer"%string, at_place 1 txtb);
   ("net"%string, at_place 1 numb);
   ("tstamp"%string, at_place 1 atomb)].
Definition Arc_typed : val -> bool := expr ["arc"%string] 0 0 (lists Arc_kinds).

(** items/brditems.py:1062-1089 *)
Definition Target_kinds : list (string * (val -> bool)) :=
  [("at"%string, xy);
   ("size"%string, at_place 1 numb);
   ("width"%string, at_place 1 numb);
   ("layer"%string, at_place 1 rawtxtb);
   ("tstamp"%string, at_place 1 atomb)].
Definition Target_typed : val -> bool := both (at_place 1 atomb) (expr ["target"%string] 1 1 (strict Target_kinds)).

(** board.py:97-147 *)
Definition Board_kinds : list (string * (val -> bool)) :=
  [("version"%string, at_place 1 atomb);
   ("generator"%string, at_place 1 atomb);
   ("general"%string, GeneralSettings_typed);
   ("paper"%string, PageSettings_typed);
   ("title_block"%string, TitleBlock_typed);
   ("layers"%string, behind 1 LayerToken_typed);
   ("setup"%string, SetupData_typed);
   ("property"%string, both (at_place 1 txtb) (at_place 2 txtb));
   ("net"%string, Net_typed);
   ("footprint"%string, Footprint_typed);
   ("gr_text"%string, GrText_typed);
   ("gr_text_box"%string, GrTextBox_typed);
   ("gr_line"%string, GrLine_typed);
   ("gr_rect"%string, GrRect_typed);
   ("gr_circle"%string, GrCircle_typed);
   ("gr_arc"%string, GrArc_typed);
   ("gr_poly"%string, GrPoly_typed);
   ("gr_curve"%string, GrCurve_typed);
   ("image"%string, Image_typed);
   ("dimension"%string, Dimension_typed);
   ("target"%string, Target_typed);
   ("segment"%string, Segment_typed);
   ("arc"%string, Arc_typed);
   ("via"%string, Via_typed);
   ("zone"%string, Zone_typed);
   ("group"%string, Group_typed)].
Definition Board_typed : val -> bool := expr ["kicad_pcb"%string] 0 0 (strict Board_kinds).

(** items/schitems.py:48-73 *)
Definition Junction_kinds : list (string * (val -> bool)) :=
  [("at"%string, xy);
   ("color"%string, ColorRGBA_typed);
   ("diameter"%string, has 1);
   ("uuid"%string, at_place 1 wordv)].
Definition Junction_typed : val -> bool := expr ["junction"%string] 0 0 (strict Junction_kinds).

(** items/schitems.py:106-129 *)
Definition NoConnect_kinds : list (string * (val -> bool)) :=
  [("at"%string, xy);
   ("uuid"%string, at_place 1 wordv)].
Definition NoConnect_typed : val -> bool := expr ["no_connect"%string] 0 0 (strict NoConnect_kinds).

(** items/schitems.py:169-194 *)
Definition BusEntry_kinds : list (string * (val -> bool)) :=
  [("at"%string, xy);
   ("stroke"%string, Stroke_typed);
   ("size"%string, xy);
   ("uuid"%string, at_place 1 wordv)].
Definition BusEntry_typed : val -> bool := expr ["bus_entry"%string] 0 0 (strict BusEntry_kinds).

(** items/schitems.py:232-262 *)
Definition BusAlias_typed (v : val) : bool :=
  match v with VList [h; n; VList (m :: l)] => (h =s "bus_alias") && (m =s "members") && txtb n && forallb txtb l | _ => false end.

(** items/schitems.py:303-330 *)
Definition Connection_kinds : list (string * (val -> bool)) :=
  [("pts"%string, behind 1 xy);
   ("stroke"%string, Stroke_typed);
   ("uuid"%string, at_place 1 wordv)].
Definition Connection_typed : val -> bool := expr ["wire"%string; "bus"%string] 0 0 (strict Connection_kinds).

(** items/schitems.py:375-401 *)
Definition PolyLine_kinds : list (string * (val -> bool)) :=
  [("pts"%string, behind 1 xy);
   ("stroke"%string, Stroke_typed);
   ("uuid"%string, at_place 1 wordv)].
Definition PolyLine_typed : val -> bool := expr ["polyline"%string] 0 0 (strict PolyLine_kinds).

(** items/schitems.py:448-473 *)
Definition Text_kinds : list (string * (val -> bool)) :=
  [("at"%string, xya);
   ("effects"%string, Effects_typed);
   ("uuid"%string, at_place 1 wordv)].
Definition Text_typed : val -> bool := both (at_place 1 txtb) (expr ["text"%string] 1 1 (strict Text_kinds)).

(** items/schitems.py:535-563 *)
Definition TextBox_kinds : list (string * (val -> bool)) :=
  [("at"%string, xya);
   ("size"%string, xy);
   ("effects"%string, Effects_typed);
   ("stroke"%string, Stroke_typed);
   ("fill"%string, Fill_typed);
   ("uuid"%string, at_place 1 wordv)].
Definition TextBox_typed : val -> bool := both (at_place 1 txtb) (expr ["text_box"%string] 1 1 (strict TextBox_kinds)).

(** items/schitems.py:615-641 *)
Definition LocalLabel_kinds : list (string * (val -> bool)) :=
  [("at"%string, xya);
   ("effects"%string, Effects_typed);
   ("uuid"%string, at_place 1 wordv);
   ("fields_autoplaced"%string, always)].
Definition LocalLabel_typed : val -> bool := both (at_place 1 txtb) (expr ["label"%string] 1 1 (strict LocalLabel_kinds)).

(** items/schitems.py:699-727 *)
Definition GlobalLabel_kinds : list (string * (val -> bool)) :=
  [("fields_autoplaced"%string, always);
   ("at"%string, xya);
   ("effects"%string, Effects_typed);
   ("property"%string, Property_typed);
   ("shape"%string, at_place 1 atomb);
   ("uuid"%string, at_place 1 wordv)].
Definition GlobalLabel_typed : val -> bool := both (at_place 1 txtb) (expr ["global_label"%string] 1 1 (strict GlobalLabel_kinds)).

(** items/schitems.py:784-811 *)
Definition HierarchicalLabel_kinds : list (string * (val -> bool)) :=
  [("at"%string, xya);
   ("effects"%string, Effects_typed);
   ("shape"%string, at_place 1 atomb);
   ("uuid"%string, at_place 1 wordv);
   ("fields_autoplaced"%string, always)].
Definition HierarchicalLabel_typed : val -> bool := both (at_place 1 txtb) (expr ["hierarchical_label"%string] 1 1 (strict HierarchicalLabel_kinds)).

(** items/schitems.py:859-883 *)
Definition SymbolProjectPath_kinds : list (string * (val -> bool)) :=
  [("reference"%string, at_place 1 txtb);
   ("unit"%string, at_place 1 atomb)].
Definition SymbolProjectPath_typed : val -> bool := both (at_place 1 txtb) (expr ["path"%string] 1 1 (strict SymbolProjectPath_kinds)).

(** items/schitems.py:919-942 *)
Definition SymbolProjectInstance_kinds : list (string * (val -> bool)) :=
  [("path"%string, SymbolProjectPath_typed)].
Definition SymbolProjectInstance_typed : val -> bool := both (at_place 1 txtb) (expr ["project"%string] 1 1 (strict SymbolProjectInstance_kinds)).

(** items/schitems.py:1063-1100 *)
Definition SchematicSymbol_kinds : list (string * (val -> bool)) :=
  [("fields_autoplaced"%string, always);
   ("lib_id"%string, at_place 1 text);
   ("lib_name"%string, at_place 1 txtb);
   ("uuid"%string, at_place 1 uuid0_ok);
   ("unit"%string, at_place 1 numb);
   ("in_bom"%string, has 1);
   ("on_board"%string, has 1);
   ("dnp"%string, has 1);
   ("at"%string, xya);
   ("property"%string, Property_typed);
   ("pin"%string, both (at_place 1 txtb) (at_place 2 (at_place 1 wordv)));
   ("mirror"%string, at_place 1 wordv);
   ("instances"%string, behind 1 SymbolProjectInstance_typed)].
Definition SchematicSymbol_typed : val -> bool := expr ["symbol"%string] 0 0 (strict SchematicSymbol_kinds).

(** items/schitems.py:1170-1196 *)
Definition HierarchicalPin_kinds : list (string * (val -> bool)) :=
  [("at"%string, xya);
   ("effects"%string, Effects_typed);
   ("uuid"%string, at_place 1 wordv)].
Definition HierarchicalPin_typed : val -> bool := both (at_place 1 txtb) (both (at_place 2 atomb) (expr ["pin"%string] 2 2 (strict HierarchicalPin_kinds))).

(** items/schitems.py:1239-1262 *)
Definition HierarchicalSheetProjectPath_kinds : list (string * (val -> bool)) :=
  [("page"%string, at_place 1 txtb)].
Definition HierarchicalSheetProjectPath_typed : val -> bool := both (at_place 1 txtb) (expr ["path"%string] 1 1 (strict HierarchicalSheetProjectPath_kinds)).

(** items/schitems.py:1295-1318 *)
Definition HierarchicalSheetProjectInstance_kinds : list (string * (val -> bool)) :=
  [("path"%string, HierarchicalSheetProjectPath_typed)].
Definition HierarchicalSheetProjectInstance_typed : val -> bool := both (at_place 1 txtb) (expr ["project"%string] 1 1 (strict HierarchicalSheetProjectInstance_kinds)).

(** items/schitems.py:1391-1431 *)
Definition HierarchicalSheet_kinds : list (string * (val -> bool)) :=
  [("fields_autoplaced"%string, always);
   ("at"%string, xy);
   ("stroke"%string, Stroke_typed);
   ("size"%string, both (at_place 1 numb) (at_place 2 numb));
   ("fill"%string, at_place 1 color4);
   ("uuid"%string, at_place 1 wordv);
   ("property"%string, Property_typed);
   ("pin"%string, HierarchicalPin_typed);
   ("instances"%string, behind 1 HierarchicalSheetProjectInstance_typed)].
Definition HierarchicalSheet_typed : val -> bool := expr ["sheet"%string] 0 0 (strict HierarchicalSheet_kinds).

(** items/schitems.py:1484-1507 *)
Definition HierarchicalSheetInstance_kinds : list (string * (val -> bool)) :=
  [("page"%string, at_place 1 txtb)].
Definition HierarchicalSheetInstance_typed : val -> bool := both (at_place 1 txtb) (expr ["path"%string] 1 1 (strict HierarchicalSheetInstance_kinds)).

(** items/schitems.py:1550-1576 *)
Definition SymbolInstance_kinds : list (string * (val -> bool)) :=
  [("reference"%string, at_place 1 txtb);
   ("unit"%string, at_place 1 atomb);
   ("value"%string, at_place 1 txtb);
   ("footprint"%string, at_place 1 txtb)].
Definition SymbolInstance_typed : val -> bool := both (at_place 1 txtb) (expr ["path"%string] 1 1 (strict SymbolInstance_kinds)).

(** items/schitems.py:1622-1649 *)
Definition Rectangle_kinds : list (string * (val -> bool)) :=
  [("start"%string, xy);
   ("end"%string, xy);
   ("stroke"%string, Stroke_typed);
   ("fill"%string, Fill_typed);
   ("uuid"%string, at_place 1 wordv)].
Definition Rectangle_typed : val -> bool := expr ["rectangle"%string] 0 0 (strict Rectangle_kinds).

(** items/schitems.py:1701-1729 *)
Definition SchArc_kinds : list (string * (val -> bool)) :=
  [("start"%string, xy);
   ("mid"%string, xy);
   ("end"%string, xy);
   ("stroke"%string, Stroke_typed);
   ("fill"%string, Fill_typed);
   ("uuid"%string, at_place 1 wordv)].
Definition SchArc_typed : val -> bool := expr ["arc"%string] 0 0 (strict SchArc_kinds).

(** items/schitems.py:1778-1805 *)
Definition Circle_kinds : list (string * (val -> bool)) :=
  [("center"%string, xy);
   ("radius"%string, at_place 1 numb);
   ("stroke"%string, Stroke_typed);
   ("fill"%string, Fill_typed);
   ("uuid"%string, at_place 1 wordv)].
Definition Circle_typed : val -> bool := expr ["circle"%string] 0 0 (strict Circle_kinds).

(** items/schitems.py:1865-1894 *)
Definition NetclassFlag_kinds : list (string * (val -> bool)) :=
  [("length"%string, at_place 1 numb);
   ("shape"%string, at_place 1 atomb);
   ("at"%string, xya);
   ("fields_autoplaced"%string, always);
   ("effects"%string, Effects_typed);
   ("uuid"%string, at_place 1 wordv);
   ("property"%string, Property_typed)].
Definition NetclassFlag_typed : val -> bool := both (at_place 1 txtb) (expr ["netclass_flag"%string] 1 1 (strict NetclassFlag_kinds)).

(** schematic.py:118-172 *)
Definition Schematic_kinds : list (string * (val -> bool)) :=
  [("version"%string, at_place 1 atomb);
   ("generator"%string, at_place 1 atomb);
   ("uuid"%string, at_place 1 atomb);
   ("paper"%string, PageSettings_typed);
   ("title_block"%string, TitleBlock_typed);
   ("lib_symbols"%string, behind 1 Symbol_typed);
   ("junction"%string, Junction_typed);
   ("no_connect"%string, NoConnect_typed);
   ("bus_entry"%string, BusEntry_typed);
   ("bus_alias"%string, BusAlias_typed);
   ("wire"%string, Connection_typed);
   ("bus"%string, Connection_typed);
   ("polyline"%string, PolyLine_typed);
   ("arc"%string, SchArc_typed);
   ("circle"%string, Circle_typed);
   ("rectangle"%string, Rectangle_typed);
   ("image"%string, Image_typed);
   ("text"%string, Text_typed);
   ("text_box"%string, TextBox_typed);
   ("label"%string, LocalLabel_typed);
   ("global_label"%string, GlobalLabel_typed);
   ("hierarchical_label"%string, HierarchicalLabel_typed);
   ("netclass_flag"%string, NetclassFlag_typed);
   ("symbol"%string, SchematicSymbol_typed);
   ("sheet"%string, HierarchicalSheet_typed);
   ("sheet_instances"%string, behind 1 HierarchicalSheetInstance_typed);
   ("symbol_instances"%string, behind 1 SymbolInstance_typed)].
Definition Schematic_typed : val -> bool := expr ["kicad_sch"%string] 0 0 (strict Schematic_kinds).

(** wks.py:38-60 *)
Definition WksFontSize_typed (v : val) : bool := match v with VList [h; a; b] => (h =s "size") && numb a && numb b | _ => false end.

(** wks.py:93-120 *)
Definition WksFont_kinds : list (string * (val -> bool)) :=
  [("linewidth"%string, at_place 1 numb);
   ("size"%string, WksFontSize_typed)].
Definition WksFont_typed : val -> bool := expr ["font"%string] 0 0 (lists WksFont_kinds).

(** wks.py:162-186 *)
Definition WksPosition_typed (v : val) : bool :=
  match v with
  | VList [_; x; y] => numb x && numb y
  | VList (_ :: x :: y :: c :: _) => numb x && numb y && atomb c
  | _ => false
  end.

(** wks.py:231-261 *)
Definition Line_kinds : list (string * (val -> bool)) :=
  [("name"%string, at_place 1 txtb);
   ("start"%string, WksPosition_typed);
   ("end"%string, WksPosition_typed);
   ("option"%string, at_place 1 atomb);
   ("linewidth"%string, at_place 1 numb);
   ("repeat"%string, at_place 1 numb);
   ("incrx"%string, at_place 1 numb);
   ("incry"%string, at_place 1 numb);
   ("comment"%string, at_place 1 txtb)].
Definition Line_typed : val -> bool := expr ["line"%string] 0 0 (strict Line_kinds).

(** wks.py:330-360 *)
Definition Rect_kinds : list (string * (val -> bool)) :=
  [("name"%string, at_place 1 txtb);
   ("start"%string, WksPosition_typed);
   ("end"%string, WksPosition_typed);
   ("option"%string, at_place 1 atomb);
   ("linewidth"%string, at_place 1 numb);
   ("repeat"%string, at_place 1 numb);
   ("incrx"%string, at_place 1 numb);
   ("incry"%string, at_place 1 numb);
   ("comment"%string, at_place 1 txtb)].
Definition Rect_typed : val -> bool := expr ["rect"%string] 0 0 (strict Rect_kinds).

(** wks.py:430-444 *)
Definition Polygon_typed : val -> bool := never.

(** wks.py:508-542 *)
Definition Bitmap_kinds : list (string * (val -> bool)) :=
  [("name"%string, at_place 1 txtb);
   ("pos"%string, WksPosition_typed);
   ("option"%string, at_place 1 atomb);
   ("scale"%string, at_place 1 numb);
   ("repeat"%string, at_place 1 numb);
   ("incrx"%string, at_place 1 numb);
   ("incry"%string, at_place 1 numb);
   ("comment"%string, at_place 1 txtb);
   ("pngdata"%string, behind 1 (strict [("data"%string, at_place 1 rawtxtb)]))].
Definition Bitmap_typed : val -> bool := expr ["bitmap"%string] 0 0 (strict Bitmap_kinds).

(** wks.py:632-667 *)
Definition TbText_kinds : list (string * (val -> bool)) :=
  [("name"%string, at_place 1 txtb);
   ("pos"%string, WksPosition_typed);
   ("option"%string, at_place 1 atomb);
   ("rotate"%string, at_place 1 numb);
   ("font"%string, WksFont_typed);
   ("justify"%string, Justify_typed);
   ("maxlen"%string, at_place 1 numb);
   ("maxheight"%string, at_place 1 numb);
   ("repeat"%string, at_place 1 numb);
   ("incrx"%string, at_place 1 numb);
   ("incry"%string, at_place 1 numb);
   ("incrlabel"%string, at_place 1 numb);
   ("comment"%string, at_place 1 txtb)].
Definition TbText_typed : val -> bool := both (at_place 1 txtb) (expr ["tbtext"%string] 1 1 (strict TbText_kinds)).

(** wks.py:714-736 *)
Definition TextSize_typed (v : val) : bool := match v with VList [h; a; b] => (h =s "textsize") && numb a && numb b | _ => false end.

(** wks.py:782-810 *)
Definition Setup_kinds : list (string * (val -> bool)) :=
  [("textsize"%string, TextSize_typed);
   ("linewidth"%string, at_place 1 numb);
   ("textlinewidth"%string, at_place 1 numb);
   ("left_margin"%string, at_place 1 numb);
   ("right_margin"%string, at_place 1 numb);
   ("top_margin"%string, at_place 1 numb);
   ("bottom_margin"%string, at_place 1 numb)].
Definition Setup_typed : val -> bool := expr ["setup"%string] 0 0 (strict Setup_kinds).

(** wks.py:858-887 *)
Definition WorkSheet_kinds : list (string * (val -> bool)) :=
  [("version"%string, at_place 1 atomb);
   ("generator"%string, at_place 1 atomb);
   ("setup"%string, Setup_typed);
   ("rect"%string, Rect_typed);
   ("line"%string, Line_typed);
   ("polygon"%string, Polygon_typed);
   ("tbtext"%string, TbText_typed);
   ("bitmap"%string, Bitmap_typed)].
Definition WorkSheet_typed : val -> bool := expr ["kicad_wks"%string] 0 0 (strict WorkSheet_kinds).

Definition Group_whole (o : Group) : bool :=
  given (gr_id o)
  && (negb (gr_name o =s "locked")).

Definition PageSettings_whole (o : PageSettings) : bool :=
  (negb (pg_paperSize o =s "portrait") && (if pg_paperSize o =s "User" then numb (pg_width o) && numb (pg_height o)else is_none (pg_width o) && is_none (pg_height o))).

Definition RenderCache_whole (o : RenderCache) : bool :=
  (negb (rc_text o =s "")).

Fixpoint Symbol_whole (o : Symbol) : bool :=
  forallb Symbol_whole (sy_units o)
  && (id_ok (sy_libraryNickname o) (sy_entryName o) (sy_unitId o) (sy_styleId o) && (sy_pinNames o || (is_none (sy_pinNamesOffset o) && negb (sy_pinNamesHide o)))).

Definition SymbolLib_whole (o : SymbolLib) : bool :=
  numb (sj_version o)
  && given (sj_generator o)
  && forallb Symbol_whole (sj_symbols o).

Definition FpText_whole (o : FpText) : bool :=
  optok RenderCache_whole (ft_renderCache o).

Definition FpLine_whole (o : FpLine) : bool :=
  negb (fl_locked o)
  && (width_ok (fl_width o) (fl_stroke o)).

Definition FpRect_whole (o : FpRect) : bool :=
  (width_ok (fr_width o) (fr_stroke o)).

Definition FpCircle_whole (o : FpCircle) : bool :=
  (width_ok (fc_width o) (fc_stroke o)).

Definition FpArc_whole (o : FpArc) : bool :=
  (width_ok (fa_width o) (fa_stroke o)).

Definition FpPoly_whole (o : FpPoly) : bool :=
  (width_ok (fp_width o) (fp_stroke o) && negb (Nat.eqb (length (fp_coordinates o)) 0)).

Definition FpCurve_whole (o : FpCurve) : bool :=
  (width_ok (fv_width o) (fv_stroke o) && negb (Nat.eqb (length (fv_coordinates o)) 0)).

Definition FpTextBox_whole (o : FpTextBox) : bool :=
  optok RenderCache_whole (fb_renderCache o)
  && (text_box_ok (fb_angle o) (fb_pts o) (fb_start o) (fb_end o)).

Definition GrText_whole (o : GrText) : bool :=
  negb (gt_locked o)
  && optok RenderCache_whole (gt_renderCache o)
  && (layer_ok (gt_layer o) (gt_knockout o)).

Definition GrPoly_whole (o : GrPoly) : bool :=
  (negb (Nat.eqb (length (gp_coordinates o)) 0)).

Definition GrCurve_whole (o : GrCurve) : bool :=
  (negb (Nat.eqb (length (gv_coordinates o)) 0)).

Definition GrTextBox_whole (o : GrTextBox) : bool :=
  optok RenderCache_whole (gb_renderCache o)
  && (text_box_ok (gb_angle o) (gb_pts o) (gb_start o) (gb_end o)).

Definition FillSettings_whole (o : FillSettings) : bool :=
  given (fs_thermalGap o)
  && given (fs_thermalBridgeWidth o).

Definition ZonePolygon_whole (o : ZonePolygon) : bool :=
  (negb (Nat.eqb (length (zp_coordinates o)) 0)).

Definition FilledPolygon_whole (o : FilledPolygon) : bool :=
  (negb (Nat.eqb (length (zf_coordinates o)) 0)).

Definition FillSegments_whole (o : FillSegments) : bool :=
  (negb (Nat.eqb (length (zs_coordinates o)) 0)).

Definition Zone_whole (o : Zone) : bool :=
  optok FillSettings_whole (zo_fillSettings o)
  && forallb ZonePolygon_whole (zo_polygons o)
  && forallb FilledPolygon_whole (zo_filledPolygons o)
  && optok FillSegments_whole (zo_fillSegments o)
  && (negb (Nat.eqb (length (zo_layers o)) 0)).

Definition DrillDefinition_whole (o : DrillDefinition) : bool :=
  (if dd_oval o then negb (is_none (dd_width o)) else is_none (dd_width o) && no_object (dd_offset o)).

Definition PadPrimitive_whole (o : PadPrimitive) : bool :=
  match o with
  | PadPrimitive_GrText x => GrText_whole x
  | PadPrimitive_GrTextBox x => GrTextBox_whole x
  | PadPrimitive_GrLine x => true
  | PadPrimitive_GrRect x => true
  | PadPrimitive_GrCircle x => true
  | PadPrimitive_GrArc x => true
  | PadPrimitive_GrPoly x => GrPoly_whole x
  | PadPrimitive_GrCurve x => GrCurve_whole x
  end.

Definition Pad_whole (o : Pad) : bool :=
  optok DrillDefinition_whole (pd_drill o)
  && forallb PadPrimitive_whole (pd_customPadPrimitives o)
  && (negb (pd_shape o =s "locked")).

Definition FpItem_whole (o : FpItem) : bool :=
  match o with
  | FpItem_FpText x => FpText_whole x
  | FpItem_FpTextBox x => FpTextBox_whole x
  | FpItem_FpLine x => FpLine_whole x
  | FpItem_FpRect x => FpRect_whole x
  | FpItem_FpCircle x => FpCircle_whole x
  | FpItem_FpArc x => FpArc_whole x
  | FpItem_FpPoly x => FpPoly_whole x
  | FpItem_FpCurve x => FpCurve_whole x
  | FpItem_Image x => true
  end.

Definition Footprint_whole (o : Footprint) : bool :=
  atomb (fd_tedit o)
  && forallb FpItem_whole (fd_graphicItems o)
  && forallb Pad_whole (fd_pads o)
  && forallb Zone_whole (fd_zones o)
  && forallb Group_whole (fd_groups o)
  && (fp_id_ok (fd_libraryNickname o) (fd_entryName o)).

Definition Dimension_whole (o : Dimension) : bool :=
  negb (di_locked o)
  && given (di_tstamp o)
  && optok GrText_whole (di_grText o)
  && (negb (Nat.eqb (length (di_pts o)) 0)).

Definition PlotSettings_whole (o : PlotSettings) : bool :=
  given (ps_layerSelection o)
  && negb (ps_useAuxOrigin o).

Definition SetupData_whole (o : SetupData) : bool :=
  optok PlotSettings_whole (sd_plotSettings o).

Definition Segment_whole (o : Segment) : bool :=
  given (sg_tstamp o).

Definition Target_whole (o : Target) : bool :=
  given (tg_tstamp o).

Definition BdItem_whole (o : BdItem) : bool :=
  match o with
  | BdItem_GrText x => GrText_whole x
  | BdItem_GrTextBox x => GrTextBox_whole x
  | BdItem_GrLine x => true
  | BdItem_GrRect x => true
  | BdItem_GrCircle x => true
  | BdItem_GrArc x => true
  | BdItem_GrPoly x => GrPoly_whole x
  | BdItem_GrCurve x => GrCurve_whole x
  | BdItem_Image x => true
  end.

Definition TrItem_whole (o : TrItem) : bool :=
  match o with
  | TrItem_Segment x => Segment_whole x
  | TrItem_Arc x => true
  | TrItem_Via x => true
  end.

Definition Board_whole (o : Board) : bool :=
  given (bd_version o)
  && given (bd_generator o)
  && PageSettings_whole (bd_paper o)
  && SetupData_whole (bd_setup o)
  && forallb Footprint_whole (bd_footprints o)
  && forallb BdItem_whole (bd_graphicItems o)
  && forallb TrItem_whole (bd_traceItems o)
  && forallb Zone_whole (bd_zones o)
  && forallb Dimension_whole (bd_dimensions o)
  && forallb Target_whole (bd_targets o)
  && forallb Group_whole (bd_groups o).

Definition Junction_whole (o : Junction) : bool :=
  match jn_color o with JColor_obj _ => true | JColor_val _ => false end.

Definition SchematicSymbol_whole (o : SchematicSymbol) : bool :=
  (fp_id_ok (ss_libraryNickname o) (ss_entryName o)).

Definition HierarchicalSheet_whole (o : HierarchicalSheet) : bool :=
  negb (is_none (ca_precision (hs_fill o)))
  && (sheet_keys_ok (hs_sheetName o) (hs_fileName o) (hs_properties o)).

Definition NetclassFlag_whole (o : NetclassFlag) : bool :=
  negb (no_object (nf_position o))
  && negb (no_object (nf_effects o)).

Definition Schematic_whole (o : Schematic) : bool :=
  atomb (sc_version o)
  && PageSettings_whole (sc_paper o)
  && forallb Symbol_whole (sc_libSymbols o)
  && forallb SchematicSymbol_whole (sc_schematicSymbols o)
  && forallb Junction_whole (sc_junctions o)
  && forallb NetclassFlag_whole (sc_netclassFlags o)
  && forallb HierarchicalSheet_whole (sc_sheets o).

Definition TbText_whole (o : TbText) : bool :=
  (optok Justify_ok1 (tt_justify o)).

Definition WkItem_whole (o : WkItem) : bool :=
  match o with
  | WkItem_Line x => true
  | WkItem_Rect x => true
  | WkItem_Polygon x => true
  | WkItem_Bitmap x => true
  | WkItem_TbText x => TbText_whole x
  end.

Definition WorkSheet_whole (o : WorkSheet) : bool :=
  atomb (wk_version o)
  && forallb WkItem_whole (wk_drawingObjects o).
