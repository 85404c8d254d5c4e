(** Specification for C49: which exception a reader raises.

    [X_raises v] is the kind of exception that [from_sexpr] of the class X raises for the expression
    [v], or [None] if it returns an object.  Nothing here mentions an object.  The tables were taken
    from the source text, not from the model. *)
From Coq Require Import String.
From Verif Require Import PyBase.

Definition fault : Type := option exn.
(** the first fault counts *)
Definition els (a b : fault) : fault := match a with Some e => Some e | None => b end.
Definition first {A} (f : A -> fault) : list A -> fault := fix go l := match l with [] => None | x :: l' => els (f x) (go l') end.

(** [v[n]]: IndexError if there is no such place, TypeError if [v] has no places *)
Definition need (n : nat) (v : val) : fault :=
  match v with
  | VList l => if Nat.ltb n (length l) then None else Some EIndex
  | VStr s => if Nat.ltb n (length s) then None else Some EIndex
  | _ => Some EType
  end.
(** something is done with [v[n]] *)
Definition place (n : nat) (f : val -> fault) (v : val) : fault :=
  match v with VList l => match nth_error l n with Some x => f x | None => Some EIndex end | _ => Some EType end.
(** something is done with each of [v[n:]], one after the other *)
Definition each (n : nat) (f : val -> fault) (v : val) : fault :=
  match v with VList l => first f (skipn n l) | _ => Some EType end.
Definition fine (v : val) : fault := None.
Definition unsupported (v : val) : fault := Some ENotImplemented.
Definition both (f g : val -> fault) (v : val) : fault := els (f v) (g v).
(** the key of a dictionary: lists are not hashable *)
Definition key (v : val) : fault := match v with VList _ => Some EType | _ => None end.
(** the argument of [re.match] *)
Definition textual (v : val) : fault := match v with VStr _ => None | _ => Some EType end.
(** [(name text effects?)] *)
Definition named (f : val -> fault) (v : val) : fault :=
  match v with VList (_ :: _ :: x :: _) => f x | VList [_; _] => None | _ => Some EIndex end.

(** [item[0]] of a list, then the lines of the table with that head *)
Definition rows (t : list (string * (val -> fault))) (v : val) : fault :=
  match v with
  | VList (h :: _) => first (fun kr => if h =s fst kr then snd kr v else None) t
  | _ => Some EIndex
  end.
(** items of a reader that passes over everything that is not a list *)
Definition lists (t : list (string * (val -> fault))) (v : val) : fault :=
  match v with VList _ => rows t v | _ => None end.
(** items of a reader that passes over text *)
Definition texts (t : list (string * (val -> fault))) (v : val) : fault :=
  match v with VList _ => rows t v | VStr _ => None | _ => Some EType end.
(** items of a reader that looks at [item[0]] of everything *)
Definition strict (t : list (string * (val -> fault))) (v : val) : fault :=
  match v with VList _ => rows t v | VStr (_ :: _) => None | VStr [] => Some EIndex | _ => Some EType end.

(** [Exception] unless it is a list of at least [len] items with one of the heads (IndexError for
    [exp[0]] of the empty list); then the [k] items behind the head are taken, then the items behind
    the first [j] are read *)
Definition expr (heads : list string) (len k j : nat) (item : val -> fault) (v : val) : fault :=
  match v with
  | VList l =>
      if Nat.ltb (length l) len then Some EException else
      match l with
      | [] => Some EIndex
      | h :: l' =>
          if existsb (fun k => h =s k) heads
          then if Nat.leb k (length l') then first item (skipn j l') else Some EIndex
          else Some EException
      end
  | _ => Some EException
  end.
(** a text behind an optional word; the word counts only if no list follows it *)
Definition flagged_expr (head word : string) (len : nat) (item : val -> fault) (v : val) : fault :=
  match v with
  | VList l =>
      if Nat.ltb (length l) len then Some EException else
      match l with
      | [] => Some EIndex
      | h :: l' =>
          if h =s head then
            match l' with
            | [] => Some EIndex
            | x :: l'' =>
                if x =s word
                then match l'' with [] => Some EIndex | VList _ :: _ => first item l'' | _ :: l3 => first item l3 end
                else first item l''
            end
          else Some EException
      end
  | _ => Some EException
  end.

(** items/common.py:49-76 *)
Definition Position_raises (v : val) : fault := match v with VList (_ :: _ :: _ :: _) => None | _ => Some EException end.

(** items/common.py:97-120 *)
Definition Coordinate_raises (v : val) : fault :=
  match v with VList [h; _; _; _] => if h =s "xyz" then None else Some EException | _ => Some EException end.

(** items/common.py:158-182 *)
Definition ColorRGBA_raises (v : val) : fault :=
  match v with VList [h; _; _; _; _] => if h =s "color" then None else Some EException | _ => Some EException end.

(** items/common.py:226-252 *)
Definition Stroke_faults : list (string * (val -> fault)) :=
  [("width"%string, need 1);
   ("type"%string, need 1);
   ("color"%string, ColorRGBA_raises)].
Definition Stroke_raises : val -> fault := expr ["stroke"%string] 2 0 0 (lists Stroke_faults).

(** items/common.py:308-340 *)
Definition Font_faults : list (string * (val -> fault)) :=
  [("face"%string, need 1);
   ("size"%string, need 2);
   ("thickness"%string, need 1);
   ("line_spacing"%string, need 1);
   ("color"%string, ColorRGBA_raises)].
Definition Font_raises : val -> fault := expr ["font"%string] 0 0 0 (lists Font_faults).

(** items/common.py:384-409 *)
Definition Justify_raises : val -> fault := expr ["justify"%string] 0 0 0 fine.

(** items/common.py:461-488 *)
Definition Effects_faults : list (string * (val -> fault)) :=
  [("font"%string, Font_raises);
   ("justify"%string, Justify_raises);
   ("href"%string, need 1)].
Definition Effects_raises : val -> fault := expr ["effects"%string] 0 0 0 (lists Effects_faults).

(** items/common.py:522-544 *)
Definition Net_raises : val -> fault := expr ["net"%string] 0 2 0 fine.

(** items/common.py:582-611 *)
Definition Group_faults : list (string * (val -> fault)) :=
  [("id"%string, need 1);
   ("members"%string, fine)].
Definition Group_raises : val -> fault := expr ["group"%string] 0 1 0 (lists Group_faults).

(** items/common.py:658-690 *)
Definition PageSettings_raises (v : val) : fault :=
  match v with
  | VList [] => Some EIndex
  | VList (h :: l) =>
      if h =s "paper" then
        match l with
        | [] => Some EIndex
        | size :: l' => if size =s "User" then (if Nat.leb 2 (length l') then None else Some EException) else None
        end
      else Some EException
  | _ => Some EException
  end.

(** items/common.py:742-768 *)
Definition TitleBlock_faults : list (string * (val -> fault)) :=
  [("title"%string, need 1);
   ("date"%string, need 1);
   ("rev"%string, need 1);
   ("company"%string, need 1);
   ("comment"%string, both (need 2) (place 1 key))].
Definition TitleBlock_raises : val -> fault := expr ["title_block"%string] 0 0 0 (strict TitleBlock_faults).

(** items/common.py:834-861 *)
Definition Property_faults : list (string * (val -> fault)) :=
  [("id"%string, need 1);
   ("at"%string, Position_raises);
   ("effects"%string, Effects_raises);
   ("show_name"%string, fine)].
Definition Property_raises : val -> fault := expr ["property"%string] 0 2 2 (strict Property_faults).

(** items/common.py:899-923 *)
Definition RenderCachePolygon_faults : list (string * (val -> fault)) :=
  [("pts"%string, each 1 Position_raises)].
Definition RenderCachePolygon_raises : val -> fault := expr ["polygon"%string] 0 0 0 (strict RenderCachePolygon_faults).

(** items/common.py:973-997 *)
Definition RenderCache_faults : list (string * (val -> fault)) :=
  [("polygon"%string, RenderCachePolygon_raises)].
Definition RenderCache_raises : val -> fault := expr ["render_cache"%string] 3 2 0 (strict RenderCache_faults).

(** items/common.py:1039-1062 *)
Definition Fill_faults : list (string * (val -> fault)) :=
  [("type"%string, need 1);
   ("color"%string, ColorRGBA_raises)].
Definition Fill_raises : val -> fault := expr ["fill"%string] 0 0 0 (strict Fill_faults).

(** items/common.py:1107-1135 *)
Definition Image_faults : list (string * (val -> fault)) :=
  [("at"%string, Position_raises);
   ("scale"%string, need 1);
   ("uuid"%string, need 1);
   ("layer"%string, need 1);
   ("data"%string, fine)].
Definition Image_raises : val -> fault := expr ["image"%string] 0 0 0 (strict Image_faults).

(** items/common.py:1174-1175 *)
Definition ProjectInstance_raises : val -> fault := unsupported.

(** libraries.py:46-73 *)
Definition Library_faults : list (string * (val -> fault)) :=
  [("name"%string, need 1);
   ("type"%string, need 1);
   ("uri"%string, need 1);
   ("options"%string, need 1);
   ("descr"%string, need 1);
   ("disabled"%string, fine)].
Definition Library_raises : val -> fault := expr ["lib"%string] 0 0 0 (strict Library_faults).

(** libraries.py:118-141 *)
Definition LibTable_faults : list (string * (val -> fault)) :=
  [("lib"%string, Library_raises)].
Definition LibTable_raises : val -> fault := expr ["fp_lib_table"%string; "sym_lib_table"%string] 0 0 0 (strict LibTable_faults).

(** dru.py:72-99 *)
Definition Constraint_faults : list (string * (val -> fault)) :=
  [("min"%string, need 1);
   ("opt"%string, need 1);
   ("max"%string, need 1)].
Definition Constraint_raises : val -> fault := expr ["constraint"%string] 0 1 1 (strict Constraint_faults).

(** dru.py:147-173 *)
Definition Rule_faults : list (string * (val -> fault)) :=
  [("constraint"%string, Constraint_raises);
   ("condition"%string, need 1);
   ("layer"%string, need 1);
   ("severity"%string, need 1)].
Definition Rule_raises : val -> fault := expr ["rule"%string] 0 1 1 (strict Rule_faults).

(** dru.py:212-238 *)
Definition DesignRules_faults : list (string * (val -> fault)) :=
  [("version"%string, need 1);
   ("rule"%string, Rule_raises)].
(** the expressions of a rule file; the first must be the version *)
Definition DesignRules_raises (v : val) : fault :=
  match v with
  | VList [] => Some EIndex
  | VList ((VList [] :: _)) => Some EIndex
  | VList ((VList (h :: _) :: _) as l) => if h =s "version" then first (strict DesignRules_faults) l else Some EException
  | _ => Some EException
  end.

(** items/syitems.py:56-86 *)
Definition SyArc_faults : list (string * (val -> fault)) :=
  [("start"%string, Position_raises);
   ("mid"%string, Position_raises);
   ("end"%string, Position_raises);
   ("stroke"%string, Stroke_raises);
   ("fill"%string, Fill_raises)].
Definition SyArc_raises : val -> fault := expr ["arc"%string] 0 0 0 (texts SyArc_faults).

(** items/syitems.py:139-168 *)
Definition SyCircle_faults : list (string * (val -> fault)) :=
  [("center"%string, Position_raises);
   ("radius"%string, need 1);
   ("stroke"%string, Stroke_raises);
   ("fill"%string, Fill_raises)].
Definition SyCircle_raises : val -> fault := expr ["circle"%string] 0 0 0 (texts SyCircle_faults).

(** items/syitems.py:208-234 *)
Definition SyCurve_faults : list (string * (val -> fault)) :=
  [("stroke"%string, Stroke_raises);
   ("fill"%string, Fill_raises);
   ("pts"%string, each 1 Position_raises)].
Definition SyCurve_raises : val -> fault := expr ["curve"%string] 0 0 0 (strict SyCurve_faults).

(** items/syitems.py:277-303 *)
Definition SyPolyLine_faults : list (string * (val -> fault)) :=
  [("stroke"%string, Stroke_raises);
   ("fill"%string, Fill_raises);
   ("pts"%string, each 1 Position_raises)].
Definition SyPolyLine_raises : val -> fault := expr ["polyline"%string] 0 0 0 (strict SyPolyLine_faults).

(** items/syitems.py:355-384 *)
Definition SyRect_faults : list (string * (val -> fault)) :=
  [("start"%string, Position_raises);
   ("end"%string, Position_raises);
   ("stroke"%string, Stroke_raises);
   ("fill"%string, Fill_raises)].
Definition SyRect_raises : val -> fault := expr ["rectangle"%string] 0 0 0 (texts SyRect_faults).

(** items/syitems.py:424-448 *)
Definition SyText_faults : list (string * (val -> fault)) :=
  [("at"%string, Position_raises);
   ("effects"%string, Effects_raises)].
Definition SyText_raises : val -> fault := expr ["text"%string] 0 1 1 (strict SyText_faults).

(** items/syitems.py:509-546 *)
Definition SyTextBox_faults : list (string * (val -> fault)) :=
  [("at"%string, Position_raises);
   ("size"%string, Position_raises);
   ("effects"%string, Effects_raises);
   ("stroke"%string, Stroke_raises);
   ("fill"%string, Fill_raises);
   ("uuid"%string, need 1)].
Definition SyTextBox_raises : val -> fault := flagged_expr "text_box"%string "private"%string 0 (strict SyTextBox_faults).

(** symbol.py:42-65 *)
Definition SymbolAlternativePin_raises : val -> fault := expr ["alternate"%string] 0 3 0 fine.

(** symbol.py:126-163 *)
Definition SymbolPin_faults : list (string * (val -> fault)) :=
  [("at"%string, Position_raises);
   ("length"%string, need 1);
   ("name"%string, named Effects_raises);
   ("number"%string, named Effects_raises);
   ("alternate"%string, SymbolAlternativePin_raises)].
Definition SymbolPin_raises : val -> fault := expr ["pin"%string] 0 2 2 (lists SymbolPin_faults).

(** symbol.py:359-408 *)
Definition Symbol_faults : list (string * (val -> fault)) :=
  [("extends"%string, need 1);
   ("pin_numbers"%string, need 1);
   ("pin_names"%string, each 1 (lists [("offset"%string, need 1)]));
   ("in_bom"%string, need 1);
   ("on_board"%string, need 1);
   ("power"%string, fine);
   ("property"%string, Property_raises);
   ("pin"%string, SymbolPin_raises);
   ("arc"%string, SyArc_raises);
   ("circle"%string, SyCircle_raises);
   ("curve"%string, SyCurve_raises);
   ("polyline"%string, SyPolyLine_raises);
   ("rectangle"%string, SyRect_raises);
   ("text"%string, SyText_raises);
   ("text_box"%string, SyTextBox_raises)].
(** the id must be text; units are symbols again *)
Fixpoint Symbol_raises (v : val) : fault :=
  match v with
  | VList [] => Some EIndex
  | VList (h :: l) =>
      if h =s "symbol" then
        match l with
        | [] => Some EIndex
        | VStr _ :: items =>
            first (fun x => els (if match x with VList (h :: _) => h =s "symbol" | _ => false end then Symbol_raises x else None) (strict Symbol_faults x)) items
        | _ => Some EType
        end
      else Some EException
  | _ => Some EException
  end.

(** symbol.py:528-553 *)
Definition SymbolLib_faults : list (string * (val -> fault)) :=
  [("version"%string, need 1);
   ("generator"%string, need 1);
   ("symbol"%string, Symbol_raises)].
Definition SymbolLib_raises : val -> fault := expr ["kicad_symbol_lib"%string] 0 0 0 (strict SymbolLib_faults).

(** items/fpitems.py:71-106 *)
Definition FpText_faults : list (string * (val -> fault)) :=
  [("at"%string, Position_raises);
   ("layer"%string, need 1);
   ("effects"%string, Effects_raises);
   ("tstamp"%string, need 1);
   ("render_cache"%string, RenderCache_raises)].
Definition FpText_raises : val -> fault := expr ["fp_text"%string] 0 2 2 (lists FpText_faults).

(** items/fpitems.py:167-203 *)
Definition FpLine_faults : list (string * (val -> fault)) :=
  [("start"%string, Position_raises);
   ("end"%string, Position_raises);
   ("layer"%string, need 1);
   ("tstamp"%string, need 1);
   ("width"%string, need 1);
   ("stroke"%string, Stroke_raises)].
Definition FpLine_raises : val -> fault := expr ["fp_line"%string] 0 0 0 (lists FpLine_faults).

(** items/fpitems.py:261-298 *)
Definition FpRect_faults : list (string * (val -> fault)) :=
  [("start"%string, Position_raises);
   ("end"%string, Position_raises);
   ("layer"%string, need 1);
   ("tstamp"%string, need 1);
   ("fill"%string, need 1);
   ("width"%string, need 1);
   ("stroke"%string, Stroke_raises)].
Definition FpRect_raises : val -> fault := expr ["fp_rect"%string] 0 0 0 (lists FpRect_faults).

(** items/fpitems.py:381-424 *)
Definition FpTextBox_faults : list (string * (val -> fault)) :=
  [("start"%string, Position_raises);
   ("end"%string, Position_raises);
   ("pts"%string, each 1 Position_raises);
   ("angle"%string, need 1);
   ("layer"%string, need 1);
   ("tstamp"%string, need 1);
   ("effects"%string, Effects_raises);
   ("stroke"%string, Stroke_raises);
   ("render_cache"%string, RenderCache_raises)].
Definition FpTextBox_raises : val -> fault := flagged_expr "fp_text_box"%string "locked"%string 2 (strict FpTextBox_faults).

(** items/fpitems.py:507-544 *)
Definition FpCircle_faults : list (string * (val -> fault)) :=
  [("center"%string, Position_raises);
   ("end"%string, Position_raises);
   ("layer"%string, need 1);
   ("tstamp"%string, need 1);
   ("fill"%string, need 1);
   ("width"%string, need 1);
   ("stroke"%string, Stroke_raises)].
Definition FpCircle_raises : val -> fault := expr ["fp_circle"%string] 0 0 0 (lists FpCircle_faults).

(** items/fpitems.py:605-642 *)
Definition FpArc_faults : list (string * (val -> fault)) :=
  [("start"%string, Position_raises);
   ("mid"%string, Position_raises);
   ("end"%string, Position_raises);
   ("layer"%string, need 1);
   ("tstamp"%string, need 1);
   ("width"%string, need 1);
   ("stroke"%string, Stroke_raises)].
Definition FpArc_raises : val -> fault := expr ["fp_arc"%string] 0 0 0 (lists FpArc_faults).

(** items/fpitems.py:700-739 *)
Definition FpPoly_faults : list (string * (val -> fault)) :=
  [("pts"%string, each 1 Position_raises);
   ("layer"%string, need 1);
   ("tstamp"%string, need 1);
   ("fill"%string, need 1);
   ("width"%string, need 1);
   ("stroke"%string, Stroke_raises)].
Definition FpPoly_raises : val -> fault := expr ["fp_poly"%string] 0 0 0 (lists FpPoly_faults).

(** items/fpitems.py:801-838 *)
Definition FpCurve_faults : list (string * (val -> fault)) :=
  [("pts"%string, each 1 Position_raises);
   ("layer"%string, need 1);
   ("tstamp"%string, need 1);
   ("width"%string, need 1);
   ("stroke"%string, Stroke_raises)].
Definition FpCurve_raises : val -> fault := expr ["fp_curve"%string] 0 0 0 (lists FpCurve_faults).

(** items/gritems.py:64-98 *)
Definition GrText_faults : list (string * (val -> fault)) :=
  [("at"%string, Position_raises);
   ("layer"%string, need 1);
   ("effects"%string, Effects_raises);
   ("tstamp"%string, need 1);
   ("render_cache"%string, RenderCache_raises)].
Definition GrText_raises : val -> fault := expr ["gr_text"%string] 0 1 1 (lists GrText_faults).

(** items/gritems.py:183-226 *)
Definition GrTextBox_faults : list (string * (val -> fault)) :=
  [("start"%string, Position_raises);
   ("end"%string, Position_raises);
   ("pts"%string, each 1 Position_raises);
   ("angle"%string, need 1);
   ("layer"%string, need 1);
   ("tstamp"%string, need 1);
   ("effects"%string, Effects_raises);
   ("stroke"%string, Stroke_raises);
   ("render_cache"%string, RenderCache_raises)].
Definition GrTextBox_raises : val -> fault := flagged_expr "gr_text_box"%string "locked"%string 2 (strict GrTextBox_faults).

(** items/gritems.py:305-334 *)
Definition GrLine_faults : list (string * (val -> fault)) :=
  [("start"%string, Position_raises);
   ("end"%string, Position_raises);
   ("layer"%string, need 1);
   ("tstamp"%string, need 1);
   ("width"%string, need 1)].
Definition GrLine_raises : val -> fault := expr ["gr_line"%string] 0 0 0 (lists GrLine_faults).

(** items/gritems.py:386-416 *)
Definition GrRect_faults : list (string * (val -> fault)) :=
  [("start"%string, Position_raises);
   ("end"%string, Position_raises);
   ("layer"%string, need 1);
   ("tstamp"%string, need 1);
   ("fill"%string, need 1);
   ("width"%string, need 1)].
Definition GrRect_raises : val -> fault := expr ["gr_rect"%string] 0 0 0 (lists GrRect_faults).

(** items/gritems.py:468-499 *)
Definition GrCircle_faults : list (string * (val -> fault)) :=
  [("center"%string, Position_raises);
   ("end"%string, Position_raises);
   ("layer"%string, need 1);
   ("tstamp"%string, need 1);
   ("fill"%string, need 1);
   ("width"%string, need 1)].
Definition GrCircle_raises : val -> fault := expr ["gr_circle"%string] 0 0 0 (lists GrCircle_faults).

(** items/gritems.py:551-582 *)
Definition GrArc_faults : list (string * (val -> fault)) :=
  [("start"%string, Position_raises);
   ("mid"%string, Position_raises);
   ("end"%string, Position_raises);
   ("layer"%string, need 1);
   ("tstamp"%string, need 1);
   ("width"%string, need 1)].
Definition GrArc_raises : val -> fault := expr ["gr_arc"%string] 0 0 0 (lists GrArc_faults).

(** items/gritems.py:630-663 *)
Definition GrPoly_faults : list (string * (val -> fault)) :=
  [("pts"%string, each 1 Position_raises);
   ("layer"%string, need 1);
   ("tstamp"%string, need 1);
   ("fill"%string, need 1);
   ("width"%string, need 1)].
Definition GrPoly_raises : val -> fault := expr ["gr_poly"%string] 0 0 0 (lists GrPoly_faults).

(** items/gritems.py:723-754 *)
Definition GrCurve_faults : list (string * (val -> fault)) :=
  [("pts"%string, each 1 Position_raises);
   ("layer"%string, need 1);
   ("tstamp"%string, need 1);
   ("width"%string, need 1)].
Definition GrCurve_raises : val -> fault := expr ["gr_curve"%string] 0 0 0 (lists GrCurve_faults).

(** items/zones.py:55-85 *)
Definition KeepoutSettings_faults : list (string * (val -> fault)) :=
  [("tracks"%string, need 1);
   ("vias"%string, need 1);
   ("pads"%string, need 1);
   ("copperpour"%string, need 1);
   ("footprints"%string, need 1)].
Definition KeepoutSettings_raises : val -> fault := expr ["keepout"%string] 0 0 0 (lists KeepoutSettings_faults).

(** items/zones.py:182-222 *)
Definition FillSettings_faults : list (string * (val -> fault)) :=
  [("mode"%string, need 1);
   ("thermal_gap"%string, need 1);
   ("thermal_bridge_width"%string, need 1);
   ("smoothing"%string, need 1);
   ("radius"%string, need 1);
   ("island_removal_mode"%string, need 1);
   ("island_area_min"%string, need 1);
   ("hatch_thickness"%string, need 1);
   ("hatch_gap"%string, need 1);
   ("hatch_orientation"%string, need 1);
   ("hatch_smoothing_level"%string, need 1);
   ("hatch_smoothing_value"%string, need 1);
   ("hatch_border_algorithm"%string, need 1);
   ("hatch_min_hole_area"%string, need 1)].
Definition FillSettings_raises : val -> fault := expr ["fill"%string] 0 0 0 (lists FillSettings_faults).

(** items/zones.py:262-289 *)
Definition ZonePolygon_faults : list (string * (val -> fault)) :=
  [("pts"%string, each 1 Position_raises)].
Definition ZonePolygon_raises : val -> fault := expr ["polygon"%string] 0 0 0 (lists ZonePolygon_faults).

(** items/zones.py:335-365 *)
Definition FilledPolygon_faults : list (string * (val -> fault)) :=
  [("layer"%string, need 1);
   ("island"%string, fine);
   ("pts"%string, each 1 Position_raises)].
Definition FilledPolygon_raises : val -> fault := expr ["filled_polygon"%string] 0 0 0 (lists FilledPolygon_faults).

(** items/zones.py:412-441 *)
Definition FillSegments_faults : list (string * (val -> fault)) :=
  [("layer"%string, need 1);
   ("pts"%string, each 1 Position_raises)].
Definition FillSegments_raises : val -> fault := expr ["fill_segments"%string] 0 0 0 (lists FillSegments_faults).

(** items/zones.py:586-591: [(connect_pads (clearance 1))] or [(connect_pads no (clearance 1))] *)
Definition Zone_pads (v : val) : fault :=
  match v with VList [_; x] => need 1 x | VList (_ :: _ :: x :: _) => need 1 x | _ => Some EIndex end.

(** items/zones.py:554-603 *)
Definition Zone_faults : list (string * (val -> fault)) :=
  [("net"%string, need 1);
   ("net_name"%string, need 1);
   ("layers"%string, fine);
   ("layer"%string, fine);
   ("tstamp"%string, need 1);
   ("name"%string, need 1);
   ("hatch"%string, need 2);
   ("priority"%string, need 1);
   ("connect_pads"%string, Zone_pads);
   ("min_thickness"%string, need 1);
   ("filled_areas_thickness"%string, need 1);
   ("keepout"%string, KeepoutSettings_raises);
   ("fill"%string, FillSettings_raises);
   ("polygon"%string, ZonePolygon_raises);
   ("filled_polygon"%string, FilledPolygon_raises);
   ("fill_segments"%string, FillSegments_raises)].
Definition Zone_raises : val -> fault := expr ["zone"%string] 0 0 0 (lists Zone_faults).

(** footprint.py:64-95 *)
Definition Attributes_raises : val -> fault := expr ["attr"%string] 0 0 0 fine.

(** footprint.py:161-195 *)
Definition Model_faults : list (string * (val -> fault)) :=
  [("opacity"%string, need 1);
   ("offset"%string, place 1 Coordinate_raises);
   ("scale"%string, place 1 Coordinate_raises);
   ("rotate"%string, place 1 Coordinate_raises)].
Definition Model_raises : val -> fault := expr ["model"%string] 5 2 1 (strict Model_faults).

(** footprint.py:241-275 *)
Definition DrillDefinition_faults : list (string * (val -> fault)) :=
  [("offset"%string, Position_raises)].
(** an oval drill needs two numbers *)
Definition DrillDefinition_raises (v : val) : fault :=
  match v with
  | VList [] => Some EIndex
  | VList [h] => if h =s "drill" then Some EIndex else Some EException
  | VList (h :: x :: l) =>
      if h =s "drill" then
        if x =s "oval" then (if Nat.leb 2 (length l) then first (lists DrillDefinition_faults) l else Some EIndex)
        else first (lists DrillDefinition_faults) (x :: l)
      else Some EException
  | _ => Some EException
  end.

(** footprint.py:313-336 *)
Definition PadOptions_faults : list (string * (val -> fault)) :=
  [("clearance"%string, need 1);
   ("anchor"%string, need 1)].
Definition PadOptions_raises : val -> fault := expr ["options"%string] 0 0 0 (strict PadOptions_faults).

(** footprint.py:525-547: the primitives of a custom pad *)
Definition PadPrimitive_faults : list (string * (val -> fault)) :=
  [("gr_text"%string, GrText_raises);
   ("gr_text_box"%string, GrTextBox_raises);
   ("gr_line"%string, GrLine_raises);
   ("gr_rect"%string, GrRect_raises);
   ("gr_circle"%string, GrCircle_raises);
   ("gr_arc"%string, GrArc_raises);
   ("gr_poly"%string, GrPoly_raises);
   ("gr_curve"%string, GrCurve_raises);
   ("dimension"%string, unsupported)].

(** footprint.py:481-549 *)
Definition Pad_faults : list (string * (val -> fault)) :=
  [("at"%string, Position_raises);
   ("size"%string, Position_raises);
   ("drill"%string, DrillDefinition_raises);
   ("layers"%string, fine);
   ("property"%string, need 1);
   ("remove_unused_layers"%string, fine);
   ("keep_end_layers"%string, fine);
   ("roundrect_rratio"%string, need 1);
   ("chamfer_ratio"%string, need 1);
   ("chamfer"%string, fine);
   ("net"%string, Net_raises);
   ("tstamp"%string, need 1);
   ("pinfunction"%string, need 1);
   ("pintype"%string, need 1);
   ("die_length"%string, need 1);
   ("solder_mask_margin"%string, need 1);
   ("solder_paste_margin"%string, need 1);
   ("solder_paste_margin_ratio"%string, need 1);
   ("clearance"%string, need 1);
   ("zone_connect"%string, need 1);
   ("thermal_width"%string, need 1);
   ("thermal_gap"%string, need 1);
   ("options"%string, PadOptions_raises);
   ("primitives"%string, each 1 (strict PadPrimitive_faults))].
Definition Pad_raises : val -> fault := expr ["pad"%string] 0 3 2 (strict Pad_faults).

(** footprint.py:841-910 *)
Definition Footprint_faults : list (string * (val -> fault)) :=
  [("version"%string, need 1);
   ("generator"%string, need 1);
   ("layer"%string, need 1);
   ("tedit"%string, need 1);
   ("tstamp"%string, need 1);
   ("descr"%string, need 1);
   ("tags"%string, need 1);
   ("path"%string, need 1);
   ("at"%string, Position_raises);
   ("autoplace_cost90"%string, need 1);
   ("autoplace_cost180"%string, need 1);
   ("solder_mask_margin"%string, need 1);
   ("solder_paste_margin"%string, need 1);
   ("solder_paste_ratio"%string, need 1);
   ("clearance"%string, need 1);
   ("zone_connect"%string, need 1);
   ("thermal_width"%string, need 1);
   ("thermal_gap"%string, need 1);
   ("attr"%string, Attributes_raises);
   ("model"%string, Model_raises);
   ("fp_text"%string, FpText_raises);
   ("fp_text_box"%string, FpTextBox_raises);
   ("fp_line"%string, FpLine_raises);
   ("fp_rect"%string, FpRect_raises);
   ("fp_circle"%string, FpCircle_raises);
   ("fp_arc"%string, FpArc_raises);
   ("fp_poly"%string, FpPoly_raises);
   ("fp_curve"%string, FpCurve_raises);
   ("image"%string, Image_raises);
   ("pad"%string, Pad_raises);
   ("zone"%string, Zone_raises);
   ("property"%string, both (need 2) (place 1 key));
   ("group"%string, Group_raises);
   ("private_layers"%string, fine);
   ("net_tie_pad_groups"%string, fine);
   ("dimension"%string, unsupported)].
Definition Footprint_raises : val -> fault := expr ["module"%string; "footprint"%string] 0 1 1 (lists Footprint_faults).

(** items/dimensions.py:66-97 *)
Definition DimensionFormat_faults : list (string * (val -> fault)) :=
  [("prefix"%string, need 1);
   ("suffix"%string, need 1);
   ("units"%string, need 1);
   ("units_format"%string, need 1);
   ("precision"%string, need 1);
   ("override_value"%string, need 1)].
Definition DimensionFormat_raises : val -> fault := expr ["format"%string] 0 0 0 (lists DimensionFormat_faults).

(** items/dimensions.py:163-193 *)
Definition DimensionStyle_faults : list (string * (val -> fault)) :=
  [("thickness"%string, need 1);
   ("arrow_length"%string, need 1);
   ("text_position_mode"%string, need 1);
   ("extension_height"%string, need 1);
   ("text_frame"%string, need 1);
   ("extension_offset"%string, need 1)].
Definition DimensionStyle_raises : val -> fault := expr ["style"%string] 0 0 0 (lists DimensionStyle_faults).

(** items/dimensions.py:263-300 *)
Definition Dimension_faults : list (string * (val -> fault)) :=
  [("type"%string, need 1);
   ("layer"%string, need 1);
   ("tstamp"%string, need 1);
   ("height"%string, need 1);
   ("orientation"%string, need 1);
   ("leader_length"%string, need 1);
   ("gr_text"%string, GrText_raises);
   ("format"%string, DimensionFormat_raises);
   ("style"%string, DimensionStyle_raises);
   ("pts"%string, each 1 Position_raises)].
Definition Dimension_raises : val -> fault := expr ["dimension"%string] 0 0 0 (lists Dimension_faults).

(** items/brditems.py:36-58 *)
Definition GeneralSettings_faults : list (string * (val -> fault)) :=
  [("thickness"%string, need 1)].
Definition GeneralSettings_raises : val -> fault := expr ["general"%string] 0 0 0 (strict GeneralSettings_faults).

(** items/brditems.py:102-124 *)
Definition LayerToken_raises (v : val) : fault :=
  match v with VList [_; _; _] | VList [_; _; _; _] => None | _ => Some EException end.

(** items/brditems.py:161-168 *)
Definition StackupSubLayer_raises : val -> fault := unsupported.

(** items/brditems.py:233-290 *)
Definition StackupLayer_faults : list (string * (val -> fault)) :=
  [("type"%string, need 1);
   ("thickness"%string, need 1);
   ("material"%string, need 1);
   ("epsilon_r"%string, need 1);
   ("loss_tangent"%string, need 1);
   ("color"%string, need 1)].
(** behind the first word [addsublayer] only four of the tokens are looked at *)
Definition StackupSubLayer_faults : list (string * (val -> fault)) :=
  [("thickness"%string, need 1); ("material"%string, need 1); ("epsilon_r"%string, need 1); ("loss_tangent"%string, need 1)].
Fixpoint StackupLayer_item_faults (l : list val) : fault :=
  match l with
  | [] => None
  | x :: l' => if x =s "addsublayer" then first (lists StackupSubLayer_faults) l'
               else els (lists StackupLayer_faults x) (StackupLayer_item_faults l')
  end.
Definition StackupLayer_raises (v : val) : fault :=
  match v with
  | VList [] => Some EIndex
  | VList [h] => if h =s "layer" then Some EIndex else Some EException
  | VList (h :: _ :: l) => if h =s "layer" then StackupLayer_item_faults l else Some EException
  | _ => Some EException
  end.

(** items/brditems.py:351-378 *)
Definition Stackup_faults : list (string * (val -> fault)) :=
  [("layer"%string, StackupLayer_raises);
   ("copper_finish"%string, need 1);
   ("dielectric_constraints"%string, need 1);
   ("edge_connector"%string, need 1);
   ("castellated_pads"%string, fine);
   ("edge_plating"%string, fine)].
Definition Stackup_raises : val -> fault := expr ["stackup"%string] 0 0 0 (strict Stackup_faults).

(** items/brditems.py:543-598 *)
Definition PlotSettings_faults : list (string * (val -> fault)) :=
  [("layerselection"%string, need 1);
   ("plot_on_all_layers_selection"%string, need 1);
   ("disableapertmacros"%string, need 1);
   ("usegerberextensions"%string, need 1);
   ("usegerberattributes"%string, need 1);
   ("usegerberadvancedattributes"%string, need 1);
   ("creategerberjobfile"%string, need 1);
   ("dashed_line_dash_ratio"%string, need 1);
   ("dashed_line_gap_ratio"%string, need 1);
   ("svguseinch"%string, need 1);
   ("svgprecision"%string, need 1);
   ("excludeedgelayer"%string, need 1);
   ("plotframeref"%string, need 1);
   ("viasonmask"%string, need 1);
   ("mode"%string, need 1);
   ("useauxorigin"%string, need 1);
   ("hpglpennumber"%string, need 1);
   ("hpglpenspeed"%string, need 1);
   ("hpglpendiameter"%string, need 1);
   ("dxfpolygonmode"%string, need 1);
   ("dxfimperialunits"%string, need 1);
   ("dxfusepcbnewfont"%string, need 1);
   ("psnegative"%string, need 1);
   ("psa4output"%string, need 1);
   ("plotreference"%string, need 1);
   ("plotvalue"%string, need 1);
   ("plotinvisibletext"%string, need 1);
   ("sketchpadsonfab"%string, need 1);
   ("subtractmaskfromsilk"%string, need 1);
   ("outputformat"%string, need 1);
   ("mirror"%string, need 1);
   ("drillshape"%string, need 1);
   ("scaleselection"%string, need 1);
   ("outputdirectory"%string, need 1)].
Definition PlotSettings_raises : val -> fault := expr ["pcbplotparams"%string] 0 0 0 (strict PlotSettings_faults).

(** items/brditems.py:698-728 *)
Definition SetupData_faults : list (string * (val -> fault)) :=
  [("stackup"%string, Stackup_raises);
   ("pcbplotparams"%string, PlotSettings_raises);
   ("pad_to_mask_clearance"%string, need 1);
   ("solder_mask_min_width"%string, need 1);
   ("pad_to_paste_clearance"%string, need 1);
   ("pad_to_paste_clearance_ratio"%string, need 1);
   ("aux_axis_origin"%string, Position_raises);
   ("grid_origin"%string, Position_raises);
   ("pcbplotparams"%string, PlotSettings_raises)].
Definition SetupData_raises : val -> fault := expr ["setup"%string] 0 0 0 (strict SetupData_faults).

(** items/brditems.py:787-817 *)
Definition Segment_faults : list (string * (val -> fault)) :=
  [("start"%string, Position_raises);
   ("end"%string, Position_raises);
   ("width"%string, need 1);
   ("layer"%string, need 1);
   ("net"%string, need 1);
   ("tstamp"%string, need 1)].
Definition Segment_raises : val -> fault := expr ["segment"%string] 0 0 0 (lists Segment_faults).

(** items/brditems.py:880-916 *)
Definition Via_faults : list (string * (val -> fault)) :=
  [("at"%string, Position_raises);
   ("size"%string, need 1);
   ("drill"%string, need 1);
   ("layers"%string, fine);
   ("remove_unused_layers"%string, fine);
   ("keep_end_layers"%string, fine);
   ("free"%string, fine);
   ("net"%string, need 1);
   ("tstamp"%string, need 1)].
Definition Via_raises : val -> fault := expr ["via"%string] 0 0 0 (lists Via_faults).

(** items/brditems.py:979-1010 *)
Definition Arc_faults : list (string * (val -> fault)) :=
  [("start"%string, Position_raises);
   ("mid"%string, Position_raises);
   ("end"%string, Position_raises);
   ("width"%string, need 1);
   ("layer"%string, need 1);
   ("net"%string, need 1);
   ("tstamp"%string, need 1)].
Definition Arc_raises : val -> fault := expr ["arc"%string] 0 0 0 (lists Arc_faults).

(** items/brditems.py:1062-1089 *)
Definition Target_faults : list (string * (val -> fault)) :=
  [("at"%string, Position_raises);
   ("size"%string, need 1);
   ("width"%string, need 1);
   ("layer"%string, need 1);
   ("tstamp"%string, need 1)].
Definition Target_raises : val -> fault := expr ["target"%string] 0 1 1 (strict Target_faults).

(** board.py:97-147 *)
Definition Board_faults : list (string * (val -> fault)) :=
  [("version"%string, need 1);
   ("generator"%string, need 1);
   ("general"%string, GeneralSettings_raises);
   ("paper"%string, PageSettings_raises);
   ("title_block"%string, TitleBlock_raises);
   ("layers"%string, each 1 LayerToken_raises);
   ("setup"%string, SetupData_raises);
   ("property"%string, both (need 2) (place 1 key));
   ("net"%string, Net_raises);
   ("footprint"%string, Footprint_raises);
   ("gr_text"%string, GrText_raises);
   ("gr_text_box"%string, GrTextBox_raises);
   ("gr_line"%string, GrLine_raises);
   ("gr_rect"%string, GrRect_raises);
   ("gr_circle"%string, GrCircle_raises);
   ("gr_arc"%string, GrArc_raises);
   ("gr_poly"%string, GrPoly_raises);
   ("gr_curve"%string, GrCurve_raises);
   ("image"%string, Image_raises);
   ("dimension"%string, Dimension_raises);
   ("target"%string, Target_raises);
   ("segment"%string, Segment_raises);
   ("arc"%string, Arc_raises);
   ("via"%string, Via_raises);
   ("zone"%string, Zone_raises);
   ("group"%string, Group_raises)].
Definition Board_raises : val -> fault := expr ["kicad_pcb"%string] 0 0 0 (strict Board_faults).

(** items/schitems.py:48-73 *)
Definition Junction_faults : list (string * (val -> fault)) :=
  [("at"%string, Position_raises);
   ("color"%string, ColorRGBA_raises);
   ("diameter"%string, need 1);
   ("uuid"%string, need 1)].
Definition Junction_raises : val -> fault := expr ["junction"%string] 0 0 0 (strict Junction_faults).

(** items/schitems.py:106-129 *)
Definition NoConnect_faults : list (string * (val -> fault)) :=
  [("at"%string, Position_raises);
   ("uuid"%string, need 1)].
Definition NoConnect_raises : val -> fault := expr ["no_connect"%string] 0 0 0 (strict NoConnect_faults).

(** items/schitems.py:169-194 *)
Definition BusEntry_faults : list (string * (val -> fault)) :=
  [("at"%string, Position_raises);
   ("stroke"%string, Stroke_raises);
   ("size"%string, Position_raises);
   ("uuid"%string, need 1)].
Definition BusEntry_raises : val -> fault := expr ["bus_entry"%string] 0 0 0 (strict BusEntry_faults).

(** items/schitems.py:232-262 *)
Definition BusAlias_raises (v : val) : fault :=
  match v with
  | VList [] => Some EIndex
  | VList [h; _; VList []] => if h =s "bus_alias" then Some EIndex else Some EException
  | VList [h; _; VList (m :: _)] => if (h =s "bus_alias") && (m =s "members") then None else Some EException
  | _ => Some EException
  end.

(** items/schitems.py:303-330 *)
Definition Connection_faults : list (string * (val -> fault)) :=
  [("pts"%string, each 1 Position_raises);
   ("stroke"%string, Stroke_raises);
   ("uuid"%string, need 1)].
Definition Connection_raises : val -> fault := expr ["wire"%string; "bus"%string] 0 0 0 (strict Connection_faults).

(** items/schitems.py:375-401 *)
Definition PolyLine_faults : list (string * (val -> fault)) :=
  [("pts"%string, each 1 Position_raises);
   ("stroke"%string, Stroke_raises);
   ("uuid"%string, need 1)].
Definition PolyLine_raises : val -> fault := expr ["polyline"%string] 0 0 0 (strict PolyLine_faults).

(** items/schitems.py:448-473 *)
Definition Text_faults : list (string * (val -> fault)) :=
  [("at"%string, Position_raises);
   ("effects"%string, Effects_raises);
   ("uuid"%string, need 1)].
Definition Text_raises : val -> fault := expr ["text"%string] 0 1 1 (strict Text_faults).

(** items/schitems.py:535-563 *)
Definition TextBox_faults : list (string * (val -> fault)) :=
  [("at"%string, Position_raises);
   ("size"%string, Position_raises);
   ("effects"%string, Effects_raises);
   ("stroke"%string, Stroke_raises);
   ("fill"%string, Fill_raises);
   ("uuid"%string, need 1)].
Definition TextBox_raises : val -> fault := expr ["text_box"%string] 0 1 1 (strict TextBox_faults).

(** items/schitems.py:615-641 *)
Definition LocalLabel_faults : list (string * (val -> fault)) :=
  [("at"%string, Position_raises);
   ("effects"%string, Effects_raises);
   ("uuid"%string, need 1);
   ("fields_autoplaced"%string, fine)].
Definition LocalLabel_raises : val -> fault := expr ["label"%string] 0 1 1 (strict LocalLabel_faults).

(** items/schitems.py:699-727 *)
Definition GlobalLabel_faults : list (string * (val -> fault)) :=
  [("fields_autoplaced"%string, fine);
   ("at"%string, Position_raises);
   ("effects"%string, Effects_raises);
   ("property"%string, Property_raises);
   ("shape"%string, need 1);
   ("uuid"%string, need 1)].
Definition GlobalLabel_raises : val -> fault := expr ["global_label"%string] 0 1 1 (strict GlobalLabel_faults).

(** items/schitems.py:784-811 *)
Definition HierarchicalLabel_faults : list (string * (val -> fault)) :=
  [("at"%string, Position_raises);
   ("effects"%string, Effects_raises);
   ("shape"%string, need 1);
   ("uuid"%string, need 1);
   ("fields_autoplaced"%string, fine)].
Definition HierarchicalLabel_raises : val -> fault := expr ["hierarchical_label"%string] 0 1 1 (strict HierarchicalLabel_faults).

(** items/schitems.py:859-883 *)
Definition SymbolProjectPath_faults : list (string * (val -> fault)) :=
  [("reference"%string, need 1);
   ("unit"%string, need 1)].
Definition SymbolProjectPath_raises : val -> fault := expr ["path"%string] 2 1 1 (strict SymbolProjectPath_faults).

(** items/schitems.py:919-942 *)
Definition SymbolProjectInstance_faults : list (string * (val -> fault)) :=
  [("path"%string, SymbolProjectPath_raises)].
Definition SymbolProjectInstance_raises : val -> fault := expr ["project"%string] 2 1 1 (strict SymbolProjectInstance_faults).

(** items/schitems.py:1063-1100 *)
Definition SchematicSymbol_faults : list (string * (val -> fault)) :=
  [("fields_autoplaced"%string, fine);
   ("lib_id"%string, place 1 textual);
   ("lib_name"%string, need 1);
   ("uuid"%string, need 1);
   ("unit"%string, need 1);
   ("in_bom"%string, need 1);
   ("on_board"%string, need 1);
   ("dnp"%string, need 1);
   ("at"%string, Position_raises);
   ("property"%string, Property_raises);
   ("pin"%string, both (need 2) (both (place 2 (need 1)) (place 1 key)));
   ("mirror"%string, need 1);
   ("instances"%string, each 1 SymbolProjectInstance_raises)].
Definition SchematicSymbol_raises : val -> fault := expr ["symbol"%string] 0 0 0 (strict SchematicSymbol_faults).

(** items/schitems.py:1170-1196 *)
Definition HierarchicalPin_faults : list (string * (val -> fault)) :=
  [("at"%string, Position_raises);
   ("effects"%string, Effects_raises);
   ("uuid"%string, need 1)].
Definition HierarchicalPin_raises : val -> fault := expr ["pin"%string] 0 2 2 (strict HierarchicalPin_faults).

(** items/schitems.py:1239-1262 *)
Definition HierarchicalSheetProjectPath_faults : list (string * (val -> fault)) :=
  [("page"%string, need 1)].
Definition HierarchicalSheetProjectPath_raises : val -> fault := expr ["path"%string] 2 1 1 (strict HierarchicalSheetProjectPath_faults).

(** items/schitems.py:1295-1318 *)
Definition HierarchicalSheetProjectInstance_faults : list (string * (val -> fault)) :=
  [("path"%string, HierarchicalSheetProjectPath_raises)].
Definition HierarchicalSheetProjectInstance_raises : val -> fault := expr ["project"%string] 2 1 1 (strict HierarchicalSheetProjectInstance_faults).

(** items/schitems.py:1391-1431 *)
Definition HierarchicalSheet_faults : list (string * (val -> fault)) :=
  [("fields_autoplaced"%string, fine);
   ("at"%string, Position_raises);
   ("stroke"%string, Stroke_raises);
   ("size"%string, need 2);
   ("fill"%string, place 1 ColorRGBA_raises);
   ("uuid"%string, need 1);
   ("property"%string, Property_raises);
   ("pin"%string, HierarchicalPin_raises);
   ("instances"%string, each 1 HierarchicalSheetProjectInstance_raises)].
Definition HierarchicalSheet_raises : val -> fault := expr ["sheet"%string] 0 0 0 (strict HierarchicalSheet_faults).

(** items/schitems.py:1484-1507 *)
Definition HierarchicalSheetInstance_faults : list (string * (val -> fault)) :=
  [("page"%string, need 1)].
Definition HierarchicalSheetInstance_raises : val -> fault := expr ["path"%string] 0 1 1 (strict HierarchicalSheetInstance_faults).

(** items/schitems.py:1550-1576 *)
Definition SymbolInstance_faults : list (string * (val -> fault)) :=
  [("reference"%string, need 1);
   ("unit"%string, need 1);
   ("value"%string, need 1);
   ("footprint"%string, need 1)].
Definition SymbolInstance_raises : val -> fault := expr ["path"%string] 0 1 1 (strict SymbolInstance_faults).

(** items/schitems.py:1622-1649 *)
Definition Rectangle_faults : list (string * (val -> fault)) :=
  [("start"%string, Position_raises);
   ("end"%string, Position_raises);
   ("stroke"%string, Stroke_raises);
   ("fill"%string, Fill_raises);
   ("uuid"%string, need 1)].
Definition Rectangle_raises : val -> fault := expr ["rectangle"%string] 0 0 0 (strict Rectangle_faults).

(** items/schitems.py:1701-1729 *)
Definition SchArc_faults : list (string * (val -> fault)) :=
  [("start"%string, Position_raises);
   ("mid"%string, Position_raises);
   ("end"%string, Position_raises);
   ("stroke"%string, Stroke_raises);
   ("fill"%string, Fill_raises);
   ("uuid"%string, need 1)].
Definition SchArc_raises : val -> fault := expr ["arc"%string] 0 0 0 (strict SchArc_faults).

(** items/schitems.py:1778-1805 *)
Definition Circle_faults : list (string * (val -> fault)) :=
  [("center"%string, Position_raises);
   ("radius"%string, need 1);
   ("stroke"%string, Stroke_raises);
   ("fill"%string, Fill_raises);
   ("uuid"%string, need 1)].
Definition Circle_raises : val -> fault := expr ["circle"%string] 0 0 0 (strict Circle_faults).

(** items/schitems.py:1865-1894 *)
Definition NetclassFlag_faults : list (string * (val -> fault)) :=
  [("length"%string, need 1);
   ("shape"%string, need 1);
   ("at"%string, Position_raises);
   ("fields_autoplaced"%string, fine);
   ("effects"%string, Effects_raises);
   ("uuid"%string, need 1);
   ("property"%string, Property_raises)].
Definition NetclassFlag_raises : val -> fault := expr ["netclass_flag"%string] 0 1 1 (strict NetclassFlag_faults).

(** schematic.py:118-172 *)
Definition Schematic_faults : list (string * (val -> fault)) :=
  [("version"%string, need 1);
   ("generator"%string, need 1);
   ("uuid"%string, need 1);
   ("paper"%string, PageSettings_raises);
   ("title_block"%string, TitleBlock_raises);
   ("lib_symbols"%string, each 1 Symbol_raises);
   ("junction"%string, Junction_raises);
   ("no_connect"%string, NoConnect_raises);
   ("bus_entry"%string, BusEntry_raises);
   ("bus_alias"%string, BusAlias_raises);
   ("wire"%string, Connection_raises);
   ("bus"%string, Connection_raises);
   ("polyline"%string, PolyLine_raises);
   ("arc"%string, SchArc_raises);
   ("circle"%string, Circle_raises);
   ("rectangle"%string, Rectangle_raises);
   ("image"%string, Image_raises);
   ("text"%string, Text_raises);
   ("text_box"%string, TextBox_raises);
   ("label"%string, LocalLabel_raises);
   ("global_label"%string, GlobalLabel_raises);
   ("hierarchical_label"%string, HierarchicalLabel_raises);
   ("netclass_flag"%string, NetclassFlag_raises);
   ("symbol"%string, SchematicSymbol_raises);
   ("sheet"%string, HierarchicalSheet_raises);
   ("sheet_instances"%string, each 1 HierarchicalSheetInstance_raises);
   ("symbol_instances"%string, each 1 SymbolInstance_raises)].
Definition Schematic_raises : val -> fault := expr ["kicad_sch"%string] 0 0 0 (strict Schematic_faults).

(** wks.py:38-60 *)
Definition WksFontSize_raises (v : val) : fault :=
  match v with VList [h; _; _] => if h =s "size" then None else Some EException | _ => Some EException end.

(** wks.py:93-120 *)
Definition WksFont_faults : list (string * (val -> fault)) :=
  [("linewidth"%string, need 1);
   ("size"%string, WksFontSize_raises)].
Definition WksFont_raises : val -> fault := expr ["font"%string] 0 0 0 (lists WksFont_faults).

(** wks.py:162-186 *)
Definition WksPosition_raises (v : val) : fault := match v with VList (_ :: _ :: _ :: _) => None | _ => Some EException end.

(** wks.py:231-261 *)
Definition Line_faults : list (string * (val -> fault)) :=
  [("name"%string, need 1);
   ("start"%string, WksPosition_raises);
   ("end"%string, WksPosition_raises);
   ("option"%string, need 1);
   ("linewidth"%string, need 1);
   ("repeat"%string, need 1);
   ("incrx"%string, need 1);
   ("incry"%string, need 1);
   ("comment"%string, need 1)].
Definition Line_raises : val -> fault := expr ["line"%string] 0 0 0 (strict Line_faults).

(** wks.py:330-360 *)
Definition Rect_faults : list (string * (val -> fault)) :=
  [("name"%string, need 1);
   ("start"%string, WksPosition_raises);
   ("end"%string, WksPosition_raises);
   ("option"%string, need 1);
   ("linewidth"%string, need 1);
   ("repeat"%string, need 1);
   ("incrx"%string, need 1);
   ("incry"%string, need 1);
   ("comment"%string, need 1)].
Definition Rect_raises : val -> fault := expr ["rect"%string] 0 0 0 (strict Rect_faults).

(** wks.py:430-444 *)
Definition Polygon_raises : val -> fault := unsupported.

(** wks.py:508-542 *)
Definition Bitmap_faults : list (string * (val -> fault)) :=
  [("name"%string, need 1);
   ("pos"%string, WksPosition_raises);
   ("option"%string, need 1);
   ("scale"%string, need 1);
   ("repeat"%string, need 1);
   ("incrx"%string, need 1);
   ("incry"%string, need 1);
   ("comment"%string, need 1);
   ("pngdata"%string, each 1 (strict [("data"%string, need 1)]))].
Definition Bitmap_raises : val -> fault := expr ["bitmap"%string] 0 0 0 (strict Bitmap_faults).

(** wks.py:632-667 *)
Definition TbText_faults : list (string * (val -> fault)) :=
  [("name"%string, need 1);
   ("pos"%string, WksPosition_raises);
   ("option"%string, need 1);
   ("rotate"%string, need 1);
   ("font"%string, WksFont_raises);
   ("justify"%string, Justify_raises);
   ("maxlen"%string, need 1);
   ("maxheight"%string, need 1);
   ("repeat"%string, need 1);
   ("incrx"%string, need 1);
   ("incry"%string, need 1);
   ("incrlabel"%string, need 1);
   ("comment"%string, need 1)].
Definition TbText_raises : val -> fault := expr ["tbtext"%string] 0 1 1 (strict TbText_faults).

(** wks.py:714-736 *)
Definition TextSize_raises (v : val) : fault :=
  match v with VList [h; _; _] => if h =s "textsize" then None else Some EException | _ => Some EException end.

(** wks.py:782-810 *)
Definition Setup_faults : list (string * (val -> fault)) :=
  [("textsize"%string, TextSize_raises);
   ("linewidth"%string, need 1);
   ("textlinewidth"%string, need 1);
   ("left_margin"%string, need 1);
   ("right_margin"%string, need 1);
   ("top_margin"%string, need 1);
   ("bottom_margin"%string, need 1)].
Definition Setup_raises : val -> fault := expr ["setup"%string] 0 0 0 (strict Setup_faults).

(** wks.py:858-887 *)
Definition WorkSheet_faults : list (string * (val -> fault)) :=
  [("version"%string, need 1);
   ("generator"%string, need 1);
   ("setup"%string, Setup_raises);
   ("rect"%string, Rect_raises);
   ("line"%string, Line_raises);
   ("polygon"%string, Polygon_raises);
   ("tbtext"%string, TbText_raises);
   ("bitmap"%string, Bitmap_raises)].
Definition WorkSheet_raises : val -> fault := expr ["kicad_wks"%string] 0 0 0 (strict WorkSheet_faults).
