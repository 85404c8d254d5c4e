(** Specification for C50: the layout of the written text.

    The text is scanned character by character.  Outside of quotes:
    - a line begins with two blanks for each parenthesis that is open there, on top of the
      indentation that was asked for; a line that begins with a closing parenthesis is aligned with
      the line of the opening one;
    - within a line two items are separated by exactly one blank, and there is none behind an opening
      or in front of a closing parenthesis;
    - no line ends in a blank. *)
From Verif Require Import PyBase PyStr M_Common M_Lib M_Sym M_Fp M_Gr M_Zone M_Footprint M_Dim M_Brd M_Board M_Sch M_Schematic M_Wks.
From Verif Require Import S_Leaf S_Common S_Lib S_Sym S_Fp S_Gr S_Zone S_Footprint S_Dim S_Brd S_Board S_Sch S_Schematic S_Wks.

Inductive place : Type :=
| Start (blanks : nat)     (* at the beginning of a line, behind that many blanks *)
| Gap                      (* behind the blank that follows an item *)
| Open                     (* behind an opening parenthesis *)
| Item (whole : bool)      (* behind an item; in a bare word, or behind a parenthesis or a quote *)
| Quote                    (* in quotes *)
| Escape.                  (* in quotes, behind a backslash *)

(** the number of open parentheses, and the place *)
Definition spot : Type := nat * place.

Definition opening (d : nat) (c : N) : option spot :=
  if (c =? 40)%N then Some (S d, Open) else if (c =? 34)%N then Some (d, Quote) else Some (d, Item false).

Definition scan (indent : nat) (s : spot) (c : N) : option spot :=
  let (d, p) := s in
  match p with
  | Start k =>
      if (c =? 32)%N then Some (d, Start (S k))
      else if (c =? 10)%N then (if Nat.eqb k 0 then Some (d, Start 0) else None)
      else if (c =? 41)%N then match d with S d' => if Nat.eqb k (indent + 2 * d') then Some (d', Item true) else None | 0 => None end
      else if Nat.eqb k (indent + 2 * d) then opening d c else None
  | Gap => if (c =? 32)%N || (c =? 10)%N || (c =? 41)%N then None else opening d c
  | Open => if (c =? 32)%N || (c =? 10)%N || (c =? 40)%N || (c =? 41)%N || (c =? 34)%N then None else Some (d, Item false)
  | Item whole =>
      if (c =? 32)%N then Some (d, Gap)
      else if (c =? 10)%N then Some (d, Start 0)
      else if (c =? 41)%N then match d with S d' => Some (d', Item true) | 0 => None end
      else if (c =? 40)%N || whole then None
      else Some (d, Item false)
  | Quote => if (c =? 34)%N then Some (d, Item true) else if (c =? 92)%N then Some (d, Escape) else Some (d, Quote)
  | Escape => if (c =? 92)%N then Some (d, Escape) else Some (d, Quote)
  end.
Fixpoint scans (indent : nat) (s : spot) (t : list N) : option spot :=
  match t with [] => Some s | c :: t' => match scan indent s c with Some s' => scans indent s' t' | None => None end end.

(** Whole expressions: the text begins on a new line and ends with the last parenthesis, or with the line.
    (That there is one expression, and nothing else, is C43.) *)
Definition tidy (indent : nat) (newline : bool) (t : list N) : bool :=
  match scans indent (0, Start 0) t with
  | Some (0, Item true) => negb newline
  | Some (0, Start 0) => newline
  | _ => false
  end.

(** The texts of all the objects in question are laid out like this. *)
Definition tidies {A} (to : A -> nat -> bool -> res str) (ok : A -> bool) : Prop :=
  forall o indent newline t, ok o = true -> to o indent newline = Ok t -> tidy indent newline t = true.

(** Texts that always end the line, whether or not that is asked for. *)
Definition tidies_line {A} (to : A -> nat -> bool -> res str) (ok : A -> bool) : Prop :=
  forall o indent newline t, ok o = true -> to o indent newline = Ok t -> tidy indent true t = true.
(** Texts that are laid out like this at the outermost level, *)
Definition tidies_file {A} (to : A -> nat -> bool -> res str) (ok : A -> bool) : Prop :=
  forall o newline t, ok o = true -> to o 0 newline = Ok t -> tidy 0 newline t = true.
(** and of these the ones that always end the line. *)
Definition tidies_file_line {A} (to : A -> nat -> bool -> res str) (ok : A -> bool) : Prop :=
  forall o newline t, ok o = true -> to o 0 newline = Ok t -> tidy 0 true t = true.

(** Not all the objects are written like this.  The following say which ones are; the others are
    refuted in Properties_Tidy.v.  Empty texts: *)
Definition Justify_neat (o : Justify) : bool := negb (is_none (ju_horizontally o) && is_none (ju_vertically o) && negb (ju_mirror o)).
Definition Attributes_neat (o : Attributes) : bool :=
  negb (is_none (fx_type o) && negb (fx_boardOnly o) && negb (fx_excludeFromBom o) && negb (fx_excludeFromPosFiles o) && negb (fx_allowMissingCourtyard o)).
Definition WksFont_neat (o : WksFont) : bool := negb (is_none (wf_linewidth o) && no_object (wf_size o) && negb (wf_bold o) && negb (wf_italic o)).
(** the points of a text: *)
Definition FpText_neat (o : FpText) : bool := no_object (ft_renderCache o).
Definition FpTextBox_neat (o : FpTextBox) : bool := no_object (fb_renderCache o) && Nat.eqb (length (fb_pts o)) 0.
Definition GrText_neat (o : GrText) : bool := no_object (gt_renderCache o).
Definition GrTextBox_neat (o : GrTextBox) : bool := no_object (gb_renderCache o) && Nat.eqb (length (gb_pts o)) 0.
Definition Dimension_neat (o : Dimension) : bool := optok GrText_neat (di_grText o).
(** a curve: *)
Definition FpItem_neat (o : FpItem) : bool :=
  match o with FpItem_FpText x => FpText_neat x | FpItem_FpTextBox x => FpTextBox_neat x | FpItem_FpCurve _ => false | _ => true end.
Definition PadPrimitive_neat (o : PadPrimitive) : bool :=
  match o with PadPrimitive_GrText x => GrText_neat x | PadPrimitive_GrTextBox x => GrTextBox_neat x | PadPrimitive_GrCurve _ => false | _ => true end.
Definition BdItem_neat (o : BdItem) : bool :=
  match o with BdItem_GrText x => GrText_neat x | BdItem_GrTextBox x => GrTextBox_neat x | BdItem_GrCurve _ => false | _ => true end.
Definition Pad_neat (o : Pad) : bool := forallb PadPrimitive_neat (pd_customPadPrimitives o).
(** the keep-out settings and the fill segments of a zone: *)
Definition Zone_neat (o : Zone) : bool := no_object (zo_keepoutSettings o) && no_object (zo_fillSegments o).
Definition Footprint_neat (o : Footprint) : bool :=
  forallb FpItem_neat (fd_graphicItems o) && forallb Pad_neat (fd_pads o) && forallb Zone_neat (fd_zones o).
Definition Board_neat (o : Board) : bool :=
  forallb Footprint_neat (bd_footprints o) && forallb BdItem_neat (bd_graphicItems o) && forallb Dimension_neat (bd_dimensions o) && forallb Zone_neat (bd_zones o).
(** a junction without an identifier: *)
Definition Junction_neat (o : Junction) : bool := negb (is_none (jn_uuid o)).
(** a bus without members: *)
Definition BusAlias_neat (o : BusAlias) : bool := negb (Nat.eqb (length (ba_members o)) 0).
Definition Schematic_neat (o : Schematic) : bool := forallb Junction_neat (sc_junctions o) && forallb BusAlias_neat (sc_busAliases o).
(** a comment in a work sheet: *)
Definition Line_neat (o : Line) : bool := is_none (wl_comment o).
Definition Rect_neat (o : Rect) : bool := is_none (wr_comment o).
Definition TbText_neat (o : TbText) : bool := is_none (tt_comment o).
Definition Justify_fine (o : Justify) : bool := Justify_ok o && Justify_neat o.
Definition Attributes_fine (o : Attributes) : bool := Attributes_ok o && Attributes_neat o.
Definition WksFont_fine (o : WksFont) : bool := WksFont_ok o && WksFont_neat o.
Definition FpText_fine (o : FpText) : bool := FpText_ok o && FpText_neat o.
Definition FpTextBox_fine (o : FpTextBox) : bool := FpTextBox_ok o && FpTextBox_neat o.
Definition GrText_fine (o : GrText) : bool := GrText_ok o && GrText_neat o.
Definition GrTextBox_fine (o : GrTextBox) : bool := GrTextBox_ok o && GrTextBox_neat o.
Definition Dimension_fine (o : Dimension) : bool := Dimension_ok o && Dimension_neat o.
Definition FpItem_fine (o : FpItem) : bool := FpItem_ok o && FpItem_neat o.
Definition PadPrimitive_fine (o : PadPrimitive) : bool := PadPrimitive_ok o && PadPrimitive_neat o.
Definition BdItem_fine (o : BdItem) : bool := BdItem_ok o && BdItem_neat o.
Definition Pad_fine (o : Pad) : bool := Pad_ok o && Pad_neat o.
Definition Zone_fine (o : Zone) : bool := Zone_ok o && Zone_neat o.
Definition Footprint_fine (o : Footprint) : bool := Footprint_ok o && Footprint_neat o.
Definition Board_fine (o : Board) : bool := Board_ok o && Board_neat o.
Definition Junction_fine (o : Junction) : bool := Junction_ok o && Junction_neat o.
Definition Schematic_fine (o : Schematic) : bool := Schematic_ok o && Schematic_neat o.
Definition Line_fine (o : Line) : bool := Line_ok o && Line_neat o.
Definition Rect_fine (o : Rect) : bool := Rect_ok o && Rect_neat o.
Definition TbText_fine (o : TbText) : bool := TbText_ok o && TbText_neat o.
Definition BusAlias_fine (o : BusAlias) : bool := BusAlias_ok o && BusAlias_neat o.
