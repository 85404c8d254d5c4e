(** * C58: saves and loads leave no trace

    Someone works on a printable object: they set attributes of it and of its parts, at any depth, to values that fit,
    as often as they like, and whenever they like save the object and continue with what they load.  No save or load
    fails, and they end with an object equal to the one that the same edits give without any save or load.  Beside
    each theorem stands a session that sets one attribute after the other to the value of another object, saving and
    loading after each. *)
From Coq Require Import String.
From Verif Require Import PyBase PyNum PyStr Sexpr RecordSet S_Leaf S_Tree S_Fix S_Equal S_Edit S_Deep S_Session L_Tac L_Equal L_EqualA L_Edit L_Deep L_Session.
From Verif Require Import M_Common M_Lib M_Sym M_Fp M_Gr M_Zone M_Footprint M_Dim M_Brd M_Board M_Sch M_Schematic M_Wks.
From Verif Require Import S_Common S_Lib S_Sym S_Fp S_Gr S_Zone S_Footprint S_Dim S_Brd S_Board S_Sch S_Schematic S_Wks.
From Verif Require Import L_Common L_Lib L_Sym L_Symbol L_Fp L_Gr L_Zone L_Pad L_Footprint L_Dim L_Brd L_Plot L_Board L_Sch L_Sheet L_Schematic L_Wks.

(** set each attribute in turn to the value it has in [d], if that fits; save and load after each *)
Fixpoint run {A} (to : A -> nat -> bool -> res str) (from : val -> res A) (es : list (edit A)) (d s t : A) : res (A * A) :=
  match es with
  | [] => Ok (s, t)
  | Edit get put fit alike :: es =>
    if fit s (get d) then let! s' := write_read to from (put (get d) s) 2 true in run to from es d s' (put (get d) t)
    else run to from es d s t
  end.
Definition starts {A} (to : A -> nat -> bool -> res str) (from : val -> res A) (ok : A -> bool) (same : A -> A -> bool) (es : list (edit A)) (d : A) (t : string) : bool :=
  match (let! v := parse_sexp (lit t) in from v) with
  | Ok o => ok o && match run to from es d o o with Ok (s, _) => negb (same o s) | Err _ => false end
  | Err _ => false
  end.
Arguments starts {A} _ _ _ _ _ _ _%string.
(** what [run] does is a session, and it has changed the object when [starts] *)
Lemma run_session {W A} to from day ok same (es0 es : list (edit A)) d o s t s' t' : attributes A ok same es0 -> incl es es0 ->
  @session W A to from ok same o s t -> run to (from day) es d s t = Ok (s', t') -> session to from ok same o s' t'.
Proof.
  intros AT. revert s t. induction es as [|[B get put fit alike] es IH]; intros s t I H R; cbn [run] in R; [now injection R as <- <-|].
  assert (I' : incl es es0) by (intros e Y; apply I; now right).
  destruct (fit s (get d)) eqn:F; [|now apply (IH s t)].
  destruct (write_read to (from day) (put (get d) s) 2 true) as [s1|] eqn:WR; cbn [bind] in R; [|discriminate R].
  apply (IH s1 (put (get d) t)); [exact I'| |exact R].
  apply (saves _ _ _ _ _ (put (get d) s) (put (get d) t) s1 day 2 true); [|exact WR].
  exact (edits _ _ _ _ _ s t A ok same itself es0 B get put fit alike s (get d) H (inside_here ok same) AT (I _ (or_introl eq_refl)) eq_refl F).
Qed.
Lemma starts_session {A} to (from : val -> res A) ok same es d t : attributes A ok same es -> starts to from ok same es d t = true ->
  exists o s u, ok o = true /\ session to (fun _ : unit => from) ok same o s u /\ same o s = false.
Proof.
  intros AT S. unfold starts in S. destruct (let! v := parse_sexp (lit t) in from v) as [o|]; [|discriminate S]. apply andb_prop in S as [O S].
  destruct (run to from es d o o) as [[s u]|] eqn:R; [|discriminate S]. exists o, s, u. repeat split; [exact O| |now apply negb_true_iff].
  exact (run_session to (fun _ : unit => from) tt ok same es es d o o o s u AT (incl_refl es) (begins _ _ _ _ o) R).
Qed.

Theorem C58_Coordinate : no_trace Coordinate_to (fun _ : unit => Coordinate_from) Coordinate_ok Coordinate_eqb.
Proof. exact (leave_no_trace _ _ _ _ _ Coordinate_q (fun _ => Coordinate_rt)). Qed.
Print Assumptions C58_Coordinate.
Example C58_Coordinate_case : starts Coordinate_to Coordinate_from Coordinate_ok Coordinate_eqb Coordinate_edits Coordinate_default "(xyz 2.5 -3 1.0)" = true.
Proof. vm_compute. reflexivity. Qed.

Theorem C58_ColorRGBA : no_trace ColorRGBA_to (fun _ : unit => ColorRGBA_from) ColorRGBA_ok ColorRGBA_eqb.
Proof. exact (leave_no_trace _ _ _ _ _ ColorRGBA_q (fun _ => ColorRGBA_rt)). Qed.
Print Assumptions C58_ColorRGBA.
Example C58_ColorRGBA_case : starts ColorRGBA_to ColorRGBA_from ColorRGBA_ok ColorRGBA_eqb ColorRGBA_edits ColorRGBA_default "(color 255 0 128 0.5)" = true.
Proof. vm_compute. reflexivity. Qed.

Theorem C58_Stroke : no_trace Stroke_to (fun _ : unit => Stroke_from) Stroke_ok Stroke_eqb.
Proof. exact (leave_no_trace _ _ _ _ _ Stroke_q (fun _ => Stroke_rt)). Qed.
Print Assumptions C58_Stroke.
Example C58_Stroke_case : starts Stroke_to Stroke_from Stroke_ok Stroke_eqb Stroke_edits Stroke_default "(stroke (width 0.254) (type dash_dot) (color 255 0 128 0.5))" = true.
Proof. vm_compute. reflexivity. Qed.

Theorem C58_Font : no_trace Font_to (fun _ : unit => Font_from) Font_ok Font_eqb.
Proof. exact (leave_no_trace _ _ _ _ _ Font_q (fun _ => Font_rt)). Qed.
Print Assumptions C58_Font.
Example C58_Font_case : starts Font_to Font_from Font_ok Font_eqb Font_edits Font_default "(font (face ""A \""b\"" \c"") (size 1.27 2) (color 255 0 128 0.5) (thickness 0.3) bold italic (line_spacing 1.1))" = true.
Proof. vm_compute. reflexivity. Qed.

Theorem C58_Justify : no_trace Justify_to (fun _ : unit => Justify_from) Justify_ok1 Justify_eqb.
Proof. exact (leave_no_trace _ _ _ _ _ Justify_q (fun _ => Justify_rt1)). Qed.
Print Assumptions C58_Justify.
Example C58_Justify_case : starts Justify_to Justify_from Justify_ok1 Justify_eqb Justify_edits Justify_default "(justify right top mirror)" = true.
Proof. vm_compute. reflexivity. Qed.

Theorem C58_Effects : no_trace Effects_to (fun _ : unit => Effects_from) Effects_ok Effects_eqb.
Proof. exact (leave_no_trace _ _ _ _ _ Effects_q (fun _ => Effects_rt)). Qed.
Print Assumptions C58_Effects.
Example C58_Effects_case : starts Effects_to Effects_from Effects_ok Effects_eqb Effects_edits Effects_default "(effects (font (face ""A \""b\"" \c"") (size 1.27 2) (color 255 0 128 0.5) (thickness 0.3) bold italic (line_spacing 1.1)) (justify right top mirror) (href ""https://x.y/(z)"") hide)" = true.
Proof. vm_compute. reflexivity. Qed.

Theorem C58_Net : no_trace Net_to (fun _ : unit => Net_from) Net_ok Net_eqb.
Proof. exact (leave_no_trace _ _ _ _ _ Net_q (fun _ => Net_rt)). Qed.
Print Assumptions C58_Net.
Example C58_Net_case : starts Net_to Net_from Net_ok Net_eqb Net_edits Net_default "(net 17 ""Net-(U1-Pad3)"")" = true.
Proof. vm_compute. reflexivity. Qed.

Theorem C58_Group : no_trace Group_to (fun _ : unit => Group_from) Group_ok Group_eqb.
Proof. exact (leave_no_trace _ _ _ _ _ Group_q (fun _ => Group_rt)). Qed.
Print Assumptions C58_Group.
Example C58_Group_case : starts Group_to Group_from Group_ok Group_eqb Group_edits Group_default "(group ""g \""1\"""" locked (id 6fe2b9d8-0001)
  (members
    0012
    abc-1
  )
)" = true.
Proof. vm_compute. reflexivity. Qed.

Theorem C58_PageSettings : no_trace PageSettings_to (fun _ : unit => PageSettings_from) PageSettings_ok PageSettings_eqb.
Proof. exact (leave_no_trace _ _ _ _ _ PageSettings_q (fun _ => PageSettings_rt)). Qed.
Print Assumptions C58_PageSettings.
Example C58_PageSettings_case : starts PageSettings_to PageSettings_from PageSettings_ok PageSettings_eqb PageSettings_edits PageSettings_default "(paper ""User"" 210.1 300 portrait)" = true.
Proof. vm_compute. reflexivity. Qed.

Theorem C58_TitleBlock : no_trace TitleBlock_to (fun _ : unit => TitleBlock_from) TitleBlock_ok TitleBlock_eqb.
Proof. exact (leave_no_trace _ _ _ _ _ TitleBlock_q (fun _ => TitleBlock_rt)). Qed.
Print Assumptions C58_TitleBlock.
Example C58_TitleBlock_case : starts TitleBlock_to TitleBlock_from TitleBlock_ok TitleBlock_eqb TitleBlock_edits TitleBlock_default "(title_block
  (title ""T"")
  (rev ""1.0"")
  (company """")
  (comment 1 ""one"")
  (comment 4 ""four (4)"")
)" = true.
Proof. vm_compute. reflexivity. Qed.

Theorem C58_Property : no_trace Property_to (fun _ : unit => Property_from) Property_ok Property_eqb.
Proof. exact (leave_no_trace _ _ _ _ _ Property_q (fun _ => Property_rt)). Qed.
Print Assumptions C58_Property.
Example C58_Property_case : starts Property_to Property_from Property_ok Property_eqb Property_edits Property_default "(property ""Sheet name"" ""a\b\"""" (id 3) (at 1 2.5 90) (show_name)
  (effects (font (face ""A \""b\"" \c"") (size 1.27 2) (color 255 0 128 0.5) (thickness 0.3) bold italic (line_spacing 1.1)) (justify right top mirror) (href ""https://x.y/(z)"") hide)
)" = true.
Proof. vm_compute. reflexivity. Qed.

Theorem C58_RenderCachePolygon : no_trace RenderCachePolygon_to (fun _ : unit => RenderCachePolygon_from) RenderCachePolygon_ok RenderCachePolygon_eqb.
Proof. exact (leave_no_trace _ _ _ _ _ RenderCachePolygon_q (fun _ => RenderCachePolygon_rt)). Qed.
Print Assumptions C58_RenderCachePolygon.
Example C58_RenderCachePolygon_case : starts RenderCachePolygon_to RenderCachePolygon_from RenderCachePolygon_ok RenderCachePolygon_eqb RenderCachePolygon_edits RenderCachePolygon_default "(polygon
  (pts
    (xy 1 2)    (xy 1.5 2)    (xy 0 -7)    (xy 0 0)
    (xy 9 9)
  )
)" = true.
Proof. vm_compute. reflexivity. Qed.

Theorem C58_RenderCache : no_trace RenderCache_to (fun _ : unit => RenderCache_from) RenderCache_ok RenderCache_eqb.
Proof. exact (leave_no_trace _ _ _ _ _ RenderCache_q (fun _ => RenderCache_rt)). Qed.
Print Assumptions C58_RenderCache.
Example C58_RenderCache_case : starts RenderCache_to RenderCache_from RenderCache_ok RenderCache_eqb RenderCache_edits RenderCache_default "(render_cache ""some text"" 0
  (polygon
    (pts
      (xy 1 2)      (xy 1.5 2)      (xy 0 -7)      (xy 0 0)
      (xy 9 9)
    )
  )
  (polygon
    (pts
    )
  )
)" = true.
Proof. vm_compute. reflexivity. Qed.

Theorem C58_Fill : no_trace Fill_to (fun _ : unit => Fill_from) Fill_ok Fill_eqb.
Proof. exact (leave_no_trace _ _ _ _ _ Fill_q (fun _ => Fill_rt)). Qed.
Print Assumptions C58_Fill.
Example C58_Fill_case : starts Fill_to Fill_from Fill_ok Fill_eqb Fill_edits Fill_default "(fill (type background) (color 255 0 128 0.5))" = true.
Proof. vm_compute. reflexivity. Qed.

Theorem C58_Image : no_trace Image_to (fun _ : unit => Image_from) Image_ok Image_eqb.
Proof. exact (leave_no_trace _ _ _ _ _ Image_q (fun _ => Image_rt)). Qed.
Print Assumptions C58_Image.
Example C58_Image_case : starts Image_to Image_from Image_ok Image_eqb Image_edits Image_default "(image (at 12.34 5) (layer ""F.SilkS"") (scale 0.5)
  (uuid a-b-c)
  (data
    iVBORw0KGgo=
    12
  )
)" = true.
Proof. vm_compute. reflexivity. Qed.

Theorem C58_Library : no_trace Library_to (fun _ : unit => Library_from) Library_ok Library_eqb.
Proof. exact (leave_no_trace _ _ _ _ _ Library_q (fun _ => Library_rt)). Qed.
Print Assumptions C58_Library.
Example C58_Library_case : starts Library_to Library_from Library_ok Library_eqb Library_edits Library_default "(lib (name ""MCU \""ST\"""")(type ""KiCad"")(uri ""${KIPRJMOD}/a (b).kicad_sym"")(options """")(descr ""x"")(disabled))" = true.
Proof. vm_compute. reflexivity. Qed.

Theorem C58_LibTable : no_trace LibTable_to (fun _ : unit => LibTable_from) LibTable_ok LibTable_eqb.
Proof. exact (leave_no_trace _ _ _ _ _ LibTable_q (fun _ => LibTable_rt)). Qed.
Print Assumptions C58_LibTable.
Example C58_LibTable_case : starts LibTable_to LibTable_from LibTable_ok LibTable_eqb LibTable_edits LibTable_default "(fp_lib_table
  (lib (name ""MCU \""ST\"""")(type ""KiCad"")(uri ""${KIPRJMOD}/a (b).kicad_sym"")(options """")(descr ""x""))
  (lib (name ""MCU \""ST\"""")(type ""KiCad"")(uri ""${KIPRJMOD}/a (b).kicad_sym"")(options """")(descr ""x"")(disabled))
  (lib (name """")(type ""KiCad"")(uri """")(options """")(descr """"))
)" = true.
Proof. vm_compute. reflexivity. Qed.

Theorem C58_Constraint : no_trace Constraint_to (fun _ : unit => Constraint_from) Constraint_ok Constraint_eqb.
Proof. exact (leave_no_trace _ _ _ _ _ Constraint_q (fun _ => Constraint_rt)). Qed.
Print Assumptions C58_Constraint.
Example C58_Constraint_case : starts Constraint_to Constraint_from Constraint_ok Constraint_eqb Constraint_edits Constraint_default "(constraint disallow (min ""0.2mm"") (max ""1 mm"") track via)" = true.
Proof. vm_compute. reflexivity. Qed.

Theorem C58_Rule : no_trace Rule_to (fun _ : unit => Rule_from) Rule_ok Rule_eqb.
Proof. exact (leave_no_trace _ _ _ _ _ Rule_q (fun _ => Rule_rt)). Qed.
Print Assumptions C58_Rule.
Example C58_Rule_case : starts Rule_to Rule_from Rule_ok Rule_eqb Rule_edits Rule_default "(rule ""HV \""1\""""
  (layer ""outer"")
  (constraint disallow (min ""0.2mm"") (max ""1 mm"") track via)
  (constraint clearance)
  (condition ""A.NetClass == 'HV'"")
  (severity warning))
" = true.
Proof. vm_compute. reflexivity. Qed.

Theorem C58_DesignRules : no_trace DesignRules_file (fun _ : unit => DesignRules_from) DesignRules_ok DesignRules_eqb.
Proof. exact (leave_no_trace _ _ _ _ _ DesignRules_q (fun _ => DesignRules_rt)). Qed.
Print Assumptions C58_DesignRules.
Example C58_DesignRules_case : starts DesignRules_file DesignRules_from DesignRules_ok DesignRules_eqb DesignRules_edits DesignRules_default "((version 1)

(rule ""HV \""1\""""
  (layer ""outer"")
  (constraint disallow (min ""0.2mm"") (max ""1 mm"") track via)
  (constraint clearance)
  (condition ""A.NetClass == 'HV'"")
  (severity warning))
(rule ""HV \""1\""""
  (layer ""outer"")
  (constraint disallow (min ""0.2mm"") (max ""1 mm"") track via)
  (constraint clearance)
  (condition ""A.NetClass == 'HV'"")
  (severity warning))
(rule """"
  (condition """"))
)" = true.
Proof. vm_compute. reflexivity. Qed.

Theorem C58_SyArc : no_trace SyArc_to (fun _ : unit => SyArc_from) SyArc_ok SyArc_eqb.
Proof. exact (leave_no_trace _ _ _ _ _ SyArc_q (fun _ => SyArc_rt)). Qed.
Print Assumptions C58_SyArc.
Example C58_SyArc_case : starts SyArc_to SyArc_from SyArc_ok SyArc_eqb SyArc_edits SyArc_default "(arc private (start 1 2.5 90) (mid 2 3) (end -2 3)
  (stroke (width 0.254) (type dash_dot) (color 255 0 128 0.5))
  (fill (type color) (color 255 0 128 0.5))
)" = true.
Proof. vm_compute. reflexivity. Qed.

Theorem C58_SyCircle : no_trace SyCircle_to (fun _ : unit => SyCircle_from) SyCircle_ok SyCircle_eqb.
Proof. exact (leave_no_trace _ _ _ _ _ SyCircle_q (fun _ => SyCircle_rt)). Qed.
Print Assumptions C58_SyCircle.
Example C58_SyCircle_case : starts SyCircle_to SyCircle_from SyCircle_ok SyCircle_eqb SyCircle_edits SyCircle_default "(circle private (center 2 3) (radius 2.5)
  (stroke (width 0.254) (type dash_dot) (color 255 0 128 0.5))
  (fill (type color) (color 255 0 128 0.5))
)" = true.
Proof. vm_compute. reflexivity. Qed.

Theorem C58_SyPolyLine : no_trace SyPolyLine_to (fun _ : unit => SyPolyLine_from) SyPolyLine_ok SyPolyLine_eqb.
Proof. exact (leave_no_trace _ _ _ _ _ SyPolyLine_q (fun _ => SyPolyLine_rt)). Qed.
Print Assumptions C58_SyPolyLine.
Example C58_SyPolyLine_case : starts SyPolyLine_to SyPolyLine_from SyPolyLine_ok SyPolyLine_eqb SyPolyLine_edits SyPolyLine_default "(polyline
  (pts
    (xy 2 3)
    (xy 0.1 0)
    (xy 2 3)
  )
  (stroke (width 0.254) (type dash_dot) (color 255 0 128 0.5))
  (fill (type color) (color 255 0 128 0.5))
)" = true.
Proof. vm_compute. reflexivity. Qed.

Theorem C58_SyRect : no_trace SyRect_to (fun _ : unit => SyRect_from) SyRect_ok SyRect_eqb.
Proof. exact (leave_no_trace _ _ _ _ _ SyRect_q (fun _ => SyRect_rt)). Qed.
Print Assumptions C58_SyRect.
Example C58_SyRect_case : starts SyRect_to SyRect_from SyRect_ok SyRect_eqb SyRect_edits SyRect_default "(rectangle private (start 2 3) (end 2 -0.3)
  (stroke (width 0.254) (type dash_dot) (color 255 0 128 0.5))
  (fill (type color) (color 255 0 128 0.5))
)" = true.
Proof. vm_compute. reflexivity. Qed.

Theorem C58_SyText : no_trace SyText_to (fun _ : unit => SyText_from) SyText_ok SyText_eqb.
Proof. exact (leave_no_trace _ _ _ _ _ SyText_q (fun _ => SyText_rt)). Qed.
Print Assumptions C58_SyText.
Example C58_SyText_case : starts SyText_to SyText_from SyText_ok SyText_eqb SyText_edits SyText_default "(text ""a \""(b)\"" \ c"" (at 2 3 900)
  (effects (font (face ""A \""b\"" \c"") (size 1.27 2) (color 255 0 128 0.5) (thickness 0.3) bold italic (line_spacing 1.1)) (justify right top mirror) (href ""https://x.y/(z)"") hide)
)" = true.
Proof. vm_compute. reflexivity. Qed.

Theorem C58_SyTextBox : no_trace SyTextBox_to (fun _ : unit => SyTextBox_from) SyTextBox_ok SyTextBox_eqb.
Proof. exact (leave_no_trace _ _ _ _ _ SyTextBox_q (fun _ => SyTextBox_rt)). Qed.
Print Assumptions C58_SyTextBox.
Example C58_SyTextBox_case : starts SyTextBox_to SyTextBox_from SyTextBox_ok SyTextBox_eqb SyTextBox_edits SyTextBox_default "(text_box private ""private""
  (at 2 3 90) (size 2 3)
  (stroke (width 0.254) (type dash_dot) (color 255 0 128 0.5))
  (fill (type color) (color 255 0 128 0.5))
  (effects (font (face ""A \""b\"" \c"") (size 1.27 2) (color 255 0 128 0.5) (thickness 0.3) bold italic (line_spacing 1.1)) (justify right top mirror) (href ""https://x.y/(z)"") hide)
  (uuid a-1)
)" = true.
Proof. vm_compute. reflexivity. Qed.

Theorem C58_SymbolAlternativePin : no_trace SymbolAlternativePin_to (fun _ : unit => SymbolAlternativePin_from) SymbolAlternativePin_ok SymbolAlternativePin_eqb.
Proof. exact (leave_no_trace _ _ _ _ _ SymbolAlternativePin_q (fun _ => SymbolAlternativePin_rt)). Qed.
Print Assumptions C58_SymbolAlternativePin.
Example C58_SymbolAlternativePin_case : starts SymbolAlternativePin_to SymbolAlternativePin_from SymbolAlternativePin_ok SymbolAlternativePin_eqb SymbolAlternativePin_edits SymbolAlternativePin_default "(alternate ""PA 0"" bidirectional inverted)" = true.
Proof. vm_compute. reflexivity. Qed.

Theorem C58_SymbolPin : no_trace SymbolPin_to (fun _ : unit => SymbolPin_from) SymbolPin_ok SymbolPin_eqb.
Proof. exact (leave_no_trace _ _ _ _ _ SymbolPin_q (fun _ => SymbolPin_rt)). Qed.
Print Assumptions C58_SymbolPin.
Example C58_SymbolPin_case : starts SymbolPin_to SymbolPin_from SymbolPin_ok SymbolPin_eqb SymbolPin_edits SymbolPin_default "(pin power_in line (at 2 3 90) (length 2.54) hide
  (name ""~{RST}"" (effects (font (face ""A \""b\"" \c"") (size 1.27 2) (color 255 0 128 0.5) (thickness 0.3) bold italic (line_spacing 1.1)) (justify right top mirror) (href ""https://x.y/(z)"") hide))
  (number ""12"")
  (alternate """" input line)
  (alternate """" input line)
)" = true.
Proof. vm_compute. reflexivity. Qed.

Theorem C58_Symbol : no_trace Symbol_to (fun _ : unit => Symbol_from) Symbol_ok Symbol_eqb.
Proof. exact (leave_no_trace _ _ _ _ _ Symbol_q (fun _ => Symbol_rt)). Qed.
Print Assumptions C58_Symbol.
Example C58_Symbol_case : starts Symbol_to Symbol_from Symbol_ok Symbol_eqb Symbol_edits Symbol_default "(symbol ""Amplifier:LM 358"" (extends ""LM \""X\"""") (power) (pin_numbers hide) (pin_names (offset 0.5) hide) (in_bom yes) (on_board no)
  (property ""Sheet name"" ""a\b\"""" (id 3) (at 1 2.5 90) (show_name)
    (effects (font (face ""A \""b\"" \c"") (size 1.27 2) (color 255 0 128 0.5) (thickness 0.3) bold italic (line_spacing 1.1)) (justify right top mirror) (href ""https://x.y/(z)"") hide)
  )
  (property ""Sheet name"" ""a\b\"""" (id 3) (at 1 2.5 90) (show_name)
    (effects (font (face ""A \""b\"" \c"") (size 1.27 2) (color 255 0 128 0.5) (thickness 0.3) bold italic (line_spacing 1.1)) (justify right top mirror) (href ""https://x.y/(z)"") hide)
  )
  (circle (center 0.0 0.0) (radius 0.0)
    (stroke (width 0.0))
    (fill (type none))
  )
  (text """" (at 0.0 0.0)
    (effects (font (size 1.0 1.0)))
  )
  (pin power_in line (at 2 3 90) (length 2.54) hide
    (name ""~{RST}"" (effects (font (face ""A \""b\"" \c"") (size 1.27 2) (color 255 0 128 0.5) (thickness 0.3) bold italic (line_spacing 1.1)) (justify right top mirror) (href ""https://x.y/(z)"") hide))
    (number ""12"")
    (alternate """" input line)
    (alternate """" input line)
  )
  (pin input line (at 0.0 0.0) (length 0.254) (name """") (number ""0""))
  (symbol ""LM 358_0_1""
    (rectangle (start 0.0 0.0) (end 0.0 0.0)
      (stroke (width 0.0))
      (fill (type none))
    )
    (arc (start 0.0 0.0) (mid 0.0 0.0) (end 0.0 0.0)
      (stroke (width 0.0))
      (fill (type none))
    )
    (pin power_in line (at 2 3 90) (length 2.54) hide
      (name ""~{RST}"" (effects (font (face ""A \""b\"" \c"") (size 1.27 2) (color 255 0 128 0.5) (thickness 0.3) bold italic (line_spacing 1.1)) (justify right top mirror) (href ""https://x.y/(z)"") hide))
      (number ""12"")
      (alternate """" input line)
      (alternate """" input line)
    )
  )
  (symbol ""LM 358_1_1""
    (rectangle (start 0.0 0.0) (end 0.0 0.0)
      (stroke (width 0.0))
      (fill (type none))
    )
    (arc (start 0.0 0.0) (mid 0.0 0.0) (end 0.0 0.0)
      (stroke (width 0.0))
      (fill (type none))
    )
    (pin power_in line (at 2 3 90) (length 2.54) hide
      (name ""~{RST}"" (effects (font (face ""A \""b\"" \c"") (size 1.27 2) (color 255 0 128 0.5) (thickness 0.3) bold italic (line_spacing 1.1)) (justify right top mirror) (href ""https://x.y/(z)"") hide))
      (number ""12"")
      (alternate """" input line)
      (alternate """" input line)
    )
    (symbol ""LM 358_7_1""
      (rectangle (start 0.0 0.0) (end 0.0 0.0)
        (stroke (width 0.0))
        (fill (type none))
      )
      (arc (start 0.0 0.0) (mid 0.0 0.0) (end 0.0 0.0)
        (stroke (width 0.0))
        (fill (type none))
      )
      (pin power_in line (at 2 3 90) (length 2.54) hide
        (name ""~{RST}"" (effects (font (face ""A \""b\"" \c"") (size 1.27 2) (color 255 0 128 0.5) (thickness 0.3) bold italic (line_spacing 1.1)) (justify right top mirror) (href ""https://x.y/(z)"") hide))
        (number ""12"")
        (alternate """" input line)
        (alternate """" input line)
      )
    )
    (symbol ""LM 358_8_1""
      (rectangle (start 0.0 0.0) (end 0.0 0.0)
        (stroke (width 0.0))
        (fill (type none))
      )
      (arc (start 0.0 0.0) (mid 0.0 0.0) (end 0.0 0.0)
        (stroke (width 0.0))
        (fill (type none))
      )
      (pin power_in line (at 2 3 90) (length 2.54) hide
        (name ""~{RST}"" (effects (font (face ""A \""b\"" \c"") (size 1.27 2) (color 255 0 128 0.5) (thickness 0.3) bold italic (line_spacing 1.1)) (justify right top mirror) (href ""https://x.y/(z)"") hide))
        (number ""12"")
        (alternate """" input line)
        (alternate """" input line)
      )
    )
  )
)" = true.
Proof. vm_compute. reflexivity. Qed.

Theorem C58_SymbolLib : no_trace SymbolLib_to (fun _ : unit => SymbolLib_from) SymbolLib_ok SymbolLib_eqb.
Proof. exact (leave_no_trace _ _ _ _ _ SymbolLib_q (fun _ => SymbolLib_rt)). Qed.
Print Assumptions C58_SymbolLib.
Example C58_SymbolLib_case : starts SymbolLib_to SymbolLib_from SymbolLib_ok SymbolLib_eqb SymbolLib_edits SymbolLib_default "(kicad_symbol_lib (version 20211014) (generator kicad_symbol_editor)
  (symbol ""Amplifier:LM 358"" (extends ""LM \""X\"""") (power) (pin_numbers hide) (pin_names (offset 0.5) hide) (in_bom yes) (on_board no)
    (property ""Sheet name"" ""a\b\"""" (id 3) (at 1 2.5 90) (show_name)
      (effects (font (face ""A \""b\"" \c"") (size 1.27 2) (color 255 0 128 0.5) (thickness 0.3) bold italic (line_spacing 1.1)) (justify right top mirror) (href ""https://x.y/(z)"") hide)
    )
    (property ""Sheet name"" ""a\b\"""" (id 3) (at 1 2.5 90) (show_name)
      (effects (font (face ""A \""b\"" \c"") (size 1.27 2) (color 255 0 128 0.5) (thickness 0.3) bold italic (line_spacing 1.1)) (justify right top mirror) (href ""https://x.y/(z)"") hide)
    )
    (circle (center 0.0 0.0) (radius 0.0)
      (stroke (width 0.0))
      (fill (type none))
    )
    (text """" (at 0.0 0.0)
      (effects (font (size 1.0 1.0)))
    )
    (pin power_in line (at 2 3 90) (length 2.54) hide
      (name ""~{RST}"" (effects (font (face ""A \""b\"" \c"") (size 1.27 2) (color 255 0 128 0.5) (thickness 0.3) bold italic (line_spacing 1.1)) (justify right top mirror) (href ""https://x.y/(z)"") hide))
      (number ""12"")
      (alternate """" input line)
      (alternate """" input line)
    )
    (pin input line (at 0.0 0.0) (length 0.254) (name """") (number ""0""))
    (symbol ""LM 358_0_1""
      (rectangle (start 0.0 0.0) (end 0.0 0.0)
        (stroke (width 0.0))
        (fill (type none))
      )
      (arc (start 0.0 0.0) (mid 0.0 0.0) (end 0.0 0.0)
        (stroke (width 0.0))
        (fill (type none))
      )
      (pin power_in line (at 2 3 90) (length 2.54) hide
        (name ""~{RST}"" (effects (font (face ""A \""b\"" \c"") (size 1.27 2) (color 255 0 128 0.5) (thickness 0.3) bold italic (line_spacing 1.1)) (justify right top mirror) (href ""https://x.y/(z)"") hide))
        (number ""12"")
        (alternate """" input line)
        (alternate """" input line)
      )
    )
    (symbol ""LM 358_1_1""
      (rectangle (start 0.0 0.0) (end 0.0 0.0)
        (stroke (width 0.0))
        (fill (type none))
      )
      (arc (start 0.0 0.0) (mid 0.0 0.0) (end 0.0 0.0)
        (stroke (width 0.0))
        (fill (type none))
      )
      (pin power_in line (at 2 3 90) (length 2.54) hide
        (name ""~{RST}"" (effects (font (face ""A \""b\"" \c"") (size 1.27 2) (color 255 0 128 0.5) (thickness 0.3) bold italic (line_spacing 1.1)) (justify right top mirror) (href ""https://x.y/(z)"") hide))
        (number ""12"")
        (alternate """" input line)
        (alternate """" input line)
      )
      (symbol ""LM 358_7_1""
        (rectangle (start 0.0 0.0) (end 0.0 0.0)
          (stroke (width 0.0))
          (fill (type none))
        )
        (arc (start 0.0 0.0) (mid 0.0 0.0) (end 0.0 0.0)
          (stroke (width 0.0))
          (fill (type none))
        )
        (pin power_in line (at 2 3 90) (length 2.54) hide
          (name ""~{RST}"" (effects (font (face ""A \""b\"" \c"") (size 1.27 2) (color 255 0 128 0.5) (thickness 0.3) bold italic (line_spacing 1.1)) (justify right top mirror) (href ""https://x.y/(z)"") hide))
          (number ""12"")
          (alternate """" input line)
          (alternate """" input line)
        )
      )
      (symbol ""LM 358_8_1""
        (rectangle (start 0.0 0.0) (end 0.0 0.0)
          (stroke (width 0.0))
          (fill (type none))
        )
        (arc (start 0.0 0.0) (mid 0.0 0.0) (end 0.0 0.0)
          (stroke (width 0.0))
          (fill (type none))
        )
        (pin power_in line (at 2 3 90) (length 2.54) hide
          (name ""~{RST}"" (effects (font (face ""A \""b\"" \c"") (size 1.27 2) (color 255 0 128 0.5) (thickness 0.3) bold italic (line_spacing 1.1)) (justify right top mirror) (href ""https://x.y/(z)"") hide))
          (number ""12"")
          (alternate """" input line)
          (alternate """" input line)
        )
      )
    )
  )
  (symbol ""LM 358_3_1""
    (rectangle (start 0.0 0.0) (end 0.0 0.0)
      (stroke (width 0.0))
      (fill (type none))
    )
    (arc (start 0.0 0.0) (mid 0.0 0.0) (end 0.0 0.0)
      (stroke (width 0.0))
      (fill (type none))
    )
    (pin power_in line (at 2 3 90) (length 2.54) hide
      (name ""~{RST}"" (effects (font (face ""A \""b\"" \c"") (size 1.27 2) (color 255 0 128 0.5) (thickness 0.3) bold italic (line_spacing 1.1)) (justify right top mirror) (href ""https://x.y/(z)"") hide))
      (number ""12"")
      (alternate """" input line)
      (alternate """" input line)
    )
  )
)" = true.
Proof. vm_compute. reflexivity. Qed.

Theorem C58_FpText : no_trace FpText_to (fun _ : unit => FpText_from) FpText_ok FpText_eqb.
Proof. exact (leave_no_trace _ _ _ _ _ FpText_q (fun _ => FpText_rt)). Qed.
Print Assumptions C58_FpText.
Example C58_FpText_case : starts FpText_to FpText_from FpText_ok FpText_eqb FpText_edits FpText_default "(fp_text user ""a \""(b)\"" \ c"" (at 1 2.5 90 unlocked) (layer ""F.SilkS"" knockout) hide
  (effects (font (face ""A \""b\"" \c"") (size 1.27 2) (color 255 0 128 0.5) (thickness 0.3) bold italic (line_spacing 1.1)) (justify right top mirror) (href ""https://x.y/(z)"") hide)
  (tstamp 7c2f5ab1-44ff-4a1c-b96d-28f9f3a0fd1e)
  (render_cache ""ab\""c"" 0
    (polygon
      (pts
        (xy 1 2)        (xy 1.5 2)        (xy 0 -7)        (xy 0 0)
        (xy 9 9)
      )
    )
  )
)" = true.
Proof. vm_compute. reflexivity. Qed.

Theorem C58_FpLine : no_trace FpLine_to (fun _ : unit => FpLine_from) FpLine_ok FpLine_eqb.
Proof. exact (leave_no_trace _ _ _ _ _ FpLine_q (fun _ => FpLine_rt)). Qed.
Print Assumptions C58_FpLine.
Example C58_FpLine_case : starts FpLine_to FpLine_from FpLine_ok FpLine_eqb FpLine_edits FpLine_default "(fp_line (start 2 3) (end 2 0.001) (layer ""F.Fab"") (stroke (width 0.254) (type dash_dot) (color 255 0 128 0.5)) (tstamp 7c2f5ab1-44ff-4a1c-b96d-28f9f3a0fd1e))" = true.
Proof. vm_compute. reflexivity. Qed.

Theorem C58_FpRect : no_trace FpRect_to (fun _ : unit => FpRect_from) FpRect_ok FpRect_eqb.
Proof. exact (leave_no_trace _ _ _ _ _ FpRect_q (fun _ => FpRect_rt)). Qed.
Print Assumptions C58_FpRect.
Example C58_FpRect_case : starts FpRect_to FpRect_from FpRect_ok FpRect_eqb FpRect_edits FpRect_default "(fp_rect (start 2 3) (end 2 0.001) (layer ""F.Fab"") (width 0.15) (fill solid) locked (tstamp 7c2f5ab1-44ff-4a1c-b96d-28f9f3a0fd1e))" = true.
Proof. vm_compute. reflexivity. Qed.

Theorem C58_FpCircle : no_trace FpCircle_to (fun _ : unit => FpCircle_from) FpCircle_ok FpCircle_eqb.
Proof. exact (leave_no_trace _ _ _ _ _ FpCircle_q (fun _ => FpCircle_rt)). Qed.
Print Assumptions C58_FpCircle.
Example C58_FpCircle_case : starts FpCircle_to FpCircle_from FpCircle_ok FpCircle_eqb FpCircle_edits FpCircle_default "(fp_circle (center 2 3) (end 2 0.001) (layer ""F.Fab"") (stroke (width 0.254) (type dash_dot) (color 255 0 128 0.5)) (fill solid) locked (tstamp 7c2f5ab1-44ff-4a1c-b96d-28f9f3a0fd1e))" = true.
Proof. vm_compute. reflexivity. Qed.

Theorem C58_FpArc : no_trace FpArc_to (fun _ : unit => FpArc_from) FpArc_ok FpArc_eqb.
Proof. exact (leave_no_trace _ _ _ _ _ FpArc_q (fun _ => FpArc_rt)). Qed.
Print Assumptions C58_FpArc.
Example C58_FpArc_case : starts FpArc_to FpArc_from FpArc_ok FpArc_eqb FpArc_edits FpArc_default "(fp_arc (start 2 3) (mid 5 3) (end 2 0.001) (layer ""F.Fab"") (stroke (width 0.254) (type dash_dot) (color 255 0 128 0.5)) locked (tstamp 7c2f5ab1-44ff-4a1c-b96d-28f9f3a0fd1e))" = true.
Proof. vm_compute. reflexivity. Qed.

Theorem C58_FpPoly : no_trace FpPoly_to (fun _ : unit => FpPoly_from) FpPoly_ok FpPoly_eqb.
Proof. exact (leave_no_trace _ _ _ _ _ FpPoly_q (fun _ => FpPoly_rt)). Qed.
Print Assumptions C58_FpPoly.
Example C58_FpPoly_case : starts FpPoly_to FpPoly_from FpPoly_ok FpPoly_eqb FpPoly_edits FpPoly_default "(fp_poly (pts
    (xy 2 3)
    (xy 0.1 0)
    (xy 2 3)
    (xy -1.5 7)
  ) (layer ""F.Fab"") (stroke (width 0.254) (type dash_dot) (color 255 0 128 0.5)) (fill solid) locked (tstamp 7c2f5ab1-44ff-4a1c-b96d-28f9f3a0fd1e))" = true.
Proof. vm_compute. reflexivity. Qed.

Theorem C58_FpCurve : no_trace FpCurve_to (fun _ : unit => FpCurve_from) FpCurve_ok FpCurve_eqb.
Proof. exact (leave_no_trace _ _ _ _ _ FpCurve_q (fun _ => FpCurve_rt)). Qed.
Print Assumptions C58_FpCurve.
Example C58_FpCurve_case : starts FpCurve_to FpCurve_from FpCurve_ok FpCurve_eqb FpCurve_edits FpCurve_default "(fp_curve (pts
  (xy 2 3)
  (xy 0.1 0)
  (xy 2 3)
  (xy -1.5 7)
) (layer ""F.Fab"") (width 0.15) locked (tstamp 7c2f5ab1-44ff-4a1c-b96d-28f9f3a0fd1e))" = true.
Proof. vm_compute. reflexivity. Qed.

Theorem C58_FpTextBox : no_trace FpTextBox_to (fun _ : unit => FpTextBox_from) FpTextBox_ok FpTextBox_eqb.
Proof. exact (leave_no_trace _ _ _ _ _ FpTextBox_q (fun _ => FpTextBox_rt)). Qed.
Print Assumptions C58_FpTextBox.
Example C58_FpTextBox_case : starts FpTextBox_to FpTextBox_from FpTextBox_ok FpTextBox_eqb FpTextBox_edits FpTextBox_default "(fp_text_box locked ""locked""
  (pts
    (xy 2 3)      (xy 0.1 0)      (xy 2 3)      (xy -1.5 7)
  )
  (angle 45.5) (layer ""F.Fab"") (tstamp 7c2f5ab1-44ff-4a1c-b96d-28f9f3a0fd1e)
  (effects (font (face ""A \""b\"" \c"") (size 1.27 2) (color 255 0 128 0.5) (thickness 0.3) bold italic (line_spacing 1.1)) (justify right top mirror) (href ""https://x.y/(z)"") hide)
  (stroke (width 0.254) (type dash_dot) (color 255 0 128 0.5))
  (render_cache ""ab\""c"" 0
    (polygon
      (pts
        (xy 1 2)        (xy 1.5 2)        (xy 0 -7)        (xy 0 0)
        (xy 9 9)
      )
    )
  )
)" = true.
Proof. vm_compute. reflexivity. Qed.

Theorem C58_GrText : no_trace GrText_to (fun _ : unit => GrText_from) GrText_ok GrText_eqb.
Proof. exact (leave_no_trace _ _ _ _ _ GrText_q (fun _ => GrText_rt)). Qed.
Print Assumptions C58_GrText.
Example C58_GrText_case : starts GrText_to GrText_from GrText_ok GrText_eqb GrText_edits GrText_default "(gr_text ""a \""(b)\"" \ c"" (at 1 2.5 90) (layer ""F.SilkS"" knockout) (tstamp 7c2f5ab1-44ff-4a1c-b96d-28f9f3a0fd1e)
  (effects (font (face ""A \""b\"" \c"") (size 1.27 2) (color 255 0 128 0.5) (thickness 0.3) bold italic (line_spacing 1.1)) (justify right top mirror) (href ""https://x.y/(z)"") hide)
  (render_cache ""ab\""c"" 0
    (polygon
      (pts
        (xy 1 2)        (xy 1.5 2)        (xy 0 -7)        (xy 0 0)
        (xy 9 9)
      )
    )
  )
)" = true.
Proof. vm_compute. reflexivity. Qed.

Theorem C58_GrLine : no_trace GrLine_to (fun _ : unit => GrLine_from) GrLine_ok GrLine_eqb.
Proof. exact (leave_no_trace _ _ _ _ _ GrLine_q (fun _ => GrLine_rt)). Qed.
Print Assumptions C58_GrLine.
Example C58_GrLine_case : starts GrLine_to GrLine_from GrLine_ok GrLine_eqb GrLine_edits GrLine_default "(gr_line locked (start 2 3) (end 2 0.001) (layer ""F.Fab"") (width 1) (tstamp 7c2f5ab1-44ff-4a1c-b96d-28f9f3a0fd1e))" = true.
Proof. vm_compute. reflexivity. Qed.

Theorem C58_GrRect : no_trace GrRect_to (fun _ : unit => GrRect_from) GrRect_ok GrRect_eqb.
Proof. exact (leave_no_trace _ _ _ _ _ GrRect_q (fun _ => GrRect_rt)). Qed.
Print Assumptions C58_GrRect.
Example C58_GrRect_case : starts GrRect_to GrRect_from GrRect_ok GrRect_eqb GrRect_edits GrRect_default "(gr_rect locked (start 2 3) (end 2 0.001) (layer ""F.Fab"") (width 0.15) (fill solid) (tstamp 7c2f5ab1-44ff-4a1c-b96d-28f9f3a0fd1e))" = true.
Proof. vm_compute. reflexivity. Qed.

Theorem C58_GrCircle : no_trace GrCircle_to (fun _ : unit => GrCircle_from) GrCircle_ok GrCircle_eqb.
Proof. exact (leave_no_trace _ _ _ _ _ GrCircle_q (fun _ => GrCircle_rt)). Qed.
Print Assumptions C58_GrCircle.
Example C58_GrCircle_case : starts GrCircle_to GrCircle_from GrCircle_ok GrCircle_eqb GrCircle_edits GrCircle_default "(gr_circle locked (center 2 3) (end 2 0.001) (layer ""F.Fab"") (width 0.15) (fill solid) (tstamp 7c2f5ab1-44ff-4a1c-b96d-28f9f3a0fd1e))" = true.
Proof. vm_compute. reflexivity. Qed.

Theorem C58_GrArc : no_trace GrArc_to (fun _ : unit => GrArc_from) GrArc_ok GrArc_eqb.
Proof. exact (leave_no_trace _ _ _ _ _ GrArc_q (fun _ => GrArc_rt)). Qed.
Print Assumptions C58_GrArc.
Example C58_GrArc_case : starts GrArc_to GrArc_from GrArc_ok GrArc_eqb GrArc_edits GrArc_default "(gr_arc locked (start 2 3) (mid 5 3) (end 2 0.001) (layer ""F.Fab"") (width 0.15) (tstamp 7c2f5ab1-44ff-4a1c-b96d-28f9f3a0fd1e))" = true.
Proof. vm_compute. reflexivity. Qed.

Theorem C58_GrPoly : no_trace GrPoly_to (fun _ : unit => GrPoly_from) GrPoly_ok GrPoly_eqb.
Proof. exact (leave_no_trace _ _ _ _ _ GrPoly_q (fun _ => GrPoly_rt)). Qed.
Print Assumptions C58_GrPoly.
Example C58_GrPoly_case : starts GrPoly_to GrPoly_from GrPoly_ok GrPoly_eqb GrPoly_edits GrPoly_default "(gr_poly locked (pts
    (xy 2 3)
    (xy 0.1 0)
    (xy 2 3)
    (xy -1.5 7)
  ) (layer ""F.Fab"") (width 0.15) (fill solid) (tstamp 7c2f5ab1-44ff-4a1c-b96d-28f9f3a0fd1e))" = true.
Proof. vm_compute. reflexivity. Qed.

Theorem C58_GrCurve : no_trace GrCurve_to (fun _ : unit => GrCurve_from) GrCurve_ok GrCurve_eqb.
Proof. exact (leave_no_trace _ _ _ _ _ GrCurve_q (fun _ => GrCurve_rt)). Qed.
Print Assumptions C58_GrCurve.
Example C58_GrCurve_case : starts GrCurve_to GrCurve_from GrCurve_ok GrCurve_eqb GrCurve_edits GrCurve_default "(gr_curve locked (pts
  (xy 2 3)
  (xy 0.1 0)
  (xy 2 3)
  (xy -1.5 7)
) (width 0.15) (tstamp 7c2f5ab1-44ff-4a1c-b96d-28f9f3a0fd1e))" = true.
Proof. vm_compute. reflexivity. Qed.

Theorem C58_GrTextBox : no_trace GrTextBox_to (fun _ : unit => GrTextBox_from) GrTextBox_ok GrTextBox_eqb.
Proof. exact (leave_no_trace _ _ _ _ _ GrTextBox_q (fun _ => GrTextBox_rt)). Qed.
Print Assumptions C58_GrTextBox.
Example C58_GrTextBox_case : starts GrTextBox_to GrTextBox_from GrTextBox_ok GrTextBox_eqb GrTextBox_edits GrTextBox_default "(gr_text_box locked ""locked""
  (pts
    (xy 2 3)        (xy 0.1 0)        (xy 2 3)        (xy -1.5 7)
  )
  (angle 45.5) (layer ""F.Fab"") (tstamp 7c2f5ab1-44ff-4a1c-b96d-28f9f3a0fd1e)
  (effects (font (face ""A \""b\"" \c"") (size 1.27 2) (color 255 0 128 0.5) (thickness 0.3) bold italic (line_spacing 1.1)) (justify right top mirror) (href ""https://x.y/(z)"") hide)
  (stroke (width 0.254) (type dash_dot) (color 255 0 128 0.5))
  (render_cache ""ab\""c"" 0
    (polygon
      (pts
        (xy 1 2)        (xy 1.5 2)        (xy 0 -7)        (xy 0 0)
        (xy 9 9)
      )
    )
  )
)" = true.
Proof. vm_compute. reflexivity. Qed.

Theorem C58_KeepoutSettings : no_trace KeepoutSettings_to (fun _ : unit => KeepoutSettings_from) KeepoutSettings_ok KeepoutSettings_eqb.
Proof. exact (leave_no_trace _ _ _ _ _ KeepoutSettings_q (fun _ => KeepoutSettings_rt)). Qed.
Print Assumptions C58_KeepoutSettings.
Example C58_KeepoutSettings_case : starts KeepoutSettings_to KeepoutSettings_from KeepoutSettings_ok KeepoutSettings_eqb KeepoutSettings_edits KeepoutSettings_default "(keepout (tracks allowed) (vias not_allowed) (pads allowed ) (copperpour not-allowed) (footprints not-allowed))" = true.
Proof. vm_compute. reflexivity. Qed.

Theorem C58_FillSettings : no_trace FillSettings_to (fun _ : unit => FillSettings_from) FillSettings_ok FillSettings_eqb.
Proof. exact (leave_no_trace _ _ _ _ _ FillSettings_q (fun _ => FillSettings_rt)). Qed.
Print Assumptions C58_FillSettings.
Example C58_FillSettings_case : starts FillSettings_to FillSettings_from FillSettings_ok FillSettings_eqb FillSettings_edits FillSettings_default "(fill yes (mode hatch) (thermal_gap 0.5) (thermal_bridge_width 0.508) (smoothing chamfer) (radius 1) (island_removal_mode 2) (island_area_min 10)
  (hatch_thickness 1) (hatch_gap 1.5) (hatch_orientation 45)
  (hatch_smoothing_level 1) (hatch_smoothing_value 0.1)
  (hatch_border_algorithm 0) (hatch_min_hole_area 0.3))" = true.
Proof. vm_compute. reflexivity. Qed.

Theorem C58_ZonePolygon : no_trace ZonePolygon_to (fun _ : unit => ZonePolygon_from) ZonePolygon_ok ZonePolygon_eqb.
Proof. exact (leave_no_trace _ _ _ _ _ ZonePolygon_q (fun _ => ZonePolygon_rt)). Qed.
Print Assumptions C58_ZonePolygon.
Example C58_ZonePolygon_case : starts ZonePolygon_to ZonePolygon_from ZonePolygon_ok ZonePolygon_eqb ZonePolygon_edits (mkZonePolygon [Position_default]) "(polygon
  (pts
    (xy 2 3)
    (xy 0.1 0)
    (xy 2 3)
    (xy -1.5 7)
  )
)
" = true.
Proof. vm_compute. reflexivity. Qed.

Theorem C58_FilledPolygon : no_trace FilledPolygon_to (fun _ : unit => FilledPolygon_from) FilledPolygon_ok FilledPolygon_eqb.
Proof. exact (leave_no_trace _ _ _ _ _ FilledPolygon_q (fun _ => FilledPolygon_rt)). Qed.
Print Assumptions C58_FilledPolygon.
Example C58_FilledPolygon_case : starts FilledPolygon_to FilledPolygon_from FilledPolygon_ok FilledPolygon_eqb FilledPolygon_edits FilledPolygon_default "(filled_polygon
  (layer ""In1.Cu"")
  (island)
  (pts
    (xy 2 3)
    (xy 0.1 0)
    (xy 2 3)
    (xy -1.5 7)
  )
)
" = true.
Proof. vm_compute. reflexivity. Qed.

Theorem C58_FillSegments : no_trace FillSegments_to (fun _ : unit => FillSegments_from) FillSegments_ok FillSegments_eqb.
Proof. exact (leave_no_trace _ _ _ _ _ FillSegments_q (fun _ => FillSegments_rt)). Qed.
Print Assumptions C58_FillSegments.
Example C58_FillSegments_case : starts FillSegments_to FillSegments_from FillSegments_ok FillSegments_eqb FillSegments_edits FillSegments_default "(fill_segments
  (layer ""In1.Cu"")
  (pts
    (xy 2 3)
    (xy 0.1 0)
    (xy 2 3)
    (xy -1.5 7)
  )
)
" = true.
Proof. vm_compute. reflexivity. Qed.

Theorem C58_Zone : no_trace Zone_to (fun _ : unit => Zone_from) Zone_ok Zone_eqb.
Proof. exact (leave_no_trace _ _ _ _ _ Zone_q (fun _ => Zone_rt)). Qed.
Print Assumptions C58_Zone.
Example C58_Zone_case : starts Zone_to Zone_from Zone_ok Zone_eqb Zone_edits Zone_default "(zone locked (net 12) (net_name ""Net \""(1)\"""") (layers ""F.Cu"" ""B.Cu"") (tstamp 7c2f5ab1-44ff-4a1c-b96d-28f9f3a0fd1e) (name ""my zone"") (hatch edge 0.508)
  (priority 3)
  (connect_pads thru_hole_only (clearance 0.2))
  (min_thickness 0.254) (filled_areas_thickness no)
  (keepout (tracks allowed) (vias not_allowed) (pads allowed ) (copperpour not-allowed) (footprints not-allowed))
  (fill yes (mode hatch) (thermal_gap 0.5) (thermal_bridge_width 0.508) (smoothing chamfer) (radius 1) (island_removal_mode 2) (island_area_min 10)
    (hatch_thickness 1) (hatch_gap 1.5) (hatch_orientation 45)
    (hatch_smoothing_level 1) (hatch_smoothing_value 0.1)
    (hatch_border_algorithm 0) (hatch_min_hole_area 0.3))
  (polygon
    (pts
      (xy 2 3)
      (xy 0.1 0)
      (xy 2 3)
      (xy -1.5 7)
    )
  )
  (polygon
    (pts
      (xy 1 2)
    )
  )
  (filled_polygon
    (layer ""F.Cu"")
    (island)
    (pts
      (xy 2 3)
      (xy 0.1 0)
      (xy 2 3)
      (xy -1.5 7)
    )
  )
    (fill_segments
      (layer ""B.Cu"")
      (pts
        (xy 2 3)
        (xy 0.1 0)
        (xy 2 3)
        (xy -1.5 7)
      )
    )
)" = true.
Proof. vm_compute. reflexivity. Qed.

Theorem C58_Attributes : no_trace Attributes_to (fun _ : unit => Attributes_from) Attributes_ok1 Attributes_eqb.
Proof. exact (leave_no_trace _ _ _ _ _ Attributes_q (fun _ => Attributes_rt1)). Qed.
Print Assumptions C58_Attributes.
Example C58_Attributes_case : starts Attributes_to Attributes_from Attributes_ok1 Attributes_eqb Attributes_edits Attributes_default "(attr smd exclude_from_pos_files exclude_from_bom)" = true.
Proof. vm_compute. reflexivity. Qed.

Theorem C58_Model : no_trace Model_to (fun _ : unit => Model_from) Model_ok Model_eqb.
Proof. exact (leave_no_trace _ _ _ _ _ Model_q (fun _ => Model_rt)). Qed.
Print Assumptions C58_Model.
Example C58_Model_case : starts Model_to Model_from Model_ok Model_eqb Model_edits Model_default "(model ""${KICAD6_3DMODEL_DIR}/a \""b\"".wrl"" hide
  (opacity 0.5)
  (offset (xyz 2.5 -3 1.0))
  (scale (xyz 1 1 0.1))
  (rotate (xyz 0 90 0))
)" = true.
Proof. vm_compute. reflexivity. Qed.

Theorem C58_DrillDefinition : no_trace DrillDefinition_to (fun _ : unit => DrillDefinition_from) DrillDefinition_ok DrillDefinition_eqb.
Proof. exact (leave_no_trace _ _ _ _ _ DrillDefinition_q (fun _ => DrillDefinition_rt)). Qed.
Print Assumptions C58_DrillDefinition.
Example C58_DrillDefinition_case : starts DrillDefinition_to DrillDefinition_from DrillDefinition_ok DrillDefinition_eqb DrillDefinition_edits DrillDefinition_default "(drill oval 0.8 2 (offset 1 0.5))" = true.
Proof. vm_compute. reflexivity. Qed.

Theorem C58_PadOptions : no_trace PadOptions_to (fun _ : unit => PadOptions_from) PadOptions_ok PadOptions_eqb.
Proof. exact (leave_no_trace _ _ _ _ _ PadOptions_q (fun _ => PadOptions_rt)). Qed.
Print Assumptions C58_PadOptions.
Example C58_PadOptions_case : starts PadOptions_to PadOptions_from PadOptions_ok PadOptions_eqb PadOptions_edits PadOptions_default "(options (clearance convexhull) (anchor circle))" = true.
Proof. vm_compute. reflexivity. Qed.

Theorem C58_Pad : no_trace Pad_to (fun _ : unit => Pad_from) Pad_ok Pad_eqb.
Proof. exact (leave_no_trace _ _ _ _ _ Pad_q (fun _ => Pad_rt)). Qed.
Print Assumptions C58_Pad.
Example C58_Pad_case : starts Pad_to Pad_from Pad_ok Pad_eqb Pad_edits Pad_default "(pad ""A \""1\"""" thru_hole custom locked (at 1 2.5 90) (size 1 2) (drill oval 0.8 2 (offset 1 0.5)) (property pad_prop_bga) (layers *.Cu ""F.Mask"" F&B.Paste ""In1 (x)"") (remove_unused_layers) (keep_end_layers) (roundrect_rratio 0.25)
  (chamfer_ratio 0.1) (chamfer top_left bottom_right)
  (die_length 3)
  (net 17 ""Net-(U1-Pad3)"") (pinfunction ""fn"") (pintype ""bidirectional+no_connect"") (solder_mask_margin 0.1) (solder_paste_margin 0.2) (solder_paste_margin_ratio 0.3) (clearance 0.4) (zone_connect 2) (thermal_width 0.5) (thermal_gap 0.6)
  (options (clearance convexhull) (anchor circle))
  (primitives
    (gr_text ""a \""(b)\"" \ c"" (at 1 2.5 90) (layer ""F.SilkS"" knockout) (tstamp 7c2f5ab1-44ff-4a1c-b96d-28f9f3a0fd1e)
      (effects (font (face ""A \""b\"" \c"") (size 1.27 2) (color 255 0 128 0.5) (thickness 0.3) bold italic (line_spacing 1.1)) (justify right top mirror) (href ""https://x.y/(z)"") hide)
      (render_cache ""ab\""c"" 0
        (polygon
          (pts
            (xy 1 2)            (xy 1.5 2)            (xy 0 -7)            (xy 0 0)
            (xy 9 9)
          )
        )
      )
    )
    (gr_line locked (start 2 3) (end 2 0.001) (layer ""F.Fab"") (width 1) (tstamp 7c2f5ab1-44ff-4a1c-b96d-28f9f3a0fd1e))
    (gr_poly locked (pts
        (xy 2 3)
        (xy 0.1 0)
        (xy 2 3)
        (xy -1.5 7)
      ) (layer ""F.Fab"") (width 0.15) (fill solid) (tstamp 7c2f5ab1-44ff-4a1c-b96d-28f9f3a0fd1e))
  ) (tstamp 7c2f5ab1-44ff-4a1c-b96d-28f9f3a0fd1e))" = true.
Proof. vm_compute. reflexivity. Qed.
