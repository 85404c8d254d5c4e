(** Specification of items/syitems.py and symbol.py: expressions, normal forms, printable objects. *)
From Verif Require Import PyBase PyNum PyStr Sexpr S_Leaf S_Tree M_Common S_Common S_Id PyRe M_Sym.

Definition SyArc_tree (o : SyArc) : val :=
  node "arc" (optw "private" (sa_private o) ++ [at3_tree "start" (sa_start o); at3_tree "mid" (sa_mid o);
    at3_tree "end" (sa_end o); Stroke_tree (sa_stroke o); Fill_tree (sa_fill o)]).
Definition SyArc_norm (o : SyArc) : SyArc :=
  mkSyArc (sa_private o) (Position_norm (sa_start o)) (Position_norm (sa_mid o)) (Position_norm (sa_end o)) (Stroke_norm (sa_stroke o)) (Fill_norm (sa_fill o)).
(** dataclass == on SyArc *)
Definition SyArc_eqb (a b : SyArc) : bool :=
  Bool.eqb (sa_private a) (sa_private b)
  && Position_eqb (sa_start a) (sa_start b)
  && Position_eqb (sa_mid a) (sa_mid b)
  && Position_eqb (sa_end a) (sa_end b)
  && Stroke_eqb (sa_stroke a) (sa_stroke b)
  && Fill_eqb (sa_fill a) (sa_fill b).
Definition SyArc_ok (o : SyArc) : bool :=
  pos3_ok (sa_start o)
  && pos3_ok (sa_mid o)
  && pos3_ok (sa_end o)
  && Stroke_ok (sa_stroke o)
  && Fill_ok (sa_fill o).


Definition SyCircle_tree (o : SyCircle) : val :=
  node "circle" (optw "private" (si_private o) ++ [xy_tree "center" (si_center o); node "radius" [si_radius o];
    Stroke_tree (si_stroke o); Fill_tree (si_fill o)]).
Definition SyCircle_norm (o : SyCircle) : SyCircle :=
  mkSyCircle (si_private o) (Position_norm (si_center o)) (nrm (si_radius o)) (Stroke_norm (si_stroke o)) (Fill_norm (si_fill o)).
(** dataclass == on SyCircle *)
Definition SyCircle_eqb (a b : SyCircle) : bool :=
  Bool.eqb (si_private a) (si_private b)
  && Position_eqb (si_center a) (si_center b)
  && py_eqb (si_radius a) (si_radius b)
  && Stroke_eqb (si_stroke a) (si_stroke b)
  && Fill_eqb (si_fill a) (si_fill b).
Definition SyCircle_ok (o : SyCircle) : bool :=
  pos2_ok (si_center o)
  && numb (si_radius o)
  && Stroke_ok (si_stroke o)
  && Fill_ok (si_fill o).


(** the documented shape; the writer does not produce it (see C12_SyCurve_refuted) *)
Definition SyCurve_tree (o : SyCurve) : val :=
  node "curve" [node "pts" (map (xy_tree "xy") (sc_points o)); Stroke_tree (sc_stroke o); Fill_tree (sc_fill o)].
Definition SyCurve_norm (o : SyCurve) : SyCurve :=
  mkSyCurve (map Position_norm (sc_points o)) (Stroke_norm (sc_stroke o)) (Fill_norm (sc_fill o)).
(** dataclass == on SyCurve *)
Definition SyCurve_eqb (a b : SyCurve) : bool :=
  leqb Position_eqb (sc_points a) (sc_points b)
  && Stroke_eqb (sc_stroke a) (sc_stroke b)
  && Fill_eqb (sc_fill a) (sc_fill b).
Definition SyCurve_ok (o : SyCurve) : bool :=
  forallb pos2_ok (sc_points o)
  && Stroke_ok (sc_stroke o)
  && Fill_ok (sc_fill o).


Definition SyPolyLine_tree (o : SyPolyLine) : val :=
  node "polyline" [node "pts" (map (xy_tree "xy") (sl_points o)); Stroke_tree (sl_stroke o); Fill_tree (sl_fill o)].
Definition SyPolyLine_norm (o : SyPolyLine) : SyPolyLine :=
  mkSyPolyLine (map Position_norm (sl_points o)) (Stroke_norm (sl_stroke o)) (Fill_norm (sl_fill o)).
(** dataclass == on SyPolyLine *)
Definition SyPolyLine_eqb (a b : SyPolyLine) : bool :=
  leqb Position_eqb (sl_points a) (sl_points b)
  && Stroke_eqb (sl_stroke a) (sl_stroke b)
  && Fill_eqb (sl_fill a) (sl_fill b).
Definition SyPolyLine_ok (o : SyPolyLine) : bool :=
  forallb pos2_ok (sl_points o)
  && Stroke_ok (sl_stroke o)
  && Fill_ok (sl_fill o).


Definition SyRect_tree (o : SyRect) : val :=
  node "rectangle" (optw "private" (sr_private o) ++ [xy_tree "start" (sr_start o); xy_tree "end" (sr_end o);
    Stroke_tree (sr_stroke o); Fill_tree (sr_fill o)]).
Definition SyRect_norm (o : SyRect) : SyRect :=
  mkSyRect (sr_private o) (Position_norm (sr_start o)) (Position_norm (sr_end o)) (Stroke_norm (sr_stroke o)) (Fill_norm (sr_fill o)).
(** dataclass == on SyRect *)
Definition SyRect_eqb (a b : SyRect) : bool :=
  Bool.eqb (sr_private a) (sr_private b)
  && Position_eqb (sr_start a) (sr_start b)
  && Position_eqb (sr_end a) (sr_end b)
  && Stroke_eqb (sr_stroke a) (sr_stroke b)
  && Fill_eqb (sr_fill a) (sr_fill b).
Definition SyRect_ok (o : SyRect) : bool :=
  pos2_ok (sr_start o)
  && pos2_ok (sr_end o)
  && Stroke_ok (sr_stroke o)
  && Fill_ok (sr_fill o).


Definition SyText_tree (o : SyText) : val :=
  node "text" [sx_text o; at3_tree "at" (sx_position o); Effects_tree (sx_effects o)].
Definition SyText_norm (o : SyText) : SyText :=
  mkSyText (sx_text o) (Position_norm (sx_position o)) (Effects_norm (sx_effects o)).
(** dataclass == on SyText *)
Definition SyText_eqb (a b : SyText) : bool :=
  py_eqb (sx_text a) (sx_text b)
  && Position_eqb (sx_position a) (sx_position b)
  && Effects_eqb (sx_effects a) (sx_effects b).
Definition SyText_ok (o : SyText) : bool :=
  txtb (sx_text o)
  && pos3_ok (sx_position o)
  && Effects_ok (sx_effects o).


Definition SyTextBox_tree (o : SyTextBox) : val :=
  node "text_box" (optw "private" (sb_private o) ++ [sb_text o; at3_tree "at" (sb_position o); xy_tree "size" (sb_size o);
    Stroke_tree (sb_stroke o); Fill_tree (sb_fill o); Effects_tree (sb_effects o)] ++ optn "uuid" (sb_uuid o)).
Definition SyTextBox_norm (o : SyTextBox) : SyTextBox :=
  mkSyTextBox (sb_text o) (sb_private o) (Position_norm (sb_position o)) (Position_norm (sb_size o)) (Stroke_norm (sb_stroke o)) (Fill_norm (sb_fill o)) (Effects_norm (sb_effects o)) (nrm (sb_uuid o)).
(** dataclass == on SyTextBox *)
Definition SyTextBox_eqb (a b : SyTextBox) : bool :=
  py_eqb (sb_text a) (sb_text b)
  && Bool.eqb (sb_private a) (sb_private b)
  && Position_eqb (sb_position a) (sb_position b)
  && Position_eqb (sb_size a) (sb_size b)
  && Stroke_eqb (sb_stroke a) (sb_stroke b)
  && Fill_eqb (sb_fill a) (sb_fill b)
  && Effects_eqb (sb_effects a) (sb_effects b)
  && py_eqb (sb_uuid a) (sb_uuid b).
Definition SyTextBox_ok (o : SyTextBox) : bool :=
  txtb (sb_text o)
  && pos3_ok (sb_position o)
  && pos2_ok (sb_size o)
  && Stroke_ok (sb_stroke o)
  && Fill_ok (sb_fill o)
  && Effects_ok (sb_effects o)
  && optb atomb (sb_uuid o).


Definition SymbolAlternativePin_tree (o : SymbolAlternativePin) : val :=
  node "alternate" [ap_pinName o; ap_electricalType o; ap_graphicalStyle o].
Definition SymbolAlternativePin_norm (o : SymbolAlternativePin) : SymbolAlternativePin :=
  mkSymbolAlternativePin (ap_pinName o) (ap_electricalType o) (ap_graphicalStyle o).
(** dataclass == on SymbolAlternativePin *)
Definition SymbolAlternativePin_eqb (a b : SymbolAlternativePin) : bool :=
  py_eqb (ap_pinName a) (ap_pinName b)
  && py_eqb (ap_electricalType a) (ap_electricalType b)
  && py_eqb (ap_graphicalStyle a) (ap_graphicalStyle b).
Definition SymbolAlternativePin_ok (o : SymbolAlternativePin) : bool :=
  txtb (ap_pinName o)
  && wordv (ap_electricalType o)
  && wordv (ap_graphicalStyle o).


Definition SymbolPin_tree (o : SymbolPin) : val :=
  node "pin" ([sp_electricalType o; sp_graphicalStyle o; at3_tree "at" (sp_position o); node "length" [sp_length o]]
    ++ optw "hide" (sp_hide o)
    ++ [node "name" ([sp_name o] ++ opto Effects_tree (sp_nameEffects o));
        node "number" ([sp_number o] ++ opto Effects_tree (sp_numberEffects o))]
    ++ map SymbolAlternativePin_tree (sp_alternatePins o)).
Definition SymbolPin_norm (o : SymbolPin) : SymbolPin :=
  mkSymbolPin (sp_electricalType o) (sp_graphicalStyle o) (Position_norm (sp_position o)) (nrm (sp_length o)) (sp_name o) (option_map Effects_norm (sp_nameEffects o)) (sp_number o) (option_map Effects_norm (sp_numberEffects o)) (sp_hide o) (map SymbolAlternativePin_norm (sp_alternatePins o)).
(** dataclass == on SymbolPin *)
Definition SymbolPin_eqb (a b : SymbolPin) : bool :=
  py_eqb (sp_electricalType a) (sp_electricalType b)
  && py_eqb (sp_graphicalStyle a) (sp_graphicalStyle b)
  && Position_eqb (sp_position a) (sp_position b)
  && py_eqb (sp_length a) (sp_length b)
  && py_eqb (sp_name a) (sp_name b)
  && oeqb Effects_eqb (sp_nameEffects a) (sp_nameEffects b)
  && py_eqb (sp_number a) (sp_number b)
  && oeqb Effects_eqb (sp_numberEffects a) (sp_numberEffects b)
  && Bool.eqb (sp_hide a) (sp_hide b)
  && leqb SymbolAlternativePin_eqb (sp_alternatePins a) (sp_alternatePins b).
Definition SymbolPin_ok (o : SymbolPin) : bool :=
  wordv (sp_electricalType o)
  && wordv (sp_graphicalStyle o)
  && pos3_ok (sp_position o)
  && numb (sp_length o)
  && txtb (sp_name o)
  && optok Effects_ok (sp_nameEffects o)
  && txtb (sp_number o)
  && optok Effects_ok (sp_numberEffects o)
  && forallb SymbolAlternativePin_ok (sp_alternatePins o).


(** a curve is never printable *)
Definition SyItem_tree (o : SyItem) : val :=
  match o with
  | SyItem_SyArc x => SyArc_tree x
  | SyItem_SyCircle x => SyCircle_tree x
  | SyItem_SyCurve x => SyCurve_tree x
  | SyItem_SyPolyLine x => SyPolyLine_tree x
  | SyItem_SyRect x => SyRect_tree x
  | SyItem_SyText x => SyText_tree x
  | SyItem_SyTextBox x => SyTextBox_tree x
  end.
Definition SyItem_norm (o : SyItem) : SyItem :=
  match o with
  | SyItem_SyArc x => SyItem_SyArc (SyArc_norm x)
  | SyItem_SyCircle x => SyItem_SyCircle (SyCircle_norm x)
  | SyItem_SyCurve x => SyItem_SyCurve (SyCurve_norm x)
  | SyItem_SyPolyLine x => SyItem_SyPolyLine (SyPolyLine_norm x)
  | SyItem_SyRect x => SyItem_SyRect (SyRect_norm x)
  | SyItem_SyText x => SyItem_SyText (SyText_norm x)
  | SyItem_SyTextBox x => SyItem_SyTextBox (SyTextBox_norm x)
  end.
Definition SyItem_ok (o : SyItem) : bool :=
  match o with
  | SyItem_SyArc x => SyArc_ok x
  | SyItem_SyCircle x => SyCircle_ok x
  | SyItem_SyCurve x => false
  | SyItem_SyPolyLine x => SyPolyLine_ok x
  | SyItem_SyRect x => SyRect_ok x
  | SyItem_SyText x => SyText_ok x
  | SyItem_SyTextBox x => SyTextBox_ok x
  end.
Definition SyItem_eqb (a b : SyItem) : bool :=
  match a, b with
  | SyItem_SyArc x, SyItem_SyArc y => SyArc_eqb x y
  | SyItem_SyCircle x, SyItem_SyCircle y => SyCircle_eqb x y
  | SyItem_SyCurve x, SyItem_SyCurve y => SyCurve_eqb x y
  | SyItem_SyPolyLine x, SyItem_SyPolyLine y => SyPolyLine_eqb x y
  | SyItem_SyRect x, SyItem_SyRect y => SyRect_eqb x y
  | SyItem_SyText x, SyItem_SyText y => SyText_eqb x y
  | SyItem_SyTextBox x, SyItem_SyTextBox y => SyTextBox_eqb x y
  | _, _ => false
  end.


(** ** Symbol identifiers *)
(** a colon that is neither the first nor the last character *)
Definition inner_colon (s : str) : bool := existsb (N.eqb 58) (removelast (tl s)).
(** the text ends in _<digits>_<digits> and does not start with that *)
Definition unit_shape (s : str) : bool :=
  match span is_digit (rev s) with
  | (_ :: _, c :: r) =>
      N.eqb c 95 && match span is_digit r with
                    | (_ :: _, d :: _ :: _) => N.eqb d 95
                    | _ => false
                    end
  | _ => false
  end.
(** the identifier denoted by the four attributes *)
Definition sym_id (nick entry unit style : val) : str :=
  match nick, entry, unit, style with
  | VStr n, VStr e, _, _ => n ++ $":" ++ e
  | _, VStr e, VInt u, VInt v => e ++ $"_" ++ int_str u ++ $"_" ++ int_str v
  | _, VStr e, _, _ => e
  | _, _, _, _ => []
  end.
Definition nonempty (s : str) : bool := match s with [] => false | _ => true end.
(** the four attributes can be recovered from the identifier *)
Definition id_ok (nick entry unit style : val) : bool :=
  match nick, entry, unit, style with
  | VStr n, VStr e, VNone, VNone =>
      nonempty n && oneline n && negb (existsb (N.eqb 58) (tl n)) && nonempty e && oneline e && quotableb e
  | VNone, VStr e, VNone, VNone => oneline e && negb (inner_colon e) && negb (unit_shape e) && quotableb e
  | VNone, VStr e, VInt u, VInt v =>
      nonempty e && oneline e && negb (existsb (N.eqb 58) (tl e)) && (0 <=? u)%Z && (0 <=? v)%Z
  | _, _, _, _ => false
  end.

Fixpoint Symbol_tree (o : Symbol) : val :=
  node "symbol" ([VStr (sym_id (sy_libraryNickname o) (sy_entryName o) (sy_unitId o) (sy_styleId o))]
    ++ optn "extends" (sy_extends o) ++ optl "power" (sy_isPower o)
    ++ (if sy_hidePinNumbers o then [node "pin_numbers" [VStr $"hide"]] else [])
    ++ (if sy_pinNames o then [node "pin_names" (optn "offset" (sy_pinNamesOffset o) ++ optw "hide" (sy_pinNamesHide o))] else [])
    ++ optyn "in_bom" (sy_inBom o) ++ optyn "on_board" (sy_onBoard o)
    ++ map Property_tree (sy_properties o) ++ map SyItem_tree (sy_graphicItems o) ++ map SymbolPin_tree (sy_pins o)
    ++ map Symbol_tree (sy_units o)).
Fixpoint Symbol_norm (o : Symbol) : Symbol :=
  mkSymbol (sy_libraryNickname o) (sy_entryName o) (sy_unitId o) (sy_styleId o) (sy_extends o) (sy_hidePinNumbers o) (sy_pinNames o) (sy_pinNamesHide o) (nrm (sy_pinNamesOffset o)) (sy_inBom o) (sy_onBoard o) (sy_isPower o) (map Property_norm (sy_properties o)) (map SyItem_norm (sy_graphicItems o)) (map SymbolPin_norm (sy_pins o)) (map Symbol_norm (sy_units o)).
(** dataclass == on Symbol *)
Fixpoint Symbol_eqb (a b : Symbol) {struct a} : bool :=
  py_eqb (sy_libraryNickname a) (sy_libraryNickname b)
  && py_eqb (sy_entryName a) (sy_entryName b)
  && py_eqb (sy_unitId a) (sy_unitId b)
  && py_eqb (sy_styleId a) (sy_styleId b)
  && py_eqb (sy_extends a) (sy_extends b)
  && Bool.eqb (sy_hidePinNumbers a) (sy_hidePinNumbers b)
  && Bool.eqb (sy_pinNames a) (sy_pinNames b)
  && Bool.eqb (sy_pinNamesHide a) (sy_pinNamesHide b)
  && py_eqb (sy_pinNamesOffset a) (sy_pinNamesOffset b)
  && oeqb Bool.eqb (sy_inBom a) (sy_inBom b)
  && oeqb Bool.eqb (sy_onBoard a) (sy_onBoard b)
  && Bool.eqb (sy_isPower a) (sy_isPower b)
  && leqb Property_eqb (sy_properties a) (sy_properties b)
  && leqb SyItem_eqb (sy_graphicItems a) (sy_graphicItems b)
  && leqb SymbolPin_eqb (sy_pins a) (sy_pins b)
  && leqb Symbol_eqb (sy_units a) (sy_units b).
Fixpoint Symbol_ok (o : Symbol) : bool :=
  optb txtb (sy_extends o)
  && optb numb (sy_pinNamesOffset o)
  && forallb Property_ok (sy_properties o)
  && forallb SyItem_ok (sy_graphicItems o)
  && forallb SymbolPin_ok (sy_pins o)
  && forallb Symbol_ok (sy_units o)
  && (id_ok (sy_libraryNickname o) (sy_entryName o) (sy_unitId o) (sy_styleId o) && (sy_pinNames o || (is_none (sy_pinNamesOffset o) && negb (sy_pinNamesHide o)))).


Definition SymbolLib_tree (o : SymbolLib) : val :=
  node "kicad_symbol_lib" ([node "version" [sj_version o]; node "generator" [sj_generator o]] ++ map Symbol_tree (sj_symbols o)).
Definition SymbolLib_norm (o : SymbolLib) : SymbolLib :=
  mkSymbolLib (nrm (sj_version o)) (nrm (sj_generator o)) (map Symbol_norm (sj_symbols o)) (sj_filePath o).
(** dataclass == on SymbolLib *)
Definition SymbolLib_eqb (a b : SymbolLib) : bool :=
  py_eqb (sj_version a) (sj_version b)
  && py_eqb (sj_generator a) (sj_generator b)
  && leqb Symbol_eqb (sj_symbols a) (sj_symbols b)
  && py_eqb (sj_filePath a) (sj_filePath b).
Definition SymbolLib_ok (o : SymbolLib) : bool :=
  numb (sj_version o)
  && atomb (sj_generator o)
  && forallb Symbol_ok (sj_symbols o)
  && is_none (sj_filePath o).

