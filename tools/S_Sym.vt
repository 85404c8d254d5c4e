(** Specification of items/syitems.py and symbol.py: expressions, normal forms, printable objects. *)
From Verif Require Import PyBase PyNum PyStr Sexpr S_Leaf S_Tree M_Common S_Common S_Id PyRe M_Sym.

Definition SyArc_tree (o : SyArc) : val :=
  node "arc" (optw "private" (sa_private o) ++ [at3_tree "start" (sa_start o); at3_tree "mid" (sa_mid o);
    at3_tree "end" (sa_end o); Stroke_tree (sa_stroke o); Fill_tree (sa_fill o)]).
@ok SyArc

Definition SyCircle_tree (o : SyCircle) : val :=
  node "circle" (optw "private" (si_private o) ++ [xy_tree "center" (si_center o); node "radius" [si_radius o];
    Stroke_tree (si_stroke o); Fill_tree (si_fill o)]).
@ok SyCircle

(** the documented shape; the writer does not produce it (see C12_SyCurve_refuted) *)
Definition SyCurve_tree (o : SyCurve) : val :=
  node "curve" [node "pts" (map (xy_tree "xy") (sc_points o)); Stroke_tree (sc_stroke o); Fill_tree (sc_fill o)].
@ok SyCurve

Definition SyPolyLine_tree (o : SyPolyLine) : val :=
  node "polyline" [node "pts" (map (xy_tree "xy") (sl_points o)); Stroke_tree (sl_stroke o); Fill_tree (sl_fill o)].
@ok SyPolyLine

Definition SyRect_tree (o : SyRect) : val :=
  node "rectangle" (optw "private" (sr_private o) ++ [xy_tree "start" (sr_start o); xy_tree "end" (sr_end o);
    Stroke_tree (sr_stroke o); Fill_tree (sr_fill o)]).
@ok SyRect

Definition SyText_tree (o : SyText) : val :=
  node "text" [sx_text o; at3_tree "at" (sx_position o); Effects_tree (sx_effects o)].
@ok SyText

Definition SyTextBox_tree (o : SyTextBox) : val :=
  node "text_box" (optw "private" (sb_private o) ++ [sb_text o; at3_tree "at" (sb_position o); xy_tree "size" (sb_size o);
    Stroke_tree (sb_stroke o); Fill_tree (sb_fill o); Effects_tree (sb_effects o)] ++ optn "uuid" (sb_uuid o)).
@ok SyTextBox

Definition SymbolAlternativePin_tree (o : SymbolAlternativePin) : val :=
  node "alternate" [ap_pinName o; ap_electricalType o; ap_graphicalStyle o].
@ok SymbolAlternativePin

Definition SymbolPin_tree (o : SymbolPin) : val :=
  node "pin" ([sp_electricalType o; sp_graphicalStyle o; at3_tree "at" (sp_position o); node "length" [sp_length o]]
    ++ optw "hide" (sp_hide o)
    ++ [node "name" ([sp_name o] ++ opto Effects_tree (sp_nameEffects o));
        node "number" ([sp_number o] ++ opto Effects_tree (sp_numberEffects o))]
    ++ map SymbolAlternativePin_tree (sp_alternatePins o)).
@ok SymbolPin

(** a curve is never printable *)
@uspec SyItem -SyCurve

(** ** Symbol identifiers *)
(** a colon that is neither the first nor the last character *)
Definition inner_colon (s : str) : bool := existsb (N.eqb 58) (removelast (tl s)).
(** the text ends in _<digits>_<digits> and does not start with that *)
Definition unit_shape (s : str) : bool :=
  match span is_digit (rev s) with
  | (_ :: _, c :: r) =>
      N.eqb c 95 && match span is_digit r with
                    | (_ :: _, d :: _ :: _) => N.eqb d 95
                    | _ => false
                    end
  | _ => false
  end.
(** the identifier denoted by the four attributes *)
Definition sym_id (nick entry unit style : val) : str :=
  match nick, entry, unit, style with
  | VStr n, VStr e, _, _ => n ++ $":" ++ e
  | _, VStr e, VInt u, VInt v => e ++ $"_" ++ int_str u ++ $"_" ++ int_str v
  | _, VStr e, _, _ => e
  | _, _, _, _ => []
  end.
Definition nonempty (s : str) : bool := match s with [] => false | _ => true end.
(** the four attributes can be recovered from the identifier *)
Definition id_ok (nick entry unit style : val) : bool :=
  match nick, entry, unit, style with
  | VStr n, VStr e, VNone, VNone =>
      nonempty n && oneline n && negb (existsb (N.eqb 58) (tl n)) && nonempty e && oneline e && quotableb e
  | VNone, VStr e, VNone, VNone => oneline e && negb (inner_colon e) && negb (unit_shape e) && quotableb e
  | VNone, VStr e, VInt u, VInt v =>
      nonempty e && oneline e && negb (existsb (N.eqb 58) (tl e)) && (0 <=? u)%Z && (0 <=? v)%Z
  | _, _, _, _ => false
  end.

Fixpoint Symbol_tree (o : Symbol) : val :=
  node "symbol" ([VStr (sym_id (sy_libraryNickname o) (sy_entryName o) (sy_unitId o) (sy_styleId o))]
    ++ optn "extends" (sy_extends o) ++ optl "power" (sy_isPower o)
    ++ (if sy_hidePinNumbers o then [node "pin_numbers" [VStr $"hide"]] else [])
    ++ (if sy_pinNames o then [node "pin_names" (optn "offset" (sy_pinNamesOffset o) ++ optw "hide" (sy_pinNamesHide o))] else [])
    ++ optyn "in_bom" (sy_inBom o) ++ optyn "on_board" (sy_onBoard o)
    ++ map Property_tree (sy_properties o) ++ map SyItem_tree (sy_graphicItems o) ++ map SymbolPin_tree (sy_pins o)
    ++ map Symbol_tree (sy_units o)).
@ok Symbol id_ok (sy_libraryNickname o) (sy_entryName o) (sy_unitId o) (sy_styleId o) \
   && (sy_pinNames o || (is_none (sy_pinNamesOffset o) && negb (sy_pinNamesHide o)))

Definition SymbolLib_tree (o : SymbolLib) : val :=
  node "kicad_symbol_lib" ([node "version" [sj_version o]; node "generator" [sj_generator o]] ++ map Symbol_tree (sj_symbols o)).
@ok SymbolLib
