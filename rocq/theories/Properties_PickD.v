(** From which token each attribute is taken, and how (C41). The statements were generated from the syntax trees of
    the from_sexpr methods. Beside each theorem stand expressions to which its parts apply. *)
From Verif Require Import PyBase PyNum PyStr Sexpr S_Leaf S_Tree S_Reader S_Gather S_Pick M_Common M_Sym M_Sch M_Schematic M_Wks.
From Verif Require L_PickD.

Theorem C41_Junction : picks Junction_from 0 ["at"]%string "at"%string Position_from jn_position /\
  picks Junction_from 0 ["color"; "diameter"]%string "color"%string (as_ JColor_obj ColorRGBA_from) jn_color /\
  picks Junction_from 0 ["uuid"]%string "uuid"%string (arg 1) jn_uuid /\
  picks Junction_from 0 ["color"; "diameter"]%string "diameter"%string (as_ JColor_val (arg 1)) jn_color.
Proof. exact L_PickD.Junction_pick. Qed.
Print Assumptions C41_Junction.
Example C41_Junction_case : let b := [VStr $"junction"; node "zzz" [VInt 1]] in
  (match Junction_from (VList (b ++ [node "at" [VInt 7; VInt 8]; node "zzz" [VInt 1]])) with Ok o => Position_from (node "at" [VInt 7; VInt 8]) = Ok (jn_position o) | Err _ => False end) /\
  (match Junction_from (VList (b ++ [node "color" [VInt 7; VInt 8; VInt 9; VInt 10]; node "zzz" [VInt 1]])) with Ok o => (as_ JColor_obj ColorRGBA_from) (node "color" [VInt 7; VInt 8; VInt 9; VInt 10]) = Ok (jn_color o) | Err _ => False end) /\
  (match Junction_from (VList (b ++ [node "uuid" [VInt 7]; node "zzz" [VInt 1]])) with Ok o => (arg 1) (node "uuid" [VInt 7]) = Ok (jn_uuid o) | Err _ => False end) /\
  (match Junction_from (VList (b ++ [node "diameter" [VInt 7]; node "zzz" [VInt 1]])) with Ok o => (as_ JColor_val (arg 1)) (node "diameter" [VInt 7]) = Ok (jn_color o) | Err _ => False end).
Proof. vm_compute. repeat split. Qed.

Theorem C41_NoConnect : picks NoConnect_from 0 ["at"]%string "at"%string Position_from nc_position /\
  picks NoConnect_from 0 ["uuid"]%string "uuid"%string (arg 1) nc_uuid.
Proof. exact L_PickD.NoConnect_pick. Qed.
Print Assumptions C41_NoConnect.
Example C41_NoConnect_case : let b := [VStr $"no_connect"; node "zzz" [VInt 1]] in
  (match NoConnect_from (VList (b ++ [node "at" [VInt 7; VInt 8]; node "zzz" [VInt 1]])) with Ok o => Position_from (node "at" [VInt 7; VInt 8]) = Ok (nc_position o) | Err _ => False end) /\
  (match NoConnect_from (VList (b ++ [node "uuid" [VInt 7]; node "zzz" [VInt 1]])) with Ok o => (arg 1) (node "uuid" [VInt 7]) = Ok (nc_uuid o) | Err _ => False end).
Proof. vm_compute. repeat split. Qed.

Theorem C41_BusEntry : picks BusEntry_from 0 ["at"]%string "at"%string Position_from be_position /\
  picks BusEntry_from 0 ["stroke"]%string "stroke"%string Stroke_from be_stroke /\
  picks BusEntry_from 0 ["size"]%string "size"%string Position_from be_size /\
  picks BusEntry_from 0 ["uuid"]%string "uuid"%string (arg 1) be_uuid.
Proof. exact L_PickD.BusEntry_pick. Qed.
Print Assumptions C41_BusEntry.
Example C41_BusEntry_case : let b := [VStr $"bus_entry"; node "zzz" [VInt 1]] in
  (match BusEntry_from (VList (b ++ [node "at" [VInt 7; VInt 8]; node "zzz" [VInt 1]])) with Ok o => Position_from (node "at" [VInt 7; VInt 8]) = Ok (be_position o) | Err _ => False end) /\
  (match BusEntry_from (VList (b ++ [node "stroke" [VInt 7]; node "zzz" [VInt 1]])) with Ok o => Stroke_from (node "stroke" [VInt 7]) = Ok (be_stroke o) | Err _ => False end) /\
  (match BusEntry_from (VList (b ++ [node "size" [VInt 7; VInt 8]; node "zzz" [VInt 1]])) with Ok o => Position_from (node "size" [VInt 7; VInt 8]) = Ok (be_size o) | Err _ => False end) /\
  (match BusEntry_from (VList (b ++ [node "uuid" [VInt 7]; node "zzz" [VInt 1]])) with Ok o => (arg 1) (node "uuid" [VInt 7]) = Ok (be_uuid o) | Err _ => False end).
Proof. vm_compute. repeat split. Qed.

Theorem C41_Connection : picks Connection_from 0 ["stroke"]%string "stroke"%string Stroke_from cx_stroke /\
  picks Connection_from 0 ["uuid"]%string "uuid"%string (arg 1) cx_uuid.
Proof. exact L_PickD.Connection_pick. Qed.
Print Assumptions C41_Connection.
Example C41_Connection_case : let b := [VStr $"wire"; VStr $"F"; node "zzz" [VInt 1]] in
  (match Connection_from (VList (b ++ [node "stroke" [VInt 7]; node "zzz" [VInt 1]])) with Ok o => Stroke_from (node "stroke" [VInt 7]) = Ok (cx_stroke o) | Err _ => False end) /\
  (match Connection_from (VList (b ++ [node "uuid" [VInt 7]; node "zzz" [VInt 1]])) with Ok o => (arg 1) (node "uuid" [VInt 7]) = Ok (cx_uuid o) | Err _ => False end).
Proof. vm_compute. repeat split. Qed.

Theorem C41_PolyLine : picks PolyLine_from 0 ["stroke"]%string "stroke"%string Stroke_from pl_stroke /\
  picks PolyLine_from 0 ["uuid"]%string "uuid"%string (arg 1) pl_uuid.
Proof. exact L_PickD.PolyLine_pick. Qed.
Print Assumptions C41_PolyLine.
Example C41_PolyLine_case : let b := [VStr $"polyline"; node "zzz" [VInt 1]] in
  (match PolyLine_from (VList (b ++ [node "stroke" [VInt 7]; node "zzz" [VInt 1]])) with Ok o => Stroke_from (node "stroke" [VInt 7]) = Ok (pl_stroke o) | Err _ => False end) /\
  (match PolyLine_from (VList (b ++ [node "uuid" [VInt 7]; node "zzz" [VInt 1]])) with Ok o => (arg 1) (node "uuid" [VInt 7]) = Ok (pl_uuid o) | Err _ => False end).
Proof. vm_compute. repeat split. Qed.

Theorem C41_Text : picks Text_from 2 ["at"]%string "at"%string Position_from tx_position /\
  picks Text_from 2 ["effects"]%string "effects"%string Effects_from tx_effects /\
  picks Text_from 2 ["uuid"]%string "uuid"%string (arg 1) tx_uuid.
Proof. exact L_PickD.Text_pick. Qed.
Print Assumptions C41_Text.
Example C41_Text_case : let b := [VStr $"text"; VStr $"F"; node "zzz" [VInt 1]] in
  (match Text_from (VList (b ++ [node "at" [VInt 7; VInt 8]; node "zzz" [VInt 1]])) with Ok o => Position_from (node "at" [VInt 7; VInt 8]) = Ok (tx_position o) | Err _ => False end) /\
  (match Text_from (VList (b ++ [node "effects" [VInt 7]; node "zzz" [VInt 1]])) with Ok o => Effects_from (node "effects" [VInt 7]) = Ok (tx_effects o) | Err _ => False end) /\
  (match Text_from (VList (b ++ [node "uuid" [VInt 7]; node "zzz" [VInt 1]])) with Ok o => (arg 1) (node "uuid" [VInt 7]) = Ok (tx_uuid o) | Err _ => False end).
Proof. vm_compute. repeat split. Qed.

Theorem C41_TextBox : picks TextBox_from 2 ["at"]%string "at"%string Position_from bx_position /\
  picks TextBox_from 2 ["size"]%string "size"%string Position_from bx_size /\
  picks TextBox_from 2 ["effects"]%string "effects"%string Effects_from bx_effects /\
  picks TextBox_from 2 ["stroke"]%string "stroke"%string Stroke_from bx_stroke /\
  picks TextBox_from 2 ["fill"]%string "fill"%string Fill_from bx_fill /\
  picks TextBox_from 2 ["uuid"]%string "uuid"%string (arg 1) bx_uuid.
Proof. exact L_PickD.TextBox_pick. Qed.
Print Assumptions C41_TextBox.
Example C41_TextBox_case : let b := [VStr $"text_box"; VStr $"F"; node "zzz" [VInt 1]] in
  (match TextBox_from (VList (b ++ [node "at" [VInt 7; VInt 8]; node "zzz" [VInt 1]])) with Ok o => Position_from (node "at" [VInt 7; VInt 8]) = Ok (bx_position o) | Err _ => False end) /\
  (match TextBox_from (VList (b ++ [node "size" [VInt 7; VInt 8]; node "zzz" [VInt 1]])) with Ok o => Position_from (node "size" [VInt 7; VInt 8]) = Ok (bx_size o) | Err _ => False end) /\
  (match TextBox_from (VList (b ++ [node "effects" [VInt 7]; node "zzz" [VInt 1]])) with Ok o => Effects_from (node "effects" [VInt 7]) = Ok (bx_effects o) | Err _ => False end) /\
  (match TextBox_from (VList (b ++ [node "stroke" [VInt 7]; node "zzz" [VInt 1]])) with Ok o => Stroke_from (node "stroke" [VInt 7]) = Ok (bx_stroke o) | Err _ => False end) /\
  (match TextBox_from (VList (b ++ [node "fill" [VStr $"yes"]; node "zzz" [VInt 1]])) with Ok o => Fill_from (node "fill" [VStr $"yes"]) = Ok (bx_fill o) | Err _ => False end) /\
  (match TextBox_from (VList (b ++ [node "uuid" [VInt 7]; node "zzz" [VInt 1]])) with Ok o => (arg 1) (node "uuid" [VInt 7]) = Ok (bx_uuid o) | Err _ => False end).
Proof. vm_compute. repeat split. Qed.

Theorem C41_LocalLabel : picks LocalLabel_from 2 ["at"]%string "at"%string Position_from ll_position /\
  picks LocalLabel_from 2 ["effects"]%string "effects"%string Effects_from ll_effects /\
  picks LocalLabel_from 2 ["uuid"]%string "uuid"%string (arg 1) ll_uuid /\
  picks LocalLabel_from 2 ["fields_autoplaced"]%string "fields_autoplaced"%string (const true) ll_fieldsAutoplaced.
Proof. exact L_PickD.LocalLabel_pick. Qed.
Print Assumptions C41_LocalLabel.
Example C41_LocalLabel_case : let b := [VStr $"label"; VStr $"F"; node "zzz" [VInt 1]] in
  (match LocalLabel_from (VList (b ++ [node "at" [VInt 7; VInt 8]; node "zzz" [VInt 1]])) with Ok o => Position_from (node "at" [VInt 7; VInt 8]) = Ok (ll_position o) | Err _ => False end) /\
  (match LocalLabel_from (VList (b ++ [node "effects" [VInt 7]; node "zzz" [VInt 1]])) with Ok o => Effects_from (node "effects" [VInt 7]) = Ok (ll_effects o) | Err _ => False end) /\
  (match LocalLabel_from (VList (b ++ [node "uuid" [VInt 7]; node "zzz" [VInt 1]])) with Ok o => (arg 1) (node "uuid" [VInt 7]) = Ok (ll_uuid o) | Err _ => False end) /\
  (match LocalLabel_from (VList (b ++ [node "fields_autoplaced" [VInt 7]; node "zzz" [VInt 1]])) with Ok o => (const true) (node "fields_autoplaced" [VInt 7]) = Ok (ll_fieldsAutoplaced o) | Err _ => False end).
Proof. vm_compute. repeat split. Qed.

Theorem C41_GlobalLabel : picks GlobalLabel_from 2 ["fields_autoplaced"]%string "fields_autoplaced"%string (const true) gla_fieldsAutoplaced /\
  picks GlobalLabel_from 2 ["at"]%string "at"%string Position_from gla_position /\
  picks GlobalLabel_from 2 ["effects"]%string "effects"%string Effects_from gla_effects /\
  picks GlobalLabel_from 2 ["shape"]%string "shape"%string (arg 1) gla_shape /\
  picks GlobalLabel_from 2 ["uuid"]%string "uuid"%string (arg 1) gla_uuid.
Proof. exact L_PickD.GlobalLabel_pick. Qed.
Print Assumptions C41_GlobalLabel.
Example C41_GlobalLabel_case : let b := [VStr $"global_label"; VStr $"F"; node "zzz" [VInt 1]] in
  (match GlobalLabel_from (VList (b ++ [node "fields_autoplaced" [VInt 7]; node "zzz" [VInt 1]])) with Ok o => (const true) (node "fields_autoplaced" [VInt 7]) = Ok (gla_fieldsAutoplaced o) | Err _ => False end) /\
  (match GlobalLabel_from (VList (b ++ [node "at" [VInt 7; VInt 8]; node "zzz" [VInt 1]])) with Ok o => Position_from (node "at" [VInt 7; VInt 8]) = Ok (gla_position o) | Err _ => False end) /\
  (match GlobalLabel_from (VList (b ++ [node "effects" [VInt 7]; node "zzz" [VInt 1]])) with Ok o => Effects_from (node "effects" [VInt 7]) = Ok (gla_effects o) | Err _ => False end) /\
  (match GlobalLabel_from (VList (b ++ [node "shape" [VInt 7]; node "zzz" [VInt 1]])) with Ok o => (arg 1) (node "shape" [VInt 7]) = Ok (gla_shape o) | Err _ => False end) /\
  (match GlobalLabel_from (VList (b ++ [node "uuid" [VInt 7]; node "zzz" [VInt 1]])) with Ok o => (arg 1) (node "uuid" [VInt 7]) = Ok (gla_uuid o) | Err _ => False end).
Proof. vm_compute. repeat split. Qed.

Theorem C41_HierarchicalLabel : picks HierarchicalLabel_from 2 ["at"]%string "at"%string Position_from hl_position /\
  picks HierarchicalLabel_from 2 ["effects"]%string "effects"%string Effects_from hl_effects /\
  picks HierarchicalLabel_from 2 ["shape"]%string "shape"%string (arg 1) hl_shape /\
  picks HierarchicalLabel_from 2 ["uuid"]%string "uuid"%string (arg 1) hl_uuid /\
  picks HierarchicalLabel_from 2 ["fields_autoplaced"]%string "fields_autoplaced"%string (const true) hl_fieldsAutoplaced.
Proof. exact L_PickD.HierarchicalLabel_pick. Qed.
Print Assumptions C41_HierarchicalLabel.
Example C41_HierarchicalLabel_case : let b := [VStr $"hierarchical_label"; VStr $"F"; node "zzz" [VInt 1]] in
  (match HierarchicalLabel_from (VList (b ++ [node "at" [VInt 7; VInt 8]; node "zzz" [VInt 1]])) with Ok o => Position_from (node "at" [VInt 7; VInt 8]) = Ok (hl_position o) | Err _ => False end) /\
  (match HierarchicalLabel_from (VList (b ++ [node "effects" [VInt 7]; node "zzz" [VInt 1]])) with Ok o => Effects_from (node "effects" [VInt 7]) = Ok (hl_effects o) | Err _ => False end) /\
  (match HierarchicalLabel_from (VList (b ++ [node "shape" [VInt 7]; node "zzz" [VInt 1]])) with Ok o => (arg 1) (node "shape" [VInt 7]) = Ok (hl_shape o) | Err _ => False end) /\
  (match HierarchicalLabel_from (VList (b ++ [node "uuid" [VInt 7]; node "zzz" [VInt 1]])) with Ok o => (arg 1) (node "uuid" [VInt 7]) = Ok (hl_uuid o) | Err _ => False end) /\
  (match HierarchicalLabel_from (VList (b ++ [node "fields_autoplaced" [VInt 7]; node "zzz" [VInt 1]])) with Ok o => (const true) (node "fields_autoplaced" [VInt 7]) = Ok (hl_fieldsAutoplaced o) | Err _ => False end).
Proof. vm_compute. repeat split. Qed.

Theorem C41_SymbolProjectPath : picks SymbolProjectPath_from 2 ["reference"]%string "reference"%string (arg 1) spp_reference /\
  picks SymbolProjectPath_from 2 ["unit"]%string "unit"%string (arg 1) spp_unit.
Proof. exact L_PickD.SymbolProjectPath_pick. Qed.
Print Assumptions C41_SymbolProjectPath.
Example C41_SymbolProjectPath_case : let b := [VStr $"path"; VStr $"F"; node "zzz" [VInt 1]] in
  (match SymbolProjectPath_from (VList (b ++ [node "reference" [VInt 7]; node "zzz" [VInt 1]])) with Ok o => (arg 1) (node "reference" [VInt 7]) = Ok (spp_reference o) | Err _ => False end) /\
  (match SymbolProjectPath_from (VList (b ++ [node "unit" [VInt 7]; node "zzz" [VInt 1]])) with Ok o => (arg 1) (node "unit" [VInt 7]) = Ok (spp_unit o) | Err _ => False end).
Proof. vm_compute. repeat split. Qed.

Theorem C41_SchematicSymbol : picks SchematicSymbol_from 1 ["fields_autoplaced"]%string "fields_autoplaced"%string (const true) ss_fieldsAutoplaced /\
  picks SchematicSymbol_from 1 ["lib_name"]%string "lib_name"%string (arg 1) ss_libName /\
  picks SchematicSymbol_from 1 ["uuid"]%string "uuid"%string (arg 1) ss_uuid /\
  picks SchematicSymbol_from 1 ["unit"]%string "unit"%string (arg 1) ss_unit /\
  picks SchematicSymbol_from 1 ["in_bom"]%string "in_bom"%string (arg_is 1 "yes"%string) ss_inBom /\
  picks SchematicSymbol_from 1 ["on_board"]%string "on_board"%string (arg_is 1 "yes"%string) ss_onBoard /\
  picks SchematicSymbol_from 1 ["dnp"]%string "dnp"%string (as_ Some (arg_is 1 "yes"%string)) ss_dnp /\
  picks SchematicSymbol_from 1 ["at"]%string "at"%string Position_from ss_position /\
  picks SchematicSymbol_from 1 ["mirror"]%string "mirror"%string (arg 1) ss_mirror.
Proof. exact L_PickD.SchematicSymbol_pick. Qed.
Print Assumptions C41_SchematicSymbol.
Example C41_SchematicSymbol_case : let b := [VStr $"symbol"; node "zzz" [VInt 1]] in
  (match SchematicSymbol_from (VList (b ++ [node "fields_autoplaced" [VInt 7]; node "zzz" [VInt 1]])) with Ok o => (const true) (node "fields_autoplaced" [VInt 7]) = Ok (ss_fieldsAutoplaced o) | Err _ => False end) /\
  (match SchematicSymbol_from (VList (b ++ [node "lib_name" [VInt 7]; node "zzz" [VInt 1]])) with Ok o => (arg 1) (node "lib_name" [VInt 7]) = Ok (ss_libName o) | Err _ => False end) /\
  (match SchematicSymbol_from (VList (b ++ [node "uuid" [VInt 7]; node "zzz" [VInt 1]])) with Ok o => (arg 1) (node "uuid" [VInt 7]) = Ok (ss_uuid o) | Err _ => False end) /\
  (match SchematicSymbol_from (VList (b ++ [node "unit" [VInt 7]; node "zzz" [VInt 1]])) with Ok o => (arg 1) (node "unit" [VInt 7]) = Ok (ss_unit o) | Err _ => False end) /\
  (match SchematicSymbol_from (VList (b ++ [node "in_bom" [VInt 7]; node "zzz" [VInt 1]])) with Ok o => (arg_is 1 "yes"%string) (node "in_bom" [VInt 7]) = Ok (ss_inBom o) | Err _ => False end) /\
  (match SchematicSymbol_from (VList (b ++ [node "on_board" [VInt 7]; node "zzz" [VInt 1]])) with Ok o => (arg_is 1 "yes"%string) (node "on_board" [VInt 7]) = Ok (ss_onBoard o) | Err _ => False end) /\
  (match SchematicSymbol_from (VList (b ++ [node "dnp" [VInt 7]; node "zzz" [VInt 1]])) with Ok o => (as_ Some (arg_is 1 "yes"%string)) (node "dnp" [VInt 7]) = Ok (ss_dnp o) | Err _ => False end) /\
  (match SchematicSymbol_from (VList (b ++ [node "at" [VInt 7; VInt 8]; node "zzz" [VInt 1]])) with Ok o => Position_from (node "at" [VInt 7; VInt 8]) = Ok (ss_position o) | Err _ => False end) /\
  (match SchematicSymbol_from (VList (b ++ [node "mirror" [VInt 7]; node "zzz" [VInt 1]])) with Ok o => (arg 1) (node "mirror" [VInt 7]) = Ok (ss_mirror o) | Err _ => False end).
Proof. vm_compute. repeat split. Qed.

Theorem C41_HierarchicalPin : picks HierarchicalPin_from 3 ["at"]%string "at"%string Position_from hp_position /\
  picks HierarchicalPin_from 3 ["effects"]%string "effects"%string Effects_from hp_effects /\
  picks HierarchicalPin_from 3 ["uuid"]%string "uuid"%string (arg 1) hp_uuid.
Proof. exact L_PickD.HierarchicalPin_pick. Qed.
Print Assumptions C41_HierarchicalPin.
Example C41_HierarchicalPin_case : let b := [VStr $"pin"; VStr $"F"; VStr $"F"; node "zzz" [VInt 1]] in
  (match HierarchicalPin_from (VList (b ++ [node "at" [VInt 7; VInt 8]; node "zzz" [VInt 1]])) with Ok o => Position_from (node "at" [VInt 7; VInt 8]) = Ok (hp_position o) | Err _ => False end) /\
  (match HierarchicalPin_from (VList (b ++ [node "effects" [VInt 7]; node "zzz" [VInt 1]])) with Ok o => Effects_from (node "effects" [VInt 7]) = Ok (hp_effects o) | Err _ => False end) /\
  (match HierarchicalPin_from (VList (b ++ [node "uuid" [VInt 7]; node "zzz" [VInt 1]])) with Ok o => (arg 1) (node "uuid" [VInt 7]) = Ok (hp_uuid o) | Err _ => False end).
Proof. vm_compute. repeat split. Qed.

Theorem C41_HierarchicalSheetProjectPath : picks HierarchicalSheetProjectPath_from 2 ["page"]%string "page"%string (arg 1) hpp_page.
Proof. exact L_PickD.HierarchicalSheetProjectPath_pick. Qed.
Print Assumptions C41_HierarchicalSheetProjectPath.
Example C41_HierarchicalSheetProjectPath_case : let b := [VStr $"path"; VStr $"F"; node "zzz" [VInt 1]] in
  (match HierarchicalSheetProjectPath_from (VList (b ++ [node "page" [VInt 7]; node "zzz" [VInt 1]])) with Ok o => (arg 1) (node "page" [VInt 7]) = Ok (hpp_page o) | Err _ => False end).
Proof. vm_compute. repeat split. Qed.

Theorem C41_HierarchicalSheet : picks HierarchicalSheet_from 1 ["fields_autoplaced"]%string "fields_autoplaced"%string (const true) hs_fieldsAutoplaced /\
  picks HierarchicalSheet_from 1 ["at"]%string "at"%string Position_from hs_position /\
  picks HierarchicalSheet_from 1 ["stroke"]%string "stroke"%string Stroke_from hs_stroke /\
  picks HierarchicalSheet_from 1 ["size"]%string "size"%string (arg 1) hs_width /\
  picks HierarchicalSheet_from 1 ["size"]%string "size"%string (arg 2) hs_height /\
  picks HierarchicalSheet_from 1 ["uuid"]%string "uuid"%string (arg 1) hs_uuid /\
  picks HierarchicalSheet_from 1 ["fill"]%string "fill"%string (in_arg 1 (fun f => let! c := ColorRGBA_from f in Ok (c <| ca_precision := VInt 4 |>))) hs_fill.
Proof. exact L_PickD.HierarchicalSheet_pick. Qed.
Print Assumptions C41_HierarchicalSheet.
Example C41_HierarchicalSheet_case : let b := [VStr $"sheet"; node "zzz" [VInt 1]] in
  (match HierarchicalSheet_from (VList (b ++ [node "fields_autoplaced" [VInt 7]; node "zzz" [VInt 1]])) with Ok o => (const true) (node "fields_autoplaced" [VInt 7]) = Ok (hs_fieldsAutoplaced o) | Err _ => False end) /\
  (match HierarchicalSheet_from (VList (b ++ [node "at" [VInt 7; VInt 8]; node "zzz" [VInt 1]])) with Ok o => Position_from (node "at" [VInt 7; VInt 8]) = Ok (hs_position o) | Err _ => False end) /\
  (match HierarchicalSheet_from (VList (b ++ [node "stroke" [VInt 7]; node "zzz" [VInt 1]])) with Ok o => Stroke_from (node "stroke" [VInt 7]) = Ok (hs_stroke o) | Err _ => False end) /\
  (match HierarchicalSheet_from (VList (b ++ [node "size" [VInt 7; VInt 8]; node "zzz" [VInt 1]])) with Ok o => (arg 1) (node "size" [VInt 7; VInt 8]) = Ok (hs_width o) | Err _ => False end) /\
  (match HierarchicalSheet_from (VList (b ++ [node "size" [VInt 7; VInt 8]; node "zzz" [VInt 1]])) with Ok o => (arg 2) (node "size" [VInt 7; VInt 8]) = Ok (hs_height o) | Err _ => False end) /\
  (match HierarchicalSheet_from (VList (b ++ [node "uuid" [VInt 7]; node "zzz" [VInt 1]])) with Ok o => (arg 1) (node "uuid" [VInt 7]) = Ok (hs_uuid o) | Err _ => False end) /\
  (match HierarchicalSheet_from (VList (b ++ [node "fill" [node "color" [VInt 7; VInt 8; VInt 9; VInt 10]]; node "zzz" [VInt 1]])) with Ok o => (in_arg 1 (fun f => let! c := ColorRGBA_from f in Ok (c <| ca_precision := VInt 4 |>))) (node "fill" [node "color" [VInt 7; VInt 8; VInt 9; VInt 10]]) = Ok (hs_fill o) | Err _ => False end).
Proof. vm_compute. repeat split. Qed.

Theorem C41_HierarchicalSheetInstance : picks HierarchicalSheetInstance_from 2 ["page"]%string "page"%string (arg 1) hi_page.
Proof. exact L_PickD.HierarchicalSheetInstance_pick. Qed.
Print Assumptions C41_HierarchicalSheetInstance.
Example C41_HierarchicalSheetInstance_case : let b := [VStr $"path"; VStr $"F"; node "zzz" [VInt 1]] in
  (match HierarchicalSheetInstance_from (VList (b ++ [node "page" [VInt 7]; node "zzz" [VInt 1]])) with Ok o => (arg 1) (node "page" [VInt 7]) = Ok (hi_page o) | Err _ => False end).
Proof. vm_compute. repeat split. Qed.

Theorem C41_SymbolInstance : picks SymbolInstance_from 2 ["reference"]%string "reference"%string (arg 1) syi_reference /\
  picks SymbolInstance_from 2 ["unit"]%string "unit"%string (arg 1) syi_unit /\
  picks SymbolInstance_from 2 ["value"]%string "value"%string (arg 1) syi_value /\
  picks SymbolInstance_from 2 ["footprint"]%string "footprint"%string (arg 1) syi_footprint.
Proof. exact L_PickD.SymbolInstance_pick. Qed.
Print Assumptions C41_SymbolInstance.
Example C41_SymbolInstance_case : let b := [VStr $"path"; VStr $"F"; node "zzz" [VInt 1]] in
  (match SymbolInstance_from (VList (b ++ [node "reference" [VInt 7]; node "zzz" [VInt 1]])) with Ok o => (arg 1) (node "reference" [VInt 7]) = Ok (syi_reference o) | Err _ => False end) /\
  (match SymbolInstance_from (VList (b ++ [node "unit" [VInt 7]; node "zzz" [VInt 1]])) with Ok o => (arg 1) (node "unit" [VInt 7]) = Ok (syi_unit o) | Err _ => False end) /\
  (match SymbolInstance_from (VList (b ++ [node "value" [VInt 7]; node "zzz" [VInt 1]])) with Ok o => (arg 1) (node "value" [VInt 7]) = Ok (syi_value o) | Err _ => False end) /\
  (match SymbolInstance_from (VList (b ++ [node "footprint" [VInt 7]; node "zzz" [VInt 1]])) with Ok o => (arg 1) (node "footprint" [VInt 7]) = Ok (syi_footprint o) | Err _ => False end).
Proof. vm_compute. repeat split. Qed.

Theorem C41_Rectangle : picks Rectangle_from 0 ["start"]%string "start"%string Position_from rct_start /\
  picks Rectangle_from 0 ["end"]%string "end"%string Position_from rct_end /\
  picks Rectangle_from 0 ["stroke"]%string "stroke"%string Stroke_from rct_stroke /\
  picks Rectangle_from 0 ["fill"]%string "fill"%string Fill_from rct_fill /\
  picks Rectangle_from 0 ["uuid"]%string "uuid"%string (arg 1) rct_uuid.
Proof. exact L_PickD.Rectangle_pick. Qed.
Print Assumptions C41_Rectangle.
Example C41_Rectangle_case : let b := [VStr $"rectangle"; node "zzz" [VInt 1]] in
  (match Rectangle_from (VList (b ++ [node "start" [VInt 7; VInt 8]; node "zzz" [VInt 1]])) with Ok o => Position_from (node "start" [VInt 7; VInt 8]) = Ok (rct_start o) | Err _ => False end) /\
  (match Rectangle_from (VList (b ++ [node "end" [VInt 7; VInt 8]; node "zzz" [VInt 1]])) with Ok o => Position_from (node "end" [VInt 7; VInt 8]) = Ok (rct_end o) | Err _ => False end) /\
  (match Rectangle_from (VList (b ++ [node "stroke" [VInt 7]; node "zzz" [VInt 1]])) with Ok o => Stroke_from (node "stroke" [VInt 7]) = Ok (rct_stroke o) | Err _ => False end) /\
  (match Rectangle_from (VList (b ++ [node "fill" [VStr $"yes"]; node "zzz" [VInt 1]])) with Ok o => Fill_from (node "fill" [VStr $"yes"]) = Ok (rct_fill o) | Err _ => False end) /\
  (match Rectangle_from (VList (b ++ [node "uuid" [VInt 7]; node "zzz" [VInt 1]])) with Ok o => (arg 1) (node "uuid" [VInt 7]) = Ok (rct_uuid o) | Err _ => False end).
Proof. vm_compute. repeat split. Qed.

Theorem C41_SchArc : picks SchArc_from 0 ["start"]%string "start"%string Position_from sar_start /\
  picks SchArc_from 0 ["mid"]%string "mid"%string Position_from sar_mid /\
  picks SchArc_from 0 ["end"]%string "end"%string Position_from sar_end /\
  picks SchArc_from 0 ["stroke"]%string "stroke"%string Stroke_from sar_stroke /\
  picks SchArc_from 0 ["fill"]%string "fill"%string Fill_from sar_fill /\
  picks SchArc_from 0 ["uuid"]%string "uuid"%string (arg 1) sar_uuid.
Proof. exact L_PickD.SchArc_pick. Qed.
Print Assumptions C41_SchArc.
Example C41_SchArc_case : let b := [VStr $"arc"; node "zzz" [VInt 1]] in
  (match SchArc_from (VList (b ++ [node "start" [VInt 7; VInt 8]; node "zzz" [VInt 1]])) with Ok o => Position_from (node "start" [VInt 7; VInt 8]) = Ok (sar_start o) | Err _ => False end) /\
  (match SchArc_from (VList (b ++ [node "mid" [VInt 7; VInt 8]; node "zzz" [VInt 1]])) with Ok o => Position_from (node "mid" [VInt 7; VInt 8]) = Ok (sar_mid o) | Err _ => False end) /\
  (match SchArc_from (VList (b ++ [node "end" [VInt 7; VInt 8]; node "zzz" [VInt 1]])) with Ok o => Position_from (node "end" [VInt 7; VInt 8]) = Ok (sar_end o) | Err _ => False end) /\
  (match SchArc_from (VList (b ++ [node "stroke" [VInt 7]; node "zzz" [VInt 1]])) with Ok o => Stroke_from (node "stroke" [VInt 7]) = Ok (sar_stroke o) | Err _ => False end) /\
  (match SchArc_from (VList (b ++ [node "fill" [VStr $"yes"]; node "zzz" [VInt 1]])) with Ok o => Fill_from (node "fill" [VStr $"yes"]) = Ok (sar_fill o) | Err _ => False end) /\
  (match SchArc_from (VList (b ++ [node "uuid" [VInt 7]; node "zzz" [VInt 1]])) with Ok o => (arg 1) (node "uuid" [VInt 7]) = Ok (sar_uuid o) | Err _ => False end).
Proof. vm_compute. repeat split. Qed.

Theorem C41_Circle : picks Circle_from 0 ["center"]%string "center"%string Position_from cir_center /\
  picks Circle_from 0 ["radius"]%string "radius"%string (arg 1) cir_radius /\
  picks Circle_from 0 ["stroke"]%string "stroke"%string Stroke_from cir_stroke /\
  picks Circle_from 0 ["fill"]%string "fill"%string Fill_from cir_fill /\
  picks Circle_from 0 ["uuid"]%string "uuid"%string (arg 1) cir_uuid.
Proof. exact L_PickD.Circle_pick. Qed.
Print Assumptions C41_Circle.
Example C41_Circle_case : let b := [VStr $"circle"; node "zzz" [VInt 1]] in
  (match Circle_from (VList (b ++ [node "center" [VInt 7; VInt 8]; node "zzz" [VInt 1]])) with Ok o => Position_from (node "center" [VInt 7; VInt 8]) = Ok (cir_center o) | Err _ => False end) /\
  (match Circle_from (VList (b ++ [node "radius" [VInt 7]; node "zzz" [VInt 1]])) with Ok o => (arg 1) (node "radius" [VInt 7]) = Ok (cir_radius o) | Err _ => False end) /\
  (match Circle_from (VList (b ++ [node "stroke" [VInt 7]; node "zzz" [VInt 1]])) with Ok o => Stroke_from (node "stroke" [VInt 7]) = Ok (cir_stroke o) | Err _ => False end) /\
  (match Circle_from (VList (b ++ [node "fill" [VStr $"yes"]; node "zzz" [VInt 1]])) with Ok o => Fill_from (node "fill" [VStr $"yes"]) = Ok (cir_fill o) | Err _ => False end) /\
  (match Circle_from (VList (b ++ [node "uuid" [VInt 7]; node "zzz" [VInt 1]])) with Ok o => (arg 1) (node "uuid" [VInt 7]) = Ok (cir_uuid o) | Err _ => False end).
Proof. vm_compute. repeat split. Qed.

Theorem C41_NetclassFlag : picks NetclassFlag_from 2 ["length"]%string "length"%string (arg 1) nf_length /\
  picks NetclassFlag_from 2 ["shape"]%string "shape"%string (arg 1) nf_shape /\
  picks NetclassFlag_from 2 ["at"]%string "at"%string (as_ Some Position_from) nf_position /\
  picks NetclassFlag_from 2 ["fields_autoplaced"]%string "fields_autoplaced"%string (const true) nf_fieldsAutoplaced /\
  picks NetclassFlag_from 2 ["effects"]%string "effects"%string (as_ Some Effects_from) nf_effects /\
  picks NetclassFlag_from 2 ["uuid"]%string "uuid"%string (arg 1) nf_uuid.
Proof. exact L_PickD.NetclassFlag_pick. Qed.
Print Assumptions C41_NetclassFlag.
Example C41_NetclassFlag_case : let b := [VStr $"netclass_flag"; VStr $"F"; node "zzz" [VInt 1]] in
  (match NetclassFlag_from (VList (b ++ [node "length" [VInt 7]; node "zzz" [VInt 1]])) with Ok o => (arg 1) (node "length" [VInt 7]) = Ok (nf_length o) | Err _ => False end) /\
  (match NetclassFlag_from (VList (b ++ [node "shape" [VInt 7]; node "zzz" [VInt 1]])) with Ok o => (arg 1) (node "shape" [VInt 7]) = Ok (nf_shape o) | Err _ => False end) /\
  (match NetclassFlag_from (VList (b ++ [node "at" [VInt 7; VInt 8]; node "zzz" [VInt 1]])) with Ok o => (as_ Some Position_from) (node "at" [VInt 7; VInt 8]) = Ok (nf_position o) | Err _ => False end) /\
  (match NetclassFlag_from (VList (b ++ [node "fields_autoplaced" [VInt 7]; node "zzz" [VInt 1]])) with Ok o => (const true) (node "fields_autoplaced" [VInt 7]) = Ok (nf_fieldsAutoplaced o) | Err _ => False end) /\
  (match NetclassFlag_from (VList (b ++ [node "effects" [VInt 7]; node "zzz" [VInt 1]])) with Ok o => (as_ Some Effects_from) (node "effects" [VInt 7]) = Ok (nf_effects o) | Err _ => False end) /\
  (match NetclassFlag_from (VList (b ++ [node "uuid" [VInt 7]; node "zzz" [VInt 1]])) with Ok o => (arg 1) (node "uuid" [VInt 7]) = Ok (nf_uuid o) | Err _ => False end).
Proof. vm_compute. repeat split. Qed.

Theorem C41_Schematic : picks Schematic_from 0 ["version"]%string "version"%string (arg 1) sc_version /\
  picks Schematic_from 0 ["generator"]%string "generator"%string (arg 1) sc_generator /\
  picks Schematic_from 0 ["uuid"]%string "uuid"%string (arg 1) sc_uuid /\
  picks Schematic_from 0 ["paper"]%string "paper"%string PageSettings_from sc_paper /\
  picks Schematic_from 0 ["title_block"]%string "title_block"%string (as_ Some TitleBlock_from) sc_titleBlock.
Proof. exact L_PickD.Schematic_pick. Qed.
Print Assumptions C41_Schematic.
Example C41_Schematic_case : let b := [VStr $"kicad_sch"; node "zzz" [VInt 1]] in
  (match Schematic_from (VList (b ++ [node "version" [VInt 7]; node "zzz" [VInt 1]])) with Ok o => (arg 1) (node "version" [VInt 7]) = Ok (sc_version o) | Err _ => False end) /\
  (match Schematic_from (VList (b ++ [node "generator" [VInt 7]; node "zzz" [VInt 1]])) with Ok o => (arg 1) (node "generator" [VInt 7]) = Ok (sc_generator o) | Err _ => False end) /\
  (match Schematic_from (VList (b ++ [node "uuid" [VInt 7]; node "zzz" [VInt 1]])) with Ok o => (arg 1) (node "uuid" [VInt 7]) = Ok (sc_uuid o) | Err _ => False end) /\
  (match Schematic_from (VList (b ++ [node "paper" [VInt 7]; node "zzz" [VInt 1]])) with Ok o => PageSettings_from (node "paper" [VInt 7]) = Ok (sc_paper o) | Err _ => False end) /\
  (match Schematic_from (VList (b ++ [node "title_block" [VStr $"yes"]; node "zzz" [VInt 1]])) with Ok o => (as_ Some TitleBlock_from) (node "title_block" [VStr $"yes"]) = Ok (sc_titleBlock o) | Err _ => False end).
Proof. vm_compute. repeat split. Qed.

Theorem C41_WksFont : marks WksFont_from 0 ["bold"]%string "bold"%string true wf_bold /\
  marks WksFont_from 0 ["italic"]%string "italic"%string true wf_italic /\
  picks WksFont_from 0 ["linewidth"]%string "linewidth"%string (arg 1) wf_linewidth /\
  picks WksFont_from 0 ["size"]%string "size"%string (as_ Some WksFontSize_from) wf_size.
Proof. exact L_PickD.WksFont_pick. Qed.
Print Assumptions C41_WksFont.
Example C41_WksFont_case : let b := [VStr $"font"; node "zzz" [VInt 1]] in
  (match WksFont_from (VList (b ++ [VStr $"bold"; node "zzz" [VInt 1]])) with Ok o => wf_bold o = true | Err _ => False end) /\
  (match WksFont_from (VList (b ++ [VStr $"italic"; node "zzz" [VInt 1]])) with Ok o => wf_italic o = true | Err _ => False end) /\
  (match WksFont_from (VList (b ++ [node "linewidth" [VInt 7]; node "zzz" [VInt 1]])) with Ok o => (arg 1) (node "linewidth" [VInt 7]) = Ok (wf_linewidth o) | Err _ => False end) /\
  (match WksFont_from (VList (b ++ [node "size" [VInt 7; VInt 8]; node "zzz" [VInt 1]])) with Ok o => (as_ Some WksFontSize_from) (node "size" [VInt 7; VInt 8]) = Ok (wf_size o) | Err _ => False end).
Proof. vm_compute. repeat split. Qed.

Theorem C41_Line : picks Line_from 1 ["name"]%string "name"%string (arg 1) wl_name /\
  picks Line_from 1 ["start"]%string "start"%string WksPosition_from wl_start /\
  picks Line_from 1 ["end"]%string "end"%string WksPosition_from wl_end /\
  picks Line_from 1 ["option"]%string "option"%string (arg 1) wl_option /\
  picks Line_from 1 ["linewidth"]%string "linewidth"%string (arg 1) wl_lineWidth /\
  picks Line_from 1 ["repeat"]%string "repeat"%string (arg 1) wl_repeat /\
  picks Line_from 1 ["incrx"]%string "incrx"%string (arg 1) wl_incrx /\
  picks Line_from 1 ["incry"]%string "incry"%string (arg 1) wl_incry /\
  picks Line_from 1 ["comment"]%string "comment"%string (arg 1) wl_comment.
Proof. exact L_PickD.Line_pick. Qed.
Print Assumptions C41_Line.
Example C41_Line_case : let b := [VStr $"line"; node "zzz" [VInt 1]] in
  (match Line_from (VList (b ++ [node "name" [VInt 7]; node "zzz" [VInt 1]])) with Ok o => (arg 1) (node "name" [VInt 7]) = Ok (wl_name o) | Err _ => False end) /\
  (match Line_from (VList (b ++ [node "start" [VInt 7; VInt 8]; node "zzz" [VInt 1]])) with Ok o => WksPosition_from (node "start" [VInt 7; VInt 8]) = Ok (wl_start o) | Err _ => False end) /\
  (match Line_from (VList (b ++ [node "end" [VInt 7; VInt 8]; node "zzz" [VInt 1]])) with Ok o => WksPosition_from (node "end" [VInt 7; VInt 8]) = Ok (wl_end o) | Err _ => False end) /\
  (match Line_from (VList (b ++ [node "option" [VInt 7]; node "zzz" [VInt 1]])) with Ok o => (arg 1) (node "option" [VInt 7]) = Ok (wl_option o) | Err _ => False end) /\
  (match Line_from (VList (b ++ [node "linewidth" [VInt 7]; node "zzz" [VInt 1]])) with Ok o => (arg 1) (node "linewidth" [VInt 7]) = Ok (wl_lineWidth o) | Err _ => False end) /\
  (match Line_from (VList (b ++ [node "repeat" [VInt 7]; node "zzz" [VInt 1]])) with Ok o => (arg 1) (node "repeat" [VInt 7]) = Ok (wl_repeat o) | Err _ => False end) /\
  (match Line_from (VList (b ++ [node "incrx" [VInt 7]; node "zzz" [VInt 1]])) with Ok o => (arg 1) (node "incrx" [VInt 7]) = Ok (wl_incrx o) | Err _ => False end) /\
  (match Line_from (VList (b ++ [node "incry" [VInt 7]; node "zzz" [VInt 1]])) with Ok o => (arg 1) (node "incry" [VInt 7]) = Ok (wl_incry o) | Err _ => False end) /\
  (match Line_from (VList (b ++ [node "comment" [VInt 7]; node "zzz" [VInt 1]])) with Ok o => (arg 1) (node "comment" [VInt 7]) = Ok (wl_comment o) | Err _ => False end).
Proof. vm_compute. repeat split. Qed.

Theorem C41_Rect : picks Rect_from 1 ["name"]%string "name"%string (arg 1) wr_name /\
  picks Rect_from 1 ["start"]%string "start"%string WksPosition_from wr_start /\
  picks Rect_from 1 ["end"]%string "end"%string WksPosition_from wr_end /\
  picks Rect_from 1 ["option"]%string "option"%string (arg 1) wr_option /\
  picks Rect_from 1 ["linewidth"]%string "linewidth"%string (arg 1) wr_lineWidth /\
  picks Rect_from 1 ["repeat"]%string "repeat"%string (arg 1) wr_repeat /\
  picks Rect_from 1 ["incrx"]%string "incrx"%string (arg 1) wr_incrx /\
  picks Rect_from 1 ["incry"]%string "incry"%string (arg 1) wr_incry /\
  picks Rect_from 1 ["comment"]%string "comment"%string (arg 1) wr_comment.
Proof. exact L_PickD.Rect_pick. Qed.
Print Assumptions C41_Rect.
Example C41_Rect_case : let b := [VStr $"rect"; node "zzz" [VInt 1]] in
  (match Rect_from (VList (b ++ [node "name" [VInt 7]; node "zzz" [VInt 1]])) with Ok o => (arg 1) (node "name" [VInt 7]) = Ok (wr_name o) | Err _ => False end) /\
  (match Rect_from (VList (b ++ [node "start" [VInt 7; VInt 8]; node "zzz" [VInt 1]])) with Ok o => WksPosition_from (node "start" [VInt 7; VInt 8]) = Ok (wr_start o) | Err _ => False end) /\
  (match Rect_from (VList (b ++ [node "end" [VInt 7; VInt 8]; node "zzz" [VInt 1]])) with Ok o => WksPosition_from (node "end" [VInt 7; VInt 8]) = Ok (wr_end o) | Err _ => False end) /\
  (match Rect_from (VList (b ++ [node "option" [VInt 7]; node "zzz" [VInt 1]])) with Ok o => (arg 1) (node "option" [VInt 7]) = Ok (wr_option o) | Err _ => False end) /\
  (match Rect_from (VList (b ++ [node "linewidth" [VInt 7]; node "zzz" [VInt 1]])) with Ok o => (arg 1) (node "linewidth" [VInt 7]) = Ok (wr_lineWidth o) | Err _ => False end) /\
  (match Rect_from (VList (b ++ [node "repeat" [VInt 7]; node "zzz" [VInt 1]])) with Ok o => (arg 1) (node "repeat" [VInt 7]) = Ok (wr_repeat o) | Err _ => False end) /\
  (match Rect_from (VList (b ++ [node "incrx" [VInt 7]; node "zzz" [VInt 1]])) with Ok o => (arg 1) (node "incrx" [VInt 7]) = Ok (wr_incrx o) | Err _ => False end) /\
  (match Rect_from (VList (b ++ [node "incry" [VInt 7]; node "zzz" [VInt 1]])) with Ok o => (arg 1) (node "incry" [VInt 7]) = Ok (wr_incry o) | Err _ => False end) /\
  (match Rect_from (VList (b ++ [node "comment" [VInt 7]; node "zzz" [VInt 1]])) with Ok o => (arg 1) (node "comment" [VInt 7]) = Ok (wr_comment o) | Err _ => False end).
Proof. vm_compute. repeat split. Qed.

Theorem C41_Bitmap : picks Bitmap_from 1 ["name"]%string "name"%string (arg 1) wb_name /\
  picks Bitmap_from 1 ["pos"]%string "pos"%string WksPosition_from wb_position /\
  picks Bitmap_from 1 ["option"]%string "option"%string (arg 1) wb_option /\
  picks Bitmap_from 1 ["scale"]%string "scale"%string (arg 1) wb_scale /\
  picks Bitmap_from 1 ["repeat"]%string "repeat"%string (arg 1) wb_repeat /\
  picks Bitmap_from 1 ["incrx"]%string "incrx"%string (arg 1) wb_incrx /\
  picks Bitmap_from 1 ["incry"]%string "incry"%string (arg 1) wb_incry /\
  picks Bitmap_from 1 ["comment"]%string "comment"%string (arg 1) wb_comment.
Proof. exact L_PickD.Bitmap_pick. Qed.
Print Assumptions C41_Bitmap.
Example C41_Bitmap_case : let b := [VStr $"bitmap"; node "zzz" [VInt 1]] in
  (match Bitmap_from (VList (b ++ [node "name" [VInt 7]; node "zzz" [VInt 1]])) with Ok o => (arg 1) (node "name" [VInt 7]) = Ok (wb_name o) | Err _ => False end) /\
  (match Bitmap_from (VList (b ++ [node "pos" [VInt 7; VInt 8]; node "zzz" [VInt 1]])) with Ok o => WksPosition_from (node "pos" [VInt 7; VInt 8]) = Ok (wb_position o) | Err _ => False end) /\
  (match Bitmap_from (VList (b ++ [node "option" [VInt 7]; node "zzz" [VInt 1]])) with Ok o => (arg 1) (node "option" [VInt 7]) = Ok (wb_option o) | Err _ => False end) /\
  (match Bitmap_from (VList (b ++ [node "scale" [VInt 7]; node "zzz" [VInt 1]])) with Ok o => (arg 1) (node "scale" [VInt 7]) = Ok (wb_scale o) | Err _ => False end) /\
  (match Bitmap_from (VList (b ++ [node "repeat" [VInt 7]; node "zzz" [VInt 1]])) with Ok o => (arg 1) (node "repeat" [VInt 7]) = Ok (wb_repeat o) | Err _ => False end) /\
  (match Bitmap_from (VList (b ++ [node "incrx" [VInt 7]; node "zzz" [VInt 1]])) with Ok o => (arg 1) (node "incrx" [VInt 7]) = Ok (wb_incrx o) | Err _ => False end) /\
  (match Bitmap_from (VList (b ++ [node "incry" [VInt 7]; node "zzz" [VInt 1]])) with Ok o => (arg 1) (node "incry" [VInt 7]) = Ok (wb_incry o) | Err _ => False end) /\
  (match Bitmap_from (VList (b ++ [node "comment" [VInt 7]; node "zzz" [VInt 1]])) with Ok o => (arg 1) (node "comment" [VInt 7]) = Ok (wb_comment o) | Err _ => False end).
Proof. vm_compute. repeat split. Qed.

Theorem C41_TbText : picks TbText_from 2 ["name"]%string "name"%string (arg 1) tt_name /\
  picks TbText_from 2 ["pos"]%string "pos"%string WksPosition_from tt_position /\
  picks TbText_from 2 ["option"]%string "option"%string (arg 1) tt_option /\
  picks TbText_from 2 ["rotate"]%string "rotate"%string (arg 1) tt_rotate /\
  picks TbText_from 2 ["font"]%string "font"%string WksFont_from tt_font /\
  picks TbText_from 2 ["justify"]%string "justify"%string (as_ Some Justify_from) tt_justify /\
  picks TbText_from 2 ["maxlen"]%string "maxlen"%string (arg 1) tt_maxlen /\
  picks TbText_from 2 ["maxheight"]%string "maxheight"%string (arg 1) tt_maxheight /\
  picks TbText_from 2 ["repeat"]%string "repeat"%string (arg 1) tt_repeat /\
  picks TbText_from 2 ["incrx"]%string "incrx"%string (arg 1) tt_incrx /\
  picks TbText_from 2 ["incry"]%string "incry"%string (arg 1) tt_incry /\
  picks TbText_from 2 ["incrlabel"]%string "incrlabel"%string (arg 1) tt_incrlabel /\
  picks TbText_from 2 ["comment"]%string "comment"%string (arg 1) tt_comment.
Proof. exact L_PickD.TbText_pick. Qed.
Print Assumptions C41_TbText.
Example C41_TbText_case : let b := [VStr $"tbtext"; VStr $"F"; node "zzz" [VInt 1]] in
  (match TbText_from (VList (b ++ [node "name" [VInt 7]; node "zzz" [VInt 1]])) with Ok o => (arg 1) (node "name" [VInt 7]) = Ok (tt_name o) | Err _ => False end) /\
  (match TbText_from (VList (b ++ [node "pos" [VInt 7; VInt 8]; node "zzz" [VInt 1]])) with Ok o => WksPosition_from (node "pos" [VInt 7; VInt 8]) = Ok (tt_position o) | Err _ => False end) /\
  (match TbText_from (VList (b ++ [node "option" [VInt 7]; node "zzz" [VInt 1]])) with Ok o => (arg 1) (node "option" [VInt 7]) = Ok (tt_option o) | Err _ => False end) /\
  (match TbText_from (VList (b ++ [node "rotate" [VInt 7]; node "zzz" [VInt 1]])) with Ok o => (arg 1) (node "rotate" [VInt 7]) = Ok (tt_rotate o) | Err _ => False end) /\
  (match TbText_from (VList (b ++ [node "font" [VInt 7]; node "zzz" [VInt 1]])) with Ok o => WksFont_from (node "font" [VInt 7]) = Ok (tt_font o) | Err _ => False end) /\
  (match TbText_from (VList (b ++ [node "justify" [VInt 7]; node "zzz" [VInt 1]])) with Ok o => (as_ Some Justify_from) (node "justify" [VInt 7]) = Ok (tt_justify o) | Err _ => False end) /\
  (match TbText_from (VList (b ++ [node "maxlen" [VInt 7]; node "zzz" [VInt 1]])) with Ok o => (arg 1) (node "maxlen" [VInt 7]) = Ok (tt_maxlen o) | Err _ => False end) /\
  (match TbText_from (VList (b ++ [node "maxheight" [VInt 7]; node "zzz" [VInt 1]])) with Ok o => (arg 1) (node "maxheight" [VInt 7]) = Ok (tt_maxheight o) | Err _ => False end) /\
  (match TbText_from (VList (b ++ [node "repeat" [VInt 7]; node "zzz" [VInt 1]])) with Ok o => (arg 1) (node "repeat" [VInt 7]) = Ok (tt_repeat o) | Err _ => False end) /\
  (match TbText_from (VList (b ++ [node "incrx" [VInt 7]; node "zzz" [VInt 1]])) with Ok o => (arg 1) (node "incrx" [VInt 7]) = Ok (tt_incrx o) | Err _ => False end) /\
  (match TbText_from (VList (b ++ [node "incry" [VInt 7]; node "zzz" [VInt 1]])) with Ok o => (arg 1) (node "incry" [VInt 7]) = Ok (tt_incry o) | Err _ => False end) /\
  (match TbText_from (VList (b ++ [node "incrlabel" [VInt 7]; node "zzz" [VInt 1]])) with Ok o => (arg 1) (node "incrlabel" [VInt 7]) = Ok (tt_incrlabel o) | Err _ => False end) /\
  (match TbText_from (VList (b ++ [node "comment" [VInt 7]; node "zzz" [VInt 1]])) with Ok o => (arg 1) (node "comment" [VInt 7]) = Ok (tt_comment o) | Err _ => False end).
Proof. vm_compute. repeat split. Qed.

Theorem C41_Setup : picks Setup_from 1 ["textsize"]%string "textsize"%string TextSize_from wu_textSize /\
  picks Setup_from 1 ["linewidth"]%string "linewidth"%string (arg 1) wu_lineWidth /\
  picks Setup_from 1 ["textlinewidth"]%string "textlinewidth"%string (arg 1) wu_textLineWidth /\
  picks Setup_from 1 ["left_margin"]%string "left_margin"%string (arg 1) wu_leftMargin /\
  picks Setup_from 1 ["right_margin"]%string "right_margin"%string (arg 1) wu_rightMargin /\
  picks Setup_from 1 ["top_margin"]%string "top_margin"%string (arg 1) wu_topMargin /\
  picks Setup_from 1 ["bottom_margin"]%string "bottom_margin"%string (arg 1) wu_bottomMargin.
Proof. exact L_PickD.Setup_pick. Qed.
Print Assumptions C41_Setup.
Example C41_Setup_case : let b := [VStr $"setup"; node "zzz" [VInt 1]] in
  (match Setup_from (VList (b ++ [node "textsize" [VInt 7; VInt 8]; node "zzz" [VInt 1]])) with Ok o => TextSize_from (node "textsize" [VInt 7; VInt 8]) = Ok (wu_textSize o) | Err _ => False end) /\
  (match Setup_from (VList (b ++ [node "linewidth" [VInt 7]; node "zzz" [VInt 1]])) with Ok o => (arg 1) (node "linewidth" [VInt 7]) = Ok (wu_lineWidth o) | Err _ => False end) /\
  (match Setup_from (VList (b ++ [node "textlinewidth" [VInt 7]; node "zzz" [VInt 1]])) with Ok o => (arg 1) (node "textlinewidth" [VInt 7]) = Ok (wu_textLineWidth o) | Err _ => False end) /\
  (match Setup_from (VList (b ++ [node "left_margin" [VInt 7]; node "zzz" [VInt 1]])) with Ok o => (arg 1) (node "left_margin" [VInt 7]) = Ok (wu_leftMargin o) | Err _ => False end) /\
  (match Setup_from (VList (b ++ [node "right_margin" [VInt 7]; node "zzz" [VInt 1]])) with Ok o => (arg 1) (node "right_margin" [VInt 7]) = Ok (wu_rightMargin o) | Err _ => False end) /\
  (match Setup_from (VList (b ++ [node "top_margin" [VInt 7]; node "zzz" [VInt 1]])) with Ok o => (arg 1) (node "top_margin" [VInt 7]) = Ok (wu_topMargin o) | Err _ => False end) /\
  (match Setup_from (VList (b ++ [node "bottom_margin" [VInt 7]; node "zzz" [VInt 1]])) with Ok o => (arg 1) (node "bottom_margin" [VInt 7]) = Ok (wu_bottomMargin o) | Err _ => False end).
Proof. vm_compute. repeat split. Qed.

Theorem C41_WorkSheet : picks WorkSheet_from 1 ["version"]%string "version"%string (arg 1) wk_version /\
  picks WorkSheet_from 1 ["generator"]%string "generator"%string (arg 1) wk_generator /\
  picks WorkSheet_from 1 ["setup"]%string "setup"%string Setup_from wk_setup.
Proof. exact L_PickD.WorkSheet_pick. Qed.
Print Assumptions C41_WorkSheet.
Example C41_WorkSheet_case : let b := [VStr $"kicad_wks"; node "zzz" [VInt 1]] in
  (match WorkSheet_from (VList (b ++ [node "version" [VInt 7]; node "zzz" [VInt 1]])) with Ok o => (arg 1) (node "version" [VInt 7]) = Ok (wk_version o) | Err _ => False end) /\
  (match WorkSheet_from (VList (b ++ [node "generator" [VInt 7]; node "zzz" [VInt 1]])) with Ok o => (arg 1) (node "generator" [VInt 7]) = Ok (wk_generator o) | Err _ => False end) /\
  (match WorkSheet_from (VList (b ++ [node "setup" [VStr $"yes"]; node "zzz" [VInt 1]])) with Ok o => Setup_from (node "setup" [VStr $"yes"]) = Ok (wk_setup o) | Err _ => False end).
Proof. vm_compute. repeat split. Qed.
