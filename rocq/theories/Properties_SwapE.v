(** Order of the children of an expression (C29). The lists name the tokens that must keep their order among
    themselves; any two other neighbouring items may change places behind the positional arguments. Each [case]
    is an accepted expression with two such items. *)
From Verif Require Import PyBase PyNum PyStr Sexpr S_Leaf S_Tree S_Reader M_Common M_Lib M_Sym M_Fp M_Gr M_Zone M_Footprint.
From Verif Require L_SwapE.

Theorem C29_Attributes : swaps Attributes_from 1 [["board_only"]; ["exclude_from_pos_files"]; ["exclude_from_bom"]; ["allow_missing_courtyard"]]%string.
Proof. exact L_SwapE.Attributes_swap. Qed.
Print Assumptions C29_Attributes.
Example C29_Attributes_case : let x := VStr $"board_only" in let y := VStr $"allow_missing_courtyard" in
  (apart [["board_only"]; ["exclude_from_pos_files"]; ["exclude_from_bom"]; ["allow_missing_courtyard"]]%string x y && accepts (Attributes_from) (VList [VStr $"attr"; VStr $"F"; node "zzz" [VInt 1]; x; y]))%bool = true.
Proof. vm_compute. reflexivity. Qed.

(** The type of the attributes is only recognised in the first place. *)
Theorem C29_Attributes_refuted : ~ swaps Attributes_from 0 [["through_hole"; "smd"]; ["board_only"]; ["exclude_from_pos_files"]; ["exclude_from_bom"]; ["allow_missing_courtyard"]]%string.
Proof.
  intros H. specialize (H (VStr $"attr") [] (VStr $"smd") (VStr $"board_only") [] (mkAttributes (VStr $"smd") true false false false) (le_n 0) eq_refl eq_refl).
  discriminate H.
Qed.
Print Assumptions C29_Attributes_refuted.

Theorem C29_Model : swaps Model_from 4 [["opacity"]; ["offset"]; ["scale"]; ["rotate"]]%string.
Proof. exact L_SwapE.Model_swap. Qed.
Print Assumptions C29_Model.
Example C29_Model_case : let x := node "opacity" [VStr $"a"] in let y := node "rotate" [node "xyz" [VInt 1; VInt 2; VInt 3]] in
  (apart [["opacity"]; ["offset"]; ["scale"]; ["rotate"]]%string x y && accepts (Model_from) (VList [VStr $"model"; VStr $"F"; VStr $"F"; node "zzz" [VInt 1]; node "zzz" [VInt 1]; node "zzz" [VInt 1]; x; y]))%bool = true.
Proof. vm_compute. reflexivity. Qed.

Theorem C29_DrillDefinition : swaps DrillDefinition_from 3 [["offset"]]%string.
Proof. exact L_SwapE.DrillDefinition_swap. Qed.
Print Assumptions C29_DrillDefinition.
Example C29_DrillDefinition_case : let x := node "offset" [VInt 1; VInt 2] in let y := node "zzz" [VInt 1] in
  (apart [["offset"]]%string x y && accepts (DrillDefinition_from) (VList [VStr $"drill"; VStr $"F"; VStr $"F"; VStr $"F"; node "zzz" [VInt 1]; x; y]))%bool = true.
Proof. vm_compute. reflexivity. Qed.

Theorem C29_PadOptions : swaps PadOptions_from 0 [["clearance"]; ["anchor"]]%string.
Proof. exact L_SwapE.PadOptions_swap. Qed.
Print Assumptions C29_PadOptions.
Example C29_PadOptions_case : let x := node "clearance" [VStr $"a"] in let y := node "anchor" [VStr $"a"] in
  (apart [["clearance"]; ["anchor"]]%string x y && accepts (PadOptions_from) (VList [VStr $"options"; node "zzz" [VInt 1]; x; y]))%bool = true.
Proof. vm_compute. reflexivity. Qed.

Theorem C29_Pad : swaps Pad_from 3 [["locked"]; ["at"]; ["size"]; ["drill"]; ["layers"]; ["property"]; ["remove_unused_layers"]; ["keep_end_layers"]; ["roundrect_rratio"]; ["chamfer_ratio"]; ["chamfer"]; ["net"]; ["tstamp"]; ["pinfunction"]; ["pintype"]; ["die_length"]; ["solder_mask_margin"]; ["solder_paste_margin"]; ["solder_paste_margin_ratio"]; ["clearance"]; ["zone_connect"]; ["thermal_width"]; ["thermal_gap"]; ["options"]; ["primitives"]]%string.
Proof. exact L_SwapE.Pad_swap. Qed.
Print Assumptions C29_Pad.
Example C29_Pad_case : let x := VStr $"locked" in let y := node "primitives" [VStr $"a"] in
  (apart [["locked"]; ["at"]; ["size"]; ["drill"]; ["layers"]; ["property"]; ["remove_unused_layers"]; ["keep_end_layers"]; ["roundrect_rratio"]; ["chamfer_ratio"]; ["chamfer"]; ["net"]; ["tstamp"]; ["pinfunction"]; ["pintype"]; ["die_length"]; ["solder_mask_margin"]; ["solder_paste_margin"]; ["solder_paste_margin_ratio"]; ["clearance"]; ["zone_connect"]; ["thermal_width"]; ["thermal_gap"]; ["options"]; ["primitives"]]%string x y && accepts (Pad_from) (VList [VStr $"pad"; VStr $"F"; VStr $"F"; VStr $"F"; node "zzz" [VInt 1]; x; y]))%bool = true.
Proof. vm_compute. reflexivity. Qed.

Theorem C29_Footprint : forall now, swaps (Footprint_from now) 1 [["locked"]; ["placed"]; ["version"]; ["generator"]; ["layer"]; ["tedit"]; ["tstamp"]; ["descr"]; ["tags"]; ["path"]; ["at"]; ["autoplace_cost90"]; ["autoplace_cost180"]; ["solder_mask_margin"]; ["solder_paste_margin"]; ["solder_paste_ratio"]; ["clearance"]; ["zone_connect"]; ["thermal_width"]; ["thermal_gap"]; ["attr"]; ["model"]; ["fp_text"; "fp_text_box"; "fp_line"; "fp_rect"; "fp_circle"; "fp_arc"; "fp_poly"; "fp_curve"; "image"]; ["pad"]; ["zone"]; ["property"]; ["group"]; ["private_layers"]; ["net_tie_pad_groups"]; ["dimension"]]%string.
Proof. exact L_SwapE.Footprint_swap. Qed.
Print Assumptions C29_Footprint.
Example C29_Footprint_case : let x := VStr $"locked" in let y := node "net_tie_pad_groups" [VStr $"a"] in
  (apart [["locked"]; ["placed"]; ["version"]; ["generator"]; ["layer"]; ["tedit"]; ["tstamp"]; ["descr"]; ["tags"]; ["path"]; ["at"]; ["autoplace_cost90"]; ["autoplace_cost180"]; ["solder_mask_margin"]; ["solder_paste_margin"]; ["solder_paste_ratio"]; ["clearance"]; ["zone_connect"]; ["thermal_width"]; ["thermal_gap"]; ["attr"]; ["model"]; ["fp_text"; "fp_text_box"; "fp_line"; "fp_rect"; "fp_circle"; "fp_arc"; "fp_poly"; "fp_curve"; "image"]; ["pad"]; ["zone"]; ["property"]; ["group"]; ["private_layers"]; ["net_tie_pad_groups"]; ["dimension"]]%string x y && accepts (Footprint_from (VStr $"0")) (VList [VStr $"module"; VStr $"F"; VStr $"F"; node "zzz" [VInt 1]; x; y]))%bool = true.
Proof. vm_compute. reflexivity. Qed.
