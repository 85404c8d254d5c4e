(** Order of the children: proofs. *)
From Verif Require Import PyBase PyNum PyStr PyRe Sexpr S_Leaf S_Tree S_Reader L_Keep L_Swap M_Common M_Lib M_Sym M_Fp M_Gr M_Zone M_Footprint.

Lemma Attributes_swap : swaps Attributes_from 1 [["board_only"]; ["exclude_from_pos_files"]; ["exclude_from_bom"]; ["allow_missing_courtyard"]]%string.
Proof. swap_in Attributes_from Attributes_item 1. Qed.
Lemma Model_swap : swaps Model_from 4 [["opacity"]; ["offset"]; ["scale"]; ["rotate"]]%string.
Proof. swap_in Model_from Model_step 4. Qed.
Lemma DrillDefinition_swap : swaps DrillDefinition_from 3 [["offset"]]%string.
Proof. swap_in DrillDefinition_from DrillDefinition_step 3. Qed.
Lemma PadOptions_swap : swaps PadOptions_from 0 [["clearance"]; ["anchor"]]%string.
Proof. swap_in PadOptions_from PadOptions_step 0. Qed.
Lemma Pad_swap : swaps Pad_from 3 [["locked"]; ["at"]; ["size"]; ["drill"]; ["layers"]; ["property"]; ["remove_unused_layers"]; ["keep_end_layers"]; ["roundrect_rratio"]; ["chamfer_ratio"]; ["chamfer"]; ["net"]; ["tstamp"]; ["pinfunction"]; ["pintype"]; ["die_length"]; ["solder_mask_margin"]; ["solder_paste_margin"]; ["solder_paste_margin_ratio"]; ["clearance"]; ["zone_connect"]; ["thermal_width"]; ["thermal_gap"]; ["options"]; ["primitives"]]%string.
Proof. swap_in Pad_from Pad_step 3. Qed.
Lemma Footprint_swap : forall now, swaps (Footprint_from now) 1 [["locked"]; ["placed"]; ["version"]; ["generator"]; ["layer"]; ["tedit"]; ["tstamp"]; ["descr"]; ["tags"]; ["path"]; ["at"]; ["autoplace_cost90"]; ["autoplace_cost180"]; ["solder_mask_margin"]; ["solder_paste_margin"]; ["solder_paste_ratio"]; ["clearance"]; ["zone_connect"]; ["thermal_width"]; ["thermal_gap"]; ["attr"]; ["model"]; ["fp_text"; "fp_text_box"; "fp_line"; "fp_rect"; "fp_circle"; "fp_arc"; "fp_poly"; "fp_curve"; "image"]; ["pad"]; ["zone"]; ["property"]; ["group"]; ["private_layers"]; ["net_tie_pad_groups"]; ["dimension"]]%string.
Proof. intros now; swap_in Footprint_from Footprint_step 1. Qed.
