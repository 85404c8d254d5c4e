(** Property theorems C30 for dictionaries: per key the last value counts, and keys keep the order of their first
    occurrence. *)
From Verif Require Import PyBase PyNum PyStr PyRe Sexpr S_Leaf S_Tree S_Reader S_Gather M_Common M_Footprint M_Board M_Sch L_DictA.

Theorem C30_TitleBlock_comments : collects_dict TitleBlock_from 0 ["comment"%string] pair_of tb_comments.
Proof. exact TitleBlock_dict. Qed.
Print Assumptions C30_TitleBlock_comments.
(** the keys 1 and 1.0 are equal; the list before the last one is no comment *)
Definition ex_comments : val := node "title_block"
  [node "comment" [VInt 2; VStr $"b"]; node "comment" [VInt 1; VStr $"a"]; node "title" [VStr $"t"]; node "comment" [VInt 2; VStr $"c"];
   node "comment" [fdec 10 (-1); VStr $"d"]].
Example C30_TitleBlock_comments_ex : exists o, TitleBlock_from ex_comments = Ok o
  /\ tb_comments o = [(VInt 2, VStr $"c"); (VInt 1, VStr $"d")].
Proof. eexists. split; [vm_compute; reflexivity|reflexivity]. Qed.

Theorem C30_Board_properties : forall now, collects_dict (Board_from now) 0 ["property"%string] pair_of bd_properties.
Proof. exact Board_dict. Qed.
Print Assumptions C30_Board_properties.
Example C30_Board_properties_ex : exists o, Board_from VNone (node "kicad_pcb"
    [node "property" [VStr $"a"; VStr $"1"]; node "property" [VStr $"b"; VStr $"2"]; node "version" [VInt 1]; node "property" [VStr $"a"; VStr $"3"]]) = Ok o
  /\ bd_properties o = [(VStr $"a", VStr $"3"); (VStr $"b", VStr $"2")].
Proof. eexists. split; [vm_compute; reflexivity|reflexivity]. Qed.

Theorem C30_Footprint_properties : forall now, collects_dict (Footprint_from now) 2 ["property"%string] pair_of fd_properties.
Proof. exact Footprint_dict. Qed.
Print Assumptions C30_Footprint_properties.
Example C30_Footprint_properties_ex : exists o, Footprint_from VNone (node "footprint" [VStr $"lib:R1";
    node "property" [VStr $"a"; VStr $"1"]; node "property" [VStr $"b"; VStr $"2"]; node "layer" [VStr $"F.Cu"]; node "property" [VStr $"a"; VStr $"3"]]) = Ok o
  /\ fd_properties o = [(VStr $"a", VStr $"3"); (VStr $"b", VStr $"2")].
Proof. eexists. split; [vm_compute; reflexivity|reflexivity]. Qed.

Theorem C30_SchematicSymbol_pins : collects_dict SchematicSymbol_from 1 ["pin"%string] pair_in ss_pins.
Proof. exact SchematicSymbol_dict. Qed.
Print Assumptions C30_SchematicSymbol_pins.
Example C30_SchematicSymbol_pins_ex : exists o, SchematicSymbol_from (node "symbol"
    [node "pin" [VStr $"1"; node "uuid" [VStr $"x"]]; node "pin" [VStr $"2"; node "uuid" [VStr $"y"]]; node "pin" [VStr $"1"; node "uuid" [VStr $"z"]]]) = Ok o
  /\ ss_pins o = [(VStr $"1", VStr $"z"); (VStr $"2", VStr $"y")].
Proof. eexists. split; [vm_compute; reflexivity|reflexivity]. Qed.
