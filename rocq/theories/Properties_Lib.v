(** Property theorems C10 (library tables), C11 (design rules) and C34 (create_new). *)
From Verif Require Import PyBase PyNum PyStr Sexpr S_Leaf S_Tree M_Common S_Common M_Lib S_Lib L_Lib.

(** ** C10: library tables *)
Definition ex_lib (b : bool) : Library :=
  mkLibrary (VStr $"MCU ""ST""") (VStr $"KiCad") (VStr $"${KIPRJMOD}/a (b).kicad_sym") (VStr []) (VStr $"x") b.
Theorem C10_Library : roundtrips Library_to Library_from Library_ok Library_norm Library_eqb.
Proof. exact Library_rt. Qed.
Print Assumptions C10_Library.
Theorem C36_Library : conforms Library_to Library_from Library_ok Library_norm Library_tree.
Proof. exact Library_fmt. Qed.
Print Assumptions C36_Library.
Theorem C27_Library : refuses Library_from ["lib"%string].
Proof. exact Library_ref. Qed.
Print Assumptions C27_Library.
Theorem C28_Library : ignores Library_from 0 ["name"%string; "type"%string; "uri"%string; "options"%string; "descr"%string; "disabled"%string].
Proof. exact Library_ign. Qed.
Print Assumptions C28_Library.
Theorem C30_Library : last_wins Library_from 0 ["name"%string; "type"%string; "uri"%string; "options"%string; "descr"%string; "disabled"%string].
Proof. exact Library_win. Qed.
Print Assumptions C30_Library.
Example C10_Library_ex : Library_ok (ex_lib false) = true.
Proof. vm_compute. reflexivity. Qed.

Theorem C10_LibTable : roundtrips LibTable_to LibTable_from LibTable_ok LibTable_norm LibTable_eqb.
Proof. exact LibTable_rt. Qed.
Print Assumptions C10_LibTable.
Theorem C36_LibTable : conforms LibTable_to LibTable_from LibTable_ok LibTable_norm LibTable_tree.
Proof. exact LibTable_fmt. Qed.
Print Assumptions C36_LibTable.
Theorem C27_LibTable : refuses LibTable_from ["fp_lib_table"%string; "sym_lib_table"%string].
Proof. exact LibTable_ref. Qed.
Print Assumptions C27_LibTable.
Theorem C28_LibTable : ignores LibTable_from 0 ["lib"%string].
Proof. exact LibTable_ign. Qed.
Print Assumptions C28_LibTable.
Example C10_LibTable_ex : LibTable_ok (mkLibTable (VStr $"fp_lib_table") [ex_lib true; ex_lib false; Library_default] VNone) = true.
Proof. vm_compute. reflexivity. Qed.

(** A table with any other type is written without complaint but cannot be read again. *)
Theorem C10_unknown_type_refuted : exists o s,
  wordv (lt_type o) = true /\ LibTable_to o 0 true = Ok s /\
  write_read LibTable_to LibTable_from o 0 true = Err EException.
Proof.
  exists (mkLibTable (VStr $"sch_lib_table") [] VNone), ($"(sch_lib_table" ++ nl ++ $")" ++ nl).
  repeat split; vm_compute; reflexivity.
Qed.
Print Assumptions C10_unknown_type_refuted.

(** ** C11: design rules *)
Definition ex_constraint : Constraint :=
  mkConstraint (VStr $"disallow") (VStr $"0.2mm") VNone (VStr $"1 mm") [VStr $"track"; VStr $"via"].
Theorem C11_Constraint : roundtrips Constraint_to Constraint_from Constraint_ok Constraint_norm Constraint_eqb.
Proof. exact Constraint_rt. Qed.
Print Assumptions C11_Constraint.
Theorem C36_Constraint : conforms Constraint_to Constraint_from Constraint_ok Constraint_norm Constraint_tree.
Proof. exact Constraint_fmt. Qed.
Print Assumptions C36_Constraint.
Theorem C27_Constraint : refuses Constraint_from ["constraint"%string].
Proof. exact Constraint_ref. Qed.
Print Assumptions C27_Constraint.
Theorem C28_Constraint : ignores Constraint_from 1 ["min"%string; "opt"%string; "max"%string].
Proof. exact Constraint_ign. Qed.
Print Assumptions C28_Constraint.
Theorem C30_Constraint : last_wins Constraint_from 1 ["min"%string; "opt"%string; "max"%string].
Proof. exact Constraint_win. Qed.
Print Assumptions C30_Constraint.
Example C11_Constraint_ex : Constraint_ok (ex_constraint) = true.
Proof. vm_compute. reflexivity. Qed.

Definition ex_rule : Rule :=
  mkRule (VStr $"HV ""1""") [ex_constraint; Constraint_default] (VStr $"A.NetClass == 'HV'") (VStr $"outer") (VStr $"warning").
Theorem C11_Rule : roundtrips Rule_to Rule_from Rule_ok Rule_norm Rule_eqb.
Proof. exact Rule_rt. Qed.
Print Assumptions C11_Rule.
Theorem C36_Rule : conforms Rule_to Rule_from Rule_ok Rule_norm Rule_tree.
Proof. exact Rule_fmt. Qed.
Print Assumptions C36_Rule.
Theorem C27_Rule : refuses Rule_from ["rule"%string].
Proof. exact Rule_ref. Qed.
Print Assumptions C27_Rule.
Theorem C28_Rule : ignores Rule_from 1 ["constraint"%string; "condition"%string; "layer"%string; "severity"%string].
Proof. exact Rule_ign. Qed.
Print Assumptions C28_Rule.
Theorem C30_Rule : last_wins Rule_from 1 ["condition"%string; "layer"%string; "severity"%string].
Proof. exact Rule_win. Qed.
Print Assumptions C30_Rule.
Example C11_Rule_ex : Rule_ok (ex_rule) = true.
Proof. vm_compute. reflexivity. Qed.

(** The whole file: what [from_file] reads (with its added parentheses) from what [to_file] wrote. *)
Theorem C11_DesignRules : roundtrips DesignRules_file DesignRules_from DesignRules_ok DesignRules_norm DesignRules_eqb.
Proof. exact DesignRules_rt. Qed.
Print Assumptions C11_DesignRules.
Theorem C36_DesignRules : conforms DesignRules_file DesignRules_from DesignRules_ok DesignRules_norm DesignRules_tree.
Proof. exact DesignRules_fmt. Qed.
Print Assumptions C36_DesignRules.
Theorem C27_DesignRules : (forall e, is_list e = false -> DesignRules_from e = Err EException)
  /\ (forall x l, is_list x = false -> DesignRules_from (VList (x :: l)) = Err EException)
  /\ (forall h m l, (h =s "version") = false -> DesignRules_from (VList (VList (h :: m) :: l)) = Err EException).
Proof. exact DesignRules_ref. Qed.
Print Assumptions C27_DesignRules.
Example C11_DesignRules_ex : DesignRules_ok (mkDesignRules (VInt 1) [ex_rule; ex_rule; Rule_default] VNone) = true.
Proof. vm_compute. reflexivity. Qed.
(** [from_sexpr] of the parsed [to_sexpr] (without the wrapping) fails on every rule set. *)
Theorem C11_needs_wrapping_refuted : exists o,
  DesignRules_ok o = true /\ write_read DesignRules_to DesignRules_from o 0 false = Err EException.
Proof. exists (mkDesignRules (VInt 1) [ex_rule] VNone). split; vm_compute; reflexivity. Qed.
Print Assumptions C11_needs_wrapping_refuted.
(** An element that looks like a number can be written but not read. *)
Theorem C11_numeric_element_refuted : exists o,
  write_read Constraint_to Constraint_from o 0 true = Err EType /\ forallb is_text (cn_elements o) = true.
Proof. exists (Constraint_default <| cn_elements := [VStr $"12"] |>). split; vm_compute; reflexivity. Qed.
Print Assumptions C11_numeric_element_refuted.
(** A severity of two words loses the second one. *)
Theorem C11_severity_words_refuted : exists o o',
  write_read Rule_to Rule_from o 0 true = Ok o' /\ Rule_eqb o o' = false.
Proof.
  exists (Rule_default <| ru_severity := VStr $"not ok" |>), (Rule_default <| ru_severity := VStr $"not" |>).
  split; vm_compute; reflexivity.
Qed.
Print Assumptions C11_severity_words_refuted.

(** ** C34: new objects *)
(** A new table of either type, and a new rule set, are empty and survive a round trip unchanged. *)
Theorem C34_LibTable : forall b indent newline,
  let o := LibTable_create_new (VStr (if b : bool then $"fp_lib_table" else $"sym_lib_table")) in
  lt_libs o = [] /\ write_read LibTable_to LibTable_from o indent newline = Ok o.
Proof. exact LibTable_new. Qed.
Print Assumptions C34_LibTable.
Theorem C34_DesignRules : forall indent newline,
  dr_rules DesignRules_create_new = [] /\ dr_version DesignRules_create_new = VInt 1 /\
  write_read DesignRules_file DesignRules_from DesignRules_create_new indent newline = Ok DesignRules_create_new.
Proof. exact DesignRules_new. Qed.
Print Assumptions C34_DesignRules.
