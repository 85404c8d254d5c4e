(** Specification of libraries.py and dru.py: the expressions of library tables and design rules. *)
From Verif Require Import PyBase PyNum PyStr Sexpr S_Leaf S_Tree M_Common S_Common M_Lib.

Definition Library_tree (o : Library) : val :=
  node "lib" ([node "name" [lb_name o]; node "type" [lb_type o]; node "uri" [lb_uri o]; node "options" [lb_options o];
    node "descr" [lb_description o]] ++ (if lb_active o then [] else [node "disabled" []])).
@ok Library

Definition LibTable_tree (o : LibTable) : val := VList (lt_type o :: map Library_tree (lt_libs o)).
@ok LibTable

Definition Constraint_tree (o : Constraint) : val :=
  node "constraint" ([cn_type o] ++ optn "min" (cn_min o) ++ optn "opt" (cn_opt o) ++ optn "max" (cn_max o)
    ++ cn_elements o).
@ok Constraint

Definition Rule_tree (o : Rule) : val :=
  node "rule" ([ru_name o] ++ optn "layer" (ru_layer o) ++ map Constraint_tree (ru_constraints o)
    ++ [node "condition" [ru_condition o]] ++ optn "severity" (ru_severity o)).
@ok Rule

(** A rules file is a sequence of expressions; this is the sequence as one list. *)
Definition DesignRules_tree (o : DesignRules) : val :=
  VList (node "version" [dr_version o] :: map Rule_tree (dr_rules o)).
@ok DesignRules
