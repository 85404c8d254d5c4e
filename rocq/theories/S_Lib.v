(** Specification of libraries.py and dru.py: the expressions of library tables and design rules. *)
From Verif Require Import PyBase PyNum PyStr Sexpr S_Leaf S_Tree M_Common S_Common M_Lib.

Definition Library_tree (o : Library) : val :=
  node "lib" ([node "name" [lb_name o]; node "type" [lb_type o]; node "uri" [lb_uri o]; node "options" [lb_options o];
    node "descr" [lb_description o]] ++ (if lb_active o then [] else [node "disabled" []])).
Definition Library_norm (o : Library) : Library :=
  mkLibrary (lb_name o) (lb_type o) (lb_uri o) (lb_options o) (lb_description o) (lb_active o).
(** dataclass == on Library *)
Definition Library_eqb (a b : Library) : bool :=
  py_eqb (lb_name a) (lb_name b)
  && py_eqb (lb_type a) (lb_type b)
  && py_eqb (lb_uri a) (lb_uri b)
  && py_eqb (lb_options a) (lb_options b)
  && py_eqb (lb_description a) (lb_description b)
  && Bool.eqb (lb_active a) (lb_active b).
Definition Library_ok (o : Library) : bool :=
  txtb (lb_name o)
  && txtb (lb_type o)
  && txtb (lb_uri o)
  && txtb (lb_options o)
  && txtb (lb_description o).


Definition LibTable_tree (o : LibTable) : val := VList (lt_type o :: map Library_tree (lt_libs o)).
Definition LibTable_norm (o : LibTable) : LibTable :=
  mkLibTable (lt_type o) (map Library_norm (lt_libs o)) (lt_filePath o).
(** dataclass == on LibTable *)
Definition LibTable_eqb (a b : LibTable) : bool :=
  py_eqb (lt_type a) (lt_type b)
  && leqb Library_eqb (lt_libs a) (lt_libs b)
  && py_eqb (lt_filePath a) (lt_filePath b).
Definition LibTable_ok (o : LibTable) : bool :=
  enumb ["fp_lib_table"%string; "sym_lib_table"%string] (lt_type o)
  && forallb Library_ok (lt_libs o)
  && is_none (lt_filePath o).


Definition Constraint_tree (o : Constraint) : val :=
  node "constraint" ([cn_type o] ++ optn "min" (cn_min o) ++ optn "opt" (cn_opt o) ++ optn "max" (cn_max o)
    ++ cn_elements o).
Definition Constraint_norm (o : Constraint) : Constraint :=
  mkConstraint (cn_type o) (cn_min o) (cn_opt o) (cn_max o) (cn_elements o).
(** dataclass == on Constraint *)
Definition Constraint_eqb (a b : Constraint) : bool :=
  py_eqb (cn_type a) (cn_type b)
  && py_eqb (cn_min a) (cn_min b)
  && py_eqb (cn_opt a) (cn_opt b)
  && py_eqb (cn_max a) (cn_max b)
  && leqb py_eqb (cn_elements a) (cn_elements b).
Definition Constraint_ok (o : Constraint) : bool :=
  wordv (cn_type o)
  && optb txtb (cn_min o)
  && optb txtb (cn_opt o)
  && optb txtb (cn_max o)
  && forallb wordv (cn_elements o).


Definition Rule_tree (o : Rule) : val :=
  node "rule" ([ru_name o] ++ optn "layer" (ru_layer o) ++ map Constraint_tree (ru_constraints o)
    ++ [node "condition" [ru_condition o]] ++ optn "severity" (ru_severity o)).
Definition Rule_norm (o : Rule) : Rule :=
  mkRule (ru_name o) (map Constraint_norm (ru_constraints o)) (ru_condition o) (ru_layer o) (ru_severity o).
(** dataclass == on Rule *)
Definition Rule_eqb (a b : Rule) : bool :=
  py_eqb (ru_name a) (ru_name b)
  && leqb Constraint_eqb (ru_constraints a) (ru_constraints b)
  && py_eqb (ru_condition a) (ru_condition b)
  && py_eqb (ru_layer a) (ru_layer b)
  && py_eqb (ru_severity a) (ru_severity b).
Definition Rule_ok (o : Rule) : bool :=
  txtb (ru_name o)
  && forallb Constraint_ok (ru_constraints o)
  && txtb (ru_condition o)
  && optb txtb (ru_layer o)
  && optb plainv (ru_severity o).


(** A rules file is a sequence of expressions; this is the sequence as one list. *)
Definition DesignRules_tree (o : DesignRules) : val :=
  VList (node "version" [dr_version o] :: map Rule_tree (dr_rules o)).
Definition DesignRules_norm (o : DesignRules) : DesignRules :=
  mkDesignRules (nrm (dr_version o)) (map Rule_norm (dr_rules o)) (dr_filePath o).
(** dataclass == on DesignRules *)
Definition DesignRules_eqb (a b : DesignRules) : bool :=
  py_eqb (dr_version a) (dr_version b)
  && leqb Rule_eqb (dr_rules a) (dr_rules b)
  && py_eqb (dr_filePath a) (dr_filePath b).
Definition DesignRules_ok (o : DesignRules) : bool :=
  numb (dr_version o)
  && forallb Rule_ok (dr_rules o)
  && is_none (dr_filePath o).

