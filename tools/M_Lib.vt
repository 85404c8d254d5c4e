(** Model of libraries.py and dru.py. *)
From Verif Require Import PyBase PyNum PyStr Sexpr.

@record Library lb libraries.py:22-44
name txt VStr []
type txt VStr $"KiCad"
uri txt VStr []
options txt VStr []
description txt VStr []
active flag true
@end
(** libraries.py:67-72 *)
Definition Library_step (o : Library) (item : val) : res Library :=
  let! h := item@0 in
  let! o := on (h =s "name") (setf lb_name (item@1)) o in
  let! o := on (h =s "type") (setf lb_type (item@1)) o in
  let! o := on (h =s "uri") (setf lb_uri (item@1)) o in
  let! o := on (h =s "options") (setf lb_options (item@1)) o in
  let! o := on (h =s "descr") (setf lb_description (item@1)) o in
  let! o := on (h =s "disabled") (setf lb_active (Ok false)) o in
  Ok o.
(** libraries.py:46-73 *)
Definition Library_from (exp : val) : res Library :=
  let! l := need_head "lib" exp in foldM Library_step Library_default l.
(** libraries.py:75-101 *)
Definition Library_to (o : Library) (indent : nat) (newline : bool) : res str :=
  Ok (spaces indent ++ $"(lib " ++ $"(name " ++ quoted (lb_name o) ++ $")" ++ $"(type " ++ quoted (lb_type o) ++ $")"
      ++ $"(uri " ++ quoted (lb_uri o) ++ $")" ++ $"(options " ++ quoted (lb_options o) ++ $")"
      ++ $"(descr " ++ quoted (lb_description o) ++ $")"
      ++ (if lb_active o then [] else $"(disabled)") ++ $")" ++ eol newline).

@record LibTable lt libraries.py:103-116
type enum/fp_lib_table,sym_lib_table VStr $"sym_lib_table"
libs list/Library []
filePath none VNone
@end
(** libraries.py:139-140 *)
Definition LibTable_step (o : LibTable) (item : val) : res LibTable :=
  let! h := item@0 in
  let! o := on (h =s "lib") (addf lt_libs (Library_from item)) o in
  Ok o.
(** libraries.py:118-141 *)
Definition LibTable_from (exp : val) : res LibTable :=
  let! l := need_list exp in
  let! h := exp@0 in
  if negb ((h =s "fp_lib_table") || (h =s "sym_lib_table")) then Err EException else
  let! o := setf lt_type (exp@0) LibTable_default in
  foldM LibTable_step o l.
(** libraries.py:197-215; the libraries are written with the default indentation 2 *)
Definition LibTable_to (o : LibTable) (indent : nat) (newline : bool) : res str :=
  let indents := spaces indent in
  let! libs := concatM (fun lib => Library_to lib 2 true) (lt_libs o) in
  Ok (indents ++ $"(" ++ fmt (lt_type o) ++ nl ++ libs ++ indents ++ $")" ++ eol newline).
(** libraries.py:167-177 *)
Definition LibTable_create_new (type : val) : LibTable := LibTable_default <| lt_type := type |>.

@record Constraint cn dru.py:25-69
type word VStr $"clearance"
min otxt VNone
opt otxt VNone
max otxt VNone
elements lword []
@end
(** dru.py:94-98: an element is appended and then still indexed *)
Definition Constraint_step (o : Constraint) (item : val) : res Constraint :=
  let! o := on (negb (is_list item)) (addf cn_elements (Ok item)) o in
  let! h := item@0 in
  let! o := on (h =s "min") (setf cn_min (item@1)) o in
  let! o := on (h =s "opt") (setf cn_opt (item@1)) o in
  let! o := on (h =s "max") (setf cn_max (item@1)) o in
  Ok o.
(** dru.py:71-99 *)
Definition Constraint_from (exp : val) : res Constraint :=
  let! l := need_head "constraint" exp in
  let! o := setf cn_type (exp@1) Constraint_default in
  foldM Constraint_step o (skipn 2 l).
(** [' '.join(l)]: only text can be joined *)
Definition py_join (sep : str) (l : list val) : res str := let! ts := mapM as_text l in Ok (join sep ts).
(** dru.py:101-120 *)
Definition Constraint_to (o : Constraint) (indent : nat) (newline : bool) : res str :=
  let min := if is_none (cn_min o) then [] else $" (min " ++ quoted (cn_min o) ++ $")" in
  let opt := if is_none (cn_opt o) then [] else $" (opt " ++ quoted (cn_opt o) ++ $")" in
  let max := if is_none (cn_max o) then [] else $" (max " ++ quoted (cn_max o) ++ $")" in
  let! elements := (if Nat.ltb 0 (length (cn_elements o))
                    then let! j := py_join $" " (cn_elements o) in Ok ($" " ++ j) else Ok []) in
  Ok (spaces indent ++ $"(constraint " ++ fmt (cn_type o) ++ min ++ opt ++ max ++ elements ++ $")" ++ eol newline).

@record Rule ru dru.py:122-144
name txt VStr []
constraints list/Constraint []
condition txt VStr []
layer otxt VNone
severity oplain VNone
@end
(** dru.py:169-172 *)
Definition Rule_step (o : Rule) (item : val) : res Rule :=
  let! h := item@0 in
  let! o := on (h =s "constraint") (addf ru_constraints (Constraint_from item)) o in
  let! o := on (h =s "condition") (setf ru_condition (item@1)) o in
  let! o := on (h =s "layer") (setf ru_layer (item@1)) o in
  let! o := on (h =s "severity") (setf ru_severity (item@1)) o in
  Ok o.
(** dru.py:146-173 *)
Definition Rule_from (exp : val) : res Rule :=
  let! l := need_head "rule" exp in
  let! o := setf ru_name (exp@1) Rule_default in
  foldM Rule_step o (skipn 2 l).
(** dru.py:175-195; the method has no newline argument, the parameter is unused *)
Definition Rule_to (o : Rule) (indent : nat) (newline : bool) : res str :=
  let indents := spaces indent in
  let layer := if is_none (ru_layer o) then [] else indents ++ $"  (layer " ++ quoted (ru_layer o) ++ $")" ++ nl in
  let! constraints := concatM (fun c => let! s := Constraint_to c (indent + 2) true in Ok (indents ++ s)) (ru_constraints o) in
  let severity := if is_none (ru_severity o) then []
                  else nl ++ indents ++ $"  (severity " ++ dequote (ru_severity o) ++ $")" in
  Ok (indents ++ $"(rule " ++ quoted (ru_name o) ++ nl ++ layer ++ constraints
      ++ indents ++ $"  (condition " ++ quoted (ru_condition o) ++ $")" ++ severity ++ $")" ++ nl).

@record DesignRules dr dru.py:197-209
version num VInt 1
rules list/Rule []
filePath none VNone
@end
(** dru.py:236-237 *)
Definition DesignRules_step (o : DesignRules) (item : val) : res DesignRules :=
  let! h := item@0 in
  let! o := on (h =s "version") (setf dr_version (item@1)) o in
  let! o := on (h =s "rule") (addf dr_rules (Rule_from item)) o in
  Ok o.
(** dru.py:211-238 *)
Definition DesignRules_from (exp : val) : res DesignRules :=
  let! l := need_list exp in
  let! first := exp@0 in
  let! _ := need_list first in
  let! h := first@0 in
  if negb (h =s "version") then Err EException else
  foldM DesignRules_step DesignRules_default l.
(** dru.py:295-315 *)
Definition DesignRules_to (o : DesignRules) (indent : nat) (newline : bool) : res str :=
  let indents := spaces indent in
  let! rules := (if Nat.ltb 0 (length (dr_rules o))
                 then let! r := concatM (fun r => let! s := Rule_to r indent true in Ok (indents ++ s)) (dr_rules o) in
                      Ok (indents ++ nl ++ r)
                 else Ok []) in
  Ok (indents ++ $"(version " ++ fmt (dr_version o) ++ $")" ++ nl ++ rules ++ eol newline).
(** dru.py:258-262: the text of a rules file is wrapped in parentheses before it is parsed *)
Definition dru_wrap (text : str) : str := $"(" ++ text ++ $")".
(** dru.py:266-273 *)
Definition DesignRules_create_new : DesignRules := DesignRules_default <| dr_version := VInt 1 |>.
(** What [from_file] makes of the text that [to_file] writes (dru.py:261-262, 293) *)
Definition DesignRules_file (o : DesignRules) (indent : nat) (newline : bool) : res str :=
  let! s := DesignRules_to o indent newline in Ok (dru_wrap s).
