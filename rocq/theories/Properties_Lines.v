(** Property theorems C46: a file is its text. *)
From Verif Require Import PyBase PyNum PyStr Sexpr M_Common M_Lib M_Sym M_Footprint M_Board M_Schematic M_Wks M_File S_File S_Lines L_Lines.

Theorem C46_LibTable_load : loads_text LibTable_from_file (fun s => s) LibTable_from (fun p o => o <| lt_filePath := VStr p |>).
Proof. exact LibTable_lines. Qed.
Theorem C46_LibTable_save : saves_text (fun e => e) LibTable_to_file (fun o => LibTable_to o 0 true).
Proof. exact LibTable_puts. Qed.
Print Assumptions C46_LibTable_load.
Print Assumptions C46_LibTable_save.

(** no encoding can be given when saving *)
Theorem C46_WorkSheet_load : loads_text WorkSheet_from_file (fun s => s) WorkSheet_from (fun p o => o <| wk_filePath := VStr p |>).
Proof. exact WorkSheet_lines. Qed.
Theorem C46_WorkSheet_save : saves_text (fun _ => None) (fun w o f (_ : unit) => WorkSheet_to_file w o f) (fun o => WorkSheet_to o 0 true).
Proof. exact WorkSheet_puts. Qed.
Print Assumptions C46_WorkSheet_load.
Print Assumptions C46_WorkSheet_save.

Theorem C46_Board_load : forall now, loads_text (Board_from_file now) (fun s => s) (Board_from now) (fun p o => o <| bd_filePath := VStr p |>).
Proof. exact Board_lines. Qed.
Theorem C46_Board_save : saves_text (fun e => e) Board_to_file (fun o => Board_to o 0 true).
Proof. exact Board_puts. Qed.
Print Assumptions C46_Board_load.
Print Assumptions C46_Board_save.

Theorem C46_SymbolLib_load : loads_text SymbolLib_from_file (fun s => s) SymbolLib_from (fun p o => o <| sj_filePath := VStr p |>).
Proof. exact SymbolLib_lines. Qed.
Theorem C46_SymbolLib_save : saves_text (fun e => e) SymbolLib_to_file (fun o => SymbolLib_to o 0 true).
Proof. exact SymbolLib_puts. Qed.
Print Assumptions C46_SymbolLib_load.
Print Assumptions C46_SymbolLib_save.

Theorem C46_Schematic_load : loads_text Schematic_from_file (fun s => s) Schematic_from (fun p o => o <| sc_filePath := VStr p |>).
Proof. exact Schematic_lines. Qed.
Theorem C46_Schematic_save : saves_text (fun e => e) Schematic_to_file (fun o => Schematic_to o 0 true).
Proof. exact Schematic_puts. Qed.
Print Assumptions C46_Schematic_load.
Print Assumptions C46_Schematic_save.

(** the text of a rules file is put into brackets *)
Theorem C46_DesignRules_load : loads_text DesignRules_from_file (fun s => $"(" ++ s ++ $")") DesignRules_from (fun p o => o <| dr_filePath := VStr p |>).
Proof. exact DesignRules_lines. Qed.
Theorem C46_DesignRules_save : saves_text (fun e => e) DesignRules_to_file (fun o => DesignRules_to o 0 false).
Proof. exact DesignRules_puts. Qed.
Print Assumptions C46_DesignRules_load.
Print Assumptions C46_DesignRules_save.

(** the path is not remembered (see C33_Footprint_refuted) *)
Theorem C46_Footprint_load : forall now, loads_text (Footprint_from_file now) (fun s => s) (Footprint_from now) (fun _ o => o).
Proof. exact Footprint_lines. Qed.
Theorem C46_Footprint_save : saves_text (fun e => e) Footprint_to_file (fun o => Footprint_to o 0 true).
Proof. exact Footprint_puts. Qed.
Print Assumptions C46_Footprint_load.
Print Assumptions C46_Footprint_save.

(** A file with all three kinds of line breaks. *)
Example C46_unix : str := $"(fp_lib_table" ++ [10]%N ++ $"(lib (name a)" ++ [10]%N ++ $"(type b) (uri c) (options """") (descr """")" ++ [10]%N ++ $"))".
Example C46_mixed : str := $"(fp_lib_table" ++ [13; 10]%N ++ $"(lib (name a)" ++ [13]%N ++ $"(type b) (uri c) (options """") (descr """")" ++ [10]%N ++ $"))".
Example C46_breaks : breaks C46_unix C46_mixed.
Proof.
  unfold C46_unix, C46_mixed. cbn.
  repeat (first [ apply breaks_end | apply breaks_crlf | apply breaks_lf | apply breaks_cr; [discriminate|] | apply breaks_char; [discriminate|discriminate|] ]).
Qed.
Example C46_ex : match (let! v := parse_sexp C46_unix in LibTable_from v) with Ok o => match lt_libs o with [l] => py_eqb (lb_name l) (VStr $"a") | _ => false end | Err _ => false end = true.
Proof. vm_compute. reflexivity. Qed.
