(** Specification for C40: which characters separate terms, and that nothing else is dropped. *)
From Verif Require Import PyBase PyRe M_Lexer.

(** The characters of Python's str.isspace(), one by one. *)
Definition white_space : list N :=
  [9; 10; 11; 12; 13; 28; 29; 30; 31; 32; 133; 160; 5760;
   8192; 8193; 8194; 8195; 8196; 8197; 8198; 8199; 8200; 8201; 8202;
   8232; 8233; 8239; 8287; 12288]%N.

(** A term: a bracket, something in quotes, or a run of other characters. *)
Definition term_text (w : str) : Prop :=
  w = [40]%N \/ w = [41]%N \/ (exists b, w = 34%N :: b ++ [34%N])
  \/ (w <> [] /\ forall c, In c w -> ~ In c [40; 41; 94]%N /\ ~ In c white_space).

(** [s] consists of the terms [ws] in this order, with nothing but white space and carets in
    front of, between and behind them. *)
Inductive made_of : str -> list str -> Prop :=
| made_end : made_of [] []
| made_gap c s ws : c = 94%N \/ In c white_space -> made_of s ws -> made_of (c :: s) ws
| made_term w s ws : term_text w -> made_of s ws -> made_of (w ++ s) (w :: ws).
(** The text of a match. *)
Definition term_str (m : mstate) : str := match term_value m with Some (_, t) => t | None => [] end.
