(** Specification for C46: what from_file makes of a file and what to_file puts into it. *)
From Verif Require Import PyBase PyNum PyStr Sexpr M_File.

(** [t] is [s] with its line feeds written as LF, CR LF or CR (a CR that is followed by a LF
    counts as one break with it). *)
Inductive breaks : str -> str -> Prop :=
| breaks_end : breaks [] []
| breaks_char c s t : c <> 10%N -> c <> 13%N -> breaks s t -> breaks (c :: s) (c :: t)
| breaks_lf s t : breaks s t -> breaks (10 :: s)%N (10 :: t)%N
| breaks_crlf s t : breaks s t -> breaks (10 :: s)%N (13 :: 10 :: t)%N
| breaks_cr s t : hd_error t <> Some 10%N -> breaks s t -> breaks (10 :: s)%N (13 :: t)%N.

(** Loading depends on nothing but the path and the text of the file, whose line breaks may be of
    any kind: the text is parsed and read, an exception is passed on, and the result remembers
    what [remember] says. *)
Definition loads_text {A} (from_file : world -> option codec -> str -> fres A) (wrap : str -> str) (from : val -> res A)
    (remember : str -> A -> A) : Prop :=
  forall w encoding p b s t, w_files w p = Some b -> w_readable w p = true ->
    decode (match encoding with Some c => c | None => w_platform w end) b = Some t -> breaks s t ->
    (forall e, parse_sexp (wrap s) = Err e -> from_file w encoding p = FErr (FPy e))
    /\ (forall v, parse_sexp (wrap s) = Ok v ->
          (forall e, from v = Err e -> from_file w encoding p = FErr (FPy e))
          /\ (forall o, from v = Ok o -> from_file w encoding p = FOk (remember p o))).

(** Saving puts the text of the object, encoded, into the file and changes nothing else. *)
Definition saves_text {A E} (enc_of : E -> option codec) (to_file : world -> A -> option str -> E -> world * fres unit) (text : A -> res str) : Prop :=
  forall w o p e s b, w_writable w p = true -> text o = Ok s ->
    encode (match enc_of e with Some c => c | None => w_platform w end) s = Some b ->
    exists w', to_file w o (Some p) e = (w', FOk tt) /\ w_files w' p = Some b
      /\ (forall q, q <> p -> w_files w' q = w_files w q)
      /\ w_readable w' = w_readable w /\ w_writable w' = w_writable w /\ w_platform w' = w_platform w.
