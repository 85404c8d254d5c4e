(** Model of the from_file and to_file methods of the seven file classes, and of the part of the
    operating system they use. *)
From Verif Require Import PyBase PyNum PyStr Sexpr M_Common M_Lib M_Sym M_Footprint M_Board M_Schematic M_Wks.

(** ** Environment *)
(** An encoding: text to bytes and back; [None] is a UnicodeError. *)
Record codec := mkCodec { encode : str -> option (list N); decode : list N -> option str }.
(** The files with their contents (directories and permissions reduced to: may the path be opened
    for reading or writing), and the platform's encoding used by [open(.., encoding=None)]. *)
Record world := mkWorld {
  w_files : str -> option (list N);
  w_readable : str -> bool;
  w_writable : str -> bool;
  w_platform : codec }.
#[export] Instance eta_world : Settable world := settable! mkWorld <w_files; w_readable; w_writable; w_platform>.
(** exceptions: those of the library, OSError and UnicodeError *)
Inductive fexn := FPy (e : exn) | FOs | FUnicode.
Inductive fres (A : Type) := FOk (a : A) | FErr (e : fexn).
Arguments FOk {A} a.
Arguments FErr {A} e.
Definition fbind {A B} (m : fres A) (f : A -> fres B) : fres B := match m with FOk a => f a | FErr e => FErr e end.
Notation "'letf' x ':=' m 'in' k" := (fbind m (fun x => k)) (at level 200, x pattern, m at level 100, k at level 200, right associativity).
Definition lift {A} (m : res A) : fres A := match m with Ok a => FOk a | Err e => FErr (FPy e) end.

Definition codec_of (w : world) (encoding : option codec) : codec := match encoding with Some c => c | None => w_platform w end.
Definition put_file (w : world) (p : str) (b : list N) : world :=
  w <| w_files := fun q => if str_eqb q p then Some b else w_files w q |>.
(** [os.path.isfile(p)] *)
Definition isfile (w : world) (p : str) : bool := match w_files w p with Some _ => true | None => false end.
(** Text mode with [newline=None]: CR LF and a lone CR are read as LF. *)
Fixpoint universal_newlines (s : str) : str :=
  match s with
  | [] => []
  | c :: r => if N.eqb c 13 then 10%N :: match r with d :: r' => if N.eqb d 10 then universal_newlines r' else universal_newlines r | [] => [] end
              else c :: universal_newlines r
  end.
(** [with open(p, 'r', encoding=encoding) as infile: infile.read()] *)
Definition read_text (w : world) (encoding : option codec) (p : str) : fres str :=
  if negb (w_readable w p) then FErr FOs else
  match w_files w p with
  | None => FErr FOs
  | Some b => match decode (codec_of w encoding) b with Some s => FOk (universal_newlines s) | None => FErr FUnicode end
  end.
(** [with open(p, 'w', encoding=encoding) as outfile: outfile.write(self.to_sexpr())]: opening empties
    the file; the text is made afterwards and encoded as a whole.  POSIX: LF is written as it is.
    Simplification: a write that was accepted reaches the disk. *)
Definition write_text (w : world) (encoding : option codec) (p : str) (text : res str) : world * fres unit :=
  if negb (w_writable w p) then (w, FErr FOs) else
  let w := put_file w p [] in
  match text with
  | Err e => (w, FErr (FPy e))
  | Ok s => match encode (codec_of w encoding) s with
            | None => (w, FErr FUnicode)
            | Some b => (put_file w p b, FOk tt)
            end
  end.
(** [if filepath is None: if self.filePath is None: raise Exception; filepath = self.filePath].
    Simplification: a filePath that is not a str is refused (Python would accept a file descriptor). *)
Definition target (filepath : option str) (self_path : val) : fres str :=
  match filepath with
  | Some p => FOk p
  | None => match self_path with
            | VNone => FErr (FPy EException)
            | VStr p => FOk p
            | _ => FErr (FPy EType)
            end
  end.

(** libraries.py:143-165 *)
Definition LibTable_from_file (w : world) (encoding : option codec) (p : str) : fres LibTable :=
  if negb (isfile w p) then FErr (FPy EException) else
  letf text := read_text w encoding p in
  letf exp := lift (parse_sexp text) in
  letf o := lift (LibTable_from exp) in
  FOk (o <| lt_filePath := VStr p |>).
(** libraries.py:179-197 *)
Definition LibTable_to_file (w : world) (o : LibTable) (filepath : option str) (encoding : option codec) : world * fres unit :=
  match target filepath (lt_filePath o) with
  | FErr e => (w, FErr e)
  | FOk p => write_text w encoding p (LibTable_to o 0 true)
  end.

(** wks.py:889-911 *)
Definition WorkSheet_from_file (w : world) (encoding : option codec) (p : str) : fres WorkSheet :=
  if negb (isfile w p) then FErr (FPy EException) else
  letf text := read_text w encoding p in
  letf exp := lift (parse_sexp text) in
  letf o := lift (WorkSheet_from exp) in
  FOk (o <| wk_filePath := VStr p |>).
(** wks.py:925-941: no encoding can be given *)
Definition WorkSheet_to_file (w : world) (o : WorkSheet) (filepath : option str) : world * fres unit :=
  match target filepath (wk_filePath o) with
  | FErr e => (w, FErr e)
  | FOk p => write_text w None p (WorkSheet_to o 0 true)
  end.

(** board.py:149-171 *)
Definition Board_from_file (now : val) (w : world) (encoding : option codec) (p : str) : fres Board :=
  if negb (isfile w p) then FErr (FPy EException) else
  letf text := read_text w encoding p in
  letf exp := lift (parse_sexp text) in
  letf o := lift (Board_from now exp) in
  FOk (o <| bd_filePath := VStr p |>).
(** board.py:223-241 *)
Definition Board_to_file (w : world) (o : Board) (filepath : option str) (encoding : option codec) : world * fres unit :=
  match target filepath (bd_filePath o) with
  | FErr e => (w, FErr e)
  | FOk p => write_text w encoding p (Board_to o 0 true)
  end.

(** symbol.py:503-525 *)
Definition SymbolLib_from_file (w : world) (encoding : option codec) (p : str) : fres SymbolLib :=
  if negb (isfile w p) then FErr (FPy EException) else
  letf text := read_text w encoding p in
  letf exp := lift (parse_sexp text) in
  letf o := lift (SymbolLib_from exp) in
  FOk (o <| sj_filePath := VStr p |>).
(** symbol.py:555-573 *)
Definition SymbolLib_to_file (w : world) (o : SymbolLib) (filepath : option str) (encoding : option codec) : world * fres unit :=
  match target filepath (sj_filePath o) with
  | FErr e => (w, FErr e)
  | FOk p => write_text w encoding p (SymbolLib_to o 0 true)
  end.

(** schematic.py:174-196 *)
Definition Schematic_from_file (w : world) (encoding : option codec) (p : str) : fres Schematic :=
  if negb (isfile w p) then FErr (FPy EException) else
  letf text := read_text w encoding p in
  letf exp := lift (parse_sexp text) in
  letf o := lift (Schematic_from exp) in
  FOk (o <| sc_filePath := VStr p |>).
(** schematic.py:212-230 *)
Definition Schematic_to_file (w : world) (o : Schematic) (filepath : option str) (encoding : option codec) : world * fres unit :=
  match target filepath (sc_filePath o) with
  | FErr e => (w, FErr e)
  | FOk p => write_text w encoding p (Schematic_to o 0 true)
  end.

(** dru.py:240-264 *)
Definition DesignRules_from_file (w : world) (encoding : option codec) (p : str) : fres DesignRules :=
  if negb (isfile w p) then FErr (FPy EException) else
  letf text := read_text w encoding p in
  letf exp := lift (parse_sexp (dru_wrap text)) in
  letf o := lift (DesignRules_from exp) in
  FOk (o <| dr_filePath := VStr p |>).
(** dru.py:275-293 *)
Definition DesignRules_to_file (w : world) (o : DesignRules) (filepath : option str) (encoding : option codec) : world * fres unit :=
  match target filepath (dr_filePath o) with
  | FErr e => (w, FErr e)
  | FOk p => write_text w encoding p (DesignRules_to o 0 false)
  end.

(** footprint.py:912-935 (does not set filePath) *)
Definition Footprint_from_file (now : val) (w : world) (encoding : option codec) (p : str) : fres Footprint :=
  if negb (isfile w p) then FErr (FPy EException) else
  letf text := read_text w encoding p in
  letf exp := lift (parse_sexp text) in
  letf o := lift (Footprint_from now exp) in
  FOk o.
(** footprint.py:989-1007 *)
Definition Footprint_to_file (w : world) (o : Footprint) (filepath : option str) (encoding : option codec) : world * fres unit :=
  match target filepath (fd_filePath o) with
  | FErr e => (w, FErr e)
  | FOk p => write_text w encoding p (Footprint_to o 0 true)
  end.
