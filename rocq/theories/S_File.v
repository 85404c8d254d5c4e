(** Specification of saving and loading, independent of the classes. *)
From Verif Require Import PyBase PyNum PyStr Sexpr S_Leaf S_Tree M_File.

(** What was encoded can be decoded. *)
Definition faithful (c : codec) : Prop := forall s b, encode c s = Some b -> decode c b = Some s.
(** no carriage return *)
Definition no_cr (s : str) : bool := forallb (fun c => negb (N.eqb c 13)) s.
(** Only the file [p] may differ. *)
Definition only_changes (p : str) (w w' : world) : Prop :=
  (forall q, q <> p -> w_files w' q = w_files w q) /\ w_readable w' = w_readable w /\ w_writable w' = w_writable w /\ w_platform w' = w_platform w.

(** The methods take an argument [e] that says which encoding to use: [enc_of e]. *)
(** Saving a printable object to a path and loading it from there with the same encoding gives [expected], which is
    equal to the object with its path set; no other file changes. *)
Definition saves_and_loads {A E} (enc_of : E -> option codec) (to_file : world -> A -> option str -> E -> world * fres unit)
    (from_file : world -> option codec -> str -> fres A) (text : A -> res str) (ok : A -> bool) (same : A -> A -> bool)
    (at_path : A -> str -> A) (expected : A -> str -> A) : Prop :=
  forall w e p o, let encoding := enc_of e in ok o = true -> faithful (codec_of w encoding) -> w_writable w p = true -> w_readable w p = true ->
    same (at_path o p) (expected o p) = true /\
    exists s, text o = Ok s /\
      forall b, no_cr s = true -> encode (codec_of w encoding) s = Some b ->
      exists w', to_file w o (Some p) e = (w', FOk tt) /\ only_changes p w w' /\ w_files w' p = Some b
        /\ from_file w' encoding p = FOk (expected o p).

(** Loading never fails silently: without the file it raises, and so it does when the file cannot be read or decoded. *)
Definition load_needs_file {A} (from_file : world -> option codec -> str -> fres A) : Prop :=
  (forall w encoding p, w_files w p = None -> from_file w encoding p = FErr (FPy EException))
  /\ (forall w encoding p b, w_files w p = Some b -> w_readable w p = false -> from_file w encoding p = FErr FOs)
  /\ (forall w encoding p b, w_files w p = Some b -> w_readable w p = true -> decode (codec_of w encoding) b = None -> from_file w encoding p = FErr FUnicode).

(** Saving never touches another file than its target; without a target or the right to write nothing changes at all. *)
Definition touches_target {A E} (to_file : world -> A -> option str -> E -> world * fres unit) (self_path : A -> val) : Prop :=
  (forall w o p encoding, only_changes p w (fst (to_file w o (Some p) encoding)))
  /\ (forall w o p encoding, self_path o = VStr p -> to_file w o None encoding = to_file w o (Some p) encoding)
  /\ (forall w o encoding, self_path o = VNone -> to_file w o None encoding = (w, FErr (FPy EException)))
  /\ (forall w o p encoding, w_writable w p = false -> to_file w o (Some p) encoding = (w, FErr FOs)).

(** If the object cannot be written or its text cannot be encoded, saving raises and the target is empty afterwards. *)
Definition save_destroys {A E} (enc_of : E -> option codec) (to_file : world -> A -> option str -> E -> world * fres unit) (text : A -> res str) : Prop :=
  forall w o p encoding, w_writable w p = true ->
    (forall e, text o = Err e -> exists w', to_file w o (Some p) encoding = (w', FErr (FPy e)) /\ w_files w' p = Some [])
    /\ (forall s, text o = Ok s -> encode (codec_of w (enc_of encoding)) s = None ->
          exists w', to_file w o (Some p) encoding = (w', FErr FUnicode) /\ w_files w' p = Some []).

(** *** Histories *)
Inductive fop (A E : Type) :=
| OLoad (encoding : option codec) (p : str)
| OEdit (f : A -> A)
| OSave (filepath : option str) (encoding : E).
Arguments OLoad {A E}. Arguments OEdit {A E}. Arguments OSave {A E}.
Section Run.
Context {A E : Type} (to_file : world -> A -> option str -> E -> world * fres unit) (from_file : world -> option codec -> str -> fres A).
(** the object in hand, if any, and the files; an operation that raises leaves the object in hand *)
Definition frun1 (st : world * option A) (op : fop A E) : world * option A :=
  let (w, o) := st in
  match op with
  | OLoad encoding p => match from_file w encoding p with FOk o' => (w, Some o') | FErr _ => (w, o) end
  | OEdit f => (w, option_map f o)
  | OSave filepath encoding => match o with Some x => (fst (to_file w x filepath encoding), o) | None => (w, o) end
  end.
Definition frun (st : world * option A) (ops : list (fop A E)) : world * option A := fold_left frun1 ops st.
End Run.
(** operations on the object after it was loaded: edits that leave filePath alone, and saves *)
Definition keeps_path {A E} (self_path : A -> val) (op : fop A E) : Prop :=
  match op with
  | OLoad _ _ => False
  | OEdit f => forall o, self_path (f o) = self_path o
  | OSave _ _ => True
  end.
(** the paths a save can touch *)
Definition targets {A E} (p : str) (op : fop A E) : list str :=
  match op with OSave (Some q) _ => [q] | OSave None _ => [p] | _ => [] end.
(** After loading from [p] and any number of edits and saves, saving without a path is saving to [p],
    and the only files touched are [p] and the paths that were given. *)
Definition remembers_path {A E} (to_file : world -> A -> option str -> E -> world * fres unit) (from_file : world -> option codec -> str -> fres A)
    (self_path : A -> val) : Prop :=
  forall w encoding p o ops, from_file w encoding p = FOk o -> Forall (keeps_path self_path) ops ->
    exists w' o', frun to_file from_file (w, Some o) ops = (w', Some o')
      /\ self_path o' = VStr p
      /\ (forall w encoding, to_file w o' None encoding = to_file w o' (Some p) encoding)
      /\ (forall q, ~ In q (flat_map (targets p) ops) -> w_files w' q = w_files w q).

(** ** UTF-8 *)
Definition utf8_char (n : N) : option (list N) :=
  if N.ltb n 128 then Some [n]
  else if N.ltb n 2048 then Some [192 + n / 64; 128 + n mod 64]%N
  else if N.ltb n 65536 then if N.leb 55296 n && N.leb n 57343 then None else Some [224 + n / 4096; 128 + (n / 64) mod 64; 128 + n mod 64]%N
  else if N.ltb n 1114112 then Some [240 + n / 262144; 128 + (n / 4096) mod 64; 128 + (n / 64) mod 64; 128 + n mod 64]%N
  else None.
Fixpoint utf8_encode (s : str) : option (list N) :=
  match s with
  | [] => Some []
  | c :: r => match utf8_char c, utf8_encode r with Some a, Some b => Some (a ++ b) | _, _ => None end
  end.
Definition cont (c : N) : bool := N.leb 128 c && N.ltb c 192.
(* strict: overlong forms, surrogates and numbers above 0x10FFFF are refused *)
Fixpoint utf8_decode (b : list N) : option str :=
  match b with
  | [] => Some []
  | c :: r =>
      let out n r := if match utf8_char n with Some _ => true | None => false end then option_map (cons n) r else None in
      if N.ltb c 128 then option_map (cons c) (utf8_decode r)
      else if N.ltb c 192 then None
      else match r with
      | [] => None
      | c1 :: r =>
          if negb (cont c1) then None else
          if N.ltb c 224 then
            let n := (64 * (c - 192) + (c1 - 128))%N in
            if N.ltb n 128 then None else out n (utf8_decode r)
          else match r with
          | [] => None
          | c2 :: r =>
              if negb (cont c2) then None else
              if N.ltb c 240 then
                let n := (4096 * (c - 224) + 64 * (c1 - 128) + (c2 - 128))%N in
                if N.ltb n 2048 then None else out n (utf8_decode r)
              else match r with
              | [] => None
              | c3 :: r =>
                  if negb (cont c3) then None else
                  let n := (262144 * (c - 240) + 4096 * (c1 - 128) + 64 * (c2 - 128) + (c3 - 128))%N in
                  if N.ltb n 65536 then None else out n (utf8_decode r)
              end
          end
      end
  end.
Definition utf8 : codec := mkCodec utf8_encode utf8_decode.
(** ** Latin-1: one byte for each of the first 256 characters *)
Definition latin1 : codec := mkCodec (fun s => if forallb (fun c => N.ltb c 256) s then Some s else None) (fun b => Some b).
