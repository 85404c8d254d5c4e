(** Formatting values into text and utils/strings.py. *)
From Verif Require Import PyBase PyNum.

(** [s.replace(a, b)] for a one-character [a] *)
Fixpoint replace1 (a : N) (b : str) (s : str) : str :=
  match s with
  | [] => []
  | c :: s' => (if N.eqb c a then b else [c]) ++ replace1 a b s'
  end.
(** [s.replace(ab, b)] for a two-character pattern: leftmost, non-overlapping *)
Fixpoint replace2 (a1 a2 : N) (b : str) (s : str) : str :=
  match s with
  | [] => []
  | c :: s' =>
      match s' with
      | d :: s'' => if (N.eqb c a1 && N.eqb d a2)%bool then b ++ replace2 a1 a2 b s''
                    else c :: replace2 a1 a2 b s'
      | [] => [c]
      end
  end.

Definition dquote : N := 34.     (* the character double quote *)
Definition bslash : N := 92.     (* the character backslash *)

(** [repr(s)] of a str, used only inside the text of a printed list.
    Simplification: of the non-printable characters only newline, carriage return and tab are
    escaped. *)
Definition repr_str (s : str) : str :=
  let q := if existsb (N.eqb 39) s && negb (existsb (N.eqb 34) s) then 34%N else 39%N in
  [q] ++ flat_map (fun c =>
            if N.eqb c 92 then [92; 92]%N
            else if N.eqb c q then [92%N; c]
            else if N.eqb c 10 then [92; 110]%N
            else if N.eqb c 13 then [92; 114]%N
            else if N.eqb c 9 then [92; 116]%N
            else [c]) s ++ [q].

Fixpoint join (sep : str) (l : list str) : str :=
  match l with
  | [] => []
  | [x] => x
  | x :: l' => x ++ sep ++ join sep l'
  end.

(** [repr(v)] *)
Fixpoint repr_val (v : val) : str :=
  match v with
  | VNone => $"None"
  | VBool b => if b then $"True" else $"False"
  | VInt z => int_str z
  | VFloat f => float_str f
  | VStr s => repr_str s
  | VList l => $"[" ++ join $", " (map repr_val l) ++ $"]"
  end.
(** [str(v)], which is also what [f'{v}'] inserts *)
Definition fmt (v : val) : str :=
  match v with
  | VStr s => s
  | _ => repr_val v
  end.

(** utils/strings.py:13-22 dequote: str(input).replace("\"", "\\\"") *)
Definition dequote (v : val) : str := replace1 dquote [bslash; dquote] (fmt v).

(** The f-string fragment ["{dequote(x)}"] including the quotes, used all over the writers. *)
Definition quoted (v : val) : str := [dquote] ++ dequote v ++ [dquote].

(** utils/strings.py:25-35 remove_prefix *)
Fixpoint is_prefix (p s : str) : bool :=
  match p, s with
  | [], _ => true
  | x :: p', y :: s' => N.eqb x y && is_prefix p' s'
  | _, _ => false
  end.
Definition remove_prefix (s p : str) : str :=
  if is_prefix p s then skipn (length p) s else s.

(** [' ' * indent] *)
Definition spaces (n : nat) : str := repeat 32%N n.
(** ['\n' if newline else ''] *)
Definition eol (newline : bool) : str := if newline then nl else [].
(** The f-string fragment ["{x}"]: quoted, but without escaping *)
Definition rawq (v : val) : str := [dquote] ++ fmt v ++ [dquote].
