(** Python's [re] module, the fragment that kiutils uses: backtracking with prioritised
    alternatives, greedy and lazy repetition, groups, one-character lookahead and lookbehind.

    This models the Python library, not kiutils.  [run r m] lists every way in which [r] can
    match from the state [m], in the order in which the backtracking matcher tries them; a
    match is the first one. *)
From Verif Require Import PyBase.

(** Position in the subject: the characters before it (nearest first) and behind it, and the
    groups matched so far (latest first). *)
Record mstate := mkm { m_pre : str; m_rest : str; m_caps : list (nat * str) }.

Inductive re :=
| RChr (p : N -> bool)            (* one character of a class *)
| RSeq (a b : re)
| RAlt (a b : re)                 (* a|b *)
| RStar (greedy : bool) (a : re)  (* a* or a*? ; iterations that match the empty text are not repeated *)
| RGroup (n : nat) (a : re)
| RLook (p : N -> bool)           (* (?=c) *)
| RBehind (p : N -> bool)         (* (?<=c) *)
| RBol                            (* ^ without MULTILINE *)
| REol                            (* $ without MULTILINE: at the end, or before a final line break *)
| REps.

Definition RPlus (greedy : bool) (a : re) : re := RSeq a (RStar greedy a).
Definition ROpt (a : re) : re := RAlt a REps.

Definition consumed (m m' : mstate) : str := firstn (length (m_rest m) - length (m_rest m')) (m_rest m).
Definition advances (m m' : mstate) : bool := Nat.ltb (length (m_rest m')) (length (m_rest m)).

(** repetition of [f]; [n] bounds the number of iterations *)
Section Star.
Context (greedy : bool) (f : mstate -> list mstate).
Fixpoint star (n : nat) (m : mstate) : list mstate :=
  match n with
  | O => [m]
  | S n' => let again := flat_map (star n') (filter (advances m) (f m)) in
            if greedy then again ++ [m] else m :: again
  end.
End Star.

Fixpoint run (r : re) (m : mstate) : list mstate :=
  match r with
  | RChr p => match m_rest m with
              | c :: s => if p c then [mkm (c :: m_pre m) s (m_caps m)] else []
              | [] => []
              end
  | RSeq a b => flat_map (run b) (run a m)
  | RAlt a b => run a m ++ run b m
  | RStar g a => star g (run a) (length (m_rest m)) m
  | RGroup n a => map (fun m' => mkm (m_pre m') (m_rest m') ((n, consumed m m') :: m_caps m')) (run a m)
  | RLook p => match m_rest m with c :: _ => if p c then [m] else [] | [] => [] end
  | RBehind p => match m_pre m with c :: _ => if p c then [m] else [] | [] => [] end
  | RBol => match m_pre m with [] => [m] | _ => [] end
  | REol => match m_rest m with
            | [] => [m]
            | c :: s => if N.eqb c 10 then match s with [] => [m] | _ => [] end else []
            end
  | REps => [m]
  end.

(** [re.match(r, s)] *)
Definition re_match (r : re) (s : str) : option mstate :=
  match run r (mkm [] s []) with m :: _ => Some m | [] => None end.
(** [m.group(n)] of a group that took part in the match *)
Fixpoint cap (n : nat) (cs : list (nat * str)) : str :=
  match cs with
  | [] => []
  | (k, t) :: cs' => if Nat.eqb k n then t else cap n cs'
  end.
Definition group (n : nat) (m : mstate) : str := cap n (m_caps m).

(** character classes *)
Definition r_char (c : N) : re := RChr (N.eqb c).
(** [.] without DOTALL: anything but a line break *)
Definition r_dot : re := RChr (fun c => negb (N.eqb c 10)).
