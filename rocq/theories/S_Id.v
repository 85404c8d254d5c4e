(** Specification: the two shapes of identifier that are taken apart, [nickname:entry] and
    [entry_unit_style]. *)
From Verif Require Import PyBase PyNum.

(** a text without line break *)
Definition oneline (s : str) : bool := forallb (fun c => negb (N.eqb c 10)) s.
(** what may be left over at the end: nothing, or one line break *)
Definition final (t : str) : Prop := t = [] \/ t = nl.

(** [s] is [n:e] (plus possibly one line break); the colon is the first one that is not the
    first character *)
Definition nick_form (s n e t : str) : Prop :=
  s = n ++ $":" ++ e ++ t /\ n <> [] /\ e <> [] /\ oneline n = true /\ oneline e = true
  /\ existsb (N.eqb 58) (tl n) = false /\ final t.
(** [s] is [e_u_v] (plus possibly one line break), [u] and [v] numbers *)
Definition unit_form (s e u v t : str) : Prop :=
  s = e ++ $"_" ++ u ++ $"_" ++ v ++ t /\ e <> [] /\ oneline e = true
  /\ u <> [] /\ forallb is_digit u = true /\ v <> [] /\ forallb is_digit v = true /\ final t.
(** decimal notation without leading zeros, in ASCII digits *)
Definition decimal (u : str) : bool :=
  forallb ascii_digit u && match u with [] => false | [_] => true | c :: _ => negb (N.eqb c 48) end.
(** The identifiers that do not survive: a trailing line break is lost, and unit numbers are
    normalised. *)
Definition lossy (s : str) : Prop :=
  (exists n e, nick_form s n e nl)
  \/ ((forall n e t, ~ nick_form s n e t)
      /\ exists e u v t, unit_form s e u v t /\ (t = nl \/ decimal u = false \/ decimal v = false)).

