(** Specification of how readers take the value of an attribute from the token that feeds it. *)
From Verif Require Import PyBase PyStr S_Reader.

(** [item[n]] of a list *)
Definition arg (n : nat) (x : val) : res val :=
  match x with VList l => match nth_error l n with Some v => Ok v | None => Err EIndex end | _ => Err EType end.
(** [item[n] == word] *)
Definition arg_is (n : nat) (word : String.string) (x : val) : res bool :=
  match arg n x with Ok v => Ok (is_str v word) | Err e => Err e end.
(** [f(item[n])] *)
Definition in_arg {T} (n : nat) (f : val -> res T) (x : val) : res T :=
  match arg n x with Ok y => f y | Err e => Err e end.
(** a value that does not depend on the item *)
Definition const {T} (v : T) (x : val) : res T := Ok v.

(** [keys] are the tokens that feed the attribute [p].  If the last of them in an accepted expression, behind the first
    [npos] items, is a list headed by [k], then the attribute has the value that [f] finds in that list. *)
Definition picks {A T} (from : val -> res A) (npos : nat) (keys : list String.string) (k : String.string) (f : val -> res T) (p : A -> T) : Prop :=
  forall before args after o,
    npos <= length before -> lacks keys after = true ->
    from (VList (before ++ VList (VStr $k :: args) :: after)) = Ok o ->
    f (VList (VStr $k :: args)) = Ok (p o).
(** The same for the bare word [k]. *)
Definition marks {A T} (from : val -> res A) (npos : nat) (keys : list String.string) (k : String.string) (v : T) (p : A -> T) : Prop :=
  forall before after o,
    npos <= length before -> lacks keys after = true ->
    from (VList (before ++ VStr $k :: after)) = Ok o ->
    p o = v.
(** The same for a list in which the word [stop] begins something else: the tokens behind it do not feed the attribute. *)
Definition picks_until {A T} (from : val -> res A) (npos : nat) (stop : String.string) (keys : list String.string) (k : String.string)
    (f : val -> res T) (p : A -> T) : Prop :=
  forall before args after rest o,
    npos <= length before -> lacks [stop] before = true -> lacks [stop] after = true -> lacks keys after = true ->
    (rest = [] \/ exists rest', rest = VStr $stop :: rest') ->
    from (VList (before ++ VList (VStr $k :: args) :: after ++ rest)) = Ok o ->
    f (VList (VStr $k :: args)) = Ok (p o).
