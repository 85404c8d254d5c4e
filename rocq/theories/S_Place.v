(** Specification of how readers take the value of an attribute from a place in the expression. *)
From Verif Require Import PyBase PyNum PyStr S_Id S_Pick.

(** Whenever an expression is accepted, the attribute [p] is what [f] finds in it, whatever else the expression holds. *)
Definition finds {A T} (from : val -> res A) (f : val -> res T) (p : A -> T) : Prop :=
  forall e o, from e = Ok o -> f e = Ok (p o).
(** the attribute [p] is the item at place [n] *)
Definition stands {A} (from : val -> res A) (n : nat) (p : A -> val) : Prop := finds from (arg n) p.

(** [exp[1] == word and not isinstance(exp[2], list)]: the flag in front of the text of a text box *)
Definition flagged (word : String.string) (e : val) : res bool :=
  match e with
  | VList (_ :: w :: rest) => if is_str w word then match rest with VList _ :: _ => Ok false | _ :: _ => Ok true | [] => Err EIndex end else Ok false
  | _ => Err EIndex
  end.
(** the text behind that flag *)
Definition behind (word : String.string) (e : val) : res val :=
  match flagged word e with Ok true => arg 2 e | Ok false => arg 1 e | Err x => Err x end.
(** [exp[n] if len(exp) > n else None] *)
Definition maybe (n : nat) (e : val) : res val :=
  match e with VList l => Ok (match nth_error l n with Some v => v | None => VNone end) | _ => Err EType end.

(** an item that is a list headed by [k] whose arguments satisfy [c] *)
Definition headed (k : String.string) (c : list val -> bool) (x : val) : bool :=
  match x with VList (h :: l) => is_str h k && c l | _ => false end.
(** The same as [picks] of S_Pick.v for an attribute that is fed by some of the items with a given head only: if [x] is
    the last item behind the first [npos] that [feeds] it, then the attribute is what [f] finds in [x]. *)
Definition picks_item {A T} (from : val -> res A) (npos : nat) (feeds : val -> bool) (f : val -> res T) (p : A -> T) : Prop :=
  forall before x after o,
    npos <= length before -> feeds x = true -> forallb (fun y => negb (feeds y)) after = true ->
    from (VList (before ++ x :: after)) = Ok o -> f x = Ok (p o).

(** The flag [p] is set exactly when one of the items behind the first [npos] sets it. *)
Definition flags {A} (from : val -> res A) (npos : nat) (sets : val -> bool) (p : A -> bool) : Prop :=
  forall l o, from (VList l) = Ok o -> p o = existsb sets (skipn npos l).
(** the bare word [k] *)
Definition word (k : String.string) (x : val) : bool := is_str x k.
(** a list with the head [k] *)
Definition head (k : String.string) : val -> bool := headed k (fun _ => true).

(** the argument behind the name of a layer that marks a text as knocked out *)
Definition knocked (l : list val) : bool := match l with _ :: k :: _ => is_str k "knockout" | _ => false end.
(** the word [hide] among the items *)
Definition hides (l : list val) : bool := existsb (word "hide"%string) l.
(** a property with one of these keys *)
Definition keyed (words : list String.string) (l : list val) : bool := match l with k :: _ => existsb (is_str k) words | [] => false end.
(** the last item of a list with the head [k] *)
Definition last_headed (k : String.string) (l : list val) : option val := find (headed k (fun _ => true)) (rev l).
(** the offset in [(pin_names (offset x) ...)] *)
Definition offset_of (x : val) : res val :=
  match x with VList (_ :: l) => match last_headed "offset"%string l with Some y => arg 1 y | None => Err EIndex end | _ => Err EType end.
(** the clearance in [(connect_pads (clearance x))] and [(connect_pads word (clearance x))]; [at_] is Python's indexing *)
Definition clearance_of (x : val) : res val :=
  match x with VList [_; c] => at_ c 1 | VList (_ :: _ :: c :: _) => at_ c 1 | _ => Err EIndex end.
(** the four attributes into which the identifier [s] of a symbol is taken apart *)
Definition symbol_named (s : str) (nick entry unit style : val) : Prop :=
  (exists n e t, nick_form s n e t /\ nick = VStr n /\ entry = VStr e /\ unit = VNone /\ style = VNone)
  \/ ((forall n e t, ~ nick_form s n e t) /\ exists e u v t, unit_form s e u v t
       /\ nick = VNone /\ entry = VStr e /\ unit = VInt (digits_val u) /\ style = VInt (digits_val v))
  \/ ((forall n e t, ~ nick_form s n e t) /\ (forall e u v t, ~ unit_form s e u v t)
       /\ nick = VNone /\ entry = VStr s /\ unit = VNone /\ style = VNone).
(** the two attributes into which the identifier [s] of a footprint or of a placed symbol is taken apart; [whole] is the
    identifier as it was read *)
Definition nick_named (s : str) (whole nick entry : val) : Prop :=
  (exists n e t, nick_form s n e t /\ nick = VStr n /\ entry = VStr e)
  \/ ((forall n e t, ~ nick_form s n e t) /\ nick = VNone /\ entry = whole).
