(** Specification of what readers do with missing tokens and with the order of tokens. *)
From Verif Require Import PyBase PyStr S_Tree.

(** [x] is the bare word [k] or a list with the head [k]. *)
Definition token (k : String.string) (x : val) : bool :=
  match x with VList (h :: _) => is_str h k | _ => is_str x k end.
(** none of the [keys] occurs among the [items] *)
Definition lacks (keys : list String.string) (items : list val) : bool :=
  forallb (fun x => negb (existsb (fun k => token k x) keys)) items.
(** Reading an expression in which none of the [keys] occurs gives an object whose attribute [p] has the value [d]. *)
Definition absent {A T} (from : val -> res A) (keys : list String.string) (p : A -> T) (d : T) : Prop :=
  forall items o, lacks keys items = true -> from (VList items) = Ok o -> p o = d.

(** the reader gives an object (for the examples) *)
Definition accepts {A} (from : val -> res A) (e : val) : bool := match from e with Ok _ => true | Err _ => false end.

(** [x] is one of the [keys] or a list headed by one of them *)
Definition touches (keys : list String.string) (x : val) : bool := existsb (fun k => token k x) keys.
(** Each group lists the tokens that feed one attribute (or attributes that depend on each other). *)
Definition apart (groups : list (list String.string)) (x y : val) : bool :=
  forallb (fun g => negb (touches g x && touches g y)) groups.
(** Exchanging two neighbouring items that have no group in common, anywhere behind the first [npos] arguments, makes
    no difference to the object. *)
Definition swaps {A} (from : val -> res A) (npos : nat) (groups : list (list String.string)) : Prop :=
  forall h before x y after o,
    npos <= length before -> apart groups x y = true ->
    from (VList (h :: before ++ x :: y :: after)) = Ok o ->
    from (VList (h :: before ++ y :: x :: after)) = Ok o.
