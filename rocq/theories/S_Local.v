(** Specification of how readers fail: item by item. *)
From Verif Require Import PyBase PyStr S_Reader.

(** the exception of a result, if any *)
Definition error {A} (r : res A) : option exn := match r with Ok _ => None | Err e => Some e end.
(** the exception of the first of the [items] that has one *)
Fixpoint first_error (f : val -> option exn) (items : list val) : option exn :=
  match items with
  | [] => None
  | x :: items' => match f x with Some e => Some e | None => first_error f items' end
  end.
(** Behind an accepted expression with at least [npos] arguments, further items are accepted exactly if each of them is
    accepted alone; otherwise the exception is that of the first item that is not. *)
Definition itemwise {A} (from : val -> res A) (npos : nat) : Prop :=
  forall h before items,
    npos <= length before -> accepts from (VList (h :: before)) = true ->
    error (from (VList (h :: before ++ items))) = first_error (fun x => error (from (VList (h :: before ++ [x])))) items.
