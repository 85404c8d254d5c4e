(** Specification of how readers collect repeated children into list and dictionary attributes. *)
From Verif Require Import PyBase PyStr.

(** [x] is a list headed by one of the [keys] *)
Definition headed (keys : list String.string) (x : val) : bool :=
  match x with VList (h :: _) => existsb (is_str h) keys | _ => false end.
(** what follows the head of a list *)
Definition args_of (x : val) : list val := match x with VList (_ :: l) => l | _ => [] end.

(** Reading an expression gives an object whose list attribute [p] has one element for every child headed by one of the
    [keys] (behind the first [npos] items), in the order of the children, each read by [f]. *)
Definition collects {A T} (from : val -> res A) (npos : nat) (keys : list String.string) (f : val -> res T) (p : A -> list T) : Prop :=
  forall items o, from (VList items) = Ok o -> mapM f (filter (headed keys) (skipn npos items)) = Ok (p o).
(** The list attribute [p] has one element for every argument of every child headed by one of the [keys], in order, each
    read by [f]. *)
Definition collects_args {A T} (from : val -> res A) (npos : nat) (keys : list String.string) (f : val -> res T) (p : A -> list T) : Prop :=
  forall items o, from (VList items) = Ok o ->
    mapM f (concat (map args_of (filter (headed keys) (skipn npos items)))) = Ok (p o).
(** The list attribute [p] consists of all the arguments of all the children headed by one of the [keys], as they are. *)
Definition copies_args {A} (from : val -> res A) (npos : nat) (keys : list String.string) (p : A -> list val) : Prop :=
  forall items o, from (VList items) = Ok o -> p o = concat (map args_of (filter (headed keys) (skipn npos items))).
(** the reader that belongs to the head of a child *)
Fixpoint by_head {T} (readers : list (String.string * (val -> res T))) (x : val) : res T :=
  match readers with
  | [] => Err EException
  | (k, f) :: readers' => if headed [k] x then f x else by_head readers' x
  end.
(** [f], wrapped by the constructor [c] *)
Definition as_ {A T} (c : A -> T) (f : val -> res A) (x : val) : res T := match f x with Ok a => Ok (c a) | Err e => Err e end.

(** ** Dictionaries *)
(** the key of a pair is equal to [k] in Python's sense *)
Definition key_is {T} (k : val) (kv : val * T) : bool := py_eqb (fst kv) k.
(** the keys of a list of pairs, each at its first occurrence *)
Fixpoint first_keys {T} (seen : list (val * T)) (l : list (val * T)) : list val :=
  match l with
  | [] => []
  | kv :: l' => (if existsb (key_is (fst kv)) seen then [] else [fst kv]) ++ first_keys (seen ++ [kv]) l'
  end.
(** the values of the pairs with the key [k], the last one first *)
Definition values_of {T} (k : val) (l : list (val * T)) : list T := rev (map snd (filter (key_is k) l)).
(** [d] is the dictionary that a list of assignments [d[k] = v] makes: the keys in the order of their first occurrence,
    each with the value that was assigned last *)
Definition dict_of {T} (l : list (val * T)) (d : list (val * T)) : Prop :=
  map fst d = first_keys [] l
  /\ forall k v, In (k, v) d -> exists older, values_of k l = v :: older.
(** Reading an expression gives an object whose dictionary attribute [p] is made of the pairs that [f] finds in the
    children headed by one of the [keys]. *)
Definition collects_dict {A T} (from : val -> res A) (npos : nat) (keys : list String.string) (f : val -> res (val * T)) (p : A -> list (val * T)) : Prop :=
  forall items o, from (VList items) = Ok o ->
    exists l, mapM f (filter (headed keys) (skipn npos items)) = Ok l /\ dict_of l (p o).
(** the second and the third item of a list *)
Definition pair_of (x : val) : res (val * val) := match x with VList (_ :: k :: v :: _) => Ok (k, v) | _ => Err EIndex end.
(** the second item of a list and what its third item holds at position 1 (a letter if that is a string) *)
Definition pair_in (x : val) : res (val * val) :=
  match x with
  | VList (_ :: k :: VList (_ :: v :: _) :: _) => Ok (k, v)
  | VList (_ :: k :: VStr (_ :: c :: _) :: _) => Ok (k, VStr [c])
  | _ => Err EIndex
  end.
