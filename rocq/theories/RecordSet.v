(** Functional record update [r <| field := v |>] (pure notation, no model content).
    [settable! mk <f1; ..; fn>] registers the fields of a record once. *)
Definition Reader (E T : Type) := E -> T.
Definition pureR {E T} (x : T) : Reader E T := fun _ => x.
Definition apR {E A B} (f : Reader E (A -> B)) (x : Reader E A) : Reader E B := fun e => f e (x e).

Class Settable (T : Type) := mkT : Reader T T.
Arguments mkT T mk : clear implicits, rename.

Class Setter {R T : Type} (proj : R -> T) := set : (T -> T) -> R -> R.
Arguments set {R T} proj {Setter}.

Ltac get_setter T proj :=
  match constr:(mkT T _) with
  | mkT _ ?inst =>
    let eta := eval cbv beta iota delta [inst mkT pureR apR] in (mkT T inst) in
    match eval pattern proj in eta with
    | ?upd _ =>
      let s := constr:(fun f => upd (fun r => f (proj r))) in
      let s := eval cbv beta in s in
      exact s
    end
  end.

Global Hint Extern 1 (@Setter ?T _ ?proj) => get_setter T proj : typeclass_instances.

Declare Scope record_set.
Delimit Scope record_set with rs.
Open Scope record_set.
Notation "x <| proj := v |>" := (set proj (fun _ => v) x)
  (at level 12, left associativity, format "x  <| proj  :=  v |>") : record_set.

Notation "'settable!' mk < f1 ; .. ; fn >" :=
  ((apR .. (apR (pureR mk) f1) .. fn) : Settable _)
  (at level 0, mk at level 10, f1 at level 9, fn at level 9, only parsing) : record_set.
