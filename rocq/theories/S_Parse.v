(** Specification of written documents, independent of the tokeniser.

    A document is a sequence of pieces (brackets, words, numbers, quoted texts) with white
    space between them.  [gap_ok] says where white space may be left out. *)
From Verif Require Import PyBase PyNum PyStr Sexpr S_Leaf.

Inductive piece :=
| POpen | PClose
| PWord (w : str)      (* a bare word *)
| PNum (v : val)       (* a number as Python prints it *)
| PText (s : str).     (* a text in quotes, escaped with dequote() *)

Definition piece_text (p : piece) : str :=
  match p with
  | POpen => $"("
  | PClose => $")"
  | PWord w => w
  | PNum v => fmt v
  | PText s => quoted (VStr s)
  end.
Definition piece_ok (p : piece) : bool :=
  match p with
  | POpen | PClose => true
  | PWord w => wordb w
  | PNum v => numb v
  | PText s => quotableb s
  end.

(** A document: each piece with the white space behind it. *)
Definition doc := list (piece * str).
Fixpoint render (d : doc) : str :=
  match d with [] => [] | (p, w) :: d' => piece_text p ++ w ++ render d' end.

Definition white (w : str) : bool := forallb is_space w.
(** Is [w] enough to separate the piece from the next one? *)
Definition gap_ok (p : piece) (w : str) (next : option piece) : bool :=
  match p with
  | POpen | PClose => true
  | PWord _ => match w, next with
               | _ :: _, _ => true
               | [], Some POpen | [], Some PClose => true
               | _, _ => false
               end
  | PText _ => match w, next with
               | _ :: _, _ => true
               | [], Some PClose => true
               | _, _ => false
               end
  | PNum _ => match w, next with
              | c :: _, _ => N.eqb c 32       (* only a blank, not a line break *)
              | [], Some PClose => true
              | _, _ => false
              end
  end.
Definition next_of (d : doc) : option piece := match d with [] => None | (p, _) :: _ => Some p end.
Fixpoint doc_ok (d : doc) : bool :=
  match d with
  | [] => true
  | (p, w) :: d' => piece_ok p && white w && gap_ok p w (next_of d') && doc_ok d'
  end.

(** The pieces that spell an expression tree: texts may be quoted or, if they are words, bare;
    an int or a non-integral float is spelled as Python prints it. *)
Inductive spells : val -> list piece -> Prop :=
| spells_word w : spells (VStr w) [PWord w]
| spells_text s : spells (VStr s) [PText s]
| spells_num v : nrm v = v -> spells v [PNum v]
| spells_list l ps : spells_all l ps -> spells (VList l) (POpen :: ps ++ [PClose])
with spells_all : list val -> list piece -> Prop :=
| spells_nil : spells_all [] []
| spells_cons v ps l qs : spells v ps -> spells_all l qs -> spells_all (v :: l) (ps ++ qs).

(** Bracket structure of a token sequence. *)
Definition opens (ts : list tok) : nat := length (filter (fun t => match t with TL => true | _ => false end) ts).
Definition closes (ts : list tok) : nat := length (filter (fun t => match t with TR => true | _ => false end) ts).
Definition balanced (ts : list tok) : Prop :=
  opens ts = closes ts /\ forall p q, ts = p ++ q -> closes p <= opens p.
