(** DsSpec.v: sequences and finite maps, for the list and set of src/utils/ds. *)
From Verif Require Import Base DsModel.

(** Abstract lists: the payload of every node ever made (node a carries the a-th payload) and,
    per list, the sequence of its nodes. *)
Record alists (T : Type) := mkal { al_data : list T; al_seqs : list (list nat) }.
Arguments mkal {T}. Arguments al_data {T}. Arguments al_seqs {T}.
Definition without (n : nat) (l : list nat) : list nat := filter (fun m => negb (Nat.eqb m n)) l.
Definition seq_of {T} (s : alists T) (k : nat) : list nat := nth k (al_seqs s) [].
Definition astep {T} (s : alists T) (o : lop T) : alists T :=
  match o with
  | LAddData k d => mkal (al_data s ++ [d]) (lupd (al_seqs s) k (List.length (al_data s) :: seq_of s k))
  | LAddNode k n => mkal (al_data s) (lupd (al_seqs s) k (n :: seq_of s k))
  | LRemove k n => mkal (al_data s) (lupd (al_seqs s) k (without n (seq_of s k)))
  | LClear k => mkal (al_data s) (lupd (al_seqs s) k [])
  end.
(** A node may be added when it exists and is in no list, and removed from the list it is in. *)
Definition avalid {T} (s : alists T) (o : lop T) : Prop :=
  match o with
  | LAddData k _ => (k < List.length (al_seqs s))%nat
  | LAddNode k n => (k < List.length (al_seqs s))%nat /\ (n < List.length (al_data s))%nat /\ ~ In n (List.concat (al_seqs s))
  | LRemove k n => (k < List.length (al_seqs s))%nat /\ In n (seq_of s k)
  | LClear k => (k < List.length (al_seqs s))%nat
  end.
Fixpoint avalid_all {T} (s : alists T) (ops : list (lop T)) : Prop :=
  match ops with [] => True | o :: r => avalid s o /\ avalid_all (astep s o) r end.
Definition arun {T} (s : alists T) (ops : list (lop T)) : alists T := fold_left astep ops s.

(** Set: what a history (latest call first) holds under a key: the first element added since
    the key was last removed. *)
Fixpoint held {T} (key : T -> bytes) (hist : list (sop T)) (k : bytes) : option T :=
  match hist with
  | [] => None
  | SAdd x :: h => match held key h k with Some y => Some y | None => if beqb (key x) k then Some x else None end
  | SRem x :: h => if beqb (key x) k then None else held key h k
  end.
