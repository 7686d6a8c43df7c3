(** PhsSpec.v: what appending should do. *)
From Verif Require Import Base PhsModel.

(** growslice makes room. *)
Definition makes_room (grow : nat -> nat -> nat) : Prop := forall c n, (n <= grow c n)%nat.
(** No append is going on. *)
Definition quiet (s : phs) : Prop := Forall (fun a => a = XDone) (x_go s).
(** No append begins before the last one has ended. *)
Definition one_by_one (grow : nat -> nat -> nat) (keep : bool) (ls : list xlabel) : Prop :=
  forall ls1 ls2 s, ls = ls1 ++ XStart :: ls2 -> xrun grow keep ls1 made = Some s -> quiet s.
(** The handlers in the slice. *)
Definition listed (s : phs) : list (option nat) := firstn (x_len s) (nth (x_ptr s) (x_heap s) []).
(** How many connections came to the append. *)
Definition begun (ls : list xlabel) : nat := List.length (filter (fun l => match l with XStart => true | _ => false end) ls).
(** How many steps of the k-th append. *)
Definition steps_of (k : nat) (ls : list xlabel) : nat := List.length (filter (fun l => match l with XGo j _ => Nat.eqb j k | XStart => false end) ls).
