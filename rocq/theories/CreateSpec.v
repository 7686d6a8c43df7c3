(** CreateSpec.v: cutting a byte string into pieces, by position. *)
From Verif Require Import Base LayoutModel LayoutSpec.

(** The consecutive P-byte pieces of l; the last may be shorter. *)
Definition pieces_of (P : Z) (l : bytes) : list bytes :=
  map (fun i => range l (Z.of_nat i * P) (Z.min ((Z.of_nat i + 1) * P) (zlen l))) (seq 0 (Z.to_nat (pieces_needed P (zlen l)))).

(** Reads that never fail, however short they are. *)
Definition only_data (sched : list (option Z)) : Prop := Forall (fun x => x <> None) sched.
