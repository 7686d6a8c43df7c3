(** BitfieldSpec.v: a bitfield is a vector of booleans of which the first [vn] count. *)
From Verif Require Import Base BitfieldModel.

(** Bits of a byte string, most significant first. *)
Definition byte_bits (b : byte) : list bool :=
  map (fun k => Z.testbit (b2z b) k) [7; 6; 5; 4; 3; 2; 1; 0].
Definition bits_of (l : bytes) : list bool := flat_map byte_bits l.

Definition count_true (l : list bool) : Z := Z.of_nat (List.length (filter (fun b => b) l)).

Record vec := mkvec { vbits : list bool; vn : Z }.
Definition vput (l : list bool) (i : nat) (v : bool) : list bool :=
  firstn i l ++ [v] ++ skipn (S i) l.
(** Only the type of operations comes from the model. *)
Definition vstep (s : vec) (o : bop) : vec :=
  match o with
  | OSet i v => mkvec (vput (vbits s) (Z.to_nat i) v) (vn s)
  | OFill => mkvec (map (fun _ => true) (vbits s)) (vn s)
  | OSetNbits n => mkvec (vbits s) n
  end.
(** Calls within the documented domain: indices below the size; a new size that needs
    the same number of bytes. *)
Definition vvalid (s : vec) (o : bop) : Prop :=
  match o with
  | OSet i _ => 0 <= i < vn s
  | OFill => True
  | OSetNbits n => 0 <= n /\ zlen (vbits s) - 8 < n <= zlen (vbits s)
  end.
Fixpoint vvalid_all (s : vec) (ops : list bop) : Prop :=
  match ops with [] => True | o :: r => vvalid s o /\ vvalid_all (vstep s o) r end.
Definition vrun (s : vec) (ops : list bop) : vec := fold_left vstep ops s.

(** The observable agreement between a bitfield and a vector. *)
Definition agrees (bf : bitfield) (s : vec) : Prop :=
  Nbits bf = vn s /\
  Nbytes bf = zlen (Data bf) /\
  bits_of (Data bf) = vbits s /\
  (forall i, 0 <= i < zlen (vbits s) -> Get bf i = Ok (nth (Z.to_nat i) (vbits s) false)) /\
  Nset bf = count_true (firstn (Z.to_nat (vn s)) (vbits s)) /\
  (Complete bf = true <-> forall i, (i < Z.to_nat (vn s))%nat -> nth i (vbits s) false = true).

(** Number of bytes n bits need, and the all-false vector of that many bytes. *)
Definition bytes_for (n : Z) : Z := (n + 7) / 8.
Definition zero_vec (n : Z) : vec := mkvec (repeat false (Z.to_nat (8 * bytes_for n))) n.
