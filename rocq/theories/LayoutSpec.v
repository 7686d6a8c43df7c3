(** LayoutSpec.v: what a torrent's file layout should be, independent of the code's cursor
    arithmetic: file k occupies the global bytes [start k, start k + len k). *)
From Verif Require Import Base LayoutModel.

Definition zsum (l : list Z) : Z := fold_right Z.add 0 l.
Definition fstart (lens : list Z) (k : nat) : Z := zsum (firstn k lens).
Definition flen (lens : list Z) (k : nat) : Z := nth k lens 0.

(** Sizes the int64 arithmetic can represent: 2^62 leaves room for every intermediate sum. *)
Definition big : Z := 4611686018427387904.
Definition sane (P : Z) (lens : list Z) : Prop :=
  1 <= P < big /\ Forall (fun n => 0 <= n) lens /\ zsum lens < big.

Definition lens_of (bs : list ebase) : list Z := map eb_len bs.

(** ceil(total / P) *)
Definition pieces_needed (P total : Z) : Z := (total + P - 1) / P.

(** The locations cover the global bytes [a, b) in order, each inside its file. *)
Fixpoint tiles (lens : list Z) (locs : list ploc) (a b : Z) : Prop :=
  match locs with
  | [] => a = b
  | l :: r =>
    let seek := SeekAmnt (pl_info l) in
    let n := ReadAmnt (pl_info l) in
    (pl_file l < List.length lens)%nat /\ 0 <= seek /\ 0 <= n /\ seek + n <= flen lens (pl_file l) /\
    fstart lens (pl_file l) + seek = a /\ tiles lens r (a + n) b
  end.

(** File indices strictly increase: no file appears twice in one piece. *)
Fixpoint increasing (lo : nat) (locs : list ploc) : Prop :=
  match locs with
  | [] => True
  | l :: r => (lo <= pl_file l)%nat /\ increasing (S (pl_file l)) r
  end.

(** What reading the locations from files with these contents yields. *)
Definition read_locs (contents : list bytes) (locs : list ploc) : bytes :=
  flat_map (fun l => sub (nth (pl_file l) contents []) (Z.to_nat (SeekAmnt (pl_info l))) (Z.to_nat (ReadAmnt (pl_info l)))) locs.

(** Bytes [a, b) of a byte string. *)
Definition range (l : bytes) (a b : Z) : bytes := sub l (Z.to_nat a) (Z.to_nat (b - a)).

(** Piece i of the concatenated files. *)
Definition piece_bytes (P : Z) (contents : list bytes) (i : Z) : bytes :=
  let all := List.concat contents in
  range all (Z.min (i * P) (zlen all)) (Z.min ((i + 1) * P) (zlen all)).

(** x is the start of a file, or the end of the last one. *)
Definition file_boundary (lens : list Z) (x : Z) : Prop := exists k, (k <= List.length lens)%nat /\ fstart lens k = x.
