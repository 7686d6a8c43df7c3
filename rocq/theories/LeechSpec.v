(** LeechSpec.v: a downloader written from BEP 3 alone: what a peer ends up with when it believes the bytes a swarm sends it. *)
From Verif Require Import Base WireModel FsSpec SessionSpec.

(** Four bytes as a big-endian number. *)
Definition num32 (a b c d : byte) : Z := ((b2z a * 256 + b2z b) * 256 + b2z c) * 256 + b2z d.
(** The payloads of a sequence of length-prefixed messages; None if the sequence ends inside one. *)
Fixpoint frames (fuel : nat) (s : bytes) : option (list bytes) :=
  match fuel, s with
  | _, [] => Some []
  | S f, a :: b :: c :: d :: r =>
    let n := num32 a b c d in
    if n <=? zlen r then option_map (cons (firstn (Z.to_nat n) r)) (frames f (skipn (Z.to_nat n) r)) else None
  | _, _ => None
  end.
(** A piece message (7, index, begin, block) is stored at its place among pieces of P bytes; other messages store nothing. *)
Definition store (P : Z) (disk f : bytes) : bytes :=
  match f with
  | t :: i1 :: i2 :: i3 :: i4 :: b1 :: b2 :: b3 :: b4 :: blk =>
    if b2z t =? 7 then over disk (num32 i1 i2 i3 i4 * P + num32 b1 b2 b3 b4) blk else disk
  | _ => disk
  end.
(** The file a downloader starting from [disk] has after reading s: a handshake of 68 bytes, then messages. *)
Definition leech (P : Z) (disk s : bytes) : option bytes :=
  option_map (fun fs => fold_left (store P) fs disk) (frames (S (List.length s)) (skipn 68 s)).

(** Position x of the concatenated files is asked for in ms. *)
Definition wants (P : Z) (m : msg) (x : Z) : Prop :=
  exists i b l, m = MRequest i b l /\ i * P + b <= x < i * P + b + l.
(** ... and in a piece we have. *)
Definition granted (P : Z) (own : BitfieldModel.bitfield) (m : msg) (x : Z) : Prop :=
  exists i b l, m = MRequest i b l /\ have own i /\ i * P + b <= x < i * P + b + l.
(** Requests for existing blocks only. *)
Definition sound_request (P T n : Z) (m : msg) : Prop :=
  match m with MRequest i b l => 0 <= i < n /\ 0 <= b /\ 0 <= l /\ b + l <= psize P T i | _ => True end.
(** One request per piece, for all of it. *)
Definition ask_all (P T n : Z) : list msg := map (fun k => MRequest (Z.of_nat k) 0 (psize P T (Z.of_nat k))) (seq 0 (Z.to_nat n)).
