(** StartSpec.v: specification vocabulary for starting a swarm. *)
From Verif Require Import Base BitfieldModel BitfieldSpec PathModel PathSpec LayoutModel LayoutSpec FsModel FsSpec.

(** Where the files of a torrent lie. *)
Definition places (w : world) (files : list ebase) : list (list bytes) := map (fun f => place (w_cwd w) (eb_local f)) files.
(** The bitfield has the torrent's number of pieces (in whole bytes, after the 5 bytes of a header) and its bits say which pieces
    of the content have the right hash; it is complete exactly if all have. *)
Definition right_bits (sha1 : bytes -> bytes) (P : Z) (hashes : bytes) (contents : list bytes) (b : bitfield) : Prop :=
  Nbits b = zlen hashes / 20 /\ Nbytes b = bytes_for (zlen hashes / 20) /\ zlen (Data b) = bytes_for (zlen hashes / 20) /\ List.length (bhdr b) = 5%nat /\
  (forall i, 0 <= i < zlen hashes / 20 -> exists v, Get b i = Ok v /\ (v = true <-> sha1 (piece_bytes P contents i) = hash_at hashes i)) /\
  (Complete b = true <-> forall i, 0 <= i < zlen hashes / 20 -> sha1 (piece_bytes P contents i) = hash_at hashes i).
(** Each file has the size the torrent says; its content is the old one resized, or zeros. *)
Definition sized (w w' : world) (f : ebase) (c : bytes) : Prop :=
  file_at w' (eb_local f) = Some c /\ zlen c = eb_len f /\ (resized (old_at w (eb_local f)) (eb_len f) c \/ c = zeros (eb_len f)).
(** The first elements of l up to the first None, without their Some. *)
Inductive accepted {C} : list (option C) -> list C -> bool -> Prop :=
| acc_end : accepted [] [] false
| acc_fail r : accepted (None :: r) [] true
| acc_conn c r l b : accepted r l b -> accepted (Some c :: r) (c :: l) b.
