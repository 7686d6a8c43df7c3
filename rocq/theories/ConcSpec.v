(** ConcSpec.v: vocabulary for concurrent piece accesses. *)
From Verif Require Import Base LayoutModel LayoutSpec FsModel FsSpec ConcModel.

(** WritePiece(i, d) accepts its data. *)
Definition accepted_write (sha1 : bytes -> bytes) (hashes : bytes) (i : Z) (d : gslice) : Prop :=
  0 <= i < zlen hashes / 20 /\ sha1 (vis d) = hash_at hashes i.
(** Data that is accepted has its piece's size, and buffers hold a piece. *)
Definition fitting (sha1 : bytes -> bytes) (P : Z) (hashes : bytes) (files : list ebase) (j : job) : Prop :=
  match j with
  | JWrite i d => accepted_write sha1 hashes i d -> zlen (vis d) = psize P (zsum (lens_of files)) i
  | JRead _ buf => P <= zlen (vis buf)
  end.
(** [b] is what byte y of piece i was before ([old]) or what one of the calls writes there. *)
Definition old_or_written (sha1 : bytes -> bytes) (hashes : bytes) (jobs : nat -> job) (i : Z) (old : bytes) (y : nat) (b : option byte) : Prop :=
  b = nth_error old y \/ exists t d, jobs t = JWrite i d /\ accepted_write sha1 hashes i d /\ b = nth_error (vis d) y.
(** All calls that write piece i write d. *)
Definition only_writes (sha1 : bytes -> bytes) (hashes : bytes) (jobs : nat -> job) (i : Z) (d : bytes) : Prop :=
  forall t d', jobs t = JWrite i d' -> accepted_write sha1 hashes i d' -> vis d' = d.
Definition nobody_writes (sha1 : bytes -> bytes) (hashes : bytes) (jobs : nat -> job) (i : Z) : Prop :=
  forall t d', jobs t = JWrite i d' -> ~ accepted_write sha1 hashes i d'.
(** The call on its own: result, slice, world. *)
Definition call (sha1 : bytes -> bytes) (ti : torinfo) (j : job) (w : world) : res Z * gslice * world :=
  match j with JWrite i d => let (r, w') := WritePiece sha1 ti i d w in (r, d, w') | JRead i buf => ReadPiece ti i buf w end.
