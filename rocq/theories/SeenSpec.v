(** SeenSpec.v: what the system told of each file, and the content a torrent describes. *)
From Verif Require Import Base LayoutModel LayoutSpec FsSpec SeenModel.

(** Every call succeeded: the sizes said and the bytes delivered. *)
Definition answered (s : option seen) (n : Z) (d : bytes) : Prop := s = Some (mkseen (Some n) d true).
Inductive all_answered : list (option seen) -> list Z -> list bytes -> Prop :=
| aa_nil : all_answered [] [] []
| aa_cons s n d ss ns ds : answered s n d -> all_answered ss ns ds -> all_answered (s :: ss) (n :: ns) (d :: ds).
(** The i-th P-byte piece of a content. *)
Definition piece_at (P : Z) (c : bytes) (i : Z) : bytes := range c (i * P) (Z.min ((i + 1) * P) (zlen c)).
(** The torrent made of the sizes [ns] and of the bytes [all]. *)
Definition describes (sha1 : bytes -> bytes) (ti : torinfo) (P : Z) (paths : list bytes) (ns : list Z) (all : bytes) : Prop :=
  ti_plen ti = P /\ ti_length ti = zsum ns /\ ti_npieces ti = pieces_needed P (zlen all) /\ zlen (ti_hashes ti) = 20 * pieces_needed P (zlen all) /\
  (forall i, 0 <= i < pieces_needed P (zlen all) -> hash_at (ti_hashes ti) i = sha1 (piece_at P all i)) /\
  map (fun e => eb_len (en_base e)) (ti_files ti) = ns /\ map (fun e => eb_tor (en_base e)) (ti_files ti) = paths.
(** A content of the torrent's length whose every piece has the torrent's hash. *)
Definition fills (sha1 : bytes -> bytes) (ti : torinfo) (c : bytes) : Prop :=
  zlen c = ti_length ti /\ forall i, 0 <= i < ti_npieces ti -> sha1 (piece_at (ti_plen ti) c i) = hash_at (ti_hashes ti) i.
Definition collides (sha1 : bytes -> bytes) (a b : bytes) : Prop := a <> b /\ sha1 a = sha1 b.
