(** SessionSpec.v: what a seeding client owes its peers. *)
From Verif Require Import Base BitfieldModel WireModel WireSpec LayoutSpec FsSpec.

(** We have piece i. *)
Definition have (own : bitfield) (i : Z) : Prop := Complete own = true \/ Get own i = Ok true.
Definition haveb (own : bitfield) (i : Z) : bool := Complete own || match Get own i with Ok b => b | _ => false end.
(** l bytes from offset b of piece i, in the concatenation of the torrent's files. *)
Definition block (P : Z) (contents : list bytes) (i b l : Z) : bytes := range (List.concat contents) (i * P + b) (i * P + b + l).

(** The frames that answer a message: a piece message per request for a piece we have, nothing otherwise. *)
Definition reply (P : Z) (contents : list bytes) (own : bitfield) (m : msg) : list bytes :=
  match m with
  | MRequest i b l => if haveb own i then [wire_of (MPiece i b (block P contents i b l))] else []
  | _ => []
  end.
(** Messages of a peer that asks for existing blocks only (n pieces of P bytes, T bytes in all); no bitfield and no piece among them. *)
Definition polite (P T n : Z) (m : msg) : Prop :=
  msg_ok m /\
  match m with
  | MRequest i b l => 0 <= i < n /\ b + l <= psize P T i
  | MBitfield _ | MPiece _ _ _ => False
  | _ => True
  end.

(** A piece message sent for a piece we have, whose block is the torrent's if it lies in the piece. *)
Definition genuine (P T n : Z) (contents : list bytes) (own : bitfield) (m : msg) : Prop :=
  exists i b blk, m = MPiece i b blk /\ 0 <= i < n /\ have own i /\ 0 <= b /\ b + zlen blk <= P /\
    (b + zlen blk <= psize P T i -> blk = block P contents i b (zlen blk)).
Definition is_piece (m : msg) : bool := match m with MPiece _ _ _ => true | _ => false end.
(** A piece message or a keep-alive. *)
Definition genuine_or_alive (P T n : Z) (contents : list bytes) (own : bitfield) (m : msg) : Prop :=
  m = MKeepAlive \/ genuine P T n contents own m.
(** [p] is the beginning of a. *)
Definition begins (p a : bytes) : Prop := exists q, a = p ++ q.
