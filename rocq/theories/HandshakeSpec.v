(** HandshakeSpec.v: the BEP 3 handshake. *)
From Verif Require Import Base.

Definition protocol : bytes :=
  B "BitTorrent protocol".

(** <19> <protocol> <8 reserved> <20 infohash> <20 peer id> *)
Definition handshake_of (reserved infohash id : bytes) : bytes :=
  z2b 19 :: protocol ++ reserved ++ infohash ++ id.

Definition is_handshake (hs infohash : bytes) : Prop :=
  exists reserved id, List.length reserved = 8%nat /\ List.length infohash = 20%nat /\
    List.length id = 20%nat /\ hs = handshake_of reserved infohash id.

(** The first 68 bytes, padded with zeros. *)
Definition pad68 (b : bytes) : bytes := b ++ repeat (z2b 0) (68 - List.length b).

Definition zeros (l : bytes) : Prop := Forall (fun b => b = z2b 0) l.
