(** WireSpec.v: the BEP 3 peer wire format, independent of the code's codecs. *)
From Verif Require Import Base BitfieldModel BitfieldSpec WireModel.

(** <length prefix: 4 bytes big-endian> <id: 1 byte> <payload> *)
Definition frame (id : Z) (payload : bytes) : bytes :=
  be32 (1 + zlen payload) ++ [z2b id] ++ payload.

(** The BEP 3 encoding of each message. *)
Definition wire_of (m : msg) : bytes :=
  match m with
  | MKeepAlive => [z2b 0; z2b 0; z2b 0; z2b 0]
  | MChoke => frame 0 []
  | MUnchoke => frame 1 []
  | MInterested => frame 2 []
  | MNotInterested => frame 3 []
  | MHave i => frame 4 (be32 i)
  | MBitfield bf => frame 5 (Data bf)
  | MRequest i b l => frame 6 (be32 i ++ be32 b ++ be32 l)
  | MPiece i b block => frame 7 (be32 i ++ be32 b ++ block)
  end.

Definition is_u32 (z : Z) : Prop := 0 <= z < 4294967296.

(** Messages as the Go constructors build them from in-range arguments; a bitfield has
    its 5 header bytes, at least one data byte, and the whole frame is shorter than 2^32. *)
Definition msg_ok (m : msg) : Prop :=
  match m with
  | MHave i => is_u32 i
  | MBitfield bf => List.length (bhdr bf) = 5%nat /\ Nbytes bf = zlen (Data bf) /\ 0 < zlen (Data bf) < 4294967291
  | MRequest i b l => is_u32 i /\ is_u32 b /\ is_u32 l
  | MPiece i b block => is_u32 i /\ is_u32 b /\ zlen block < 4294967283
  | _ => True
  end.

(** Same type and same payload (a bitfield's bit count beyond whole bytes is not on the wire). *)
Definition same_msg (m m' : msg) : Prop :=
  match m with
  | MBitfield bf => exists bf', m' = MBitfield bf' /\
      agrees bf' (mkvec (bits_of (Data bf)) (8 * zlen (Data bf))) /\ Data bf' = Data bf
  | _ => m' = m
  end.

(** Messages the code's own encoder and decoder both support. *)
Definition codec_msg (m : msg) : Prop :=
  match m with MRequest _ _ _ | MPiece _ _ _ => False | _ => True end.

(** The inputs on which decoding panics: a complete frame of type 7 (piece), or any payload type
    with a declared length of 2^32-4 or more. *)
Definition panic_frame (l : bytes) : Prop :=
  exists n t r, l = be32 n ++ [t] ++ r /\ 1 <= n < 4294967296 /\
    ((b2z t = 7 /\ n - 1 <= zlen r) \/ (3 < b2z t /\ 4294967292 <= n)).

(** Positions visited by DecodeAll: start, then start plus what Decode says it consumed. *)
Inductive reach (l : bytes) : Z -> Z -> Prop :=
| reach_here : forall i, reach l i i
| reach_step : forall i j dr sp, i < zlen l ->
    DecodeMsg (mkslice (skipn (Z.to_nat i) l) sp) = Ok dr ->
    reach l (i + d_read dr) j -> reach l i j.

(** A bitfield frame with no payload: 00 00 00 01 05. *)
Definition empty_bitfield_frame : bytes := [x00; x00; x00; x01; x05]%byte.

Fixpoint total_size (ms : list msg) : Z :=
  match ms with [] => 0 | m :: r => zlen (wire_of m) + total_size r end.
Definition stream (ms : list msg) : bytes := flat_map wire_of ms.

Definition not_piece (m : msg) : Prop := match m with MPiece _ _ _ => False | _ => True end.
Definition not_request (m : msg) : Prop := match m with MRequest _ _ _ => False | _ => True end.

(** A non-empty strict prefix of some message's frame. *)
Definition cut_message (p : bytes) : Prop :=
  exists m q, msg_ok m /\ wire_of m = p ++ q /\ p <> [] /\ q <> [].
