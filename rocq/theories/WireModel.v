(** WireModel.v: model of src/p2p (messages) and of how src/swarm feeds received bytes to it. *)
From Verif Require Import Base BitfieldModel.

(** The concrete message types (no_payload.go:27-30 choke..notinterested,
    have.go:27-30, bitfield.go:15-18, request.go:23-28, piece.go:19-24, keepalive.go:11-13).
    msgBase (length, mtype) is determined by the constructor functions, see [Length], [Mtype]:
    no code assigns those fields later. *)
Inductive msg :=
| MKeepAlive | MChoke | MUnchoke | MInterested | MNotInterested
| MHave (index : Z)
| MBitfield (bf : bitfield)
| MRequest (index begin reqlen : Z)
| MPiece (index begin : Z) (block : bytes).

(** message.go:9-20 and the constructors. *)
Definition Mtype (m : msg) : Z :=
  match m with
  | MChoke => 0 | MUnchoke => 1 | MInterested => 2 | MNotInterested => 3
  | MHave _ => 4 | MBitfield _ => 5 | MRequest _ _ _ => 6 | MPiece _ _ _ => 7
  | MKeepAlive => 255
  end.

(** The length field set by the constructors: no_payload.go:35-69 (1), have.go:35-43 (5),
    bitfield.go:23-31 (uint32(1+Nbytes)), request.go:33-43 (13), piece.go:29-39
    (uint32(1+8+len(block))), keepalive.go:17-22 (0). DecodeMsgBitfield (bitfield.go:81-87) stores msglen,
    which equals uint32(1+Nbytes) of the bitfield it builds. *)
Definition Length (m : msg) : Z :=
  match m with
  | MKeepAlive => 0
  | MChoke | MUnchoke | MInterested | MNotInterested => 1
  | MHave _ => 5
  | MBitfield bf => u32 (1 + Nbytes bf)
  | MRequest _ _ _ => 13
  | MPiece _ _ block => u32 (1 + 8 + zlen block)
  end.

(** message.go:68-74 msgBase.Encode, and 90-94 fillBase on a buffer of at least 5 bytes. *)
Definition base (m : msg) : bytes := be32 (Length m) ++ [z2b (Mtype m)].

(** binary.BigEndian.PutUint32(pl, v) on a slice of at least 4 bytes: overwrites pl[0:4]. *)
Definition put32 (pl : bytes) (v : Z) : bytes := be32 v ++ skipn 4 pl.

(** The Encode methods: keepalive.go:24-26, message.go:68-74 (no-payload messages),
    have.go:55-60, bitfield.go:43-47 (overwrites the 5 header bytes kept in data5),
    request.go:63-69, piece.go:59-66. *)
Definition EncodeMsg (m : msg) : bytes :=
  match m with
  | MKeepAlive => [z2b 0; z2b 0; z2b 0; z2b 0]
  | MChoke | MUnchoke | MInterested | MNotInterested => base m
  | MHave i => base m ++ be32 i
  | MBitfield bf => base m ++ skipn 5 (Data5 bf)
  | MRequest i b l => put32 (put32 (put32 (base m) i) b) l
  | MPiece i b block => base m ++ be32 i ++ be32 b ++ block
  end.

(** have.go:72-78 *)
Definition DecodeMsgHave (payload : bytes) : res msg :=
  if negb (u32 (zlen payload) =? 4) then Err EBadMessage
  else do i <- rd32 payload; Ok (MHave i).

(** request.go:83-91 *)
Definition DecodeMsgRequest (payload : bytes) : res msg :=
  if negb (u32 (zlen payload) =? 12) then Err EBadMessage
  else do i <- rd32 payload; do b <- rd32 (skipn 4 payload); do l <- rd32 (skipn 8 payload);
       Ok (MRequest i b l).

(** piece.go:80-91 *)
Definition DecodeMsgPiece (payload : bytes) (length : Z) : res msg :=
  if negb (u32 (zlen payload) =? length) then Err EBadMessage
  else if u32 (zlen payload) <? 8 then Err EBadMessage
  else do i <- rd32 payload; do b <- rd32 (skipn 4 payload);
       Ok (MPiece i b (skipn 8 payload)).

(** bitfield.go:61-88: copies fullmsg[:4+msglen] (uint32 sum; the slice bound is the capacity). *)
Definition DecodeMsgBitfield (full : gslice) (msglen : Z) : res msg :=
  let nbytes := u32 (4 + msglen) in
  let nbits := u32 (msglen - 1) * 8 in
  do s <- sslice full 0 nbytes;
  do bf <- FromBytes (vis s) nbits;
  Ok (MBitfield bf).

(** message.go:47-50 DecodeResult together with the error result. *)
Record dres := mkdres { d_msg : option msg; d_read : Z; d_err : option goerr }.

(** A decoder call whose error is stored rather than returned at once (message.go:199-211). *)
Definition attempt (r : res msg) (k : option msg -> option goerr -> res dres) : res dres :=
  match r with
  | Ok m => k (Some m) None
  | Err e => k None (Some e)
  | Panic => Panic
  | NoFuel => NoFuel
  end.

(** message.go:126-223 Decode *)
Definition DecodeMsg (data : gslice) : res dres :=
  let bad e := Ok (mkdres None (u64 (slen data)) (Some e)) in
  if slen data <? 4 then bad EBadMessage else
  do msglen <- rd32 (vis data);
  if msglen =? 0 then Ok (mkdres (Some MKeepAlive) 4 None) else
  if slen data <? 5 then bad EBadMessage else
  do tb <- sindex data 4;
  let mtype := b2z tb in
  if (mtype <=? 3) && negb (msglen =? 1) then bad EBadMessage
  else if u32 (slen data) <? u32 (4 + msglen) then bad EBadMessage
  else
    do payload <- sslice data 5 (u32 (5 + msglen - 1));
    match mtype with
    | 0 => Ok (mkdres (Some MChoke) 5 None)
    | 1 => Ok (mkdres (Some MUnchoke) 5 None)
    | 2 => Ok (mkdres (Some MInterested) 5 None)
    | 3 => Ok (mkdres (Some MNotInterested) 5 None)
    | 4 => attempt (DecodeMsgHave (vis payload)) (fun m e => Ok (mkdres m 9 e))
    | 5 => attempt (DecodeMsgBitfield data msglen) (fun m e =>
             match m, e with
             | Some m', None => Ok (mkdres m (u32 (4 + Length m')) None)
             | _, _ => Ok (mkdres m 0 e)          (* n keeps its zero value, line 203 *)
             end)
    | 6 => attempt (DecodeMsgRequest (vis payload)) (fun m e => Ok (mkdres m 17 e))
    | 7 => attempt (DecodeMsgPiece (vis payload) msglen) (fun m e =>
             match m with
             | Some m' => Ok (mkdres m (u32 (4 + Length m')) e)
             | None => Panic                      (* line 211: Length() through a nil pointer *)
             end)
    | _ => bad EUnknownType
    end.

(** message.go:99-121 DecodeAll; [fuel] bounds the loop. Go's loop has no bound: a result
    NoFuel for every fuel means it does not return. *)
Fixpoint DecodeAllLoop (fuel : nat) (data : gslice) (idx read : Z) (msgs : list msg)
  : res (list msg * Z) :=
  match fuel with
  | O => NoFuel
  | S f =>
    if slen data <=? idx then Ok (msgs, read)
    else
      do s <- sfrom data idx;
      do dr <- DecodeMsg s;
      match d_err dr, d_msg dr with
      | None, Some m => DecodeAllLoop f data (u64 (idx + d_read dr)) (u64 (read + d_read dr)) (msgs ++ [m])
      | None, None => Panic     (* not reachable: a nil error comes with a message *)
      | Some _, _ => DecodeAllLoop f data (u64 (idx + d_read dr)) read msgs
      end
  end.
Definition DecodeAll (fuel : nat) (data : gslice) : res (list msg * Z) := DecodeAllLoop fuel data 0 0 [].

(** swarm/peerhandler.go:210-221 with msghandler.go:11-33: each buffer delivered by the read
    loop is decoded on its own; nothing is carried over. The messages handed to the
    type switch, in order, for a sequence of buffers. *)
Fixpoint recv_messages (fuel : nat) (reads : list gslice) : res (list msg) :=
  match reads with
  | [] => Ok []
  | r :: rs => do ' (ms, _) <- DecodeAll fuel r; do ms' <- recv_messages fuel rs; Ok (ms ++ ms')
  end.
