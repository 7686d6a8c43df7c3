(** HandshakeModel.v: model of src/swarm/handshake.go and of the handshake exchange in
    src/swarm/peerhandler.go. *)
From Verif Require Import Base BitfieldModel WireModel.

(** handshake.go:4-5 *)
Definition HandshakePstr : bytes := B "BitTorrent protocol".

(** copy(dst[off:], src), off <= len(dst). *)
Definition copy_at (dst : bytes) (off : nat) (src : bytes) : bytes :=
  firstn off dst ++ firstn (List.length dst - off) src ++ skipn (off + List.length src) dst.

(** handshake.go:9-16 *)
Definition MakeHandshake (infohash id : bytes) : bytes :=
  let hs := repeat (z2b 0) 68 in
  let hs := copy_at hs 0 [z2b 19] in
  let hs := copy_at hs 1 HandshakePstr in
  let hs := copy_at hs 28 infohash in
  copy_at hs 48 id.

(** handshake.go:18-36; the slice expressions are bounded by the capacity. *)
Definition Pstrlen (hs : gslice) : res Z := do b <- sindex hs 0; Ok (b2z b).
Definition Pstr (hs : gslice) : res bytes := do s <- sslice hs 1 20; Ok (vis s).
Definition Reserved (hs : gslice) : res bytes := do s <- sslice hs 20 28; Ok (vis s).
Definition HsInfohash (hs : gslice) : res bytes := do s <- sslice hs 28 48; Ok (vis s).
Definition HsId (hs : gslice) : res bytes := do s <- sslice hs 48 68; Ok (vis s).

(** handshake.go:38-57 *)
Definition ValidHandshake (hs : gslice) (infohash : bytes) : res bool :=
  if negb (slen hs =? 68) then Ok false else
  do n <- Pstrlen hs;
  if negb (n =? 19) then Ok false else
  do p <- Pstr hs;
  if negb (beqb p HandshakePstr) then Ok false else
  do h <- HsInfohash hs;
  if negb (beqb h infohash) then Ok false else Ok true.

(** One conn.Read(buf) with len(buf) = 68: the bytes it stored at the front of buf, and its error. *)
Record first_read := mkread { rd_bytes : bytes; rd_err : bool }.
(** conn.Write of a whole buffer succeeds or not. *)
Record writes_ok := mkw { w_handshake : bool; w_bitfield : bool }.

(** What FromIncoming leaves behind: the bytes it wrote, and the peer id or error. *)
Record incoming := mkinc { in_sent : bytes; in_peer : res bytes }.

(** peerhandler.go:68-115 FromIncoming from the read of the handshake on. Not modelled:
    the TCP type assertion, the deadline, logging, closing the connection. *)
Definition FromIncoming (infohash myid : bytes) (mybf : bitfield) (r : first_read) (w : writes_ok) : incoming :=
  if rd_err r then mkinc [] (Err EIO) else
  let buf := copy_at (repeat (z2b 0) 68) 0 (rd_bytes r) in
  let hs := mkslice buf [] in
  match ValidHandshake hs infohash with
  | Ok true =>
    let out := MakeHandshake infohash myid in
    if negb (w_handshake w) then mkinc [] (Err EIO) else
    let out2 := EncodeMsg (MBitfield mybf) in
    if negb (w_bitfield w) then mkinc out (Err EIO) else
    mkinc (out ++ out2) (HsId hs)
  | Ok false => mkinc [] (Err EHandshake)
  | Err e => mkinc [] (Err e)
  | Panic => mkinc [] Panic
  | NoFuel => mkinc [] NoFuel
  end.

(** peerhandler.go:50-64 FromBootstrap: bytes sent to a peer we dialled. Nothing is read here, so
    the peer's reply handshake is the first thing its receive loop hands to DecodeAll. *)
Definition FromBootstrap_sent (infohash myid : bytes) : bytes := MakeHandshake infohash myid.
