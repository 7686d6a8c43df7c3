(** TellModel.v: the errors of src/p2p, src/bf, src/bencode/encode.go, src/torrent/info, src/torrent/filesd and src/torrent/fileio with their texts:
    WireModel's, BitfieldModel's, BencodeModel's, LayoutModel's and FsModel's functions, with the reason kept. *)
From Verif Require Import Base BencodeModel BitfieldModel WireModel LayoutModel FsModel PrintModel.

Inductive fault :=
| FShort (n : Z)                        (* message.go:141 *)
| FFive (n : Z)                         (* message.go:157 *)
| FPlain (m : Z)                        (* message.go:167 *)
| FCut (m n : Z)                        (* message.go:170 *)
| FHave (n : Z)                         (* have.go:74 *)
| FRequest (n : Z)                      (* request.go:85 *)
| FPiece (n : Z)                        (* piece.go:82 *)
| FPieceMin (n : Z)                     (* piece.go:85 *)
| FUnknown (t : Z)                      (* message.go:214 *)
| FEmptyBits                            (* bitfield.go:45 *)
| FBits (len min max given : Z)         (* bitfield.go:51 *)
| FNegative                             (* info.go:286 *)
| FBeyond                               (* info.go:290 *)
| FRange (i : Z)                        (* entry.go:92 *)
| FHash                                 (* fileio.go:175 *)
| FPath (p : bytes)                     (* fileio.go:17-23, 87, 99, 129, 141 *)
| FEmpty                                (* encode.go:66 *)
| FType (t : bytes).                    (* encode.go:59 *)
(** The places named above; message.go prints the numbers with %v. *)
Definition fault_text (f : fault) : bytes :=
  match f with
  | FShort n => B "message length must be at least 4, got " ++ itoa n
  | FFive n => B "non-keep-alive message length must be at least 5, got " ++ itoa n
  | FPlain m => B "invalid message, length for id [0-3] must be 1, got " ++ itoa m
  | FCut m n => B "length specified as " ++ itoa m ++ B ", payload length is " ++ itoa n
  | FHave n => B "have message must have 4 byte payload, got " ++ itoa n
  | FRequest n => B "request message must have 12 byte payload, got " ++ itoa n
  | FPiece n => B "piece message must have 4 byte payload, got " ++ itoa n
  | FPieceMin n => B "piece message payload must be at least 8 bytes, got " ++ itoa n
  | FUnknown t => B "unknown message type " ++ itoa t
  | FEmptyBits => B "bytes5 must have length greater than 5 bytes"
  | FBits len min max given => B "invalid number of bits specified for byte slice of len " ++ itoa len ++ nl ++ B "min " ++ itoa min ++ B ", max " ++ itoa max ++ B ", given " ++ itoa given
  | FNegative => B "negative index"
  | FBeyond => B "index out of bounds"
  | FRange i => B "index " ++ itoa i ++ B " out of range"
  | FHash => B "invalid hash, refusing write"
  | FPath p => B "path [" ++ p ++ B "] does not exist"
  | FEmpty => B "encoder error: cannot encode an empty string"
  | FType t => B "encoder error: unsupported bencoding type [" ++ t ++ B "]"
  end.

(** The outcome of a call, with the fault for the error. *)
Inductive out (A : Type) := Good (a : A) | Bad (f : fault) | Boom.
Arguments Good {A} a. Arguments Bad {A} f. Arguments Boom {A}.
Definition obind {A C} (m : out A) (k : A -> out C) : out C := match m with Good a => k a | Bad f => Bad f | Boom => Boom end.
Notation "'get' x <- m ; k" := (obind m (fun x => k)) (at level 200, x binder, m at level 100, k at level 200).
(** A step that cannot fail with an error. *)
Definition sure {A} (r : res A) : out A := match r with Ok a => Good a | _ => Boom end.

(** bitfield.go:42-64 FromBytes *)
Definition FromBytesT (bytes5 : bytes) (nbits : Z) : out bitfield :=
  let l := zlen bytes5 in
  if l <=? 5 then Bad FEmptyBits
  else
    let min := (l - 5 - 1) * 8 + 1 in
    let max := (l - 5) * 8 in
    if (nbits <? min) || (max <? nbits) then Bad (FBits l min max nbits)
    else sure (calcNset (mkbf (firstn 5 bytes5) (skipn 5 bytes5) (l - 5) nbits 0)).
(** have.go:72-78 *)
Definition DecodeMsgHaveT (payload : bytes) : out msg :=
  if negb (u32 (zlen payload) =? 4) then Bad (FHave (zlen payload))
  else get i <- sure (rd32 payload); Good (MHave i).
(** request.go:83-91 *)
Definition DecodeMsgRequestT (payload : bytes) : out msg :=
  if negb (u32 (zlen payload) =? 12) then Bad (FRequest (zlen payload))
  else get i <- sure (rd32 payload); get b <- sure (rd32 (skipn 4 payload)); get l <- sure (rd32 (skipn 8 payload)); Good (MRequest i b l).
(** piece.go:80-91 *)
Definition DecodeMsgPieceT (payload : bytes) (length : Z) : out msg :=
  if negb (u32 (zlen payload) =? length) then Bad (FPiece (zlen payload))
  else if u32 (zlen payload) <? 8 then Bad (FPieceMin (zlen payload))
  else get i <- sure (rd32 payload); get b <- sure (rd32 (skipn 4 payload)); Good (MPiece i b (skipn 8 payload)).
(** bitfield.go:61-88 *)
Definition DecodeMsgBitfieldT (full : gslice) (msglen : Z) : out msg :=
  let nbytes := u32 (4 + msglen) in
  let nbits := u32 (msglen - 1) * 8 in
  get s <- sure (sslice full 0 nbytes);
  get bf <- FromBytesT (vis s) nbits;
  Good (MBitfield bf).
(** message.go:126-223 Decode: its message, or the fault; line 211 calls Length() through a nil pointer if DecodeMsgPiece fails. *)
Definition DecodeMsgT (data : gslice) : out msg :=
  if slen data <? 4 then Bad (FShort (slen data)) else
  get msglen <- sure (rd32 (vis data));
  if msglen =? 0 then Good MKeepAlive else
  if slen data <? 5 then Bad (FFive (slen data)) else
  get tb <- sure (sindex data 4);
  let mtype := b2z tb in
  if (mtype <=? 3) && negb (msglen =? 1) then Bad (FPlain msglen)
  else if u32 (slen data) <? u32 (4 + msglen) then Bad (FCut msglen (slen data))
  else
    get payload <- sure (sslice data 5 (u32 (5 + msglen - 1)));
    match mtype with
    | 0 => Good MChoke
    | 1 => Good MUnchoke
    | 2 => Good MInterested
    | 3 => Good MNotInterested
    | 4 => DecodeMsgHaveT (vis payload)
    | 5 => DecodeMsgBitfieldT data msglen
    | 6 => DecodeMsgRequestT (vis payload)
    | 7 => match DecodeMsgPieceT (vis payload) msglen with Bad _ => Boom | x => x end
    | _ => Bad (FUnknown mtype)
    end.

(** info.go:283-294 PieceLookup *)
Definition PieceLookupT (ti : torinfo) (index : Z) : out (list ploc) :=
  if index <? 0 then Bad FNegative
  else if ti_npieces ti <=? index then Bad FBeyond
  else sure (match nth_error (ti_pm ti) (Z.to_nat index) with Some l => Ok l | None => Panic end).
(** entry.go:64-127 PieceInfo, the check at 91-93 *)
Definition PieceInfoT (e : entry) (index P : Z) : out pinfo :=
  if (index <? en_sp e) || (en_ep e <? index) then Bad (FRange index) else sure (PieceInfo e index P).
(** fileio.go:165-176: WritePiece up to the first write. *)
Definition write_checks (sha1 : bytes -> bytes) (ti : torinfo) (index : Z) (data : bytes) : out (list ploc) :=
  get plocs <- PieceLookupT ti index;
  get knownHash <- sure (PieceHash ti index);
  if negb (beqb (sha1 data) knownHash) then Bad FHash else Good plocs.
(** fileio.go:79-89, 91-101, 121-143: the lookup in Move, Close, write and read. *)
Definition lookup_fp (p : bytes) (w : world) : out handle := match aget p (w_lfps w) with Some h => Good h | None => Bad (FPath p) end.
(** encode.go:38-116; [t] is the %T of the value that has no encoding. *)
Definition EncodeT (t : bytes) (v : gval) : option fault :=
  match snd (Encode v) with None => None | Some EEmptyString => Some FEmpty | Some _ => Some (FType t) end.
