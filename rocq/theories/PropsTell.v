(** PropsTell.v: what the errors of the message decoders, bitfields, lookups and the encoder mean (src/p2p, src/bf, src/bencode/encode.go, src/torrent/info, src/torrent/filesd, src/torrent/fileio): C119. *)
From Verif Require Import Base BencodeModel BencodeSpec BitfieldModel WireModel LayoutModel FsModel PrintModel PathSpec TellModel TellSpec TellProofs.

(* ------------------------------------------------------------------ *)
(** * C119 What an error tells *)
(** Decode errs just when the frame is amiss, and the error is the first thing amiss. *)
Theorem C119_frames : forall d f, slen d < 4294967296 -> (DecodeMsgT d = Bad f <-> frame_amiss (vis d) f).
Proof. exact frames_top. Qed.
Print Assumptions C119_frames.
Theorem C119_decode : forall d, match DecodeMsgT d with
  | Good m => exists k, DecodeMsg d = Ok (mkdres (Some m) k None)
  | Bad _ => exists k e, DecodeMsg d = Ok (mkdres None k (Some e))
  | Boom => DecodeMsg d = Panic end.
Proof. exact decode_same. Qed.
Print Assumptions C119_decode.
(** Bitfields: which error, when; and the limits in the text are those of the lengths that are taken. *)
Theorem C119_bits : forall b n f, FromBytesT b n = Bad f <-> (zlen b <= 5 /\ f = FEmptyBits) \/
  (5 < zlen b /\ (n < 8 * (zlen b - 5) - 7 \/ 8 * (zlen b - 5) < n) /\ f = FBits (zlen b) (8 * (zlen b - 5) - 7) (8 * (zlen b - 5)) n).
Proof. exact bits_fault. Qed.
Print Assumptions C119_bits.
Theorem C119_limits : forall b n len mn mx g, FromBytesT b n = Bad (FBits len mn mx g) -> len = zlen b /\ g = n /\ forall k, (exists x, FromBytes b k = Ok x) <-> mn <= k <= mx.
Proof. exact bits_range. Qed.
Print Assumptions C119_limits.
(** Pieces. *)
Theorem C119_lookup : forall ti i f, PieceLookupT ti i = Bad f <-> (i < 0 /\ f = FNegative) \/ (0 <= i /\ ti_npieces ti <= i /\ f = FBeyond).
Proof. exact lookup_fault. Qed.
Print Assumptions C119_lookup.
Theorem C119_entry : forall e i P f, PieceInfoT e i P = Bad f <-> (i < en_sp e \/ en_ep e < i) /\ f = FRange i.
Proof. exact info_fault. Qed.
Print Assumptions C119_entry.
Theorem C119_write : forall sha1 ti i data f, write_checks sha1 ti i data = Bad f <->
  PieceLookupT ti i = Bad f \/ (exists l h, PieceLookup ti i = Ok l /\ PieceHash ti i = Ok h /\ sha1 data <> h /\ f = FHash).
Proof. exact write_fault. Qed.
Print Assumptions C119_write.
Theorem C119_refused : forall sha1 ti i data f w, write_checks sha1 ti i (vis data) = Bad f -> exists e, WritePiece sha1 ti i data w = (Err e, w).
Proof. exact write_refused. Qed.
Print Assumptions C119_refused.
(** A path that was never opened: the error names it, and nothing is touched. *)
Theorem C119_path : forall p w f, lookup_fp p w = Bad f -> f = FPath p /\ (forall q, Move p q w = (Err EPath, w)) /\ Close p w = (Err EPath, w) /\
  (forall seek data, fio_write p seek data w = (Err EPath, w)) /\ (forall seek n, fio_read p seek n w = (Ok ([], Some EPath), w)).
Proof. exact path_fault. Qed.
Print Assumptions C119_path.
Theorem C119_opened : forall p w, (exists f, lookup_fp p w = Bad f) <-> ~ In p (map fst (w_lfps w)).
Proof. exact opened_top. Qed.
Print Assumptions C119_opened.
(** The encoder: the first value, in the order of the text, that has no encoding. *)
Theorem C119_encode : forall t v f, go_wf v -> (EncodeT t v = Some f <-> unfit t v f).
Proof. exact encode_top. Qed.
Print Assumptions C119_encode.
Theorem C119_encodes : forall t v, EncodeT t v = None <-> snd (Encode v) = None.
Proof. exact encode_same. Qed.
Print Assumptions C119_encodes.
(** The text tells the error, and its numbers. *)
Theorem C119_texts : forall f f', fault_text f = fault_text f' -> f = f'.
Proof. exact texts_top. Qed.
Print Assumptions C119_texts.
(** The texts that do not say what is the case. *)
(** A payload of 4 bytes is turned down for not having 4 bytes; in general the text's 4 is never the number asked for. *)
Theorem C119_piece_refuted : exists payload length, DecodeMsgPieceT payload length = Bad (FPiece 4) /\ zlen payload = 4 /\
  fault_text (FPiece 4) = B "piece message must have 4 byte payload, got 4".
Proof. exact piece_text. Qed.
Print Assumptions C119_piece_refuted.
Theorem C119_piece : forall p n f, 0 <= n < 4294967296 -> zlen p < 4294967296 -> (DecodeMsgPieceT p n = Bad f <-> (zlen p <> n /\ f = FPiece (zlen p)) \/ (zlen p = n /\ n < 8 /\ f = FPieceMin n)).
Proof. exact piece_fault. Qed.
Print Assumptions C119_piece.
(** "payload length" is the length of the whole frame: a frame cut short may seem longer than asked for. *)
Theorem C119_cut_refuted : exists d m n, DecodeMsgT d = Bad (FCut m n) /\ m < n.
Proof. exact cut_text. Qed.
Print Assumptions C119_cut_refuted.
(** "does not exist" is said of a file that exists. *)
Theorem C119_exists_refuted : exists p w i, pget (place (w_cwd w) p) (w_names w) = Some i /\ lookup_fp p w = Bad (FPath p).
Proof. exact exists_text. Qed.
Print Assumptions C119_exists_refuted.
(** Errors of the parts that Decode never passes on. *)
Theorem C119_never : forall d n a b c, slen d < 4294967296 -> DecodeMsgT d <> Bad (FPiece n) /\ DecodeMsgT d <> Bad (FPieceMin n) /\ DecodeMsgT d <> Bad (FBits n a b c).
Proof. exact never_top. Qed.
Print Assumptions C119_never.

(** Concrete cases. *)
Example C119_case1 : DecodeMsgT (mkslice [x00; x00; x00; x05; x04; x00; x00] []) = Bad (FCut 5 7) /\ fault_text (FCut 5 7) = B "length specified as 5, payload length is 7" /\
  DecodeMsgT (mkslice [x00; x00; x00; x02; x00; x00] []) = Bad (FPlain 2) /\ fault_text (FPlain 2) = B "invalid message, length for id [0-3] must be 1, got 2" /\
  DecodeMsgT (mkslice [x00; x00; x00; x03; x04; x00; x00] []) = Bad (FHave 2) /\ fault_text (FHave 2) = B "have message must have 4 byte payload, got 2" /\
  DecodeMsgT (mkslice [x00; x00; x00; x03; x06; x00; x00] []) = Bad (FRequest 2) /\ fault_text (FRequest 2) = B "request message must have 12 byte payload, got 2" /\
  DecodeMsgT (mkslice [x00; x00; x00; x01; x14] []) = Bad (FUnknown 20) /\ fault_text (FUnknown 20) = B "unknown message type 20" /\
  DecodeMsgT (mkslice [x00; x00; x00] []) = Bad (FShort 3) /\ fault_text (FShort 3) = B "message length must be at least 4, got 3" /\
  DecodeMsgT (mkslice [x00; x00; x00; x01] []) = Bad (FFive 4) /\ fault_text (FFive 4) = B "non-keep-alive message length must be at least 5, got 4" /\
  DecodeMsgT (mkslice [x00; x00; x00; x01; x05] []) = Bad FEmptyBits /\ fault_text FEmptyBits = B "bytes5 must have length greater than 5 bytes".
Proof. vm_compute. repeat split. Qed.
Example C119_case2 : FromBytesT [x00; x00; x00; x02; x05; x80; x00] 3 = Bad (FBits 7 9 16 3) /\
  fault_text (FBits 7 9 16 3) = B "invalid number of bits specified for byte slice of len 7" ++ [x0a] ++ B "min 9, max 16, given 3" /\
  fault_text (FPieceMin 7) = B "piece message payload must be at least 8 bytes, got 7" /\
  fault_text FNegative = B "negative index" /\ fault_text FBeyond = B "index out of bounds" /\ fault_text (FRange (-3)) = B "index -3 out of range" /\ fault_text FHash = B "invalid hash, refusing write" /\
  fault_text (FPath (B "a/b")) = B "path [a/b] does not exist" /\ fault_text FEmpty = B "encoder error: cannot encode an empty string" /\ fault_text (FType (B "bool")) = B "encoder error: unsupported bencoding type [bool]".
Proof. vm_compute. repeat split. Qed.
Example C119_case3 : EncodeT (B "bool") (VDict [(B "b", VOther); (B "a", VList [VStr (B "x"); VStr []])]) = Some FEmpty /\ EncodeT (B "bool") (VDict [(B "b", VStr []); (B "a", VOther)]) = Some (FType (B "bool")) /\
  EncodeT (B "bool") (VDict [(B "a", VOther); ([], VStr (B "x"))]) = Some FEmpty /\ go_wf (VDict [(B "b", VOther); (B "a", VList [VStr (B "x"); VStr []])]).
Proof.
  split; [reflexivity|]. split; [reflexivity|]. split; [reflexivity|]. repeat (constructor; cbn; try tauto); try (intros [X|[]]; discriminate X); try (vm_compute; discriminate).
Qed.
