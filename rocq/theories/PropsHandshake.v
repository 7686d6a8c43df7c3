(** PropsHandshake.v: property theorems C23-C25, C71 (handshake). *)
From Verif Require Import Base BitfieldModel WireModel WireSpec HandshakeModel HandshakeSpec HandshakeProofs.

(** C23 *)
Theorem C23_accepts_iff : forall hs sp ih, ValidHandshake (mkslice hs sp) ih = Ok true <-> is_handshake hs ih.
Proof. exact Valid_iff. Qed.
Print Assumptions C23_accepts_iff.
Theorem C23_never_panics : forall hs sp ih, exists b, ValidHandshake (mkslice hs sp) ih = Ok b.
Proof. exact Valid_total. Qed.
Print Assumptions C23_never_panics.
Theorem C23_bad_infohash_length : forall ih hs sp, List.length ih <> 20%nat -> ValidHandshake (mkslice hs sp) ih = Ok false.
Proof. exact Valid_len. Qed.
Print Assumptions C23_bad_infohash_length.
Example C23_case : is_handshake (handshake_of (repeat x05 8) (repeat x61 20) (repeat x62 20)) (repeat x61%byte 20).
Proof. exists (repeat x05 8)%byte, (repeat x62 20)%byte. repeat split. Qed.

(** C24 *)
Theorem C24_layout : forall ih id, List.length ih = 20%nat -> List.length id = 20%nat ->
  MakeHandshake ih id = handshake_of (repeat (z2b 0) 8) ih id.
Proof. exact MakeHandshake_fields. Qed.
Print Assumptions C24_layout.
Theorem C24_accessors : forall ih id sp, List.length ih = 20%nat -> List.length id = 20%nat ->
  let hs := mkslice (MakeHandshake ih id) sp in
  Pstrlen hs = Ok 19 /\ Pstr hs = Ok protocol /\ Reserved hs = Ok (repeat (z2b 0) 8) /\
  HsInfohash hs = Ok ih /\ HsId hs = Ok id.
Proof. exact Make_accessors. Qed.
Print Assumptions C24_accessors.
Theorem C24_valid_iff : forall ih id ih' sp, List.length ih = 20%nat -> List.length id = 20%nat ->
  (ValidHandshake (mkslice (MakeHandshake ih id) sp) ih' = Ok true <-> ih' = ih).
Proof. exact Make_valid. Qed.
Print Assumptions C24_valid_iff.
Theorem C24_always_68 : forall ih id, List.length (MakeHandshake ih id) = 68%nat.
Proof. exact MakeHandshake_length. Qed.
Print Assumptions C24_always_68.

(** C25 *)
Theorem C25_accept_iff : forall ih me bf r w id, (List.length (rd_bytes r) <= 68)%nat ->
  in_peer (FromIncoming ih me bf r w) = Ok id <->
  (rd_err r = false /\ w_handshake w = true /\ w_bitfield w = true /\
   exists rsv, List.length rsv = 8%nat /\ List.length ih = 20%nat /\ List.length id = 20%nat /\
     pad68 (rd_bytes r) = handshake_of rsv ih id).
Proof. exact FromIncoming_iff. Qed.
Print Assumptions C25_accept_iff.
Theorem C25_reply : forall ih me bf r w id, (List.length (rd_bytes r) <= 68)%nat ->
  in_peer (FromIncoming ih me bf r w) = Ok id ->
  in_sent (FromIncoming ih me bf r w) = MakeHandshake ih me ++ EncodeMsg (MBitfield bf).
Proof. exact FromIncoming_sent. Qed.
Print Assumptions C25_reply.
Theorem C25_silent_on_bad : forall ih me bf r w, (List.length (rd_bytes r) <= 68)%nat ->
  ~ is_handshake (pad68 (rd_bytes r)) ih ->
  in_sent (FromIncoming ih me bf r w) = [] /\ exists e, in_peer (FromIncoming ih me bf r w) = Err e.
Proof. exact FromIncoming_silent. Qed.
Print Assumptions C25_silent_on_bad.
Theorem C25_short_id_accepted : forall ih me bf rsv tail,
  List.length rsv = 8%nat -> List.length ih = 20%nat -> (List.length tail <= 20)%nat ->
  in_peer (FromIncoming ih me bf (mkread (z2b 19 :: protocol ++ rsv ++ ih ++ tail) false) (mkw true true)) =
  Ok (tail ++ repeat (z2b 0) (20 - List.length tail)).
Proof. exact FromIncoming_48. Qed.
Print Assumptions C25_short_id_accepted.
Theorem C25_short_first_read : forall ih me bf rsv id k,
  List.length rsv = 8%nat -> List.length ih = 20%nat -> List.length id = 20%nat -> (k <= 68)%nat ->
  let r := mkread (firstn k (handshake_of rsv ih id)) false in
  ((exists id', in_peer (FromIncoming ih me bf r (mkw true true)) = Ok id') <->
   (20 <= k)%nat /\ zeros (skipn (k - 28) ih)).
Proof. exact FromIncoming_short. Qed.
Print Assumptions C25_short_first_read.
Example C25_case : exists id, in_peer (FromIncoming (repeat x61 20) (repeat x62 20) (mkbf (repeat x00 5) [xff] 1 8 8)
  (mkread (handshake_of (repeat x00 8) (repeat x61 20) (repeat x63 7)) false) (mkw true true)) = Ok id /\ id = repeat x63 7 ++ repeat x00 13.
Proof. eexists. split; reflexivity. Qed.

(** C71: the reply to our own handshake. *)
Theorem C71_reply_and_rest_dropped : forall rest sp fuel, (2 <= fuel)%nat ->
  zlen (z2b 19 :: protocol ++ rest) < 4294967296 ->
  DecodeAll fuel (mkslice (z2b 19 :: protocol ++ rest) sp) = Ok ([], 0).
Proof. exact DecodeAll_handshake. Qed.
Print Assumptions C71_reply_and_rest_dropped.
Theorem C71_bitfield_lost_refuted : exists ih id m,
  List.length ih = 20%nat /\ List.length id = 20%nat /\ msg_ok m /\
  (forall fuel, (2 <= fuel)%nat -> recv_messages fuel [mkslice (MakeHandshake ih id) []; mkslice (wire_of m) []] = Ok [m]) /\
  (forall fuel, (2 <= fuel)%nat -> recv_messages fuel [mkslice (MakeHandshake ih id ++ wire_of m) []] = Ok []).
Proof.
  exists (repeat x61 20)%byte, (repeat x62 20)%byte, (MHave 7). split; [reflexivity|]. split; [reflexivity|].
  split; [vm_compute; split; (reflexivity || discriminate)|].
  split; intros [|[|fuel]] H; try lia; reflexivity.
Qed.
Print Assumptions C71_bitfield_lost_refuted.
