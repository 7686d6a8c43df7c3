(** PropsWire.v: property theorems C14-C22 (peer wire messages). *)
From Verif Require Import Base BitfieldModel BitfieldSpec BitfieldProofs WireModel WireSpec WireProofs.

(** C14 *)
Theorem C14_Encode : forall m, not_request m -> msg_ok m -> EncodeMsg m = wire_of m.
Proof. exact Encode_wire. Qed.
Print Assumptions C14_Encode.
Theorem C14_Decode_Encode : forall m rest sp,
  codec_msg m -> msg_ok m -> zlen (EncodeMsg m ++ rest) < 4294967296 ->
  exists m', DecodeMsg (mkslice (EncodeMsg m ++ rest) sp) = Ok (mkdres (Some m') (zlen (EncodeMsg m)) None) /\ same_msg m m'.
Proof. exact Decode_Encode. Qed.
Print Assumptions C14_Decode_Encode.
Theorem C14_Decode_sound : forall l sp m k,
  zlen l < 4294967296 -> DecodeMsg (mkslice l sp) = Ok (mkdres (Some m) k None) ->
  exists rest, l = wire_of m ++ rest /\ k = zlen (wire_of m) /\ msg_ok m /\ not_piece m.
Proof. exact Decode_sound. Qed.
Print Assumptions C14_Decode_sound.
(** Length and Mtype tell the length of the message after its first four bytes, and its type. *)
Theorem C14_Length_Mtype : forall m, msg_ok m -> exists rest, wire_of m = be32 (Length m) ++ rest /\ zlen rest = Length m /\ (m <> MKeepAlive -> exists p, rest = z2b (Mtype m) :: p).
Proof. exact accessors_top. Qed.
Print Assumptions C14_Length_Mtype.
Example C14_case :
  let bf := mkbf (repeat x00 5) [xa5; x80]%byte 2 9 5 in
  codec_msg (MBitfield bf) /\ msg_ok (MBitfield bf) /\ codec_msg (MHave 4294967295) /\ msg_ok (MHave 4294967295).
Proof. vm_compute. repeat split; (reflexivity || discriminate || (intros; discriminate)). Qed.

(** C15 *)
Theorem C15_DecodeAll_stream : forall ms sp,
  Forall not_piece ms -> Forall msg_ok ms -> zlen (stream ms) < 4294967296 ->
  exists ms', Forall2 same_msg ms ms' /\ forall fuel, (List.length ms < fuel)%nat ->
    DecodeAll fuel (mkslice (stream ms) sp) = Ok (ms', zlen (stream ms)).
Proof. exact DecodeAll_stream. Qed.
Print Assumptions C15_DecodeAll_stream.
Theorem C15_DecodeAll_partial_tail : forall ms p sp,
  Forall not_piece ms -> Forall msg_ok ms -> cut_message p -> zlen (stream ms ++ p) < 4294967296 ->
  exists ms', Forall2 same_msg ms ms' /\ forall fuel, (List.length ms + 1 < fuel)%nat ->
    DecodeAll fuel (mkslice (stream ms ++ p) sp) = Ok (ms', zlen (stream ms)).
Proof. exact DecodeAll_stream_cut. Qed.
Print Assumptions C15_DecodeAll_partial_tail.
Example C15_case : Forall not_piece [MHave 3; MKeepAlive; MRequest 1 2 3; MChoke] /\
  Forall msg_ok [MHave 3; MKeepAlive; MRequest 1 2 3; MChoke] /\
  stream [MHave 3; MKeepAlive; MRequest 1 2 3; MChoke] <> [] /\ cut_message [x00; x00; x00; x05; x04; x00]%byte.
Proof.
  split; [repeat constructor|]. split; [repeat constructor; vm_compute; (reflexivity || discriminate)|].
  split; [discriminate|]. exists (MHave 7), [x00; x00; x07]%byte. split; [split; vm_compute; (reflexivity || discriminate)|].
  split; [reflexivity|]. split; discriminate.
Qed.

(** C16 *)
Theorem C16_Decode_panics : forall l sp, zlen l < 4294967296 ->
  (DecodeMsg (mkslice l sp) = Panic <-> panic_frame l).
Proof. exact Decode_panics. Qed.
Print Assumptions C16_Decode_panics.
Theorem C16_DecodeAll_panics : forall l sp, zlen l < 4294967296 ->
  ((exists fuel, DecodeAll fuel (mkslice l sp) = Panic) <->
   exists i, reach l 0 i /\ 0 <= i < zlen l /\ panic_frame (skipn (Z.to_nat i) l)).
Proof. exact DecodeAll_panics. Qed.
Print Assumptions C16_DecodeAll_panics.
Example C16_case : panic_frame [x00; x00; x00; x0a; x07; x00; x00; x00; x01; x00; x00; x00; x00; xab]%byte /\
  ~ panic_frame [x00; x00; x00; x05; x04; x00; x00; x00; x01]%byte.
Proof.
  split.
  - exists 10, x07, [x00; x00; x00; x01; x00; x00; x00; x00; xab]%byte. split; [reflexivity|]. split; [lia|]. left. split; [reflexivity|discriminate].
  - rewrite <- (Decode_panics _ []) by reflexivity. discriminate.
Qed.

(** C17 *)
Theorem C17_diverges_iff : forall l sp, zlen l < 4294967296 ->
  ((forall fuel, DecodeAll fuel (mkslice l sp) = NoFuel) <->
   exists i, reach l 0 i /\ firstn 5 (skipn (Z.to_nat i) l) = empty_bitfield_frame).
Proof. exact DecodeAll_diverges. Qed.
Print Assumptions C17_diverges_iff.
Theorem C17_otherwise_bounded : forall l sp, zlen l < 4294967296 ->
  (forall i, reach l 0 i -> firstn 5 (skipn (Z.to_nat i) l) <> empty_bitfield_frame) ->
  DecodeAll (S (List.length l)) (mkslice l sp) <> NoFuel.
Proof. exact DecodeAll_terminates. Qed.
Print Assumptions C17_otherwise_bounded.
Theorem C17_termination_refuted : exists l, forall sp fuel, DecodeAll fuel (mkslice l sp) = NoFuel.
Proof.
  exists (x00 :: x00 :: x00 :: x00 :: empty_bitfield_frame)%byte. intros sp. apply DecodeAll_diverges; [reflexivity|].
  exists 4. split; [|reflexivity]. eapply reach_step with (dr := mkdres (Some MKeepAlive) 4 None) (sp := []); [reflexivity|reflexivity|]. constructor.
Qed.
Print Assumptions C17_termination_refuted.

(** C18 *)
Theorem C18_Read_exact : forall l sp fuel ms k, zlen l < 4294967296 ->
  DecodeAll fuel (mkslice l sp) = Ok (ms, k) -> k = total_size ms /\ 0 <= k <= zlen l.
Proof. exact DecodeAll_read. Qed.
Print Assumptions C18_Read_exact.
Example C18_case : DecodeAll 5 (mkslice [x00; x00; x00; x01; x02; x00; x00; x00; x02; x02]%byte []) = Ok ([MInterested], 5).
Proof. reflexivity. Qed.

(** C19 *)
Theorem C19_Encode_request : forall i b l, EncodeMsg (MRequest i b l) = be32 l ++ [z2b 6].
Proof. exact Encode_request. Qed.
Print Assumptions C19_Encode_request.
Theorem C19_wire_refuted : exists i b l, is_u32 i /\ is_u32 b /\ is_u32 l /\
  EncodeMsg (MRequest i b l) <> wire_of (MRequest i b l).
Proof. exists 1, 2, 16384. unfold is_u32. repeat split; (lia || discriminate). Qed.
Print Assumptions C19_wire_refuted.
Theorem C19_own_encoding_lost : forall i b l sp, is_u32 l ->
  match DecodeMsg (mkslice (EncodeMsg (MRequest i b l)) sp) with
  | Ok dr => d_msg dr = None \/ (l = 0 /\ d_msg dr = Some MKeepAlive)
  | _ => 4294967292 <= l
  end.
Proof. exact Decode_own_request. Qed.
Print Assumptions C19_own_encoding_lost.
Theorem C19_Decode_request : forall i b l rest sp, is_u32 i -> is_u32 b -> is_u32 l ->
  zlen rest < 4294967279 ->
  DecodeMsg (mkslice (wire_of (MRequest i b l) ++ rest) sp) = Ok (mkdres (Some (MRequest i b l)) 17 None).
Proof. exact Decode_request. Qed.
Print Assumptions C19_Decode_request.

(** C20 *)
Theorem C20_Encode_piece : forall i b block, zlen block < 4294967287 ->
  EncodeMsg (MPiece i b block) = wire_of (MPiece i b block).
Proof. exact Encode_piece. Qed.
Print Assumptions C20_Encode_piece.
Theorem C20_DecodeMsgPiece : forall p len m, zlen p < 4294967296 ->
  (DecodeMsgPiece p len = Ok m <->
   zlen p = len /\ 8 <= len /\ exists i b block, is_u32 i /\ is_u32 b /\ p = be32 i ++ be32 b ++ block /\ m = MPiece i b block).
Proof. exact DecodeMsgPiece_spec. Qed.
Print Assumptions C20_DecodeMsgPiece.
Theorem C20_DecodeMsgPiece_refuses : forall p len, zlen p < 4294967296 -> ~ (zlen p = len /\ 8 <= len) -> DecodeMsgPiece p len = Err EBadMessage.
Proof. exact DecodeMsgPiece_refuses. Qed.
Print Assumptions C20_DecodeMsgPiece_refuses.
Theorem C20_DecodeMsgHave : forall p, zlen p < 4294967296 -> (forall m, DecodeMsgHave p = Ok m <-> exists i, is_u32 i /\ p = be32 i /\ m = MHave i) /\ (zlen p <> 4 -> DecodeMsgHave p = Err EBadMessage).
Proof. exact DecodeMsgHave_spec. Qed.
Print Assumptions C20_DecodeMsgHave.
Theorem C20_DecodeMsgRequest : forall p, zlen p < 4294967296 ->
  (forall m, DecodeMsgRequest p = Ok m <-> exists i b l, is_u32 i /\ is_u32 b /\ is_u32 l /\ p = be32 i ++ be32 b ++ be32 l /\ m = MRequest i b l) /\ (zlen p <> 12 -> DecodeMsgRequest p = Err EBadMessage).
Proof. exact DecodeMsgRequest_spec. Qed.
Print Assumptions C20_DecodeMsgRequest.
Theorem C20_Decode_never_piece : forall l sp dr i b block, zlen l < 4294967296 ->
  DecodeMsg (mkslice l sp) = Ok dr -> d_msg dr <> Some (MPiece i b block).
Proof. exact Decode_no_piece. Qed.
Print Assumptions C20_Decode_never_piece.
Theorem C20_Decode_piece_panics : forall i b block rest sp,
  zlen (wire_of (MPiece i b block) ++ rest) < 4294967296 ->
  DecodeMsg (mkslice (wire_of (MPiece i b block) ++ rest) sp) = Panic.
Proof. exact Decode_piece_panics. Qed.
Print Assumptions C20_Decode_piece_panics.
Example C20_case : DecodeMsgPiece (be32 1 ++ be32 2 ++ [xaa]%byte) 9 = Ok (MPiece 1 2 [xaa]%byte) /\ DecodeMsgPiece (be32 1 ++ be32 2 ++ [xaa]%byte) 10 = Err EBadMessage /\
  DecodeMsgHave (be32 7) = Ok (MHave 7) /\ DecodeMsgRequest (be32 7 ++ be32 8 ++ be32 9) = Ok (MRequest 7 8 9).
Proof. repeat split. Qed.

(** C21 *)
Theorem C21_Decode_spare : forall l sp sp', zlen l < 4294967296 ->
  DecodeMsg (mkslice l sp) = DecodeMsg (mkslice l sp').
Proof. exact DecodeMsg_spare. Qed.
Print Assumptions C21_Decode_spare.
Theorem C21_DecodeAll_spare : forall l sp sp' fuel, zlen l < 4294967296 ->
  DecodeAll fuel (mkslice l sp) = DecodeAll fuel (mkslice l sp').
Proof. exact DecodeAll_spare. Qed.
Print Assumptions C21_DecodeAll_spare.

(** C22 *)
Theorem C22_boundaries : forall (groups : list (list msg)) (spares : list bytes),
  List.length spares = List.length groups ->
  Forall (fun g => Forall not_piece g /\ Forall msg_ok g /\ zlen (stream g) < 4294967296) groups ->
  exists ms', Forall2 same_msg (List.concat groups) ms' /\ exists f0, forall fuel, (f0 <= fuel)%nat ->
    recv_messages fuel (map (fun p => mkslice (stream (fst p)) (snd p)) (combine groups spares)) = Ok ms'.
Proof. exact recv_boundaries. Qed.
Print Assumptions C22_boundaries.
Theorem C22_cut_message_lost : forall ms p sp,
  Forall not_piece ms -> Forall msg_ok ms -> cut_message p -> zlen (stream ms ++ p) < 4294967296 ->
  exists ms' f0, Forall2 same_msg ms ms' /\ forall fuel, (f0 <= fuel)%nat ->
    recv_messages fuel [mkslice (stream ms ++ p) sp] = Ok ms'.
Proof. exact recv_cut_first. Qed.
Print Assumptions C22_cut_message_lost.
Theorem C22_any_cut_refuted : exists ms a b, stream ms = a ++ b /\ Forall msg_ok ms /\
  (forall fuel, (4 <= fuel)%nat -> recv_messages fuel [mkslice (a ++ b) []] = Ok ms) /\
  (forall fuel, (4 <= fuel)%nat -> recv_messages fuel [mkslice a []; mkslice b []] = Ok []).
Proof.
  exists [MHave 1], [x00; x00; x00; x05]%byte, [x04; x00; x00; x00; x01]%byte.
  split; [reflexivity|]. split; [repeat constructor; vm_compute; (reflexivity || discriminate)|].
  split; intros [|[|[|[|fuel]]]] H; try lia; reflexivity.
Qed.
Print Assumptions C22_any_cut_refuted.
(** A cut can even make the second read loop forever. *)
Theorem C22_cut_hangs_refuted : exists m a b, wire_of m = a ++ b /\ msg_ok m /\
  (forall fuel, recv_messages fuel [mkslice a []; mkslice b []] = NoFuel) /\
  exists m', forall fuel, (2 <= fuel)%nat -> recv_messages fuel [mkslice (a ++ b) []] = Ok [m'].
Proof. exact cut_hangs. Qed.
Print Assumptions C22_cut_hangs_refuted.
