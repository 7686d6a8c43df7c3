(** PropsBitfield.v: property theorems C10-C13 (bitfield). *)
From Verif Require Import Base BitfieldModel BitfieldSpec BitfieldProofs.

(** C10: any run of in-domain calls from NewBitfield behaves as the vector, with the count. *)
Theorem C10_vector : forall n ops,
  0 <= n -> vvalid_all (zero_vec n) ops ->
  exists bf, (do b0 <- NewBitfield n; brun b0 ops) = Ok bf /\ agrees bf (vrun (zero_vec n) ops).
Proof. exact NewBitfield_agrees. Qed.
Print Assumptions C10_vector.
(** A negative number of bits: a panic for -8 and from -16 down; otherwise a bitfield of at most one byte. *)
Theorem C10_negative : forall n, n < 0 -> (NewBitfield n = Panic <-> n <= -16 \/ n = -8) /\
  (NewBitfield n <> Panic -> exists bf, NewBitfield n = Ok bf /\ Nbits bf = n /\ zlen (Data bf) <= 1).
Proof. exact NewBitfield_negative. Qed.
Print Assumptions C10_negative.
Example C10_negative_case : NewBitfield (-8) = Panic /\ exists bf, NewBitfield (-9) = Ok bf.
Proof. split; [reflexivity|eexists; reflexivity]. Qed.
Example C10_case : vvalid_all (zero_vec 11) [OSet 10 true; OSet 3 true; OFill; OSet 0 false; OSetNbits 9; OSet 8 false].
Proof. cbn [vvalid_all vvalid app]. repeat split; vm_compute; first [reflexivity | discriminate]. Qed.

Theorem C10_Set_panics : forall bf i v, SetBit bf i v = Panic <-> i < 0 \/ 8 * zlen (Data bf) <= i.
Proof. exact SetBit_panics. Qed.
Print Assumptions C10_Set_panics.
Theorem C10_Get_panics : forall bf i, Get bf i = Panic <-> i < 0 \/ 8 * zlen (Data bf) <= i.
Proof. exact Get_panics. Qed.
Print Assumptions C10_Get_panics.

(** An index among the spare bits of the last byte is accepted and counted. *)
Theorem C10_spare_index_counts : forall n i,
  0 <= n -> n <= i < 8 * bytes_for n ->
  exists bf, (do b0 <- NewBitfield n; SetBit b0 i true) = Ok bf /\ Nset bf = 1 /\
    (forall j, 0 <= j < n -> Get bf j = Ok false).
Proof. exact SetBit_spare. Qed.
Print Assumptions C10_spare_index_counts.
Example C10_spare_case : 9 <= 12 < 8 * bytes_for 9.
Proof. vm_compute. split; [discriminate|reflexivity]. Qed.

(** C11 *)
Theorem C11_FromBytes : forall b n ops,
  5 < zlen b -> 8 * (zlen b - 5) - 8 < n <= 8 * (zlen b - 5) ->
  vvalid_all (mkvec (bits_of (skipn 5 b)) n) ops ->
  exists bf, (do b0 <- FromBytes b n; brun b0 ops) = Ok bf /\ agrees bf (vrun (mkvec (bits_of (skipn 5 b)) n) ops).
Proof. exact FromBytes_agrees. Qed.
Print Assumptions C11_FromBytes.
Theorem C11_FromBytes_rejects : forall b n,
  ~ (5 < zlen b /\ 8 * (zlen b - 5) - 8 < n <= 8 * (zlen b - 5)) -> exists e, FromBytes b n = Err e.
Proof. exact FromBytes_rejects. Qed.
Print Assumptions C11_FromBytes_rejects.
Example C11_case : exists bf, FromBytes [x00; x00; x00; x02; x05; xff; x08]%byte 13 = Ok bf /\ Nset bf = 9 /\ Get bf 12 = Ok true.
Proof. eexists. vm_compute. auto. Qed.

(** C12 (the in-domain part is in [agrees] for OSetNbits; here the domain and its edge). *)
Theorem C12_SetNbits_panics : forall bf n,
  0 <= n -> 0 < Nbytes bf -> Nbytes bf = zlen (Data bf) ->
  (SetNbits bf n = Panic <-> n < 8 * (Nbytes bf - 1) \/ 8 * Nbytes bf < n).
Proof. exact SetNbits_panics. Qed.
Print Assumptions C12_SetNbits_panics.
Theorem C12_SetNbits_recounts : forall b n m,
  5 < zlen b -> 8 * (zlen b - 5) - 8 < n <= 8 * (zlen b - 5) ->
  8 * (zlen b - 5) - 8 < m <= 8 * (zlen b - 5) ->
  exists bf, (do b0 <- FromBytes b n; SetNbits b0 m) = Ok bf /\ agrees bf (mkvec (bits_of (skipn 5 b)) m).
Proof. exact SetNbits_recounts. Qed.
Print Assumptions C12_SetNbits_recounts.
Theorem C12_boundary_counts_extra_byte : forall bf n,
  Nbytes bf = zlen (Data bf) -> 0 < Nbytes bf -> n = 8 * (Nbytes bf - 1) ->
  exists bf', SetNbits bf n = Ok bf' /\ Nbits bf' = n /\ Data bf' = Data bf /\
    Nset bf' = count_true (bits_of (Data bf)).
Proof. exact SetNbits_boundary. Qed.
Print Assumptions C12_boundary_counts_extra_byte.
Theorem C12_recount_refuted : exists b n m bf,
  (do b0 <- FromBytes b n; SetNbits b0 m) = Ok bf /\ Nbits bf = m /\
  Nset bf <> count_true (firstn (Z.to_nat m) (bits_of (Data bf))) /\ Nbits bf < Nset bf.
Proof.
  exists [x00; x00; x00; x03; x05; xff; xff]%byte, 16, 8. eexists.
  split; [vm_compute; reflexivity|]. vm_compute. repeat split; discriminate.
Qed.
Print Assumptions C12_recount_refuted.

(** C13 *)
Theorem C13_Fill : forall n ops,
  0 <= n -> vvalid_all (zero_vec n) ops ->
  exists bf, (do b0 <- NewBitfield n; brun b0 (ops ++ [OFill])) = Ok bf /\
    (forall i, 0 <= i < Nbits bf -> Get bf i = Ok true) /\ Nset bf = Nbits bf /\ Complete bf = true.
Proof. exact Fill_completes. Qed.
Print Assumptions C13_Fill.
Theorem C13_after_Fill : forall n ops ops',
  0 <= n -> vvalid_all (zero_vec n) (ops ++ OFill :: ops') ->
  exists bf, (do b0 <- NewBitfield n; brun b0 (ops ++ OFill :: ops')) = Ok bf /\
    agrees bf (vrun (mkvec (repeat true (Z.to_nat (8 * bytes_for n))) (vn (vrun (zero_vec n) ops))) ops').
Proof. exact Fill_then. Qed.
Print Assumptions C13_after_Fill.
(** Data5 is five header bytes followed by Data, whatever is called: the header bytes are 0 until
    the first Fill and 255 ever after. *)
Theorem C13_Data5 : forall n ops bf,
  (do b0 <- NewBitfield n; brun b0 ops) = Ok bf ->
  Data5 bf = repeat (if existsb (fun o => match o with OFill => true | _ => false end) ops then z2b 255 else z2b 0) 5 ++ Data bf /\
  zlen (Data bf) = Z.quot n 8 + (if Z.rem n 8 =? 0 then 0 else 1).
Proof. exact Data5_layout. Qed.
Print Assumptions C13_Data5.
Example C13_Data5_case : exists bf, (do b0 <- NewBitfield 9; brun b0 [OSet 3 true; OFill; OSet 0 false]) = Ok bf /\
  Data5 bf = [xff; xff; xff; xff; xff; x7f; xff]%byte.
Proof. eexists. split; vm_compute; reflexivity. Qed.
Example C13_case : vvalid_all (zero_vec 20) ([OSet 19 true] ++ OFill :: [OSet 4 false]).
Proof. cbn [vvalid_all vvalid app]. repeat split; vm_compute; first [reflexivity | discriminate]. Qed.
