(** PropsBencode.v: property theorems C01-C07 (bencode). *)
From Verif Require Import Base BencodeModel BencodeSpec BencodeProofs.

(** A value used below to show that hypotheses can be met: nested, two int widths, an
    unsorted dictionary, a negative integer. *)
Definition sample : gval :=
  VDict [(B "b", VList [VInt KInt 7; VStr (B "x:y"); VList []]);
         (B "a", VDict [(B "k", VInt KInt64 (-42))]);
         (B "ab", VStr (B "0"))].
Definition sample_text : bytes := B "d1:ad1:ki-42ee2:ab1:01:bli7e3:x:yleee".

Ltac wf_tac := repeat first
  [ constructor | discriminate
  | match goal with |- ~ _ => let H := fresh in intro H; repeat (destruct H as [H|H]; [discriminate|]); exact H end
  | (unfold in_kind, zlen, min64, max64; cbn; lia) ].

Example sample_wf : go_wf sample /\ encodable sample /\ no_min64 sample.
Proof. unfold sample, B. cbn. split; [|split]; wf_tac. Qed.
Example sample_encodes : Encode sample = (sample_text, None).
Proof. vm_compute. reflexivity. Qed.

(** C01 *)
Theorem C01_encode_canonical : forall v,
  go_wf v ->
  (snd (Encode v) = None <-> encodable v) /\
  (encodable v -> exists m, denotes v m /\ canonical m (fst (Encode v))).
Proof. exact Encode_canonical. Qed.
Print Assumptions C01_encode_canonical.
Example C01_case : exists m, denotes sample m /\ canonical m sample_text.
Proof. change sample_text with (fst (sample_text, @None goerr)). rewrite <- sample_encodes. apply C01_encode_canonical; apply sample_wf. Qed.
Example C01_reject : snd (Encode (VList [VInt KInt 1; VDict [(B "k", VStr [])]])) <> None.
Proof. vm_compute. discriminate. Qed.

(** C02 *)
Theorem C02_decode_encode : forall v b junk sp,
  go_wf v -> no_min64 v -> Encode v = (b, None) ->
  exists w m, Decode (mkslice (b ++ junk) sp) = Ok w /\ all_int64 w /\ denotes v m /\ denotes w m.
Proof. exact Decode_Encode. Qed.
Print Assumptions C02_decode_encode.
Example C02_case : exists w m, Decode (mkslice (sample_text ++ B "junk") (B "e")) = Ok w /\ all_int64 w /\ denotes sample m /\ denotes w m.
Proof. apply C02_decode_encode; [apply sample_wf|apply sample_wf|exact sample_encodes]. Qed.

(** -2^63 anywhere in the value: the text Encode produced is rejected. *)
Theorem C02_min64_rejected : forall v b junk sp,
  go_wf v -> Encode v = (b, None) -> ~ no_min64 v -> Decode (mkslice (b ++ junk) sp) = Err EAtoi.
Proof. exact Decode_min64. Qed.
Print Assumptions C02_min64_rejected.
Theorem C02_roundtrip_refuted : exists v b,
  go_wf v /\ Encode v = (b, None) /\ Decode (mkslice b []) = Err EAtoi.
Proof.
  exists (VInt KInt64 min64), (B "i-9223372036854775808e").
  split; [constructor; cbn; unfold min64, max64; lia|]. split; vm_compute; reflexivity.
Qed.
Print Assumptions C02_roundtrip_refuted.
Example C02_min64_case : go_wf (VList [VInt KInt min64]) /\ ~ no_min64 (VList [VInt KInt min64]).
Proof.
  split; [wf_tac|]. intros H. inversion H as [| |? HF| |]; subst. inversion HF as [|? ? Hn _]; subst.
  inversion Hn; subst. congruence.
Qed.

(** C03 *)
Theorem C03_decode_total : forall data,
  (exists v, Decode data = Ok v /\ go_wf v /\ all_int64 v) \/ (exists e, Decode data = Err e).
Proof. exact Decode_total_wf. Qed.
Print Assumptions C03_decode_total.
Example C03_case : Decode (mkslice (B "d3:abci5el") []) = Err EBadString
  \/ Decode (mkslice (B "d3:abci5el") []) = Err EPanicked.
Proof. vm_compute. auto. Qed.

(** C04 *)
Theorem C04_decode_canonical : forall m t junk sp,
  canonical m t -> representable m ->
  exists w, Decode (mkslice (t ++ junk) sp) = Ok w /\ denotes w m /\ all_int64 w /\
    (no_empty m -> Encode w = (t, None)).
Proof. exact Decode_accepts. Qed.
Print Assumptions C04_decode_canonical.
Example C04_case : exists m, canonical m sample_text /\ representable m.
Proof.
  destruct sample_wf as (H1 & H2 & H3).
  destruct (proj2 (C01_encode_canonical sample H1) H2) as (m & Hd & Hc).
  rewrite sample_encodes in Hc. exists m. split; [exact Hc|]. exact (denotes_representable _ H1 H3 _ Hd).
Qed.

(** C05 *)
Theorem C05_encode_order_independent : forall v w,
  gperm v w -> go_wf v -> Encode v = Encode w.
Proof. exact encode_gperm. Qed.
Print Assumptions C05_encode_order_independent.
Example C05_case :
  let d := [(B "b", VInt KInt 1); (B "a", VStr (B "q"))] in
  gperm (VDict d) (VDict (rev d)) /\ d <> rev d.
Proof.
  split; [|discriminate]. cbn. eapply gp_dict; [apply perm_swap|].
  repeat constructor.
Qed.

Theorem C05_encode_injective : forall v w b,
  go_wf v -> go_wf w -> Encode v = (b, None) -> Encode w = (b, None) ->
  exists m, denotes v m /\ denotes w m.
Proof. exact Encode_injective. Qed.
Print Assumptions C05_encode_injective.

(** C06 *)
Theorem C06_container_or_int_input : forall data s1 s2,
  (exists b r, data = b :: r /\ (b = "d" \/ b = "l" \/ b = "i")%byte) ->
  Decode (mkslice data s1) = Decode (mkslice data s2).
Proof. exact Decode_spare_dli. Qed.
Print Assumptions C06_container_or_int_input.
Theorem C06_non_string_value : forall data s1 s2 w,
  Decode (mkslice data s1) = Ok w -> (forall s, w <> VStr s) -> Decode (mkslice data s2) = Ok w.
Proof. exact Decode_spare_value. Qed.
Print Assumptions C06_non_string_value.
Example C06_case : Decode (mkslice sample_text (B "tail")) = Decode (mkslice sample_text []) /\
  exists d, Decode (mkslice sample_text []) = Ok (VDict d).
Proof. split; [apply C06_container_or_int_input; vm_compute; eauto|]. vm_compute. eauto. Qed.
(** A top-level string reads past len(data). *)
Theorem C06_top_string_refuted : exists data s1 s2 a b,
  Decode (mkslice data s1) = Ok (VStr a) /\ Decode (mkslice data s2) = Ok (VStr b) /\ a <> b /\
  Decode (mkslice data []) = Err EPanicked.
Proof.
  exists (B "4:ab"), (B "cd"), (B "xy"), (B "abcd"), (B "abxy"). repeat split; vm_compute; try reflexivity. discriminate.
Qed.
Print Assumptions C06_top_string_refuted.

(** C07 *)
Theorem C07_GetString : forall d k, NoDup (map fst d) ->
  (forall s, GetString d k = Ok s <-> In (k, VStr s) d) /\
  (GetString d k = Err EMissingKey <-> forall v, ~ In (k, v) d) /\
  (GetString d k = Err EBadType <-> exists v, In (k, v) d /\ forall s, v <> VStr s).
Proof. exact GetString_spec. Qed.
Print Assumptions C07_GetString.
Theorem C07_GetInt : forall d k, NoDup (map fst d) ->
  (forall z, GetInt d k = Ok z <-> In (k, VInt KInt64 z) d) /\
  (GetInt d k = Err EMissingKey <-> forall v, ~ In (k, v) d) /\
  (GetInt d k = Err EBadType <-> exists v, In (k, v) d /\ forall z, v <> VInt KInt64 z).
Proof. exact GetInt_spec. Qed.
Print Assumptions C07_GetInt.
Theorem C07_GetDict : forall d k, NoDup (map fst d) ->
  (forall x, GetDict d k = Ok x <-> In (k, VDict x) d) /\
  (GetDict d k = Err EMissingKey <-> forall v, ~ In (k, v) d) /\
  (GetDict d k = Err EBadType <-> exists v, In (k, v) d /\ forall x, v <> VDict x).
Proof. exact GetDict_spec. Qed.
Print Assumptions C07_GetDict.
Theorem C07_GetList : forall d k, NoDup (map fst d) ->
  (forall x, GetList d k = Ok x <-> In (k, VList x) d) /\
  (GetList d k = Err EMissingKey <-> forall v, ~ In (k, v) d) /\
  (GetList d k = Err EBadType <-> exists v, In (k, v) d /\ forall x, v <> VList x).
Proof. exact GetList_spec. Qed.
Print Assumptions C07_GetList.
Theorem C07_GetUint : forall d k z,
  NoDup (map fst d) -> In (k, VInt KInt64 z) d -> min64 <= z <= max64 ->
  GetUint d k = Ok (if z <? 0 then z + 18446744073709551616 else z).
Proof. exact GetUint_spec. Qed.
Print Assumptions C07_GetUint.
(** Key/value pairs in any order, repeats allowed: the last binding of each key wins. *)
Theorem C07_last_binding : forall l t junk sp,
  canonical_map l t ->
  Forall (fun kv => zlen (fst kv) <= max64 /\ representable (snd kv)) l ->
  exists d, Decode (mkslice ("d"%byte :: t ++ "e"%byte :: junk) sp) = Ok (VDict d) /\
    NoDup (map fst d) /\
    (forall k m, last_binding k l = Some m -> exists w, In (k, w) d /\ denotes w m) /\
    (forall k, last_binding k l = None -> forall w, ~ In (k, w) d).
Proof. exact Decode_bindings. Qed.
Print Assumptions C07_last_binding.
Example C07_case :
  let l := [(B "b", BInt 1); (B "a", BInt 2); (B "b", BInt 3)] in
  last_binding (B "b") l = Some (BInt 3) /\ canonical_map l (B "1:bi1e1:ai2e1:bi3e").
Proof.
  cbv zeta. split; [vm_compute; reflexivity|].
  assert (HS : forall k : byte, canonical (BStr [k]) (["1"; ":"]%byte ++ [k])).
  { intros k. apply (can_str [k] ["1"%byte]). repeat split; try discriminate.
    - repeat constructor; discriminate.
    - intros d r E _. now injection E. }
  assert (HI : forall c : byte, 48 < b2z c <= 57 -> canonical (BInt (b2z c - 48)) (["i"%byte] ++ [c] ++ ["e"%byte])).
  { intros c Hc. apply can_pos. repeat split; try discriminate.
    - repeat constructor; lia.
    - intros d r E. injection E as <- <-. reflexivity. }
  exact (can_mcons (B "b") (BInt 1) _ _ _ _ (HS "b"%byte) (HI "1"%byte ltac:(vm_compute; split; [reflexivity|discriminate]))
    (can_mcons (B "a") (BInt 2) _ _ _ _ (HS "a"%byte) (HI "2"%byte ltac:(vm_compute; split; [reflexivity|discriminate]))
    (can_mcons (B "b") (BInt 3) _ _ _ _ (HS "b"%byte) (HI "3"%byte ltac:(vm_compute; split; [reflexivity|discriminate])) can_mnil))).
Qed.
