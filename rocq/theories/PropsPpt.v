(** PropsPpt.v: the peer piece tracker, bitfield messages and request creation (C43-C49). *)
From Coq Require Import ZifyBool ZifyNat ZifyN.
From Verif Require Import Base BitfieldModel BitfieldSpec WireModel WireSpec LayoutModel LayoutSpec FsSpec DsModel DsSpec PptModel PptSpec PptProofs PieceMapProofs PropsFs.

(** C43 *)
Theorem C43_bookkeeping : forall size ops, pvalid size ops -> exists t, (do t0 <- NewPeerPieceTracker size; prun t0 ops) = Ok t /\
  (forall i, 0 <= i < size -> exists n, 0 <= n <= 63 /\ npeers (rev ops) i n /\ forall m, npeers (rev ops) i m -> m = n) /\
  (forall j, 0 <= j <= 63 -> exists l, bucket t j = Ok l /\ NoDup l /\ forall i, In i l <-> 0 <= i < size /\ npeers (rev ops) i j) /\
  (forall i k, 0 <= i < size -> (lists t i k <-> registered (rev ops) k i)).
Proof. exact bookkeeping_top. Qed.
Print Assumptions C43_bookkeeping.
(** Three pieces; peers p, q, r. *)
Definition hp : handler := mkh 0 (B "p").
Definition hq : handler := mkh 1 (B "q").
Definition hr : handler := mkh 2 (B "r").
Definition none3 : bitfield := mkbf (repeat x00 5) [x00]%byte 1 3 0.
Definition has12 : bitfield := mkbf (repeat x00 5) [x60]%byte 1 3 2.
Definition hist3 : list pop := [PRegister hp [0; 1; 2]; PRegisterBF hq has12; PNext hp none3; PRegister hr [2; 2; 1]; PUnregister hr].
Lemma hist3_keys : forall n k i, registered (rev (firstn n hist3)) k i -> In k [B "p"; B "q"; B "r"].
Proof.
  intros n k i. do 6 (destruct n as [|n]; [cbn; intuition (subst; cbn; auto)|]). cbn. intuition (subst; cbn; auto).
Qed.
Lemma hist3_who k i : registered (rev hist3) k i <-> (k = B "p" /\ 0 <= i <= 2) \/ (k = B "q" /\ 1 <= i <= 2).
Proof.
  assert (HG : forall j, 0 <= j < 3 -> (Get has12 j = Ok true <-> 1 <= j <= 2)).
  { intros j Hj. assert (j = 0 \/ j = 1 \/ j = 2) as [E|[E|E]] by lia; subst j; vm_compute; intuition (try discriminate; try congruence). }
  cbn [registered rev hist3 app h_key hp hq hr Nbits has12 In]. split.
  - intros [Hk [[H _]|[(<- & Hi & H)|[[<- H]|[]]]]]; [congruence|right|left]; (split; [reflexivity|]); [apply HG in H; [lia|cbn in Hi; lia]|intuition lia].
  - intros [[-> H]|[-> H]]; (split; [discriminate|]); right; [right; left; split; [reflexivity|lia]|left; split; [reflexivity|]; split; [cbn; lia|]; apply HG; lia].
Qed.
Example C43_case : pvalid 3 hist3 /\ npeers (rev hist3) 1 2 /\ npeers (rev hist3) 0 1.
Proof.
  split; [|split].
  - split; [lia|]. split; [repeat constructor; cbn; lia|]. intros n i ks Hn Hk.
    assert (List.length ks <= List.length [B "p"; B "q"; B "r"])%nat by (apply NoDup_incl_length; [exact Hn|]; intros k Hx; exact (hist3_keys n k i (Hk k Hx))).
    cbn in H. unfold zlen. lia.
  - exists [B "p"; B "q"]. split; [repeat constructor; cbn; intuition discriminate|]. split; [|reflexivity]. intros k. rewrite hist3_who. cbn [In]. split; intros; intuition (try congruence; try lia).
  - exists [B "p"]. split; [repeat constructor; cbn; intuition discriminate|]. split; [|reflexivity]. intros k. rewrite hist3_who. cbn [In]. split; intros; intuition (try congruence; try lia).
Qed.

(** A piece the tracker does not have: an index past the end panics in the middle of the call, whether it is listed or a set bit. *)
Theorem C43_no_such_piece : forall size ops w is i r, pvalid size (ops ++ [PRegister w is]) -> size <= i ->
  (do t0 <- NewPeerPieceTracker size; prun t0 (ops ++ [PRegister w (is ++ i :: r)])) = Panic.
Proof. exact no_such_piece_top. Qed.
Print Assumptions C43_no_such_piece.
Theorem C43_bit_outside : forall size ops w bf bf' i, pvalid size (ops ++ [PRegisterBF w bf']) -> Data bf' = Data bf -> Nbits bf' = size ->
  size <= i < Nbits bf -> Nbits bf <= 4294967296 -> Nbits bf <= 8 * zlen (Data bf) -> Get bf i = Ok true ->
  (do t0 <- NewPeerPieceTracker size; prun t0 (ops ++ [PRegisterBF w bf])) = Panic.
Proof. exact bit_outside_top. Qed.
Print Assumptions C43_bit_outside.
Example C43_outside_case : pvalid 3 (hist3 ++ []) /\ (do t0 <- NewPeerPieceTracker 3; prun t0 (hist3 ++ [PRegister hr [0; 3]])) = Panic /\
  Get (mkbf (repeat x00 5) [x48]%byte 1 5 2) 4 = Ok true /\ (do t0 <- NewPeerPieceTracker 3; prun t0 (hist3 ++ [PRegisterBF hr (mkbf (repeat x00 5) [x48]%byte 1 5 2)])) = Panic.
Proof. split; [rewrite app_nil_r; exact (proj1 C43_case)|]. vm_compute. repeat split. Qed.

(** C44 *)
Theorem C44_rarest_first : forall size ops bf w, pvalid size ops -> size <= 8 * zlen (Data bf) -> exists t i ok t',
  (do t0 <- NewPeerPieceTracker size; prun t0 ops) = Ok t /\ NextPiece t bf w = Ok (i, ok, t') /\
  if ok then candidate size (rev ops) bf w i /\
             forall j n m, candidate size (rev ops) bf w j -> npeers (rev ops) i n -> npeers (rev ops) j m -> n <= m
  else i = 0 /\ forall j, ~ candidate size (rev ops) bf w j.
Proof. exact next_top. Qed.
Print Assumptions C44_rarest_first.
(** p is offered piece 0, which only p has; q has no such piece and is offered piece 1 or 2; r is offered nothing. *)
Example C44_case : pvalid 3 hist3 /\ 3 <= 8 * zlen (Data none3) /\
  match (do t0 <- NewPeerPieceTracker 3; prun t0 hist3) with
  | Ok t => (answer (NextPiece t none3 hp), answer (NextPiece t none3 hq), answer (NextPiece t none3 hr)) = (Ok (0, true), Ok (2, true), Ok (0, false))
  | _ => False end.
Proof. split; [apply C43_case|]. split; [vm_compute; discriminate|]. vm_compute. reflexivity. Qed.

(** C45: a call to NextPiece changes no later answer, whoever asks. *)
Theorem C45_not_exclusive : forall t bf w i ok t', NextPiece t bf w = Ok (i, ok, t') -> forall bf' w', answer (NextPiece t' bf' w') = answer (NextPiece t bf' w').
Proof. exact NextPiece_repeat. Qed.
Print Assumptions C45_not_exclusive.
Theorem C45_exclusive_refuted : exists size ops bf w w' t i t', pvalid size ops /\ h_key w <> h_key w' /\
  (do t0 <- NewPeerPieceTracker size; prun t0 ops) = Ok t /\ NextPiece t bf w = Ok (i, true, t') /\ answer (NextPiece t' bf w') = Ok (i, true).
Proof.
  exists 3, (hist3 ++ [PNext hq none3]), (mkbf (repeat x00 5) [x80]%byte 1 3 1), hp, hq.
  eexists _, _, _. split.
  - apply (valid_snoc 3 hist3); [apply C43_case|vm_compute; discriminate|]. exact (never64_all _ (proj2 (proj2 (proj1 C43_case)))).
  - split; [discriminate|]. split; [vm_compute; reflexivity|]. split; vm_compute; reflexivity.
Qed.
Print Assumptions C45_exclusive_refuted.

(** C46 *)
Theorem C46_64th_peer : forall size ops w i n, pvalid size ops -> 0 <= i < size -> ~ registered (rev ops) (h_key w) i -> npeers (rev ops) i n ->
  exists t, (do t0 <- NewPeerPieceTracker size; prun t0 ops) = Ok t /\ 0 <= n <= 63 /\
    (n = 63 -> Register t w [i] = Panic) /\ (n < 63 -> exists t', Register t w [i] = Ok t').
Proof. exact sixtyfour_top. Qed.
Print Assumptions C46_64th_peer.
(** 63 peers, named by one byte each, all with piece 0. *)
Definition peer63 (n : nat) : handler := mkh n [z2b (Z.of_nat n)].
Definition crowd : list pop := map (fun n => PRegister (peer63 n) [0]) (seq 0 63).
Definition reg0 (hist : list pop) : list bytes := flat_map (fun o => match o with PRegister w is => if existsb (Z.eqb 0) is then [h_key w] else [] | _ => [] end) hist.
Lemma reg0_ok hist : Forall (fun o => match o with PRegister _ [0] => True | _ => False end) hist -> forall k i, registered hist k i <-> i = 0 /\ In k (reg0 hist).
Proof.
  induction 1 as [|o hist Ho _ IH]; intros k i; cbn [registered reg0 flat_map]; [cbn; tauto|].
  destruct o as [w [|z [|? ?]]| | |]; try contradiction; destruct z; try contradiction. cbn [existsb Z.eqb orb app In]. rewrite IH. unfold reg0. cbn [In]. intuition.
Qed.
Lemma crowd_shape l : Forall (fun o => match o with PRegister _ [0] => True | _ => False end) (rev (map (fun n => PRegister (peer63 n) [0]) l)).
Proof. apply Forall_rev. induction l; constructor; auto. Qed.
Example C46_case : pvalid 1 crowd /\ npeers (rev crowd) 0 63 /\ ~ registered (rev crowd) (h_key (peer63 63)) 0.
Proof.
  split; [|split].
  - split; [lia|]. split.
    + unfold crowd. generalize (seq 0 63). intros l. induction l; constructor; [repeat constructor; lia|assumption].
    + intros n i ks Hn Hk. assert (Hl : (List.length ks <= List.length (reg0 (rev (firstn n crowd))))%nat).
      { apply NoDup_incl_length; [exact Hn|]. intros k Hx. apply (reg0_ok (rev (firstn n crowd))) with (i := i); [|exact (Hk k Hx)].
        unfold crowd. rewrite firstn_map. apply crowd_shape. }
      assert (Hb : forall h, (List.length (reg0 h) <= List.length h)%nat).
      { induction h as [|o h IH]; [cbn; lia|]. unfold reg0 in *. cbn [flat_map]. rewrite app_length. destruct o; cbn [List.length]; try lia. destruct (existsb _ _); cbn [List.length]; lia. }
      specialize (Hb (rev (firstn n crowd))). rewrite rev_length, firstn_length in Hb. assert (List.length crowd = 63%nat) by reflexivity. unfold zlen. lia.
  - exists (reg0 (rev crowd)). split.
    { apply (NoDup_map_inv (fun k : bytes => match k with [b] => Z.to_nat (b2z b) | _ => 0%nat end)).
      replace (map _ _) with (rev (seq 0 63)) by (vm_compute; reflexivity). apply NoDup_rev, seq_NoDup. }
    split; [|reflexivity].
    intros k. rewrite (reg0_ok (rev crowd)) by apply crowd_shape. tauto.
  - rewrite (reg0_ok (rev crowd)) by apply crowd_shape. intros [_ H]. apply in_flat_map in H. destruct H as (o & Ho & Hk). apply in_rev in Ho. unfold crowd in Ho.
    apply in_map_iff in Ho. destruct Ho as (n & <- & Hn). apply in_seq in Hn. cbn [existsb Z.eqb orb h_key peer63] in Hk. destruct Hk as [Hk|[]].
    injection Hk as Hk. apply (f_equal b2z) in Hk. rewrite !b2z_z2b in Hk. rewrite Z.mod_small in Hk by lia. change (Z.of_nat 63 mod 256) with 63 in Hk. lia.
Qed.
Theorem C46_largest_bucket_refuted : exists size ops w i t, pvalid size ops /\ 0 <= i < size /\
  (do t0 <- NewPeerPieceTracker size; prun t0 ops) = Ok t /\ Register t w [i] = Panic.
Proof.
  destruct C46_case as (H1 & H2 & H3). destruct (C46_64th_peer 1 crowd (peer63 63) 0 63 H1 ltac:(lia) H3 H2) as (t & Ht & _ & Hp & _).
  exists 1, crowd, (peer63 63), 0, t. repeat split; auto; try lia; apply H1.
Qed.
Print Assumptions C46_largest_bucket_refuted.

(** C47 *)
Theorem C47_Unregister : forall size ops w, pvalid size ops -> exists t t', (do t0 <- NewPeerPieceTracker size; prun t0 ops) = Ok t /\ Unregister t w = Ok t' /\
  (forall i k, 0 <= i < size -> (lists t' i k <-> k <> h_key w /\ lists t i k)) /\
  (forall bf, size <= 8 * zlen (Data bf) -> NextPiece t' bf w = Ok (0, false, t')).
Proof. exact unregister_top. Qed.
Print Assumptions C47_Unregister.
Example C47_case : pvalid 3 hist3 /\ registered (rev hist3) (B "p") 1 /\ ~ registered (rev hist3) (B "r") 1.
Proof. split; [apply C43_case|]. rewrite !hist3_who. split; [left; split; [reflexivity|lia]|]. intros [[H _]|[H _]]; discriminate. Qed.

(** C48 *)
Theorem C48_handleBitfield : forall size ops own w old bf, pvalid size ops -> Nbytes own = bytes_for size -> Nbytes bf = zlen (Data bf) -> Nbytes bf = bytes_for size ->
  (forall i ks, NoDup ks -> (forall k, In k ks -> announced size (rev ops) w (bits_of (Data bf)) k i) -> zlen ks <= 63) ->
  exists t t' bf', (do t0 <- NewPeerPieceTracker size; prun t0 ops) = Ok t /\ handleBitfield t own size w old bf = (Ok tt, t', bf') /\
    (forall i k, 0 <= i < size -> (lists t' i k <-> announced size (rev ops) w (bits_of (Data bf)) k i)) /\
    Nbits bf' = size /\ Data bf' = Data bf /\
    pvalid size (ops ++ [PRegisterBF w bf']) /\ (do t0 <- NewPeerPieceTracker size; prun t0 (ops ++ [PRegisterBF w bf'])) = Ok t'.
Proof. exact handle_bf_top. Qed.
Print Assumptions C48_handleBitfield.
Theorem C48_wrong_size : forall t own size w old bf, Nbytes bf <> Nbytes own -> handleBitfield t own size w old bf = (Err EInvalid, t, old).
Proof. exact handle_bf_bad. Qed.
Print Assumptions C48_wrong_size.
(** Sent by a gotor peer whose bitfield holds v, over the wire. *)
Theorem C48_over_the_wire : forall size ops own w old bfp v sp, pvalid size ops -> 0 < size -> Nbytes own = bytes_for size ->
  agrees bfp v -> vn v = size -> zlen (vbits v) = 8 * bytes_for size -> List.length (bhdr bfp) = 5%nat ->
  (forall i ks, NoDup ks -> (forall k, In k ks -> announced size (rev ops) w (vbits v) k i) -> zlen ks <= 63) ->
  exists bf t t' bf', DecodeMsg (mkslice (EncodeMsg (MBitfield bfp)) sp) = Ok (mkdres (Some (MBitfield bf)) (zlen (EncodeMsg (MBitfield bfp))) None) /\
    (do t0 <- NewPeerPieceTracker size; prun t0 ops) = Ok t /\ handleBitfield t own size w old bf = (Ok tt, t', bf') /\
    (forall i k, 0 <= i < size -> (lists t' i k <-> announced size (rev ops) w (vbits v) k i)).
Proof. exact handle_bf_wire. Qed.
Print Assumptions C48_over_the_wire.
(** r announces pieces 0 and 2 of 3 (bits 101 and five spare bits). *)
Definition has02 : bitfield := mkbf (repeat x00 5) [xa0]%byte 1 3 2.
Example C48_case : pvalid 3 hist3 /\ Nbytes none3 = bytes_for 3 /\ agrees has02 (mkvec (bits_of [xa0]%byte) 3) /\
  (forall i ks, NoDup ks -> (forall k, In k ks -> announced 3 (rev hist3) hr (bits_of [xa0]%byte) k i) -> zlen ks <= 63).
Proof.
  split; [apply C43_case|]. split; [reflexivity|]. split.
  - apply BitfieldProofs.binv_agrees. vm_compute. repeat split; discriminate.
  - intros i ks Hn Hk. assert (Hl : (List.length ks <= List.length [B "p"; B "q"; B "r"])%nat).
    { apply NoDup_incl_length; [exact Hn|]. intros k Hx. destruct (Hk k Hx) as [[<- _]|H]; [cbn; auto|]. exact (hist3_keys 5 k i H). }
    cbn in Hl. unfold zlen. lia.
Qed.

(** C49 *)
Theorem C49_diverges : forall name P hashes files ti index, sane P (lens_of files) -> zlen hashes = 20 * pieces_needed P (zsum (lens_of files)) ->
  0 < zsum (lens_of files) -> P < 4294967296 -> NewTorInfo name P hashes files = Ok ti -> ti_plen ti = P ->
  forall fuel, createReqMessages fuel ti index = NoFuel.
Proof.
  intros name P hashes files ti index Hs Hh Ht HP Hn Hpl. apply createReq_diverges.
  destruct (lastlen_exact name P hashes files ti Hs Hh Ht Hn) as [Hl _]. rewrite Hpl.
  destruct (index =? ti_npieces ti - 1); unfold u32; rewrite Z.mod_small; lia.
Qed.
Print Assumptions C49_diverges.
Theorem C49_exactly_when_nonzero : forall ti index,
  let len := if index =? ti_npieces ti - 1 then u32 (ti_lastlen ti) else u32 (ti_plen ti) in
  (len <> 0 -> forall fuel, createReqMessages fuel ti index = NoFuel) /\ (len = 0 -> forall fuel, createReqMessages fuel ti index = Ok []).
Proof. intros ti index len. exact (conj (createReq_diverges ti index) (createReq_empty ti index)). Qed.
Print Assumptions C49_exactly_when_nonzero.
Theorem C49_covering_refuted : exists ti, made 2 hash2 two ti /\ forall fuel ms, createReqMessages fuel ti 0 = Ok ms -> covers 0 0 2 ms -> False.
Proof.
  exists ti2. split; [exact two_made|]. intros fuel ms H. rewrite (createReq_diverges ti2 0) in H; [discriminate|]. vm_compute. discriminate.
Qed.
Print Assumptions C49_covering_refuted.
Example C49_case : sane 2 (lens_of two) /\ zlen hash2 = 20 * pieces_needed 2 (zsum (lens_of two)) /\ 0 < zsum (lens_of two) /\ covers 0 0 20000 [MRequest 0 0 16384; MRequest 0 16384 3616].
Proof. split; [apply two_made|]. split; [reflexivity|]. split; [reflexivity|]. cbn. repeat split; lia. Qed.
