(** SwarmProofs.v: proofs about Validate and handleRequest. *)
From Coq Require Import ZifyBool ZifyNat ZifyN.
From Verif Require Import Base BitfieldModel BitfieldSpec BitfieldProofs WireModel PathModel PathSpec LayoutModel LayoutSpec LayoutProofs PieceMapProofs FsModel FsSpec FsProofs OcatProofs SwarmModel.

Definition verified (sha1 : bytes -> bytes) (P : Z) (hashes : bytes) (contents : list bytes) (i : Z) : bool :=
  beqb (hash_at hashes i) (sha1 (piece_bytes P contents i)).

Lemma splice_vis buf d : zlen d <= zlen (vis buf) -> spare buf = [] ->
  vis (splice buf 0 d) = d ++ skipn (List.length d) (vis buf) /\ spare (splice buf 0 d) = [].
Proof.
  intros H Hs. unfold splice. rewrite Hs, app_nil_r. change (Z.to_nat 0) with 0%nat. cbn [firstn app vis spare Nat.add]. unfold zlen in H.
  assert (HL : List.length (d ++ skipn (List.length d) (vis buf)) = List.length (vis buf)) by (rewrite app_length, skipn_length; lia).
  rewrite <- HL at 1. rewrite firstn_all. split; [reflexivity|]. apply skipn_all2. lia.
Qed.

Lemma ReadPiece_good P hashes files ti i buf w contents : made P hashes files ti -> opened w ti contents -> no_faults w ->
  0 <= i < zlen hashes / 20 -> P <= zlen (vis buf) -> spare buf = [] ->
  exists buf', ReadPiece ti i buf w = (Ok (zlen (piece_bytes P contents i)), buf', w) /\
    vis buf' = piece_bytes P contents i ++ skipn (List.length (piece_bytes P contents i)) (vis buf) /\ spare buf' = [] /\
    zlen (piece_bytes P contents i) = psize P (zsum (lens_of files)) i /\ zlen (vis buf') = zlen (vis buf).
Proof.
  intros Hm [inos Ho] Hnf Hi Hb Hs. destruct (made_facts _ _ _ _ Hm) as (HP & HT & _).
  destruct (opened_total _ _ _ _ _ _ _ Hm Ho) as [_ Hz].
  assert (Hl : zlen (piece_bytes P contents i) = psize P (zsum (lens_of files)) i) by (rewrite zlen_piece_bytes by lia; now rewrite Hz).
  pose proof (psize_le P (zsum (lens_of files)) i ltac:(lia)) as Hle.
  destruct (proj2 (ReadPiece_spec P hashes files ti i buf w inos contents Hm Ho) Hi) as (r & buf' & w' & E & _ & _ & Hvz & [(-> & -> & _ & Hw)|[[_ Hx]|[_ Hx]]]).
  - rewrite (Hw Hnf) in E. destruct (splice_vis buf (piece_bytes P contents i)) as [H1 H2]; [lia|assumption|].
    exists (splice buf 0 (piece_bytes P contents i)). rewrite Hl. auto 10.
  - contradiction.
  - unfold scap in Hx. rewrite Hs in Hx. change (zlen (@nil byte)) with 0 in Hx. lia.
Qed.

Lemma validate_loop_spec sha1 P hashes files ti w contents : made P hashes files ti -> opened w ti contents -> no_faults w ->
  let N := zlen hashes / 20 in
  forall n i buf bf s, binv bf s -> vn s = N -> i + Z.of_nat n = N -> 0 <= i -> P <= zlen (vis buf) -> spare buf = [] ->
  exists bf' s', validate_loop sha1 ti n i buf bf w = (Ok bf', w) /\ binv bf' s' /\ vn s' = N /\
    forall k, nth k (vbits s') false = if (i <=? Z.of_nat k) && (Z.of_nat k <? N) then verified sha1 P hashes contents (Z.of_nat k) else nth k (vbits s) false.
Proof.
  intros Hm Ho Hnf N. destruct (made_facts _ _ _ _ Hm) as (HP & HT & _ & _ & _ & _ & _ & _ & _ & _ & _ & _ & Hh). fold N in Hh.
  induction n as [|n IH]; intros i buf bf s Hb Hn Hi H0 HPb Hs.
  { exists bf, s. split; [reflexivity|]. split; [assumption|]. split; [assumption|]. intros k. replace ((i <=? Z.of_nat k) && (Z.of_nat k <? N)) with false by lia. reflexivity. }
  cbn [validate_loop]. destruct (ReadPiece_good P hashes files ti i buf w contents Hm Ho Hnf ltac:(fold N; lia) HPb Hs) as (buf' & E & Hv & Hs' & Hl & Hz).
  rewrite E. rewrite (Hh i) by lia. cbn [bind].
  assert (HS : exists d, sslice buf' 0 (zlen (piece_bytes P contents i)) = Ok d /\ vis d = piece_bytes P contents i).
  { unfold sslice, scap. pose proof (zlen_nonneg (piece_bytes P contents i)). pose proof (zlen_nonneg (spare buf')).
    assert (zlen (piece_bytes P contents i) <= zlen (vis buf')) by (rewrite Hv, zlen_app; pose proof (zlen_nonneg (skipn (List.length (piece_bytes P contents i)) (vis buf))); lia).
    replace ((0 <=? 0) && (0 <=? zlen (piece_bytes P contents i)) && (zlen (piece_bytes P contents i) <=? zlen (vis buf') + zlen (spare buf'))) with true by lia.
    eexists. split; [reflexivity|]. cbn [vis]. rewrite Hv, Hs', app_nil_r. change (Z.to_nat 0) with 0%nat. unfold sub. cbn [skipn]. rewrite Z.sub_0_r.
    unfold zlen at 1. rewrite Nat2Z.id, firstn_app, firstn_all, Nat.sub_diag, firstn_O, app_nil_r. reflexivity. }
  destruct HS as (d & Hd & Hdv). rewrite Hd. cbn [bind]. rewrite Hdv. fold (verified sha1 P hashes contents i).
  destruct (binv_step bf s (OSet i (verified sha1 P hashes contents i)) Hb) as (bf1 & E1 & Hb1); [cbn; lia|]. cbn [bstep] in E1. rewrite E1.
  assert (HiL : (Z.to_nat i < List.length (vbits s))%nat) by (destruct Hb as (_ & _ & _ & _ & Hb & _); unfold zlen in Hb; lia).
  destruct (IH (i + 1) buf' bf1 (vstep s (OSet i (verified sha1 P hashes contents i))) Hb1) as (bf' & s' & E' & Hb' & Hn' & Hk); [exact Hn|lia|lia|lia|assumption|].
  exists bf', s'. split; [exact E'|]. split; [assumption|]. split; [assumption|]. intros k. rewrite Hk. cbn [vstep vbits]. rewrite nth_vput by assumption.
  destruct (Nat.eqb_spec k (Z.to_nat i)) as [->|Hne].
  - rewrite Z2Nat.id by lia. replace ((i + 1 <=? i) && (i <? N)) with false by lia. replace ((i <=? i) && (i <? N)) with true by lia. reflexivity.
  - replace (i <=? Z.of_nat k) with (i + 1 <=? Z.of_nat k) by lia. reflexivity.
Qed.

(** Bitfields reachable from NewBitfield by valid calls, and only those, are described by a vector. *)
Lemma Validate_spec sha1 P hashes files ti w contents bf s : made P hashes files ti -> opened w ti contents -> no_faults w ->
  let N := zlen hashes / 20 in binv bf s -> vn s = N ->
  exists bf', Validate sha1 ti bf w = (Ok bf', w) /\ Nbits bf' = N /\
    (forall i, 0 <= i < N -> Get bf' i = Ok (verified sha1 P hashes contents i)) /\
    (Complete bf' = true <-> forall i, 0 <= i < N -> sha1 (piece_bytes P contents i) = hash_at hashes i) /\
    exists s', binv bf' s' /\ vn s' = N.
Proof.
  intros Hm Ho Hnf N Hb Hn. destruct (made_facts _ _ _ _ Hm) as (HP & HT & Hnp & Hpl & _ & _ & _ & _ & HN0 & _). fold N in Hnp, HN0.
  unfold Validate. rewrite Hpl, Hnp. replace (P <? 0) with false by lia.
  assert (Hz : zlen (vis (mkslice (zeros P) [])) = P) by (cbn [vis]; apply zlen_zeros; lia).
  destruct (validate_loop_spec sha1 P hashes files ti w contents Hm Ho Hnf (Z.to_nat N) 0 (mkslice (zeros P) []) bf s Hb Hn) as (bf' & s' & E & Hb' & Hn' & Hk); [fold N; lia|lia|lia|reflexivity|].
  fold N in Hn', Hk. exists bf'. split; [exact E|].
  destruct (binv_agrees _ _ Hb') as (A1 & A2 & A3 & A4 & A5 & A6).
  assert (HL : N <= zlen (vbits s')) by (destruct Hb' as (_ & _ & _ & _ & Hb' & _); lia).
  split; [congruence|]. split; [|split].
  - intros i Hi. rewrite A4 by lia. f_equal. rewrite Hk. rewrite Z2Nat.id by lia. replace ((0 <=? i) && (i <? N)) with true by lia. reflexivity.
  - rewrite A6, Hn'. split.
    + intros H i Hi. specialize (H (Z.to_nat i) ltac:(lia)). rewrite Hk in H. rewrite Z2Nat.id in H by lia. replace ((0 <=? i) && (i <? N)) with true in H by lia.
      apply beqb_eq in H. congruence.
    + intros H i Hi. rewrite Hk. replace ((0 <=? Z.of_nat i) && (Z.of_nat i <? N)) with true by lia. unfold verified. rewrite H by lia. apply beqb_refl.
  - exists s'. auto.
Qed.

Lemma open_and_validate_spec sha1 P hashes files ti w : made P hashes files ti -> fs_wf w -> no_faults w ->
  NoDup (map (fun f => place (w_cwd w) (eb_local f)) files) ->
  let N := zlen hashes / 20 in
  exists bf contents w', open_and_validate sha1 ti w = (Ok bf, w') /\ opened w' ti contents /\ no_faults w' /\
    elsewhere_same (map (fun f => place (w_cwd w) (eb_local f)) files) w w' /\
    Forall2 (fun f c => resized (old_at w (eb_local f)) (eb_len f) c /\ file_at w' (eb_local f) = Some c) files contents /\
    Nbits bf = N /\
    (forall i, 0 <= i < N -> Get bf i = Ok (verified sha1 P hashes contents i)) /\
    (Complete bf = true <-> forall i, 0 <= i < N -> sha1 (piece_bytes P contents i) = hash_at hashes i).
Proof.
  intros Hm Hwf Hnf HND N. destruct (OCATAll_opens P hashes files ti w Hm Hwf Hnf HND) as (cs & w' & E & Ho & Hwf' & Hnf' & He & Hf).
  destruct (made_facts _ _ _ _ Hm) as (_ & _ & Hnp & _ & _ & _ & _ & _ & HN0 & _).
  destruct (NewBitfield_inv N HN0) as (b0 & Eb & Hb).
  destruct (Validate_spec sha1 P hashes files ti w' cs b0 (zero_vec N) Hm Ho Hnf' Hb eq_refl) as (bf & Ev & V1 & V2 & V3 & _).
  exists bf, cs, w'. unfold open_and_validate. rewrite E, Hnp. fold N. rewrite Eb. split; [exact Ev|]. auto 10.
Qed.

(** ** handleRequest *)
Lemma piece_range P cs i b l : 1 <= P -> 0 <= i -> 0 <= b -> 0 <= l -> b + l <= zlen (piece_bytes P cs i) ->
  range (piece_bytes P cs i) b (b + l) = range (List.concat cs) (i * P + b) (i * P + b + l).
Proof.
  intros HP Hi Hb Hl Hle. rewrite zlen_piece_bytes in Hle by lia. unfold piece_bytes. set (all := List.concat cs) in *. pose proof (zlen_nonneg all).
  unfold psize, pstart in Hle.
  unfold range, sub. rewrite skipn_firstn_comm, firstn_firstn. rewrite skipn_add.
  destruct (Z_le_gt_dec (i * P) (zlen all)) as [Hc|Hc].
  - f_equal; [lia|]. f_equal. f_equal. lia.
  - assert (l = 0) by lia. subst l. replace (Z.to_nat (b + 0 - b)) with 0%nat by lia. replace (Z.to_nat (i * P + b + 0 - (i * P + b))) with 0%nat by lia. reflexivity.
Qed.

Lemma handle_serves P hashes files ti bf idx b l buf w contents : made P hashes files ti -> opened w ti contents -> no_faults w ->
  0 <= idx < zlen hashes / 20 -> (Complete bf = true \/ Get bf idx = Ok true) -> zlen (vis buf) = P -> spare buf = [] ->
  0 <= b < 4294967296 -> 0 <= l < 4294967296 ->
  let pc := piece_bytes P contents idx in
  exists buf', zlen (vis buf') = P /\ spare buf' = [] /\ vis buf' = pc ++ skipn (List.length pc) (vis buf) /\
  handleRequest ti bf idx b l buf w =
    ((if (b + l <=? P) && (b + l <? 4294967296) then Ok [EncodeMsg (MPiece idx b (range (vis buf') b (b + l)))] else Panic), buf', w).
Proof.
  intros Hm Ho Hnf Hi Hhave Hb Hs Hrb Hrl pc. destruct (made_facts _ _ _ _ Hm) as (HP & _).
  destruct (ReadPiece_good P hashes files ti idx buf w contents Hm Ho Hnf Hi ltac:(lia) Hs) as (buf' & E & Hv & Hs' & Hl & Hz).
  exists buf'. split; [lia|]. split; [assumption|]. split; [exact Hv|]. unfold handleRequest.
  assert (Hg : (if Complete bf then Ok true else Get bf idx) = Ok true) by (destruct Hhave as [->|Hg]; [reflexivity|destruct (Complete bf); [reflexivity|assumption]]).
  rewrite Hg, E. unfold sslice, scap. rewrite Hs'. change (zlen (@nil byte)) with 0. rewrite Z.add_0_r, Hz, Hb, app_nil_r.
  assert (Hu : u32 (b + l) = if b + l <? 4294967296 then b + l else b + l - 4294967296).
  { unfold u32. destruct (Z.ltb_spec (b + l) 4294967296); [apply Z.mod_small; lia|].
    symmetry. apply Z.mod_unique with (q := 1); lia. }
  rewrite Hu. destruct (Z.ltb_spec (b + l) 4294967296) as [Hc|Hc].
  - destruct (Z.leb_spec (b + l) P); cbn [andb].
    + replace ((0 <=? b) && (b <=? b + l) && true) with true by lia. reflexivity.
    + rewrite andb_false_r. reflexivity.
  - replace ((0 <=? b) && (b <=? b + l - 4294967296) && (b + l - 4294967296 <=? P)) with false by lia. rewrite andb_false_r. reflexivity.
Qed.

Lemma handle_in_piece P hashes files ti bf idx b l buf w contents : made P hashes files ti -> opened w ti contents -> no_faults w ->
  0 <= idx < zlen hashes / 20 -> (Complete bf = true \/ Get bf idx = Ok true) -> zlen (vis buf) = P -> spare buf = [] ->
  0 <= b -> 0 <= l -> b + l < 4294967296 -> b + l <= psize P (zsum (lens_of files)) idx ->
  exists buf', zlen (vis buf') = P /\ spare buf' = [] /\
  handleRequest ti bf idx b l buf w =
    (Ok [EncodeMsg (MPiece idx b (range (List.concat contents) (idx * P + b) (idx * P + b + l)))], buf', w).
Proof.
  intros Hm Ho Hnf Hi Hhave Hb Hs H0 H1 H2 H3. destruct (made_facts _ _ _ _ Hm) as (HP & HT & _).
  destruct (handle_serves P hashes files ti bf idx b l buf w contents Hm Ho Hnf Hi Hhave Hb Hs ltac:(lia) ltac:(lia)) as (buf' & A1 & A2 & A3 & A4).
  exists buf'. split; [assumption|]. split; [assumption|]. rewrite A4.
  pose proof (psize_le P (zsum (lens_of files)) idx ltac:(lia)). replace (b + l <=? P) with true by lia. replace (b + l <? 4294967296) with true by lia.
  destruct Ho as [inos Ho]. destruct (opened_total _ _ _ _ _ _ _ Hm Ho) as [_ Hz].
  assert (Hpl : zlen (piece_bytes P contents idx) = psize P (zsum (lens_of files)) idx) by (rewrite zlen_piece_bytes by lia; now rewrite Hz).
  assert (Hr : range (vis buf') b (b + l) = range (List.concat contents) (idx * P + b) (idx * P + b + l)).
  { rewrite <- piece_range by lia. rewrite A3. unfold range, sub. rewrite skipn_app, firstn_app.
    replace (Z.to_nat (b + l - b) - _)%nat with 0%nat by (rewrite skipn_length; unfold zlen in Hpl; lia). rewrite firstn_O, app_nil_r. reflexivity. }
  cbn [andb]. now rewrite Hr.
Qed.

Lemma handle_refuses ti bf idx b l buf w : Complete bf = false -> Get bf idx = Ok false -> handleRequest ti bf idx b l buf w = (Ok [], buf, w).
Proof. intros H1 H2. unfold handleRequest. now rewrite H1, H2. Qed.

Lemma handle_bad_index P hashes files ti bf idx b l buf w : made P hashes files ti -> 0 <= idx -> zlen hashes / 20 <= idx ->
  (Complete bf = true -> handleRequest ti bf idx b l buf w = (Err EBounds, buf, w)) /\
  (Complete bf = false -> 8 * zlen (Data bf) <= idx -> handleRequest ti bf idx b l buf w = (Panic, buf, w)).
Proof.
  intros Hm H0 Hi. destruct (made_facts _ _ _ _ Hm) as (_ & _ & _ & _ & _ & _ & _ & _ & _ & _ & _ & Hout & _). split.
  - intros Hc. unfold handleRequest, ReadPiece. rewrite Hc, Hout by lia. reflexivity.
  - intros Hc Hd. unfold handleRequest. rewrite Hc. rewrite (proj2 (Get_panics bf idx)) by lia. reflexivity.
Qed.

Lemma verified_iff sha1 P hashes cs i : verified sha1 P hashes cs i = true <-> sha1 (piece_bytes P cs i) = hash_at hashes i.
Proof. unfold verified. rewrite beqb_eq. split; congruence. Qed.

Lemma Validate_top sha1 P hashes files ti w contents ops : made P hashes files ti -> opened w ti contents -> no_faults w ->
  vvalid_all (zero_vec (zlen hashes / 20)) ops -> vn (vrun (zero_vec (zlen hashes / 20)) ops) = zlen hashes / 20 ->
  exists bf bf', (do b0 <- NewBitfield (zlen hashes / 20); brun b0 ops) = Ok bf /\ Validate sha1 ti bf w = (Ok bf', w) /\ Nbits bf' = zlen hashes / 20 /\
    (forall i, 0 <= i < zlen hashes / 20 -> exists b, Get bf' i = Ok b /\ (b = true <-> sha1 (piece_bytes P contents i) = hash_at hashes i)) /\
    (Complete bf' = true <-> forall i, 0 <= i < zlen hashes / 20 -> sha1 (piece_bytes P contents i) = hash_at hashes i).
Proof.
  intros Hm Ho Hnf Hv Hn. destruct (made_facts _ _ _ _ Hm) as (_ & _ & _ & _ & _ & _ & _ & _ & HN0 & _).
  destruct (NewBitfield_inv _ HN0) as (b0 & Eb & Hb). destruct (binv_run ops b0 _ Hb Hv) as (bf & Er & Hb').
  destruct (Validate_spec sha1 P hashes files ti w contents bf _ Hm Ho Hnf Hb' Hn) as (bf' & E & A1 & A2 & A3 & _).
  exists bf, bf'. rewrite Eb. cbn [bind]. split; [exact Er|]. split; [exact E|]. split; [exact A1|]. split; [|exact A3].
  intros i Hi. exists (verified sha1 P hashes contents i). split; [auto|apply verified_iff].
Qed.

Lemma open_and_validate_top sha1 P hashes files ti w : made P hashes files ti -> fs_wf w -> no_faults w ->
  NoDup (map (fun f => place (w_cwd w) (eb_local f)) files) ->
  exists bf contents w', open_and_validate sha1 ti w = (Ok bf, w') /\ opened w' ti contents /\
    elsewhere_same (map (fun f => place (w_cwd w) (eb_local f)) files) w w' /\
    Forall2 (fun f c => resized (old_at w (eb_local f)) (eb_len f) c /\ file_at w' (eb_local f) = Some c) files contents /\
    (forall i, 0 <= i < zlen hashes / 20 -> exists b, Get bf i = Ok b /\ (b = true <-> sha1 (piece_bytes P contents i) = hash_at hashes i)).
Proof.
  intros Hm Hwf Hnf HND. destruct (open_and_validate_spec sha1 P hashes files ti w Hm Hwf Hnf HND) as (bf & cs & w' & E & A1 & A2 & A3 & A4 & A5 & A6 & A7).
  exists bf, cs, w'. split; [exact E|]. split; [exact A1|]. split; [exact A3|]. split; [exact A4|].
  intros i Hi. exists (verified sha1 P hashes cs i). split; [auto|apply verified_iff].
Qed.

(** With system calls failing: the bits are right or there is an error. *)
Lemma validate_loop_faults sha1 P hashes files ti inos contents : made P hashes files ti ->
  let N := zlen hashes / 20 in
  forall n i buf bf s w, opened_at inos w ti contents -> binv bf s -> vn s = N -> i + Z.of_nat n = N -> 0 <= i -> P <= zlen (vis buf) -> spare buf = [] ->
  exists r w', validate_loop sha1 ti n i buf bf w = (r, w') /\ disk_same w w' /\
    ((exists bf' s', r = Ok bf' /\ binv bf' s' /\ vn s' = N /\ List.length (vbits s') = List.length (vbits s) /\
       forall k, nth k (vbits s') false = if (i <=? Z.of_nat k) && (Z.of_nat k <? N) then verified sha1 P hashes contents (Z.of_nat k) else nth k (vbits s) false) \/
     ((exists e, r = Err e) /\ ~ no_faults w)).
Proof.
  intros Hm N. destruct (made_facts _ _ _ _ Hm) as (HP & HT & _ & _ & _ & _ & _ & _ & _ & _ & _ & _ & Hh). fold N in Hh.
  induction n as [|n IH]; intros i buf bf s w Ho Hb Hn Hi H0 HPb Hs.
  { exists (Ok bf), w. split; [reflexivity|]. split; [apply disk_same_refl|]. left. exists bf, s. split; [reflexivity|]. split; [assumption|]. split; [assumption|]. split; [reflexivity|]. intros k. replace ((i <=? Z.of_nat k) && (Z.of_nat k <? N)) with false by lia. reflexivity. }
  destruct (opened_total _ _ _ _ _ _ _ Hm Ho) as [_ Hz].
  assert (Hl : zlen (piece_bytes P contents i) = psize P (zsum (lens_of files)) i) by (rewrite zlen_piece_bytes by lia; now rewrite Hz).
  pose proof (psize_le P (zsum (lens_of files)) i ltac:(lia)) as Hle.
  cbn [validate_loop].
  destruct (proj2 (ReadPiece_spec P hashes files ti i buf w inos contents Hm Ho) ltac:(fold N; lia)) as (r & buf' & w1 & E & Hds & _ & Hvz & [(-> & -> & _ & Hw)|[[(e & ->) Hx]|[_ Hx]]]).
  - rewrite E. rewrite (Hh i) by lia. cbn [bind]. destruct (splice_vis buf (piece_bytes P contents i)) as [H1 H2]; [lia|assumption|].
    set (buf' := splice buf 0 (piece_bytes P contents i)) in *.
    assert (HS : exists d, sslice buf' 0 (psize P (zsum (lens_of files)) i) = Ok d /\ vis d = piece_bytes P contents i).
    { rewrite <- Hl. destruct (sslice_ok buf' 0 (zlen (piece_bytes P contents i))) as (d & Hd & Hdv & _); [lia|apply zlen_nonneg|unfold scap; pose proof (zlen_nonneg (spare buf')); lia|].
      exists d. split; [exact Hd|]. rewrite Hdv, H1, H2, app_nil_r. change (Z.to_nat 0) with 0%nat. unfold sub. cbn [skipn]. rewrite Z.sub_0_r.
      unfold zlen at 1. rewrite Nat2Z.id, firstn_app, firstn_all, Nat.sub_diag, firstn_O, app_nil_r. reflexivity. }
    destruct HS as (d & Hd & Hdv). rewrite Hd. cbn [bind]. rewrite Hdv. fold (verified sha1 P hashes contents i).
    destruct (binv_step bf s (OSet i (verified sha1 P hashes contents i)) Hb) as (bf1 & E1 & Hb1); [cbn; lia|]. cbn [bstep] in E1. rewrite E1.
    assert (HiL : (Z.to_nat i < List.length (vbits s))%nat) by (destruct Hb as (_ & _ & _ & _ & Hb & _); unfold zlen in Hb; lia).
    destruct (IH (i + 1) buf' bf1 (vstep s (OSet i (verified sha1 P hashes contents i))) w1) as (r & w' & E' & Hds' & Hr); [eapply disk_same_opened; eassumption|exact Hb1|exact Hn|lia|lia|lia|assumption|].
    exists r, w'. split; [exact E'|]. split; [eapply disk_same_trans; eassumption|]. destruct Hr as [(bf' & s' & -> & Hb' & Hn' & Hvl & Hk)|[He Hx]].
    + left. exists bf', s'. split; [reflexivity|]. split; [assumption|]. split; [assumption|]. split; [rewrite Hvl; cbn [vstep vbits]; apply vput_length; assumption|]. intros k. rewrite Hk. cbn [vstep vbits]. rewrite nth_vput by assumption.
      destruct (Nat.eqb_spec k (Z.to_nat i)) as [->|Hne].
      * rewrite Z2Nat.id by lia. replace ((i + 1 <=? i) && (i <? N)) with false by lia. replace ((i <=? i) && (i <? N)) with true by lia. reflexivity.
      * replace (i <=? Z.of_nat k) with (i + 1 <=? Z.of_nat k) by lia. reflexivity.
    + right. split; [assumption|]. intros H. apply Hx. rewrite (Hw H). assumption.
  - rewrite E. exists (Err e), w1. split; [reflexivity|]. split; [assumption|]. right. split; [eauto|assumption].
  - unfold scap in Hx. rewrite Hs in Hx. change (zlen (@nil byte)) with 0 in Hx. lia.
Qed.
Lemma Validate_faults_bits sha1 P hashes files ti w inos contents ops : made P hashes files ti -> opened_at inos w ti contents ->
  vvalid_all (zero_vec (zlen hashes / 20)) ops -> vn (vrun (zero_vec (zlen hashes / 20)) ops) = zlen hashes / 20 ->
  exists bf r w', (do b0 <- NewBitfield (zlen hashes / 20); brun b0 ops) = Ok bf /\ Validate sha1 ti bf w = (r, w') /\ disk_same w w' /\
    ((exists bf', r = Ok bf' /\ Nbits bf' = zlen hashes / 20 /\ zlen (Data bf') = zlen (Data bf) /\ Nbytes bf' = zlen (Data bf') /\ List.length (bhdr bf') = 5%nat /\
       (forall i, 0 <= i < zlen hashes / 20 -> exists b, Get bf' i = Ok b /\ (b = true <-> sha1 (piece_bytes P contents i) = hash_at hashes i)) /\
       (Complete bf' = true <-> forall i, 0 <= i < zlen hashes / 20 -> sha1 (piece_bytes P contents i) = hash_at hashes i)) \/
     ((exists e, r = Err e) /\ ~ no_faults w)).
Proof.
  intros Hm Ho Hv Hn. destruct (made_facts _ _ _ _ Hm) as (HP & HT & Hnp & Hpl & _ & _ & _ & _ & HN0 & _).
  destruct (NewBitfield_inv _ HN0) as (b0 & Eb & Hb). destruct (binv_run ops b0 _ Hb Hv) as (bf & Er & Hb'). exists bf. rewrite Eb. cbn [bind].
  unfold Validate. rewrite Hpl, Hnp. replace (P <? 0) with false by lia.
  assert (Hz : zlen (vis (mkslice (zeros P) [])) = P) by (cbn [vis]; apply zlen_zeros; lia).
  set (N := zlen hashes / 20) in *.
  destruct (validate_loop_faults sha1 P hashes files ti inos contents Hm (Z.to_nat N) 0 (mkslice (zeros P) []) bf _ w Ho Hb' Hn) as (r & w' & E & Hds & Hr); [fold N; lia|lia|lia|reflexivity|].
  fold N in Hr. exists r, w'. split; [exact Er|]. split; [exact E|]. split; [exact Hds|]. destruct Hr as [(bf' & s' & -> & Hb2 & Hn' & Hvl & Hk)|Hr]; [left|right; exact Hr].
  exists bf'. split; [reflexivity|]. destruct (binv_agrees _ _ Hb2) as (A1 & A2 & A3 & A4 & A5 & A6). destruct (binv_agrees _ _ Hb') as (_ & _ & B3 & _).
  assert (HL : N <= zlen (vbits s')) by (destruct Hb2 as (_ & _ & _ & _ & Hb2 & _); lia).
  assert (HV : forall i, verified sha1 P hashes contents i = true <-> sha1 (piece_bytes P contents i) = hash_at hashes i).
  { intros i. unfold verified. split; [intros H; apply beqb_eq in H; congruence|intros ->; apply beqb_refl]. }
  split; [congruence|]. split.
  { rewrite <- A3, <- B3 in Hvl. rewrite !bits_of_length in Hvl. unfold zlen. lia. }
  split; [exact A2|]. split; [apply Hb2|]. split.
  - intros i Hi. exists (verified sha1 P hashes contents i). split; [|apply HV].
    rewrite A4 by lia. f_equal. rewrite Hk. rewrite Z2Nat.id by lia. replace ((0 <=? i) && (i <? N)) with true by lia. reflexivity.
  - rewrite A6, Hn'. split.
    + intros H i Hi. specialize (H (Z.to_nat i) ltac:(lia)). rewrite Hk, Z2Nat.id in H by lia. replace ((0 <=? i) && (i <? N)) with true in H by lia. now apply HV.
    + intros H i Hi. rewrite Hk. replace ((0 <=? Z.of_nat i) && (Z.of_nat i <? N)) with true by lia. apply HV, H. lia.
Qed.
Lemma Validate_faults sha1 P hashes files ti w inos contents ops : made P hashes files ti -> opened_at inos w ti contents ->
  vvalid_all (zero_vec (zlen hashes / 20)) ops -> vn (vrun (zero_vec (zlen hashes / 20)) ops) = zlen hashes / 20 ->
  exists bf r w', (do b0 <- NewBitfield (zlen hashes / 20); brun b0 ops) = Ok bf /\ Validate sha1 ti bf w = (r, w') /\ disk_same w w' /\
    ((exists bf', r = Ok bf' /\ Nbits bf' = zlen hashes / 20 /\
       (forall i, 0 <= i < zlen hashes / 20 -> exists b, Get bf' i = Ok b /\ (b = true <-> sha1 (piece_bytes P contents i) = hash_at hashes i)) /\
       (Complete bf' = true <-> forall i, 0 <= i < zlen hashes / 20 -> sha1 (piece_bytes P contents i) = hash_at hashes i)) \/
     ((exists e, r = Err e) /\ ~ no_faults w)).
Proof.
  intros Hm Ho Hv Hn. destruct (Validate_faults_bits sha1 P hashes files ti w inos contents ops Hm Ho Hv Hn) as (bf & r & w' & E1 & E2 & Hd & [(bf' & -> & A1 & _ & _ & _ & A2 & A3)|Hr]);
    eexists bf, _, w'; (split; [exact E1|]); (split; [exact E2|]); (split; [exact Hd|]); [left; exists bf'; auto|right; exact Hr].
Qed.

Lemma handle_panics_iff P hashes files ti bf idx b l buf w contents : made P hashes files ti -> opened w ti contents -> no_faults w ->
  0 <= idx < zlen hashes / 20 -> (Complete bf = true \/ Get bf idx = Ok true) -> zlen (vis buf) = P -> spare buf = [] -> P < 4294967296 ->
  0 <= b < 4294967296 -> 0 <= l < 4294967296 ->
  exists r buf', handleRequest ti bf idx b l buf w = (r, buf', w) /\ (r = Panic <-> P < b + l) /\ zlen (vis buf') = P /\ spare buf' = [].
Proof.
  intros Hm Ho Hnf Hi Hh Hb Hs HP32 Hrb Hrl.
  destruct (handle_serves P hashes files ti bf idx b l buf w contents Hm Ho Hnf Hi Hh Hb Hs Hrb Hrl) as (buf' & A1 & A2 & _ & E).
  eexists _, buf'. split; [exact E|]. split; [|auto]. destruct ((b + l <=? P) && (b + l <? 4294967296)) eqn:C; split; (discriminate || reflexivity || lia).
Qed.

Lemma handle_stale P hashes files ti bf idx b l buf w contents : made P hashes files ti -> opened w ti contents -> no_faults w ->
  0 <= idx < zlen hashes / 20 -> (Complete bf = true \/ Get bf idx = Ok true) -> zlen (vis buf) = P -> spare buf = [] ->
  0 <= b -> 0 <= l -> b + l < 4294967296 -> b + l <= P ->
  exists buf', handleRequest ti bf idx b l buf w =
    (Ok [EncodeMsg (MPiece idx b (range (piece_bytes P contents idx ++ skipn (List.length (piece_bytes P contents idx)) (vis buf)) b (b + l)))], buf', w).
Proof.
  intros Hm Ho Hnf Hi Hh Hb Hs H0 H1 H2 H3.
  destruct (handle_serves P hashes files ti bf idx b l buf w contents Hm Ho Hnf Hi Hh Hb Hs ltac:(lia) ltac:(lia)) as (buf' & A1 & A2 & A3 & E).
  exists buf'. rewrite E. replace ((b + l <=? P) && (b + l <? 4294967296)) with true by lia. cbv zeta in A3. now rewrite A3.
Qed.
