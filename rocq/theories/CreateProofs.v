(** CreateProofs.v: proofs about SegmentData and CreateTorInfo. *)
From Coq Require Import ZifyBool ZifyNat ZifyN.
From Verif Require Import Base PathModel PathSpec LayoutModel LayoutSpec LayoutProofs PieceMapProofs FsModel FsSpec FsProofs OcatProofs
  BitfieldModel BitfieldSpec SwarmModel SwarmProofs CreateModel CreateSpec.

Lemma needed_pos P n : 1 <= P -> 0 < n -> pieces_needed P n = 1 + pieces_needed P (Z.max 0 (n - P)).
Proof.
  intros HP Hn. unfold pieces_needed. destruct (Z_le_gt_dec P n).
  - replace (Z.max 0 (n - P) + P - 1) with (n - 1) by lia. replace (n + P - 1) with (n - 1 + 1 * P) by lia. rewrite Z.div_add by lia. lia.
  - replace (Z.max 0 (n - P) + P - 1) with (P - 1) by lia. rewrite (Z.div_small (P - 1)) by lia.
    symmetry. apply Z.div_unique with (r := n - 1); lia.
Qed.
Lemma needed_0 P : 1 <= P -> pieces_needed P 0 = 0.
Proof. intros. unfold pieces_needed. apply Z.div_small. lia. Qed.
Lemma needed_nonneg P n : 1 <= P -> 0 <= n -> 0 <= pieces_needed P n.
Proof. intros. unfold pieces_needed. apply Z.div_pos; lia. Qed.

Lemma pieces_nil P : 1 <= P -> pieces_of P [] = [].
Proof. intros. unfold pieces_of. change (zlen (@nil byte)) with 0. rewrite needed_0 by assumption. reflexivity. Qed.

Lemma zlen_skipn {A} (l : list A) n : zlen (skipn n l) = Z.max 0 (zlen l - Z.of_nat n).
Proof. unfold zlen. rewrite skipn_length. lia. Qed.

Lemma pieces_cons P l : 1 <= P -> l <> [] -> pieces_of P l = firstn (Z.to_nat P) l :: pieces_of P (skipn (Z.to_nat P) l).
Proof.
  intros HP Hl. assert (Hn : 0 < zlen l) by (destruct l; [contradiction|unfold zlen; cbn; lia]).
  unfold pieces_of. rewrite zlen_skipn. rewrite Z2Nat.id by lia. rewrite (needed_pos P (zlen l)) by assumption.
  pose proof (needed_nonneg P (Z.max 0 (zlen l - P)) HP ltac:(lia)) as Hq.
  replace (Z.to_nat (1 + pieces_needed P (Z.max 0 (zlen l - P)))) with (S (Z.to_nat (pieces_needed P (Z.max 0 (zlen l - P))))) by lia.
  cbn [seq map]. f_equal.
  - unfold range, sub. change (Z.of_nat 0) with 0. rewrite Z.mul_0_l, Z.add_0_l, Z.mul_1_l. change (Z.to_nat 0) with 0%nat. cbn [skipn]. rewrite Z.sub_0_r.
    destruct (Z_le_gt_dec P (zlen l)); [now rewrite Z.min_l by lia|]. rewrite Z.min_r by lia. unfold zlen in *.
    rewrite !firstn_all2 by lia. reflexivity.
  - rewrite <- seq_shift, map_map. apply map_ext_in. intros i Hi. apply in_seq in Hi. unfold range, sub. rewrite skipn_add.
    assert (Hb : Z.of_nat i * P < zlen l - P).
    { destruct (Z_lt_ge_dec (Z.of_nat i * P) (zlen l - P)); [assumption|]. exfalso. unfold pieces_needed in Hi, Hq.
      assert ((Z.max 0 (zlen l - P) + P - 1) / P <= Z.of_nat i); [|lia]. apply Z.lt_succ_r. apply Z.div_lt_upper_bound; [lia|]. nia. }
    f_equal; [|f_equal; lia]. f_equal. lia.
Qed.

Lemma pieces_app P k : 1 <= P -> forall a b, zlen a = Z.of_nat k * P -> pieces_of P (a ++ b) = pieces_of P a ++ pieces_of P b.
Proof.
  intros HP. induction k as [|k IH]; intros a b Ha.
  - assert (a = []) as -> by (destruct a; [reflexivity|unfold zlen in Ha; cbn in Ha; lia]). rewrite pieces_nil by assumption. reflexivity.
  - assert (Hl : P <= zlen a) by nia. assert (Hne : a <> []) by (intros ->; unfold zlen in Hl; cbn in Hl; lia).
    assert (Hne2 : a ++ b <> []) by (destruct a; [contradiction|discriminate]).
    rewrite (pieces_cons P (a ++ b)), (pieces_cons P a) by assumption.
    unfold zlen in *. rewrite firstn_app, skipn_app. replace (Z.to_nat P - List.length a)%nat with 0%nat by lia. rewrite firstn_O, app_nil_r. cbn [skipn app]. f_equal.
    apply IH. rewrite skipn_length. lia.
Qed.

Lemma pieces_concat P l : 1 <= P -> List.concat (pieces_of P l) = l.
Proof.
  intros HP. remember (List.length l) as n eqn:Hn. revert l Hn. induction n as [n IH] using lt_wf_ind. intros l Hn.
  destruct l as [|x l]; [now rewrite pieces_nil|]. rewrite pieces_cons by (assumption || discriminate). cbn [List.concat].
  rewrite (IH (List.length (skipn (Z.to_nat P) (x :: l)))); [apply firstn_skipn| |reflexivity]. rewrite skipn_length. cbn [List.length] in *. lia.
Qed.

Lemma pieces_count P l : 1 <= P -> zlen (pieces_of P l) = pieces_needed P (zlen l).
Proof. intros HP. unfold pieces_of, zlen at 1. rewrite map_length, seq_length. pose proof (needed_nonneg P (zlen l) HP (zlen_nonneg l)). lia. Qed.

Lemma pieces_nth P l i : 1 <= P -> 0 <= i < pieces_needed P (zlen l) ->
  nth_error (pieces_of P l) (Z.to_nat i) = Some (range l (i * P) (Z.min ((i + 1) * P) (zlen l))).
Proof.
  intros HP Hi. unfold pieces_of. rewrite nth_error_map.
  replace (nth_error (seq 0 (Z.to_nat (pieces_needed P (zlen l)))) (Z.to_nat i)) with (Some (Z.to_nat i)).
  - cbn [option_map]. now rewrite Z2Nat.id by lia.
  - symmetry. rewrite (nth_error_nth' _ 0%nat) by (rewrite seq_length; lia). now rewrite seq_nth by lia.
Qed.

(** All but the last have P bytes; the last has between 1 and P. *)
Lemma pieces_sizes P l i p : 1 <= P -> nth_error (pieces_of P l) i = Some p ->
  1 <= zlen p <= P /\ (Z.of_nat i + 1 < pieces_needed P (zlen l) -> zlen p = P).
Proof.
  intros HP H. assert (Hi : (i < List.length (pieces_of P l))%nat) by (apply nth_error_Some; congruence).
  pose proof (pieces_count P l HP) as Hc. unfold zlen at 1 in Hc.
  assert (Hi' : 0 <= Z.of_nat i < pieces_needed P (zlen l)) by lia. pose proof (pieces_nth P l (Z.of_nat i) HP Hi') as Hn. rewrite Nat2Z.id in Hn. rewrite H in Hn. injection Hn as ->.
  pose proof (zlen_nonneg l) as H0. set (L := zlen l) in *.
  assert (H1 : Z.of_nat i * P < L).
  { unfold pieces_needed in Hi'. destruct (Z_lt_ge_dec (Z.of_nat i * P) L); [assumption|]. exfalso.
    assert ((L + P - 1) / P <= Z.of_nat i); [|lia]. apply Z.lt_succ_r. apply Z.div_lt_upper_bound; [lia|]. nia. }
  assert (H2 : Z.of_nat i + 1 < pieces_needed P L -> (Z.of_nat i + 1) * P <= L).
  { intros Hx. unfold pieces_needed in Hx. destruct (Z_le_gt_dec ((Z.of_nat i + 1) * P) L); [assumption|]. exfalso.
    assert ((L + P - 1) / P <= Z.of_nat i + 1); [|lia]. apply Z.lt_succ_r. apply Z.div_lt_upper_bound; [lia|]. nia. }
  assert (Hz : zlen (range l (Z.of_nat i * P) (Z.min ((Z.of_nat i + 1) * P) L)) = Z.min ((Z.of_nat i + 1) * P) L - Z.of_nat i * P).
  { unfold range, sub. unfold zlen at 1. rewrite firstn_length, skipn_length. unfold L, zlen in *. nia. }
  rewrite Hz. split; [nia|]. intros Hx. specialize (H2 Hx). lia.
Qed.

(** ** SegmentData *)
Lemma segment_loop_spec P fuel : forall pre l, 1 <= P <= max64 -> zlen pre + zlen l <= max64 -> (List.length l < fuel)%nat -> forall sp,
  segment_loop fuel (mkslice (pre ++ l) sp) P (zlen l) (zlen pre) = Ok (pieces_of P l).
Proof.
  induction fuel as [|fuel IH]; intros pre l HP Hb Hf sp; [lia|]. cbn [segment_loop].
  pose proof (zlen_nonneg pre) as Hp0. pose proof (zlen_nonneg l) as Hl0.
  destruct (Z.eqb_spec (zlen l) 0) as [E|E].
  { destruct l as [|x l]; [now rewrite pieces_nil by lia|unfold zlen in E; cbn in E; lia]. }
  assert (Hne : l <> []) by (intros ->; apply E; reflexivity).
  set (k := if zlen l <? P then zlen l else P). assert (Hk : 1 <= k <= zlen l /\ k <= P /\ (k = P \/ k = zlen l)) by (subst k; destruct (Z.ltb_spec (zlen l) P); lia).
  unfold add64, sub64. rewrite (i64_id (zlen pre + k)), (i64_id (zlen l - k)) by (unfold min64, max64 in *; lia).
  unfold sslice, scap. cbn [vis spare]. rewrite zlen_app. pose proof (zlen_nonneg sp).
  replace ((0 <=? zlen pre) && (zlen pre <=? zlen pre + k) && (zlen pre + k <=? zlen pre + zlen l + zlen sp)) with true by lia. cbn [bind vis].
  assert (Hh : sub ((pre ++ l) ++ sp) (Z.to_nat (zlen pre)) (Z.to_nat (zlen pre + k - zlen pre)) = firstn (Z.to_nat k) l).
  { unfold sub. rewrite <- app_assoc. unfold zlen. rewrite Nat2Z.id. rewrite skipn_app, skipn_all, Nat.sub_diag. cbn [app skipn].
    rewrite firstn_app. replace (Z.to_nat (Z.of_nat (List.length pre) + k - Z.of_nat (List.length pre)) - List.length l)%nat with 0%nat by (unfold zlen in *; lia).
    rewrite firstn_O, app_nil_r. f_equal. lia. }
  rewrite Hh. assert (Hsplit : pre ++ l = (pre ++ firstn (Z.to_nat k) l) ++ skipn (Z.to_nat k) l) by (rewrite <- app_assoc, firstn_skipn; reflexivity).
  rewrite Hsplit. replace (zlen l - k) with (zlen (skipn (Z.to_nat k) l)) by (rewrite zlen_skipn; lia).
  replace (zlen pre + k) with (zlen (pre ++ firstn (Z.to_nat k) l)) by (rewrite zlen_app; unfold zlen in *; rewrite firstn_length; lia).
  rewrite IH; [| assumption | rewrite zlen_app, zlen_skipn; unfold zlen in *; rewrite firstn_length; lia | rewrite skipn_length; unfold zlen in *; lia ].
  cbn [bind]. rewrite (pieces_cons P l) by (lia || assumption). f_equal.
  clearbody k. destruct Hk as (_ & Hk2 & [->|Hk3]); [reflexivity|]. subst k. f_equal.
  + unfold zlen. rewrite Nat2Z.id, firstn_all. symmetry. apply firstn_all2. unfold zlen in *. lia.
  + unfold zlen. rewrite Nat2Z.id, skipn_all. f_equal. symmetry. apply skipn_all2. unfold zlen in *. lia.
Qed.

Lemma SegmentData_spec d P : 1 <= P <= max64 -> slen d <= max64 -> SegmentData d P = Ok (pieces_of P (vis d)).
Proof.
  intros HP Hd. unfold SegmentData. replace (P =? 0) with false by lia. pose proof (zlen_nonneg (vis d)) as H0.
  assert (Hq : 0 <= Z.quot (slen d) P) by (apply Z.quot_pos; unfold slen; lia). replace (Z.quot (slen d) P + 1 <? 0) with false by lia.
  destruct d as [v sp]. unfold slen in *. cbn [vis] in *.
  exact (segment_loop_spec P (S (List.length v)) [] v HP ltac:(change (zlen (@nil byte)) with 0; lia) ltac:(lia) sp).
Qed.

(** A non-positive segment size: zero always panics, negative panics on any data. *)
Lemma SegmentData_bad d P : min64 <= P <= 0 -> (P = 0 \/ vis d <> []) -> SegmentData d P = Panic.
Proof.
  intros HP Hd. unfold SegmentData. destruct (Z.eqb_spec P 0); [reflexivity|]. destruct Hd as [|Hd]; [contradiction|].
  destruct (_ <? 0) eqn:E; [reflexivity|]. cbn [segment_loop]. assert (0 < slen d) by (unfold slen, zlen; destruct (vis d); [contradiction|cbn; lia]).
  replace (slen d =? 0) with false by lia. replace (slen d <? P) with false by lia.
  unfold add64. rewrite Z.add_0_l, i64_id by (unfold max64; lia). unfold sslice. replace ((0 <=? 0) && (0 <=? P) && (P <=? scap d)) with false by lia. reflexivity.
Qed.

(** ** CreateTorInfo *)
Lemma HashSlices_app sha1 a b : HashSlices sha1 (a ++ b) = HashSlices sha1 a ++ HashSlices sha1 b.
Proof. induction a as [|x a IH]; [reflexivity|]. cbn [app HashSlices]. rewrite IH. apply app_assoc. Qed.

Lemma bufSize_spec P : 1 <= P <= maxBuf -> exists k, bufSize P = Z.of_nat k * P /\ 1 <= bufSize P <= maxBuf /\ (0 < k)%nat.
Proof.
  intros HP. unfold bufSize, mul64, maxBuf in *. rewrite Z.quot_div_nonneg by lia.
  pose proof (Z.div_mod 5242880 P ltac:(lia)) as Hd. pose proof (Z.mod_pos_bound 5242880 P ltac:(lia)) as Hm.
  assert (Hq : 1 <= 5242880 / P) by (apply Z.div_le_lower_bound; lia).
  rewrite i64_id by (unfold min64, max64; nia). exists (Z.to_nat (5242880 / P)). rewrite Z2Nat.id by lia. split; [reflexivity|]. split; nia.
Qed.
Lemma bufSize_large P : maxBuf < P <= max64 -> bufSize P = 0.
Proof. intros HP. unfold bufSize, mul64, maxBuf in *. rewrite Z.quot_div_nonneg by lia. rewrite Z.div_small by lia. reflexivity. Qed.

(** Reading gives a prefix of what is left: nothing exactly at end of file, else at least one byte. *)
Lemma do_read_data room rest sched : only_data sched -> 0 < room ->
  exists s', only_data s' /\
    ((rest = [] /\ do_read room rest sched = (REof, s')) \/
     (exists n, (0 < n <= List.length rest)%nat /\ Z.of_nat n <= room /\ do_read room rest sched = (RData (firstn n rest), s'))).
Proof.
  intros Hs Hr. unfold do_read. replace (room <=? 0) with false by lia. destruct sched as [|[k|] s].
  - exists []. split; [constructor|]. destruct rest as [|x rest]; [left; auto|right]. exists (Nat.min (Z.to_nat room) (List.length (x :: rest))).
    split; [cbn; lia|]. split; [lia|]. f_equal. f_equal. destruct (Nat.le_ge_cases (Z.to_nat room) (List.length (x :: rest))).
    + now rewrite Nat.min_l.
    + rewrite Nat.min_r by assumption. rewrite firstn_all. now apply firstn_all2.
  - inversion Hs; subst. exists s. split; [assumption|]. destruct rest as [|x rest]; [left; auto|right]. set (m := Z.to_nat (Z.max 1 (Z.min k room))).
    exists (Nat.min m (List.length (x :: rest))). split; [cbn; subst m; lia|]. split; [subst m; lia|]. f_equal. f_equal.
    destruct (Nat.le_ge_cases m (List.length (x :: rest))).
    + now rewrite Nat.min_l.
    + rewrite Nat.min_r by assumption. rewrite firstn_all. now apply firstn_all2.
  - inversion Hs; congruence.
Qed.

Lemma read_file_spec sha1 P fuel : forall rest acc hashes sched, 1 <= P <= maxBuf -> only_data sched -> zlen acc < bufSize P -> (List.length rest < fuel)%nat ->
  exists acc' hashes' s' done k, read_file sha1 fuel P rest acc hashes sched = Ok (acc', hashes', s') /\ only_data s' /\ zlen acc' < bufSize P /\
    done ++ acc' = acc ++ rest /\ zlen done = Z.of_nat k * P /\ hashes' = hashes ++ HashSlices sha1 (pieces_of P done).
Proof.
  induction fuel as [|fuel IH]; intros rest acc hashes sched HP Hs Ha Hf; [lia|]. cbn [read_file].
  destruct (bufSize_spec P HP) as (kb & Hkb & Hbs & Hkb0).
  destruct (do_read_data (bufSize P - zlen acc) rest sched Hs ltac:(lia)) as (s1 & Hs1 & [[-> E]|(n & Hn & Hroom & E)]); rewrite E.
  { exists acc, hashes, s1, [], 0%nat. split; [reflexivity|]. split; [assumption|]. split; [assumption|]. split; [now rewrite app_nil_r|]. split; [reflexivity|].
    rewrite pieces_nil by lia. now rewrite app_nil_r. }
  assert (Hfl : List.length (firstn n rest) = n) by (rewrite firstn_length; lia). rewrite Hfl.
  assert (Hz : zlen (acc ++ firstn n rest) = zlen acc + Z.of_nat n) by (rewrite zlen_app; unfold zlen at 2; now rewrite Hfl).
  destruct (Z.eqb_spec (zlen (acc ++ firstn n rest)) (bufSize P)) as [Efull|Epart].
  - rewrite SegmentData_spec by (unfold slen, max64, maxBuf in *; cbn [vis]; lia). cbn [bind vis].
    destruct (IH (skipn n rest) [] (hashes ++ HashSlices sha1 (pieces_of P (acc ++ firstn n rest))) s1) as (acc' & h' & s' & done & k & E' & A1 & A2 & A3 & A4 & A5);
      [assumption|assumption|change (zlen (@nil byte)) with 0; lia|rewrite skipn_length; lia|].
    exists acc', h', s', ((acc ++ firstn n rest) ++ done), (kb + k)%nat. split; [exact E'|]. split; [assumption|]. split; [assumption|].
    split. { cbn [app] in A3. rewrite <- app_assoc, A3, <- app_assoc, firstn_skipn. reflexivity. }
    split; [rewrite zlen_app; nia|]. rewrite A5, <- app_assoc. f_equal. rewrite (pieces_app P kb ltac:(lia) _ _ (eq_trans Efull Hkb)). now rewrite HashSlices_app.
  - destruct (IH (skipn n rest) (acc ++ firstn n rest) hashes s1) as (acc' & h' & s' & done & k & E' & A1 & A2 & A3 & A4 & A5);
      [assumption|assumption|lia|rewrite skipn_length; lia|].
    exists acc', h', s', done, k. split; [exact E'|]. split; [assumption|]. split; [assumption|]. split; [|auto].
    rewrite A3, <- app_assoc, firstn_skipn. reflexivity.
Qed.

Definition made_entries (wd : bytes) (paths : list bytes) (cs : list bytes) : list ebase :=
  map (fun pc => mkeb (zlen (snd pc)) (fst pc) (Join [wd; fst pc])) (combine paths cs).

Lemma read_files_spec sha1 P fuel w wd : forall paths cs acc hashes sched, 1 <= P <= maxBuf -> only_data sched -> zlen acc < bufSize P ->
  Forall2 (fun p c => file_at w (Join [wd; p]) = Some c) paths cs -> Forall (fun c : bytes => (List.length c < fuel)%nat) cs ->
  exists acc' hashes' done k, read_files sha1 fuel P w wd paths acc hashes sched = Ok (acc', hashes', made_entries wd paths cs) /\ zlen acc' < bufSize P /\
    done ++ acc' = acc ++ List.concat cs /\ zlen done = Z.of_nat k * P /\ hashes' = hashes ++ HashSlices sha1 (pieces_of P done).
Proof.
  induction paths as [|p paths IH]; intros cs acc hashes sched HP Hs Ha HF HL; inversion HF as [|? c ? cs' Hc HF' E1 E2]; subst.
  { exists acc, hashes, [], 0%nat. split; [reflexivity|]. split; [assumption|]. split; [cbn; now rewrite app_nil_r|]. split; [reflexivity|]. rewrite pieces_nil by lia. now rewrite app_nil_r. }
  inversion HL as [|? ? Hlc HL']; subst. cbn [read_files]. rewrite Hc.
  destruct (read_file_spec sha1 P fuel c acc hashes sched HP Hs Ha Hlc) as (a1 & h1 & s1 & d1 & k1 & E1 & A1 & A2 & A3 & A4 & A5).
  rewrite E1. cbn [bind].
  destruct (IH cs' a1 h1 s1 HP A1 A2 HF' HL') as (a2 & h2 & d2 & k2 & E2 & B2 & B3 & B4 & B5). rewrite E2. cbn [bind].
  exists a2, h2, (d1 ++ d2), (k1 + k2)%nat. split; [reflexivity|]. split; [assumption|].
  split. { cbn [List.concat]. rewrite <- app_assoc, B3, !app_assoc, A3. reflexivity. }
  split; [rewrite zlen_app; nia|]. rewrite B5, A5, <- app_assoc. f_equal. rewrite (pieces_app P k1) by (lia || assumption). now rewrite HashSlices_app.
Qed.

Definition base_dir (paths : list bytes) (workingDir name : bytes) : bytes := if 1 <? zlen paths then Join [workingDir; name] else workingDir.

Lemma CreateTorInfo_hashes sha1 fuel sched w paths wd name P cs : 1 <= P <= maxBuf -> only_data sched ->
  Forall2 (fun p c => file_at w (Join [base_dir paths wd name; p]) = Some c) paths cs -> Forall (fun c : bytes => (List.length c < fuel)%nat) cs ->
  CreateTorInfo sha1 fuel sched w paths wd name P =
  NewTorInfo name P (HashSlices sha1 (pieces_of P (List.concat cs))) (made_entries (base_dir paths wd name) paths cs).
Proof.
  intros HP Hs HF HL. destruct (bufSize_spec P HP) as (kb & Hkb & Hbs & Hkb0). unfold CreateTorInfo. replace (P =? 0) with false by lia. replace (bufSize P <? 0) with false by lia.
  fold (base_dir paths wd name).
  destruct (read_files_spec sha1 P fuel w (base_dir paths wd name) paths cs [] [] sched HP Hs ltac:(change (zlen (@nil byte)) with 0; lia) HF HL) as (a & h & d & k & E & A2 & A3 & A4 & A5).
  rewrite E. cbn [bind]. rewrite SegmentData_spec by (unfold slen, max64, maxBuf in *; cbn [vis]; lia). cbn [bind vis app] in *.
  rewrite A5, <- A3. rewrite (pieces_app P k) by (lia || assumption). now rewrite HashSlices_app.
Qed.

Lemma HashSlices_len sha1 ps : (forall b, zlen (sha1 b) = 20) -> zlen (HashSlices sha1 ps) = 20 * zlen ps.
Proof. intros H. induction ps as [|p ps IH]; [reflexivity|]. cbn [HashSlices]. rewrite zlen_app, H, IH. unfold zlen. cbn [List.length]. lia. Qed.

Lemma HashSlices_nth sha1 ps : (forall b, zlen (sha1 b) = 20) -> forall i p, nth_error ps i = Some p -> hash_at (HashSlices sha1 ps) (Z.of_nat i) = sha1 p.
Proof.
  intros H. induction ps as [|q ps IH]; intros [|i] p Hp; cbn in Hp; [discriminate..| |].
  - injection Hp as ->. cbn [HashSlices]. unfold hash_at, range, sub. change (Z.to_nat (20 * Z.of_nat 0)) with 0%nat. cbn [skipn].
    replace (Z.to_nat (20 * Z.of_nat 0 + 20 - 20 * Z.of_nat 0)) with (List.length (sha1 p)) by (specialize (H p); unfold zlen in H; lia).
    rewrite firstn_app, firstn_all, Nat.sub_diag, firstn_O. apply app_nil_r.
  - rewrite <- (IH i p Hp). cbn [HashSlices]. unfold hash_at, range, sub. specialize (H q). unfold zlen in H.
    replace (Z.to_nat (20 * Z.of_nat (S i))) with (List.length (sha1 q) + Z.to_nat (20 * Z.of_nat i))%nat by lia.
    rewrite skipn_app. rewrite skipn_all2 by lia. cbn [app]. f_equal; [lia|]. f_equal. lia.
Qed.

Lemma made_entries_lens wd paths cs : List.length paths = List.length cs -> lens_of (made_entries wd paths cs) = map zlen cs.
Proof.
  revert cs. induction paths as [|p paths IH]; intros [|c cs] H; try discriminate; [reflexivity|]. injection H as H.
  unfold made_entries, lens_of in *. cbn [combine map snd eb_len]. f_equal. apply IH. assumption.
Qed.

Lemma CreateTorInfo_spec sha1 fuel sched w paths wd name P cs : 1 <= P <= maxBuf -> only_data sched -> (forall b, zlen (sha1 b) = 20) ->
  Forall2 (fun p c => file_at w (Join [base_dir paths wd name; p]) = Some c) paths cs -> Forall (fun c : bytes => (List.length c < fuel)%nat) cs ->
  let T := zlen (List.concat cs) in 20 * pieces_needed P T < big -> T < big ->
  exists ti, CreateTorInfo sha1 fuel sched w paths wd name P = Ok ti /\
    made P (HashSlices sha1 (pieces_of P (List.concat cs))) (made_entries (base_dir paths wd name) paths cs) ti /\
    ti_npieces ti = pieces_needed P T /\ ti_plen ti = P /\ ti_length ti = T /\ ti_hashes ti = HashSlices sha1 (pieces_of P (List.concat cs)) /\
    map en_base (ti_files ti) = made_entries (base_dir paths wd name) paths cs.
Proof.
  intros HP Hs Hsha HF HL T HB HT. rewrite (CreateTorInfo_hashes sha1 fuel sched w paths wd name P cs HP Hs HF HL).
  set (hs := HashSlices sha1 (pieces_of P (List.concat cs))). set (es := made_entries (base_dir paths wd name) paths cs).
  assert (Hlen : List.length paths = List.length cs) by (eapply Forall2_len; eassumption).
  assert (Hlens : lens_of es = map zlen cs) by now apply made_entries_lens.
  assert (Hsum : zsum (lens_of es) = T) by (rewrite Hlens; symmetry; apply zlen_concat).
  assert (Hzh : zlen hs = 20 * pieces_needed P T) by (unfold hs; rewrite HashSlices_len by assumption; now rewrite pieces_count by lia).
  assert (HS : sane P (lens_of es)).
  { split; [unfold maxBuf, big in *; lia|]. rewrite Hsum. split; [|assumption]. rewrite Hlens. apply Forall_forall. intros x Hx. apply in_map_iff in Hx. destruct Hx as (c & <- & _). apply zlen_nonneg. }
  assert (H20 : zlen hs mod 20 = 0) by (rewrite Hzh, Z.mul_comm; apply Z.mod_mul; lia).
  assert (Hd : zlen hs / 20 = pieces_needed P T) by (rewrite Hzh, Z.mul_comm; apply Z.div_mul; lia).
  destruct (NewTorInfo_spec name P hs es HS H20) as [H1 _]. rewrite Hsum, Hd in H1.
  assert (Hcov : T <= pieces_needed P T * P).
  { unfold pieces_needed. pose proof (Z.div_mod (T + P - 1) P ltac:(lia)). pose proof (Z.mod_pos_bound (T + P - 1) P ltac:(lia)). lia. }
  destruct (H1 Hcov) as (pm & E & _). exists (built name P hs es pm). split; [exact E|].
  assert (Hm : made P hs es (built name P hs es pm)) by (split; [assumption|]; split; [lia|]; exists name; exact E).
  split; [exact Hm|]. destruct (made_facts _ _ _ _ Hm) as (_ & _ & F1 & F2 & F3 & F4 & F5 & _). rewrite Hd in F1. rewrite Hsum in F4. auto.
Qed.

Lemma read_file_diverges sha1 P fuel : forall rest hashes sched, bufSize P = 0 -> 1 <= P <= max64 -> read_file sha1 fuel P rest [] hashes sched = NoFuel.
Proof.
  induction fuel as [|fuel IH]; intros rest hashes sched HB HP; [reflexivity|]. cbn [read_file]. rewrite HB. change (zlen (@nil byte)) with 0.
  unfold do_read. change (0 - 0 <=? 0) with true. cbn [app List.length skipn]. change (zlen (@nil byte)) with 0. change (0 =? 0) with true.
  rewrite SegmentData_spec by (cbn; unfold max64 in *; lia). cbn [bind vis]. rewrite pieces_nil by lia. apply IH; assumption.
Qed.

Lemma CreateTorInfo_diverges sha1 sched w p paths wd name P c : maxBuf < P <= max64 -> file_at w (Join [base_dir (p :: paths) wd name; p]) = Some c ->
  forall fuel, CreateTorInfo sha1 fuel sched w (p :: paths) wd name P = NoFuel.
Proof.
  intros HP Hc fuel. pose proof (bufSize_large P HP) as HB. unfold CreateTorInfo. unfold maxBuf in HP. replace (P =? 0) with false by lia. rewrite HB. change (0 <? 0) with false. cbn iota.
  fold (base_dir (p :: paths) wd name). cbn [read_files]. rewrite Hc. rewrite read_file_diverges by (assumption || lia). reflexivity.
Qed.

(** ** Create, then open and validate *)
Lemma resized_exact o L c : resized o L c -> L = zlen o -> c = o.
Proof.
  intros [Hl H] ->. unfold zlen in Hl. apply (nth_ext _ _ x00 x00); [lia|]. intros n Hn.
  specialize (H (Z.of_nat n) ltac:(unfold zlen in *; lia)). unfold zlen in H. replace (Z.of_nat n <? Z.of_nat (List.length o)) with true in H by lia. rewrite Nat2Z.id in H.
  rewrite (nth_error_nth' c x00 Hn) in H. symmetry in H. apply nth_error_nth with (d := x00) in H. congruence.
Qed.

Lemma create_validate sha1 fuel sched w paths wd name P cs : 1 <= P <= maxBuf -> only_data sched -> (forall b, zlen (sha1 b) = 20) ->
  Forall2 (fun p c => file_at w (Join [base_dir paths wd name; p]) = Some c) paths cs -> Forall (fun c : bytes => (List.length c < fuel)%nat) cs ->
  20 * pieces_needed P (zlen (List.concat cs)) < big -> zlen (List.concat cs) < big -> fs_wf w -> no_faults w ->
  NoDup (map (fun p => place (w_cwd w) (Join [base_dir paths wd name; p])) paths) ->
  exists ti bf w', CreateTorInfo sha1 fuel sched w paths wd name P = Ok ti /\ open_and_validate sha1 ti w = (Ok bf, w') /\ Complete bf = true /\
    Nbits bf = pieces_needed P (zlen (List.concat cs)) /\ (forall q, file_at w' q = file_at w q).
Proof.
  intros HP Hs Hsha HF HL HB HT Hwf Hnf HND.
  destruct (CreateTorInfo_spec sha1 fuel sched w paths wd name P cs HP Hs Hsha HF HL HB HT) as (ti & E & Hm & Hn & _ & _ & _ & _).
  set (hs := HashSlices sha1 (pieces_of P (List.concat cs))) in *. set (es := made_entries (base_dir paths wd name) paths cs) in *.
  assert (Hlen : List.length paths = List.length cs) by (eapply Forall2_len; eassumption).
  assert (Hpl : map (fun f => place (w_cwd w) (eb_local f)) es = map (fun p => place (w_cwd w) (Join [base_dir paths wd name; p])) paths).
  { unfold es, made_entries. rewrite map_map. cbn [eb_local]. generalize (base_dir paths wd name) as bd. intros bd. clear - Hlen. revert cs Hlen.
    induction paths as [|p paths IH]; intros [|c cs] H; try discriminate; [reflexivity|]. injection H as H. cbn [combine map fst]. f_equal. now apply IH. }
  assert (HND' : NoDup (map (fun f => place (w_cwd w) (eb_local f)) es)) by (rewrite Hpl; assumption).
  destruct (open_and_validate_spec sha1 P hs es ti w Hm Hwf Hnf HND') as (bf & cs' & w' & Ev & Ho & Hnf' & He & Hf & Hb & _ & Hc).
  assert (Hcs : cs' = cs /\ Forall2 (fun f c => file_at w' (eb_local f) = Some c /\ file_at w (eb_local f) = Some c) es cs).
  { unfold es, made_entries in *. clear - HF Hf Hlen. revert HF Hf. generalize (base_dir paths wd name) as bd. intros bd. revert cs Hlen cs'.
    induction paths as [|p paths IH]; intros [|c cs] H cs' HF Hf; try discriminate; [inversion Hf; subst; split; [reflexivity|constructor]|]. injection H as H.
    cbn [combine map fst snd] in Hf. inversion Hf as [|? c' ? cs2 [H1 H2] Hf']; subst. inversion HF as [|? ? ? ? Hc HF']; subst. cbn [eb_local eb_len] in *.
    destruct (IH cs H cs2 HF' Hf') as [-> IH2].
    assert (c' = c). { apply (resized_exact c (zlen c)); [|reflexivity]. assert (Hoc : old_at w (Join [bd; p]) = c) by (unfold old_at; now rewrite Hc).
      refine (eq_ind _ (fun z => resized z (zlen c) c') H1 _ Hoc). }
    subst c'. split; [reflexivity|]. cbn [combine map fst snd]. constructor; [cbn [eb_local]; auto|]. assumption. }
  destruct Hcs as [-> Hat]. exists ti, bf, w'. split; [exact E|]. split; [exact Ev|].
  assert (Hz20 : zlen hs / 20 = pieces_needed P (zlen (List.concat cs))).
  { unfold hs. rewrite HashSlices_len by assumption. rewrite pieces_count by lia. rewrite Z.mul_comm. apply Z.div_mul. lia. }
  rewrite Hz20 in Hb, Hc. split; [|split; [assumption|]].
  - apply Hc. intros i Hi. assert (HP1 : 1 <= P) by lia. pose proof (pieces_nth P (List.concat cs) i HP1 Hi) as Hp.
    pose proof (HashSlices_nth sha1 _ Hsha _ _ Hp) as Hh. rewrite Z2Nat.id in Hh by lia. fold hs in Hh. rewrite Hh. f_equal. unfold piece_bytes. f_equal.
    apply Z.min_l. unfold pieces_needed in Hi. pose proof (zlen_nonneg (List.concat cs)). pose proof (Z.div_mod (zlen (List.concat cs) + P - 1) P ltac:(lia)).
    pose proof (Z.mod_pos_bound (zlen (List.concat cs) + P - 1) P ltac:(lia)). nia.
  - intros q. destruct He as [Hcwd He]. destruct (in_dec (list_eq_dec bytes_dec) (place (w_cwd w) q) (map (fun f => place (w_cwd w) (eb_local f)) es)) as [Hin|Hin]; [|auto].
    apply in_map_iff in Hin. destruct Hin as (f & Hq & Hin). apply In_nth_error in Hin. destruct Hin as (k & Hk).
    assert (Hx : exists c, file_at w' (eb_local f) = Some c /\ file_at w (eb_local f) = Some c).
    { clear - Hat Hk. revert k Hk. induction Hat as [|a x l l' Ha Hf IH]; intros [|k] Hk; cbn in *; [discriminate..| |eauto].
      injection Hk as ->. exists x. assumption. }
    destruct Hx as (c & X1 & X2). unfold file_at in *. rewrite Hcwd in *. rewrite <- Hq. congruence.
Qed.

(** ** Statements for PropsSwarm *)
Lemma SegmentData_top d P : 1 <= P <= max64 -> slen d <= max64 -> exists ps, SegmentData d P = Ok ps /\
  List.concat ps = vis d /\ zlen ps = pieces_needed P (slen d) /\
  (forall i p, nth_error ps i = Some p -> 1 <= zlen p <= P /\ (Z.of_nat i + 1 < zlen ps -> zlen p = P)).
Proof.
  intros HP Hd. exists (pieces_of P (vis d)). split; [now apply SegmentData_spec|]. split; [apply pieces_concat; lia|]. split; [apply pieces_count; lia|].
  intros i p H. rewrite pieces_count by lia. apply (pieces_sizes P (vis d) i p); [lia|assumption].
Qed.
Lemma SegmentData_positions d P i : 1 <= P <= max64 -> slen d <= max64 -> 0 <= i < pieces_needed P (slen d) -> exists ps, SegmentData d P = Ok ps /\
  nth_error ps (Z.to_nat i) = Some (range (vis d) (i * P) (Z.min ((i + 1) * P) (slen d))).
Proof.
  intros HP Hd Hi. exists (pieces_of P (vis d)). split; [now apply SegmentData_spec|]. apply pieces_nth; [lia|exact Hi].
Qed.

Lemma CreateTorInfo_top sha1 fuel sched w paths wd name P cs : 1 <= P <= maxBuf -> only_data sched -> (forall b, zlen (sha1 b) = 20) ->
  Forall2 (fun p c => file_at w (Join [base_dir paths wd name; p]) = Some c) paths cs -> Forall (fun c : bytes => (List.length c < fuel)%nat) cs ->
  let T := zlen (List.concat cs) in 20 * pieces_needed P T < big -> T < big ->
  exists ti, CreateTorInfo sha1 fuel sched w paths wd name P = Ok ti /\
    ti_npieces ti = pieces_needed P T /\ ti_plen ti = P /\ ti_length ti = T /\
    zlen (ti_hashes ti) = 20 * pieces_needed P T /\
    (forall i, 0 <= i < pieces_needed P T -> hash_at (ti_hashes ti) i = sha1 (range (List.concat cs) (i * P) (Z.min ((i + 1) * P) T))) /\
    map (fun e => eb_len (en_base e)) (ti_files ti) = map zlen cs /\ map (fun e => eb_tor (en_base e)) (ti_files ti) = paths.
Proof.
  intros HP Hs Hsha HF HL T HB HT.
  destruct (CreateTorInfo_spec sha1 fuel sched w paths wd name P cs HP Hs Hsha HF HL HB HT) as (ti & E & _ & A1 & A2 & A3 & A4 & A5).
  assert (Hlen : List.length paths = List.length cs) by (eapply Forall2_len; eassumption).
  exists ti. split; [exact E|]. split; [exact A1|]. split; [exact A2|]. split; [exact A3|]. rewrite A4.
  split; [rewrite HashSlices_len by assumption; now rewrite pieces_count by lia|]. split; [|split].
  - intros i Hi. assert (HP1 : 1 <= P) by lia. pose proof (HashSlices_nth sha1 _ Hsha _ _ (pieces_nth P (List.concat cs) i HP1 Hi)) as Hh. now rewrite Z2Nat.id in Hh by lia.
  - rewrite <- (map_map en_base eb_len), A5. now apply made_entries_lens.
  - rewrite <- (map_map en_base eb_tor), A5. unfold made_entries. rewrite map_map. cbn [eb_tor]. generalize (base_dir paths wd name) as bd. intros _. clear - Hlen. revert cs Hlen.
    induction paths as [|p paths IH]; intros [|c cs] H; try discriminate; [reflexivity|]. injection H as H. cbn [combine map fst]. f_equal. now apply IH.
Qed.

(** ** Schedules with read errors, missing files *)
Definition scrub (sched : list (option Z)) : list (option Z) := map (fun x => match x with None => Some 1 | y => y end) sched.
Lemma scrub_data sched : only_data (scrub sched).
Proof. unfold only_data, scrub. rewrite Forall_map. apply Forall_forall. intros [k|] _; discriminate. Qed.
Lemma do_read_scrub room rest sched d s : do_read room rest sched = (d, s) -> d <> RErr -> do_read room rest (scrub sched) = (d, scrub s).
Proof.
  unfold do_read. destruct (room <=? 0); [intros H _; now inversion H|]. destruct sched as [|[k|] q]; intros H Hd; inversion H; subst; cbn [scrub map]; try reflexivity. now elim Hd.
Qed.
Lemma read_file_scrub sha1 P fuel : forall rest acc hashes sched a h s, read_file sha1 fuel P rest acc hashes sched = Ok (a, h, s) ->
  read_file sha1 fuel P rest acc hashes (scrub sched) = Ok (a, h, scrub s).
Proof.
  induction fuel as [|f IH]; intros rest acc hashes sched a h s H; [discriminate|]. cbn [read_file] in *.
  destruct (do_read (bufSize P - zlen acc) rest sched) as [d q] eqn:E. destruct d as [b| |]; [| |discriminate].
  - rewrite (do_read_scrub _ _ _ _ _ E) by discriminate. destruct (zlen (acc ++ b) =? bufSize P).
    + destruct (SegmentData _ P); try discriminate. cbn [bind] in *. now apply IH.
    + now apply IH.
  - rewrite (do_read_scrub _ _ _ _ _ E) by discriminate. now inversion H.
Qed.
Lemma read_files_scrub sha1 P fuel w wd : forall paths acc hashes sched r, read_files sha1 fuel P w wd paths acc hashes sched = Ok r ->
  read_files sha1 fuel P w wd paths acc hashes (scrub sched) = Ok r.
Proof.
  induction paths as [|p paths IH]; intros acc hashes sched r H; [exact H|]. cbn [read_files] in *. destruct (file_at w (Join [wd; p])) as [c|]; [|discriminate].
  destruct (read_file sha1 fuel P c acc hashes sched) as [[[a h] s]| | |] eqn:E; try discriminate. rewrite (read_file_scrub _ _ _ _ _ _ _ _ _ _ E). cbn [bind] in *.
  destruct (read_files sha1 fuel P w wd paths a h s) as [[[a2 h2] es]| | |] eqn:E2; try discriminate. now rewrite (IH _ _ _ _ E2).
Qed.
Lemma CreateTorInfo_scrub sha1 fuel sched w paths wd name P ti : CreateTorInfo sha1 fuel sched w paths wd name P = Ok ti ->
  CreateTorInfo sha1 fuel (scrub sched) w paths wd name P = Ok ti.
Proof.
  unfold CreateTorInfo. destruct (P =? 0); [discriminate|]. destruct (bufSize P <? 0); [discriminate|]. cbv zeta. intros H.
  match type of H with bind ?x _ = _ => destruct x as [r| | |] eqn:E end; try discriminate.
  rewrite (read_files_scrub _ _ _ _ _ _ _ _ _ _ E). exact H.
Qed.
Lemma CreateTorInfo_any sha1 fuel sched w paths wd name P cs : 1 <= P <= maxBuf -> (forall b, zlen (sha1 b) = 20) ->
  Forall2 (fun p c => file_at w (Join [base_dir paths wd name; p]) = Some c) paths cs -> Forall (fun c : bytes => (List.length c < fuel)%nat) cs ->
  let T := zlen (List.concat cs) in 20 * pieces_needed P T < big -> T < big ->
  forall ti, CreateTorInfo sha1 fuel sched w paths wd name P = Ok ti ->
    ti_npieces ti = pieces_needed P T /\ ti_plen ti = P /\ ti_length ti = T /\
    zlen (ti_hashes ti) = 20 * pieces_needed P T /\
    (forall i, 0 <= i < pieces_needed P T -> hash_at (ti_hashes ti) i = sha1 (range (List.concat cs) (i * P) (Z.min ((i + 1) * P) T))) /\
    map (fun e => eb_len (en_base e)) (ti_files ti) = map zlen cs /\ map (fun e => eb_tor (en_base e)) (ti_files ti) = paths.
Proof.
  intros HP Hsha HF HL T HB HT ti E. apply CreateTorInfo_scrub in E.
  destruct (CreateTorInfo_top sha1 fuel (scrub sched) w paths wd name P cs HP (scrub_data sched) Hsha HF HL HB HT) as (ti' & E' & R).
  rewrite E in E'. inversion E'. subst ti'. exact R.
Qed.
Lemma read_files_missing sha1 P fuel w wd : forall paths acc hashes sched p r, In p paths -> file_at w (Join [wd; p]) = None ->
  read_files sha1 fuel P w wd paths acc hashes sched <> Ok r.
Proof.
  induction paths as [|q paths IH]; intros acc hashes sched p r Hin Hp H; [contradiction|]. cbn [read_files] in H. destruct Hin as [-> |Hin].
  - rewrite Hp in H. discriminate.
  - destruct (file_at w (Join [wd; q])) as [c|]; [|discriminate]. destruct (read_file sha1 fuel P c acc hashes sched) as [[[a h] s]| | |]; try discriminate. cbn [bind] in H.
    destruct (read_files sha1 fuel P w wd paths a h s) as [[[a2 h2] es]| | |] eqn:E2; try discriminate. eapply IH; eassumption.
Qed.
Lemma CreateTorInfo_missing sha1 fuel sched w paths wd name P p : In p paths -> file_at w (Join [base_dir paths wd name; p]) = None ->
  forall ti, CreateTorInfo sha1 fuel sched w paths wd name P <> Ok ti.
Proof.
  intros Hin Hp ti H. unfold CreateTorInfo in H. destruct (P =? 0); [discriminate|]. destruct (bufSize P <? 0); [discriminate|]. cbv zeta in H. fold (base_dir paths wd name) in H.
  match type of H with bind ?x _ = _ => destruct x as [r| | |] eqn:E end; try discriminate. eapply read_files_missing; eassumption.
Qed.
Lemma CreateTorInfo_ioerr sha1 fuel sched w p paths wd name P c : 1 <= P <= maxBuf -> (0 < fuel)%nat -> file_at w (Join [base_dir (p :: paths) wd name; p]) = Some c ->
  CreateTorInfo sha1 fuel (None :: sched) w (p :: paths) wd name P = Err EIO.
Proof.
  intros HP Hf Hc. destruct (bufSize_spec P HP) as (k & _ & Hb & _). unfold CreateTorInfo. replace (P =? 0) with false by lia. replace (bufSize P <? 0) with false by lia.
  cbv zeta. fold (base_dir (p :: paths) wd name). cbn [read_files]. rewrite Hc. destruct fuel as [|f]; [lia|]. cbn [read_file]. unfold do_read.
  change (zlen []) with 0. replace (bufSize P - 0 <=? 0) with false by lia. reflexivity.
Qed.
