(** CreateNegProofs.v: CreateTorInfo with a negative piece length. *)
From Coq Require Import ZifyBool ZifyNat ZifyN.
From Verif Require Import Base PathModel PathSpec LayoutModel LayoutSpec LayoutProofs PieceMapProofs FsModel FsSpec CreateModel CreateSpec CreateProofs.

Lemma bufSize_neg P : - maxBuf <= P < 0 -> 1 <= bufSize P <= maxBuf.
Proof.
  intros HP. replace P with (- - P) by lia. unfold bufSize, mul64. rewrite Z.quot_opp_r by lia. rewrite Z.mul_opp_opp. fold (mul64 (Z.quot maxBuf (- P)) (- P)). fold (bufSize (- P)). destruct (bufSize_spec (- P)) as (k & _ & H & _); lia.
Qed.
Lemma bufSize_far P : min64 <= P < - maxBuf -> bufSize P = 0.
Proof.
  intros HP. unfold bufSize, mul64, maxBuf, min64 in *. replace P with (- - P) by lia. rewrite Z.quot_opp_r by lia. rewrite Z.quot_small by lia. reflexivity.
Qed.
Lemma seg_empty P : P <> 0 -> SegmentData (mkslice [] []) P = Ok [].
Proof. intros H. unfold SegmentData. replace (P =? 0) with false by lia. change (slen (mkslice [] [])) with 0. rewrite Z.quot_0_l by exact H. reflexivity. Qed.
Lemma seg_neg a P : min64 <= P < 0 -> a <> [] -> SegmentData (mkslice a []) P = Panic.
Proof. intros HP H. apply SegmentData_bad; [lia|right; exact H]. Qed.
Lemma read_file_neg sha1 P fuel : forall rest acc hashes sched, - maxBuf <= P < 0 -> only_data sched -> zlen acc < bufSize P -> (List.length rest < fuel)%nat ->
  read_file sha1 fuel P rest acc hashes sched = Panic /\ rest <> [] \/ exists s', read_file sha1 fuel P rest acc hashes sched = Ok (acc ++ rest, hashes, s') /\ only_data s' /\ zlen (acc ++ rest) < bufSize P.
Proof.
  induction fuel as [|fuel IH]; intros rest acc hashes sched HP Hs Ha Hf; [lia|]. cbn [read_file]. pose proof (bufSize_neg P HP) as Hb.
  destruct (do_read_data (bufSize P - zlen acc) rest sched Hs ltac:(lia)) as (s1 & Hs1 & [[-> E]|(n & Hn & Hroom & E)]); rewrite E.
  { right. exists s1. rewrite app_nil_r. auto. }
  assert (Hfl : List.length (firstn n rest) = n) by (rewrite firstn_length; lia). rewrite Hfl.
  assert (Hz : zlen (acc ++ firstn n rest) = zlen acc + Z.of_nat n) by (rewrite zlen_app; unfold zlen at 2; now rewrite Hfl).
  destruct (Z.eqb_spec (zlen (acc ++ firstn n rest)) (bufSize P)) as [Efull|Epart].
  - left. rewrite seg_neg; [split; [reflexivity|]|unfold min64, maxBuf in *; lia|]; [intros ->; cbn in Hn; lia|]. intros X. rewrite X in Efull. change (zlen (@nil byte)) with 0 in Efull. lia.
  - destruct (IH (skipn n rest) (acc ++ firstn n rest) hashes s1) as [[E1 _]|(s' & E1 & A1 & A2)]; [assumption|assumption|lia|rewrite skipn_length; lia| |].
    + left. split; [exact E1|]. intros ->. cbn in Hn. lia.
    + right. exists s'. rewrite <- app_assoc, firstn_skipn in *. auto.
Qed.
Lemma read_files_neg sha1 P fuel w wd : forall paths cs acc hashes sched, - maxBuf <= P < 0 -> only_data sched -> zlen acc < bufSize P ->
  Forall2 (fun p c => file_at w (Join [wd; p]) = Some c) paths cs -> Forall (fun c : bytes => (List.length c < fuel)%nat) cs ->
  read_files sha1 fuel P w wd paths acc hashes sched = Panic /\ List.concat cs <> [] \/ read_files sha1 fuel P w wd paths acc hashes sched = Ok (acc ++ List.concat cs, hashes, made_entries wd paths cs).
Proof.
  induction paths as [|p paths IH]; intros cs acc hashes sched HP Hs Ha HF HL; inversion HF as [|? c ? cs' Hc HF' E1 E2]; subst.
  { right. cbn. rewrite app_nil_r. reflexivity. }
  inversion HL as [|? ? Hlc HL']; subst. cbn [read_files]. rewrite Hc. cbn [List.concat].
  destruct (read_file_neg sha1 P fuel c acc hashes sched HP Hs Ha Hlc) as [[E Hn]|(s' & E & A1 & A2)]; rewrite E; cbn [bind].
  { left. split; [reflexivity|]. destruct c; [contradiction|discriminate]. }
  destruct (IH cs' (acc ++ c) hashes s' HP A1 A2 HF' HL') as [[E' Hn]|E']; rewrite E'; cbn [bind].
  - left. split; [reflexivity|]. intros X. apply app_eq_nil in X. tauto.
  - right. rewrite app_assoc. reflexivity.
Qed.
Lemma MakeFileList_any P : P <> 0 -> forall bs i o, exists es, MakeFileList_loop bs P i o = Ok es.
Proof.
  intros HP. induction bs as [|b bs IH]; intros i o; [eexists; reflexivity|]. cbn [MakeFileList_loop].
  assert (Hs : exists r, file_step b P i o = Ok r).
  { unfold file_step, div64, rem64. replace (P =? 0) with false by lia. cbn [bind]. destruct (P <=? _); cbn [bind]; destruct (_ =? P); eexists; reflexivity. }
  destruct Hs as [[[e i'] o'] ->]. cbn [bind]. destruct (IH i' o') as [es ->]. eexists. reflexivity.
Qed.
Lemma sum64_zero wd : forall paths cs, List.concat cs = [] -> sum64 (made_entries wd paths cs) = 0.
Proof.
  unfold sum64, made_entries. induction paths as [|p paths IH]; intros [|c cs] H; try reflexivity. cbn [List.concat] in H. apply app_eq_nil in H. destruct H as [-> H]. cbn [combine map fold_left fst snd eb_len]. change (add64 0 (zlen (@nil byte))) with 0. apply IH. exact H.
Qed.
Lemma pm_none fl P : pm_outer fl 0 0 P ([], 0, P, 0) = Ok ([], 0, P, 0).
Proof. destruct fl; reflexivity. Qed.
(** With something to hash the process dies; with nothing the torrent is made. *)
Lemma Create_negative sha1 fuel sched w paths wd name P cs : - maxBuf <= P < 0 -> only_data sched ->
  Forall2 (fun p c => file_at w (Join [base_dir paths wd name; p]) = Some c) paths cs -> Forall (fun c : bytes => (List.length c < fuel)%nat) cs ->
  (List.concat cs <> [] -> CreateTorInfo sha1 fuel sched w paths wd name P = Panic) /\
  (List.concat cs = [] -> exists ti, CreateTorInfo sha1 fuel sched w paths wd name P = Ok ti /\ ti_plen ti = P /\ ti_npieces ti = 0 /\ ti_length ti = 0).
Proof.
  intros HP Hs HF HL. pose proof (bufSize_neg P HP) as Hb. unfold CreateTorInfo. replace (P =? 0) with false by lia. replace (bufSize P <? 0) with false by lia. fold (base_dir paths wd name).
  destruct (read_files_neg sha1 P fuel w (base_dir paths wd name) paths cs [] [] sched HP Hs ltac:(change (zlen (@nil byte)) with 0; lia) HF HL) as [[E Hn]|E]; rewrite E; cbn [bind app].
  - split; [reflexivity|contradiction].
  - split; [intros Hn; rewrite seg_neg; [reflexivity|unfold min64, maxBuf in *; lia|exact Hn]|]. intros Hn. rewrite Hn. rewrite seg_empty by lia. cbn [bind HashSlices app]. unfold NewTorInfo. change (negb (zlen (@nil byte) mod 20 =? 0)) with false. cbn iota.
    unfold MakeFileList. destruct (MakeFileList_any P ltac:(lia) (made_entries (base_dir paths wd name) paths cs) 0 0) as [es ->]. cbn [bind]. unfold MakePieceMap. change (zlen (@nil byte) / 20) with 0. change (repeat [] (Z.to_nat 0)) with (@nil (list ploc)). rewrite pm_none. cbn [bind]. rewrite sum64_zero by exact Hn. cbn. eexists. split; [reflexivity|]. auto.
Qed.
Lemma read_file_far sha1 P fuel : forall rest hashes sched, bufSize P = 0 -> P <> 0 -> read_file sha1 fuel P rest [] hashes sched = NoFuel.
Proof.
  induction fuel as [|fuel IH]; intros rest hashes sched HB HP; [reflexivity|]. cbn [read_file]. rewrite HB. change (zlen (@nil byte)) with 0.
  unfold do_read. change (0 - 0 <=? 0) with true. cbn [app List.length skipn]. change (zlen (@nil byte)) with 0. change (0 =? 0) with true.
  rewrite seg_empty by exact HP. cbn [bind HashSlices]. rewrite app_nil_r. apply IH; assumption.
Qed.
Lemma Create_far sha1 sched w p paths wd name P c : min64 <= P < - maxBuf -> file_at w (Join [base_dir (p :: paths) wd name; p]) = Some c ->
  forall fuel, CreateTorInfo sha1 fuel sched w (p :: paths) wd name P = NoFuel.
Proof.
  intros HP Hc fuel. pose proof (bufSize_far P HP) as HB. unfold CreateTorInfo. unfold maxBuf in HP. replace (P =? 0) with false by lia. rewrite HB. change (0 <? 0) with false. cbn iota.
  fold (base_dir (p :: paths) wd name). cbn [read_files]. rewrite Hc. rewrite read_file_far by (assumption || lia). reflexivity.
Qed.
