(** HostileProofs.v: proofs for C104. *)
From Coq Require Import ZifyBool ZifyNat ZifyN.
From Verif Require Import Base BencodeModel LenientSpec PathModel LayoutModel LayoutSpec LayoutProofs PieceMapProofs LoadSpec LoadProofs HostileSpec.

Lemma i64_in z : - 9223372036854775808 <= z < 9223372036854775808 -> i64 z = z.
Proof. intros H. apply i64_id. unfold min64, max64. lia. Qed.
Lemma seek_off n P s : snd (seek_loop n P s 0) = 0.
Proof. revert s. induction n as [|n IH]; intros s; [reflexivity|]. cbn. apply IH. Qed.
Lemma piece_info b q r i P : 0 <= i <= q -> PieceInfo (mken b 0 q 0 r) i P = Ok (mkpi (fst (seek_loop (Z.to_nat i) P 0 0)) (if i <? q then sub64 P 0 else add64 (sub64 r 0) 1)).
Proof.
  intros H. unfold PieceInfo. cbn [en_sp en_ep en_so en_eo]. replace (i <? 0) with false by lia. replace (q <? i) with false by lia. cbn [orb].
  rewrite Z.sub_0_r. pose proof (seek_off (Z.to_nat i) P 0) as E. destruct (seek_loop (Z.to_nat i) P 0 0) as [s o]. cbn in *. now subst o.
Qed.
Lemma piece_none b q r i P : q < i -> PieceInfo (mken b 0 q 0 r) i P = Err EBounds.
Proof. intros H. unfold PieceInfo. cbn [en_sp en_ep]. replace (q <? i) with true by lia. now rewrite Bool.orb_true_r. Qed.

Lemma lookup_some {A} (l : list A) i : 0 <= i < zlen l -> exists x, nth_error l (Z.to_nat i) = Some x.
Proof. intros H. destruct (nth_error l (Z.to_nat i)) eqn:E; [eauto|]. apply nth_error_None in E. unfold zlen in H. lia. Qed.
Lemma lookup_none {A} (l : list A) i : zlen l <= i -> nth_error l (Z.to_nat i) = None.
Proof. intros H. apply nth_error_None. unfold zlen in H. lia. Qed.
Lemma zlen_lupd {A} (l : list A) i x : zlen (lupd l i x) = zlen l.
Proof. unfold zlen. f_equal. apply lupd_length. Qed.
Definition small (z : Z) : Prop := - big < z < big.

(** Both numbers below zero: the loop takes a piece after the other. *)
Lemma inner_below b P q r L : small P -> small L -> P < 0 -> 0 <= q -> P < r <= 0 -> q * P + r + 1 = L ->
  forall k pm i fidx, 0 <= i -> Z.of_nat k = q - i ->
  (q < zlen pm -> exists pm' , pm_inner (S (S k)) (mken b 0 q 0 r) fidx P (pm, i, P, i * P) = Ok (pm', q + 1, P, L)) /\
  (i <= zlen pm <= q -> pm_inner (S (S k)) (mken b 0 q 0 r) fidx P (pm, i, P, i * P) = Panic).
Proof.
  unfold small, big. intros HP HL HP0 Hq Hr HE. induction k as [|k IH]; intros pm i fidx Hi Hk.
  - assert (i = q) as -> by lia. split.
    + intros Hn. cbn [pm_inner]. rewrite piece_info by lia. replace (q <? 0) with false by lia. destruct (lookup_some pm q ltac:(lia)) as (x & ->). rewrite Z.ltb_irrefl. cbn [ReadAmnt].
      assert (Hrd : add64 (sub64 r 0) 1 = r + 1). { unfold add64, sub64. rewrite Z.sub_0_r, !(i64_in r), i64_in by lia. lia. } rewrite Hrd.
      assert (Hpr : sub64 P (r + 1) = P - (r + 1)). { unfold sub64. rewrite i64_in by lia. lia. } rewrite Hpr. replace (P - (r + 1) <=? 0) with true by lia.
      rewrite piece_none by (unfold add64; rewrite i64_in by nia; lia). 
      assert (E1 : add64 q 1 = q + 1) by (unfold add64; apply i64_in; nia). assert (E2 : add64 (q * P) (r + 1) = L) by (unfold add64; rewrite i64_in by nia; lia). rewrite E1, E2. eauto.
    + intros Hn. cbn [pm_inner]. rewrite piece_info by lia. replace (q <? 0) with false by lia. now rewrite lookup_none by lia.
  - assert (HiP : - 4611686018427387904 <= i * P <= 0) by nia. assert (Hi2 : i + 1 < 9223372036854775808) by nia.
    assert (HN : forall x pi, pi = mkpi (fst (seek_loop (Z.to_nat i) P 0 0)) P -> pm_inner (S (S k)) (mken b 0 q 0 r) fidx P (lupd pm (Z.to_nat i) (x ++ [mkpl fidx pi]), add64 i 1, P, add64 (i * P) (ReadAmnt pi)) =
      pm_inner (S (S k)) (mken b 0 q 0 r) fidx P (lupd pm (Z.to_nat i) (x ++ [mkpl fidx pi]), i + 1, P, (i + 1) * P)).
    { intros x pi ->. cbn [ReadAmnt]. assert (E1 : add64 i 1 = i + 1) by (unfold add64; apply i64_in; lia). assert (E2 : add64 (i * P) P = (i + 1) * P) by (unfold add64; rewrite i64_in by nia; lia). now rewrite E1, E2. }
    assert (HU : forall x, nth_error pm (Z.to_nat i) = Some x -> pm_inner (S (S (S k))) (mken b 0 q 0 r) fidx P (pm, i, P, i * P) =
      pm_inner (S (S k)) (mken b 0 q 0 r) fidx P (lupd pm (Z.to_nat i) (x ++ [mkpl fidx (mkpi (fst (seek_loop (Z.to_nat i) P 0 0)) P)]), i + 1, P, (i + 1) * P)).
    { intros x Hx. rewrite <- HN by reflexivity. set (F := S (S k)). cbn [pm_inner]. rewrite piece_info by lia. replace (i <? 0) with false by lia. rewrite Hx.
      replace (i <? q) with true by lia. cbn [ReadAmnt].
      assert (Hs : sub64 P 0 = P). { unfold sub64. rewrite Z.sub_0_r. apply i64_in. lia. } rewrite Hs. assert (Hz : sub64 P P = 0). { unfold sub64. rewrite Z.sub_diag. reflexivity. } rewrite Hz. reflexivity. }
    split.
    + intros Hn. destruct (lookup_some pm i ltac:(lia)) as (x & Hx). rewrite (HU x Hx). apply (IH _ (i + 1) fidx); [lia|lia|]. now rewrite zlen_lupd.
    + intros Hn. destruct (Z.eq_dec (zlen pm) i) as [He|He].
      * cbn [pm_inner]. rewrite piece_info by lia. replace (i <? 0) with false by lia. now rewrite lookup_none by lia.
      * destruct (lookup_some pm i ltac:(lia)) as (x & Hx). rewrite (HU x Hx). apply (IH _ (i + 1) fidx); [lia|lia|]. rewrite zlen_lupd. lia.
Qed.

(** The list of one file. *)
Lemma list_one e P : small P -> small (eb_len e) -> P <> 0 -> ~ (0 < P /\ 0 < eb_len e) ->
  MakeFileList [e] P = Ok [mken e 0 (Z.quot (eb_len e - 1) P) 0 (Z.rem (eb_len e - 1) P)].
Proof.
  unfold small, big. intros HP HL H0 HN. set (L := eb_len e) in *. unfold MakeFileList, MakeFileList_loop, file_step. fold L.
  assert (E1 : sub64 L 1 = L - 1) by (unfold sub64; apply i64_in; lia). rewrite E1. unfold div64, rem64. replace (P =? 0) with false by lia. cbn [bind].
  pose proof (Z.quot_rem' (L - 1) P) as HQ. pose proof (Z.rem_bound_abs (L - 1) P H0) as HB.
  assert (HQa : - 4611686018427387904 <= Z.quot (L - 1) P <= 4611686018427387904) by nia.
  rewrite !(i64_in (Z.quot _ _)) by lia.
  assert (E3 : add64 0 (Z.rem (L - 1) P) = Z.rem (L - 1) P) by (unfold add64; apply i64_in; lia). rewrite E3.
  destruct (P <=? Z.rem (L - 1) P) eqn:EP.
  - assert (P < 0) by lia. assert (Hq2 : Z.quot (Z.rem (L - 1) P) P = 0). { apply Z.quot_small_iff; lia. }
    assert (Hr2 : Z.rem (Z.rem (L - 1) P) P = Z.rem (L - 1) P) by (apply Z.rem_small_iff; lia).
    rewrite Hq2, Hr2. cbn [bind]. assert (E4 : add64 (Z.quot (L - 1) P) (i64 0) = Z.quot (L - 1) P). { unfold add64. rewrite (i64_in 0) by lia. rewrite Z.add_0_r. apply i64_in. lia. } rewrite E4.
    destruct (_ =? P); reflexivity.
  - cbn [bind]. destruct (_ =? P); reflexivity.
Qed.
Lemma sum_one e : small (eb_len e) -> sum64 [e] = eb_len e.
Proof. unfold small, big. intros H. unfold sum64. cbn [fold_left]. unfold add64. apply i64_in. lia. Qed.
Definition outcome3 {A} (r : res A) (good crash : Prop) : Prop :=
  (good -> exists a, r = Ok a) /\ (crash -> r = Panic) /\ (~ good -> ~ crash -> exists e, r = Err e).

Lemma zlen_repeat {A} (x : A) n : zlen (repeat x n) = Z.of_nat n.
Proof. unfold zlen. now rewrite repeat_length. Qed.
(** The piece map of one file when a number is below zero. *)
Lemma map_one e P n : small P -> small (eb_len e) -> P <> 0 -> ~ (0 < P /\ 0 <= eb_len e) -> 0 <= n ->
  outcome3 (MakePieceMap [mken e 0 (Z.quot (eb_len e - 1) P) 0 (Z.rem (eb_len e - 1) P)] n P (eb_len e)) (one_loads P (eb_len e) n) (one_crashes P (eb_len e) n).
Proof.
  intros HP HL H0 HN Hn. set (L := eb_len e) in *. pose proof (Z.quot_rem' (L - 1) P) as HQ. pose proof (Z.rem_bound_abs (L - 1) P H0) as HB.
  set (q := Z.quot (L - 1) P) in *. set (r := Z.rem (L - 1) P) in *. unfold MakePieceMap. cbn [pm_outer].
  destruct (0 =? n) eqn:En.
  { assert (n = 0) as -> by lia. cbn [bind]. destruct (0 =? L) eqn:EL.
    - assert (L = 0) as HL0 by lia. rewrite HL0. split; [eauto|]. split; [unfold one_crashes; lia|]. intros A. exfalso. apply A. unfold one_loads. lia.
    - split; [unfold one_loads; lia|]. split; [unfold one_crashes; lia|]. eauto. }
  assert (Hn1 : 0 < n) by lia. unfold pm_fuel. cbn [en_ep]. rewrite Z.sub_0_r.
  assert (Hlen : zlen (repeat (@nil ploc) (Z.to_nat n)) = n) by (rewrite zlen_repeat; lia).
  destruct (Z.ltb_spec P 0) as [HPn|HPn].
  - (* the piece length is below zero *)
    destruct (Z.ltb_spec 0 L) as [HLp|HLp].
    + assert (Hr0 : 0 <= r) by (apply Z.rem_nonneg; lia). assert (Hq0 : q <= 0) by nia.
      destruct (Z.eq_dec q 0) as [Hz|Hz].
      * assert (HrL : r = L - 1) by nia. rewrite Hz. change (Z.to_nat 0) with O. cbn [pm_inner]. rewrite piece_info by lia. change (0 <? 0) with false. cbv iota. change (Z.to_nat 0) with O.
        destruct (repeat (@nil ploc) (Z.to_nat n)) as [|x pm] eqn:Er; [unfold zlen in Hlen; cbn in Hlen; lia|]. cbn [nth_error ReadAmnt].
        assert (Hrd : add64 (sub64 r 0) 1 = L). { unfold small, big in *. unfold add64, sub64. rewrite Z.sub_0_r, !(i64_in r), i64_in by lia. lia. } rewrite Hrd.
        assert (Hpr : sub64 P L = P - L). { unfold small, big in *. unfold sub64. apply i64_in. lia. } rewrite Hpr. replace (P - L <=? 0) with true by lia.
        rewrite piece_none by (vm_compute; reflexivity). cbn [bind]. assert (Ht : add64 0 L = L). { unfold small, big in *. unfold add64. apply i64_in. lia. } rewrite Ht, Z.eqb_refl.
        split; [eauto|]. split; [unfold one_crashes; lia|]. intros A. exfalso. apply A. unfold one_loads. nia.
      * assert (Hq1 : q < 0) by lia. replace (Z.to_nat q) with O by lia. cbn [pm_inner]. rewrite piece_none by lia. cbn [bind]. replace (0 =? L) with false by lia.
        split; [unfold one_loads; nia|]. split; [unfold one_crashes; lia|]. eauto.
    + assert (Hr0 : r <= 0) by (apply Z.rem_nonpos; lia). assert (Hq0 : 0 <= q) by nia.
      destruct (inner_below e P q r L HP HL HPn Hq0 ltac:(lia) ltac:(lia) (Z.to_nat q) (repeat (@nil ploc) (Z.to_nat n)) 0 0%nat ltac:(lia) ltac:(lia)) as (Ha & Hb). rewrite Z.mul_0_l in Ha, Hb.
      destruct (Z.ltb_spec q n) as [Hqn|Hqn].
      * destruct (Ha ltac:(lia)) as (pm' & ->). cbn [bind]. rewrite Z.eqb_refl. split; [eauto|]. split; [unfold one_crashes; nia|]. intros A. exfalso. apply A. unfold one_loads. nia.
      * rewrite Hb by lia. cbn [bind]. split; [unfold one_loads; nia|]. split; [reflexivity|]. intros _ A. exfalso. apply A. unfold one_crashes. nia.
  - (* the length is below zero *)
    assert (HLn : L < 0) by lia. assert (HPp : 0 < P) by lia. assert (Hr0 : r <= 0) by (apply Z.rem_nonpos; lia). assert (Hq0 : q <= 0) by nia.
    destruct (Z.eq_dec q 0) as [Hz|Hz].
    + assert (HrL : r = L - 1) by nia. rewrite Hz. change (Z.to_nat 0) with O. cbn [pm_inner]. rewrite piece_info by lia. change (0 <? 0) with false. cbv iota. change (Z.to_nat 0) with O.
      destruct (repeat (@nil ploc) (Z.to_nat n)) as [|x pm] eqn:Er; [unfold zlen in Hlen; cbn in Hlen; lia|]. cbn [nth_error ReadAmnt].
      assert (Hrd : add64 (sub64 r 0) 1 = L). { unfold small, big in *. unfold add64, sub64. rewrite Z.sub_0_r, !(i64_in r), i64_in by lia. lia. } rewrite Hrd.
      assert (Hpr : sub64 P L = P - L). { unfold small, big in *. unfold sub64. apply i64_in. lia. } rewrite Hpr. replace (P - L <=? 0) with false by lia.
      cbn [bind]. assert (Ht : add64 0 L = L). { unfold small, big in *. unfold add64. apply i64_in. lia. } rewrite Ht, Z.eqb_refl.
      split; [eauto|]. split; [unfold one_crashes; nia|]. intros A. exfalso. apply A. unfold one_loads. nia.
    + assert (Hq1 : q < 0) by lia. replace (Z.to_nat q) with O by lia. cbn [pm_inner]. rewrite piece_none by lia. cbn [bind]. replace (0 =? L) with false by lia.
      split; [unfold one_loads; nia|]. split; [unfold one_crashes; nia|]. eauto.
Qed.

Lemma info_one name e P hashes : small P -> small (eb_len e) -> P <> 0 -> ~ (0 < P /\ 0 <= eb_len e) -> whole_hashes hashes ->
  outcome3 (NewTorInfo name P hashes [e]) (one_loads P (eb_len e) (zlen hashes / 20)) (one_crashes P (eb_len e) (zlen hashes / 20)).
Proof.
  intros HP HL H0 HN HW. unfold NewTorInfo. unfold whole_hashes in HW. rewrite HW. cbn [Z.eqb negb]. rewrite list_one by (try assumption; lia). cbn [bind]. rewrite sum_one by assumption.
  assert (Hn : 0 <= zlen hashes / 20). { unfold zlen. apply Z.div_pos; lia. }
  destruct (map_one e P (zlen hashes / 20) HP HL H0 HN Hn) as (A & C & D). split; [|split].
  - intros G. destruct (A G) as (pm & ->). cbn [bind]. eauto.
  - intros G. now rewrite (C G).
  - intros G1 G2. destruct (D G1 G2) as (x & ->). cbn [bind]. eauto.
Qed.

Lemma one_described sha1 data sp wd announce info name P hashes p L :
  header data announce info name P hashes -> lists_files info name [(p, L)] -> whole_hashes hashes -> small P -> small L ->
  outcome3 (FromTorrentFile sha1 (mkslice data sp) wd) (one_loads P L (zlen hashes / 20)) (one_crashes P L (zlen hashes / 20)).
Proof.
  intros Hh HF HW HP HL. assert (Hn : 0 <= zlen hashes / 20). { unfold zlen. apply Z.div_pos; lia. }
  destruct (Z.eq_dec P 0) as [->|H0].
  { rewrite (load_zero sha1 data sp wd announce info name hashes [(p, L)]) by (try assumption; discriminate).
    split; [unfold one_loads; lia|]. split; [reflexivity|]. intros _ A. exfalso. apply A. left. reflexivity. }
  destruct (Z_lt_dec P 0) as [HPn|HPn]; [|destruct (Z_lt_dec L 0) as [HLn|HLn]].
  1,2: destruct (header_found data sp _ _ _ _ _ Hh) as (w & info' & HD & Hg & Hf); pose proof Hf as (_ & Hwi & _);
       destruct (lists_entries info' wd name _ Hwi (lists_gperm _ _ _ _ Hg HF)) as (fes & Hfe & Es);
       rewrite (found_Load sha1 _ _ _ _ _ _ _ _ wd HD Hf), Hfe; cbn [bind]; destruct fes as [|e [|]]; try discriminate; injection Es as Ep El;
       rewrite <- El in *; destruct (info_one name e P hashes HP HL H0 ltac:(lia) HW) as (A & C & D); split; [|split];
       [intros G; destruct (A G) as (ti & ->); cbn [bind]; eauto|intros G; now rewrite (C G)|intros G1 G2; destruct (D G1 G2) as (x & ->); cbn [bind]; eauto].
  destruct (load_described sha1 data sp wd announce info name P hashes [(p, L)] Hh HF) as (A & _ & C & D).
  { unfold sane. unfold small in *. cbn. split; [lia|]. split; [repeat constructor; lia|lia]. }
  unfold enough, ends_with_file in *. cbn [map snd] in *. assert (Hz : zsum [L] = L) by (cbn; lia). rewrite Hz in *. split; [|split].
  - intros G. destruct (A HW) as (tor & Ht & _); [|eauto]. unfold one_loads in G. lia.
  - intros G. apply D; [assumption|unfold one_crashes in G; lia|]. intros (a & b & E & Ez). unfold one_crashes in G. destruct a as [|x [|y a]]; try discriminate; cbn in Ez.
    + nia.
    + injection E as Ex _. rewrite <- Ex in Ez. cbn in Ez. nia.
  - intros G1 G2. apply C; [assumption|unfold one_loads in G1; lia|]. unfold one_loads, one_crashes in *. exists [], [(p, L)]. split; [reflexivity|]. cbn. nia.
Qed.
