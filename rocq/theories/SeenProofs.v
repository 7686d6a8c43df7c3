(** SeenProofs.v: proofs about CreateTorInfo over changing files. *)
From Coq Require Import ZifyBool ZifyNat ZifyN.
From Verif Require Import Base PathModel PathSpec LayoutModel LayoutSpec LayoutProofs PieceMapProofs FsModel FsSpec FsProofs OcatProofs
  BitfieldModel BitfieldSpec SwarmModel SwarmProofs CreateModel CreateSpec CreateProofs SeenModel SeenSpec.

Definition seen_entries (wd : bytes) (paths : list bytes) (ns : list Z) : list ebase :=
  map (fun pn => mkeb (snd pn) (fst pn) (Join [wd; fst pn])) (combine paths ns).

Lemma answered_len ss ns ds : all_answered ss ns ds -> List.length ss = List.length ns /\ List.length ss = List.length ds.
Proof. induction 1; cbn; lia. Qed.
Lemma answered_app s1 n1 d1 s2 n2 d2 : all_answered s1 n1 d1 -> all_answered s2 n2 d2 -> all_answered (s1 ++ s2) (n1 ++ n2) (d1 ++ d2).
Proof. induction 1; cbn [app]; [auto|]. intros. constructor; auto. Qed.

(** Some files read, then whatever the rest does. *)
Lemma read_seen_prefix sha1 P fuel wd : forall pre ks ns ds post more acc hashes sched, 1 <= P <= maxBuf -> only_data sched -> zlen acc < bufSize P ->
  all_answered ks ns ds -> List.length pre = List.length ks -> Forall (fun c : bytes => (List.length c < fuel)%nat) ds ->
  exists acc' hashes' s' done k, only_data s' /\ zlen acc' < bufSize P /\
    done ++ acc' = acc ++ List.concat ds /\ zlen done = Z.of_nat k * P /\ hashes' = hashes ++ HashSlices sha1 (pieces_of P done) /\
    read_seen sha1 fuel P wd (pre ++ post) (ks ++ more) acc hashes sched =
      (let ' (x, l) := read_seen sha1 fuel P wd post more acc' hashes' s' in
       (do ' (a2, h2, es) <- x; Ok (a2, h2, seen_entries wd pre ns ++ es), l)).
Proof.
  induction pre as [|p pre IH]; intros ks ns ds post more acc hashes sched HP Hs Ha HA HL HF.
  - destruct ks; [|discriminate]. inversion HA; subst. exists acc, hashes, sched, [], 0%nat. split; [assumption|]. split; [assumption|].
    split; [cbn; now rewrite app_nil_r|]. split; [reflexivity|]. rewrite pieces_nil by lia. cbn [HashSlices]. rewrite app_nil_r. split; [reflexivity|].
    cbn [app]. destruct (read_seen sha1 fuel P wd post more acc hashes sched) as [[[[a h] es]| | |] l]; reflexivity.
  - destruct ks as [|s ks]; [discriminate|]. inversion HA as [|? n d ? ns' ds' Hans HA' E1 E2 E3]; subst. inversion HF as [|? ? Hd HF']; subst.
    unfold answered in Hans. subst s. cbn [app read_seen sn_size sn_data sn_close].
    destruct (read_file_spec sha1 P fuel d acc hashes sched HP Hs Ha Hd) as (a1 & h1 & s1 & d1 & k1 & E1 & A1 & A2 & A3 & A4 & A5). rewrite E1.
    destruct (IH ks ns' ds' post more a1 h1 s1 HP A1 A2 HA' ltac:(now injection HL) HF') as (a2 & h2 & s2 & d2 & k2 & B1 & B2 & B3 & B4 & B5 & B6).
    exists a2, h2, s2, (d1 ++ d2), (k1 + k2)%nat. split; [assumption|]. split; [assumption|].
    split. { cbn [List.concat]. rewrite <- app_assoc, B3, !app_assoc, A3. reflexivity. }
    split; [rewrite zlen_app; nia|]. split.
    { rewrite B5, A5, <- app_assoc. f_equal. rewrite (pieces_app P k1) by (lia || assumption). now rewrite HashSlices_app. }
    rewrite B6. destruct (read_seen sha1 fuel P wd post more a2 h2 s2) as [[[[a h] es]| | |] l]; reflexivity.
Qed.

Lemma CreateSeen_prefix sha1 fuel sched pre post ks ns ds more wd name P : 1 <= P <= maxBuf -> only_data sched ->
  all_answered ks ns ds -> List.length pre = List.length ks -> Forall (fun c : bytes => (List.length c < fuel)%nat) ds ->
  exists acc' hashes' s' done k, only_data s' /\ zlen acc' < bufSize P /\
    done ++ acc' = List.concat ds /\ zlen done = Z.of_nat k * P /\ hashes' = HashSlices sha1 (pieces_of P done) /\
    CreateSeen sha1 fuel sched (ks ++ more) (pre ++ post) wd name P =
      (let bd := base_dir (pre ++ post) wd name in
       let ' (x, l) := read_seen sha1 fuel P bd post more acc' hashes' s' in
       (do ' (a2, h2, es) <- x; do pieces <- SegmentData (mkslice a2 []) P;
        NewTorInfo name P (h2 ++ HashSlices sha1 pieces) (seen_entries bd pre ns ++ es), l)).
Proof.
  intros HP Hs HA HL HF. destruct (bufSize_spec P HP) as (kb & Hkb & Hbs & Hkb0).
  destruct (read_seen_prefix sha1 P fuel (base_dir (pre ++ post) wd name) pre ks ns ds post more [] [] sched HP Hs ltac:(change (zlen (@nil byte)) with 0; lia) HA HL HF)
    as (a & h & s & d & k & A1 & A2 & A3 & A4 & A5 & A6).
  exists a, h, s, d, k. repeat (split; [assumption|]). unfold CreateSeen. replace (P =? 0) with false by lia. replace (bufSize P <? 0) with false by lia.
  fold (base_dir (pre ++ post) wd name). cbv zeta. rewrite A6. destruct (read_seen sha1 fuel P (base_dir (pre ++ post) wd name) post more a h s) as [[[[a' h'] es]| | |] l]; cbn [bind]; reflexivity.
Qed.

Lemma CreateSeen_whole sha1 fuel sched sees paths wd name P ns ds : 1 <= P <= maxBuf -> only_data sched ->
  all_answered sees ns ds -> List.length paths = List.length sees -> Forall (fun c : bytes => (List.length c < fuel)%nat) ds ->
  CreateSeen sha1 fuel sched sees paths wd name P =
    (NewTorInfo name P (HashSlices sha1 (pieces_of P (List.concat ds))) (seen_entries (base_dir paths wd name) paths ns), 0%nat).
Proof.
  intros HP Hs HA HL HF. destruct (bufSize_spec P HP) as (kb & Hkb & Hbs & Hkb0).
  destruct (CreateSeen_prefix sha1 fuel sched paths [] sees ns ds [] wd name P HP Hs HA HL HF) as (a & h & s & d & k & A1 & A2 & A3 & A4 & A5 & A6).
  rewrite !app_nil_r in A6. rewrite A6. cbn [read_seen]. cbv zeta. cbn [bind]. rewrite SegmentData_spec by (unfold slen, max64, maxBuf in *; cbn [vis]; lia). cbn [bind vis].
  rewrite app_nil_r, A5, <- A3. rewrite (pieces_app P k) by (lia || assumption). now rewrite HashSlices_app.
Qed.

Lemma seen_lens wd paths ns : List.length paths = List.length ns -> lens_of (seen_entries wd paths ns) = ns.
Proof. revert ns. induction paths as [|p ps IH]; intros [|n ns] H; try discriminate; [reflexivity|]. unfold lens_of, seen_entries in *. cbn [combine map snd eb_len]. f_equal. apply IH. now injection H. Qed.
Lemma seen_tors wd paths ns : List.length paths = List.length ns -> map eb_tor (seen_entries wd paths ns) = paths.
Proof. revert ns. induction paths as [|p ps IH]; intros [|n ns] H; try discriminate; [reflexivity|]. unfold seen_entries in *. cbn [combine map fst eb_tor]. f_equal. apply IH. now injection H. Qed.

Lemma needed_le P a b : 1 <= P -> (a <= pieces_needed P b * P <-> pieces_needed P a <= pieces_needed P b).
Proof.
  intros HP. unfold pieces_needed. set (n := (b + P - 1) / P). pose proof (Z.div_mod (a + P - 1) P ltac:(lia)). pose proof (Z.mod_pos_bound (a + P - 1) P ltac:(lia)). nia.
Qed.

Lemma CreateSeen_exact sha1 fuel sched sees paths wd name P ns ds : 1 <= P <= maxBuf -> only_data sched -> (forall b, zlen (sha1 b) = 20) ->
  all_answered sees ns ds -> List.length paths = List.length sees -> Forall (fun c : bytes => (List.length c < fuel)%nat) ds ->
  Forall (fun n => 0 <= n) ns -> zsum ns < big -> 20 * pieces_needed P (zlen (List.concat ds)) < big ->
  let got := pieces_needed P (zlen (List.concat ds)) * P in
  (zsum ns <= got -> exists ti, CreateSeen sha1 fuel sched sees paths wd name P = (Ok ti, 0%nat) /\ describes sha1 ti P paths ns (List.concat ds)) /\
  (got < zsum ns -> file_boundary ns got -> exists e, CreateSeen sha1 fuel sched sees paths wd name P = (Err e, 0%nat)) /\
  (got < zsum ns -> ~ file_boundary ns got -> CreateSeen sha1 fuel sched sees paths wd name P = (Panic, 0%nat)).
Proof.
  intros HP Hs Hsha HA HL HF Hn HT HB got. rewrite (CreateSeen_whole sha1 fuel sched sees paths wd name P ns ds HP Hs HA HL HF).
  destruct (answered_len _ _ _ HA) as [Hl1 Hl2]. set (hs := HashSlices sha1 (pieces_of P (List.concat ds))). set (es := seen_entries (base_dir paths wd name) paths ns).
  assert (Hlens : lens_of es = ns) by (apply seen_lens; lia).
  assert (Hzh : zlen hs = 20 * pieces_needed P (zlen (List.concat ds))) by (unfold hs; rewrite HashSlices_len by assumption; now rewrite pieces_count by lia).
  assert (HS : sane P (lens_of es)) by (rewrite Hlens; split; [unfold maxBuf, big in *; lia|]; split; assumption).
  assert (H20 : zlen hs mod 20 = 0) by (rewrite Hzh, Z.mul_comm; apply Z.mod_mul; lia).
  assert (Hd : zlen hs / 20 = pieces_needed P (zlen (List.concat ds))) by (rewrite Hzh, Z.mul_comm; apply Z.div_mul; lia).
  destruct (NewTorInfo_spec name P hs es HS H20) as [H1 H2]. rewrite Hlens, Hd in H1, H2. fold got in H1, H2. split; [|split].
  - intros Hle. destruct (H1 Hle) as (pm & E & _). rewrite E. exists (built name P hs es pm). split; [reflexivity|].
    assert (Hm : made P hs es (built name P hs es pm)) by (split; [assumption|]; split; [lia|]; exists name; exact E).
    destruct (made_facts _ _ _ _ Hm) as (_ & _ & F1 & F2 & F3 & F4 & F5 & _). rewrite Hd in F1. rewrite Hlens in F4.
    split; [exact F2|]. split; [exact F4|]. split; [exact F1|]. rewrite F3. split; [exact Hzh|]. split; [|split].
    + intros i Hi. assert (HP1 : 1 <= P) by lia. pose proof (HashSlices_nth sha1 _ Hsha _ _ (pieces_nth P (List.concat ds) i HP1 Hi)) as Hh. rewrite Z2Nat.id in Hh by lia. exact Hh.
    + rewrite <- (map_map en_base eb_len), F5. exact Hlens.
    + rewrite <- (map_map en_base eb_tor), F5. apply seen_tors. lia.
  - intros Hlt Hb. destruct (H2 Hlt) as [H3 _]. rewrite (H3 Hb). eauto.
  - intros Hlt Hb. destruct (H2 Hlt) as [_ H3]. now rewrite (H3 Hb).
Qed.

(** ** Failing calls *)
Lemma CreateSeen_fails sha1 fuel sched pre p post ks ns ds k more wd name P : 1 <= P <= maxBuf -> only_data sched ->
  all_answered ks ns ds -> List.length pre = List.length ks -> Forall (fun c : bytes => (List.length c < fuel)%nat) ds ->
  CreateSeen sha1 fuel sched (ks ++ None :: more) (pre ++ p :: post) wd name P = (Err EPath, 0%nat) /\
  (sn_size k = None -> CreateSeen sha1 fuel sched (ks ++ Some k :: more) (pre ++ p :: post) wd name P = (Err EIO, 1%nat)) /\
  (forall n, sn_size k = Some n -> (List.length (sn_data k) < fuel)%nat -> sn_close k = false ->
    CreateSeen sha1 fuel sched (ks ++ Some k :: more) (pre ++ p :: post) wd name P = (Err EIO, 0%nat)).
Proof.
  intros HP Hs HA HL HF. split; [|split].
  - destruct (CreateSeen_prefix sha1 fuel sched pre (p :: post) ks ns ds (None :: more) wd name P HP Hs HA HL HF) as (a & h & s & d & k0 & A1 & A2 & A3 & A4 & A5 & A6).
    rewrite A6. reflexivity.
  - intros E. destruct (CreateSeen_prefix sha1 fuel sched pre (p :: post) ks ns ds (Some k :: more) wd name P HP Hs HA HL HF) as (a & h & s & d & k0 & A1 & A2 & A3 & A4 & A5 & A6).
    rewrite A6. cbn [read_seen]. rewrite E. reflexivity.
  - intros n E Hd Hc. destruct (CreateSeen_prefix sha1 fuel sched pre (p :: post) ks ns ds (Some k :: more) wd name P HP Hs HA HL HF) as (a & h & s & d & k0 & A1 & A2 & A3 & A4 & A5 & A6).
    rewrite A6. cbn [read_seen]. rewrite E. destruct (read_file_spec sha1 P fuel (sn_data k) a h s HP A1 A2 Hd) as (a1 & h1 & s1 & d1 & k1 & E1 & _). rewrite E1, Hc. reflexivity.
Qed.

Lemma read_seen_ok sha1 P fuel wd : forall paths sees acc hashes sched r l, read_seen sha1 fuel P wd paths sees acc hashes sched = (Ok r, l) ->
  l = 0%nat /\ exists ns ds, all_answered (firstn (List.length paths) sees) ns ds /\ (List.length paths <= List.length sees)%nat.
Proof.
  induction paths as [|p paths IH]; intros sees acc hashes sched r l H.
  - cbn in H. inversion H; subst. split; [reflexivity|]. exists [], []. split; [constructor|cbn; lia].
  - cbn [read_seen] in H. destruct sees as [|[k|] ks]; try discriminate. destruct k as [[n|] d c]; cbn [sn_size sn_data sn_close] in H; [|discriminate].
    destruct (read_file sha1 fuel P d acc hashes sched) as [[[a h] s]| | |]; try discriminate. destruct c; [|discriminate].
    destruct (read_seen sha1 fuel P wd paths ks a h s) as [x l'] eqn:E. destruct x as [r'| | |]; try discriminate.
    destruct (IH _ _ _ _ _ _ E) as (-> & ns & ds & HA & HL). split; [destruct r' as [[? ?] ?]; cbn [bind] in H; now inversion H|].
    exists (n :: ns), (d :: ds). cbn [List.length firstn]. split; [constructor; [reflexivity|assumption]|lia].
Qed.
Lemma read_seen_scrub sha1 P fuel wd : forall paths sees acc hashes sched r l, read_seen sha1 fuel P wd paths sees acc hashes sched = (Ok r, l) ->
  read_seen sha1 fuel P wd paths (firstn (List.length paths) sees) acc hashes (scrub sched) = (Ok r, l).
Proof.
  induction paths as [|p paths IH]; intros sees acc hashes sched r l H; [exact H|]. cbn [read_seen] in H. destruct sees as [|[k|] ks]; try discriminate.
  cbn [List.length firstn read_seen]. destruct (sn_size k) as [n|]; [|discriminate].
  destruct (read_file sha1 fuel P (sn_data k) acc hashes sched) as [[[a h] s]| | |] eqn:E; try discriminate. rewrite (read_file_scrub _ _ _ _ _ _ _ _ _ _ E).
  destruct (sn_close k); [|discriminate]. destruct (read_seen sha1 fuel P wd paths ks a h s) as [x l'] eqn:E2. destruct x as [r'| | |]; try discriminate.
  now rewrite (IH _ _ _ _ _ _ E2).
Qed.
Lemma read_seen_leaks sha1 P fuel wd : forall paths sees acc hashes sched x l, read_seen sha1 fuel P wd paths sees acc hashes sched = (x, l) ->
  (l <= 1)%nat.
Proof.
  induction paths as [|p paths IH]; intros sees acc hashes sched x l H; cbn [read_seen] in H; [inversion H; lia|]. destruct sees as [|[k|] ks]; try (inversion H; lia).
  destruct (sn_size k) as [n|]; [|inversion H; lia]. destruct (read_file sha1 fuel P (sn_data k) acc hashes sched) as [[[a h] s]| | |]; try (inversion H; lia).
  destruct (sn_close k); [|inversion H; lia]. destruct (read_seen sha1 fuel P wd paths ks a h s) as [x' l'] eqn:E. inversion H; subst. eapply IH; eassumption.
Qed.
Lemma CreateSeen_leaks sha1 fuel sched sees paths wd name P x l : CreateSeen sha1 fuel sched sees paths wd name P = (x, l) ->
  (l <= 1)%nat /\ (forall ti, x = Ok ti -> l = 0%nat).
Proof.
  unfold CreateSeen. destruct (P =? 0); [intros H; inversion H; split; [lia|discriminate]|]. destruct (bufSize P <? 0); [intros H; inversion H; split; [lia|discriminate]|].
  cbv zeta. intros H. match type of H with (let ' (_, _) := ?yy in _) = _ => destruct yy as [y l'] eqn:E end. inversion H; subst. split; [eapply read_seen_leaks; eassumption|].
  intros ti Ht. destruct y as [r| | |]; try discriminate. exact (proj1 (read_seen_ok _ _ _ _ _ _ _ _ _ _ _ E)).
Qed.

Lemma CreateSeen_made sha1 fuel sched sees paths wd name P ti l : 1 <= P <= maxBuf -> (forall b, zlen (sha1 b) = 20) -> List.length sees = List.length paths ->
  CreateSeen sha1 fuel sched sees paths wd name P = (Ok ti, l) ->
  exists ns ds, all_answered sees ns ds /\
    (Forall (fun c : bytes => (List.length c < fuel)%nat) ds -> Forall (fun n => 0 <= n) ns -> zsum ns < big -> 20 * pieces_needed P (zlen (List.concat ds)) < big ->
     describes sha1 ti P paths ns (List.concat ds) /\ zsum ns <= pieces_needed P (zlen (List.concat ds)) * P).
Proof.
  intros HP Hsha HL H. destruct (bufSize_spec P HP) as (kb & Hkb & Hbs & Hkb0).
  assert (H' : exists ns ds, all_answered sees ns ds /\ CreateSeen sha1 fuel (scrub sched) sees paths wd name P = (Ok ti, l)).
  { unfold CreateSeen in *. replace (P =? 0) with false in * by lia. replace (bufSize P <? 0) with false in * by lia. cbv zeta in *.
    match type of H with (let ' (_, _) := ?yy in _) = _ => destruct yy as [y l'] eqn:E end. destruct y as [r| | |]; try discriminate.
    destruct (read_seen_ok _ _ _ _ _ _ _ _ _ _ _ E) as (_ & ns & ds & HA & _). pose proof (read_seen_scrub _ _ _ _ _ _ _ _ _ _ _ E) as E'.
    rewrite firstn_all2 in HA, E' by lia. exists ns, ds. split; [assumption|]. now rewrite E'. }
  destruct H' as (ns & ds & HA & H'). exists ns, ds. split; [assumption|]. intros HF Hn HT HB.
  destruct (CreateSeen_exact sha1 fuel (scrub sched) sees paths wd name P ns ds HP (scrub_data sched) Hsha HA (eq_sym HL) HF Hn HT HB) as (X1 & X2 & X3).
  destruct (Z_le_gt_dec (zsum ns) (pieces_needed P (zlen (List.concat ds)) * P)) as [Hle|Hgt].
  - split; [|assumption]. destruct (X1 Hle) as (ti' & E & D). rewrite H' in E. inversion E; subst. exact D.
  - exfalso. rewrite CreateSeen_whole with (ns := ns) (ds := ds) in H', X2, X3 by (auto using scrub_data).
    assert (Hdec : file_boundary ns (pieces_needed P (zlen (List.concat ds)) * P) \/ ~ file_boundary ns (pieces_needed P (zlen (List.concat ds)) * P)).
    { generalize (pieces_needed P (zlen (List.concat ds)) * P) as x. intros x. unfold file_boundary.
      generalize (List.length ns) as m. induction m as [|m IHm].
      - destruct (Z.eq_dec (fstart ns 0) x) as [E|E]; [left; exists 0%nat; split; [lia|assumption]|right]. intros (k & Hk & Ek). assert (k = 0%nat) by lia. now subst.
      - destruct IHm as [(k & Hk & Ek)|HN]; [left; exists k; split; [lia|assumption]|]. destruct (Z.eq_dec (fstart ns (S m)) x) as [E|E]; [left; exists (S m); split; [lia|assumption]|right].
        intros (k & Hk & Ek). destruct (Nat.eq_dec k (S m)) as [-> |]; [contradiction|]. apply HN. exists k. split; [lia|assumption]. }
    destruct Hdec as [Hb|Hb]; [destruct (X2 ltac:(lia) Hb) as (e & E); congruence|pose proof (X3 ltac:(lia) Hb); congruence].
Qed.

(** ** What fills the torrent *)
Lemma piece_at_firstn P c i : 1 <= P -> 0 <= i -> piece_at P c i = firstn (Z.to_nat P) (skipn (Z.to_nat (i * P)) c).
Proof.
  intros HP Hi. unfold piece_at, range, sub. destruct (Z_le_gt_dec (zlen c) (i * P)) as [Hle|Hgt].
  - rewrite skipn_all2 by (unfold zlen in Hle; lia). now rewrite !firstn_nil.
  - destruct (Z_le_gt_dec ((i + 1) * P) (zlen c)) as [H1|H1].
    + rewrite Z.min_l by assumption. f_equal. lia.
    + rewrite Z.min_r by lia. rewrite !firstn_all2; [reflexivity| |]; rewrite skipn_length; unfold zlen in *; nia.
Qed.
Lemma pieces_agree P a b n : 1 <= P -> (forall i, 0 <= i < Z.of_nat n -> piece_at P a i = piece_at P b i) -> firstn (Z.to_nat (Z.of_nat n * P)) a = firstn (Z.to_nat (Z.of_nat n * P)) b.
Proof.
  intros HP. induction n as [|n IH]; intros H; [reflexivity|].
  replace (Z.to_nat (Z.of_nat (S n) * P)) with (Z.to_nat (Z.of_nat n * P) + Z.to_nat P)%nat by lia.
  assert (cut : forall l : bytes, firstn (Z.to_nat (Z.of_nat n * P) + Z.to_nat P) l = firstn (Z.to_nat (Z.of_nat n * P)) l ++ piece_at P l (Z.of_nat n)).
  { intros l. rewrite piece_at_firstn by lia. rewrite <- (firstn_skipn (Z.to_nat (Z.of_nat n * P)) l) at 1. generalize (Z.to_nat P) as q. generalize (Z.to_nat (Z.of_nat n * P)) as k. intros k q.
    rewrite firstn_app. rewrite firstn_firstn. rewrite Nat.min_r by lia. f_equal. rewrite firstn_length. destruct (Nat.le_ge_cases k (List.length l)).
    - f_equal. lia.
    - rewrite skipn_all2 by assumption. now rewrite !firstn_nil. }
  rewrite !cut. f_equal; [apply IH; intros; apply H; lia|apply H; lia].
Qed.

Lemma filled sha1 ti P paths ns all c : 1 <= P -> describes sha1 ti P paths ns all -> zsum ns <= pieces_needed P (zlen all) * P -> fills sha1 ti c ->
  c = all \/ exists i, 0 <= i < ti_npieces ti /\ collides sha1 (piece_at P c i) (piece_at P all i).
Proof.
  intros HP (D1 & D2 & D3 & D4 & D5 & _) HT (F1 & F2). rewrite D3 in *. rewrite D1 in F2.
  assert (Hn : 0 <= pieces_needed P (zlen all)) by (apply needed_nonneg; [assumption|apply zlen_nonneg]).
  assert (HC : forall m, (forall i, 0 <= i < Z.of_nat m -> piece_at P c i = piece_at P all i) \/ exists i, 0 <= i < Z.of_nat m /\ piece_at P c i <> piece_at P all i).
  { induction m as [|m [IH|(i & Hi & Ni)]]; [left; lia| |right; exists i; split; [lia|assumption]].
    destruct (list_eq_dec byte_eq_dec (piece_at P c (Z.of_nat m)) (piece_at P all (Z.of_nat m))) as [E|E].
    - left. intros i Hi. destruct (Z.eq_dec i (Z.of_nat m)) as [-> |]; [assumption|apply IH; lia].
    - right. exists (Z.of_nat m). split; [lia|assumption]. }
  destruct (HC (Z.to_nat (pieces_needed P (zlen all)))) as [HE|(i & Hi & Ni)].
  - left. apply pieces_agree in HE; [|assumption]. rewrite Z2Nat.id in HE by assumption.
    rewrite !firstn_all2 in HE; [assumption| |].
    + pose proof (proj2 (needed_le P (zlen all) (zlen all) HP) ltac:(lia)). unfold zlen in *. lia.
    + rewrite <- D2, <- F1 in HT. unfold zlen in *. lia.
  - right. exists i. split; [lia|]. split; [assumption|]. rewrite F2 by lia. apply D5. lia.
Qed.
Lemma fills_itself sha1 ti P paths ns all : describes sha1 ti P paths ns all -> zlen all = zsum ns -> fills sha1 ti all.
Proof. intros (D1 & D2 & D3 & D4 & D5 & _) E. split; [congruence|]. intros i Hi. rewrite D1. rewrite D3 in Hi. symmetry. now apply D5. Qed.

(** ** Files that stay as they are *)
Lemma read_seen_still sha1 P fuel w wd : forall paths sees acc hashes sched,
  Forall2 (fun p s => exists c, file_at w (Join [wd; p]) = Some c /\ answered s (zlen c) c) paths sees ->
  fst (read_seen sha1 fuel P wd paths sees acc hashes sched) = read_files sha1 fuel P w wd paths acc hashes sched.
Proof.
  induction paths as [|p paths IH]; intros sees acc hashes sched H; inversion H as [|? s ? ks (c & Hc & Ha) H' E1 E2]; subst; [reflexivity|].
  unfold answered in Ha. subst s. cbn [read_seen read_files sn_size sn_data sn_close]. rewrite Hc.
  destruct (read_file sha1 fuel P c acc hashes sched) as [[[a h] s]| | |]; cbn [bind fst]; try reflexivity.
  rewrite <- (IH ks a h s H'). destruct (read_seen sha1 fuel P wd paths ks a h s) as [x l]. reflexivity.
Qed.
Lemma CreateSeen_still sha1 fuel sched w sees paths wd name P :
  Forall2 (fun p s => exists c, file_at w (Join [base_dir paths wd name; p]) = Some c /\ answered s (zlen c) c) paths sees ->
  fst (CreateSeen sha1 fuel sched sees paths wd name P) = CreateTorInfo sha1 fuel sched w paths wd name P.
Proof.
  intros H. unfold CreateSeen, CreateTorInfo. destruct (P =? 0); [reflexivity|]. destruct (bufSize P <? 0); [reflexivity|]. fold (base_dir paths wd name). cbv zeta.
  rewrite <- (read_seen_still sha1 P fuel w _ paths sees [] [] sched H). destruct (read_seen sha1 fuel P (base_dir paths wd name) paths sees [] [] sched) as [x l]. reflexivity.
Qed.

Lemma CreateSeen_read_error sha1 fuel s k more p paths wd name P n : 1 <= P <= maxBuf -> (0 < fuel)%nat -> sn_size k = Some n ->
  CreateSeen sha1 fuel (None :: s) (Some k :: more) (p :: paths) wd name P = (Err EIO, 1%nat).
Proof.
  intros HP Hf Hn. destruct (bufSize_spec P HP) as (kb & Hkb & Hbs & Hkb0). unfold CreateSeen. replace (P =? 0) with false by lia. replace (bufSize P <? 0) with false by lia.
  cbv zeta. cbn [read_seen]. rewrite Hn. destruct fuel as [|f]; [lia|]. cbn [read_file]. unfold do_read. change (zlen (@nil byte)) with 0. replace (bufSize P - 0 <=? 0) with false by lia. reflexivity.
Qed.
Lemma CreateSeen_diverges sha1 sched k more p paths wd name P n : maxBuf < P <= max64 -> sn_size k = Some n ->
  forall fuel, CreateSeen sha1 fuel sched (Some k :: more) (p :: paths) wd name P = (NoFuel, 1%nat).
Proof.
  intros HP Hn fuel. unfold CreateSeen. rewrite bufSize_large by assumption. replace (P =? 0) with false by (unfold maxBuf in *; lia). change (0 <? 0) with false.
  cbv zeta. cbn [read_seen]. rewrite Hn. rewrite read_file_diverges by (first [now apply bufSize_large|unfold maxBuf in *; lia]). reflexivity.
Qed.

Lemma made_fills sha1 fuel sched sees paths wd name P ti l ns ds : 1 <= P <= maxBuf -> (forall b, zlen (sha1 b) = 20) -> List.length sees = List.length paths ->
  all_answered sees ns ds -> Forall (fun c : bytes => (List.length c < fuel)%nat) ds -> Forall (fun n => 0 <= n) ns -> zsum ns < big -> 20 * pieces_needed P (zlen (List.concat ds)) < big ->
  CreateSeen sha1 fuel sched sees paths wd name P = (Ok ti, l) ->
  (zsum ns = zlen (List.concat ds) -> fills sha1 ti (List.concat ds)) /\
  forall c, fills sha1 ti c -> c = List.concat ds \/ exists i, 0 <= i < ti_npieces ti /\ collides sha1 (piece_at P c i) (piece_at P (List.concat ds) i).
Proof.
  intros HP Hsha HL HA HF Hn HT HB H. destruct (CreateSeen_made sha1 fuel sched sees paths wd name P ti l HP Hsha HL H) as (ns' & ds' & HA' & HD).
  assert (E : ns' = ns /\ ds' = ds).
  { clear - HA HA'. revert ns ds HA. induction HA' as [|s n d ss ns' ds' Ha HA' IH]; intros ns ds HA; inversion HA as [|? n0 d0 ? ns0 ds0 Hb HB]; subst; [auto|].
    destruct (IH _ _ HB) as [-> ->]. unfold answered in *. rewrite Ha in Hb. inversion Hb. auto. }
  destruct E as [-> ->]. destruct (HD HF Hn HT HB) as [D Hle]. split.
  - intros E. eapply fills_itself; [exact D|congruence].
  - intros c Hc. exact (filled sha1 ti P paths ns (List.concat ds) c ltac:(lia) D Hle Hc).
Qed.
Lemma grown_example sha1 : (forall b, zlen (sha1 b) = 20) ->
  exists ti, CreateSeen sha1 5 [] [Some (mkseen (Some 1) (B "ab") true)] [B "f"] (B ".") (B "f") 8 = (Ok ti, 0%nat) /\
    forall c, fills sha1 ti c -> exists a b, collides sha1 a b.
Proof.
  intros Hsha.
  assert (HA : all_answered [Some (mkseen (Some 1) (B "ab") true)] [1] [B "ab"]) by (constructor; [reflexivity|constructor]).
  assert (HF : Forall (fun c : bytes => (List.length c < 5)%nat) [B "ab"]) by (constructor; [cbn; lia|constructor]).
  assert (Hn : Forall (fun n => 0 <= n) [1]) by (constructor; [lia|constructor]).
  assert (HP : 1 <= 8 <= maxBuf) by (unfold maxBuf; lia).
  assert (HB : 20 * pieces_needed 8 (zlen (List.concat [B "ab"])) < big) by reflexivity.
  destruct (CreateSeen_exact sha1 5 [] _ [B "f"] (B ".") (B "f") 8 [1] [B "ab"] HP ltac:(constructor) Hsha HA eq_refl HF Hn ltac:(reflexivity) HB) as (X & _).
  destruct X as (ti & E & D); [discriminate|]. exists ti. split; [exact E|]. intros c Hc.
  destruct (filled sha1 ti 8 [B "f"] [1] (List.concat [B "ab"]) c ltac:(lia) D ltac:(discriminate) Hc) as [-> |(i & _ & Hi)]; [|eauto].
  destruct Hc as (Hc & _). destruct D as (_ & D & _). rewrite D in Hc. discriminate.
Qed.
