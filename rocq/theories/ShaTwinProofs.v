(** ShaTwinProofs.v: what follows for torrents from a collision of SHA-1. *)
From Coq Require Import ZifyBool ZifyNat ZifyN.
From Verif Require Import Base BencodeModel BencodeSpec BitfieldModel BitfieldSpec WireModel WireSpec HandshakeModel HandshakeSpec PathModel PathSpec LayoutModel LayoutSpec
  PptModel PeerModel UtilsModel FsModel FsSpec FsProofs InfoSpec InfoProofs CreateModel CreateSpec CreateProofs SwarmModel SwarmProofs TrackerModel StartModel StartSpec SessionModel SessionSpec RunModel RunSpec
  LeechSpec RoundSpec RoundProofs SeenModel SeenSpec ShaModel ShaSpec ShaProofs.

Lemma SHA1_fips m dig : zlen m < 2305843009213693952 -> (sha1_of m dig <-> dig = SHA1 m).
Proof.
  intros H. pose proof (standard_sum m (sha_Write sha_New m) (write_holds [] _ m new_holds) H) as Hs. fold (SHA1 m) in Hs. split.
  - intros Hd. exact (standard_unique m _ _ Hd Hs).
  - intros ->. exact Hs.
Qed.
Lemma SHA1_writes ps : sha_Sum (fold_left sha_Write ps sha_New) = SHA1 (List.concat ps).
Proof. unfold SHA1. f_equal. apply (holds_unique (List.concat ps)); [exact (writes_hold ps [] _ new_holds)|exact (write_holds [] _ _ new_holds)]. Qed.
Lemma SHA1_padded ps : dg_x (sha_pad (fold_left sha_Write ps sha_New)) = [].
Proof. exact (proj1 (pad_done _ _ (writes_hold ps [] _ new_holds))). Qed.
Lemma SHA1_length b : List.length (SHA1 b) = 20%nat.
Proof. apply sum_length. Qed.

(** ** A collision of whole blocks extends *)
Lemma SHA1_extend n a b s : List.length a = (64 * n)%nat -> List.length b = (64 * n)%nat -> block n sha_init a = block n sha_init b -> SHA1 (a ++ s) = SHA1 (b ++ s).
Proof.
  intros Ha Hb E. assert (Hz : zlen (a ++ s) = zlen (b ++ s)) by (unfold zlen; rewrite !app_length; lia). unfold SHA1.
  destruct (sum_holds _ _ (write_holds [] _ (a ++ s) new_holds)) as (q & Hq & Eq). destruct (sum_holds _ _ (write_holds [] _ (b ++ s) new_holds)) as (q' & Hq' & Eq').
  cbn [app] in *. rewrite Eq, Eq'. rewrite Hz in *. assert (q = q') by (rewrite !app_length in Hq, Hq'; lia). subst q'. f_equal.
  assert (Hn : (n <= q)%nat) by (rewrite !app_length in Hq; lia). replace q with (n + (q - n))%nat by lia. rewrite <- !app_assoc, !block_app by assumption. rewrite E. reflexivity.
Qed.
Lemma shat_len : List.length shat_a = 320%nat /\ List.length shat_b = 320%nat.
Proof. split; vm_compute; reflexivity. Qed.
Lemma shat_blocks : block 5 sha_init shat_a = block 5 sha_init shat_b.
Proof. vm_compute. reflexivity. Qed.
Lemma shat_differ s s' : shat_a ++ s <> shat_b ++ s'.
Proof. intros E. apply (f_equal (fun l => nth 192 l x00)) in E. rewrite !app_nth1 in E by (rewrite ?(proj1 shat_len), ?(proj2 shat_len); lia). vm_compute in E. discriminate. Qed.
Lemma shat_collide s : collides SHA1 (shat_a ++ s) (shat_b ++ s).
Proof. split; [apply shat_differ|]. apply (SHA1_extend 5); [exact (proj1 shat_len)|exact (proj2 shat_len)|exact shat_blocks]. Qed.

(** ** Twins *)
Lemma HashSlices_map sha1 ps : HashSlices sha1 ps = List.concat (map sha1 ps).
Proof. induction ps as [|p ps IH]; [reflexivity|]. cbn. rewrite IH. reflexivity. Qed.
Lemma concat_zlen (cs cs' : list bytes) : map zlen cs = map zlen cs' -> zlen (List.concat cs) = zlen (List.concat cs').
Proof. revert cs'. induction cs as [|c cs IH]; intros [|c' cs'] E; try discriminate; [reflexivity|]. injection E as E1 E2. cbn [List.concat]. rewrite !zlen_app, E1, (IH _ E2). reflexivity. Qed.
Lemma twins_hashes sha1 P cs cs' : twins sha1 P cs cs' -> HashSlices sha1 (pieces_of P (List.concat cs)) = HashSlices sha1 (pieces_of P (List.concat cs')).
Proof.
  intros [E H]. rewrite !HashSlices_map. f_equal. unfold pieces_of. rewrite !map_map. rewrite <- (concat_zlen _ _ E). apply map_ext_in. intros i Hi. apply in_seq in Hi.
  specialize (H (Z.of_nat i) ltac:(lia)). unfold piece_at in H. rewrite <- (concat_zlen _ _ E) in H. exact H.
Qed.
Lemma made_entries_len wd : forall paths (cs cs' : list bytes), map zlen cs = map zlen cs' -> made_entries wd paths cs = made_entries wd paths cs'.
Proof.
  unfold made_entries. induction paths as [|p paths IH]; intros [|c cs] [|c' cs'] E; try discriminate; try reflexivity. injection E as E1 E2. cbn [combine map fst snd]. rewrite E1, (IH _ _ E2). reflexivity.
Qed.
Lemma twins_torrent sha1 fuel sched fuel' sched' w w' paths wd name P cs cs' ti : 1 <= P <= maxBuf -> twins sha1 P cs cs' -> only_data sched' ->
  on_disk w (base_dir paths wd name) paths cs -> on_disk w' (base_dir paths wd name) paths cs' ->
  Forall (fun c : bytes => (List.length c < fuel)%nat) cs -> Forall (fun c : bytes => (List.length c < fuel')%nat) cs' ->
  CreateTorInfo sha1 fuel sched w paths wd name P = Ok ti -> CreateTorInfo sha1 fuel' sched' w' paths wd name P = Ok ti.
Proof.
  intros HP Ht Hs Hd Hd' Hf Hf' E. apply CreateTorInfo_scrub in E. rewrite (CreateTorInfo_hashes sha1 fuel _ w paths wd name P cs) in E; try assumption; [|apply scrub_data].
  rewrite (CreateTorInfo_hashes sha1 fuel' _ w' paths wd name P cs') by assumption. rewrite <- (twins_hashes _ _ _ _ Ht), <- (made_entries_len _ _ _ _ (proj1 Ht)). exact E.
Qed.
Lemma twins_sym sha1 P cs cs' : twins sha1 P cs cs' -> twins sha1 P cs' cs.
Proof. intros [E H]. split; [symmetry; exact E|]. intros i Hi. symmetry. apply H. rewrite (concat_zlen _ _ E). exact Hi. Qed.
(** Conversely the same torrent is made of twins only. *)
Lemma same_twins sha1 fuel sched fuel' sched' w w' paths wd name P cs cs' ti : 1 <= P <= maxBuf -> (forall b, zlen (sha1 b) = 20) ->
  on_disk w (base_dir paths wd name) paths cs -> on_disk w' (base_dir paths wd name) paths cs' ->
  Forall (fun c : bytes => (List.length c < fuel)%nat) cs -> Forall (fun c : bytes => (List.length c < fuel')%nat) cs' ->
  let T := zlen (List.concat cs) in let T' := zlen (List.concat cs') in 20 * pieces_needed P T < big -> T < big -> 20 * pieces_needed P T' < big -> T' < big ->
  CreateTorInfo sha1 fuel sched w paths wd name P = Ok ti -> CreateTorInfo sha1 fuel' sched' w' paths wd name P = Ok ti -> twins sha1 P cs cs'.
Proof.
  intros HP Hsha Hd Hd' Hf Hf' T T' HB HT HB' HT' E E'.
  destruct (CreateTorInfo_any sha1 fuel sched w paths wd name P cs HP Hsha Hd Hf HB HT ti E) as (_ & _ & L1 & _ & H1 & F1 & _).
  destruct (CreateTorInfo_any sha1 fuel' sched' w' paths wd name P cs' HP Hsha Hd' Hf' HB' HT' ti E') as (_ & _ & L2 & _ & H2 & F2 & _).
  assert (EL : map zlen cs = map zlen cs') by congruence. split; [exact EL|]. assert (HTT : T = T') by exact (concat_zlen _ _ EL). intros i Hi. pose proof (H1 i Hi) as K1. assert (Hi' : 0 <= i < pieces_needed P T') by (rewrite <- HTT; exact Hi). pose proof (H2 i Hi') as K2. unfold piece_at. exact (eq_trans (eq_sym K1) K2).
Qed.

Lemma one_piece P pre a b s : 1 <= P -> zlen a = zlen b -> zlen a <= P -> 0 < zlen a -> forall k, zlen pre = Z.of_nat k * P ->
  exists X Y, pieces_of P (pre ++ a ++ s) = X ++ (a ++ firstn (Z.to_nat (P - zlen a)) s) :: Y /\ pieces_of P (pre ++ b ++ s) = X ++ (b ++ firstn (Z.to_nat (P - zlen a)) s) :: Y.
Proof.
  intros HP Hab Ha H0 k Hk. exists (pieces_of P pre), (pieces_of P (skipn (Z.to_nat (P - zlen a)) s)). pose proof (pieces_app P k HP pre (a ++ s) Hk) as A1. pose proof (pieces_app P k HP pre (b ++ s) Hk) as A2. unfold zlen in *.
  assert (K : forall c : bytes, List.length c = List.length a -> pieces_of P (c ++ s) = (c ++ firstn (Z.to_nat (P - Z.of_nat (List.length a))) s) :: pieces_of P (skipn (Z.to_nat (P - Z.of_nat (List.length a))) s)).
  { intros c Hc. assert (Hne : c ++ s <> []) by (destruct c; [cbn in Hc; lia|discriminate]). rewrite pieces_cons by (lia || exact Hne). rewrite firstn_app, skipn_app, firstn_all2, skipn_all2 by lia. cbn [app]. repeat (f_equal; try lia). }
  split; [rewrite A1, (K a eq_refl); reflexivity|]. rewrite A2, (K b) by lia. reflexivity.
Qed.
Lemma shat_twins P pre s : 320 <= P -> (exists k, 0 <= k /\ zlen pre = k * P) -> twins SHA1 P [pre ++ shat_a ++ s] [pre ++ shat_b ++ s].
Proof.
  intros HP (k & Hk & Hpre). assert (HL : zlen (pre ++ shat_a ++ s) = zlen (pre ++ shat_b ++ s)) by (unfold zlen; rewrite !app_length, (proj1 shat_len), (proj2 shat_len); lia).
  split; [cbn [map]; rewrite HL; reflexivity|]. cbn [List.concat]. rewrite !app_nil_r. intros i Hi.
  assert (Ha : zlen shat_a = 320) by (unfold zlen; rewrite (proj1 shat_len); reflexivity). assert (Hb : zlen shat_b = 320) by (unfold zlen; rewrite (proj2 shat_len); reflexivity).
  destruct (one_piece P pre shat_a shat_b s ltac:(lia) ltac:(lia) ltac:(lia) ltac:(lia) (Z.to_nat k) ltac:(lia)) as (X & Y & E1 & E2).
  assert (M : map SHA1 (pieces_of P (pre ++ shat_a ++ s)) = map SHA1 (pieces_of P (pre ++ shat_b ++ s))).
  { rewrite E1, E2, !map_app. cbn [map]. rewrite (proj2 (shat_collide _)). reflexivity. }
  apply (f_equal (fun l => nth_error l (Z.to_nat i))) in M. rewrite !nth_error_map in M. rewrite !pieces_nth in M by (rewrite <- ?HL; lia). cbn [option_map] in M. unfold piece_at. congruence.
Qed.

(** ** A machine with the other files seeds them *)
Lemma twins_seeded sha1 fuel sched w1 paths wd name P cs cs' ti a t0 ct junk sp nt src pf o w id : 1 <= P <= maxBuf -> (forall b, List.length (sha1 b) = 20%nat) ->
  on_disk w1 (base_dir paths wd name) paths cs -> Forall (fun c : bytes => (List.length c < fuel)%nat) cs -> twins sha1 P cs cs' ->
  let T := zlen (List.concat cs) in let n := pieces_needed P T in 0 < n < 4294967296 -> T < big -> Forall go_string (name :: paths) -> (forall p, paths = [p] -> p = name) ->
  CreateTorInfo sha1 fuel sched w1 paths wd name P = Ok ti -> NewTorrent sha1 ti a = Ok t0 -> torrent_text ct a (fst (BencodeModel.Encode (VDict (InfoBencode ti)))) ->
  NewPeerId src pf = Ok id -> fs_wf w -> no_faults w -> file_at w (UtilsModel.o_input o) = Some (ct ++ junk) -> o_wd o = wd ->
  let dir := base_dir paths wd name in on_disk w dir paths cs' -> NoDup (spots w dir paths) ->
  exists tor, FromTorrentFile sha1 (mkslice (ct ++ junk) sp) (o_wd o) = Ok tor /\ t_infohash tor = t_infohash t0 /\
    forall resp, tracker_Get nt tor (NewStats 0 0 0) (OptPort o) id = Ok resp ->
    exists sw w', NewSwarm sha1 nt src pf sp o w = (Ok sw, w') /\ Complete (sw_bf sw) = true /\ Nbits (sw_bf sw) = n /\ (forall q, file_at w' q = file_at w q) /\
    let c := mksc (t_info (sw_tor sw)) (t_infohash (sw_tor sw)) (sw_bf sw) (sw_id sw) in
    forall ls s p port rsv peer, Forall fair ls -> srun c ls (mkss (sw_ppt sw) w' []) = Some s -> List.length rsv = 8%nat -> List.length peer = 20%nat ->
      let k := List.length (ss_conns s) in
      exists more s' x, Forall (fun l => of_conn k l = true) more /\ delivered k more = map (fun m => (2%nat, mkslice (wire_of m) [])) (ask_all P T n) /\
        srun c (SAccept p port (mkread (handshake_of rsv (t_infohash t0) peer) false) (HandshakeModel.mkw true true) None :: more) s = Some s' /\
        nth_error (ss_conns s') k = Some x /\ k_up x = true /\ forall disk, zlen disk = T -> leech P disk (k_out x) = Some (List.concat cs').
Proof.
  intros HP Hsha Hd Hf Ht T n Hn HT Hg Hp Hc Ht0 Hct Hid Hw Hnf Hin Hwd dir Hd' Hnd. subst wd.
  assert (HTT : T = zlen (List.concat cs')) by exact (concat_zlen _ _ (proj1 Ht)).
  set (fuel' := S (list_max (map (fun c : bytes => List.length c) cs'))).
  assert (Hf' : Forall (fun c : bytes => (List.length c < fuel')%nat) cs').
  { apply Forall_forall. intros c Hcin. unfold fuel'. pose proof (proj1 (list_max_le (map (fun c : bytes => List.length c) cs') _) (le_n _)) as HM. rewrite Forall_forall in HM. specialize (HM _ (in_map (fun c : bytes => List.length c) _ _ Hcin)). cbv beta in HM. lia. }
  pose proof (twins_torrent sha1 fuel sched fuel' [] w1 w paths (o_wd o) name P cs cs' ti HP Ht (Forall_nil _) Hd Hd' Hf Hf' Hc) as Hc'.
  unfold n, T in *. rewrite HTT in *.
  exact (seeded sha1 fuel' [] w paths (o_wd o) name P cs' ti a t0 ct junk sp nt src pf o w id HP Hsha Hd' Hf' Hn HT Hg Hp Hc' Ht0 Hct Hid Hw Hnf Hin Hd' Hnd).
Qed.

(** ** Checks against the standard *)
Lemma range_short (l : bytes) a b : 0 <= b - a -> zlen (range l a b) <= b - a.
Proof. intros H. unfold range, sub, zlen. rewrite firstn_length. lia. Qed.
Lemma piece_short P cs i : 0 <= P -> zlen (piece_bytes P cs i) <= P.
Proof. intros HP. unfold piece_bytes. cbv zeta. set (T := zlen (List.concat cs)). pose proof (range_short (List.concat cs) (Z.min (i * P) T) (Z.min ((i + 1) * P) T) ltac:(lia)). lia. Qed.
Lemma valid_std P hashes files ti w contents ops : made P hashes files ti -> P < 2305843009213693952 -> opened w ti contents -> no_faults w ->
  vvalid_all (zero_vec (zlen hashes / 20)) ops -> vn (vrun (zero_vec (zlen hashes / 20)) ops) = zlen hashes / 20 ->
  exists bf bf', (do b0 <- NewBitfield (zlen hashes / 20); brun b0 ops) = Ok bf /\ Validate SHA1 ti bf w = (Ok bf', w) /\ Nbits bf' = zlen hashes / 20 /\
    (forall i, 0 <= i < zlen hashes / 20 -> exists b, Get bf' i = Ok b /\ (b = true <-> sha1_of (piece_bytes P contents i) (hash_at hashes i))) /\
    (Complete bf' = true <-> forall i, 0 <= i < zlen hashes / 20 -> sha1_of (piece_bytes P contents i) (hash_at hashes i)).
Proof.
  intros Hm HP Ho Hnf Hv Hn. assert (HP0 : 0 <= P) by (destruct Hm as ((H & _) & _); lia).
  assert (K : forall i, sha1_of (piece_bytes P contents i) (hash_at hashes i) <-> SHA1 (piece_bytes P contents i) = hash_at hashes i).
  { intros i. rewrite SHA1_fips by (pose proof (piece_short P contents i HP0); lia). split; intros E; symmetry; exact E. }
  destruct (Validate_top SHA1 P hashes files ti w contents ops Hm Ho Hnf Hv Hn) as (bf & bf' & A1 & A2 & A3 & A4 & A5). exists bf, bf'. split; [exact A1|]. split; [exact A2|]. split; [exact A3|]. split.
  - intros i Hi. destruct (A4 i Hi) as (b & B1 & B2). exists b. split; [exact B1|]. rewrite K. exact B2.
  - rewrite A5. split; intros H i Hi; apply K, H, Hi.
Qed.
Lemma refused_std P hashes files ti i d w : made P hashes files ti -> zlen (vis d) < 2305843009213693952 -> 0 <= i < zlen hashes / 20 ->
  ~ sha1_of (vis d) (hash_at hashes i) -> WritePiece SHA1 ti i d w = (Err EBadHash, w).
Proof. intros Hm Hl Hi Hn. apply (proj2 (WritePiece_rejects SHA1 P hashes files ti i d w Hm)); [exact Hi|]. intros E. apply Hn. apply SHA1_fips; [exact Hl|]. symmetry. exact E. Qed.
Lemma infohash_std m t im tb junk sp wd tor : zlen tb < 2305843009213693952 ->
  info_text m t im tb -> no_empty (BDict im) -> FromTorrentFile SHA1 (mkslice (t ++ junk) sp) wd = Ok tor -> sha1_of tb (t_infohash tor).
Proof. intros Hl Ht Hn E. apply SHA1_fips; [exact Hl|]. exact (proj1 (info_hash_range SHA1 m t im tb junk sp wd tor Ht Hn E)). Qed.
