(** PropsSha.v: with SHA-1 itself (C116). *)
From Coq Require Import ZifyBool ZifyNat ZifyN.
From Verif Require Import Base BencodeModel BencodeSpec BitfieldModel BitfieldSpec WireModel WireSpec HandshakeModel HandshakeSpec PathModel PathSpec LayoutModel LayoutSpec
  PptModel PeerModel UtilsModel FsModel FsSpec InfoSpec CreateModel CreateSpec CreateProofs SwarmModel TrackerModel StartModel StartSpec SessionModel SessionSpec RunModel RunSpec
  PropsFs PropsSwarm PropsStart LeechSpec RoundSpec RoundProofs PropsRound SeenModel SeenSpec ShaModel ShaSpec ShaTwinProofs Sha1Proofs.
From Verif Require Sha1.

(* ------------------------------------------------------------------ *)
(** * C116 With SHA-1 itself *)
(** utils.SHA1 is the function of the standard, for messages of fewer than 2^64 bits. *)
Theorem C116_fips : forall m dig, zlen m < 2305843009213693952 -> (sha1_of m dig <-> dig = SHA1 m).
Proof. exact SHA1_fips. Qed.
Print Assumptions C116_fips.
(** So is the function of Sha1.v, on which the project's own torrents are run (Conform.v, ConformTorrent.v). *)
Theorem C116_conform : forall m, zlen m < 2305843009213693952 -> Sha1.sha1 m = SHA1 m.
Proof. exact sha1_agree. Qed.
Print Assumptions C116_conform.
(** However the bytes are cut into writes. *)
Theorem C116_writes : forall ps, sha_Sum (fold_left sha_Write ps sha_New) = SHA1 (List.concat ps).
Proof. exact SHA1_writes. Qed.
Print Assumptions C116_writes.
(** The padding ends at a block boundary: checkSum does not panic. *)
Theorem C116_padded : forall ps, dg_x (sha_pad (fold_left sha_Write ps sha_New)) = [].
Proof. exact SHA1_padded. Qed.
Print Assumptions C116_padded.
(** What other theorems assume of [sha1]. *)
Theorem C116_length : forall b, List.length (SHA1 b) = 20%nat.
Proof. exact SHA1_length. Qed.
Print Assumptions C116_length.
(** FIPS 180 and RFC 3174 test vectors. *)
Definition letters_56 : bytes := B "abcdbcdecdefdefgefghfghighijhijkijkljklmklmnlmnomnopnopq".
Example C116_fips_case :
  SHA1 (B "abc") = [xa9;x99;x3e;x36;x47;x06;x81;x6a;xba;x3e;x25;x71;x78;x50;xc2;x6c;x9c;xd0;xd8;x9d] /\
  SHA1 [] = [xda;x39;xa3;xee;x5e;x6b;x4b;x0d;x32;x55;xbf;xef;x95;x60;x18;x90;xaf;xd8;x07;x09] /\
  SHA1 letters_56 = [x84;x98;x3e;x44;x1c;x3b;xd2;x6e;xba;xae;x4a;xa1;xf9;x51;x29;xe5;xe5;x46;x70;xf1] /\
  sha_Sum (fold_left sha_Write [B "abcdbcdecdefdefgefghfghighijhijkijkljklmklm"; []; B "nlmnomnopnopq"] sha_New) = SHA1 letters_56 /\
  sha1_of (B "abc") (SHA1 (B "abc")).
Proof. split; [vm_compute; reflexivity|]. split; [vm_compute; reflexivity|]. split; [vm_compute; reflexivity|]. split; [vm_compute; reflexivity|]. apply SHA1_fips; [vm_compute|]; reflexivity. Qed.
(** The checks of pieces and the infohash, in the terms of the standard. *)
Theorem C116_valid : forall P hashes files ti w contents ops, made P hashes files ti -> P < 2305843009213693952 -> opened w ti contents -> no_faults w ->
  vvalid_all (zero_vec (zlen hashes / 20)) ops -> vn (vrun (zero_vec (zlen hashes / 20)) ops) = zlen hashes / 20 ->
  exists bf bf', (do b0 <- NewBitfield (zlen hashes / 20); brun b0 ops) = Ok bf /\ Validate SHA1 ti bf w = (Ok bf', w) /\ Nbits bf' = zlen hashes / 20 /\
    (forall i, 0 <= i < zlen hashes / 20 -> exists b, Get bf' i = Ok b /\ (b = true <-> sha1_of (piece_bytes P contents i) (hash_at hashes i))) /\
    (Complete bf' = true <-> forall i, 0 <= i < zlen hashes / 20 -> sha1_of (piece_bytes P contents i) (hash_at hashes i)).
Proof. exact valid_std. Qed.
Print Assumptions C116_valid.
Theorem C116_refused : forall P hashes files ti i d w, made P hashes files ti -> zlen (vis d) < 2305843009213693952 -> 0 <= i < zlen hashes / 20 ->
  ~ sha1_of (vis d) (hash_at hashes i) -> WritePiece SHA1 ti i d w = (Err EBadHash, w).
Proof. exact refused_std. Qed.
Print Assumptions C116_refused.
Theorem C116_infohash : forall m t im tb junk sp wd tor, zlen tb < 2305843009213693952 ->
  info_text m t im tb -> no_empty (BDict im) -> FromTorrentFile SHA1 (mkslice (t ++ junk) sp) wd = Ok tor -> sha1_of tb (t_infohash tor).
Proof. exact infohash_std. Qed.
Print Assumptions C116_infohash.
Definition hash_ab : bytes := SHA1 (B "AB") ++ SHA1 (B "xy") ++ SHA1 [x00].
Definition ti_ab : torinfo := match NewTorInfo (B "t") 2 hash_ab two with Ok t => t | _ => ti2 end.
Example C116_valid_case : made 2 hash_ab two ti_ab /\ opened disk1 ti_ab [B "ABC"; [x00; x00]] /\ no_faults disk1 /\
  vvalid_all (zero_vec (zlen hash_ab / 20)) [] /\ vn (vrun (zero_vec (zlen hash_ab / 20)) []) = zlen hash_ab / 20 /\
  sha1_of (piece_bytes 2 [B "ABC"; [x00; x00]] 0) (hash_at hash_ab 0) /\ ~ sha1_of (piece_bytes 2 [B "ABC"; [x00; x00]] 1) (hash_at hash_ab 1) /\
  sha1_of (piece_bytes 2 [B "ABC"; [x00; x00]] 2) (hash_at hash_ab 2) /\
  (exists bf, NewBitfield 3 = Ok bf /\ exists bf', Validate SHA1 ti_ab bf disk1 = (Ok bf', disk1) /\ Get bf' 0 = Ok true /\ Get bf' 1 = Ok false /\ Get bf' 2 = Ok true).
Proof.
  split; [split; [split; [unfold big; lia|split; [repeat constructor; cbn; lia|reflexivity]]|]; split; [vm_compute; reflexivity|]; exists (B "t"); vm_compute; reflexivity|].
  split; [exists [0%nat; 2%nat]; vm_compute; repeat split; repeat constructor; cbn; intuition (try discriminate)|]. split; [reflexivity|]. split; [exact I|]. split; [vm_compute; reflexivity|].
  split; [apply SHA1_fips; vm_compute; reflexivity|]. split; [intros H; apply SHA1_fips in H; [vm_compute in H; discriminate|vm_compute; reflexivity]|]. split; [apply SHA1_fips; vm_compute; reflexivity|].
  eexists. split; [vm_compute; reflexivity|]. eexists. split; [vm_compute; reflexivity|]. repeat split.
Qed.

(** ** Collisions *)
(** Two different messages with the same digest, whatever follows them. *)
Theorem C116_collision : forall s, collides SHA1 (shat_a ++ s) (shat_b ++ s).
Proof. exact shat_collide. Qed.
Print Assumptions C116_collision.
(** So files with one or the other at the start of a piece have the same piece hashes. *)
Theorem C116_twins : forall P pre s, 320 <= P -> (exists k, 0 <= k /\ zlen pre = k * P) -> twins SHA1 P [pre ++ shat_a ++ s] [pre ++ shat_b ++ s].
Proof. exact shat_twins. Qed.
Print Assumptions C116_twins.
(** The same torrent is made of both, and of nothing but such twins. *)
Theorem C116_same_torrent : forall sha1 fuel sched fuel' sched' w w' paths wd name P cs cs' ti, 1 <= P <= maxBuf -> twins sha1 P cs cs' -> only_data sched' ->
  on_disk w (base_dir paths wd name) paths cs -> on_disk w' (base_dir paths wd name) paths cs' ->
  Forall (fun c : bytes => (List.length c < fuel)%nat) cs -> Forall (fun c : bytes => (List.length c < fuel')%nat) cs' ->
  CreateTorInfo sha1 fuel sched w paths wd name P = Ok ti -> CreateTorInfo sha1 fuel' sched' w' paths wd name P = Ok ti.
Proof. exact twins_torrent. Qed.
Print Assumptions C116_same_torrent.
Theorem C116_only_twins : forall sha1 fuel sched fuel' sched' w w' paths wd name P cs cs' ti, 1 <= P <= maxBuf -> (forall b, zlen (sha1 b) = 20) ->
  on_disk w (base_dir paths wd name) paths cs -> on_disk w' (base_dir paths wd name) paths cs' ->
  Forall (fun c : bytes => (List.length c < fuel)%nat) cs -> Forall (fun c : bytes => (List.length c < fuel')%nat) cs' ->
  let T := zlen (List.concat cs) in let T' := zlen (List.concat cs') in 20 * pieces_needed P T < big -> T < big -> 20 * pieces_needed P T' < big -> T' < big ->
  CreateTorInfo sha1 fuel sched w paths wd name P = Ok ti -> CreateTorInfo sha1 fuel' sched' w' paths wd name P = Ok ti -> twins sha1 P cs cs'.
Proof. exact same_twins. Qed.
Print Assumptions C116_only_twins.
(** A machine with the other content, in a directory of the same name, counts as having everything, and serves that content to a downloader. *)
Theorem C116_seeded : forall sha1 fuel sched w1 paths wd name P cs cs' ti a t0 ct junk sp nt src pf o w id, 1 <= P <= maxBuf -> (forall b, List.length (sha1 b) = 20%nat) ->
  on_disk w1 (base_dir paths wd name) paths cs -> Forall (fun c : bytes => (List.length c < fuel)%nat) cs -> twins sha1 P cs cs' ->
  let T := zlen (List.concat cs) in let n := pieces_needed P T in 0 < n < 4294967296 -> T < big -> Forall go_string (name :: paths) -> (forall p, paths = [p] -> p = name) ->
  CreateTorInfo sha1 fuel sched w1 paths wd name P = Ok ti -> NewTorrent sha1 ti a = Ok t0 -> torrent_text ct a (fst (BencodeModel.Encode (VDict (InfoBencode ti)))) ->
  NewPeerId src pf = Ok id -> fs_wf w -> no_faults w -> file_at w (UtilsModel.o_input o) = Some (ct ++ junk) -> o_wd o = wd ->
  let dir := base_dir paths wd name in on_disk w dir paths cs' -> NoDup (spots w dir paths) ->
  exists tor, FromTorrentFile sha1 (mkslice (ct ++ junk) sp) (o_wd o) = Ok tor /\ t_infohash tor = t_infohash t0 /\
    forall resp, tracker_Get nt tor (NewStats 0 0 0) (OptPort o) id = Ok resp ->
    exists sw w', NewSwarm sha1 nt src pf sp o w = (Ok sw, w') /\ Complete (sw_bf sw) = true /\ Nbits (sw_bf sw) = n /\ (forall q, file_at w' q = file_at w q) /\
    let c := mksc (t_info (sw_tor sw)) (t_infohash (sw_tor sw)) (sw_bf sw) (sw_id sw) in
    forall ls s p port rsv peer, Forall fair ls -> srun c ls (mkss (sw_ppt sw) w' []) = Some s -> List.length rsv = 8%nat -> List.length peer = 20%nat ->
      let k := List.length (ss_conns s) in
      exists more s' x, Forall (fun l => of_conn k l = true) more /\ delivered k more = map (fun m => (2%nat, mkslice (wire_of m) [])) (ask_all P T n) /\
        srun c (SAccept p port (mkread (handshake_of rsv (t_infohash t0) peer) false) (HandshakeModel.mkw true true) None :: more) s = Some s' /\
        nth_error (ss_conns s') k = Some x /\ k_up x = true /\ forall disk, zlen disk = T -> leech P disk (k_out x) = Some (List.concat cs').
Proof. exact twins_seeded. Qed.
Print Assumptions C116_seeded.
(** "What a complete seeder of a torrent serves is what the torrent was made of": false, with SHA-1 itself. *)
Definition disk_shat (c ct : bytes) : world := mkw [B "h"] [([B "h"; B "x.torrent"], 0%nat); ([B "h"; B "f"], 1%nat)] [ct; c] [] [].
Definition file_a : bytes := shat_a ++ B "report".
Definition file_b : bytes := shat_b ++ B "report".
Definition ti_shat : torinfo := Eval vm_compute in match CreateTorInfo SHA1 400 [] (disk_shat file_a []) [B "f"] (B ".") (B "f") 512 with Ok t => t | _ => ti_r end.
Definition ct_shat : bytes := B "d8:announce" ++ B "9" ++ B ":" ++ ann9 ++ B "4:info" ++ fst (BencodeModel.Encode (VDict (InfoBencode ti_shat))) ++ B "e".
Definition opts_shat : Opts := mkopts (B "x.torrent") (B ".") 60000 (B "swarm") (B "0") (B "0") 0 0.
Theorem C116_genuine_refuted : exists w1 w c c' ti t0 ct nt src pf o sw w' buf buf' n, c <> c' /\
  on_disk w1 (B ".") [B "f"] [c] /\ CreateTorInfo SHA1 400 [] w1 [B "f"] (B ".") (B "f") 512 = Ok ti /\ NewTorrent SHA1 ti ann9 = Ok t0 /\
  torrent_text ct ann9 (fst (BencodeModel.Encode (VDict (InfoBencode ti)))) /\
  file_at w (UtilsModel.o_input o) = Some ct /\ on_disk w (B ".") [B "f"] [c'] /\ no_faults w /\ fs_wf w /\
  NewSwarm SHA1 nt src pf [] o w = (Ok sw, w') /\ t_infohash (sw_tor sw) = t_infohash t0 /\ Complete (sw_bf sw) = true /\
  ReadPiece (t_info (sw_tor sw)) 0 buf w' = (Ok n, buf', w') /\ sub (vis buf') 0 (Z.to_nat n) = c'.
Proof.
  assert (Hd : on_disk (disk_shat file_a []) (base_dir [B "f"] (B ".") (B "f")) [B "f"] [file_a]) by (repeat constructor).
  assert (Hc : CreateTorInfo SHA1 400 [] (disk_shat file_a []) [B "f"] (B ".") (B "f") 512 = Ok ti_shat) by (vm_compute; reflexivity).
  let v := eval vm_compute in (NewTorrent SHA1 ti_shat ann9) in match v with Ok ?t => assert (Ht : NewTorrent SHA1 ti_shat ann9 = Ok t) by (vm_compute; reflexivity); set (t0 := t) in * end.
  assert (Hx : torrent_text ct_shat ann9 (fst (BencodeModel.Encode (VDict (InfoBencode ti_shat))))).
  { refine (proj2 (created_text SHA1 400 _ _ _ _ _ 512 [file_a] ti_shat ann9 t0 (B "9") _ _ Hd _ _ _ _ Hc Ht _)).
    - unfold maxBuf. lia.
    - intros b. unfold zlen. rewrite SHA1_length. reflexivity.
    - apply Forall_cons; [|apply Forall_nil]. apply Nat.ltb_lt. vm_compute. reflexivity.
    - vm_compute. reflexivity.
    - vm_compute. reflexivity.
    - repeat constructor; vm_compute; discriminate.
    - apply digit_decimal; vm_compute; [split; discriminate|reflexivity]. }
  let v := eval vm_compute in (NewSwarm SHA1 net_up letters0 50 [] opts_shat (disk_shat file_b ct_shat)) in match v with (Ok ?s, ?w) =>
    assert (Es : NewSwarm SHA1 net_up letters0 50 [] opts_shat (disk_shat file_b ct_shat) = (Ok s, w)) by (vm_compute; reflexivity);
    let r := eval vm_compute in (ReadPiece (t_info (sw_tor s)) 0 (mkslice (repeat x00 512) []) w) in match r with (Ok ?n, ?b, _) =>
    exists (disk_shat file_a []), (disk_shat file_b ct_shat), file_a, file_b, ti_shat, t0, ct_shat, net_up, letters0, 50%nat, opts_shat, s, w, (mkslice (repeat x00 512) []), b, n end end.
  split; [apply shat_differ|]. split; [exact Hd|]. split; [exact Hc|]. split; [exact Ht|]. split; [exact Hx|]. split; [vm_compute; reflexivity|]. split; [repeat constructor|]. split; [reflexivity|].
  split; [repeat split; cbn; repeat constructor; cbn; intuition (try discriminate; try lia)|]. split; [exact Es|].
  split; [vm_compute; reflexivity|]. split; [vm_compute; reflexivity|]. split; [vm_compute; reflexivity|]. vm_compute. reflexivity.
Qed.
Print Assumptions C116_genuine_refuted.
Example C116_seeded_case : on_disk (disk_shat file_a []) (base_dir [B "f"] (B ".") (B "f")) [B "f"] [file_a] /\ twins SHA1 512 [file_a] [file_b] /\ 0 < pieces_needed 512 (zlen file_a) < 4294967296 /\
  CreateTorInfo SHA1 400 [] (disk_shat file_a []) [B "f"] (B ".") (B "f") 512 = Ok ti_shat /\ (exists t0, NewTorrent SHA1 ti_shat ann9 = Ok t0) /\
  on_disk (disk_shat file_b ct_shat) (base_dir [B "f"] (B ".") (B "f")) [B "f"] [file_b] /\ fs_wf (disk_shat file_b ct_shat) /\ NoDup (spots (disk_shat file_b ct_shat) (base_dir [B "f"] (B ".") (B "f")) [B "f"]) /\
  exists tor resp id, FromTorrentFile SHA1 (mkslice (ct_shat ++ B "junk") []) (B ".") = Ok tor /\ tracker_Get net_up tor (NewStats 0 0 0) (OptPort opts_shat) id = Ok resp.
Proof.
  split; [repeat constructor|]. split; [apply (C116_twins 512 [] (B "report")); [lia|]; exists 0; split; [lia|reflexivity]|]. split; [split; vm_compute; reflexivity|]. split; [vm_compute; reflexivity|]. split; [eexists; vm_compute; reflexivity|].
  split; [repeat constructor|]. split; [repeat split; cbn; repeat constructor; cbn; intuition (try discriminate; try lia)|]. split; [vm_compute; repeat constructor; cbn; intuition discriminate|]. eexists _, _, []. split; vm_compute; reflexivity.
Qed.
