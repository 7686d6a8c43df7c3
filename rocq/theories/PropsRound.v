(** PropsRound.v: create, publish, seed elsewhere, download (C93). *)
From Coq Require Import ZifyBool ZifyNat ZifyN.
From Verif Require Import Base BencodeModel BencodeSpec BitfieldModel BitfieldSpec WireModel WireSpec HandshakeModel HandshakeSpec PathModel PathSpec LayoutModel LayoutSpec
  PptModel PeerModel UtilsModel FsModel FsSpec InfoSpec CreateModel CreateSpec CreateProofs SwarmModel TrackerModel StartModel StartSpec SessionModel SessionSpec RunModel RunSpec
  PropsSwarm PropsStart LeechSpec RoundSpec RoundProofs.

(* ------------------------------------------------------------------ *)
(** * C93 Create, publish, seed, download *)
(** Which created torrents have an infohash: those whose strings are all non-empty. *)
Theorem C93_publishable : forall sha1 fuel sched w paths wd name P cs ti a, 1 <= P <= maxBuf -> (forall b, zlen (sha1 b) = 20) ->
  on_disk w (base_dir paths wd name) paths cs -> Forall (fun c : bytes => (List.length c < fuel)%nat) cs ->
  let T := zlen (List.concat cs) in 20 * pieces_needed P T < big -> T < big ->
  CreateTorInfo sha1 fuel sched w paths wd name P = Ok ti ->
  ((exists t0, NewTorrent sha1 ti a = Ok t0) <-> name <> [] /\ 0 < T /\ (List.length paths <> 1%nat -> Forall no_empty_name paths)).
Proof. exact publishable. Qed.
Print Assumptions C93_publishable.
(** The bencoding of the info dictionary, wrapped with an announce string, is a torrent file for it. *)
Theorem C93_text : forall sha1 fuel sched w paths wd name P cs ti a t0 ds, 1 <= P <= maxBuf -> (forall b, zlen (sha1 b) = 20) ->
  on_disk w (base_dir paths wd name) paths cs -> Forall (fun c : bytes => (List.length c < fuel)%nat) cs ->
  let T := zlen (List.concat cs) in 20 * pieces_needed P T < big -> T < big -> Forall go_string (a :: name :: paths) ->
  CreateTorInfo sha1 fuel sched w paths wd name P = Ok ti -> NewTorrent sha1 ti a = Ok t0 -> decimal ds (zlen a) ->
  let tb := fst (BencodeModel.Encode (VDict (InfoBencode ti))) in
  t_infohash t0 = sha1 tb /\ torrent_text (B "d8:announce" ++ ds ++ B ":" ++ a ++ B "4:info" ++ tb ++ B "e") a tb.
Proof. exact created_text. Qed.
Print Assumptions C93_text.
(** Loading such a file in any directory gives the torrent of the files there, with the infohash it was created with. *)
Theorem C93_loaded : forall sha1 fuel sched w1 paths wd1 name P cs ti a t0 ct junk sp wd, 1 <= P <= maxBuf -> (forall b, zlen (sha1 b) = 20) ->
  on_disk w1 (base_dir paths wd1 name) paths cs -> Forall (fun c : bytes => (List.length c < fuel)%nat) cs ->
  let T := zlen (List.concat cs) in 20 * pieces_needed P T < big -> T < big -> Forall go_string (name :: paths) -> (forall p, paths = [p] -> p = name) ->
  CreateTorInfo sha1 fuel sched w1 paths wd1 name P = Ok ti -> NewTorrent sha1 ti a = Ok t0 -> torrent_text ct a (fst (BencodeModel.Encode (VDict (InfoBencode ti)))) ->
  exists tor, FromTorrentFile sha1 (mkslice (ct ++ junk) sp) wd = Ok tor /\ t_infohash tor = t_infohash t0 /\ t_announce tor = a /\ (wd = wd1 -> tor = t0) /\
    made P (HashSlices sha1 (pieces_of P (List.concat cs))) (made_entries (base_dir paths wd name) paths cs) (t_info tor).
Proof. exact loaded. Qed.
Print Assumptions C93_loaded.
(** A machine that has the files and the torrent file seeds all of them, leaves its disk as it is, and a downloader gets them byte for byte. *)
Theorem C93_seeded : forall sha1 fuel sched w1 paths wd1 name P cs ti a t0 ct junk sp nt src pf o w id, 1 <= P <= maxBuf -> (forall b, List.length (sha1 b) = 20%nat) ->
  on_disk w1 (base_dir paths wd1 name) paths cs -> Forall (fun c : bytes => (List.length c < fuel)%nat) cs ->
  let T := zlen (List.concat cs) in let n := pieces_needed P T in 0 < n < 4294967296 -> T < big -> Forall go_string (name :: paths) -> (forall p, paths = [p] -> p = name) ->
  CreateTorInfo sha1 fuel sched w1 paths wd1 name P = Ok ti -> NewTorrent sha1 ti a = Ok t0 -> torrent_text ct a (fst (BencodeModel.Encode (VDict (InfoBencode ti)))) ->
  NewPeerId src pf = Ok id -> fs_wf w -> no_faults w -> file_at w (UtilsModel.o_input o) = Some (ct ++ junk) ->
  let dir := base_dir paths (o_wd o) name in on_disk w dir paths cs -> NoDup (spots w dir paths) ->
  exists tor, FromTorrentFile sha1 (mkslice (ct ++ junk) sp) (o_wd o) = Ok tor /\ t_infohash tor = t_infohash t0 /\
    forall resp, tracker_Get nt tor (NewStats 0 0 0) (OptPort o) id = Ok resp ->
    exists sw w', NewSwarm sha1 nt src pf sp o w = (Ok sw, w') /\ Complete (sw_bf sw) = true /\ Nbits (sw_bf sw) = n /\ (forall q, file_at w' q = file_at w q) /\
    let c := mksc (t_info (sw_tor sw)) (t_infohash (sw_tor sw)) (sw_bf sw) (sw_id sw) in
    forall ls s p port rsv peer, Forall fair ls -> srun c ls (mkss (sw_ppt sw) w' []) = Some s -> List.length rsv = 8%nat -> List.length peer = 20%nat ->
      let k := List.length (ss_conns s) in
      exists more s' x, Forall (fun l => of_conn k l = true) more /\ delivered k more = map (fun m => (2%nat, mkslice (wire_of m) [])) (ask_all P T n) /\
        srun c (SAccept p port (mkread (handshake_of rsv (t_infohash t0) peer) false) (HandshakeModel.mkw true true) None :: more) s = Some s' /\
        nth_error (ss_conns s') k = Some x /\ k_up x = true /\ forall disk, zlen disk = T -> leech P disk (k_out x) = Some (List.concat cs).
Proof. exact seeded. Qed.
Print Assumptions C93_seeded.

(** Created from h/t on one machine, seeded from s/u/t on another. *)
Definition padhash (b : bytes) : bytes := firstn 20 (b ++ repeat x2e 20).
Definition ann9 : bytes := B "http://t/".
Definition ti_r : torinfo := match CreateTorInfo padhash 9 [Some 1; Some 1] disk_src [B "a"; B "b"] (B ".") (B "t") 2 with Ok t => t | _ => mkti [] 0 [] 0 0 [] true [] 0 end.
Definition tb_r : bytes := fst (BencodeModel.Encode (VDict (InfoBencode ti_r))).
Definition ct_r : bytes := B "d8:announce" ++ B "9" ++ B ":" ++ ann9 ++ B "4:info" ++ tb_r ++ B "e".
Definition opts_r : Opts := mkopts (B "x.torrent") (B "u") 60000 (B "swarm") (B "0") (B "0") 0 0.
Definition disk_seed : world := mkw [B "s"] [([B "s"; B "x.torrent"], 0%nat); ([B "s"; B "u"; B "t"; B "b"], 1%nat); ([B "s"; B "u"; B "t"; B "a"], 2%nat); ([B "s"; B "u"; B "a"], 3%nat)]
  [ct_r ++ B "junk"; B "uv"; B "xyz"; B "other"] [] [].
Example C93_text_case : ct_r = B "d8:announce9:http://t/4:infod5:filesld6:lengthi3e4:pathl1:aeed6:lengthi2e4:pathl1:beee4:name1:t12:piece lengthi2e6:pieces60:xy..................zu..................v...................7:privatei0eee".
Proof. vm_compute. reflexivity. Qed.
Lemma long_padhash b : List.length (padhash b) = 20%nat.
Proof. unfold padhash. rewrite firstn_length, app_length, repeat_length. lia. Qed.
Example C93_case : (forall b, List.length (padhash b) = 20%nat) /\ on_disk disk_src (base_dir [B "a"; B "b"] (B ".") (B "t")) [B "a"; B "b"] [B "xyz"; B "uv"] /\
  CreateTorInfo padhash 9 [Some 1; Some 1] disk_src [B "a"; B "b"] (B ".") (B "t") 2 = Ok ti_r /\ (exists t0, NewTorrent padhash ti_r ann9 = Ok t0) /\ torrent_text ct_r ann9 tb_r /\
  (exists id, NewPeerId letters0 50 = Ok id) /\ fs_wf disk_seed /\ no_faults disk_seed /\ file_at disk_seed (B "x.torrent") = Some (ct_r ++ B "junk") /\
  on_disk disk_seed (base_dir [B "a"; B "b"] (B "u") (B "t")) [B "a"; B "b"] [B "xyz"; B "uv"] /\ NoDup (spots disk_seed (base_dir [B "a"; B "b"] (B "u") (B "t")) [B "a"; B "b"]) /\
  exists tor resp id, FromTorrentFile padhash (mkslice (ct_r ++ B "junk") []) (B "u") = Ok tor /\ tracker_Get net_up tor (NewStats 0 0 0) (OptPort opts_r) id = Ok resp.
Proof.
  split; [exact long_padhash|]. assert (Hd : on_disk disk_src (base_dir [B "a"; B "b"] (B ".") (B "t")) [B "a"; B "b"] [B "xyz"; B "uv"]) by (repeat constructor). split; [exact Hd|].
  assert (Hc : CreateTorInfo padhash 9 [Some 1; Some 1] disk_src [B "a"; B "b"] (B ".") (B "t") 2 = Ok ti_r) by (vm_compute; reflexivity). split; [exact Hc|].
  assert (Ht : exists t0, NewTorrent padhash ti_r ann9 = Ok t0) by (eexists; vm_compute; reflexivity). split; [exact Ht|]. destruct Ht as (t0 & Ht). split.
  { refine (proj2 (C93_text padhash 9 _ _ _ _ _ 2 [B "xyz"; B "uv"] ti_r ann9 t0 (B "9") _ _ Hd _ _ _ _ Hc Ht _)).
    - unfold maxBuf. lia.
    - intros b. unfold zlen. rewrite long_padhash. reflexivity.
    - repeat constructor; cbn; lia.
    - vm_compute. reflexivity.
    - vm_compute. reflexivity.
    - repeat constructor; vm_compute; discriminate.
    - apply digit_decimal; vm_compute; [split; discriminate|reflexivity]. }
  split; [eexists; vm_compute; reflexivity|]. split; [repeat split; cbn; repeat constructor; cbn; intuition (try discriminate; try lia)|]. split; [reflexivity|]. split; [vm_compute; reflexivity|].
  split; [repeat constructor|]. split; [vm_compute; repeat constructor; cbn; intuition discriminate|]. eexists _, _, []. split; vm_compute; reflexivity.
Qed.
(** A single file created under a name that is not its own: the published torrent is about another file, and seeding it from the
    directory it was created in makes a new file of zeros and has no piece. *)
Definition disk_one : world := mkw [B "h"] [([B "h"; B "a"], 0%nat)] [B "xyz"] [] [].
Theorem C93_renamed_refuted : exists sha1 fuel w1 p wd name P c ti a t0 ct nt src pf o w sw w', p <> name /\ (forall b, List.length (sha1 b) = 20%nat) /\
  on_disk w1 (base_dir [p] wd name) [p] [c] /\ CreateTorInfo sha1 fuel [] w1 [p] wd name P = Ok ti /\ NewTorrent sha1 ti a = Ok t0 /\ torrent_text ct a (fst (BencodeModel.Encode (VDict (InfoBencode ti)))) /\
  o_wd o = wd /\ on_disk w (base_dir [p] wd name) [p] [c] /\ no_faults w /\ file_at w (UtilsModel.o_input o) = Some ct /\
  NewSwarm sha1 nt src pf [] o w = (Ok sw, w') /\ sw_tor sw <> t0 /\ t_infohash (sw_tor sw) = t_infohash t0 /\ Get (sw_bf sw) 0 = Ok false /\ Get (sw_bf sw) 1 = Ok false /\
  file_at w (Join [wd; name]) = None /\ file_at w' (Join [wd; name]) = Some [x00; x00; x00].
Proof.
  set (ti := match CreateTorInfo padhash 9 [] disk_one [B "a"] (B ".") (B "n") 2 with Ok t => t | _ => ti_r end).
  set (ct := B "d8:announce" ++ B "9" ++ B ":" ++ ann9 ++ B "4:info" ++ fst (BencodeModel.Encode (VDict (InfoBencode ti))) ++ B "e").
  assert (Hd : on_disk disk_one (base_dir [B "a"] (B ".") (B "n")) [B "a"] [B "xyz"]) by (repeat constructor).
  assert (Hc : CreateTorInfo padhash 9 [] disk_one [B "a"] (B ".") (B "n") 2 = Ok ti) by (vm_compute; reflexivity).
  exists padhash, 9%nat, disk_one, (B "a"), (B "."), (B "n"), 2, (B "xyz"), ti, ann9. eexists. exists ct, net_up, letters0, 50%nat.
  exists (mkopts (B "x.torrent") (B ".") 60000 (B "swarm") (B "0") (B "0") 0 0), (mkw [B "h"] [([B "h"; B "x.torrent"], 0%nat); ([B "h"; B "a"], 1%nat)] [ct; B "xyz"] [] []). eexists _, _.
  split; [discriminate|]. split; [exact long_padhash|]. split; [exact Hd|]. split; [exact Hc|].
  assert (Ht : exists t0, NewTorrent padhash ti ann9 = Ok t0) by (eexists; vm_compute; reflexivity). split; [vm_compute; reflexivity|]. destruct Ht as (t0 & Ht). split.
  { refine (proj2 (C93_text padhash 9 _ _ _ _ _ 2 [B "xyz"] ti ann9 t0 (B "9") _ _ Hd _ _ _ _ Hc Ht _)).
    - unfold maxBuf. lia.
    - intros b. unfold zlen. rewrite long_padhash. reflexivity.
    - repeat constructor; cbn; lia.
    - vm_compute. reflexivity.
    - vm_compute. reflexivity.
    - repeat constructor; vm_compute; discriminate.
    - apply digit_decimal; vm_compute; [split; discriminate|reflexivity]. }
  split; [reflexivity|]. split; [repeat constructor|]. split; [reflexivity|]. split; [vm_compute; reflexivity|]. split; [vm_compute; reflexivity|].
  split; [discriminate|]. repeat split; vm_compute; reflexivity.
Qed.
Print Assumptions C93_renamed_refuted.
