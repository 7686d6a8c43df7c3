(** PropsStart.v: starting the program (C83, C84). *)
From Coq Require Import ZifyBool ZifyNat ZifyN.
From Verif Require Import Base BencodeModel BitfieldModel BitfieldSpec PathModel PathSpec LayoutModel LayoutSpec PieceMapProofs InfoSpec BencodeProofs InfoProofs PropsInfo
  PptModel PeerModel UtilsModel UtilsSpec FsModel FsSpec FsProofs OcatProofs SwarmModel TrackerModel TrackerSpec StartModel StartSpec StartProofs.

(* ------------------------------------------------------------------ *)
(** * C83 NewSwarm *)
(** Whatever system calls fail and whatever the tracker says: a swarm as described, or an error, or - only for an announce URL
    that does not parse - a panic; files outside the torrent are untouched. *)
Theorem C83_NewSwarm : forall sha1 n src fuel sp o w id c tor P hashes files,
  NewPeerId src fuel = Ok id -> fs_wf w -> file_at w (o_input o) = Some c -> FromTorrentFile sha1 (mkslice c sp) (o_wd o) = Ok tor ->
  made P hashes files (t_info tor) -> NoDup (places w files) -> zlen hashes / 20 < 4294967296 ->
  let told := tracker_Get n tor (NewStats 0 0 0) (OptPort o) id in
  exists r w', NewSwarm sha1 n src fuel sp o w = (r, w') /\ fs_wf w' /\ elsewhere_same (places w files) w w' /\ (no_faults w -> no_faults w') /\
   ((exists s contents resp, r = Ok s /\ told = Ok resp /\ opened w' (t_info tor) contents /\ Forall2 (sized w w') files contents /\
       (no_faults w -> Forall2 (fun f c => resized (old_at w (eb_local f)) (eb_len f) c) files contents) /\ right_bits sha1 P hashes contents (sw_bf s) /\
       sw_id s = id /\ sw_port s = OptPort o /\ sw_tor s = tor /\ sw_stats s = NewStats 0 0 0 /\ sw_state s = r_state resp /\ sw_peers s = r_peers resp /\
       sw_wrate s = Z.max (-1) (o_uplim o) /\ sw_rrate s = Z.max (-1) (o_dnlim o) /\ NewPeerPieceTracker (zlen hashes / 20) = Ok (sw_ppt s)) \/
    ((exists e, r = Err e) /\ ~ no_faults w) \/
    ((exists contents, opened w' (t_info tor) contents /\ Forall2 (sized w w') files contents) /\ ((exists e, told = Err e /\ r = Err e) \/ (told = Panic /\ r = Panic)))).
Proof. exact NewSwarm_any. Qed.
Print Assumptions C83_NewSwarm.
(** What the tracker is asked, and what is made of its answer. *)
Theorem C83_announce : forall n tor port src fuel id raw, NewPeerId src fuel = Ok id -> n_query n (t_announce tor) = Some raw -> clean_query raw ->
  exists q, (forall k, form_values q k = form_values raw k ++ values_of (announce_params (t_infohash tor) (NewStats 0 0 0) port id) k) /\
    tracker_Get n tor (NewStats 0 0 0) port id = match n_answer n (t_announce tor) q with None => Err EIO | Some body => handle_body (n_parseIP n) body end.
Proof. exact announce_top. Qed.
Print Assumptions C83_announce.
Theorem C83_tracker_outcomes : forall n tor st port id,
  (n_query n (t_announce tor) = None /\ tracker_Get n tor st port id = Panic) \/
  (exists raw, n_query n (t_announce tor) = Some raw /\ ((exists r, tracker_Get n tor st port id = Ok r) \/ exists e, tracker_Get n tor st port id = Err e)).
Proof. exact tracker_Get_cases. Qed.
Print Assumptions C83_tracker_outcomes.
(** No torrent file, or one that is refused: an error, and the disk is as before. *)
Theorem C83_no_torrent : forall sha1 n src fuel sp o w id, NewPeerId src fuel = Ok id -> fs_wf w ->
  (forall c, file_at w (o_input o) = Some c -> exists e, FromTorrentFile sha1 (mkslice c sp) (o_wd o) = Err e) ->
  exists e w', NewSwarm sha1 n src fuel sp o w = (Err e, w') /\ disk_same w w'.
Proof. exact NewSwarm_no_torrent. Qed.
Print Assumptions C83_no_torrent.
(** Opening the files under failing system calls. *)
Theorem C83_files : forall P hashes files ti w, made P hashes files ti -> fs_wf w -> NoDup (places w files) ->
  exists r w', OCATAll (ti_files ti) w = (r, w') /\ fs_wf w' /\ elsewhere_same (places w files) w w' /\ (no_faults w -> no_faults w') /\
    ((exists inos contents, r = Ok tt /\ opened_at inos w' ti contents /\ Forall2 (sized w w') files contents /\
       (no_faults w -> Forall2 (fun f c => resized (old_at w (eb_local f)) (eb_len f) c) files contents)) \/ (r = Err EIO /\ ~ no_faults w)).
Proof. exact OCATAll_opens_any. Qed.
Print Assumptions C83_files.

(** A disk holding the torrent of PropsInfo and, at the place of its second file, something longer. *)
Definition opts1 : Opts := mkopts (B "t.torrent") (B "dl") 65537 (B "swarm") (B "5k") (B "-3") 5120 (-3).
Definition disk_t : world := mkw [B "h"] [([B "h"; B "t.torrent"], 0%nat); ([B "h"; B "dl"; B "dir"; B "c"], 1%nat)] [text tb2; B "AAAAAAAprecious"] [] [].
Definition letters0 (k : nat) : Z := 0.
Definition idhash (b : bytes) : bytes := if zlen b =? 8 then repeat x41 20 else b.
Definition net_up : net := mknet (fun _ => Some []) (fun _ _ => Some (mkslice (B "d8:completei1e10:incompletei2e8:intervali60e5:peers6:" ++ [z2b 10; z2b 0; z2b 0; z2b 1; z2b 26; z2b 225] ++ B "e") [])) (fun _ => []).
Definition net_down : net := mknet (fun _ => Some []) (fun _ _ => None) (fun _ => []).
Example C83_case : exists tor, FromTorrentFile idhash (mkslice (text tb2) []) (B "dl") = Ok tor /\ made 8 (repeat x41 40) (map en_base (ti_files (t_info tor))) (t_info tor) /\
  NoDup (places disk_t (map en_base (ti_files (t_info tor)))) /\ fs_wf disk_t /\
  match NewSwarm idhash net_up letters0 50 [] opts1 disk_t with
  | (Ok s, w') => sw_id s = B "-GT0000-aaaaaaaaaaaa" /\ sw_port s = 1 /\ map (Get (sw_bf s)) [0; 1] = [Ok true; Ok true] /\ map Addr (sw_peers s) = [B "10.0.0.1:6881"] /\
      t_seeders (sw_state s) = 1 /\ sw_wrate s = 5120 /\ sw_rrate s = -1 /\ file_at w' (B "dl/dir/c") = Some (B "AAAAAAA") /\ file_at w' (B "dl/dir/a/b") = Some (zeros 9)
  | _ => False end.
Proof.
  destruct (FromTorrentFile idhash (mkslice (text tb2) []) (B "dl")) as [tor| | |] eqn:E; [|vm_compute in E; discriminate..]. vm_compute in E. apply Ok_inj in E. subst tor. eexists. split; [reflexivity|].
  split. { split; [split; [unfold big; lia|split; [repeat constructor; cbn; lia|reflexivity]]|]. split; [reflexivity|]. exists (B "dir"). vm_compute. reflexivity. }
  split; [vm_compute; repeat constructor; cbn; intuition discriminate|]. split; [repeat split; cbn; repeat constructor; cbn; intuition (try discriminate; try lia)|].
  vm_compute. repeat split.
Qed.
(** The files are created, cut and extended before the tracker is asked: a start that fails has changed the disk. *)
Theorem C83_failed_start_changes_nothing_refuted : exists sha1 n src fuel o w e w' p, no_faults w /\ fs_wf w /\ NewSwarm sha1 n src fuel [] o w = (Err e, w') /\
  file_at w p = Some (B "AAAAAAAprecious") /\ file_at w' p = Some (B "AAAAAAA").
Proof.
  exists idhash, net_down, letters0, 50%nat, opts1, disk_t. eexists _, _, (B "dl/dir/c"). split; [reflexivity|]. split; [repeat split; cbn; repeat constructor; cbn; intuition (try discriminate; try lia)|].
  split; [vm_compute; reflexivity|]. split; vm_compute; reflexivity.
Qed.
Print Assumptions C83_failed_start_changes_nothing_refuted.
(** The torrent file itself may be in the way: a single-file torrent named like its own .torrent file overwrites it. *)
Definition tb_own : bytes := B "d6:lengthi5e4:name9:t.torrent12:piece lengthi8e6:pieces20:AAAAAAAAAAAAAAAAAAAA7:privatei0ee".
Definition disk_own : world := mkw [B "h"] [([B "h"; B "t.torrent"], 0%nat)] [text tb_own] [] [].
Definition opts_own : Opts := mkopts (B "t.torrent") (B ".") 6881 (B "swarm") (B "-1B") (B "-1B") (-1) (-1).
Theorem C83_torrent_file_kept_refuted : exists sha1 n src fuel o w s w', no_faults w /\ fs_wf w /\ NewSwarm sha1 n src fuel [] o w = (Ok s, w') /\
  file_at w (o_input o) = Some (text tb_own) /\ file_at w' (o_input o) = Some (B "d8:an").
Proof.
  exists idhash, net_up, letters0, 50%nat, opts_own, disk_own. eexists _, _. split; [reflexivity|]. split; [repeat split; cbn; repeat constructor; cbn; intuition (try discriminate; try lia)|].
  split; [vm_compute; reflexivity|]. split; vm_compute; reflexivity.
Qed.
Print Assumptions C83_torrent_file_kept_refuted.

(* ------------------------------------------------------------------ *)
(** * C84 main, Start and the listener *)
(** main runs a swarm exactly if the options are valid, the command is "swarm" and NewSwarm succeeds; it launches the listener,
    the rate limiter and one goroutine for each peer named by the tracker, in order. *)
Theorem C84_main_swarm : forall uni sha1 n src fuel sp o w s l w', main uni sha1 n src fuel sp o w = (Running s l, w') <->
  (exists u d, o_input o <> [] /\ o_cmd o = B "swarm" /\ parseSizeUnits uni (o_upstr o) = Ok u /\ parseSizeUnits uni (o_dnstr o) = Ok d /\
    NewSwarm sha1 n src fuel sp (set_dnlim (set_uplim o u) d) w = (Ok s, w') /\ l = GListener :: GLimiter :: map GPeer (sw_peers s)).
Proof. exact main_swarm. Qed.
Print Assumptions C84_main_swarm.
(** Any other command leaves the disk alone, and exits with status 0 only if it is "info" and the torrent is readable. *)
Theorem C84_main_other : forall uni sha1 n src fuel sp o w, fs_wf w -> o_cmd o <> B "swarm" -> exists f w', main uni sha1 n src fuel sp o w = (f, w') /\ disk_same w w' /\
  (f = Exit 0 -> o_cmd o = B "info" /\ exists c tor, file_at w (o_input o) = Some c /\ FromTorrentFile sha1 (mkslice c sp) (o_wd o) = Ok tor) /\ forall s l, f <> Running s l.
Proof. exact main_info. Qed.
Print Assumptions C84_main_other.
(** A swarm that cannot be started: exit status 1, or the panic. *)
Theorem C84_swarm_fails : forall uni sha1 n src fuel sp o w u d r w', o_input o <> [] -> o_cmd o = B "swarm" -> parseSizeUnits uni (o_upstr o) = Ok u -> parseSizeUnits uni (o_dnstr o) = Ok d ->
  NewSwarm sha1 n src fuel sp (set_dnlim (set_uplim o u) d) w = (r, w') ->
  ((exists e, r = Err e) -> main uni sha1 n src fuel sp o w = (Exit 1, w')) /\ (r = Panic -> main uni sha1 n src fuel sp o w = (Crash, w')).
Proof. exact main_swarm_fails. Qed.
Print Assumptions C84_swarm_fails.
Theorem C84_info_status : forall uni sha1 n src fuel sp o w u d, fs_wf w -> no_faults w -> o_input o <> [] -> o_cmd o = B "info" -> parseSizeUnits uni (o_upstr o) = Ok u -> parseSizeUnits uni (o_dnstr o) = Ok d ->
  fst (main uni sha1 n src fuel sp o w) =
    match file_at w (o_input o) with
    | None => Exit 1
    | Some c => match FromTorrentFile sha1 (mkslice c sp) (o_wd o) with Ok _ => Exit 0 | Err _ => Exit 1 | Panic => Crash | NoFuel => Hang end
    end.
Proof. exact main_info_status. Qed.
Print Assumptions C84_info_status.
(** If the port cannot be listened on, the process dies at once. *)
Theorem C84_no_listen : forall C (events : list (option C)), runListener false events = ([], Panic).
Proof. exact @no_listen. Qed.
Print Assumptions C84_no_listen.
(** Every connection accepted before the first Accept error is handled once, in order; that error brings the process down. *)
Theorem C84_listener : forall C (events : list (option C)) l b, accepted events l b <-> runListener true events = (l, if b then Panic else Ok tt).
Proof. exact @listener_top. Qed.
Print Assumptions C84_listener.
Example C84_case : exists s l w', main (fun b => b) idhash net_up letters0 50 [] opts1 disk_t = (Running s l, w') /\ List.length l = 3%nat /\
  fst (main (fun b => b) idhash net_up letters0 50 [] (mkopts (B "t.torrent") (B "dl") 1 (B "info") (B "1") (B "1") 0 0) disk_t) = Exit 0 /\
  fst (main (fun b => b) idhash net_up letters0 50 [] (mkopts (B "t.torrent") (B "dl") 1 (B "fetch") (B "1") (B "1") 0 0) disk_t) = Crash /\
  runListener true [Some 1; Some 2; None; Some 3] = ([1; 2], Panic).
Proof. eexists _, _, _. split; [vm_compute; reflexivity|]. split; [reflexivity|]. split; [vm_compute; reflexivity|]. split; vm_compute; reflexivity. Qed.
Example C84_case_status : fst (main (fun b => b) idhash net_down letters0 50 [] opts1 disk_t) = Exit 1 /\
  fst (main (fun b => b) idhash net_up letters0 50 [] (mkopts (B "none") (B "dl") 1 (B "info") (B "1") (B "1") 0 0) disk_t) = Exit 1.
Proof. split; vm_compute; reflexivity. Qed.
