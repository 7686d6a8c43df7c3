(** PropsLeech.v: a downloader written from BEP 3 gets the torrent from a running swarm (C92). *)
From Coq Require Import ZifyBool ZifyNat ZifyN.
From Verif Require Import Base BencodeModel BitfieldModel BitfieldSpec WireModel WireSpec HandshakeModel HandshakeSpec PathModel PathSpec LayoutModel LayoutSpec DsModel PptModel PeerModel UtilsModel
  FsModel FsSpec SwarmModel TrackerModel StartModel StartSpec SessionModel SessionSpec PropsFs PropsSwarm PropsPpt PropsSession PropsInfo PropsStart RunModel RunSpec PropsRun LeechSpec LeechProofs LeechStartProofs.

(* ------------------------------------------------------------------ *)
(** * C92 Downloading from a running swarm *)
(** At any time, whatever fails and whatever the other peers do: what a peer that asks for existing blocks has stored is right. *)
Theorem C92_never_wrong : forall P hashes files c contents w0 ls s k x disk, swarm_up P hashes files c contents w0 -> reaches (zlen hashes / 20) c w0 ls s -> nth_error (ss_conns s) k = Some x -> k_up x = true ->
  let T := zsum (lens_of files) in
  Forall (sound_request P T (zlen hashes / 20)) (flat_map decoded (delivered k ls)) -> zlen disk = T ->
  exists disk', leech P disk (k_out x) = Some disk' /\ zlen disk' = T /\
    forall y, 0 <= y < T -> nth_error disk' (Z.to_nat y) = nth_error (List.concat contents) (Z.to_nat y) \/
      nth_error disk' (Z.to_nat y) = nth_error disk (Z.to_nat y).
Proof. exact leech_any. Qed.
Print Assumptions C92_never_wrong.
(** Once its messages are handled it has exactly what it asked for, of the pieces we have. *)
Theorem C92_received : forall P hashes files c contents w0 ls s k x disk, swarm_up P hashes files c contents w0 -> reaches (zlen hashes / 20) c w0 ls s -> nth_error (ss_conns s) k = Some x ->
  idle x -> k_up x = true ->
  let T := zsum (lens_of files) in let ms := flat_map decoded (delivered k ls) in
  Forall (sound_request P T (zlen hashes / 20)) ms -> zlen disk = T ->
  exists disk', leech P disk (k_out x) = Some disk' /\ zlen disk' = T /\
    forall y, 0 <= y < T ->
      ((exists m, In m ms /\ granted P (sc_own c) m y) -> nth_error disk' (Z.to_nat y) = nth_error (List.concat contents) (Z.to_nat y)) /\
      (~ (exists m, In m ms /\ granted P (sc_own c) m y) -> nth_error disk' (Z.to_nat y) = nth_error disk (Z.to_nat y)).
Proof. exact leech_idle. Qed.
Print Assumptions C92_received.
(** The connection's own steps are enough to handle them: nothing has to be waited for. *)
Theorem C92_served : forall P hashes files c contents w0 ls s k x, swarm_up P hashes files c contents w0 -> no_faults w0 -> reaches (zlen hashes / 20) c w0 ls s -> nth_error (ss_conns s) k = Some x ->
  k_recv x = true -> k_up x = true -> Forall (polite P (zsum (lens_of files)) (zlen hashes / 20)) (k_todo x) ->
  exists more s' x', Forall (fun l => l = SHandle k \/ l = SWrite k) more /\ (List.length more <= 2 * List.length (k_todo x) + List.length (k_pend x))%nat /\ srun c more s = Some s' /\
    nth_error (ss_conns s') k = Some x' /\ idle x' /\ k_up x' = true /\ k_done x' = k_done x ++ k_todo x.
Proof. exact served. Qed.
Print Assumptions C92_served.
(** From every live state, a new peer that asks for everything in any order and any grouping gets all of the files. *)
Theorem C92_download : forall P hashes files c contents w0 ls s p port rsv id fuel groups, swarm_up P hashes files c contents w0 -> no_faults w0 -> reaches (zlen hashes / 20) c w0 ls s ->
  List.length (sc_ih c) = 20%nat -> List.length rsv = 8%nat -> List.length id = 20%nat ->
  let T := zsum (lens_of files) in let n := zlen hashes / 20 in let k := List.length (ss_conns s) in
  Forall (fun g => Forall (polite P T n) (fst g) /\ zlen (stream (fst g)) < 4294967296 /\ (List.length (fst g) < fuel)%nat) groups ->
  (forall y, 0 <= y < T -> exists m, In m (List.concat (map fst groups)) /\ granted P (sc_own c) m y) ->
  exists more s' x, Forall (fun l => of_conn k l = true) more /\ delivered k more = map (fun g => (fuel, mkslice (stream (fst g)) (snd g))) groups /\
    srun c (SAccept p port (mkread (handshake_of rsv (sc_ih c) id) false) (HandshakeModel.mkw true true) None :: more) s = Some s' /\
    nth_error (ss_conns s') k = Some x /\ k_up x = true /\ forall disk, zlen disk = T -> leech P disk (k_out x) = Some (List.concat contents).
Proof. exact download. Qed.
Print Assumptions C92_download.
(** From the start of the program, when the files on disk verify. *)
Theorem C92_started : forall sha1 nt src fuel sp o w id ct tor P hashes files sw w', (forall b, List.length (sha1 b) = 20%nat) ->
  NewPeerId src fuel = Ok id -> fs_wf w -> no_faults w -> file_at w (o_input o) = Some ct -> FromTorrentFile sha1 (mkslice ct sp) (o_wd o) = Ok tor ->
  made P hashes files (t_info tor) -> NoDup (places w files) -> 0 < zlen hashes / 20 < 4294967296 -> P < 4294967283 ->
  NewSwarm sha1 nt src fuel sp o w = (Ok sw, w') -> Complete (sw_bf sw) = true ->
  let c := mksc (t_info (sw_tor sw)) (t_infohash (sw_tor sw)) (sw_bf sw) (sw_id sw) in
  let T := zsum (lens_of files) in let n := zlen hashes / 20 in
  exists contents, Forall2 (fun f c => resized (old_at w (eb_local f)) (eb_len f) c) files contents /\
    (forall i, 0 <= i < n -> sha1 (piece_bytes P contents i) = hash_at hashes i) /\
    forall ls s p port rsv peer, Forall fair ls -> srun c ls (mkss (sw_ppt sw) w' []) = Some s -> List.length rsv = 8%nat -> List.length peer = 20%nat ->
      let k := List.length (ss_conns s) in
      exists more s' x, Forall (fun l => of_conn k l = true) more /\ delivered k more = map (fun m => (2%nat, mkslice (wire_of m) [])) (ask_all P T n) /\
        srun c (SAccept p port (mkread (handshake_of rsv (t_infohash tor) peer) false) (HandshakeModel.mkw true true) None :: more) s = Some s' /\
        nth_error (ss_conns s') k = Some x /\ k_up x = true /\ forall disk, zlen disk = T -> leech P disk (k_out x) = Some (List.concat contents).
Proof. exact started_download. Qed.
Print Assumptions C92_started.

(** The swarm of PropsRun with all its pieces; a peer asks for the last piece, then for the rest in another buffer. *)
Definition bf_all : bitfield := mkbf [x00; x00; x00; x02; x05]%byte [z2b 224] 1 3 3.
Definition swarm_all : sconst := mksc ti2 ih1 bf_all me1.
Definition asks2 : list (list msg * bytes) := [([MInterested; MRequest 2 0 1], []); ([MRequest 1 0 2; MRequest 0 1 1; MRequest 0 0 1], B "old")].
Example C92_case : swarm_up 2 hash2 two swarm_all [B "xyQ"; B "Qv"] open_part /\ no_faults open_part /\ reaches (zlen hash2 / 20) swarm_all open_part [] start1 /\
  Forall (fun g => Forall (polite 2 5 3) (fst g) /\ zlen (stream (fst g)) < 4294967296 /\ (List.length (fst g) < 9)%nat) asks2 /\
  (forall y, 0 <= y < 5 -> exists m, In m (List.concat (map fst asks2)) /\ granted 2 bf_all m y).
Proof.
  split. { split; [exact two_made|]. split; [lia|]. split; [vm_compute; reflexivity|]. split; [reflexivity|]. split; [vm_compute; repeat split; reflexivity|exact open_part_opened]. }
  split; [reflexivity|]. split; [exists tracker3; repeat split; constructor|]. split.
  { repeat constructor; try (vm_compute; congruence). all: cbn [List.length fst]; lia. }
  intros y Hy. assert (Hg : forall i b l, i * 2 + b <= y < i * 2 + b + l -> granted 2 bf_all (MRequest i b l) y) by (intros i b l H; exists i, b, l; split; [reflexivity|]; split; [left; reflexivity|exact H]).
  assert (Hc : y = 0 \/ y = 1 \/ y = 2 \/ y = 3 \/ y = 4) by lia. cbn [asks2 map fst List.concat app].
  destruct Hc as [-> |[-> |[-> |[-> | ->]]]]; [exists (MRequest 0 0 1)|exists (MRequest 0 1 1)|exists (MRequest 1 0 2)|exists (MRequest 1 0 2)|exists (MRequest 2 0 1)];
    (split; [cbn [In]; auto 10|apply Hg; lia]).
Qed.
(** The same by computation, half way and at the end, starting from a file of five question marks. *)
Definition half : list slabel := [joins 1; SDeliver 0 9 (mkslice (stream [MInterested; MRequest 2 0 1]) []); SHandle 0; SHandle 0; SWrite 0].
Definition whole : list slabel := half ++ [SPing 0; SDeliver 0 9 (mkslice (stream [MRequest 1 0 2; MRequest 0 1 1; MRequest 0 0 1]) (B "old")); SHandle 0; SWrite 0; SHandle 0; SWrite 0; SHandle 0; SWrite 0].
Definition leeched (ls : list slabel) : option (option bytes) :=
  match srun swarm_all ls start1 with Some s => option_map (fun x => leech 2 (B "?????") (k_out x)) (nth_error (ss_conns s) 0) | None => None end.
Example C92_bytes : leeched half = Some (Some (B "????v")) /\ leeched whole = Some (Some (B "xyQQv")) /\ leech 2 (B "?????") (MakeHandshake ih1 me1 ++ [x00; x00; x00; x0a]%byte) = None.
Proof. repeat split; vm_compute; reflexivity. Qed.
(** The swarm of PropsStart is complete. *)
Definition onehash (b : bytes) : bytes := repeat x41 20.
Example C92_case_started : (forall b, List.length (onehash b) = 20%nat) /\ exists sw w' tor, NewSwarm onehash net_up letters0 50 [] opts1 disk_t = (Ok sw, w') /\ Complete (sw_bf sw) = true /\
  FromTorrentFile onehash (mkslice (text tb2) []) (B "dl") = Ok tor /\ NewPeerId letters0 50 = Ok (sw_id sw) /\ NoDup (places disk_t (map en_base (ti_files (t_info tor)))).
Proof.
  split; [reflexivity|]. eexists _, _, _. split; [vm_compute; reflexivity|]. split; [vm_compute; reflexivity|]. split; [vm_compute; reflexivity|]. split; [vm_compute; reflexivity|].
  vm_compute. repeat constructor; cbn; intuition discriminate.
Qed.
