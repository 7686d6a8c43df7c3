(** PropsRun.v: a running swarm with all its connections (C85-C88). *)
From Coq Require Import ZifyBool ZifyNat ZifyN.
From Verif Require Import Base BencodeModel BitfieldModel BitfieldSpec BitfieldProofs WireModel WireSpec WireProofs HandshakeModel HandshakeSpec HandshakeProofs PathModel PathSpec LayoutModel LayoutSpec PieceMapProofs DsModel PptModel PptSpec PeerModel
  FsModel FsSpec SwarmModel SessionModel SessionSpec PropsFs PropsSwarm PropsPpt PropsSession PropsInfo UtilsModel TrackerModel StartModel StartSpec PropsStart RunModel RunSpec RunProofs RunStartProofs.

(** The torrent of PropsFs, of which piece 1 is missing; three messages from two peers. *)
Definition ih1 : bytes := repeat x61%byte 20.
Definition me1 : bytes := repeat x62%byte 20.
Definition swarm1 : sconst := mksc ti2 ih1 bf_part me1.
Definition peer_id (k : Z) : bytes := repeat x63%byte 19 ++ [z2b k].
Definition joins (k : Z) : slabel := SAccept (IPv4 x0a x00 x00 x01) 4000 (mkread (handshake_of (repeat x00 8) ih1 (peer_id k)) false) (HandshakeModel.mkw true true) None.
Definition start1 : sstate := mkss tracker3 open_part [].
Definition run1 : list slabel :=
  [joins 1; SDial (MakePeer [] (IPv4 x0a x00 x00 x02) 6881) None; SDeliver 0 9 (mkslice (stream [MRequest 0 1 1; MRequest 1 0 1]) []);
   SDeliver 1 9 (mkslice (stream [MBitfield (mkbf [x00; x00; x00; x02; x05]%byte [z2b 96] 1 8 2)]) []); SHandle 0; SHandle 1; SPing 1; SWrite 0; SHandle 0; SNext 1].
Definition after1 : sstate := match srun swarm1 run1 start1 with Some s => s | None => start1 end.
Lemma swarm1_up : swarm_up 2 hash2 two swarm1 [B "xyQ"; B "Qv"] open_part.
Proof.
  split; [exact two_made|]. split; [lia|]. split; [vm_compute; reflexivity|]. split; [reflexivity|]. split; [vm_compute; repeat split; reflexivity|exact open_part_opened].
Qed.
Lemma run1_reaches : reaches (zlen hash2 / 20) swarm1 open_part run1 after1.
Proof. exists tracker3. split; [reflexivity|]. split; [|vm_compute; reflexivity]. repeat constructor; vm_compute; congruence. Qed.

(* ------------------------------------------------------------------ *)
(** * C85 What ends the process *)
Theorem C85_dies : forall P hashes files c contents w0 ls s l, swarm_up P hashes files c contents w0 -> reaches (zlen hashes / 20) c w0 ls s -> fair l ->
  sstep c l s = Died -> deadly P (zlen hashes / 20) (sc_own c) (ss_conns s) l.
Proof. exact reach_dies. Qed.
Print Assumptions C85_dies.
Theorem C85_dies_iff : forall P hashes files c contents w0 ls s l, swarm_up P hashes files c contents w0 -> no_faults w0 -> reaches (zlen hashes / 20) c w0 ls s -> fair l ->
  sstep c l s = Died <-> deadly P (zlen hashes / 20) (sc_own c) (ss_conns s) l.
Proof. exact reach_dies_iff. Qed.
Print Assumptions C85_dies_iff.
(** In a live swarm every piece was announced by at most 63 peers. *)
Theorem C85_at_most_63 : forall P hashes files c contents w0 ls s i ks, swarm_up P hashes files c contents w0 -> reaches (zlen hashes / 20) c w0 ls s -> NoDup ks ->
  (forall key, In key ks -> told (zlen hashes / 20) (ss_conns s) key i) -> zlen ks <= 63.
Proof. exact reach_room. Qed.
Print Assumptions C85_at_most_63.
(** Whoever knows the infohash can end the process at any time, with one connection and one message. *)
Theorem C85_one_peer_kills : forall P hashes files c contents w0 ls s p port rsv id u i b blk rest sp fuel, swarm_up P hashes files c contents w0 -> reaches (zlen hashes / 20) c w0 ls s ->
  List.length (sc_ih c) = 20%nat -> List.length rsv = 8%nat -> List.length id = 20%nat -> (1 <= fuel)%nat -> zlen (wire_of (MPiece i b blk) ++ rest) < 4294967296 ->
  exists s', sstep c (SAccept p port (mkread (handshake_of rsv (sc_ih c) id) false) (HandshakeModel.mkw true true) u) s = Went s' /\
             sstep c (SDeliver (List.length (ss_conns s)) fuel (mkslice (wire_of (MPiece i b blk) ++ rest) sp)) s' = Died.
Proof. exact reach_killed. Qed.
Print Assumptions C85_one_peer_kills.
Example C85_case : deadly 2 (zlen hash2 / 20) bf_part (ss_conns after1) (SDeliver 1 5 (mkslice (stream [MPiece 0 0 []]) [])) /\
  sstep swarm1 (SDeliver 1 5 (mkslice (stream [MPiece 0 0 []]) [])) after1 = Died /\ sstep swarm1 (SDeliver 1 5 (mkslice (stream [MHave 7]) [])) after1 <> Died.
Proof. split; [|split; [vm_compute; reflexivity|vm_compute; discriminate]]. cbn [deadly]. eexists. split; [vm_compute; reflexivity|]. split; [repeat split|vm_compute; reflexivity]. Qed.
(** Well-behaved peers are enough: 63 peers came, announced one piece each, and left; when the 64th announces it the process dies. *)
Definition announce (k : nat) : list slabel :=
  [joins (Z.of_nat k); SDeliver k 9 (mkslice (stream [MBitfield (mkbf [x00; x00; x00; x02; x05]%byte [z2b 128] 1 8 1)]) [])].
Definition sixty_three : list slabel := flat_map (fun k => announce k ++ [SHandle k; SEnd k]) (seq 0 63).
Definition after64 : sstate := match srun swarm1 (sixty_three ++ announce 63) start1 with Some s => s | None => start1 end.
Theorem C85_polite_peers_harmless_refuted : exists ls s, swarm_up 2 hash2 two swarm1 [B "xyQ"; B "Qv"] open_part /\ no_faults open_part /\
  reaches (zlen hash2 / 20) swarm1 open_part ls s /\ (forall x, In x (firstn 63 (ss_conns s)) -> k_recv x = false) /\
  (forall x, In x (ss_conns s) -> k_done x = [] \/ exists bf, k_done x = [MBitfield bf] /\ zlen (Data bf) = bytes_for (zlen hash2 / 20)) /\ sstep swarm1 (SHandle 63) s = Died.
Proof.
  exists (sixty_three ++ announce 63), after64.
  split; [exact swarm1_up|]. split; [reflexivity|]. split.
  { exists tracker3. split; [reflexivity|]. split.
    - apply Forall_forall. intros l Hl.
      assert (Hb : forallb (fun l => match l with SDeliver _ _ b => zlen (vis b) <? 4294967296 | SAccept _ _ r _ _ => Nat.leb (List.length (rd_bytes r)) 68 | _ => true end) (sixty_three ++ announce 63) = true) by (vm_compute; reflexivity).
      rewrite forallb_forall in Hb. specialize (Hb l Hl). clear - Hb. destruct l; cbn [fair]; try exact I; lia.
    - assert (Hb : match srun swarm1 (sixty_three ++ announce 63) start1 with Some _ => true | None => false end = true) by (vm_compute; reflexivity).
      unfold after64. change (mkss tracker3 open_part []) with start1. destruct (srun swarm1 (sixty_three ++ announce 63) start1); [reflexivity|discriminate]. }
  assert (H1 : forallb (fun x => negb (k_recv x)) (firstn 63 (ss_conns after64)) = true) by (vm_compute; reflexivity).
  assert (H2 : forallb (fun x => match k_done x with [] => true | [MBitfield bf] => zlen (Data bf) =? 1 | _ => false end) (ss_conns after64) = true) by (vm_compute; reflexivity).
  split; [intros x Hx; rewrite forallb_forall in H1; specialize (H1 x Hx); clear - H1; destruct (k_recv x); [discriminate H1|reflexivity]|].
  split; [|vm_compute; reflexivity]. intros x Hx. rewrite forallb_forall in H2. specialize (H2 x Hx). clear - H2.
  destruct (k_done x) as [|m r]; [auto|right]. destruct m; try discriminate. destruct r; [|discriminate]. exists bf. split; [reflexivity|]. change (bytes_for (zlen hash2 / 20)) with 1. lia.
Qed.
Print Assumptions C85_polite_peers_harmless_refuted.

(* ------------------------------------------------------------------ *)
(** * C86 What peers are told about us *)
Theorem C86_dialled_not_told : forall P hashes files c contents w0 ls s x, swarm_up P hashes files c contents w0 -> reaches (zlen hashes / 20) c w0 ls s -> In x (ss_conns s) -> k_in x = false ->
  exists ms, Forall (fun m => reveals m = false) ms /\ begins (k_out x) (MakeHandshake (sc_ih c) (sc_id c) ++ stream ms) /\
    (k_up x = true -> k_out x = MakeHandshake (sc_ih c) (sc_id c) ++ stream ms).
Proof. exact reach_dialled. Qed.
Print Assumptions C86_dialled_not_told.
Theorem C86_accepted_told : forall P hashes files c contents w0 ls s x, swarm_up P hashes files c contents w0 -> reaches (zlen hashes / 20) c w0 ls s -> In x (ss_conns s) -> k_in x = true -> k_up x = true ->
  exists tail, k_out x = MakeHandshake (sc_ih c) (sc_id c) ++ wire_of (MBitfield (sc_own c)) ++ tail.
Proof. exact reach_accepted. Qed.
Print Assumptions C86_accepted_told.
Example C86_case : reaches (zlen hash2 / 20) swarm1 open_part run1 after1 /\
  map (fun x => (k_in x, k_up x, k_out x)) (ss_conns after1) =
  [(true, true, MakeHandshake ih1 me1 ++ stream [MBitfield bf_part; MUnchoke; MPiece 0 1 (B "y")]); (false, true, MakeHandshake ih1 me1 ++ stream [MUnchoke; MKeepAlive])].
Proof. split; [exact run1_reaches|vm_compute; reflexivity]. Qed.

(* ------------------------------------------------------------------ *)
(** * C87 What a running swarm sends *)
(** Every connection, whatever the others do and whatever fails. *)
Theorem C87_lawful : forall P hashes files c contents w0 ls s x, swarm_up P hashes files c contents w0 -> reaches (zlen hashes / 20) c w0 ls s -> In x (ss_conns s) ->
  lawful P (zsum (lens_of files)) (zlen hashes / 20) contents (sc_own c) (sc_ih c) (sc_id c) x.
Proof. exact reach_lawful. Qed.
Print Assumptions C87_lawful.
(** The messages a connection handles are its own. *)
Theorem C87_own_messages : forall P hashes files c contents w0 ls s k x, swarm_up P hashes files c contents w0 -> reaches (zlen hashes / 20) c w0 ls s -> nth_error (ss_conns s) k = Some x ->
  exists rest, k_done x ++ k_todo x ++ rest = flat_map decoded (delivered k ls) /\ (k_recv x = true -> rest = []).
Proof. exact reach_heard. Qed.
Print Assumptions C87_own_messages.
Theorem C87_files : forall P hashes files c contents w0 ls s, swarm_up P hashes files c contents w0 -> reaches (zlen hashes / 20) c w0 ls s ->
  disk_same w0 (ss_world s) /\ (no_faults w0 -> ss_world s = w0).
Proof. exact reach_world. Qed.
Print Assumptions C87_files.
(** What a peer gets does not depend on what the other peers do, as long as they do not end the process. *)
Theorem C87_isolated : forall P hashes files c contents w0 pre1 pre2 s1 s2 k x ls1 ls2 s1' s2', swarm_up P hashes files c contents w0 -> no_faults w0 ->
  reaches (zlen hashes / 20) c w0 pre1 s1 -> reaches (zlen hashes / 20) c w0 pre2 s2 -> Forall fair ls1 -> Forall fair ls2 ->
  nth_error (ss_conns s1) k = Some x -> nth_error (ss_conns s2) k = Some x -> filter (of_conn k) ls1 = filter (of_conn k) ls2 ->
  srun c ls1 s1 = Some s1' -> srun c ls2 s2 = Some s2' -> nth_error (ss_conns s1') k = nth_error (ss_conns s2') k.
Proof. exact reach_isolated. Qed.
Print Assumptions C87_isolated.
(** From the start of the program: blocks of verified pieces only. *)
Theorem C87_started : forall sha1 nt src fuel sp o w id ct tor P hashes files sw w',
  NewPeerId src fuel = Ok id -> fs_wf w -> file_at w (o_input o) = Some ct -> FromTorrentFile sha1 (mkslice ct sp) (o_wd o) = Ok tor ->
  made P hashes files (t_info tor) -> NoDup (places w files) -> 0 < zlen hashes / 20 < 4294967296 -> P < 4294967283 ->
  NewSwarm sha1 nt src fuel sp o w = (Ok sw, w') ->
  let c := mksc (t_info (sw_tor sw)) (t_infohash (sw_tor sw)) (sw_bf sw) (sw_id sw) in
  NewPeerPieceTracker (zlen hashes / 20) = Ok (sw_ppt sw) /\
  exists contents, Forall2 (sized w w') files contents /\ swarm_up P hashes files c contents w' /\
    forall ls s, Forall fair ls -> srun c ls (mkss (sw_ppt sw) w' []) = Some s ->
      disk_same w' (ss_world s) /\
      forall x, In x (ss_conns s) -> exists ms, Forall (proven sha1 P (zsum (lens_of files)) hashes contents) ms /\
        begins (k_out x) (MakeHandshake (t_infohash tor) id ++ stream (opening (sw_bf sw) x ++ ms)).
Proof. exact started_serves. Qed.
Print Assumptions C87_started.
Example C87_case : swarm_up 2 hash2 two swarm1 [B "xyQ"; B "Qv"] open_part /\ reaches (zlen hash2 / 20) swarm1 open_part run1 after1 /\
  map k_done (ss_conns after1) = [[MRequest 0 1 1; MRequest 1 0 1]; [MBitfield (mkbf [x00; x00; x00; x02; x05]%byte [z2b 96] 1 8 2)]] /\
  filter (of_conn 0) run1 = [SDeliver 0 9 (mkslice (stream [MRequest 0 1 1; MRequest 1 0 1]) []); SHandle 0; SWrite 0; SHandle 0].
Proof. split; [exact swarm1_up|]. split; [exact run1_reaches|]. split; vm_compute; reflexivity. Qed.
(** The swarm of PropsStart serves a block to a peer. *)
Example C87_case_started : exists sw w', NewSwarm idhash net_up letters0 50 [] opts1 disk_t = (Ok sw, w') /\
  let c := mksc (t_info (sw_tor sw)) (t_infohash (sw_tor sw)) (sw_bf sw) (sw_id sw) in
  map (fun i => Get (sw_bf sw) i) [0; 1] = [Ok true; Ok true] /\
  option_map (fun s => map k_pend (ss_conns s)) (srun c [SDial (MakePeer [] (IPv4 x0a x00 x00 x01) 6881) None; SDeliver 0 9 (mkslice (stream [MRequest 0 6 2; MRequest 1 0 7]) []); SHandle 0; SWrite 0; SHandle 0] (mkss (sw_ppt sw) w' [])) =
    Some [[wire_of (MPiece 1 0 (x00 :: B "AAAAAA"))]].
Proof. eexists _, _. split; [vm_compute; reflexivity|]. split; vm_compute; reflexivity. Qed.

(* ------------------------------------------------------------------ *)
(** * C88 The tracker of a running swarm *)
(** It lists exactly what the connections, closed ones too, have announced; nothing is ever taken back. *)
Theorem C88_tracker : forall P hashes files c contents w0 ls s i key, swarm_up P hashes files c contents w0 -> reaches (zlen hashes / 20) c w0 ls s -> 0 <= i < zlen hashes / 20 ->
  lists (ss_ppt s) i key <-> told (zlen hashes / 20) (ss_conns s) key i.
Proof. exact reach_tracker. Qed.
Print Assumptions C88_tracker.
Theorem C88_never_forgotten : forall P hashes files c contents w0 ls s more s' i key, swarm_up P hashes files c contents w0 -> reaches (zlen hashes / 20) c w0 ls s -> Forall fair more -> srun c more s = Some s' ->
  0 <= i < zlen hashes / 20 -> lists (ss_ppt s) i key -> lists (ss_ppt s') i key.
Proof. exact reach_kept. Qed.
Print Assumptions C88_never_forgotten.
(** A connection's next piece: one we lack and its peer has announced, announced by fewest. *)
Theorem C88_next : forall P hashes files c contents w0 ls s k x, swarm_up P hashes files c contents w0 -> reaches (zlen hashes / 20) c w0 ls s -> nth_error (ss_conns s) k = Some x ->
  let n := zlen hashes / 20 in
  let cand i := 0 <= i < n /\ Get (sc_own c) i = Ok false /\ told n (ss_conns s) (h_key (k_who x)) i in
  let count i m := exists ks, NoDup ks /\ (forall key, In key ks <-> told n (ss_conns s) key i) /\ zlen ks = m in
  (exists i t', NextPiece (ss_ppt s) (sc_own c) (k_who x) = Ok (i, true, t') /\ cand i /\ forall j a b, cand j -> count i a -> count j b -> a <= b) \/
  (NextPiece (ss_ppt s) (sc_own c) (k_who x) = Ok (0, false, ss_ppt s) /\ forall i, ~ cand i).
Proof. exact reach_next. Qed.
Print Assumptions C88_next.
Definition second : option conn := nth_error (ss_conns after1) 1.
Example C88_case : reaches (zlen hash2 / 20) swarm1 open_part run1 after1 /\ told 3 (ss_conns after1) (B " @ 10.0.0.2:6881") 1 /\ lists (ss_ppt after1) 1 (B " @ 10.0.0.2:6881") /\
  exists x t', nth_error (ss_conns after1) 1 = Some x /\ NextPiece (ss_ppt after1) bf_part (k_who x) = Ok (1, true, t').
Proof.
  split; [exact run1_reaches|]. assert (Ht : told 3 (ss_conns after1) (B " @ 10.0.0.2:6881") 1).
  { destruct second as [x|] eqn:E; [|vm_compute in E; discriminate]. exists x, (MBitfield (mkbf [x00; x00; x00; x02; x05]%byte [z2b 96] 1 8 2)). split; [eapply nth_error_In; exact E|].
    vm_compute in E. injection E as <-. split; [vm_compute; reflexivity|]. split; [left; reflexivity|]. eexists. split; [reflexivity|]. split; [reflexivity|]. split; [lia|vm_compute; reflexivity]. }
  split; [exact Ht|]. split; [apply (reach_tracker 2 hash2 two swarm1 [B "xyQ"; B "Qv"] open_part run1 after1); [exact swarm1_up|exact run1_reaches|vm_compute; split; congruence|exact Ht]|].
  eexists _, _. split; vm_compute; reflexivity.
Qed.
