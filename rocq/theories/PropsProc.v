(** PropsProc.v: the process goroutine by goroutine (C98). *)
From Coq Require Import ZifyBool ZifyNat ZifyN.
From Verif Require Import Base BitfieldModel BitfieldSpec WireModel WireSpec HandshakeModel HandshakeSpec LayoutModel LayoutSpec DsModel PptModel PeerModel FsModel FsSpec SessionModel SessionSpec PropsFs PropsSwarm PropsPpt PropsSession RunModel RunSpec PropsRun ProcModel ProcSpec ProcProofs ProcLiveProofs ProcSockProofs.
From Verif Require LoopModel ReadLoopModel ReadLoopSpec.

(** The swarm of PropsRun with a limit of 10 bytes a second and 8 sockets. Two peers ask for a block each; the first block is
    sent, the second asker waits for the tick with the lock in hand, and the first one, which has asked again, for the lock. *)
Definition slow1 : pconst := mkpconst swarm1 10 8.
Definition joinsp (k : Z) : list plabel := [PAccept; PShake (IPv4 x0a x00 x00 x01) 4000 (mkread (handshake_of (repeat x00 8) ih1 (peer_id k)) false) (HandshakeModel.mkw true true) None].
Definition hears (k : nat) (ms : list msg) : list plabel := map (PConn k) [GDeadline true; GReadRet (stream ms) None; GPutBuf; GTakeBuf; GDecode; GHandle; GCheck; GLock].
Definition runp : list plabel :=
  joinsp 1 ++ joinsp 2 ++ map (PConn 0) [GRecvStart; GPingStart; GPingTick None] ++ [PConn 1 GRecvStart] ++
  hears 0 [MRequest 0 1 1; MRequest 0 0 2] ++ map (PConn 0) [GSpin; GAdd; GSend None] ++ hears 1 [MRequest 0 0 1] ++ [PConn 0 GHandle; PConn 0 GCheck].
Definition afterp : pstate := match prun slow1 runp (started tracker3 open_part []) with Some s => s | None => started tracker3 open_part [] end.
Lemma afterp_live : live (zlen hash2 / 20) slow1 open_part [] afterp.
Proof.
  exists tracker3, runp. split; [reflexivity|]. split.
  - assert (Hb : forallb (fun l => match l with PShake _ _ r _ _ => Nat.leb (List.length (rd_bytes r)) 68 | _ => true end) runp = true) by (vm_compute; reflexivity).
    apply Forall_forall. intros l Hl. rewrite forallb_forall in Hb. specialize (Hb l Hl). clear - Hb. destruct l; cbn [pfair]; try exact I. apply Nat.leb_le. exact Hb.
  - assert (Hb : match prun slow1 runp (started tracker3 open_part []) with Some _ => true | None => false end = true) by (vm_compute; reflexivity).
    unfold afterp. destruct (prun slow1 runp (started tracker3 open_part [])); [reflexivity|discriminate].
Qed.

(* ------------------------------------------------------------------ *)
(** * C98 What holds of the parts holds of the whole *)
(** Seen without its channels, the process is a run of the swarm of C85-C88; every connection decodes exactly what its Reads have
    returned, in order, but for at most the last. *)
Theorem C98_swarm : forall n pc w0 peers s, live n pc w0 peers s -> exists ls, reaches n (pc_c pc) w0 ls (run_view s) /\
  forall k g, nth_error (p_conns s) k = Some g -> exists w, c_got (g_c g) = map (fun d => vis (snd d)) (delivered k ls) ++ w /\ (List.length w <= 1)%nat.
Proof. exact live_view. Qed.
Print Assumptions C98_swarm.
(** Every connection's read loop is one of C53, its handler one of C55. *)
Theorem C98_channels : forall n pc w0 peers s g, live n pc w0 peers s -> In g (p_conns s) ->
  (exists b ls tr, ReadLoopModel.run (ReadLoopModel.init b) ls = Some (read_view g, tr) /\ ReadLoopSpec.delivered tr = c_got (g_c g)) /\
  (exists ls tr, LoopModel.run (LoopModel.NewSwarm_cfg (Complete (sc_own (pc_c pc)))) LoopModel.init ls = Some (loop_view g, tr)).
Proof. exact live_channels. Qed.
Print Assumptions C98_channels.
(** What is sent is lawful, whatever the schedule. *)
Theorem C98_lawful : forall P hashes files pc contents w0 peers s g, swarm_up P hashes files (pc_c pc) contents w0 -> live (zlen hashes / 20) pc w0 peers s -> In g (p_conns s) ->
  lawful P (zsum (lens_of files)) (zlen hashes / 20) contents (sc_own (pc_c pc)) (sc_ih (pc_c pc)) (sc_id (pc_c pc)) (conn_view g).
Proof. exact live_lawful. Qed.
Print Assumptions C98_lawful.
(** What is handled is what was read. *)
Theorem C98_handled : forall P hashes files pc contents w0 peers s k g, swarm_up P hashes files (pc_c pc) contents w0 -> live (zlen hashes / 20) pc w0 peers s -> nth_error (p_conns s) k = Some g ->
  exists ds w rest, c_got (g_c g) = map (fun d => vis (snd d)) ds ++ w /\ (List.length w <= 1)%nat /\ m_done (g_m g) ++ m_todo (g_m g) ++ rest = flat_map decoded ds /\ (receiving (a_recv (g_a g)) = true -> rest = []).
Proof. exact live_heard. Qed.
Print Assumptions C98_handled.
(** What ends the process. *)
Theorem C98_dies : forall P hashes files pc contents w0 peers s l, swarm_up P hashes files (pc_c pc) contents w0 -> live (zlen hashes / 20) pc w0 peers s -> pfair l ->
  pstep pc l s = PDied -> pdeadly P (zlen hashes / 20) pc s l.
Proof. exact live_dies. Qed.
Print Assumptions C98_dies.
Theorem C98_dies_iff : forall P hashes files pc contents w0 peers s l, swarm_up P hashes files (pc_c pc) contents w0 -> no_faults w0 -> live (zlen hashes / 20) pc w0 peers s -> pfair l ->
  pstep pc l s = PDied <-> pdeadly P (zlen hashes / 20) pc s l.
Proof. exact live_dies_iff. Qed.
Print Assumptions C98_dies_iff.
(** The write lock is held exactly by the connection that is between Lock and Unlock. *)
Theorem C98_lock : forall n pc w0 peers s k, live n pc w0 peers s -> sh_lock (p_sh s) = Some k <-> exists g, nth_error (p_conns s) k = Some g /\ holding (a_recv (g_a g)) = true.
Proof. exact live_lock. Qed.
Print Assumptions C98_lock.
(** From every live state every connection gets its answers: without another byte from the network, by steps of its own, of the
    lock's holder and of the ticker; unless handling a message ends the process, or recvLoop fails, hangs or was told to stop. *)
Theorem C98_settles : forall P hashes files pc contents w0 peers s k g, swarm_up P hashes files (pc_c pc) contents w0 -> live (zlen hashes / 20) pc w0 peers s -> pc_rate pc = -1 \/ 0 < pc_rate pc -> nth_error (p_conns s) k = Some g ->
  exists ls s', Forall (on_the_way k) ls /\ prun pc ls s = Some s' /\
    ((exists l, on_the_way k l /\ pstep pc l s' = PDied) \/
     exists g', nth_error (p_conns s') k = Some g' /\ ((a_recv (g_a g') = VSelect /\ settled g') \/ receiving (a_recv (g_a g')) = false)).
Proof. exact live_settles. Qed.
Print Assumptions C98_settles.
(** With a limit of nothing no peer ever gets more than the greeting and keep-alives. *)
Theorem C98_zero_limit : forall P hashes files pc contents w0 peers s g, swarm_up P hashes files (pc_c pc) contents w0 -> live (zlen hashes / 20) pc w0 peers s -> pc_rate pc <= 0 -> pc_rate pc <> -1 -> In g (p_conns s) ->
  only_greeted (pc_c pc) g.
Proof. exact live_mute. Qed.
Print Assumptions C98_zero_limit.

Definition summary (s : pstate) := (sh_used (p_sh s), sh_lock (p_sh s), map (fun g => (a_recv (g_a g), m_todo (g_m g), m_done (g_m g), m_pend (g_m g))) (p_conns s)).
Example C98_case : swarm_up 2 hash2 two swarm1 [B "xyQ"; B "Qv"] open_part /\ live (zlen hash2 / 20) slow1 open_part [] afterp /\
  summary afterp = (14, Some 1%nat, [(VLock, [], [MRequest 0 1 1; MRequest 0 0 2], [wire_of (MPiece 0 0 (B "xy"))]); (VSpin, [], [MRequest 0 0 1], [wire_of (MPiece 0 0 (B "x"))])]) /\
  map (fun g => m_out (g_m g)) (p_conns afterp) = [MakeHandshake ih1 me1 ++ stream [MBitfield bf_part; MUnchoke; MKeepAlive; MPiece 0 1 (B "y")]; MakeHandshake ih1 me1 ++ stream [MBitfield bf_part; MUnchoke]] /\
  map (fun g => c_got (g_c g)) (p_conns afterp) = [[stream [MRequest 0 1 1; MRequest 0 0 2]]; [stream [MRequest 0 0 1]]].
Proof. split; [exact swarm1_up|]. split; [exact afterp_live|]. split; [vm_compute; reflexivity|]. split; vm_compute; reflexivity. Qed.
(** The way out of that state for the first peer: tick, the second one's turn, tick, its own. *)
Definition way0 : list plabel := [PTick; PConn 1 GSpin; PConn 1 GAdd; PConn 0 GLock; PTick] ++ map (PConn 0) [GSpin; GAdd; GSend None; GHandled; GPutReady].
Example C98_case_settles : Forall (on_the_way 0) way0 /\ exists s, prun slow1 way0 afterp = Some s /\
  summary s = (15, None, [(VSelect, [], [MRequest 0 1 1; MRequest 0 0 2], []); (VSend, [], [MRequest 0 0 1], [wire_of (MPiece 0 0 (B "x"))])]) /\ pc_rate slow1 = 10 /\
  (forall g, nth_error (p_conns s) 0 = Some g -> settled g).
Proof.
  split; [repeat constructor|]. destruct (prun slow1 way0 afterp) as [s|] eqn:E.
  2: { assert (H : match prun slow1 way0 afterp with Some _ => true | None => false end = true) by (vm_compute; reflexivity). rewrite E in H. discriminate. }
  exists s. split; [reflexivity|].
  assert (H : match prun slow1 way0 afterp with Some s => summary s | None => summary afterp end = (15, None, [(VSelect, [], [MRequest 0 1 1; MRequest 0 0 2], []); (VSend, [], [MRequest 0 0 1], [wire_of (MPiece 0 0 (B "x"))])])) by (vm_compute; reflexivity).
  assert (H2 : match prun slow1 way0 afterp with Some s => map (fun g => c_got (g_c g)) (p_conns s) | None => [] end = [[stream [MRequest 0 1 1; MRequest 0 0 2]]; [stream [MRequest 0 0 1]]]) by (vm_compute; reflexivity).
  rewrite E in H, H2. split; [exact H|]. split; [reflexivity|]. intros g Hg. unfold summary in H. destruct (p_conns s) as [|g0 [|g1 [|]]]; try discriminate H2. cbn in Hg. inversion Hg; subst g0. clear Hg. cbn [map] in H, H2.
  injection H as _ _ _ H3 H4 H5 _ _ _. injection H2 as H6 _. exists [(9%nat, mkslice (stream [MRequest 0 1 1; MRequest 0 0 2]) [])]. split; [exact H6|]. split; [rewrite H4; vm_compute; reflexivity|]. auto.
Qed.
(** A peer asks, with a limit of 0: it is never answered. *)
Example C98_case_mute : pc_rate (mkpconst swarm1 0 8) <= 0 /\ option_map summary (prun (mkpconst swarm1 0 8) (joinsp 1 ++ [PConn 0 GRecvStart] ++ hears 0 [MRequest 0 1 1] ++ [PTick]) (started tracker3 open_part [])) =
  Some (0, Some 0%nat, [(VSpin, [], [MRequest 0 1 1], [wire_of (MPiece 0 1 (B "y"))])]).
Proof. split; [cbn; lia|vm_compute; reflexivity]. Qed.
