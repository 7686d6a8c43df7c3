(** PropsSock.v: sockets and goroutines are never given back (C99). *)
From Coq Require Import ZifyBool ZifyNat ZifyN.
From Verif Require Import Base BitfieldModel BitfieldSpec WireModel WireSpec HandshakeModel HandshakeSpec LayoutModel LayoutSpec DsModel PptModel PeerModel FsModel FsSpec SessionModel SessionSpec PropsFs PropsSwarm PropsPpt PropsSession RunModel RunSpec PropsRun ProcModel ProcSpec ProcProofs ProcLiveProofs ProcSockProofs PropsProc.
From Verif Require LoopModel ReadLoopModel.

(* ------------------------------------------------------------------ *)
(** * C99 Every handler keeps its socket *)
Theorem C99_sockets : forall n pc w0 peers s, live n pc w0 peers s -> sockets s = (p_shake s + p_drop s + List.length (p_conns s))%nat.
Proof. exact live_sockets. Qed.
Print Assumptions C99_sockets.
Theorem C99_never_fewer : forall pc ls s s', prun pc ls s = Some s' -> (List.length (p_conns s) <= List.length (p_conns s'))%nat.
Proof. exact conns_run. Qed.
Print Assumptions C99_never_fewer.
(** Accept does not end a process that has taken up fewer connections in its life than it may have open. *)
Theorem C99_few : forall pc t0 w0 peers ls s, prun pc ls (started t0 w0 peers) = Some s -> (List.length (filter taken_up ls) < pc_socks pc)%nat -> pstep pc PAccept s <> PDied.
Proof. exact few_accepted. Qed.
Print Assumptions C99_few.
(** One peer that comes and goes ends it, from any live state, whatever the number of sockets; no message is needed. *)
Theorem C99_visitors : forall P hashes files pc contents w0 peers p port rsv id s, swarm_up P hashes files (pc_c pc) contents w0 -> live (zlen hashes / 20) pc w0 peers s -> List.length (sc_ih (pc_c pc)) = 20%nat -> List.length rsv = 8%nat -> List.length id = 20%nat ->
  exists s', prun pc (flat_map (visit (pc_c pc) p port rsv id) (seq (List.length (p_conns s)) (pc_socks pc - sockets s))) s = Some s' /\ live (zlen hashes / 20) pc w0 peers s' /\
    (forall g, In g (skipn (List.length (p_conns s)) (p_conns s')) -> a_loop (g_a g) = LoopModel.LWait /\ a_ping (g_a g) = LoopModel.PEnd /\ a_recv (g_a g) = VEnd) /\ pstep pc PAccept s' = PDied.
Proof. exact visitors_kill. Qed.
Print Assumptions C99_visitors.
(** And so do connections on which nothing is said. *)
Theorem C99_silent : forall pc s, exists s', prun pc (repeat PAccept (pc_socks pc - sockets s)) s = Some s' /\ pstep pc PAccept s' = PDied.
Proof. exact silent_kill. Qed.
Print Assumptions C99_silent.
(** While pieces are missing, the requestLoop of every connection, dead ones included, goes round for ever. *)
Theorem C99_asks_forever : forall pc k, Complete (sc_own (pc_c pc)) = false -> forall ls s s' g, nth_error (p_conns s) k = Some g -> asking (a_req (g_a g)) = true -> prun pc ls s = Some s' ->
  exists g', nth_error (p_conns s') k = Some g' /\ asking (a_req (g_a g')) = true.
Proof. exact asking_run. Qed.
Print Assumptions C99_asks_forever.
(** It never has more than five pieces, *)
Theorem C99_five : forall pc ls t w peers s g, prun pc ls (started t w peers) = Some s -> In g (p_conns s) ->
  match a_req (g_a g) with QLoop i => (i <= 5)%nat | QMake _ i => (i < 5)%nat | _ => True end.
Proof. exact five_run. Qed.
Print Assumptions C99_five.
(** and if pieces are not empty never more than one: having taken that, it is busy with it for ever. *)
Theorem C99_takes_one : forall pc ls t w peers s g, u32 (ti_plen (sc_ti (pc_c pc))) <> 0 /\ u32 (ti_lastlen (sc_ti (pc_c pc))) <> 0 -> prun pc ls (started t w peers) = Some s -> In g (p_conns s) ->
  match a_req (g_a g) with QLoop i => i = 0%nat | QMake _ i => i = 0%nat | _ => True end.
Proof. exact one_run. Qed.
Print Assumptions C99_takes_one.
Theorem C99_busy : forall pc k x i, u32 (ti_plen (sc_ti (pc_c pc))) <> 0 /\ u32 (ti_lastlen (sc_ti (pc_c pc))) <> 0 ->
  forall ls s s' g, nth_error (p_conns s) k = Some g -> a_req (g_a g) = QMake x i -> prun pc ls s = Some s' -> exists g', nth_error (p_conns s') k = Some g' /\ a_req (g_a g') = QMake x i.
Proof. exact stuck_run. Qed.
Print Assumptions C99_busy.
(** With 8 sockets: six visits after the two peers of C98_case. *)
Example C99_case : sockets afterp = 2%nat /\ List.length (sc_ih (pc_c slow1)) = 20%nat /\
  match prun slow1 (flat_map (visit swarm1 (IPv4 x0a x00 x00 x09) 4000 (repeat x00 8) (peer_id 9)) (seq 2 6)) afterp with
  | Some s => sockets s = 8%nat /\ pstep slow1 PAccept s = PDied /\ map (fun g => (a_loop (g_a g), asking (a_req (g_a g)), a_procs (g_a g))) (skipn 2 (p_conns s)) = repeat (LoopModel.LWait, true, 1%nat) 6
  | None => False
  end.
Proof. split; [vm_compute; reflexivity|]. split; [reflexivity|]. vm_compute. repeat split; reflexivity. Qed.
Example C99_case_few : (List.length (filter taken_up runp) < pc_socks slow1)%nat /\ Complete (sc_own swarm1) = false.
Proof. split; [vm_compute; lia|reflexivity]. Qed.
(** A peer that has the missing piece: its requestLoop takes it and is busy from then on. *)
Example C99_case_busy : u32 (ti_plen (sc_ti swarm1)) <> 0 /\ u32 (ti_lastlen (sc_ti swarm1)) <> 0 /\ Complete (sc_own swarm1) = false /\
  option_map (fun s => map (fun g => a_req (g_a g)) (p_conns s)) (prun slow1 (joinsp 1 ++ [PConn 0 GRecvStart] ++ map (PConn 0) [GDeadline true; GReadRet (stream [MBitfield (mkbf [x00; x00; x00; x02; x05]%byte [z2b 96] 1 8 2)]) None; GPutBuf; GTakeBuf; GDecode; GHandle; GReqStart; GReqNext]) (started tracker3 open_part [])) = Some [QMake 1 0].
Proof. split; [vm_compute; discriminate|]. split; [vm_compute; discriminate|]. split; [reflexivity|]. vm_compute. reflexivity. Qed.
