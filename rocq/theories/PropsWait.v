(** PropsWait.v: Loop's WaitGroup and a requestLoop that starts late (src/swarm/peerhandler.go): C105. *)
From Coq Require Import ZifyBool ZifyNat ZifyN.
From Verif Require Import Base BitfieldModel BitfieldSpec WireModel WireSpec HandshakeModel HandshakeSpec LayoutModel LayoutSpec DsModel PptModel PeerModel FsModel FsSpec SessionModel SessionSpec PropsFs PropsSwarm PropsPpt PropsSession RunModel RunSpec PropsRun ProcModel ProcSpec ProcProofs ProcLiveProofs ProcSockProofs PropsProc.
From Verif Require LoopModel LoopSpec LoopProofs ReadLoopModel.

(* ------------------------------------------------------------------ *)
(** * C105 The wait and the late starter *)
(** When Loop comes to its wait, pingLoop and recvLoop have started; when it is past it, they are over. *)
Theorem C105_two_started : forall c ls s tr, LoopModel.run c LoopModel.init ls = Some (s, tr) ->
  match LoopModel.loop s with
  | LoopModel.LSelect | LoopModel.LSendDone => True
  | LoopModel.LWait | LoopModel.LAsleep => LoopModel.ping s <> LoopModel.PNew /\ LoopModel.recv s <> LoopModel.VNew
  | _ => LoopModel.ping s = LoopModel.PEnd /\ LoopModel.recv s = LoopModel.VEnd
  end.
Proof. exact LoopProofs.two_top. Qed.
Print Assumptions C105_two_started.
(** The WaitGroup panics because of a requestLoop that starts after that, and in no other way. *)
Theorem C105_panics : forall c ls s tr l, LoopModel.run c LoopModel.init ls = Some (s, tr) -> LoopModel.dies s l = true ->
  (l = LoopModel.ReqStart /\ LoopModel.req s = LoopModel.QNew /\ LoopModel.loop s = LoopModel.LAsleep /\ LoopSpec.running s = 0%nat) \/
  (l = LoopModel.LoopAwake /\ LoopModel.loop s = LoopModel.LAwake /\ LoopModel.ping s = LoopModel.PEnd /\ LoopModel.recv s = LoopModel.VEnd /\ (LoopModel.req s = LoopModel.QLoop \/ LoopModel.req s = LoopModel.QRet)).
Proof. exact LoopProofs.dies_top. Qed.
Print Assumptions C105_panics.
(** If requestLoop has started by then, the WaitGroup never panics, and Loop gets past its wait only when all three are over. *)
Theorem C105_in_time : forall c ls0 s0 tr0 ls s tr, LoopModel.run c LoopModel.init ls0 = Some (s0, tr0) -> LoopModel.req s0 <> LoopModel.QNew -> LoopSpec.waiting s0 -> LoopModel.run c s0 ls = Some (s, tr) ->
  (forall l, LoopModel.dies s l = false) /\ (~ LoopSpec.waiting s -> LoopModel.ping s = LoopModel.PEnd /\ LoopModel.recv s = LoopModel.VEnd /\ LoopModel.req s = LoopModel.QEnd).
Proof. exact LoopProofs.in_time_top. Qed.
Print Assumptions C105_in_time.
(** Otherwise both panics can happen: as soon as a handler has got going and its requestLoop has not. *)
Theorem C105_late : forall c s, LoopModel.loop s = LoopModel.LSelect -> LoopModel.ping s = LoopModel.PSelect -> LoopModel.recv s = LoopModel.VSelect -> LoopModel.req s = LoopModel.QNew -> LoopModel.procs s = 2%nat ->
  (exists s' tr, LoopModel.run c s [LoopModel.RecvFail; LoopModel.RecvErr; LoopModel.PingDone; LoopModel.LoopWait; LoopModel.RecvRet; LoopModel.PingRet] = Some (s', tr) /\ LoopModel.dies s' LoopModel.ReqStart = true) /\
  (exists s' tr, LoopModel.run c s [LoopModel.RecvFail; LoopModel.RecvErr; LoopModel.PingDone; LoopModel.LoopWait; LoopModel.RecvRet; LoopModel.PingRet; LoopModel.LoopRelease; LoopModel.ReqStart] = Some (s', tr) /\ LoopModel.dies s' LoopModel.LoopAwake = true).
Proof. exact LoopProofs.late_dies. Qed.
Print Assumptions C105_late.
(** In the process: from every live state with a socket to spare, one peer that comes, greets and goes is enough, if its
    handler's requestLoop is scheduled late. Both panics can follow. *)
Theorem C105_visitor_refuted : forall P hashes files pc contents w0 peers p port rsv id s, swarm_up P hashes files (pc_c pc) contents w0 -> live (zlen hashes / 20) pc w0 peers s -> List.length (sc_ih (pc_c pc)) = 20%nat -> List.length rsv = 8%nat -> List.length id = 20%nat -> (sockets s < pc_socks pc)%nat ->
  let k := List.length (p_conns s) in
  exists s', prun pc (short_visit (pc_c pc) p port rsv id k) s = Some s' /\ live (zlen hashes / 20) pc w0 peers s' /\ pstep pc (PConn k GReqStart) s' = PDied /\
    exists s'', prun pc [PConn k GRelease; PConn k GReqStart] s' = Some s'' /\ live (zlen hashes / 20) pc w0 peers s'' /\ pstep pc (PConn k GAwake) s'' = PDied.
Proof. exact short_visit_kills. Qed.
Print Assumptions C105_visitor_refuted.
Example C105_case_in_time : exists s0 tr0 s tr, LoopModel.run (LoopModel.NewSwarm_cfg true) LoopModel.init [LoopModel.PingStart; LoopModel.RecvStart; LoopModel.ReqStart] = Some (s0, tr0) /\ LoopModel.req s0 <> LoopModel.QNew /\ LoopSpec.waiting s0 /\
  LoopModel.run (LoopModel.NewSwarm_cfg true) s0 [LoopModel.RecvFail; LoopModel.RecvErr; LoopModel.PingDone; LoopModel.LoopWait; LoopModel.RecvRet; LoopModel.PingRet; LoopModel.ReqExit; LoopModel.ReqRet; LoopModel.LoopRelease] = Some (s, tr) /\ ~ LoopSpec.waiting s.
Proof. eexists _, _, _, _. split; [reflexivity|]. split; [discriminate|]. split; [exact I|]. split; [reflexivity|]. intros []. Qed.
Example C105_case_late : exists s tr, LoopModel.run (LoopModel.NewSwarm_cfg false) LoopModel.init [LoopModel.RecvStart; LoopModel.PingStart] = Some (s, tr) /\ LoopModel.loop s = LoopModel.LSelect /\ LoopModel.req s = LoopModel.QNew /\ LoopModel.procs s = 2%nat.
Proof. eexists _, _. split; [reflexivity|]. auto. Qed.
(** The state of C98_case has sockets to spare; its third connection is the last. *)
Example C105_case_visitor : (sockets afterp < pc_socks slow1)%nat /\
  match prun slow1 (short_visit swarm1 (IPv4 x0a x00 x00 x09) 4000 (repeat x00 8) (peer_id 9) 2) afterp with
  | Some s => map (fun g => (a_loop (g_a g), a_req (g_a g), a_procs (g_a g))) (skipn 2 (p_conns s)) = [(LoopModel.LAsleep, QNew, 0%nat)] /\ pstep slow1 (PConn 2 GReqStart) s = PDied
  | None => False
  end.
Proof. split; [vm_compute; lia|]. vm_compute. split; reflexivity. Qed.
