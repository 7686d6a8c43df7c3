(** PropsMem.v: the memory a process cannot give back (C113). *)
From Coq Require Import ZifyBool ZifyNat ZifyN.
From Verif Require Import Base BitfieldModel BitfieldSpec WireModel WireSpec HandshakeModel HandshakeSpec LayoutModel LayoutSpec DsModel PptModel PeerModel FsModel FsSpec SwarmModel SessionModel SessionSpec PropsFs PropsSwarm PropsPpt PropsSession RunModel RunSpec PropsRun ProcModel ProcSpec ProcProofs ProcLiveProofs ProcSockProofs PropsProc MemModel MemSpec MemProofs.

(* ------------------------------------------------------------------ *)
(** * C113 Memory *)
(** With bounded memory the process does nothing new; it may die more. *)
Theorem C113_refines : forall M pc ls s s', hrun M pc ls s = Some s' -> prun pc (steps ls) (h_p s) = Some (h_p s') /\ h_made s' = h_made s + rounds ls /\ (held pc s <= M -> held pc s' <= M).
Proof. exact hrun_inv. Qed.
Print Assumptions C113_refines.
(** In memory of M bytes, every handler ever made and every request message ever made fit. *)
Theorem C113_fits : forall M pc ls t w peers s, 0 <= M -> hrun M pc ls (hstarted t w peers) = Some s -> zlen (p_conns (h_p s)) * ti_plen (sc_ti (pc_c pc)) + rounds ls * RequestSize <= M.
Proof. exact hrun_fits. Qed.
Print Assumptions C113_fits.
(** A step ends the process exactly when it does so with unbounded memory, or memory is at an end. *)
Theorem C113_dies : forall M pc l s, hstep M pc l s = HDied <->
  match l with
  | HStep l => pstep pc l (h_p s) = PDied \/ exists s', pstep pc l (h_p s) = PWent s' /\ M < held pc (mkh s' (h_made s))
  | HMake k => exists g x i, nth_error (p_conns (h_p s)) k = Some g /\ a_req (g_a g) = QMake x i /\ 0 < req_length (sc_ti (pc_c pc)) x /\ M < held pc s + RequestSize
  end.
Proof. exact hstep_dies. Qed.
Print Assumptions C113_dies.
(** A round of createReqMessages is always followed by another one exactly when PptModel's function never returns; otherwise there is none. *)
Theorem C113_round : forall ti x, (0 < req_length ti x <-> forall fuel, createReqMessages fuel ti x = NoFuel) /\ (~ 0 < req_length ti x <-> forall fuel, createReqMessages fuel ti x = Ok []).
Proof. exact round_iff. Qed.
Print Assumptions C113_round.
(** A process that has every piece makes no request, and a piece length for every connection it has taken up is enough. *)
Theorem C113_complete : forall M pc t w peers, Complete (sc_own (pc_c pc)) = true -> forall ls s, hrun M pc ls (hstarted t w peers) = Some s -> rounds ls = 0 /\ h_made s = 0.
Proof. exact hrun_complete. Qed.
Print Assumptions C113_complete.
Theorem C113_enough : forall M P hashes files pc contents w0 t w peers ls s l, swarm_up P hashes files (pc_c pc) contents w0 -> Complete (sc_own (pc_c pc)) = true -> hrun M pc ls (hstarted t w peers) = Some s ->
  zlen (filter taken_up (steps ls)) * P <= M -> taken_up l = false \/ (zlen (filter taken_up (steps ls)) + 1) * P <= M -> hstep M pc (HStep l) s = HDied -> pstep pc l (h_p s) = PDied.
Proof. exact complete_room. Qed.
Print Assumptions C113_enough.
(** Visitors that say hello and go: each keeps a piece length for ever. *)
Theorem C113_visitors : forall M P hashes files pc contents w0 p port rsv id n s a, swarm_up P hashes files (pc_c pc) contents w0 -> List.length (sc_ih (pc_c pc)) = 20%nat -> List.length rsv = 8%nat -> List.length id = 20%nat ->
  (sockets s + n <= pc_socks pc)%nat -> held pc (mkh s a) <= M -> M < held pc (mkh s a) + Z.of_nat n * P ->
  hdies M pc (map HStep (flat_map (visit (pc_c pc) p port rsv id) (seq (List.length (p_conns s)) n))) (mkh s a).
Proof. exact visitors_fill. Qed.
Print Assumptions C113_visitors.
(** A createReqMessages under way can always make one more, is under way for ever, and so ends the process. *)
Theorem C113_making : forall M pc k, nonempty (sc_ti (pc_c pc)) -> forall ls s s', making (h_p s) k -> hrun M pc ls s = Some s' -> making (h_p s') k.
Proof. exact hmaking_stays. Qed.
Print Assumptions C113_making.
Theorem C113_makes : forall M pc k s, nonempty (sc_ti (pc_c pc)) -> making (h_p s) k -> hstep M pc (HMake k) s = fit M pc (mkh (h_p s) (h_made s + 1)).
Proof. exact make_goes. Qed.
Print Assumptions C113_makes.
Theorem C113_making_dies : forall M pc k s, 0 <= M -> nonempty (sc_ti (pc_c pc)) -> making (h_p s) k -> 0 <= held pc s -> hdies M pc (repeat (HMake k) (S (Z.to_nat (M / RequestSize)))) s.
Proof. exact making_dies. Qed.
Print Assumptions C113_making_dies.
(** One peer with one piece that we lack brings any live, incomplete process there: by its handshake and its bitfield message. *)
Theorem C113_seeder : forall P hashes files pc contents w0 peers p port rsv id b i s, swarm_up P hashes files (pc_c pc) contents w0 -> live (zlen hashes / 20) pc w0 peers s ->
  List.length (sc_ih (pc_c pc)) = 20%nat -> List.length rsv = 8%nat -> List.length id = 20%nat -> (sockets s < pc_socks pc)%nat ->
  msg_ok (MBitfield b) -> (List.length (wire_of (MBitfield b)) <= RecvBufSize)%nat -> tells (zlen hashes / 20) (MBitfield b) i -> Get (sc_own (pc_c pc)) i = Ok false -> Complete (sc_own (pc_c pc)) = false ->
  ~ crowded (zlen hashes / 20) (map conn_view (p_conns s)) (Key (MakePeer id p port)) (MBitfield b) ->
  exists s', prun pc (seeds (pc_c pc) p port rsv id b (List.length (p_conns s))) s = Some s' /\ live (zlen hashes / 20) pc w0 peers s' /\ List.length (p_conns s') = S (List.length (p_conns s)) /\ making s' (List.length (p_conns s)).
Proof. exact seeder. Qed.
Print Assumptions C113_seeder.
Theorem C113_seeder_kills : forall M P hashes files pc contents w0 peers p port rsv id b i s a, 0 <= M -> 0 <= a -> nonempty (sc_ti (pc_c pc)) -> swarm_up P hashes files (pc_c pc) contents w0 -> live (zlen hashes / 20) pc w0 peers s ->
  List.length (sc_ih (pc_c pc)) = 20%nat -> List.length rsv = 8%nat -> List.length id = 20%nat -> (sockets s < pc_socks pc)%nat ->
  msg_ok (MBitfield b) -> (List.length (wire_of (MBitfield b)) <= RecvBufSize)%nat -> tells (zlen hashes / 20) (MBitfield b) i -> Get (sc_own (pc_c pc)) i = Ok false -> Complete (sc_own (pc_c pc)) = false ->
  ~ crowded (zlen hashes / 20) (map conn_view (p_conns s)) (Key (MakePeer id p port)) (MBitfield b) ->
  let k := List.length (p_conns s) in hdies M pc (map HStep (seeds (pc_c pc) p port rsv id b k) ++ repeat (HMake k) (S (Z.to_nat (M / RequestSize)))) (mkh s a).
Proof. exact seeder_kills. Qed.
Print Assumptions C113_seeder_kills.
(** A case: the swarm that lacks piece 1, and a peer that has pieces 1 and 2. *)
Definition bits12 : bitfield := mkbf [x00; x00; x00; x02; x05]%byte [z2b 96] 1 8 2.
Definition fresh1 : pstate := started tracker3 open_part [].
Lemma fresh1_live : live (zlen hash2 / 20) slow1 open_part [] fresh1.
Proof. exists tracker3, []. split; [reflexivity|]. split; [apply Forall_nil|reflexivity]. Qed.
Example C113_case : swarm_up 2 hash2 two swarm1 [B "xyQ"; B "Qv"] open_part /\ live (zlen hash2 / 20) slow1 open_part [] fresh1 /\ nonempty (sc_ti swarm1) /\
  List.length (sc_ih swarm1) = 20%nat /\ (sockets fresh1 < pc_socks slow1)%nat /\ msg_ok (MBitfield bits12) /\ (List.length (wire_of (MBitfield bits12)) <= RecvBufSize)%nat /\
  tells (zlen hash2 / 20) (MBitfield bits12) 1 /\ Get (sc_own swarm1) 1 = Ok false /\ Complete (sc_own swarm1) = false /\
  ~ crowded (zlen hash2 / 20) (map conn_view (p_conns fresh1)) (Key (MakePeer (peer_id 1) (IPv4 x0a x00 x00 x01) 4000)) (MBitfield bits12).
Proof.
  split; [apply C98_case|]. split; [exact fresh1_live|]. split; [split; vm_compute; discriminate|]. split; [reflexivity|]. split; [vm_compute; lia|]. split; [vm_compute; repeat split; reflexivity|]. split; [vm_compute; lia|].
  split; [exists bits12; repeat split; vm_compute; (reflexivity || discriminate)|]. split; [vm_compute; reflexivity|]. split; [reflexivity|].
  intros (i & ks & _ & _ & _ & Hz & Hk). destruct ks as [|k ks]; [discriminate|]. destruct (proj1 (Hk k) (or_introl eq_refl)) as (x & m & Hx & _). destruct Hx.
Qed.
(** With 60 bytes of memory: two requests fit, beside the handler's buffer; the third does not. *)
Example C113_case_60 : option_map (fun s => (held slow1 s, hstep 60 slow1 (HMake 0) s)) (hrun 60 slow1 (map HStep (seeds swarm1 (IPv4 x0a x00 x00 x01) 4000 (repeat x00 8) (peer_id 1) bits12 0) ++ [HMake 0; HMake 0]%nat) (hstarted tracker3 open_part [])) = Some (58, HDied).
Proof. vm_compute. reflexivity. Qed.
Example C113_case_visitors : hdies 3 slow1 (map HStep (flat_map (visit swarm1 (IPv4 x0a x00 x00 x01) 4000 (repeat x00 8) (peer_id 1)) (seq 0 2))) (mkh fresh1 0).
Proof. apply (C113_visitors 3 2 hash2 two slow1 [B "xyQ"; B "Qv"] open_part (IPv4 x0a x00 x00 x01) 4000 (repeat x00 8) (peer_id 1) 2 fresh1 0); [apply C98_case|reflexivity|reflexivity|reflexivity|vm_compute; lia|vm_compute; discriminate|vm_compute; reflexivity]. Qed.
(** "Some amount of memory is enough" is false of an incomplete process, however few its connections. *)
Theorem C113_memory_refuted : exists pc t w, forall M, 0 <= M -> exists ls, hdies M pc ls (hstarted t w []) /\ (List.length (filter taken_up (steps ls)) <= 1)%nat.
Proof.
  exists slow1, tracker3, open_part. intros M HM. destruct C113_case as (A1 & A2 & A3 & A4 & A5 & A6 & A7 & A8 & A9 & A10 & A11).
  eexists. split; [exact (C113_seeder_kills M 2 hash2 two slow1 [B "xyQ"; B "Qv"] open_part [] (IPv4 x0a x00 x00 x01) 4000 (repeat x00 8) (peer_id 1) bits12 1 fresh1 0 HM (Z.le_refl 0) A3 A1 A2 A4 eq_refl eq_refl A5 A6 A7 A8 A9 A10 A11)|].
  unfold steps. rewrite flat_map_app, filter_app, app_length. match goal with |- (_ + ?x <= _)%nat => replace x with 0%nat end; [vm_compute; lia|].
  generalize (S (Z.to_nat (M / RequestSize))). intros n. induction n as [|n IH]; [reflexivity|exact IH].
Qed.
Print Assumptions C113_memory_refuted.
