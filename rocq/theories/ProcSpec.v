(** ProcSpec.v: three views of a process made of goroutines. *)
From Verif Require Import Base BitfieldModel WireModel WireSpec HandshakeModel HandshakeSpec DsModel PptModel PeerModel FsModel SessionModel SessionSpec RunModel RunSpec ProcModel.
From Verif Require LoopModel ReadLoopModel ReadLoopSpec.

(** ** What RunModel shows: recvLoop has not met an error and was not told to stop *)
Definition receiving (v : vat) : bool :=
  match v with VNew | VSelect | VGot | VWork | VWrite | VLock | VSpin | VAdd | VSend | VReady None => true | _ => false end.
Definition conn_view (g : gconn) : conn :=
  let m := g_m g in mkconn (m_in m) (m_who m) (m_bf m) (m_buf m) (m_todo m) (m_done m) (m_pend m) (receiving (a_recv (g_a g))) (m_up m) (m_out m).
Definition run_view (s : pstate) : sstate := mkss (sh_ppt (p_sh s)) (sh_world (p_sh s)) (map conn_view (p_conns s)).
(** ** What LoopModel shows: the channel operations of Loop and its three goroutines *)
Definition recv_view (v : vat) : LoopModel.vpc :=
  match v with
  | VNew => LoopModel.VNew
  | VSelect | VGot | VWork | VWrite | VLock | VSpin | VAdd | VSend | VHang | VReady None => LoopModel.VSelect
  | VReady (Some _) | VErr _ => LoopModel.VErr
  | VFin1 | VFin2 => LoopModel.VFinish
  | VRet => LoopModel.VRet
  | VEnd => LoopModel.VEnd
  end.
Definition req_view (q : qat) : LoopModel.qpc :=
  match q with QNew => LoopModel.QNew | QLoop _ | QMake _ _ => LoopModel.QLoop | QRet => LoopModel.QRet | QEnd => LoopModel.QEnd end.
Definition loop_view (g : gconn) : LoopModel.st :=
  let a := g_a g in LoopModel.mkst (a_loop a) (a_ping a) (recv_view (a_recv a)) (req_view (a_req a)) (a_procs a).
(** ** What ReadLoopModel shows: Run, recvLoop and the buffer they share *)
Definition con_view (v : vat) (n : nat) : ReadLoopModel.cpc :=
  match v with
  | VNew | VSelect => ReadLoopModel.CSelect
  | VGot | VWork | VWrite | VLock | VSpin | VAdd | VSend | VHang => ReadLoopModel.CProc n
  | VReady e => ReadLoopModel.CReady e
  | VErr e => ReadLoopModel.CSendErr e
  | VFin1 => ReadLoopModel.CFinish1
  | VFin2 => ReadLoopModel.CFinish2
  | VRet | VEnd => ReadLoopModel.CEnd
  end.
Definition read_view (g : gconn) : ReadLoopModel.rl :=
  let h := g_c g in ReadLoopModel.mkrl (c_mem h) (c_buf h) (c_ready h) (c_read h) (con_view (a_recv (g_a g)) (c_len h)).

(** Handshakes are read into 68 bytes. *)
Definition pfair (l : plabel) : Prop := match l with PShake _ _ r _ _ => (List.length (rd_bytes r) <= 68)%nat | _ => True end.
(** The states a process comes to, from what NewSwarm made. *)
Definition live (n : Z) (pc : pconst) (w0 : world) (peers : list info) (s : pstate) : Prop :=
  exists t0 ls, NewPeerPieceTracker n = Ok t0 /\ Forall pfair ls /\ prun pc ls (started t0 w0 peers) = Some s.

(** Everything the connection has delivered was decoded and handled, and every answer written. *)
Definition settled (g : gconn) : Prop :=
  exists ds, c_got (g_c g) = map (fun d => vis (snd d)) ds /\ m_done (g_m g) = flat_map decoded ds /\ m_todo (g_m g) = [] /\ m_pend (g_m g) = [].
(** The bytes recvLoop is about to decode, or has in hand. *)
Definition in_buffer (g : gconn) : bytes := firstn (c_len (g_c g)) (c_mem (g_c g)).
(** Steps on the way of connection k's answers: of its recvLoop and its Run, but no Read; of whoever holds the lock; and the ticker's. *)
Definition on_the_way (k : nat) (l : plabel) : Prop :=
  match l with
  | PTick => True
  | PConn j l =>
    match l with
    | GSpin | GAdd => True
    | GRecvStart | GTakeBuf | GDecode | GHandle | GHandled | GCheck | GLock | GSend _ | GPutReady | GPutBuf => j = k
    | _ => False
    end
  | _ => False
  end.
(** The steps that end the process. *)
Definition pdeadly (P n : Z) (pc : pconst) (s : pstate) (l : plabel) : Prop :=
  match l with
  | PAccept => (pc_socks pc <= sockets s)%nat
  | PConn k GDecode => exists g, nth_error (p_conns s) k = Some g /\ a_recv (g_a g) = VGot /\ exists fuel, DecodeAll fuel (mkslice (in_buffer g) []) = Panic
  | PConn k GHandle => exists g m r, nth_error (p_conns s) k = Some g /\ a_recv (g_a g) = VWork /\ m_todo (g_m g) = m :: r /\
      (deadly_request P n (sc_own (pc_c pc)) m \/ crowded n (map conn_view (p_conns s)) (h_key (m_who (g_m g))) m)
  (* requestLoop runs for the first time when Loop is asleep in Wait and nobody is left to wait for; or has, before Loop sees that it may go on *)
  | PConn k GReqStart => exists g, nth_error (p_conns s) k = Some g /\ a_req (g_a g) = QNew /\ a_loop (g_a g) = LoopModel.LAsleep /\ a_procs (g_a g) = 0%nat
  | PConn k GAwake => exists g, nth_error (p_conns s) k = Some g /\ a_loop (g_a g) = LoopModel.LAwake /\ a_procs (g_a g) <> 0%nat
  | _ => False
  end.
(** Between Lock and Unlock in RateLimitIO.Write. *)
Definition holding (v : vat) : bool := match v with VSpin | VAdd => true | _ => false end.
(** The peer has got at most our greeting and keep-alives. *)
Definition only_greeted (c : sconst) (g : gconn) : Prop :=
  exists n, begins (m_out (g_m g)) (MakeHandshake (sc_ih c) (sc_id c) ++ stream (opening (sc_own c) (conn_view g) ++ repeat MKeepAlive n)).

(** ** Visitors *)
(** A peer connects as the k-th handler's peer, shakes hands, and leaves: Read returns EOF, the handler's goroutines are told, those that can end do. *)
Definition visit (c : sconst) (p : ip) (port : Z) (rsv id : bytes) (k : nat) : list plabel :=
  [PAccept; PShake p port (mkread (handshake_of rsv (sc_ih c) id) false) (HandshakeModel.mkw true true) None] ++
  map (PConn k) [GPingStart; GRecvStart; GReqStart; GDeadline true; GReadRet [] (Some EEOF); GPutErr; GReport; GRecvRet; GPingDone; GPingRet].
(** The connections a process takes up in a run: accepted, or dialled with success. *)
Definition taken_up (l : plabel) : bool := match l with PAccept => true | PDial _ ok _ _ => ok | _ => false end.
(** requestLoop goes round. *)
Definition asking (q : qat) : bool := match q with QLoop _ | QMake _ _ => true | _ => false end.
(** The same peer, but this handler's requestLoop does not get to run until Loop waits in vain for nobody. *)
Definition short_visit (c : sconst) (p : ip) (port : Z) (rsv id : bytes) (k : nat) : list plabel :=
  [PAccept; PShake p port (mkread (handshake_of rsv (sc_ih c) id) false) (HandshakeModel.mkw true true) None] ++
  map (PConn k) [GPingStart; GRecvStart; GDeadline true; GReadRet [] (Some EEOF); GPutErr; GReport; GPingDone; GWait; GRecvRet; GPingRet].
