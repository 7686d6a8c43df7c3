(** LogModel.v: what the process writes to its log (package log of the standard library, on standard error): in NewSwarm, and in the
    steps of ProcModel. *)
From Verif Require Import Base BencodeModel BitfieldModel PptModel PeerModel UtilsModel LayoutModel FsModel SwarmModel TrackerModel WireModel HandshakeModel SessionModel RunModel ProcModel StartModel.
From Verif Require LoopModel ReadLoopModel.

(** The calls of log.Printf and log.Println, with their arguments. *)
Inductive logline :=
| LReading (path : bytes)                      (* swarm.go:47 *)
| LOpening                                     (* swarm.go:59 *)
| LHave (nset nbits : Z)                       (* swarm.go:73 *)
| LGet (announce : bytes)                      (* swarm.go:80 *)
| LBootFail (addr : bytes) (e : goerr)         (* swarm.go:130 *)
| LListening (port : Z)                        (* swarm.go:145 *)
| LNewClient (addr : bytes)                    (* swarm.go:154 *)
| LInFail (e : goerr)                          (* swarm.go:159 *)
| LDecoded (read len : Z) (addr : bytes)       (* msghandler.go:15 *)
| LRegistered                                  (* msghandler.go:53 *)
| LGood (addr : bytes)                         (* peerhandler.go:94 *)
| LSentHs (addr : bytes)                       (* peerhandler.go:102 *)
| LSentBf (addr : bytes)                       (* peerhandler.go:110 *)
| LUnchoke (e : goerr)                         (* peerhandler.go:154 *)
| LKilling (who : bytes) (e : goerr)           (* peerhandler.go:174 *)
| LDone (addr : bytes)                         (* peerhandler.go:183 *)
| LEndRecv (who : bytes)                       (* peerhandler.go:202 *)
| LStartRecv (who : bytes)                     (* peerhandler.go:203 *)
| LStartReq (who : bytes)                      (* peerhandler.go:235 *)
| LEndReq (who : bytes)                        (* peerhandler.go:236 *)
| LEndPing (who : bytes)                       (* peerhandler.go:290 *)
| LStartPing (addr : bytes)                    (* peerhandler.go:292 *)
| LPingErr (addr : bytes)                      (* peerhandler.go:306 *)
| LPinged (addr : bytes)                       (* peerhandler.go:309 *)
| LStartRead (addr : bytes)                    (* readloop.go:66 *)
| LEndRead (addr : bytes).                     (* readloop.go:67 *)

(** How the arguments look that are not modelled: %v of an error and of a percentage. *)
Record looks := mklooks { err_text : goerr -> bytes; percent : Z -> Z -> bytes }.
(** The formatted strings, where they are written in the code (see above). *)
Definition text (k : looks) (l : logline) : bytes :=
  match l with
  | LReading p => B "reading torrent file [" ++ p ++ B "]" ++ [x0a]
  | LOpening => B "openning and validating files"
  | LHave a b => B "have " ++ itoa a ++ B "/" ++ itoa b ++ B " (" ++ percent k a b ++ B "%) pieces"
  | LGet u => B "sending get to tracker [" ++ u ++ B "]" ++ [x0a]
  | LBootFail a e => B "failed to bootstrap " ++ a ++ B " : " ++ err_text k e
  | LListening p => B "Listening on port " ++ itoa p ++ [x0a]
  | LNewClient a => B "new client @ " ++ a
  | LInFail e => err_text k e ++ [x0a]
  | LDecoded r n a => B "Decoded " ++ itoa r ++ B "/" ++ itoa n ++ B " (" ++ percent k r n ++ B "%) bytes from " ++ a ++ [x0a]
  | LRegistered => B "registered bitfield"
  | LGood a => B "good handshake from " ++ a
  | LSentHs a => B "Sent " ++ a ++ B " handshake" ++ [x0a]
  | LSentBf a => B "Sent " ++ a ++ B " bitfield" ++ [x0a]
  | LUnchoke e => B "error unchoking: " ++ err_text k e ++ [x0a]
  | LKilling w e => B "error peer [" ++ w ++ B "] (killing): " ++ err_text k e
  | LDone a => B "peer " ++ a ++ B " done"
  | LEndRecv w => B "end recvLoop [" ++ w ++ B "]"
  | LStartRecv w => B "start recvLoop [" ++ w ++ B "]"
  | LStartReq w => B "start requestLoop [" ++ w ++ B "]"
  | LEndReq w => B "end requestLoop [" ++ w ++ B "]"
  | LEndPing w => B "end pingLoop [" ++ w ++ B "]"
  | LStartPing a => B "start pingLoop " ++ a
  | LPingErr a => B "error with keep alive to " ++ a
  | LPinged a => B "sent keep alive to " ++ a
  | LStartRead a => B "started read loop for " ++ a
  | LEndRead a => B "ended read loop for " ++ a
  end.
(** log.Logger.Output (package log): a header with date and time (here: any bytes), the string, and a newline unless the string
    ends in one. One Write, under the logger's mutex. *)
Definition output (stamp s : bytes) : bytes := stamp ++ s ++ match rev s with x0a :: _ => [] | _ => [x0a] end%byte.

(** net.TCPAddr.String of an address without a zone: net.JoinHostPort of the IP, "" for none, and the port. *)
Definition TCPAddrString (p : ip) (port : Z) : bytes :=
  let h := match p with [] => [] | _ => IPString p end in
  (if has ":" h then B "[" ++ h ++ B "]" else h) ++ B ":" ++ itoa port.

(** ** NewSwarm *)
Definition lio (A : Type) := world -> res A * list logline * world.
Definition quiet {A} (m : io A) : lio A := fun w => let '(r, w') := m w in (r, [], w').
Definition say (l : logline) : lio unit := fun w => (Ok tt, [l], w).
Definition lbind {A B} (m : lio A) (f : A -> lio B) : lio B := fun w =>
  match m w with
  | (Ok a, l, w1) => let '(r, l2, w2) := f a w1 in (r, l ++ l2, w2)
  | (Err e, l, w1) => (Err e, l, w1)
  | (Panic, l, w1) => (Panic, l, w1)
  | (NoFuel, l, w1) => (NoFuel, l, w1)
  end.
Notation "'logged' x <- m ; f" := (lbind m (fun x => f)) (at level 200, x name, m at level 100, f at level 200).
(** swarm.go:39-96 NewSwarm, with its log. *)
Definition NewSwarm_logged (sha1 : bytes -> bytes) (n : net) (src : nat -> Z) (fuel : nat) (sp : bytes) (o : Opts) : lio swarm :=
  logged id <- quiet (lift (NewPeerId src fuel));
  logged u <- say (LReading (o_input o));
  logged fdata <- quiet (os_readfile (o_input o) sp);
  logged tor <- quiet (lift (FromTorrentFile sha1 fdata (o_wd o)));
  logged u <- quiet NewFileIO;
  logged u <- say LOpening;
  logged u <- quiet (OCATAll (ti_files (t_info tor)));
  logged b0 <- quiet (lift (NewBitfield (ti_npieces (t_info tor))));
  logged b <- quiet (Validate sha1 (t_info tor) b0);
  logged u <- say (LHave (Nset b) (Nbits b));
  let st := NewStats 0 0 0 in
  logged u <- say (LGet (t_announce tor));
  logged resp <- quiet (lift (tracker_Get n tor st (OptPort o) id));
  logged t <- quiet (lift (NewPeerPieceTracker (u32 (ti_npieces (t_info tor)))));
  quiet (ret (mksw id (OptPort o) tor b st (r_state resp) (r_peers resp) (SetRate (o_uplim o)) (SetRate (o_dnlim o)) t)).

(** ** The process *)
(** What connection k's step l from g to g' logs; [i] is the handler's peer and [a] its conn.RemoteAddr().String(). A line of a
    goroutine that stands between two of ProcModel's steps of that goroutine is with the step before it; "started read loop" is with
    Run's first SetReadDeadline. *)
Definition glog (pc : pconst) (i : info) (a : bytes) (sh : shared) (g : gconn) (l : glabel) (g' : gconn) : list logline :=
  let h := g_c g in
  match l with
  | GPingStart => [LStartPing (Addr i)]
  | GPingTick None => [LPinged (Addr i)]
  (* 172-174 Loop has the error; 305-309 then pingLoop goes on *)
  | GPingErr => [LKilling (Key i) EIO; LPingErr (Addr i); LPinged (Addr i)]
  | GPingRet => [LEndPing (Key i)]
  | GRecvStart => [LStartRecv (Key i)]
  | GDecode =>
    match DecodeAll decode_fuel (mkslice (firstn (c_len h) (c_mem h)) (skipn (c_len h) (c_mem h))) with
    | Ok (_, read) => [LDecoded read (Z.of_nat (c_len h)) (Addr i)]
    | _ => []
    end
  | GHandle =>
    match m_todo (g_m g) with
    | MBitfield b :: _ =>
      match handleBitfield (sh_ppt sh) (sc_own (pc_c pc)) (ti_npieces (sc_ti (pc_c pc))) (m_who (g_m g)) (m_bf (g_m g)) b with
      | (Ok _, _, _) => [LRegistered]
      | _ => []
      end
    | _ => []
    end
  | GReport => match a_recv (g_a g) with VErr e => [LKilling (Key i) e] | _ => [] end
  | GRecvRet => [LEndRecv (Key i)]
  | GDeadline _ => match c_got h with [] => [LStartRead a] | _ => [] end
  | GTakeDone | GPutErr => [LEndRead a]
  | GReqStart => [LStartReq (Key i)]
  | GReqRet => [LEndReq (Key i)]
  | _ => []
  end ++
  (* 170, 183: Loop has ended *)
  match a_loop (g_a g), a_loop (g_a g') with LoopModel.LEnd, _ => [] | _, LoopModel.LEnd => [LDone (Addr i)] | _, _ => [] end.

(** A line, and the connection whose goroutines wrote it. *)
Definition entry := (option nat * logline)%type.
(** [w_p]: the process; [w_who]: the peers of its handlers, and the addresses of their connections. *)
Record wstate := mkwst { w_p : pstate; w_who : list (info * bytes) }.
(** The listener's part: the address of each connection accepted comes with the step. *)
Inductive wlabel := WAccept (p : ip) (port : Z) | WDo (l : plabel).
Definition erase (l : wlabel) : plabel := match l with WAccept _ _ => PAccept | WDo l => l end.
(** 154, after the handshake *)
Definition unchoking (u : option nat) : list logline := match u with None => [] | Some _ => [LUnchoke EIO] end.
(** 93-110, 159: FromIncoming. *)
Definition in_log (c : sconst) (a : bytes) (r : first_read) (wr : writes_ok) (u : option nat) : list logline :=
  match in_peer (FromIncoming (sc_ih c) (sc_id c) (sc_own c) r wr) with
  | Ok _ => [LGood a; LSentHs a; LSentBf a] ++ unchoking u
  | Err EHandshake => [LInFail EHandshake]
  | Err e => if rd_err r then [LInFail e] else LGood a :: (if w_handshake wr then [LSentHs a] else []) ++ [LInFail e]
  | _ => []
  end.
Inductive wout := WBlocked | WDied | WWent (s : wstate) (log : list entry).
Definition wstep (pc : pconst) (l : wlabel) (s : wstate) : wout :=
  let p := w_p s in
  match pstep pc (erase l) p with
  | PBlocked => WBlocked
  | PDied => WDied
  | PWent p' =>
    let k := List.length (p_conns p) in
    let new i a log := WWent (mkwst p' (w_who s ++ [(i, a)])) (map (pair (Some k)) log) in
    let old log := WWent (mkwst p' (w_who s)) (map (pair None) log) in
    match l with
    | WAccept q port => old [LNewClient (TCPAddrString q port)]
    | WDo (PShake q port r wr u) =>
      match in_peer (FromIncoming (sc_ih (pc_c pc)) (sc_id (pc_c pc)) (sc_own (pc_c pc)) r wr) with
      | Ok id => new (MakePeer id q port) (TCPAddrString q port) (in_log (pc_c pc) (TCPAddrString q port) r wr u)
      | _ => old (in_log (pc_c pc) (TCPAddrString q port) r wr u)
      end
    | WDo (PDial i ok hs u) =>
      match nth_error (p_dial p) i with
      | Some d => if ok && hs then new d (TCPAddrString (pi_ip d) (pi_port d)) (unchoking u) else old [LBootFail (Addr d) EIO]
      | None => WBlocked
      end
    | WDo (PConn j gl) =>
      match nth_error (p_conns p) j, nth_error (p_conns p') j, nth_error (w_who s) j with
      | Some g, Some g', Some (i, a) => WWent (mkwst p' (w_who s)) (map (pair (Some j)) (glog pc i a (p_sh p) g gl g'))
      | _, _, _ => WBlocked
      end
    | WDo PAccept => WBlocked                   (* see WAccept *)
    | WDo _ => old []
    end
  end.
Fixpoint wrun (pc : pconst) (ls : list wlabel) (s : wstate) : option (wstate * list entry) :=
  match ls with
  | [] => Some (s, [])
  | l :: r =>
    match wstep pc l s with
    | WWent s1 e1 => match wrun pc r s1 with Some (s2, e2) => Some (s2, e1 ++ e2) | None => None end
    | _ => None
    end
  end.
(** swarm.go:145: the process, the listener listening. *)
Definition wstarted (t : ppt) (w : world) (peers : list info) : wstate := mkwst (started t w peers) [].
(** The bytes of the log; [stamps]: the headers. *)
Fixpoint log_bytes (k : looks) (stamps : list bytes) (es : list logline) : bytes :=
  match es, stamps with
  | e :: r, st :: q => output st (text k e) ++ log_bytes k q r
  | _, _ => []
  end.
