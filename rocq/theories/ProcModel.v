(** ProcModel.v: the whole process after Start (src/swarm/swarm.go), goroutine by goroutine: the listener, the goroutines that dial,
    and for every connection Loop, pingLoop, recvLoop, requestLoop (src/swarm/peerhandler.go) and ReadLoop.Run
    (src/io/readloop.go), with the channels between them, the write limiter they share (src/io/ratelimit.go), the tracker, the
    files and the sockets. One step is one channel operation, one system call, or what a goroutine does on its own between two.
    Calls on the tracker are single steps because of its mutex (C90); the files are only read (C78). *)
From Verif Require Import Base BitfieldModel WireModel HandshakeModel LayoutModel DsModel PptModel PeerModel FsModel SwarmModel SessionModel RunModel.
From Verif Require LoopModel ReadLoopModel TimeModel.

(** peerhandler.go:188-228 where recvLoop is, in handleMessage and RateLimitIO.Write included. *)
Inductive vat :=
| VNew                       (* 199: created, not running yet *)
| VSelect                    (* 212: the select *)
| VGot                       (* msghandler.go:13: about to decode *)
| VWork                      (* msghandler.go:17: about to handle the next message, or done *)
| VWrite                     (* msghandler.go:69, ratelimit.go:91: in RLIO.Write, before the first check *)
| VLock                      (* ratelimit.go:100: waiting for wlock *)
| VSpin                      (* ratelimit.go:103-107: holding it, waiting for wUsed < wRate *)
| VAdd                       (* ratelimit.go:109-110: about to add and unlock *)
| VSend                      (* ratelimit.go:92 or 113: in conn.Write *)
| VHang                      (* msghandler.go:13: DecodeAll does not come back *)
| VReady (e : option goerr)  (* 215: readLoop.Ready() *)
| VErr (e : goerr)           (* 224: chErr <- e *)
| VFin1                      (* readloop.go:55, called from 219 *)
| VFin2                      (* readloop.go:58 *)
| VRet                       (* 228: leaving; procs.Done() is still to come *)
| VEnd.
(** peerhandler.go:231-263 where requestLoop is; n: len(reqs). *)
Inductive qat :=
| QNew
| QLoop (n : nat)            (* 241-245 *)
| QMake (i : Z) (n : nat)    (* 253: in createReqMessages(i) *)
| QRet | QEnd.

(** What a handler and its connection hold (peerhandler.go:33-43): as in RunModel, except that nothing says whether recvLoop runs. *)
Record mem := mkmem { m_in : bool; m_who : handler; m_bf : bitfield; m_buf : gslice; m_todo : list msg; m_done : list msg;
                      m_pend : list bytes; m_up : bool; m_out : bytes }.
(** Where its goroutines are, and the WaitGroup's counter. *)
Record pcs := mkpc { a_loop : LoopModel.lpc; a_ping : LoopModel.ppc; a_recv : vat; a_req : qat; a_procs : nat }.
(** Its ReadLoop (readloop.go:14-23): the buffer, chBuf, chReady, where Run is; the length of the slice recvLoop has received
    last; and, for the record, what conn.Read has returned. *)
Record chans := mkch { c_mem : bytes; c_buf : option nat; c_ready : bool; c_read : ReadLoopModel.rpc; c_len : nat; c_got : list bytes }.
Record gconn := mkg { g_m : mem; g_a : pcs; g_c : chans }.

(** What all goroutines share: the tracker, the files, wUsed and wlock (and who holds it). wUsed does not wrap here. *)
Record shared := mksh { sh_ppt : ppt; sh_world : world; sh_used : Z; sh_lock : option nat }.
(** [pc_rate]: wRate, set once in NewSwarm (swarm.go:90). [pc_socks]: how many sockets the process may have open besides the listener's. *)
Record pconst := mkpconst { pc_c : sconst; pc_rate : Z; pc_socks : nat }.

(** One step of one connection's goroutines. *)
Inductive glabel :=
(* Loop: 176 it calls procs.Wait(); the last Done wakes it; Wait returns or panics (LoopModel) *)
| GWait | GRelease | GAwake
(* pingLoop: starts; 302-304 writes a keep-alive (None) or fails after n bytes; 305 its error is received; 310 it is told to stop; returns *)
| GPingStart | GPingTick (f : option nat) | GPingErr | GPingDone | GPingRet
(* recvLoop: starts; 213 receives a buffer; decodes; handles a message; 214 handleMessage returns nil *)
| GRecvStart | GTakeBuf | GDecode | GHandle | GHandled
(* RLIO.Write: 91 the check; 100 Lock; 104 wUsed < wRate; 109-110 add and unlock; the write succeeds or fails after n bytes *)
| GCheck | GLock | GSpin | GAdd | GSend (f : option nat)
(* 215 Ready; 224 the error is received; 218 told to stop; readloop.go:58; returns *)
| GPutReady | GReport | GKill | GPast | GRecvRet
(* Run: as in ReadLoopModel *)
| GDeadline (ok : bool) | GScribble (b : bytes) | GReadRet (d : bytes) (e : option goerr) | GPutBuf | GTakeReady | GTakeDone | GPutErr
(* requestLoop: starts; 245 NextPiece; 253 createReqMessages returns; 241 the loop ends; returns *)
| GReqStart | GReqNext | GReqMade (fuel : nat) | GReqExit | GReqRet.

(** peerhandler.go:20; enough steps for DecodeAll on a buffer of that size, unless it never stops (C17). *)
Definition RecvBufSize : nat := 16384.
Definition decode_fuel : nat := S RecvBufSize.
(** peerhandler.go:117-128 and 142-161 up to the select; the unchoke (150-155) is written or fails after so many bytes, which is only logged. *)
Definition fresh_conn (c : sconst) (inc : bool) (ptr : nat) (key sent : bytes) (u : option nat) : res gconn :=
  do bf <- NewBitfield (ti_npieces (sc_ti c));
  Ok (mkg (mkmem inc (PptModel.mkh ptr key) bf (mkslice (FsModel.zeros (ti_plen (sc_ti c))) []) [] [] []
             (match u with None => true | Some _ => false end)
             (sent ++ match u with None => EncodeMsg MUnchoke | Some n => firstn n (EncodeMsg MUnchoke) end))
          (mkpc LoopModel.LSelect LoopModel.PNew VNew QNew 0)
          (mkch (FsModel.zeros (Z.of_nat RecvBufSize)) None false ReadLoopModel.RTop 0 [])).

Inductive gout := GBlocked | GDied | GWent (sh : shared) (g : gconn).

Definition recv_at (a : pcs) (v : vat) : pcs := mkpc (a_loop a) (a_ping a) v (a_req a) (a_procs a).
Definition req_at (a : pcs) (q : qat) : pcs := mkpc (a_loop a) (a_ping a) (a_recv a) q (a_procs a).
Definition tx (m : mem) (pend : list bytes) (up : bool) (out : bytes) : mem :=
  mkmem (m_in m) (m_who m) (m_bf m) (m_buf m) (m_todo m) (m_done m) pend up out.
Definition rx (m : mem) (bf : bitfield) (buf : gslice) (todo done : list msg) (pend : list bytes) : mem :=
  mkmem (m_in m) (m_who m) bf buf todo done pend (m_up m) (m_out m).
Definition read_at (c : chans) (r : ReadLoopModel.rpc) : chans := mkch (c_mem c) (c_buf c) (c_ready c) r (c_len c) (c_got c).

Definition gstep (pc : pconst) (k : nat) (sh : shared) (g : gconn) (l : glabel) : gout :=
  let c := pc_c pc in
  let m := g_m g in let a := g_a g in let h := g_c g in
  let L := a_loop a in let P := a_ping a in let V := a_recv a in let Q := a_req a in let n := a_procs a in
  let go m' a' h' := GWent sh (mkg m' a' h') in
  match l with
  (* Loop. 179, the send on the nil channel ph.chErr, has no step. *)
  | GWait => match L with LoopModel.LWait => go m (mkpc (match n with O => LoopModel.LSendUp | S _ => LoopModel.LAsleep end) P V Q n) h | _ => GBlocked end
  | GRelease => match L, n with LoopModel.LAsleep, O => go m (mkpc LoopModel.LAwake P V Q n) h | _, _ => GBlocked end
  | GAwake => match L with LoopModel.LAwake => if LoopModel.wait_panics L n then GDied else go m (mkpc LoopModel.LSendUp P V Q n) h | _ => GBlocked end
  (* pingLoop *)
  | GPingStart => match P with LoopModel.PNew => if LoopModel.add_panics L n then GDied else go m (mkpc L LoopModel.PSelect V Q (S n)) h | _ => GBlocked end
  | GPingTick f =>
    match P, f with
    | LoopModel.PSelect, None => if m_up m then go (tx m (m_pend m) true (m_out m ++ keepalive)) a h else GBlocked
    | LoopModel.PSelect, Some b => go (tx m (m_pend m) false (m_out m ++ if m_up m then firstn b keepalive else [])) (mkpc L LoopModel.PErr V Q n) h
    | _, _ => GBlocked
    end
  | GPingErr => match P, L with LoopModel.PErr, LoopModel.LSelect => go m (mkpc LoopModel.LSendDone LoopModel.PRet V Q n) h | _, _ => GBlocked end
  | GPingDone => match P, L with LoopModel.PSelect, LoopModel.LSendDone => go m (mkpc LoopModel.LWait LoopModel.PRet V Q n) h | _, _ => GBlocked end
  | GPingRet => match P with LoopModel.PRet => go m (mkpc L LoopModel.PEnd V Q (pred n)) h | _ => GBlocked end
  (* recvLoop *)
  | GRecvStart => match V with VNew => if LoopModel.add_panics L n then GDied else go m (mkpc L P VSelect Q (S n)) h | _ => GBlocked end
  | GTakeBuf =>
    match V, c_buf h with
    | VSelect, Some b => go m (recv_at a VGot) (mkch (c_mem h) None (c_ready h) (c_read h) b (c_got h))
    | _, _ => GBlocked
    end
  | GDecode =>
    match V with
    | VGot =>
      match DecodeAll decode_fuel (mkslice (firstn (c_len h) (c_mem h)) (skipn (c_len h) (c_mem h))) with
      | Panic => GDied
      | Ok (ms, _) => go (rx m (m_bf m) (m_buf m) ms (m_done m) []) (recv_at a VWork) h
      | _ => go (rx m (m_bf m) (m_buf m) [] (m_done m) []) (recv_at a VHang) h
      end
    | _ => GBlocked
    end
  | GHandle =>
    match V, m_todo m with
    | VWork, x :: r =>
      match handle_msg (mkhc (sc_ti c) (sc_own c) (m_who m)) x (mkhs (sh_ppt sh) (m_bf m) (m_buf m) (sh_world sh)) with
      | (Panic, _, _) => GDied
      | (Ok _, out, s) =>
        GWent (mksh (hs_ppt s) (hs_world s) (sh_used sh) (sh_lock sh))
              (mkg (rx m (hs_bf s) (hs_buf s) r (m_done m ++ [x]) out) (recv_at a (match out with [] => VWork | _ => VWrite end)) h)
      | (Err e, out, s) =>
        GWent (mksh (hs_ppt s) (hs_world s) (sh_used sh) (sh_lock sh))
              (mkg (rx m (hs_bf s) (hs_buf s) [] (m_done m ++ [x]) out) (recv_at a (VReady (Some e))) h)
      | (NoFuel, out, s) =>
        GWent (mksh (hs_ppt s) (hs_world s) (sh_used sh) (sh_lock sh))
              (mkg (rx m (hs_bf s) (hs_buf s) [] (m_done m ++ [x]) out) (recv_at a VHang) h)
      end
    | _, _ => GBlocked
    end
  | GHandled => match V, m_todo m with VWork, [] => go m (recv_at a (VReady None)) h | _, _ => GBlocked end
  (* RateLimitIO.Write *)
  | GCheck => match V with VWrite => go m (recv_at a (if pc_rate pc =? -1 then VSend else VLock)) h | _ => GBlocked end
  | GLock =>
    match V, sh_lock sh with
    | VLock, None => GWent (mksh (sh_ppt sh) (sh_world sh) (sh_used sh) (Some k)) (mkg m (recv_at a VSpin) h)
    | _, _ => GBlocked
    end
  | GSpin => match V with VSpin => if sh_used sh <? pc_rate pc then go m (recv_at a VAdd) h else GBlocked | _ => GBlocked end
  | GAdd =>
    match V, m_pend m with
    | VAdd, f :: _ => GWent (mksh (sh_ppt sh) (sh_world sh) (sh_used sh + zlen f) None) (mkg m (recv_at a VSend) h)
    | _, _ => GBlocked
    end
  | GSend None =>
    match V, m_pend m with
    | VSend, f :: r => if m_up m then go (tx m r true (m_out m ++ f)) (recv_at a (match r with [] => VWork | _ => VWrite end)) h else GBlocked
    | _, _ => GBlocked
    end
  | GSend (Some b) =>
    match V, m_pend m with
    | VSend, f :: r => go (tx m [] false (m_out m ++ if m_up m then firstn b f else [])) (recv_at a (VReady (Some EIO))) h
    | _, _ => GBlocked
    end
  | GPutReady =>
    match V, c_ready h with
    | VReady e, false => go m (recv_at a (match e with Some x => VErr x | None => VSelect end)) (mkch (c_mem h) (c_buf h) true (c_read h) (c_len h) (c_got h))
    | _, _ => GBlocked
    end
  | GReport => match V, L with VErr _, LoopModel.LSelect => go m (mkpc LoopModel.LSendDone P VRet Q n) h | _, _ => GBlocked end
  | GKill => match V, L with VSelect, LoopModel.LSendDone => go m (mkpc LoopModel.LWait P VFin1 Q n) h | _, _ => GBlocked end
  | GPast => match V with VFin2 => go m (recv_at a VRet) h | _ => GBlocked end
  | GRecvRet => match V with VRet => go m (mkpc L P VEnd Q (pred n)) h | _ => GBlocked end
  (* ReadLoop.Run, which recvLoop starts (206) *)
  | GDeadline ok =>
    match V, c_read h with
    | VNew, _ => GBlocked
    | _, ReadLoopModel.RTop => go m a (read_at h (if ok then ReadLoopModel.RRead else ReadLoopModel.RSendErr (Some EInvalid)))
    | _, _ => GBlocked
    end
  | GScribble b =>
    match c_read h with
    | ReadLoopModel.RRead => if Nat.eqb (List.length b) (List.length (c_mem h)) then go m a (mkch b (c_buf h) (c_ready h) (c_read h) (c_len h) (c_got h)) else GBlocked
    | _ => GBlocked
    end
  | GReadRet d e =>
    match c_read h with
    | ReadLoopModel.RRead =>
      if Nat.leb (List.length d) (List.length (c_mem h)) then
        let b := ReadLoopModel.overwrite (c_mem h) d in
        match d, e with
        | _ :: _, None => go m a (mkch b (c_buf h) (c_ready h) (ReadLoopModel.RSendBuf (List.length d)) (c_len h) (c_got h ++ [d]))
        | _, _ => go m a (mkch b (c_buf h) (c_ready h) (ReadLoopModel.RSendErr e) (c_len h) (c_got h))
        end
      else GBlocked
    | _ => GBlocked
    end
  | GPutBuf =>
    match c_read h, c_buf h with
    | ReadLoopModel.RSendBuf b, None => go m a (mkch (c_mem h) (Some b) (c_ready h) ReadLoopModel.RSelect (c_len h) (c_got h))
    | _, _ => GBlocked
    end
  | GTakeReady =>
    match c_read h, c_ready h with
    | ReadLoopModel.RSelect, true => go m a (mkch (c_mem h) (c_buf h) false ReadLoopModel.RTop (c_len h) (c_got h))
    | _, _ => GBlocked
    end
  | GTakeDone => match c_read h, V with ReadLoopModel.RSelect, VFin1 => go m (recv_at a VFin2) (read_at h ReadLoopModel.REnd) | _, _ => GBlocked end
  | GPutErr =>
    match c_read h, V with
    | ReadLoopModel.RSendErr e, VSelect => go m (recv_at a (match e with Some x => VErr x | None => VRet end)) (read_at h ReadLoopModel.REnd)
    | _, _ => GBlocked
    end
  (* requestLoop *)
  | GReqStart => match Q with QNew => if LoopModel.add_panics L n then GDied else go m (mkpc L P V (QLoop 0) (S n)) h | _ => GBlocked end
  | GReqNext =>
    match Q with
    | QLoop i =>
      if Complete (sc_own c) then GBlocked else if Nat.ltb i 5 then
        match NextPiece (sh_ppt sh) (sc_own c) (m_who m) with
        | Ok (x, ok, t) => GWent (mksh t (sh_world sh) (sh_used sh) (sh_lock sh)) (mkg m (req_at a (if ok then QMake x i else QLoop i)) h)
        | Panic => GDied
        | _ => GBlocked
        end
      else GBlocked
    | _ => GBlocked
    end
  (* 254-258: with messages to send it would write them; C49: there are none *)
  | GReqMade fuel =>
    match Q with
    | QMake x i => match createReqMessages fuel (sc_ti c) x with Ok [] => go m (req_at a (QLoop (S i))) h | _ => GBlocked end
    | _ => GBlocked
    end
  | GReqExit => match Q with QLoop _ => if Complete (sc_own c) then go m (req_at a QRet) h else GBlocked | _ => GBlocked end
  | GReqRet => match Q with QRet => go m (mkpc L P V QEnd (pred n)) h | _ => GBlocked end
  end.

(** The process. [p_shake]: connections accepted and in FromIncoming. [p_drop]: sockets that FromIncoming or FromBootstrap has
    left behind after an error; nobody has them any more, and the garbage collector's finalizer closes them some time.
    [p_conns]: every handler ever made, in order; nobody closes its connection, so that its socket is open as long as its Loop
    holds it. [p_dial]: peers still to be dialled (swarm.go:126). *)
Record pstate := mkps { p_sh : shared; p_shake : nat; p_drop : nat; p_dial : list info; p_conns : list gconn }.
Definition looping (g : gconn) : bool := match a_loop (g_a g) with LoopModel.LEnd => false | _ => true end.
Definition sockets (s : pstate) : nat := p_shake s + p_drop s + List.length (filter looping (p_conns s)).

Inductive plabel :=
| PAccept                                                                (* swarm.go:150 Accept returns *)
| PShake (p : ip) (port : Z) (r : first_read) (wr : writes_ok) (u : option nat)  (* 157: FromIncoming, then Loop up to its select *)
| PDial (i : nat) (ok hs : bool) (u : option nat)                        (* 128: FromBootstrap of the i-th peer left: Dial, the handshake's Write *)
| PCollect                                                               (* a finalizer closes a socket *)
| PTick                                                                  (* ratelimit.go:61, 70 *)
| PConn (k : nat) (l : glabel).
Inductive pout := PBlocked | PDied | PWent (s : pstate).

Definition new_handler (s : pstate) (shake : nat) (dial : list info) (r : res gconn) : pout :=
  match r with
  | Ok g => PWent (mkps (p_sh s) shake (p_drop s) dial (p_conns s ++ [g]))
  | Panic => PDied
  | _ => PBlocked
  end.
Definition pstep (pc : pconst) (l : plabel) (s : pstate) : pout :=
  let c := pc_c pc in
  match l with
  (* 150-153: with no descriptor left Accept fails, and its error is a panic *)
  | PAccept => if Nat.ltb (sockets s) (pc_socks pc) then PWent (mkps (p_sh s) (S (p_shake s)) (p_drop s) (p_dial s) (p_conns s)) else PDied
  | PShake p port r wr u =>
    match p_shake s with
    | O => PBlocked
    | S n =>
      let f := FromIncoming (sc_ih c) (sc_id c) (sc_own c) r wr in
      match in_peer f with
      | Ok id => new_handler s n (p_dial s) (fresh_conn c true (List.length (p_conns s)) (Key (MakePeer id p port)) (in_sent f) u)
      (* peerhandler.go:91: closed only after a wrong handshake *)
      | Err _ => PWent (mkps (p_sh s) n (if TimeModel.closes (sc_ih c) r then p_drop s else S (p_drop s)) (p_dial s) (p_conns s))
      | Panic => PDied
      | NoFuel => PBlocked
      end
    end
  | PDial i ok hs u =>
    match nth_error (p_dial s) i with
    | None => PBlocked
    | Some p =>
      let rest := firstn i (p_dial s) ++ skipn (S i) (p_dial s) in
      if ok then
        if Nat.ltb (sockets s) (pc_socks pc) then
          if hs then new_handler s (p_shake s) rest (fresh_conn c false (List.length (p_conns s)) (Key p) (FromBootstrap_sent (sc_ih c) (sc_id c)) u)
          else PWent (mkps (p_sh s) (p_shake s) (S (p_drop s)) rest (p_conns s))
        else PBlocked
      else PWent (mkps (p_sh s) (p_shake s) (p_drop s) rest (p_conns s))
    end
  | PCollect => match p_drop s with O => PBlocked | S n => PWent (mkps (p_sh s) (p_shake s) n (p_dial s) (p_conns s)) end
  | PTick => PWent (mkps (mksh (sh_ppt (p_sh s)) (sh_world (p_sh s)) 0 (sh_lock (p_sh s))) (p_shake s) (p_drop s) (p_dial s) (p_conns s))
  | PConn k l =>
    match nth_error (p_conns s) k with
    | None => PBlocked
    | Some g =>
      match gstep pc k (p_sh s) g l with
      | GBlocked => PBlocked
      | GDied => PDied
      | GWent sh g' => PWent (mkps sh (p_shake s) (p_drop s) (p_dial s) (lupd (p_conns s) k g'))
      end
    end
  end.
(** Runs in which the process lives on. *)
Fixpoint prun (pc : pconst) (ls : list plabel) (s : pstate) : option pstate :=
  match ls with
  | [] => Some s
  | l :: r => match pstep pc l s with PWent s' => prun pc r s' | _ => None end
  end.
(** swarm.go:120-136 Start, with what NewSwarm has made. *)
Definition started (t : ppt) (w : world) (peers : list info) : pstate := mkps (mksh t w 0 None) 0 0 peers [].
