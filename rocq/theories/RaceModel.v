(** RaceModel.v: the memory accesses and synchronisations of the running process, step by step of ProcModel. The steps say who does
    what; here is which memory the code of each step reads and writes, and which locks, channels and go statements it uses. *)
From Verif Require Import Base BitfieldModel WireModel HandshakeModel LayoutModel PptModel PeerModel FsModel SwarmModel SessionModel RunModel ProcModel RaceSpec.
From Verif Require LoopModel ReadLoopModel TimeModel.

(** log.Printf and log.Println lock a mutex inside package log. That is not promised, so both ways are modelled. *)
Definition lg (logs : bool) (g : gid) : trace := if logs then [(g, Lk MLog); (g, Ul MLog)] else [].
Definition by_ (g : gid) (l : list act) : trace := map (fun a => (g, a)) l.

(** peerhandler.go:117-128 NewPeerHandler for the k-th handler, and 142-163 Loop as far as its select. *)
Definition made_by (g : gid) (k : nat) : trace := by_ g [Rd XSwarm; Wr (XPeer k); Wr (XBf k); Wr (XBuf k)].
Definition loop_starts (logs : bool) (g : gid) (k : nat) (u : option nat) : trace :=
  by_ g [Rd (XPeer k)] ++ match u with Some _ => lg logs g | None => [] end ++ by_ g [Go (GPing k); Go (GRecv k); Go (GReq k)].
(** peerhandler.go:70-115 FromIncoming, which succeeds, then swarm.go:161-162. MsgBitfield.Encode (p2p/bitfield.go:43-47) fills in
    the first five bytes of the array it shares with swarm.Bf, and conn.Write reads them. *)
Definition greeted (logs : bool) (g : gid) (k : nat) (u : option nat) : trace :=
  by_ g [Rd XSwarm] ++ lg logs g ++ lg logs g ++ by_ g [Rd XSwarm; Wr XHead; Rd XHead] ++ lg logs g ++ made_by g k ++
  by_ g [Rd XPhs; Wr XPhs] ++ loop_starts logs g k u.
(** The same when it fails (swarm.go:159). [shook]: the handshake was right. [sent]: ours was written, so that it is the bitfield that was not. *)
Definition turned_away (logs : bool) (g : gid) (shook sent : bool) : trace :=
  by_ g [Rd XSwarm] ++ (if shook then lg logs g ++ (if sent then lg logs g ++ by_ g [Rd XSwarm; Wr XHead; Rd XHead] else []) else []) ++ lg logs g.

(** msghandler.go:17-29: one message. A piece message may still refer to the receive buffer. *)
Definition handles (logs : bool) (c : sconst) (k : nat) (m : msg) : trace :=
  by_ (GRecv k) [Rd (XPeer k); Rd XSwarm; Rd (XRecv k)] ++
  match m with
  | MRequest i _ _ =>
    (* 60-69 *)
    match (if Complete (sc_own c) then Ok true else Get (sc_own c) i) with
    | Ok true => by_ (GRecv k) [Wr (XBuf k); Rd (XBuf k)]
    | _ => []
    end
  | MBitfield b =>
    (* 40-53; piecetracker.go:76-85 *)
    if Nbytes b =? Nbytes (sc_own c)
    then by_ (GRecv k) [Wr (XBf k); Lk MTrack; Rd XTrack; Rd (XPeer k); Wr XTrack; Ul MTrack] ++ lg logs (GRecv k) else []
  | _ => []
  end.

(** One step of one connection (ProcModel.gstep). [w]: the goroutine in which its Loop runs. *)
Definition gevents (logs : bool) (pc : pconst) (w : gid) (k : nat) (g : gconn) (l : glabel) : trace :=
  let V := GRecv k in let P := GPing k in let R := GRead k in let Q := GReq k in let lg := lg logs in
  match l with
  | GWait => match a_procs (g_a g) with O => [(w, Wt k)] | S _ => [] end       (* peerhandler.go:176 *)
  | GRelease => []
  | GAwake => [(w, Wt k)]
  | GPingStart => lg P ++ by_ P [Rd (XPeer k)]                                   (* 288-298 *)
  | GPingTick None => by_ P [Rd (XPeer k)] ++ lg P                               (* 303, 309 *)
  | GPingTick (Some _) => by_ P [Rd (XPeer k)]
  | GPingErr => [(P, Meet w)] ++ by_ w [Rd (XPeer k)] ++ lg w ++ lg P ++ lg P    (* 305, 172-174; 306, 309 *)
  | GPingDone => [(w, Meet P)]                                                    (* 175, 310 *)
  | GPingRet => lg P ++ [(P, Dn k)]
  | GRecvStart => by_ V [Rd (XPeer k)] ++ lg V ++ by_ V [Wr (XLoop k); Wr (XRecv k); Go R]   (* 199-206, readloop.go:25-35 *)
  | GTakeBuf => by_ V [Rd (XLoop k); Rcv (CBuf k)]                               (* 213 *)
  | GDecode => by_ V [Rd (XRecv k); Rd (XPeer k)] ++ lg V                        (* msghandler.go:13-15 *)
  | GHandle => match m_todo (g_m g) with m :: _ => handles logs (pc_c pc) k m | [] => [] end
  | GHandled => []
  | GCheck => by_ V [Rd XSwarm]                                                   (* ratelimit.go:91 *)
  | GLock => [(V, Lk MWrite)]                                                     (* 100 *)
  | GSpin => by_ V [Rd XUsed; Rd XSwarm]                                          (* 104 *)
  | GAdd => by_ V [At XUsed; Ul MWrite; At XTotal]                                (* 109-111 *)
  | GSend _ => by_ V [Rd (XPeer k)] ++ (if pc_rate pc =? -1 then by_ V [At XUsed; At XTotal] else [])   (* 92-94, 113 *)
  | GPutReady => by_ V [Rd (XLoop k); Snd (CReady k)]                            (* readloop.go:45 *)
  | GReport => [(V, Meet w)] ++ by_ w [Rd (XPeer k)] ++ lg w                     (* peerhandler.go:224, 172-174 *)
  | GKill => [(w, Meet V)]                                                        (* 175, 218 *)
  | GPast => by_ V [Rd (XLoop k)]                                                 (* readloop.go:58 *)
  | GRecvRet => lg V ++ [(V, Dn k)]
  | GDeadline _ => by_ R [Rd (XLoop k)]                                           (* readloop.go:71 *)
  | GScribble _ => by_ R [Rd (XLoop k); Wr (XRecv k)]                             (* 77 *)
  | GReadRet _ _ => by_ R [Wr (XRecv k)]
  | GPutBuf => by_ R [Rd (XLoop k); Snd (CBuf k)]                                 (* 82 *)
  | GTakeReady => by_ R [Rd (XLoop k); Rcv (CReady k)]                            (* 85 *)
  | GTakeDone => [(V, Meet R)] ++ lg R                                            (* 86, 55 *)
  | GPutErr => [(R, Meet V)] ++ lg R                                              (* 73, 79; peerhandler.go:216 *)
  | GReqStart => lg Q ++ by_ Q [Rd (XPeer k)]                                     (* 232-238 *)
  | GReqNext => by_ Q [Rd XSwarm; Lk MTrack; Rd XTrack; Rd XSwarm; Rd (XPeer k); Wr XTrack; Ul MTrack]   (* 241-245, piecetracker.go:151-174 *)
  | GReqMade _ => by_ Q [Rd XSwarm]                                               (* 253 *)
  | GReqExit => by_ Q [Rd XSwarm]
  | GReqRet => lg Q ++ [(Q, Dn k)]
  end.

(** The process with its trace. [r_on]: Run is past its first two assignments. [r_next]: connections accepted so far. [r_wait]: those in
    FromIncoming, by number. [r_left]: the peers still to be dialled, by number. [r_who]: the goroutine of every handler's Loop. *)
Record rstate := mkr { r_p : pstate; r_on : bool; r_next : nat; r_wait : list nat; r_left : list nat; r_who : list gid; r_t : trace }.
Inductive rlabel :=
| RClock                           (* ratelimit.go:60-61: Run begins *)
| RStep (l : plabel) (j : nat).    (* a step of ProcModel; j: which of the connections in FromIncoming, if it is about one *)

Definition without {A} (j : nat) (l : list A) : list A := firstn j l ++ skipn (S j) l.

Definition rstep (logs : bool) (pc : pconst) (l : rlabel) (s : rstate) : option rstate :=
  let p := r_p s in
  let k := List.length (p_conns p) in
  match l with
  | RClock =>
    if r_on s then None
    else Some (mkr (mkps (mksh (sh_ppt (p_sh p)) (sh_world (p_sh p)) 0 (sh_lock (p_sh p))) (p_shake p) (p_drop p) (p_dial p) (p_conns p))
                   true (r_next s) (r_wait s) (r_left s) (r_who s) (r_t s ++ by_ GClock [Wr XRUsed; Wr XUsed]))
  | RStep l j =>
    match pstep pc l p with
    | PWent p' =>
      match l with
      | PAccept =>                                                               (* swarm.go:150-165 *)
        Some (mkr p' (r_on s) (S (r_next s)) (r_wait s ++ [r_next s]) (r_left s) (r_who s)
                  (r_t s ++ lg logs GListen ++ by_ GListen [Rd XSwarm; Go (GIn (r_next s))]))
      | PShake _ _ r wr u =>
        match nth_error (r_wait s) j with
        | None => None
        | Some n =>
          let f := FromIncoming (sc_ih (pc_c pc)) (sc_id (pc_c pc)) (sc_own (pc_c pc)) r wr in
          match in_peer f with
          | Ok _ => Some (mkr p' (r_on s) (r_next s) (without j (r_wait s)) (r_left s) (r_who s ++ [GIn n]) (r_t s ++ greeted logs (GIn n) k u))
          | _ => Some (mkr p' (r_on s) (r_next s) (without j (r_wait s)) (r_left s) (r_who s)
                           (r_t s ++ turned_away logs (GIn n) (negb (rd_err r) && negb (TimeModel.closes (sc_ih (pc_c pc)) r)) (w_handshake wr)))
          end
        end
      | PDial i ok hs u =>                                                        (* swarm.go:126-135 *)
        match nth_error (r_left s) i with
        | None => None
        | Some n =>
          if ok && hs then
            Some (mkr p' (r_on s) (r_next s) (r_wait s) (without i (r_left s)) (r_who s ++ [GOut n])
                      (r_t s ++ by_ (GOut n) [Rd XSwarm] ++ made_by (GOut n) k ++ loop_starts logs (GOut n) k u))
          else Some (mkr p' (r_on s) (r_next s) (r_wait s) (without i (r_left s)) (r_who s) (r_t s ++ by_ (GOut n) [Rd XSwarm] ++ lg logs (GOut n)))
        end
      | PCollect => Some (mkr p' (r_on s) (r_next s) (r_wait s) (r_left s) (r_who s) (r_t s))
      | PTick =>                                                                  (* ratelimit.go:69-71 *)
        if r_on s then Some (mkr p' true (r_next s) (r_wait s) (r_left s) (r_who s) (r_t s ++ by_ GClock [At XUsed; At XRUsed])) else None
      | PConn c gl =>
        match nth_error (r_who s) c, nth_error (p_conns p) c with
        | Some w, Some g => Some (mkr p' (r_on s) (r_next s) (r_wait s) (r_left s) (r_who s) (r_t s ++ gevents logs pc w c g gl))
        | _, _ => None
        end
      end
    | _ => None
    end
  end.
Fixpoint rrun (logs : bool) (pc : pconst) (ls : list rlabel) (s : rstate) : option rstate :=
  match ls with
  | [] => Some s
  | l :: r => match rstep logs pc l s with Some s' => rrun logs pc r s' | None => None end
  end.
(** swarm.go:39-96 NewSwarm by the main goroutine, 120-136 Start; runListener as far as its loop (139-147). *)
Definition opening (logs : bool) (n : nat) : trace :=
  by_ GMain ([Wr XSwarm; Wr XHead; Wr XTrack; Wr XUsed; Wr XRUsed; Wr XTotal; Go GListen; Go GClock] ++ map (fun i => Go (GOut i)) (seq 0 n)) ++
  by_ GListen [Rd XSwarm] ++ lg logs GListen ++ by_ GListen [Wr XPhs].
Definition rstarted (logs : bool) (t : ppt) (w : world) (peers : list info) : rstate :=
  mkr (started t w peers) false 0 [] (seq 0 (List.length peers)) [] (opening logs (List.length peers)).
(** The step of ProcModel: Run's first two assignments (ratelimit.go:60-61) do to the state what a tick does. *)
Definition erase (l : rlabel) : plabel := match l with RClock => PTick | RStep l _ => l end.
