(** NetModel.v: several gotor processes connected to each other: running swarms (RunModel) whose connections carry what the other
    side has written (src/swarm/peerhandler.go:48-115, src/io/readloop.go:68-91). *)
From Verif Require Import Base BitfieldModel WireModel HandshakeModel LayoutModel PptModel PeerModel FsModel SwarmModel SessionModel RunModel.

(** A process. *)
Record node := mknode { nd_c : sconst; nd_s : sstate }.
(** What became of the other end of a connection that somebody dialled: it still waits for the handshake; it is a PeerHandler
    (connection k of its node); FromIncoming failed, after writing some bytes. *)
Inductive far_end := Waiting | Taken (k : nat) | Refused (sent : bytes).
(** A TCP connection from connection l_conn of node l_from to node l_to; how many bytes of what the dialler wrote the other end
    has read, and the reverse. The bytes written are those of the two PeerHandlers (k_out). *)
Record link := mklink { l_from : nat; l_conn : nat; l_to : nat; l_far : far_end; l_got : nat; l_back : nat }.
Record net := mknet { n_nodes : list node; n_links : list link }.

Definition conn_at (N : net) (i k : nat) : option conn :=
  match nth_error (n_nodes N) i with Some nd => nth_error (ss_conns (nd_s nd)) k | None => None end.
(** Everything written so far by the dialler of a link, and by its far end. *)
Definition said (N : net) (L : link) : bytes := match conn_at N (l_from L) (l_conn L) with Some x => k_out x | None => [] end.
Definition replied (N : net) (L : link) : bytes :=
  match l_far L with
  | Waiting => []
  | Taken k => match conn_at N (l_to L) k with Some x => k_out x | None => [] end
  | Refused sent => sent
  end.

Inductive nlabel :=
| NDial (a b : nat) (p : info) (u : option nat)      (* node a dials node b, which its tracker calls p; u as in SDial *)
| NAccept (j : nat) (p : ip) (port : Z) (m : nat) (err : bool) (wr : writes_ok) (u : option nat)
    (* link j is accepted; the read of the handshake returns m bytes, or an error *)
| NHear (j m : nat) (sp : bytes)                     (* the read loop of link j's far end gets m bytes *)
| NReply (j m : nat) (sp : bytes)                    (* the read loop of link j's dialler gets m bytes *)
| NOwn (i : nat) (l : slabel).                       (* node i goes on by itself: handles, writes, pings, stops *)
Inductive noutcome := NBlocked | NDied (i : nat) | NWent (N : net).

Definition local (l : slabel) : bool := match l with SAccept _ _ _ _ _ | SDial _ _ | SDeliver _ _ _ => false | _ => true end.
(** Node i takes step l; the links become those that f makes of its new state. *)
Definition node_step (N : net) (i : nat) (l : slabel) (f : sstate -> list link) : noutcome :=
  match nth_error (n_nodes N) i with
  | Some nd =>
    match sstep (nd_c nd) l (nd_s nd) with
    | Blocked => NBlocked
    | Died => NDied i
    | Went s => NWent (mknet (lupd (n_nodes N) i (mknode (nd_c nd) s)) (f s))
    end
  | None => NBlocked
  end.
(** readloop.go:77: one conn.Read of m bytes, from the bytes [s] written of which p were read. The buffer has 16384 bytes
    (peerhandler.go:20). *)
Definition chunk (s : bytes) (p m : nat) : option bytes :=
  if (Z.of_nat m =? 0) || (16384 <? Z.of_nat m) || (zlen s <? Z.of_nat (p + m)) then None else Some (firstn m (skipn p s)).

Definition nstep (l : nlabel) (N : net) : noutcome :=
  match l with
  | NDial a b p u =>
    match nth_error (n_nodes N) a with
    | Some nd => node_step N a (SDial p u) (fun _ => n_links N ++ [mklink a (List.length (ss_conns (nd_s nd))) b Waiting 0 0])
    | None => NBlocked
    end
  | NAccept j p port m err wr u =>
    match nth_error (n_links N) j with
    | Some L =>
      match l_far L, nth_error (n_nodes N) (l_to L) with
      | Waiting, Some nd =>
        if (68 <? Z.of_nat m) || (zlen (said N L) <? Z.of_nat m) then NBlocked else
        let r := mkread (firstn m (said N L)) err in
        let k := List.length (ss_conns (nd_s nd)) in
        let sent := in_sent (FromIncoming (sc_ih (nd_c nd)) (sc_id (nd_c nd)) (sc_own (nd_c nd)) r wr) in
        node_step N (l_to L) (SAccept p port r wr u)
          (fun s => lupd (n_links N) j (mklink (l_from L) (l_conn L) (l_to L) (if Nat.ltb k (List.length (ss_conns s)) then Taken k else Refused sent) m 0))
      | _, _ => NBlocked
      end
    | None => NBlocked
    end
  | NHear j m sp =>
    match nth_error (n_links N) j with
    | Some L =>
      match l_far L, chunk (said N L) (l_got L) m with
      | Taken k, Some b =>
        node_step N (l_to L) (SDeliver k (S m) (mkslice b sp)) (fun _ => lupd (n_links N) j (mklink (l_from L) (l_conn L) (l_to L) (l_far L) (l_got L + m) (l_back L)))
      | _, _ => NBlocked
      end
    | None => NBlocked
    end
  | NReply j m sp =>
    match nth_error (n_links N) j with
    | Some L =>
      match chunk (replied N L) (l_back L) m with
      | Some b =>
        node_step N (l_from L) (SDeliver (l_conn L) (S m) (mkslice b sp)) (fun _ => lupd (n_links N) j (mklink (l_from L) (l_conn L) (l_to L) (l_far L) (l_got L) (l_back L + m)))
      | None => NBlocked
      end
    | None => NBlocked
    end
  | NOwn i l => if local l then node_step N i l (fun _ => n_links N) else NBlocked
  end.
Fixpoint nrun (ls : list nlabel) (N : net) : option net :=
  match ls with
  | [] => Some N
  | l :: r => match nstep l N with NWent N' => nrun r N' | _ => None end
  end.
