(** RunModel.v: a running swarm as a transition system: the goroutines of all its connections (FromIncoming, FromBootstrap,
    recvLoop, pingLoop, requestLoop; src/swarm/peerhandler.go, msghandler.go) working on the shared tracker and the shared files.
    A panic in any of them ends the process. *)
From Verif Require Import Base BitfieldModel WireModel HandshakeModel LayoutModel DsModel PptModel PeerModel FsModel SwarmModel SessionModel.

(** What stays fixed: the torrent, its infohash, swarm.Bf (nothing writes it after Validate) and our peer id. *)
Record sconst := mksc { sc_ti : torinfo; sc_ih : bytes; sc_own : bitfield; sc_id : bytes }.
(** One PeerHandler (peerhandler.go:33-43) and its connection. [k_in]: the peer connected to us. [k_todo] are decoded messages
    not yet handled, [k_pend] what handleRequest has still to write. [k_recv] is false once recvLoop has ended, [k_up] once a
    write has failed. [k_done] (handled so far) and [k_out] (written so far) are only recorded. *)
Record conn := mkconn { k_in : bool; k_who : handler; k_bf : bitfield; k_buf : gslice; k_todo : list msg; k_done : list msg;
                        k_pend : list bytes; k_recv : bool; k_up : bool; k_out : bytes }.
(** The tracker, the files, and every connection ever made, in order. Handlers of dead connections are never removed. *)
Record sstate := mkss { ss_ppt : ppt; ss_world : world; ss_conns : list conn }.

(** What can happen next. *)
Inductive slabel :=
| SAccept (p : ip) (port : Z) (r : first_read) (wr : writes_ok) (u : option nat)
    (* a peer connects from p:port; u: the unchoke is written, or fails after so many bytes *)
| SDial (p : info) (u : option nat)           (* we have connected to p and sent our handshake *)
| SDeliver (k : nat) (fuel : nat) (b : gslice) (* connection k's read loop delivers a buffer; it is decoded *)
| SHandle (k : nat)                           (* its next decoded message is handled *)
| SWrite (k : nat)                            (* the answer is written *)
| SWriteFail (k n : nat)                      (* or the write fails after n bytes *)
| SPing (k : nat)                             (* a keep-alive is written *)
| SPingFail (k n : nat)                       (* or fails after n bytes *)
| SEnd (k : nat)                              (* recvLoop ends: read error, or told to stop *)
| SNext (k : nat).                            (* requestLoop asks the tracker for a piece *)
(** Outcomes of a step: not possible here; the process dies; the next state. *)
Inductive outcome := Blocked | Died | Went (s : sstate).

(** peerhandler.go:117-128 NewPeerHandler, then 150-155: Loop's unchoke. A failed write is only logged. *)
Definition new_conn (c : sconst) (inc : bool) (ptr : nat) (key sent : bytes) (u : option nat) : res conn :=
  do bf <- NewBitfield (ti_npieces (sc_ti c));
  let mk := mkconn inc (PptModel.mkh ptr key) bf (mkslice (FsModel.zeros (ti_plen (sc_ti c))) []) [] [] [] true in
  Ok match u with
     | None => mk true (sent ++ EncodeMsg MUnchoke)
     | Some n => mk false (sent ++ firstn n (EncodeMsg MUnchoke))
     end.
Definition add_conn (s : sstate) (r : res conn) : outcome :=
  match r with
  | Ok k => Went (mkss (ss_ppt s) (ss_world s) (ss_conns s ++ [k]))
  | Panic => Died
  | _ => Blocked
  end.
Definition put_conn (s : sstate) (k : nat) (c : conn) : sstate := mkss (ss_ppt s) (ss_world s) (lupd (ss_conns s) k c).
(** A connection's receiving side changed, or what it has written. *)
Definition put_rx (c : conn) (bf : bitfield) (buf : gslice) (todo done : list msg) (pend : list bytes) (recv : bool) : conn :=
  mkconn (k_in c) (k_who c) bf buf todo done pend recv (k_up c) (k_out c).
Definition put_tx (c : conn) (pend : list bytes) (recv up : bool) (out : bytes) : conn :=
  mkconn (k_in c) (k_who c) (k_bf c) (k_buf c) (k_todo c) (k_done c) pend recv up out.

(** msghandler.go:17-30: connection k (now [x]) handles the message m, with r left. The tracker's mutex is held during
    RegisterBF, and handleRequest only reads the files, so handling one message is one step. *)
Definition handle_one (c : sconst) (s : sstate) (k : nat) (x : conn) (m : msg) (r : list msg) : outcome :=
  match handle_msg (mkhc (sc_ti c) (sc_own c) (k_who x)) m (mkhs (ss_ppt s) (k_bf x) (k_buf x) (ss_world s)) with
  | (Panic, _, _) => Died
  | (Ok _, out, h) => Went (mkss (hs_ppt h) (hs_world h) (lupd (ss_conns s) k (put_rx x (hs_bf h) (hs_buf h) r (k_done x ++ [m]) out true)))
  | (_, out, h) => Went (mkss (hs_ppt h) (hs_world h) (lupd (ss_conns s) k (put_rx x (hs_bf h) (hs_buf h) [] (k_done x ++ [m]) out false)))
  end.
(** msghandler.go:13: connection k (now [x]) decodes a buffer. A decoder that does not come back (NoFuel) never handles
    anything any more. *)
Definition decode_one (s : sstate) (k : nat) (x : conn) (fuel : nat) (b : gslice) : outcome :=
  match DecodeAll fuel b with
  | Panic => Died
  | Ok (ms, _) => Went (put_conn s k (put_rx x (k_bf x) (k_buf x) ms (k_done x) [] true))
  | _ => Went (put_conn s k (put_rx x (k_bf x) (k_buf x) [] (k_done x) [] false))
  end.
(** peerhandler.go:245: NextPiece for connection k (now [x]). *)
Definition next_one (c : sconst) (s : sstate) (x : conn) : outcome :=
  match NextPiece (ss_ppt s) (sc_own c) (k_who x) with
  | Ok (_, _, t') => Went (mkss t' (ss_world s) (ss_conns s))
  | Panic => Died
  | _ => Blocked
  end.

(** peerhandler.go:68-115 FromIncoming: the key of an accepted peer is made of its id and address (112). *)
Definition accept_one (c : sconst) (s : sstate) (p : ip) (port : Z) (r : first_read) (wr : writes_ok) (u : option nat) : outcome :=
  let f := FromIncoming (sc_ih c) (sc_id c) (sc_own c) r wr in
  match in_peer f with
  | Ok id => add_conn s (new_conn c true (List.length (ss_conns s)) (Key (MakePeer id p port)) (in_sent f) u)
  | Err _ => Went s
  | Panic => Died
  | NoFuel => Blocked
  end.

Definition sstep (c : sconst) (l : slabel) (s : sstate) : outcome :=
  match l with
  | SAccept p port r wr u => accept_one c s p port r wr u
  | SDial p u => add_conn s (new_conn c false (List.length (ss_conns s)) (Key p) (FromBootstrap_sent (sc_ih c) (sc_id c)) u)
  | SDeliver k fuel b =>
    match nth_error (ss_conns s) k with
    | Some x => match k_todo x, k_pend x, k_recv x with [], [], true => decode_one s k x fuel b | _, _, _ => Blocked end
    | None => Blocked
    end
  | SHandle k =>
    match nth_error (ss_conns s) k with
    | Some x => match k_todo x, k_pend x, k_recv x with m :: r, [], true => handle_one c s k x m r | _, _, _ => Blocked end
    | None => Blocked
    end
  | SWrite k =>
    match nth_error (ss_conns s) k with
    | Some x => match k_pend x, k_up x with f :: r, true => Went (put_conn s k (put_tx x r (k_recv x) true (k_out x ++ f))) | _, _ => Blocked end
    | None => Blocked
    end
  | SWriteFail k n =>
    match nth_error (ss_conns s) k with
    | Some x => match k_pend x with
                | f :: _ => Went (put_conn s k (put_tx x [] false false (k_out x ++ if k_up x then firstn n f else [])))
                | [] => Blocked
                end
    | None => Blocked
    end
  | SPing k =>
    match nth_error (ss_conns s) k with
    | Some x => if k_up x then Went (put_conn s k (put_tx x (k_pend x) (k_recv x) true (k_out x ++ keepalive))) else Blocked
    | None => Blocked
    end
  | SPingFail k n =>
    match nth_error (ss_conns s) k with
    | Some x => Went (put_conn s k (put_tx x (k_pend x) (k_recv x) false (k_out x ++ if k_up x then firstn n keepalive else [])))
    | None => Blocked
    end
  | SEnd k =>
    match nth_error (ss_conns s) k with
    | Some x => match k_todo x, k_pend x with [], [] => Went (put_conn s k (put_tx x [] false (k_up x) (k_out x))) | _, _ => Blocked end
    | None => Blocked
    end
  | SNext k =>
    match nth_error (ss_conns s) k with
    | Some x => if Complete (sc_own c) then Blocked else next_one c s x
    | None => Blocked
    end
  end.
(** Runs in which the process lives on. *)
Fixpoint srun (c : sconst) (ls : list slabel) (s : sstate) : option sstate :=
  match ls with
  | [] => Some s
  | l :: r => match sstep c l s with Went s' => srun c r s' | _ => None end
  end.
