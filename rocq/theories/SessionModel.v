(** SessionModel.v: model of handleMessage (src/swarm/msghandler.go), of what recvLoop and requestLoop do with it
    (src/swarm/peerhandler.go), and of everything a handler writes to an incoming peer's connection. *)
From Verif Require Import Base BitfieldModel WireModel HandshakeModel LayoutModel DsModel PptModel FsModel SwarmModel.

(** What one PeerHandler works on: the shared tracker (swarm.PPT), the peer's bitfield (ph.bf), the file buffer (ph.buf,
    peerhandler.go:125) and the files. *)
Record hstate := mkhs { hs_ppt : ppt; hs_bf : bitfield; hs_buf : gslice; hs_world : world }.
(** What stays fixed: the torrent, swarm.Bf (nothing writes it after Validate) and the handler itself. *)
Record hconst := mkhc { hc_ti : torinfo; hc_own : bitfield; hc_whom : handler }.

(** msghandler.go:17-29: one message of the loop. The outcome, the chunks written to the connection, the state.
    Only requests and bitfields have a case. *)
Definition handle_msg (c : hconst) (m : msg) (s : hstate) : res unit * list bytes * hstate :=
  match m with
  | MRequest i b l =>
    match handleRequest (hc_ti c) (hc_own c) i b l (hs_buf s) (hs_world s) with
    | (Ok out, buf', w') => (Ok tt, out, mkhs (hs_ppt s) (hs_bf s) buf' w')
    | (Err e, buf', w') => (Err e, [], mkhs (hs_ppt s) (hs_bf s) buf' w')
    | (Panic, buf', w') => (Panic, [], mkhs (hs_ppt s) (hs_bf s) buf' w')
    | (NoFuel, buf', w') => (NoFuel, [], mkhs (hs_ppt s) (hs_bf s) buf' w')
    end
  | MBitfield bf =>
    let '(r, t', bf') := handleBitfield (hs_ppt s) (hc_own c) (ti_npieces (hc_ti c)) (hc_whom c) (hs_bf s) bf in
    (r, [], mkhs t' bf' (hs_buf s) (hs_world s))
  | _ => (Ok tt, [], s)
  end.
(** msghandler.go:16-32: the loop; the first error ends it. *)
Fixpoint handle_msgs (c : hconst) (ms : list msg) (s : hstate) : res unit * list bytes * hstate :=
  match ms with
  | [] => (Ok tt, [], s)
  | m :: r =>
    match handle_msg c m s with
    | (Ok _, out, s') => let '(x, out', s'') := handle_msgs c r s' in (x, out ++ out', s'')
    | (x, out, s') => (x, out, s')
    end
  end.
(** msghandler.go:11-33 handleMessage (the log line is left out) *)
Definition handleMessage (fuel : nat) (c : hconst) (buf : gslice) (s : hstate) : res unit * list bytes * hstate :=
  match DecodeAll fuel buf with
  | Ok (ms, _) => handle_msgs c ms s
  | Err e => (Err e, [], s)
  | Panic => (Panic, [], s)
  | NoFuel => (NoFuel, [], s)
  end.
(** peerhandler.go:210-227: the buffers the read loop delivers, one after the other; the first error ends the loop. *)
Fixpoint recv_all (fuel : nat) (c : hconst) (bufs : list gslice) (s : hstate) : res unit * list bytes * hstate :=
  match bufs with
  | [] => (Ok tt, [], s)
  | b :: r =>
    match handleMessage fuel c b s with
    | (Ok _, out, s') => let '(x, out', s'') := recv_all fuel c r s' in (x, out ++ out', s'')
    | (x, out, s') => (x, out, s')
    end
  end.

(** peerhandler.go:244-260: fill up to [room] requests. [env k] is the tracker and swarm.Bf as the k-th look finds them:
    other goroutines change them in between. The number of pieces taken, the looks so far, and what was written. *)
Fixpoint fill_requests (room fuel : nat) (ti : torinfo) (whom : handler) (env : nat -> ppt * bitfield) (k : nat) : res (nat * nat) * list bytes :=
  match room with
  | O => (Ok (O, k), [])
  | S room' =>
    match NextPiece (fst (env k)) (snd (env k)) whom with
    | Ok (_, false, _) => (Ok (O, S k), [])
    | Ok (next, true, _) =>
      match createReqMessages fuel ti next with
      | Ok msgs => match fill_requests room' fuel ti whom env (S k) with
                   | (Ok (n, k'), out) => (Ok (S n, k'), map EncodeMsg msgs ++ out)
                   | (x, out) => (x, map EncodeMsg msgs ++ out)
                   end
      | Err e => (Err e, [])
      | Panic => (Panic, [])
      | NoFuel => (NoFuel, [])
      end
    | Err e => (Err e, [])
    | Panic => (Panic, [])
    | NoFuel => (NoFuel, [])
    end
  end.
(** peerhandler.go:231-263 requestLoop; [n] pieces were taken so far (len(reqs), which never shrinks), [rounds] bounds the
    outer loop, [fuel] the one in createReqMessages. *)
Fixpoint requestLoop (rounds fuel : nat) (ti : torinfo) (whom : handler) (env : nat -> ppt * bitfield) (k n : nat) : res unit * list bytes :=
  if Complete (snd (env k)) then (Ok tt, [])
  else match rounds with
       | O => (NoFuel, [])
       | S r => match fill_requests (5 - n) fuel ti whom env (S k) with
                | (Ok (m, k'), out) => let '(x, out') := requestLoop r fuel ti whom env k' (n + m) in (x, out ++ out')
                | (Err e, out) => (Err e, out)
                | (Panic, out) => (Panic, out)
                | (NoFuel, out) => (NoFuel, out)
                end
       end.

(** ** One connection, as a transition system. recvLoop and pingLoop write to it concurrently (requestLoop writes nothing,
    see C78); each Write call is one chunk. *)
Inductive clabel :=
| CDeliver (fuel : nat) (b : gslice)  (* recvLoop receives a buffer and handles it *)
| CWrite                              (* handleRequest's Write, msghandler.go:69 *)
| CPing                               (* pingLoop's Write, peerhandler.go:303 *)
| CWriteFail (k : nat)                (* the same, failing after k bytes; nothing can be written afterwards *)
| CPingFail (k : nat).
(** [cn_pend] are the chunks handleMessage has still to write, [cn_recv] is false once recvLoop has ended, [cn_up] once the
    connection is broken. *)
Record cstate := mkcn { cn_h : hstate; cn_pend : list bytes; cn_recv : bool; cn_up : bool; cn_out : bytes }.
Definition is_ok {A} (r : res A) : bool := match r with Ok _ => true | _ => false end.
Definition keepalive : bytes := EncodeMsg MKeepAlive.
Definition cstep (c : hconst) (l : clabel) (s : cstate) : option cstate :=
  match l with
  | CDeliver fuel b =>
    match cn_pend s, cn_recv s with
    | [], true => let '(x, out, h') := handleMessage fuel c b (cn_h s) in Some (mkcn h' out (is_ok x) (cn_up s) (cn_out s))
    | _, _ => None
    end
  | CWrite => match cn_pend s, cn_up s with
              | f :: r, true => Some (mkcn (cn_h s) r (cn_recv s) true (cn_out s ++ f)) | _, _ => None end
  | CPing => if cn_up s then Some (mkcn (cn_h s) (cn_pend s) (cn_recv s) true (cn_out s ++ keepalive)) else None
  | CWriteFail k => match cn_pend s, cn_up s with
                    | f :: r, true => Some (mkcn (cn_h s) [] false false (cn_out s ++ firstn k f)) | _, _ => None end
  | CPingFail k => if cn_up s then Some (mkcn (cn_h s) (cn_pend s) (cn_recv s) false (cn_out s ++ firstn k keepalive)) else None
  end.
Fixpoint crun (c : hconst) (ls : list clabel) (s : cstate) : option cstate :=
  match ls with [] => Some s | l :: r => match cstep c l s with Some s' => crun c r s' | None => None end end.
(** The connection when Loop starts its goroutines (peerhandler.go:142-160): FromIncoming has sent [sent], Loop an unchoke. *)
Definition accepted (sent : bytes) (h : hstate) : cstate := mkcn h [] true true (sent ++ EncodeMsg MUnchoke).
(** peerhandler.go:117-128 NewPeerHandler: the buffer holds one piece. *)
Definition fresh (t : ppt) (bf : bitfield) (ti : torinfo) (w : world) : hstate := mkhs t bf (mkslice (FsModel.zeros (ti_plen ti)) []) w.
(** The buffers a run delivers, with the bound used for decoding, and what handling them in turn writes. *)
Fixpoint deliveries (ls : list clabel) : list (nat * gslice) :=
  match ls with [] => [] | CDeliver f b :: r => (f, b) :: deliveries r | _ :: r => deliveries r end.
Fixpoint handled (c : hconst) (ds : list (nat * gslice)) (h : hstate) : list bytes :=
  match ds with [] => [] | (f, b) :: r => let '(_, out, h') := handleMessage f c b h in out ++ handled c r h' end.
