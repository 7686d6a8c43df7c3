(** PptModel.v: model of src/swarm/piecetracker.go, of handleBitfield (src/swarm/msghandler.go) and of
    createReqMessages (src/swarm/peerhandler.go). *)
From Verif Require Import Base BitfieldModel WireModel LayoutModel DsModel.

(** A *PeerHandler: the pointer, and what Key() returns (peerhandler.go:316-318). *)
Record handler := mkh { h_ptr : nat; h_key : bytes }.

(** piecetracker.go:44-48. index is a uint32. *)
Record piece := mkp { p_index : Z; p_active : bool; p_peers : kset handler }.

(** piecetracker.go:20 *)
Definition numBuckets : Z := 64.

(** piecetracker.go:28-42. nodes holds pointers into the heap; requests maps a handler pointer to the
    piece copies made by NextPiece. The bitfield pointer bf is shared with the swarm and is passed to
    NextPiece instead. Every method holds the mutex from start to end, so calls do not overlap. *)
Record ppt := mkppt { t_heap : heap piece; t_nodes : list nat; t_buckets : list llist; t_requests : list (nat * list piece) }.

(** piecetracker.go:62-70; [n] iterations left, i the next index. *)
Fixpoint new_loop (n : nat) (i : Z) (h : heap piece) (b0 : llist) (nodes : list nat) : res (heap piece * llist * list nat) :=
  match n with
  | O => Ok (h, b0, nodes)
  | S n' => do '(a, h', b0') <- AddDataFront h b0 (mkp i false MakeSet); new_loop n' (i + 1) h' b0' (nodes ++ [a])
  end.
(** piecetracker.go:53-73. nodes is filled front to back. *)
Definition NewPeerPieceTracker (size : Z) : res ppt :=
  do '(h, b0, nodes) <- new_loop (Z.to_nat size) 0 [] MakeList [];
  Ok (mkppt h nodes (b0 :: repeat MakeList (Z.to_nat (numBuckets - 1))) []).

(** An operation on ppt.buckets[i]. *)
Definition on_bucket (t : ppt) (i : Z) (f : heap piece -> llist -> res (heap piece * llist)) : res ppt :=
  if i <? 0 then Panic
  else match nth_error (t_buckets t) (Z.to_nat i) with
       | None => Panic
       | Some l => do '(h', l') <- f (t_heap t) l; Ok (mkppt h' (t_nodes t) (lupd (t_buckets t) (Z.to_nat i) l') (t_requests t))
       end.
Definition put_heap (t : ppt) (h : heap piece) : ppt := mkppt h (t_nodes t) (t_buckets t) (t_requests t).
(** node.Data.peerSet = s, i.e. the effect of a mutating method of the set. *)
Definition put_peers (t : ppt) (a : nat) (s : kset handler) : res ppt :=
  do h <- hput (t_heap t) a (fun n => put_data (mkp (p_index (ndata n)) (p_active (ndata n)) s) n); Ok (put_heap t h).
Definition node_data (t : ppt) (a : nat) : res piece :=
  match nth_error (t_heap t) a with Some n => Ok (ndata n) | None => Panic end.

(** piecetracker.go:100-115 register. Go does the set's Add last. *)
Definition register (t : ppt) (whom : handler) (index : Z) : res ppt :=
  match nth_error (t_nodes t) (Z.to_nat index) with
  | None => Panic
  | Some node =>
    do p <- node_data t node;
    if negb (Has h_key (p_peers p) whom) then
      let oldCount := Size (p_peers p) in
      do t2 <- (if oldCount <? numBuckets then
                  do t1 <- on_bucket t oldCount (fun h l => Remove h l node);
                  on_bucket t1 (oldCount + 1) (fun h l => AddNodeFront h l node)
                else Ok t);
      put_peers t2 node (snd (Add h_key (p_peers p) whom))
    else Ok t
  end.

(** piecetracker.go:88-95 *)
Fixpoint Register (t : ppt) (whom : handler) (indices : list Z) : res ppt :=
  match indices with
  | [] => Ok t
  | i :: r => do t' <- register t whom i; Register t' whom r
  end.

(** piecetracker.go:80-84; [n] iterations left. *)
Fixpoint registerbf_loop (t : ppt) (whom : handler) (bf : bitfield) (n : nat) (index : Z) : res ppt :=
  match n with
  | O => Ok t
  | S n' => do b <- Get bf index;
            do t' <- (if b then register t whom (u32 index) else Ok t);
            registerbf_loop t' whom bf n' (index + 1)
  end.
(** piecetracker.go:76-85 *)
Definition RegisterBF (t : ppt) (whom : handler) (bf : bitfield) : res ppt :=
  registerbf_loop t whom bf (Z.to_nat (Nbits bf)) 0.

(** piecetracker.go:128-143: one node of the loop, then the loop over ppt.nodes. *)
Definition unregister1 (t : ppt) (whom : handler) (node : nat) : res ppt :=
  do p <- node_data t node;
  if Has h_key (p_peers p) whom then
    let oldCount := Size (p_peers p) in
    do t2 <- (if oldCount <=? numBuckets then
                do t1 <- on_bucket t oldCount (fun h l => Remove h l node);
                on_bucket t1 (oldCount - 1) (fun h l => AddNodeFront h l node)
              else Ok t);
    put_peers t2 node (snd (SetRemove h_key (p_peers p) whom))
  else Ok t.
Fixpoint unregister_loop (t : ppt) (whom : handler) (nodes : list nat) : res ppt :=
  match nodes with
  | [] => Ok t
  | a :: r => do t' <- unregister1 t whom a; unregister_loop t' whom r
  end.
(** ppt.requests, keyed by pointer. *)
Definition reqs_of (t : ppt) (who : nat) : list piece :=
  match find (fun e => Nat.eqb (fst e) who) (t_requests t) with Some e => snd e | None => [] end.
Definition put_reqs (t : ppt) (who : nat) (l : list piece) : ppt :=
  mkppt (t_heap t) (t_nodes t) (t_buckets t) ((who, l) :: filter (fun e => negb (Nat.eqb (fst e) who)) (t_requests t)).
(** piecetracker.go:118-144. Lines 123-125 write through pointers to NextPiece's copies, which only
    ppt.requests refers to; the entry itself stays. Ranging over a missing entry does nothing, so the
    entry written back when there was none is not observable. *)
Definition Unregister (t : ppt) (whom : handler) : res ppt :=
  let t0 := put_reqs t (h_ptr whom) (map (fun p => mkp (p_index p) false (p_peers p)) (reqs_of t (h_ptr whom))) in
  unregister_loop t0 whom (t_nodes t0).

(** piecetracker.go:157-170: the inner loop; the curPiece found, if any. *)
Fixpoint next_in_bucket (fuel : nat) (t : ppt) (bf : bitfield) (whom : handler) (cur : option nat) : res (option piece) :=
  match cur with
  | None => Ok None
  | Some a =>
    match fuel with
    | O => NoFuel
    | S f =>
      do curPiece <- node_data t a;
      do got <- Get bf (p_index curPiece);
      if negb got && (negb (p_active curPiece) && Has h_key (p_peers curPiece) whom) then Ok (Some curPiece)
      else do nx <- Next (t_heap t) a; next_in_bucket f t bf whom nx
    end
  end.
(** piecetracker.go:154-171 *)
Fixpoint next_loop (fuel : nat) (t : ppt) (bf : bitfield) (whom : handler) (buckets : list llist) : res (option piece) :=
  match buckets with
  | [] => Ok None
  | l :: r => do x <- next_in_bucket fuel t bf whom (lhead l);
              match x with Some p => Ok (Some p) | None => next_loop fuel t bf whom r end
  end.
(** piecetracker.go:150-174. curPiece is a copy (line 158): setting its active field (164) and storing its
    address (165) leave the node alone. The fuel covers any acyclic list. *)
Definition NextPiece (t : ppt) (bf : bitfield) (whom : handler) : res (Z * bool * ppt) :=
  do x <- next_loop (List.length (t_heap t)) t bf whom (skipn 1 (t_buckets t));
  match x with
  | Some p => Ok (p_index p, true, put_reqs t (h_ptr whom) (reqs_of t (h_ptr whom) ++ [mkp (p_index p) true (p_peers p)]))
  | None => Ok (0, false, t)
  end.

(** Histories. *)
Inductive pop :=
| PRegister (w : handler) (is : list Z)
| PRegisterBF (w : handler) (bf : bitfield)
| PUnregister (w : handler)
| PNext (w : handler) (bf : bitfield).     (* bf: the swarm's bitfield at the time of the call *)
Definition pstep (t : ppt) (o : pop) : res ppt :=
  match o with
  | PRegister w is => Register t w is
  | PRegisterBF w bf => RegisterBF t w bf
  | PUnregister w => Unregister t w
  | PNext w bf => do '(_, _, t') <- NextPiece t bf w; Ok t'
  end.
Fixpoint prun (t : ppt) (ops : list pop) : res ppt :=
  match ops with [] => Ok t | o :: r => do t' <- pstep t o; prun t' r end.

(** msghandler.go:35-56 handleBitfield: the outcome, the tracker, and the handler's bitfield ph.bf afterwards.
    [own] is swarm.Bf, [npieces] the torrent's number of pieces, [old] ph.bf before. *)
Definition handleBitfield (t : ppt) (own : bitfield) (npieces : Z) (whom : handler) (old bf : bitfield) : res unit * ppt * bitfield :=
  if negb (Nbytes bf =? Nbytes own) then (Err EInvalid, t, old)
  else match SetNbits bf npieces with
       | Ok bf' => match RegisterBF t whom bf' with
                   | Ok t' => (Ok tt, t', bf')
                   | Err e => (Err e, t, bf') | Panic => (Panic, t, bf') | NoFuel => (NoFuel, t, bf')
                   end
       | Err e => (Err e, t, old) | Panic => (Panic, t, old) | NoFuel => (NoFuel, t, old)
       end.

(** peerhandler.go:265-282 createReqMessages; [fuel] bounds the loop at 276-279. offset is never changed.
    math.Min of two numbers below 2^53 is exact. *)
Definition requestLength : Z := 16384.
Fixpoint req_loop (fuel : nat) (index offset length : Z) (msgs : list msg) : res (list msg) :=
  if offset <? length then
    match fuel with
    | O => NoFuel
    | S f => let reqlen := u32 (Z.min requestLength (u32 (length - offset))) in
             req_loop f index offset length (msgs ++ [MRequest index offset reqlen])
    end
  else Ok msgs.
Definition createReqMessages (fuel : nat) (ti : torinfo) (index : Z) : res (list msg) :=
  let length := if index =? ti_npieces ti - 1 then u32 (ti_lastlen ti) else u32 (ti_plen ti) in
  req_loop fuel index 0 length [].
