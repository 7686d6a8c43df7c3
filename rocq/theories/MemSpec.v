(** MemSpec.v: runs of a process with bounded memory. *)
From Verif Require Import Base BitfieldModel BitfieldSpec WireModel WireSpec HandshakeModel HandshakeSpec LayoutModel PptModel PeerModel FsModel SwarmModel SessionModel RunModel RunSpec ProcModel ProcSpec MemModel.

(** The steps of ProcModel in a run, and the rounds of createReqMessages. *)
Definition steps (ls : list hlabel) : list plabel := flat_map (fun l => match l with HStep l => [l] | HMake _ => [] end) ls.
Definition rounds (ls : list hlabel) : Z := zlen (filter (fun l => match l with HMake _ => true | _ => false end) ls).
(** Connection k's createReqMessages is under way. *)
Definition making (s : pstate) (k : nat) : Prop := exists g x i, nth_error (p_conns s) k = Some g /\ a_req (g_a g) = QMake x i.
(** No piece is empty. *)
Definition nonempty (ti : torinfo) : Prop := u32 (ti_plen ti) <> 0 /\ u32 (ti_lastlen ti) <> 0.
(** A peer connects as the k-th handler's peer, shakes hands and sends its bitfield. *)
Definition seeds (c : sconst) (p : ip) (port : Z) (rsv id : bytes) (b : bitfield) (k : nat) : list plabel :=
  [PAccept; PShake p port (mkread (handshake_of rsv (sc_ih c) id) false) (HandshakeModel.mkw true true) None] ++
  map (PConn k) [GRecvStart; GDeadline true; GReadRet (wire_of (MBitfield b)) None; GPutBuf; GTakeBuf; GDecode; GHandle; GReqStart; GReqNext].
(** These steps, taken in this order, end the process. *)
Definition hdies (M : Z) (pc : pconst) (ls : list hlabel) (s : hstate) : Prop :=
  exists a l b s1, ls = a ++ l :: b /\ hrun M pc a s = Some s1 /\ hstep M pc l s1 = HDied.
