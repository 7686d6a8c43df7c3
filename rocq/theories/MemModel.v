(** MemModel.v: a process with bounded memory. ProcModel's process, and what createReqMessages allocates while it runs. *)
From Verif Require Import Base BitfieldModel WireModel HandshakeModel LayoutModel PptModel PeerModel FsModel SwarmModel SessionModel RunModel ProcModel.

(** [h_made]: the messages that the createReqMessages calls under way have made; every one is reachable from its call's msgs. *)
Record hstate := mkh { h_p : pstate; h_made : Z }.
(** request.go:23-28, message.go:52-55: 4 + 1 (in 8) + 3 * 4 bytes, and the pointer to them in msgs (peerhandler.go:278). *)
Definition RequestSize : Z := 28.
(** Of what the process cannot give back: the buffer of every handler (peerhandler.go:125) that was made, since none of them is ever
    let go of (C99), and those messages. All else it needs is not counted. *)
Definition held (pc : pconst) (s : hstate) : Z := zlen (p_conns (h_p s)) * ti_plen (sc_ti (pc_c pc)) + h_made s * RequestSize.
Inductive hlabel :=
| HStep (l : plabel)   (* a step of ProcModel *)
| HMake (k : nat).     (* peerhandler.go:276-279: another round of connection k's createReqMessages *)
Inductive hout := HBlocked | HDied | HWent (s : hstate).
(** The length createReqMessages works with (269-272). *)
Definition req_length (ti : torinfo) (index : Z) : Z := if index =? ti_npieces ti - 1 then u32 (ti_lastlen ti) else u32 (ti_plen ti).
(** [M]: bytes of memory. The Go runtime ends the process when there is no more. *)
Definition fit (M : Z) (pc : pconst) (s : hstate) : hout := if held pc s <=? M then HWent s else HDied.
Definition hstep (M : Z) (pc : pconst) (l : hlabel) (s : hstate) : hout :=
  match l with
  | HStep l => match pstep pc l (h_p s) with PWent p => fit M pc (mkh p (h_made s)) | PDied => HDied | PBlocked => HBlocked end
  | HMake k =>
    match nth_error (p_conns (h_p s)) k with
    | Some g =>
      match a_req (g_a g) with
      | QMake x _ => if 0 <? req_length (sc_ti (pc_c pc)) x then fit M pc (mkh (h_p s) (h_made s + 1)) else HBlocked
      | _ => HBlocked
      end
    | None => HBlocked
    end
  end.
Fixpoint hrun (M : Z) (pc : pconst) (ls : list hlabel) (s : hstate) : option hstate :=
  match ls with
  | [] => Some s
  | l :: r => match hstep M pc l s with HWent s' => hrun M pc r s' | _ => None end
  end.
Definition hstarted (t : ppt) (w : world) (peers : list info) : hstate := mkh (started t w peers) 0.
