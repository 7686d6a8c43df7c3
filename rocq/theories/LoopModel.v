(** LoopModel.v: PeerHandler.Loop and the goroutines it starts (src/swarm/peerhandler.go), as a transition system. What the goroutines do
    between two channel operations is one choice of the scheduler: it succeeds, it fails, or (never scheduled again) it does not return. *)
From Verif Require Import Base.

(** peerhandler.go:142-184 Loop, after it has started the three goroutines. *)
Inductive lpc :=
| LSelect      (* 169: waiting for an error *)
| LSendDone    (* 175: chDone <- true *)
| LWait        (* 176: about to call ph.procs.Wait() *)
| LAsleep      (* in Wait: counted as a waiter, asleep *)
| LAwake       (* in Wait: woken, about to see whether the counter is still zero *)
| LSendUp      (* 179: ph.chErr <- e *)
| LEnd.        (* 183: returned *)
(** 286-314 pingLoop. *)
Inductive ppc := PNew | PSelect | PErr | PRet | PEnd.
(** 188-228 recvLoop; VFinish: in readLoop.Finish(). *)
Inductive vpc := VNew | VSelect | VErr | VFinish | VRet | VEnd.
(** 231-263 requestLoop. *)
Inductive qpc := QNew | QLoop | QRet | QEnd.

(** [procs]: the WaitGroup's counter. Each goroutine adds itself when it starts running (199, 232, 288), not when it is created. *)
Record st := mkst { loop : lpc; ping : ppc; recv : vpc; req : qpc; procs : nat }.
Definition init : st := mkst LSelect PNew VNew QNew 0.

(** [complete]: swarm.Bf.Complete(), which nothing changes after NewSwarm. [made]: whether swarm.ChErr is a channel (and somebody receives from it). *)
Record cfg := mkcfg { complete : bool; made : bool }.
(** swarm.go:39-96 NewSwarm never sets ChErr: it is nil, and a send on a nil channel waits forever. *)
Definition NewSwarm_cfg (c : bool) : cfg := mkcfg c false.

(** sync/waitgroup.go (Go 1.18). Wait on a counter of zero returns; otherwise Loop becomes a waiter and sleeps. The Done that makes
    the counter zero resets the waiters and wakes Loop, in a later step than its decrement. In between, an Add finds a counter of
    zero and a waiter and panics ("Add called concurrently with Wait"). After it and before Loop looks, an Add makes Loop panic ("WaitGroup
    is reused before previous Wait has returned"). A panic in any goroutine ends the process. *)
Definition add_panics (L : lpc) (n : nat) : bool := match L, n with LAsleep, O => true | _, _ => false end.
Definition wait_panics (L : lpc) (n : nat) : bool := match L, n with LAwake, S _ => true | _, _ => false end.

Inductive ev :=
| EvTaken        (* Loop receives an error *)
| EvTold         (* somebody receives from chDone *)
| EvReturned.    (* Loop returns *)

Inductive lab :=
| PingStart | PingTick (ok : bool) | PingErr | PingDone | PingRet
| RecvStart | RecvMsg | RecvFail | RecvQuiet | RecvErr | RecvDone | RecvFinish | RecvRet
| ReqStart | ReqRound | ReqExit | ReqRet
| LoopWait | LoopRelease | LoopAwake | LoopUp.

Definition step (c : cfg) (s : st) (l : lab) : option (st * list ev) :=
  let (L, P, V, Q, n) := s in
  match l with
  (* pingLoop *)
  | PingStart => match P with PNew => if add_panics L n then None else Some (mkst L PSelect V Q (S n), []) | _ => None end
  | PingTick ok => match P with PSelect => Some (mkst L (if ok then PSelect else PErr) V Q n, []) | _ => None end
  | PingErr => match P, L with PErr, LSelect => Some (mkst LSendDone PRet V Q n, [EvTaken]) | _, _ => None end
  | PingDone => match P, L with PSelect, LSendDone => Some (mkst LWait PRet V Q n, [EvTold]) | _, _ => None end
  | PingRet => match P with PRet => Some (mkst L PEnd V Q (pred n), []) | _ => None end
  (* recvLoop: a chunk handled; an error from handleMessage or from the read loop; a nil error from the read loop *)
  | RecvStart => match V with VNew => if add_panics L n then None else Some (mkst L P VSelect Q (S n), []) | _ => None end
  | RecvMsg => match V with VSelect => Some (s, []) | _ => None end
  | RecvFail => match V with VSelect => Some (mkst L P VErr Q n, []) | _ => None end
  | RecvQuiet => match V with VSelect => Some (mkst L P VRet Q n, []) | _ => None end
  | RecvErr => match V, L with VErr, LSelect => Some (mkst LSendDone P VRet Q n, [EvTaken]) | _, _ => None end
  | RecvDone => match V, L with VSelect, LSendDone => Some (mkst LWait P VFinish Q n, [EvTold]) | _, _ => None end
  | RecvFinish => match V with VFinish => Some (mkst L P VRet Q n, []) | _ => None end
  | RecvRet => match V with VRet => Some (mkst L P VEnd Q (pred n), []) | _ => None end
  (* requestLoop: does not look at chDone *)
  | ReqStart => match Q with QNew => if add_panics L n then None else Some (mkst L P V QLoop (S n), []) | _ => None end
  | ReqRound => match Q with QLoop => if complete c then None else Some (s, []) | _ => None end
  | ReqExit => match Q with QLoop => if complete c then Some (mkst L P V QRet n, []) else None | _ => None end
  | ReqRet => match Q with QRet => Some (mkst L P V QEnd (pred n), []) | _ => None end
  (* Loop *)
  | LoopWait => match L with LWait => Some (mkst (match n with O => LSendUp | S _ => LAsleep end) P V Q n, []) | _ => None end
  | LoopRelease => match L, n with LAsleep, O => Some (mkst LAwake P V Q n, []) | _, _ => None end
  | LoopAwake => match L with LAwake => if wait_panics L n then None else Some (mkst LSendUp P V Q n, []) | _ => None end
  | LoopUp => match L with LSendUp => if made c then Some (mkst LEnd P V Q n, [EvReturned]) else None | _ => None end
  end.
(** The steps that are a panic of the WaitGroup. *)
Definition dies (s : st) (l : lab) : bool :=
  match l with
  | PingStart => match ping s with PNew => add_panics (loop s) (procs s) | _ => false end
  | RecvStart => match recv s with VNew => add_panics (loop s) (procs s) | _ => false end
  | ReqStart => match req s with QNew => add_panics (loop s) (procs s) | _ => false end
  | LoopAwake => wait_panics (loop s) (procs s)
  | _ => false
  end.
Fixpoint run (c : cfg) (s : st) (ls : list lab) : option (st * list ev) :=
  match ls with
  | [] => Some (s, [])
  | l :: r => match step c s l with
              | Some (s', e) => match run c s' r with Some (s'', e') => Some (s'', e ++ e') | None => None end
              | None => None
              end
  end.
