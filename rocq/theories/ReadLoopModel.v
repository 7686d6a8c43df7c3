(** ReadLoopModel.v: src/io/readloop.go and its only user, recvLoop of src/swarm/peerhandler.go, as a transition system. The two goroutines
    are Run and recvLoop; memory is sequentially consistent. Log output is left out. *)
From Verif Require Import Base.

(** readloop.go:65-91 where Run is. *)
Inductive rpc :=
| RTop                              (* 71: about to set the read deadline *)
| RRead                             (* 77: inside conn.Read(buf) *)
| RSendBuf (n : nat)                (* 82: chBuf <- buf[:n] *)
| RSelect                           (* 84-88: waiting for chReady or chDone *)
| RSendErr (e : option goerr)       (* 73, 79: chErr <- e; e may be nil *)
| REnd.                             (* returned *)
(** peerhandler.go:188-228 where recvLoop is, with Ready (readloop.go:44-46) and Finish (54-59). *)
Inductive cpc :=
| CSelect                           (* 212: the select *)
| CProc (n : nat)                   (* 214: in handleMessage(buf), buf of length n *)
| CReady (e : option goerr)         (* 215: readLoop.Ready(), with handleMessage's result *)
| CSendErr (e : goerr)              (* 224: chErr <- e, to Loop *)
| CFinish1                          (* readloop.go:55: chDone <- *)
| CFinish2                          (* readloop.go:58: SetReadDeadline(1970) *)
| CEnd.                             (* returned *)

(** readloop.go:14-23 (with 25-35): the shared buffer (its length is fixed), the two channels of capacity 1. chErr and chDone hold nothing: a send meets a receive. *)
Record rl := mkrl { buf : bytes; chBuf : option nat; chReady : bool; run_at : rpc; con_at : cpc }.
Definition init (b : bytes) : rl := mkrl b None false RTop CSelect.

(** What happens, for the record. *)
Inductive ev :=
| EvRead (d : bytes)                        (* conn.Read returned d and no error *)
| EvReadErr (d : bytes) (e : option goerr)  (* conn.Read returned d with an error, or nothing *)
| EvRecv (d : bytes)                        (* recvLoop takes a slice showing d from ReadData() *)
| EvLook (d : bytes)                        (* handleMessage looks at its argument and sees d *)
| EvHandled                                 (* handleMessage returns *)
| EvRunEnd                                  (* Run returns *)
| EvPastDeadline                            (* Finish moves the read deadline to the past *)
| EvReport (e : goerr).                     (* recvLoop has reported e to Loop *)

(** The scheduler's choices. *)
Inductive lab :=
| SetDeadline (ok : bool)                   (* Run: SetReadDeadline, whether it succeeds *)
| Scribble (b : bytes)                      (* the pending Read writes into the buffer *)
| ReadRet (d : bytes) (e : option goerr)    (* conn.Read returns *)
| PutBuf | TakeReady | TakeDone | PutErr    (* Run: the send on chBuf, the two branches of the select, the send on chErr *)
| TakeBuf | Look | Handled (e : option goerr) | PutReady | Kill | PastDeadline | Report. (* recvLoop; Kill: Loop's chKill is received *)

Definition overwrite (b d : bytes) : bytes := d ++ skipn (List.length d) b.
(** One atomic action; None: not possible now. *)
Definition step (s : rl) (l : lab) : option (rl * list ev) :=
  match l with
  | SetDeadline ok => match run_at s with RTop => Some (mkrl (buf s) (chBuf s) (chReady s) (if ok then RRead else RSendErr (Some EInvalid)) (con_at s), []) | _ => None end
  | Scribble b => match run_at s with RRead => if Nat.eqb (List.length b) (List.length (buf s)) then Some (mkrl b (chBuf s) (chReady s) RRead (con_at s), []) else None | _ => None end
  | ReadRet d e =>
      match run_at s with
      | RRead => if Nat.leb (List.length d) (List.length (buf s)) then
                   match d, e with
                   | _ :: _, None => Some (mkrl (overwrite (buf s) d) (chBuf s) (chReady s) (RSendBuf (List.length d)) (con_at s), [EvRead d])
                   | _, _ => Some (mkrl (overwrite (buf s) d) (chBuf s) (chReady s) (RSendErr e) (con_at s), [EvReadErr d e])
                   end
                 else None
      | _ => None
      end
  | PutBuf => match run_at s, chBuf s with RSendBuf n, None => Some (mkrl (buf s) (Some n) (chReady s) RSelect (con_at s), []) | _, _ => None end
  | TakeReady => match run_at s, chReady s with RSelect, true => Some (mkrl (buf s) (chBuf s) false RTop (con_at s), []) | _, _ => None end
  | TakeDone => match run_at s, con_at s with RSelect, CFinish1 => Some (mkrl (buf s) (chBuf s) (chReady s) REnd CFinish2, [EvRunEnd]) | _, _ => None end
  | PutErr => match run_at s, con_at s with RSendErr e, CSelect => Some (mkrl (buf s) (chBuf s) (chReady s) REnd (match e with Some x => CSendErr x | None => CEnd end), [EvRunEnd]) | _, _ => None end
  | TakeBuf => match con_at s, chBuf s with CSelect, Some n => Some (mkrl (buf s) None (chReady s) (run_at s) (CProc n), [EvRecv (firstn n (buf s))]) | _, _ => None end
  | Look => match con_at s with CProc n => Some (s, [EvLook (firstn n (buf s))]) | _ => None end
  | Handled e => match con_at s with CProc n => Some (mkrl (buf s) (chBuf s) (chReady s) (run_at s) (CReady e), [EvHandled]) | _ => None end
  | PutReady => match con_at s, chReady s with CReady e, false => Some (mkrl (buf s) (chBuf s) true (run_at s) (match e with Some x => CSendErr x | None => CSelect end), []) | _, _ => None end
  | Kill => match con_at s with CSelect => Some (mkrl (buf s) (chBuf s) (chReady s) (run_at s) CFinish1, []) | _ => None end
  | PastDeadline => match con_at s with CFinish2 => Some (mkrl (buf s) (chBuf s) (chReady s) (run_at s) CEnd, [EvPastDeadline]) | _ => None end
  | Report => match con_at s with CSendErr e => Some (mkrl (buf s) (chBuf s) (chReady s) (run_at s) CEnd, [EvReport e]) | _ => None end
  end.
Fixpoint run (s : rl) (ls : list lab) : option (rl * list ev) :=
  match ls with
  | [] => Some (s, [])
  | l :: r => match step s l with
              | Some (s', e) => match run s' r with Some (s'', e') => Some (s'', e ++ e') | None => None end
              | None => None
              end
  end.
