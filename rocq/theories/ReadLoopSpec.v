(** ReadLoopSpec.v: specification vocabulary for the read loop. *)
From Verif Require Import Base ReadLoopModel.

(** What the connection delivered, what the consumer was handed, and what the consumer saw while it was processing. *)
Definition delivered (tr : list ev) : list bytes := flat_map (fun e => match e with EvRead d => [d] | _ => [] end) tr.
Definition received (tr : list ev) : list bytes := flat_map (fun e => match e with EvRecv d => [d] | _ => [] end) tr.
Definition reports (tr : list ev) : list goerr := flat_map (fun e => match e with EvReport d => [d] | _ => [] end) tr.
Definition lookups (tr : list ev) : list bytes := flat_map (fun e => match e with EvLook d => [d] | _ => [] end) tr.
(** recvLoop is over or will be after reporting. *)
Definition leaving (c : cpc) : bool := match c with CSendErr _ | CFinish2 | CEnd => true | _ => false end.
(** conn.Read is pending (and writes into the buffer as it pleases). *)
Definition reading (s : rl) : Prop := run_at s = RRead.
Definition processing (s : rl) : Prop := exists n, con_at s = CProc n.
