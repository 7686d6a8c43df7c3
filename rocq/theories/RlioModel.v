(** RlioModel.v: the whole RateLimitIO (src/io/ratelimit.go): the writing and the reading direction (each as in RateModel), the ticker, and any
    number of calls of Run and Stop. *)
From Verif Require Import Base RateModel.

(** ratelimit.go:59-74 where a call of Run is. *)
Inductive upc :=
| UStart           (* 60: rUsed = 0 *)
| UStart2          (* 61: wUsed = 0 *)
| USelect          (* 65: the select *)
| UTick            (* 70: a tick was received; StoreInt64(wUsed) *)
| UTick2           (* 71: StoreInt64(rUsed) *)
| UEnd.            (* 67-68: the signal was received; returned *)

(** ratelimit.go:14-26, with the position of every call. [ready]: the ticker's channel (capacity 1) holds a tick. [stopped s]: call s of Stop
    (76-78) has returned; sig has no buffer, so a send meets a receive. *)
Record rlio := mkio { wdir : rl; rdir : rl; ready : bool; runs : nat -> upc; stopped : nat -> bool }.
(** ratelimit.go:28-37 NewRateLimitIO *)
Definition NewRateLimitIO : rlio := mkio (init NoLimit) (init NoLimit) false (fun _ => UStart) (fun _ => false).

(** [AtW t], [AtR t]: the t-th call of Write/SetWriteRate (Read/SetReadRate) does its next action. [Fire]: the ticker ticks; the tick is dropped if
    the channel is full. [AtRun u]: call u of Run does its next action other than receiving the signal. [Meet u s]: Stop s hands the signal to Run u. *)
Inductive iolab := AtW (t : nat) | AtR (t : nat) | Fire | AtRun (u : nat) | Meet (u s : nat).
(** What happens, for the record. *)
Inductive ioev := InW (e : ev) | InR (e : ev) | EvFire | EvStart (u : nat) | EvMet (u s : nat).

Definition set_run (x : rlio) (u : nat) (p : upc) : nat -> upc := fun v => if Nat.eqb v u then p else runs x v.
Definition iostep (pw pr : nat -> op) (x : rlio) (l : iolab) : option (rlio * list ioev) :=
  match l with
  | AtW t => match step pw (wdir x) (Go t) with Some (d, e) => Some (mkio d (rdir x) (ready x) (runs x) (stopped x), map InW e) | None => None end
  | AtR t => match step pr (rdir x) (Go t) with Some (d, e) => Some (mkio (wdir x) d (ready x) (runs x) (stopped x), map InR e) | None => None end
  | Fire => Some (mkio (wdir x) (rdir x) true (runs x) (stopped x), [EvFire])
  | AtRun u =>
    let w p := match step pw (wdir x) Tick with Some (d, e) => Some (mkio d (rdir x) (ready x) (set_run x u p) (stopped x), map InW e) | None => None end in
    let r p es := match step pr (rdir x) Tick with Some (d, e) => Some (mkio (wdir x) d (ready x) (set_run x u p) (stopped x), es ++ map InR e) | None => None end in
    match runs x u with
    | UStart => r UStart2 [EvStart u]
    | UStart2 => w USelect
    | USelect => if ready x then Some (mkio (wdir x) (rdir x) false (set_run x u UTick) (stopped x), []) else None
    | UTick => w UTick2
    | UTick2 => r USelect []
    | UEnd => None
    end
  | Meet u s =>
    match runs x u, stopped x s with
    | USelect, false => Some (mkio (wdir x) (rdir x) (ready x) (set_run x u UEnd) (fun v => if Nat.eqb v s then true else stopped x v), [EvMet u s])
    | _, _ => None
    end
  end.
Fixpoint iorun (pw pr : nat -> op) (x : rlio) (ls : list iolab) : option (rlio * list ioev) :=
  match ls with
  | [] => Some (x, [])
  | l :: r => match iostep pw pr x l with
              | Some (x', e) => match iorun pw pr x' r with Some (x'', e') => Some (x'', e ++ e') | None => None end
              | None => None
              end
  end.
