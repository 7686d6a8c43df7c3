(** RateModel.v: src/io/ratelimit.go as a transition system. Write and Read are the same code over wRate/wUsed/wlock/wTotal
    and rRate/rUsed/rlock/rTotal; one copy is modelled. Memory is sequentially consistent. *)
From Verif Require Import Base.

(** What a call does: Write(data) is [OpIO (len data) data], a Read is [OpIO (len buf) x] where x is what the reader delivers
    (a shorter read is possible); SetWriteRate(v) is [OpSet v]. Every call is a goroutine of its own: calls one goroutine makes one after the other are a
    special case of the schedules. *)
Inductive op := OpIO (n : Z) (x : bytes) | OpSet (v : Z).

(** Where a call is. *)
Inductive pc :=
| PStart                               (* ratelimit.go:91 / 49 *)
| PBypIO | PBypUsed | PBypTotal        (* 92, 93, 94: the unlimited branch *)
| PLock                                (* 100 *)
| PSpin                                (* 103-107 *)
| PAdd                                 (* 109 *)
| PUnlock                              (* 110 *)
| PTotal                               (* 111 *)
| PIO                                  (* 113 *)
| SLock | SSet | SUnlock               (* 52-54 *)
| PDone.

(** ratelimit.go:14-26 RateLimitIO (one direction) with the position of every call. *)
Record rl := mkrl { rate : Z; used : Z; total : Z; owner : option nat; at_ : nat -> pc }.
(** ratelimit.go:28-37 NewRateLimitIO has rate NoLimit; [init r] is the limiter once SetWriteRate(r) has returned (swarm.go:89-91). *)
Definition NoLimit : Z := -1.
Definition init (r : Z) : rl := mkrl r 0 0 None (fun _ => PStart).
Definition goto (s : rl) (t : nat) (p : pc) : nat -> pc := fun u => if Nat.eqb u t then p else at_ s u.

(** What happens, for the record. *)
Inductive ev :=
| EvTick                          (* the used counter is reset *)
| EvAdmit (t : nat) (n : Z)       (* a limited call adds n to used *)
| EvBypass (t : nat) (n : Z)      (* an unlimited call adds n to used *)
| EvTotal (t : nat) (n : Z)       (* n added to total *)
| EvIO (t : nat) (x : bytes).     (* the underlying writer/reader moves x *)

(** The goroutine Run (59-74) resets [used] when it starts and at every tick: [Tick], at any time. [Go t]: call t does its next
    atomic action. None: it cannot (it waits for the lock, or is finished). *)
Inductive lab := Tick | Go (t : nat).
Definition clamp (v : Z) : Z := if v <? NoLimit then NoLimit else v.
Definition step (prog : nat -> op) (s : rl) (l : lab) : option (rl * list ev) :=
  match l with
  | Tick => Some (mkrl (rate s) 0 (total s) (owner s) (at_ s), [EvTick])
  | Go t =>
    match prog t with
    | OpIO n x =>
      match at_ s t with
      | PStart => Some (mkrl (rate s) (used s) (total s) (owner s) (goto s t (if rate s =? NoLimit then PBypIO else PLock)), [])
      | PBypIO => Some (mkrl (rate s) (used s) (total s) (owner s) (goto s t PBypUsed), [EvIO t x])
      | PBypUsed => Some (mkrl (rate s) (i64 (used s + n)) (total s) (owner s) (goto s t PBypTotal), [EvBypass t n])
      | PBypTotal => Some (mkrl (rate s) (used s) (i64 (total s + n)) (owner s) (goto s t PDone), [EvTotal t n])
      | PLock => match owner s with None => Some (mkrl (rate s) (used s) (total s) (Some t) (goto s t PSpin), []) | Some _ => None end
      | PSpin => Some (mkrl (rate s) (used s) (total s) (owner s) (goto s t (if used s <? rate s then PAdd else PSpin)), [])
      | PAdd => Some (mkrl (rate s) (i64 (used s + n)) (total s) (owner s) (goto s t PUnlock), [EvAdmit t n])
      | PUnlock => Some (mkrl (rate s) (used s) (total s) None (goto s t PTotal), [])
      | PTotal => Some (mkrl (rate s) (used s) (i64 (total s + n)) (owner s) (goto s t PIO), [EvTotal t n])
      | PIO => Some (mkrl (rate s) (used s) (total s) (owner s) (goto s t PDone), [EvIO t x])
      | _ => None
      end
    | OpSet v =>
      match at_ s t with
      | PStart => Some (mkrl (rate s) (used s) (total s) (owner s) (goto s t SLock), [])
      | SLock => match owner s with None => Some (mkrl (rate s) (used s) (total s) (Some t) (goto s t SSet), []) | Some _ => None end
      | SSet => Some (mkrl (clamp v) (used s) (total s) (owner s) (goto s t SUnlock), [])
      | SUnlock => Some (mkrl (rate s) (used s) (total s) None (goto s t PDone), [])
      | _ => None
      end
    end
  end.
(** A schedule; the events in order. *)
Fixpoint run (prog : nat -> op) (s : rl) (ls : list lab) : option (rl * list ev) :=
  match ls with
  | [] => Some (s, [])
  | l :: r => match step prog s l with
              | Some (s', e) => match run prog s' r with Some (s'', e') => Some (s'', e ++ e') | None => None end
              | None => None
              end
  end.
