(** RaceSpec.v: happens-before and data races, after "The Go Memory Model" (go.dev/ref/mem), on traces of the actions of goroutines. *)
From Verif Require Import Base.

(** The goroutines of the process: main, runListener, RateLimitIO.Run, the goroutine of the n-th accepted connection and that of the
    n-th peer of the tracker's list (each becomes its handler's Loop), and what the handler with number k has started. *)
Inductive gid := GMain | GListen | GClock | GIn (n : nat) | GOut (n : nat) | GPing (k : nat) | GRecv (k : nat) | GRead (k : nat) | GReq (k : nat).
(** Memory: what NewSwarm made and nobody assigns to later (the Swarm, the torrent, wRate, our bitfield's bits...); the first five
    bytes of that bitfield; the tracker's nodes, lists, sets and requests; runListener's phs; the limiter's wUsed, rUsed and totals;
    and of a handler: what NewPeerHandler sets and nobody assigns to later, ph.bf, ph.buf, its ReadLoop's fields, its ReadLoop's buffer. *)
Inductive loc := XSwarm | XHead | XTrack | XPhs | XUsed | XRUsed | XTotal | XPeer (k : nat) | XBf (k : nat) | XBuf (k : nat) | XLoop (k : nat) | XRecv (k : nat).
Inductive mutex := MLog | MTrack | MWrite.
(** Channels of capacity one. *)
Inductive chan := CBuf (k : nat) | CReady (k : nat).

Inductive act :=
| Rd (x : loc) | Wr (x : loc)      (* ordinary read, ordinary write *)
| At (x : loc)                     (* a write of package sync/atomic *)
| Lk (m : mutex) | Ul (m : mutex)
| Snd (c : chan) | Rcv (c : chan)
| Meet (g : gid)                   (* send on or receive from a channel without buffer; g is on the other end *)
| Go (g : gid)                     (* go statement *)
| Dn (k : nat) | Wt (k : nat).     (* Done on a WaitGroup; its Wait returns *)
Definition event : Type := gid * act.
(** A trace, in the order of execution. *)
Definition trace := list event.

Definition loc_eqb (x y : loc) : bool :=
  match x, y with
  | XSwarm, XSwarm | XHead, XHead | XTrack, XTrack | XPhs, XPhs | XUsed, XUsed | XRUsed, XRUsed | XTotal, XTotal => true
  | XPeer a, XPeer b | XBf a, XBf b | XBuf a, XBuf b | XLoop a, XLoop b | XRecv a, XRecv b => Nat.eqb a b
  | _, _ => false
  end.
Definition chan_eqb (c d : chan) : bool := match c, d with CBuf a, CBuf b | CReady a, CReady b => Nat.eqb a b | _, _ => false end.

(** An event belongs to its goroutine; a meeting belongs to both. *)
Definition of_ (e : event) (g : gid) : Prop := fst e = g \/ snd e = Meet g.
(** How many sends on, receives from, c there are. *)
Definition sends (c : chan) (t : trace) : nat := List.length (filter (fun e => match snd e with Snd d => chan_eqb c d | _ => false end) t).
Definition recvs (c : chan) (t : trace) : nat := List.length (filter (fun e => match snd e with Rcv d => chan_eqb c d | _ => false end) t).

(** Happens before, between positions of a trace. *)
Inductive hb (t : trace) : nat -> nat -> Prop :=
| hb_program : forall i j a b g, (i < j)%nat -> nth_error t i = Some a -> nth_error t j = Some b -> of_ a g -> of_ b g -> hb t i j
| hb_go : forall i j a b g, (i < j)%nat -> nth_error t i = Some (a, Go g) -> nth_error t j = Some b -> of_ b g -> hb t i j
| hb_mutex : forall i j a b m, (i < j)%nat -> nth_error t i = Some (a, Ul m) -> nth_error t j = Some (b, Lk m) -> hb t i j
(* the k-th send happens before the k-th receive is over, and the k-th receive before the (k+1)-th send *)
| hb_send : forall i j a b c, (i < j)%nat -> nth_error t i = Some (a, Snd c) -> nth_error t j = Some (b, Rcv c) ->
    sends c (firstn i t) = recvs c (firstn j t) -> hb t i j
| hb_room : forall i j a b c, (i < j)%nat -> nth_error t i = Some (a, Rcv c) -> nth_error t j = Some (b, Snd c) ->
    S (recvs c (firstn i t)) = sends c (firstn j t) -> hb t i j
(* more than is promised: an atomic operation need not have been observed by the later one *)
| hb_atomic : forall i j a b x, (i < j)%nat -> nth_error t i = Some (a, At x) -> nth_error t j = Some (b, At x) -> hb t i j
| hb_done : forall i j a b k, (i < j)%nat -> nth_error t i = Some (a, Dn k) -> nth_error t j = Some (b, Wt k) -> hb t i j
| hb_trans : forall i j k, hb t i j -> hb t j k -> hb t i k.

Definition access (a : act) (x : loc) : Prop := a = Rd x \/ a = Wr x \/ a = At x.
(** Two accesses to one place of which one writes, and not both are atomic. *)
Definition conflict (a b : act) (x : loc) : Prop :=
  access a x /\ access b x /\ ~ (a = Rd x /\ b = Rd x) /\ ~ (a = At x /\ b = At x).
(** A data race: conflicting accesses of two goroutines, neither before the other. *)
Definition race (t : trace) (i j : nat) (x : loc) : Prop :=
  exists e f, nth_error t i = Some e /\ nth_error t j = Some f /\ fst e <> fst f /\ conflict (snd e) (snd f) x /\ ~ hb t i j /\ ~ hb t j i.
