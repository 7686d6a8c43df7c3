(** RlioSpec.v: vocabulary for the whole rate limiter, in terms of the record of events. *)
From Verif Require Import Base RateModel RlioModel.

(** What one direction sees. *)
Definition w_events (es : list ioev) : list ev := flat_map (fun e => match e with InW e => [e] | _ => [] end) es.
Definition r_events (es : list ioev) : list ev := flat_map (fun e => match e with InR e => [e] | _ => [] end) es.
(** Ticks of the clock, calls of Run that began, resets of a direction's counter. *)
Definition fires (es : list ioev) : Z := zlen (filter (fun e => match e with EvFire => true | _ => false end) es).
Definition starts (es : list ioev) : Z := zlen (filter (fun e => match e with EvStart _ => true | _ => false end) es).
Definition resets (tr : list ev) : Z := zlen (filter (fun e => match e with EvTick => true | _ => false end) tr).
(** Which Run ended through which Stop. *)
Definition met (es : list ioev) : list (nat * nat) := flat_map (fun e => match e with EvMet u s => [(u, s)] | _ => [] end) es.
(** No Run is going on. *)
Definition idle (x : rlio) : Prop := forall u, runs x u = UStart \/ runs x u = UEnd.
(** The limiter as NewSwarm leaves it (swarm.go:89-91): limits set, nothing started. *)
Definition limits_set (up dn : Z) : rlio := mkio (init up) (init dn) false (fun _ => UStart) (fun _ => false).
(** A direction with its whole budget again. *)
Definition refilled (d : rl) : rl := mkrl (rate d) 0 (total d) (owner d) (at_ d).
