(** RateSpec.v: specification vocabulary for the rate limiter, in terms of the record of events. *)
From Verif Require Import Base RateModel.

Definition no_tick (tr : list ev) : Prop := ~ In EvTick tr.
(** Bytes admitted under a limit, bytes of unlimited calls, bytes counted in the total, bytes moved. *)
Definition admitted (tr : list ev) : Z := fold_right (fun e a => match e with EvAdmit _ n => n + a | _ => a end) 0 tr.
Definition bypassed (tr : list ev) : Z := fold_right (fun e a => match e with EvBypass _ n => n + a | _ => a end) 0 tr.
Definition counted (tr : list ev) : Z := fold_right (fun e a => match e with EvTotal _ n => n + a | _ => a end) 0 tr.
Definition moved (tr : list ev) : Z := fold_right (fun e a => match e with EvIO _ x => zlen x + a | _ => a end) 0 tr.
(** What call t moved, and what it added to the total. *)
Definition io_of (t : nat) (tr : list ev) : list bytes := flat_map (fun e => match e with EvIO u x => if Nat.eqb u t then [x] else [] | _ => [] end) tr.
Definition total_of (t : nat) (tr : list ev) : list Z := flat_map (fun e => match e with EvTotal u n => if Nat.eqb u t then [n] else [] | _ => [] end) tr.
(** Calls with sizes between 0 and L, and limits set to values between 0 and R. *)
Definition limited (prog : nat -> op) (R L : Z) : Prop :=
  (forall t n x, prog t = OpIO n x -> 0 <= n <= L) /\ (forall t v, prog t = OpSet v -> 0 <= v <= R).
Definition sizes_nonneg (prog : nat -> op) : Prop := forall t n x, prog t = OpIO n x -> 0 <= n.
(** Every limit set is a real one: neither 0 nor NoLimit. *)
Definition positive (prog : nat -> op) : Prop := forall t v, prog t = OpSet v -> 0 < v.
