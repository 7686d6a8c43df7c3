(** PropsRlio.v: the whole rate limiter, with Run and Stop (src/io/ratelimit.go): C89. *)
From Verif Require Import Base RateModel RateSpec RlioModel RlioSpec RlioProofs.

(* ------------------------------------------------------------------ *)
(** * C89 Two directions, one clock *)
(** What a direction does is a run of that direction alone (so C50-C52 hold of both), made of its own calls and of resets. *)
Theorem C89_directions : forall pw pr ls x x' es, iorun pw pr x ls = Some (x', es) ->
  exists lw lr, run pw (wdir x) lw = Some (wdir x', w_events es) /\ run pr (rdir x) lr = Some (rdir x', r_events es) /\
    (forall t, In (Go t) lw -> In (AtW t) ls) /\ (forall t, In (Go t) lr -> In (AtR t) ls).
Proof. intros pw pr ls x x' es. exact (directions pw pr ls x x' es). Qed.
Print Assumptions C89_directions.
(** And nothing that happens in one direction holds up the other. *)
Theorem C89_apart : forall pw pr ts x s tr,
  (run pr (rdir x) (map Go ts) = Some (s, tr) -> iorun pw pr x (map AtR ts) = Some (mkio (wdir x) s (ready x) (runs x) (stopped x), map InR tr)) /\
  (run pw (wdir x) (map Go ts) = Some (s, tr) -> iorun pw pr x (map AtW ts) = Some (mkio s (rdir x) (ready x) (runs x) (stopped x), map InW tr)).
Proof. intros pw pr ts x s tr. exact (conj (apart_r pw pr ts x s tr) (apart_w pw pr ts x s tr)). Qed.
Print Assumptions C89_apart.
(** Bytes admitted over a whole run, in terms of the ticks of the clock. *)
Theorem C89_throughput_written : forall pw pr up dn R L ls x es, 0 < R -> 0 <= up <= R -> limited pw R L -> R + L <= max64 -> 0 <= L ->
  iorun pw pr (limits_set up dn) ls = Some (x, es) -> admitted (w_events es) < (fires es + starts es + 1) * (R + L).
Proof. exact throughput_w. Qed.
Print Assumptions C89_throughput_written.
Theorem C89_throughput_read : forall pw pr up dn R L ls x es, 0 < R -> 0 <= dn <= R -> limited pr R L -> R + L <= max64 -> 0 <= L ->
  iorun pw pr (limits_set up dn) ls = Some (x, es) -> admitted (r_events es) < (fires es + starts es + 1) * (R + L).
Proof. exact throughput_r. Qed.
Print Assumptions C89_throughput_read.
Theorem C89_resets : forall pw pr up dn ls x es, iorun pw pr (limits_set up dn) ls = Some (x, es) ->
  resets (w_events es) <= fires es + starts es /\ resets (r_events es) <= fires es + starts es.
Proof. exact resets_bounded. Qed.
Print Assumptions C89_resets.
(** A Run ends through a Stop, a Stop returns by ending a Run, one for one. *)
Theorem C89_stop_pairs : forall pw pr up dn ls x es, iorun pw pr (limits_set up dn) ls = Some (x, es) ->
  NoDup (map fst (met es)) /\ NoDup (map snd (met es)) /\ (forall u, runs x u = UEnd <-> In u (map fst (met es))) /\ (forall s, stopped x s = true <-> In s (map snd (met es))).
Proof. exact stop_pairs. Qed.
Print Assumptions C89_stop_pairs.
Theorem C89_can_stop : forall pw pr x u s, runs x u <> UStart -> runs x u <> UEnd -> stopped x s = false ->
  exists ls x' es, iorun pw pr x ls = Some (x', es) /\ stopped x' s = true /\ runs x' u = UEnd.
Proof. exact can_stop. Qed.
Print Assumptions C89_can_stop.
(** While a Run is going on, one tick gives both directions their whole budget again, at most five steps of that Run later; *)
Theorem C89_refill : forall pw pr x u, runs x u <> UStart -> runs x u <> UEnd -> exists n x' es, (n <= 2)%nat /\ iorun pw pr x (repeat (AtRun u) n ++ Fire :: repeat (AtRun u) 3) = Some (x', es) /\
  fires es = 1 /\ wdir x' = refilled (wdir x) /\ rdir x' = refilled (rdir x) /\ runs x' u = USelect.
Proof. exact refill. Qed.
Print Assumptions C89_refill.
(** and whoever waits for budget gets through, under a limit that is not zero. *)
Theorem C89_lets_in_write : forall pw pr x u t n b, runs x u <> UStart -> runs x u <> UEnd -> at_ (wdir x) t = PSpin -> pw t = OpIO n b -> 0 < rate (wdir x) ->
  exists ls x' es, iorun pw pr x ls = Some (x', es) /\ fires es = 1 /\ In (EvIO t b) (w_events es) /\ at_ (wdir x') t = PDone /\ owner (wdir x') = None.
Proof. exact let_in_w. Qed.
Print Assumptions C89_lets_in_write.
Theorem C89_lets_in_read : forall pw pr x u t n b, runs x u <> UStart -> runs x u <> UEnd -> at_ (rdir x) t = PSpin -> pr t = OpIO n b -> 0 < rate (rdir x) ->
  exists ls x' es, iorun pw pr x ls = Some (x', es) /\ fires es = 1 /\ In (EvIO t b) (r_events es) /\ at_ (rdir x') t = PDone /\ owner (rdir x') = None.
Proof. exact let_in_r. Qed.
Print Assumptions C89_lets_in_read.
(** While no Run is going on and none begins, no counter is reset and no Stop returns. *)
Theorem C89_idle : forall pw pr x ls x' es, idle x -> starts es = 0 -> iorun pw pr x ls = Some (x', es) ->
  idle x' /\ no_tick (w_events es) /\ no_tick (r_events es) /\ met es = [].
Proof. exact no_refill. Qed.
Print Assumptions C89_idle.
(** So a call that has found its budget spent waits for ever, and so does everyone behind it. *)
Theorem C89_idle_write_stuck : forall pw pr up dn ls0 x0 es0 t, sizes_nonneg pw -> iorun pw pr (limits_set up dn) ls0 = Some (x0, es0) -> idle x0 ->
  at_ (wdir x0) t = PSpin -> rate (wdir x0) <= used (wdir x0) -> min64 <= used (wdir x0) ->
  forall ls x es, iorun pw pr x0 ls = Some (x, es) -> starts es = 0 -> used (wdir x0) + bypassed (w_events es) <= max64 ->
  at_ (wdir x) t = PSpin /\ owner (wdir x) = Some t /\ rate (wdir x) = rate (wdir x0) /\ admitted (w_events es) = 0.
Proof. exact stuck_w. Qed.
Print Assumptions C89_idle_write_stuck.
Theorem C89_idle_read_stuck : forall pw pr up dn ls0 x0 es0 t, sizes_nonneg pr -> iorun pw pr (limits_set up dn) ls0 = Some (x0, es0) -> idle x0 ->
  at_ (rdir x0) t = PSpin -> rate (rdir x0) <= used (rdir x0) -> min64 <= used (rdir x0) ->
  forall ls x es, iorun pw pr x0 ls = Some (x, es) -> starts es = 0 -> used (rdir x0) + bypassed (r_events es) <= max64 ->
  at_ (rdir x) t = PSpin /\ owner (rdir x) = Some t /\ rate (rdir x) = rate (rdir x0) /\ admitted (r_events es) = 0.
Proof. exact stuck_r. Qed.
Print Assumptions C89_idle_read_stuck.

(** A new limiter limits nothing: until a limit is set no call ever waits. *)
Theorem C89_new_unlimited : forall pw pr ls x es, (forall t v, pw t <> OpSet v) -> (forall t v, pr t <> OpSet v) -> iorun pw pr NewRateLimitIO ls = Some (x, es) ->
  admitted (w_events es) = 0 /\ admitted (r_events es) = 0 /\
  (forall t, at_ (wdir x) t <> PDone -> exists r, iostep pw pr x (AtW t) = Some r) /\ (forall t, at_ (rdir x) t <> PDone -> exists r, iostep pw pr x (AtR t) = Some r).
Proof. exact new_unlimited. Qed.
Print Assumptions C89_new_unlimited.
(** Setting both limits gives [limits_set], with those two calls made. *)
Theorem C89_new_set : forall pw pr t u up dn, pw t = OpSet up -> pr u = OpSet dn -> min64 <= up -> min64 <= dn ->
  exists x, iorun pw pr NewRateLimitIO (repeat (AtW t) 4 ++ repeat (AtR u) 4) = Some (x, []) /\ rate (wdir x) = Z.max NoLimit up /\ rate (rdir x) = Z.max NoLimit dn /\
    used (wdir x) = 0 /\ used (rdir x) = 0 /\ total (wdir x) = 0 /\ total (rdir x) = 0 /\ owner (wdir x) = None /\ owner (rdir x) = None /\
    (forall v, v <> t -> at_ (wdir x) v = PStart) /\ (forall v, v <> u -> at_ (rdir x) v = PStart) /\ ready x = false /\ (forall v, runs x v = UStart) /\ (forall v, stopped x v = false).
Proof. exact new_set. Qed.
Print Assumptions C89_new_set.

(** Limit 5 for writing, 7 for reading; Run begins, is stopped; writer 0 then spends the budget, writer 1 waits; reader 0 is not held up; a second Stop has
    nobody to meet. *)
Definition twenty : bytes := repeat x00 20.
Definition calls (t : nat) : op := OpIO 20 twenty.
Definition sched : list iolab :=
  [AtRun 0; AtRun 0; Fire; Fire; AtRun 0; AtRun 0; AtRun 0; Meet 0 3] ++ repeat (AtW 0) 7 ++ repeat (AtW 1) 4 ++ repeat (AtR 0) 7.
Example C89_case : exists x es, iorun calls calls (limits_set 5 7) sched = Some (x, es) /\ idle x /\ met es = [(0, 3)%nat] /\ fires es = 2 /\ starts es = 1 /\ resets (w_events es) = 2 /\
  admitted (w_events es) = 20 /\ admitted (r_events es) = 20 /\ at_ (wdir x) 0%nat = PDone /\ at_ (wdir x) 1%nat = PSpin /\ rate (wdir x) <= used (wdir x) /\ at_ (rdir x) 0%nat = PDone /\
  iorun calls calls x [Meet 0 4] = None /\ limited calls 5 20.
Proof.
  eexists _, _. split; [vm_compute; reflexivity|]. split; [intros [|u]; vm_compute; auto|]. split; [vm_compute; reflexivity|]. split; [vm_compute; reflexivity|]. split; [vm_compute; reflexivity|]. split; [vm_compute; reflexivity|].
  split; [vm_compute; reflexivity|]. split; [vm_compute; reflexivity|]. split; [vm_compute; reflexivity|]. split; [vm_compute; reflexivity|]. split; [vm_compute; discriminate|]. split; [vm_compute; reflexivity|].
  split; [vm_compute; reflexivity|]. split; intros t; unfold calls; intros; [assert (n = 20) by congruence; lia|discriminate].
Qed.
Example C89_case_new : exists x es, iorun calls calls NewRateLimitIO [AtR 0; AtW 1; AtR 0; AtR 0; AtW 1] = Some (x, es) /\ at_ (rdir x) 0%nat = PBypTotal /\ (forall t v, calls t <> OpSet v).
Proof. eexists _, _. split; [vm_compute; reflexivity|]. split; [vm_compute; reflexivity|discriminate]. Qed.
(** Run goes on; writer 0 spends the budget, writer 1 waits. *)
Example C89_case_waits : exists x es, iorun calls calls (limits_set 5 7) ([AtRun 0; AtRun 0] ++ repeat (AtW 0) 7 ++ repeat (AtW 1) 4) = Some (x, es) /\ runs x 0 = USelect /\
  at_ (wdir x) 1%nat = PSpin /\ rate (wdir x) = 5 /\ used (wdir x) = 20.
Proof. eexists _, _. split; [vm_compute; reflexivity|]. repeat split; vm_compute; reflexivity. Qed.
