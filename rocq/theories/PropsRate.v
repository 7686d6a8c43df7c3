(** PropsRate.v: the rate limiter (src/io/ratelimit.go): C50-C52. *)
From Verif Require Import Base RateModel RateSpec RateProofs.

(* ------------------------------------------------------------------ *)
(** * C50 The limit *)
Theorem C50_every_admission : forall prog R L r ls s tr, 0 < R -> 0 <= r <= R -> limited prog R L -> R + L <= max64 -> run prog (init r) ls = Some (s, tr) ->
  forall a w t n b, tr = a ++ w ++ EvAdmit t n :: b -> no_tick w -> admitted w < R.
Proof. exact limit_admission. Qed.
Print Assumptions C50_every_admission.
Theorem C50_window : forall prog R L r ls s tr, 0 < R -> 0 <= r <= R -> limited prog R L -> R + L <= max64 -> 0 <= L -> run prog (init r) ls = Some (s, tr) ->
  forall a w b, tr = a ++ w ++ b -> no_tick w -> admitted w < R + L.
Proof. exact limit_window. Qed.
Print Assumptions C50_window.
(** Two writers of 20 bytes against a limit of 5: both are admitted, in different windows; the bound 5 + 20 is approached. *)
Definition twenty : bytes := repeat x00 20.
Definition two_writers (t : nat) : op := OpIO 20 twenty.
Definition write1 (t : nat) : list lab := [Go t; Go t; Go t; Go t; Go t].
Example C50_case : limited two_writers 5 20 /\
  option_map snd (run two_writers (init 5) (write1 0 ++ [Tick] ++ write1 1 ++ [Go 1; Go 1; Go 0; Go 0])) =
  Some [EvAdmit 0 20; EvTick; EvAdmit 1 20; EvTotal 1 20; EvIO 1 twenty; EvTotal 0 20; EvIO 0 twenty] /\
  option_map (fun r => at_ (fst r) 1%nat) (run two_writers (init 5) (write1 0 ++ [Go 1%nat; Go 1%nat; Go 1%nat; Go 1%nat])) = Some PSpin.
Proof. split; [split; intros t; unfold two_writers; intros; [assert (n = 20) by congruence; lia|discriminate]|]. split; reflexivity. Qed.
(** The limit is on admission, not on the bytes that reach the writer: however large K, with the limit at 1 there is a schedule in which K bytes are
    written within one window. *)
Theorem C50_written_bytes_refuted : forall K, exists ls s a w, run ones (init 1) ls = Some (s, a ++ w) /\ no_tick w /\ moved w = Z.of_nat K.
Proof. exact written_unbounded. Qed.
Print Assumptions C50_written_bytes_refuted.

(* ------------------------------------------------------------------ *)
(** * C51 The wedge *)
(** A call waiting with the limit at 0 or NoLimit waits in every continuation, keeps the lock, and no call that changes the limit gets done. With the limit
    at 0 no other call gets past the lock either. (The counter is 64 bits: unlimited calls could push it over the edge, to a negative value.) *)
Theorem C51_wedge : forall prog r ls0 s0 tr0 t, sizes_nonneg prog -> run prog (init r) ls0 = Some (s0, tr0) -> at_ s0 t = PSpin -> rate s0 <= 0 -> 0 <= used s0 ->
  forall ls s tr, run prog s0 ls = Some (s, tr) -> used s0 + bypassed tr <= max64 ->
  at_ s t = PSpin /\ owner s = Some t /\ rate s = rate s0 /\
  (forall u v, prog u = OpSet v -> at_ s0 u <> PDone -> at_ s u = PStart \/ at_ s u = SLock) /\
  (rate s0 <> NoLimit -> forall u n x, prog u = OpIO n x -> at_ s0 u = PStart \/ at_ s0 u = PLock -> at_ s u = PStart \/ at_ s u = PLock).
Proof. exact wedge_top. Qed.
Print Assumptions C51_wedge.
(** Reached with the limit at 0; and with a limit of 5 that call 1 lifts between call 0's check and its locking. *)
Definition lifter (t : nat) : op := match t with O => OpIO 1 (B "x") | _ => OpSet NoLimit end.
Example C51_case :
  (exists s, run lifter (init 0) [Go 0%nat; Go 0%nat] = Some (s, []) /\ at_ s 0%nat = PSpin /\ rate s <= 0 /\ used s = 0) /\
  (exists s, run lifter (init 5) [Go 0%nat; Go 1%nat; Go 1%nat; Go 1%nat; Go 1%nat; Go 0%nat] = Some (s, []) /\ at_ s 0%nat = PSpin /\ rate s = NoLimit /\ used s = 0 /\ at_ s 1%nat = PDone).
Proof. split; eexists; repeat split; try reflexivity. Qed.
(** As long as every limit set is positive, every call can still finish, from every reachable state. *)
Theorem C51_otherwise_live : forall prog r ls s tr t, 0 < r -> positive prog -> run prog (init r) ls = Some (s, tr) ->
  exists ls' s' tr', run prog s ls' = Some (s', tr') /\ at_ s' t = PDone.
Proof. exact live_top. Qed.
Print Assumptions C51_otherwise_live.
Definition tuner (t : nat) : op := match t with O => OpIO 1 (B "x") | _ => OpSet 7 end.
Example C51_live_case : positive tuner /\ exists s, run tuner (init 5) [Go 0%nat; Go 0%nat; Go 1%nat] = Some (s, []) /\ at_ s 0%nat = PSpin /\ at_ s 1%nat = SLock.
Proof. split; [intros [|t] v H; [discriminate|cbn in H; assert (v = 7) by congruence; lia]|]. eexists. repeat split; reflexivity. Qed.
(** Ticks come only from Run. Where it has ended (Stop) or was not started, a call that finds the budget spent waits for ever, keeps the lock, and nobody is
    admitted any more. *)
Theorem C51_no_ticks : forall prog r ls0 s0 tr0 t, sizes_nonneg prog -> run prog (init r) ls0 = Some (s0, tr0) -> at_ s0 t = PSpin -> rate s0 <= used s0 -> min64 <= used s0 ->
  forall ls s tr, ~ In Tick ls -> run prog s0 ls = Some (s, tr) -> used s0 + bypassed tr <= max64 -> at_ s t = PSpin /\ owner s = Some t /\ rate s = rate s0 /\ admitted tr = 0.
Proof. exact stopped_top. Qed.
Print Assumptions C51_no_ticks.
Example C51_no_ticks_case : exists s tr, run two_writers (init 5) [Go 0%nat; Go 0%nat; Go 0%nat; Go 0%nat; Go 0%nat; Go 1%nat; Go 1%nat] = Some (s, tr) /\ at_ s 1%nat = PSpin /\ rate s = 5 /\ used s = 20.
Proof. eexists _, _. split; [vm_compute; reflexivity|]. vm_compute. auto. Qed.

(* ------------------------------------------------------------------ *)
(** * C52 Totals and exactly-once *)
Theorem C52_totals : forall prog r ls s tr, run prog (init r) ls = Some (s, tr) ->
  total s = i64 (counted tr) /\
  (forall t n x, prog t = OpIO n x -> (io_of t tr = [] \/ io_of t tr = [x]) /\ (total_of t tr = [] \/ total_of t tr = [n]) /\ (at_ s t = PDone -> io_of t tr = [x] /\ total_of t tr = [n])) /\
  (forall t x, In (EvIO t x) tr -> exists n, prog t = OpIO n x).
Proof. exact totals_top. Qed.
Print Assumptions C52_totals.
Example C52_case : exists s tr, run two_writers (init NoLimit) [Go 0%nat; Go 1%nat; Go 0%nat; Go 1%nat; Go 0%nat; Go 1%nat; Go 0%nat] = Some (s, tr) /\ total s = 20 /\ at_ s 0%nat = PDone /\ at_ s 1%nat = PBypTotal /\
  io_of 0 tr = [twenty] /\ io_of 1 tr = [twenty].
Proof. eexists _, _. split; [vm_compute; reflexivity|]. vm_compute. auto. Qed.
(** For Read the total counts what was asked for, not what arrived. *)
Theorem C52_read_total_refuted : exists prog s tr, run prog (init NoLimit) [Go 0%nat; Go 0%nat; Go 0%nat; Go 0%nat] = Some (s, tr) /\ at_ s 0%nat = PDone /\ moved tr = 1 /\ total s = 16384.
Proof. exists (fun _ => OpIO 16384 (B "x")). eexists _, _. split; [vm_compute; reflexivity|]. vm_compute. auto. Qed.
Print Assumptions C52_read_total_refuted.
(** The limit in force is the first one or one that was set, with everything below -1 taken as -1 (no limit); the only call to have set one has set it. *)
Theorem C52_limit : forall prog r ls s tr, run prog (init r) ls = Some (s, tr) ->
  (rate s = r \/ exists t v, prog t = OpSet v /\ (at_ s t = SUnlock \/ at_ s t = PDone) /\ rate s = Z.max (-1) v) /\
  (forall t v, prog t = OpSet v -> at_ s t = PDone -> (forall u v', prog u = OpSet v' -> u <> t -> at_ s u = PStart \/ at_ s u = SLock) -> rate s = Z.max (-1) v).
Proof. exact rate_top. Qed.
Print Assumptions C52_limit.
Example C52_limit_case : exists s, run (fun _ => OpSet (-7)) (init 5) [Go 0%nat; Go 1%nat; Go 0%nat; Go 0%nat; Go 0%nat] = Some (s, []) /\ at_ s 0%nat = PDone /\ rate s = -1 /\ at_ s 1%nat = SLock.
Proof. eexists. split; [vm_compute; reflexivity|]. vm_compute. auto. Qed.
