(** PropsRace.v: the property theorems about data races (C107). *)
From Coq Require Import ZifyBool ZifyNat ZifyN.
From Verif Require Import Base BitfieldModel WireModel HandshakeModel LayoutModel PptModel PeerModel FsModel SwarmModel SessionModel RunModel ProcModel RaceSpec RaceModel RaceProofs RaceInvProofs RaceMemProofs RaceConnProofs RaceTopProofs RaceFoundProofs RaceDoneSpec RaceDoneProofs.
From Verif Require Import HandshakeSpec PropsFs PropsSwarm PropsPpt PropsSession PropsRun PropsProc.

(** The traces are those of the executions of the process, all of them and no others. *)
Theorem C107_executions : forall logs pc ls t w peers p, prun pc ls (started t w peers) = Some p <->
  exists rls s, map erase rls = ls /\ rrun logs pc rls (rstarted logs t w peers) = Some s /\ r_p s = p.
Proof. exact runs_top. Qed.
Print Assumptions C107_executions.
(** and they have a write to whatever changes in the shared state and in the memory of the handlers. *)
Theorem C107_records : forall logs pc l s s', rstep logs pc l s = Some s' -> exists es, r_t s' = r_t s ++ es /\ recorded (r_p s) (r_p s') es.
Proof. exact rstep_recorded. Qed.
Print Assumptions C107_records.
(** A connection's goroutine writes to the bitfield's head exactly if it comes to send our bitfield, and to phs exactly if it is let in. *)
Theorem C107_greeting : forall logs pc p port r wr u j s s', (List.length (rd_bytes r) <= 68)%nat -> rstep logs pc (RStep (PShake p port r wr u) j) s = Some s' ->
  exists n es, nth_error (r_wait s) j = Some n /\ r_t s' = r_t s ++ es /\ (forall e, In e es -> fst e = GIn n) /\
  (wrote XHead es <-> rd_err r = false /\ is_handshake (pad68 (rd_bytes r)) (sc_ih (pc_c pc)) /\ w_handshake wr = true) /\
  (wrote XPhs es <-> rd_err r = false /\ is_handshake (pad68 (rd_bytes r)) (sc_ih (pc_c pc)) /\ w_handshake wr = true /\ w_bitfield wr = true).
Proof. exact shake_head. Qed.
Print Assumptions C107_greeting.
(** In no execution is there a data race other than these two: goroutines of different accepted connections on runListener's phs or on
    the first bytes of the swarm's bitfield; Run and a handler's recv on the limiter's wUsed, without a rate only by Run's first assignment. *)
Theorem C107_only_races : forall logs pc ls t w peers s i j x, rrun logs pc ls (rstarted logs t w peers) = Some s -> race (r_t s) i j x ->
  exists e f, nth_error (r_t s) i = Some e /\ nth_error (r_t s) j = Some f /\
    (((x = XPhs \/ x = XHead) /\ exists n m, n <> m /\ fst e = GIn n /\ fst f = GIn m) \/
     (x = XUsed /\ ((fst e = GClock /\ exists k, fst f = GRecv k) \/ (fst f = GClock /\ exists k, fst e = GRecv k)) /\
      (pc_rate pc = -1 -> snd e = Wr XUsed \/ snd f = Wr XUsed))).
Proof. exact races_top. Qed.
Print Assumptions C107_only_races.
(** Any two accepted connections that get that far race on both. *)
Theorem C107_connections_race : forall pc ls t w peers s i j e f n m x, rrun false pc ls (rstarted false t w peers) = Some s -> x = XPhs \/ x = XHead ->
  nth_error (r_t s) i = Some e -> nth_error (r_t s) j = Some f -> fst e = GIn n -> fst f = GIn m -> n <> m -> conflict (snd e) (snd f) x -> race (r_t s) i j x.
Proof. exact appends_top. Qed.
Print Assumptions C107_connections_race.
(** Run and a recv race on wUsed whenever no atomic operation on it comes between. *)
Theorem C107_limiter_race : forall logs pc ls t w peers s i j e f k, rrun logs pc ls (rstarted logs t w peers) = Some s -> (i < j)%nat ->
  nth_error (r_t s) i = Some e -> nth_error (r_t s) j = Some f -> conflict (snd e) (snd f) XUsed ->
  (fst e = GClock /\ fst f = GRecv k) \/ (fst f = GClock /\ fst e = GRecv k) -> (forall m a, (i < m < j)%nat -> nth_error (r_t s) m <> Some (a, At XUsed)) -> race (r_t s) i j XUsed.
Proof. exact used_top. Qed.
Print Assumptions C107_limiter_race.
(** Run's first assignment to it races with everything the handlers have done to it before. *)
Theorem C107_late_start_race : forall logs pc ls t w peers s i j e k, rrun logs pc ls (rstarted logs t w peers) = Some s -> (i < j)%nat ->
  nth_error (r_t s) i = Some e -> fst e = GRecv k -> access (snd e) XUsed -> nth_error (r_t s) j = Some (GClock, Wr XUsed) -> race (r_t s) i j XUsed.
Proof. exact start_top. Qed.
Print Assumptions C107_late_start_race.

(** Two connections accepted, the second greeted first; a request on the first one, which waits for room, before Run begins, and a tick. *)
Definition shakes (k : Z) (j : nat) : rlabel := RStep (PShake (IPv4 x0a x00 x00 x01) 4000 (mkread (handshake_of (repeat x00 8) ih1 (peer_id k)) false) (HandshakeModel.mkw true true) None) j.
Definition runr : list rlabel := [RStep PAccept 0; RStep PAccept 0; shakes 2 1; shakes 1 0] ++ map (fun l => RStep l 0) ([PConn 0 GRecvStart] ++ hears 0 [MRequest 0 1 1] ++ [PConn 0 GSpin]) ++ [RClock; RStep PTick 0].
Definition afterr (logs : bool) : rstate := match rrun logs slow1 runr (rstarted logs tracker3 open_part []) with Some s => s | None => rstarted logs tracker3 open_part [] end.
Definition accesses (x : loc) (t : trace) : list (nat * event) :=
  filter (fun p => match snd (snd p) with Rd y | Wr y | At y => loc_eqb x y | _ => false end) (combine (seq 0 (List.length t)) t).
Lemma afterr_run logs : rrun logs slow1 runr (rstarted logs tracker3 open_part []) = Some (afterr logs).
Proof.
  unfold afterr. assert (Hb : match rrun logs slow1 runr (rstarted logs tracker3 open_part []) with Some _ => true | None => false end = true) by (destruct logs; vm_compute; reflexivity).
  destruct (rrun logs slow1 runr _); [reflexivity|discriminate].
Qed.
Lemma accesses_at x t i e : In (i, e) (accesses x t) -> nth_error t i = Some e.
Proof.
  unfold accesses. intros H. apply filter_In in H. destruct H as [H _]. assert (G : forall (l : trace) n i e, In (i, e) (combine (seq n (List.length l)) l) -> (n <= i)%nat /\ nth_error l (i - n) = Some e).
  { clear. induction l as [|a l IH]; intros n i e H; [destruct H|]. destruct H as [H|H]; [injection H as <- <-; split; [lia|]; now rewrite Nat.sub_diag|]. destruct (IH _ _ _ H) as [A B]. split; [lia|]. replace (i - n)%nat with (S (i - S n)) by lia. exact B. }
  destruct (G t 0%nat i e H) as [_ X]. now rewrite Nat.sub_0_r in X.
Qed.
Example C107_case_trace : accesses XPhs (r_t (afterr false)) = [(9%nat, (GListen, Wr XPhs)); (22%nat, (GIn 1, Rd XPhs)); (23%nat, (GIn 1, Wr XPhs)); (36%nat, (GIn 0, Rd XPhs)); (37%nat, (GIn 0, Wr XPhs))] /\
  accesses XHead (r_t (afterr false)) = [(1%nat, (GMain, Wr XHead)); (16%nat, (GIn 1, Wr XHead)); (17%nat, (GIn 1, Rd XHead)); (30%nat, (GIn 0, Wr XHead)); (31%nat, (GIn 0, Rd XHead))] /\
  accesses XUsed (r_t (afterr false)) = [(3%nat, (GMain, Wr XUsed)); (61%nat, (GRecv 0, Rd XUsed)); (64%nat, (GClock, Wr XUsed)); (65%nat, (GClock, At XUsed))].
Proof. vm_compute. repeat split. Qed.
Lemma case_races s : rrun false slow1 runr (rstarted false tracker3 open_part []) = Some s ->
  (forall m, (61 < m < 65)%nat -> match nth_error (r_t s) m with Some (_, At XUsed) => false | _ => true end = true) ->
  accesses XPhs (r_t s) = [(9%nat, (GListen, Wr XPhs)); (22%nat, (GIn 1, Rd XPhs)); (23%nat, (GIn 1, Wr XPhs)); (36%nat, (GIn 0, Rd XPhs)); (37%nat, (GIn 0, Wr XPhs))] /\
  accesses XHead (r_t s) = [(1%nat, (GMain, Wr XHead)); (16%nat, (GIn 1, Wr XHead)); (17%nat, (GIn 1, Rd XHead)); (30%nat, (GIn 0, Wr XHead)); (31%nat, (GIn 0, Rd XHead))] /\
  accesses XUsed (r_t s) = [(3%nat, (GMain, Wr XUsed)); (61%nat, (GRecv 0, Rd XUsed)); (64%nat, (GClock, Wr XUsed)); (65%nat, (GClock, At XUsed))] ->
  race (r_t s) 23 37 XPhs /\ race (r_t s) 16 31 XHead /\ race (r_t s) 61 64 XUsed /\ race (r_t s) 61 65 XUsed.
Proof.
  intros Hr Hn (T1 & T2 & T3).
  assert (C : forall a b x, (a, b) = (Wr x, Wr x) \/ (a, b) = (Wr x, Rd x) \/ (a, b) = (Rd x, At x) -> conflict a b x).
  { clear. intros a b x [H|[H|H]]; injection H as -> ->; unfold conflict, access; intuition discriminate. }
  assert (P : forall x i e, In (i, e) (accesses x (r_t s)) -> nth_error (r_t s) i = Some e) by (intros x i e; apply accesses_at).
  split; [|split; [|split]].
  - apply (C107_connections_race _ _ _ _ _ _ 23 37 (GIn 1, Wr XPhs) (GIn 0, Wr XPhs) 1 0 XPhs Hr); [now left|apply (P XPhs); rewrite T1; cbn; tauto|apply (P XPhs); rewrite T1; cbn; tauto|reflexivity|reflexivity|discriminate|apply C; now left].
  - apply (C107_connections_race _ _ _ _ _ _ 16 31 (GIn 1, Wr XHead) (GIn 0, Rd XHead) 1 0 XHead Hr); [now right|apply (P XHead); rewrite T2; cbn; tauto|apply (P XHead); rewrite T2; cbn; tauto|reflexivity|reflexivity|discriminate|apply C; right; now left].
  - apply (C107_late_start_race _ _ _ _ _ _ _ 61 64 (GRecv 0, Rd XUsed) 0 Hr); [lia|apply (P XUsed); rewrite T3; cbn; tauto|reflexivity|now left|apply (P XUsed); rewrite T3; cbn; tauto].
  - apply (C107_limiter_race _ _ _ _ _ _ _ 61 65 (GRecv 0, Rd XUsed) (GClock, At XUsed) 0 Hr); [lia|apply (P XUsed); rewrite T3; cbn; tauto|apply (P XUsed); rewrite T3; cbn; tauto|apply C; right; now right|right; split; reflexivity|].
    intros m a Hm X. specialize (Hn m Hm). rewrite X in Hn. discriminate.
Qed.
Example C107_case : race (r_t (afterr false)) 23 37 XPhs /\ race (r_t (afterr false)) 16 31 XHead /\ race (r_t (afterr false)) 61 64 XUsed /\ race (r_t (afterr false)) 61 65 XUsed.
Proof.
  apply (case_races _ (afterr_run false)); [|exact C107_case_trace]. intros m Hm. assert (Hm' : m = 62%nat \/ m = 63%nat \/ m = 64%nat) by (clear - Hm; lia). clear Hm. destruct Hm' as [->|[->| ->]]; vm_compute; reflexivity.
Qed.
(** The process is not free of data races. *)
Theorem C107_no_races_refuted : exists logs pc ls t w peers s i j x, rrun logs pc ls (rstarted logs t w peers) = Some s /\ race (r_t s) i j x.
Proof. exists false, slow1, runr, tracker3, open_part, [], (afterr false), 23%nat, 37%nat, XPhs. split; [apply afterr_run|apply C107_case]. Qed.
Print Assumptions C107_no_races_refuted.
