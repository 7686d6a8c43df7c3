(** PropsTime.v: deadlines and keep-alives (C95). *)
From Verif Require Import Base BitfieldModel HandshakeModel HandshakeSpec TimeModel TimeSpec TimeProofs.

(* ------------------------------------------------------------------ *)
(** * C95 Keep-alives and time-outs *)
(** Whatever the peer sends and however long messages take to handle, a connection times out only after two minutes without an arrival. *)
Theorem C95_quiet : forall t0 ls s, sound1 ls -> run1 ls (mk1 t0 (NewEnd t0)) = Some s -> e_rd (end1 s) = Ended -> two_quiet_minutes t0 (now1 s) (arrivals t0 ls).
Proof. exact window. Qed.
Print Assumptions C95_quiet.
(** When everything that came has been read, and the peer stays silent, it can time out within two minutes, *)
Theorem C95_silent : forall t0 ls s, run1 ls (mk1 t0 (NewEnd t0)) = Some s -> ~ In (LDo EKill) ls -> e_rd (end1 s) <> Ended -> e_in (end1 s) = [] ->
  exists more s', Forall (fun l => quiet_label l \/ l = LDo ESet \/ l = LDo ETimeout) more /\ run1 more s = Some s' /\ e_rd (end1 s') = Ended /\ now1 s' <= now1 s + 120 * 1000000000.
Proof. exact silent. Qed.
Print Assumptions C95_silent.
(** but not before its deadline. *)
Theorem C95_patient : forall s t', (exists u, e_rd (end1 s) = Reading u /\ e_in (end1 s) = [] /\ u + 120 * 1000000000 > now1 s) -> step1 (LDo ETimeout) s = Some t' -> False.
Proof. exact no_early_end. Qed.
Print Assumptions C95_patient.
(** A keep-alive is written at every full minute after the start, and at no other time, until the connection has failed. *)
Theorem C95_pings : forall t0 ls s, run1 ls (mk1 t0 (NewEnd t0)) = Some s ->
  exists n, pings t0 ls = at_ticks t0 n /\ t0 + Z.of_nat n * (60 * 1000000000) <= now1 s /\ (~ In (LDo EKill) ls -> now1 s <= t0 + Z.of_nat (S n) * (60 * 1000000000)).
Proof. exact pings_exact. Qed.
Print Assumptions C95_pings.
(** Two gotors less than a minute apart never time out on each other, even if they have nothing to say. *)
Theorem C95_two : forall delay tb ta s ls s', 0 <= delay < 60 * 1000000000 -> joined delay tb ta s -> sound2 ls -> run2 delay ls s = Some s' ->
  e_rd (end_a s') <> Ended /\ e_rd (end_b s') <> Ended /\ e_tick (end_a s') <> None /\ e_tick (end_b s') <> None.
Proof. exact two_ends. Qed.
Print Assumptions C95_two.
(** A minute apart they may. *)
Definition minute : Z := 60 * 1000000000.
Definition slow_start : state2 := mk2 0 (NewEnd 0) (NewEnd 0) [] [minute].
Definition slow_run : list label2 := [TArriveB 0; TDoB ESet; TDoB (ERead 1); TDoB ESet; TDelay minute; TDoA ETick; TDoB ETick; TDelay minute; TDoB ETimeout].
Theorem C95_two_refuted : joined minute 0 0 slow_start /\ sound2 slow_run /\ exists s, run2 minute slow_run slow_start = Some s /\ e_rd (end_b s) = Ended.
Proof.
  split; [exists Busy, minute; split; [reflexivity|]; repeat split; discriminate|]. split; [split; cbn; intuition discriminate|]. eexists. split; vm_compute; reflexivity.
Qed.
Print Assumptions C95_two_refuted.
(** Once the first end's pingLoop has stopped (its recvLoop failed; the socket stays open) the second can notice it by its deadline only,
    and can do so within two minutes. *)
Theorem C95_left : forall delay tb ta s ls s', joined delay tb ta s -> run2 delay ls s = Some s' -> e_tick (end_a s') = None -> e_rd (end_b s') <> Ended -> e_in (end_b s') = [] -> f_b s' = [] ->
  exists more s2, Forall left_alone more /\ run2 delay more s' = Some s2 /\ e_rd (end_b s2) = Ended /\ now2 s2 <= now2 s' + 120 * 1000000000.
Proof. exact left_behind. Qed.
Print Assumptions C95_left.
Example C95_left_case : exists s, joined minute 0 0 slow_start /\ run2 minute [TArriveB 0; TDoB ESet; TDoB (ERead 1); TDoA EFail; TDoA EKill] slow_start = Some s /\
  e_tick (end_a s) = None /\ e_rd (end_b s) = Busy /\ e_in (end_b s) = [] /\ f_b s = [].
Proof. eexists. split; [exists Busy, minute; split; [reflexivity|]; repeat split; discriminate|]. split; [vm_compute; reflexivity|]. repeat split. Qed.
(** A peer that has sent nothing one second after FromIncoming began gets no answer; the connection is given up but not closed. *)
Theorem C95_late : forall ih id bf t0 c w, (forall a b, c = Some (a, b) -> t0 + 1000000000 <= a) ->
  timed_accept ih id bf t0 c w = mkinc [] (Err EIO) /\ read_time t0 c = t0 + 1000000000 /\ closes ih (timed_read t0 c) = false.
Proof. exact late_handshake. Qed.
Print Assumptions C95_late.
(** The connection is closed if and only if something was read that is not a handshake with the torrent's infohash. *)
Theorem C95_closed : forall ih r, (List.length (rd_bytes r) <= 68)%nat ->
  (closes ih r = true <-> rd_err r = false /\ ~ is_handshake (pad68 (rd_bytes r)) ih).
Proof. exact closed_iff. Qed.
Print Assumptions C95_closed.
Example C95_closed_case : closes (repeat x61%byte 20) (mkread (B "hello") false) = true /\ closes (repeat x61%byte 20) (mkread (B "hello") true) = false.
Proof. split; reflexivity. Qed.
(** What comes within the second is what FromIncoming judges. *)
Theorem C95_timely : forall ih id bf t0 a b w, a < t0 + 1000000000 ->
  timed_accept ih id bf t0 (Some (a, b)) w = FromIncoming ih id bf (mkread b false) w /\ read_time t0 (Some (a, b)) < t0 + 1000000000.
Proof. exact timely_handshake. Qed.
Print Assumptions C95_timely.

(** A connection whose peer sends once and is then silent: it ends at 130 s, having written two keep-alives. *)
Definition ten : Z := 10 * 1000000000.
Definition short_life : list label1 := [LDo ESet; LDelay ten; LArrive; LDo (ERead 1); LDo ESet; LDelay (5 * ten); LDo ETick; LDelay (6 * ten); LDo ETick; LDelay ten; LDo ETimeout].
Example C95_case : sound1 short_life /\ arrivals 0 short_life = [ten] /\ pings 0 short_life = [6 * ten; 12 * ten] /\
  exists s, run1 short_life (mk1 0 (NewEnd 0)) = Some s /\ e_rd (end1 s) = Ended /\ now1 s = 13 * ten.
Proof. split; [unfold sound1, short_life; cbn [In]; intuition congruence|]. split; [reflexivity|]. split; [reflexivity|]. eexists. split; [vm_compute; reflexivity|]. split; reflexivity. Qed.
(** Two ends 59 s apart for three minutes. *)
Definition near : Z := 59 * 1000000000.
Definition near_run : list label2 := [TDelay near; TArriveB 0; TDoA ESet; TDoB ESet; TDoB (ERead 1); TDoB ESet; TDelay (minute - near); TDoA ETick; TDoB ETick; TDelay near; TArriveA 0; TArriveB 0; TDoA (ERead 1)].
Example C95_near : joined near 0 0 (mk2 0 (NewEnd 0) (NewEnd 0) [] [near]) /\ sound2 near_run /\ exists s, run2 near near_run (mk2 0 (NewEnd 0) (NewEnd 0) [] [near]) = Some s /\ e_rd (end_a s) = Busy.
Proof. split; [exists Busy, minute; split; [reflexivity|]; repeat split; discriminate|]. split; [split; cbn; intuition discriminate|]. eexists. split; vm_compute; reflexivity. Qed.
