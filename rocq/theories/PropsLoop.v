(** PropsLoop.v: PeerHandler.Loop (src/swarm/peerhandler.go): C55. *)
From Verif Require Import Base LoopModel LoopSpec LoopProofs.

(* ------------------------------------------------------------------ *)
(** * C55 Loop *)
(** With the swarm NewSwarm makes, Loop never returns. *)
Theorem C55_never_returns : forall comp ls s tr, run (NewSwarm_cfg comp) init ls = Some (s, tr) -> loop s <> LEnd /\ ~ In EvReturned tr.
Proof. exact (fun comp ls s tr => never_returns (NewSwarm_cfg comp) ls s tr eq_refl). Qed.
Print Assumptions C55_never_returns.
(** The furthest it gets is the send on the nil channel, where it stays. *)
Theorem C55_nil_send : forall comp s ls s' tr, loop s = LSendUp -> run (NewSwarm_cfg comp) s ls = Some (s', tr) -> loop s' = LSendUp.
Proof. exact (fun comp s ls s' tr => nil_closed (NewSwarm_cfg comp) s ls s' tr eq_refl). Qed.
Print Assumptions C55_nil_send.
Definition clean_stop : list lab := [PingStart; RecvStart; ReqStart; ReqExit; ReqRet; RecvMsg; PingTick true; RecvFail; RecvErr; RecvRet; PingDone; LoopWait; PingRet; LoopRelease; LoopAwake].
Example C55_case : run (NewSwarm_cfg true) init clean_stop = Some (mkst LSendUp PEnd VEnd QEnd 0, [EvTaken; EvTold]) /\
  run (mkcfg true true) init (clean_stop ++ [LoopUp]) = Some (mkst LEnd PEnd VEnd QEnd 0, [EvTaken; EvTold; EvReturned]).
Proof. split; reflexivity. Qed.
(** One error at most is received and one goroutine at most is told to stop. *)
Theorem C55_one_error : forall c ls s tr, run c init ls = Some (s, tr) ->
  taken tr = (match loop s with LSelect => 0 | _ => 1 end)%nat /\ told tr = (match loop s with LSelect | LSendDone => 0 | _ => 1 end)%nat.
Proof. exact one_top. Qed.
Print Assumptions C55_one_error.
(** Any other loop that has an error to report reports it forever. *)
Theorem C55_second_error : forall c s ls s' tr, loop s <> LSelect -> run c s ls = Some (s', tr) ->
  loop s' <> LSelect /\ (ping s = PErr -> ping s' = PErr) /\ (recv s = VErr -> recv s' = VErr) /\ taken tr = 0%nat.
Proof. exact unheard. Qed.
Print Assumptions C55_second_error.
(** If both loops fail, Loop never gets past telling somebody to stop. *)
Theorem C55_both_fail : forall c s ls s' tr, deaf s -> loop s = LSendDone -> run c s ls = Some (s', tr) -> loop s' = LSendDone /\ deaf s'.
Proof. exact deaf_closed. Qed.
Print Assumptions C55_both_fail.
Example C55_both_fail_case : exists s tr, run (NewSwarm_cfg true) init [PingStart; RecvStart; PingTick false; RecvFail; RecvErr] = Some (s, tr) /\ deaf s /\ loop s = LSendDone /\ ping s = PErr.
Proof. eexists _, _. split; [reflexivity|]. repeat split. Qed.
(** While the download is incomplete requestLoop runs for ever, so Loop never gets past waiting for it. *)
Theorem C55_incomplete : forall c ls0 s0 tr0 ls s tr, complete c = false -> run c init ls0 = Some (s0, tr0) -> req s0 = QLoop -> waiting s0 -> run c s0 ls = Some (s, tr) -> req s = QLoop /\ waiting s.
Proof. exact request_top. Qed.
Print Assumptions C55_incomplete.
Example C55_incomplete_case : exists s tr, run (NewSwarm_cfg false) init [PingStart; RecvStart; ReqStart; ReqRound; RecvFail; RecvErr; PingDone; PingRet; RecvRet] = Some (s, tr) /\ req s = QLoop /\ loop s = LWait.
Proof. eexists _, _. split; [reflexivity|]. auto. Qed.
(** If the read loop ends with a nil error, recvLoop goes away and Loop does not notice. *)
Theorem C55_quiet_end : forall c s ls s' tr, loop s = LSelect -> (forall l, In l ls -> l <> PingTick false) -> ping s <> PErr ->
  run c s (RecvQuiet :: ls) = Some (s', tr) -> loop s' = LSelect /\ (recv s' = VRet \/ recv s' = VEnd).
Proof. exact quiet_top. Qed.
Print Assumptions C55_quiet_end.
Example C55_quiet_case : exists s, run (NewSwarm_cfg true) init [PingStart; RecvStart; RecvQuiet; RecvRet; PingTick true] = Some (s, []) /\ loop s = LSelect /\ recv s = VEnd /\ ping s = PSelect.
Proof. eexists. split; [reflexivity|]. auto. Qed.
(** The wait is for the goroutines that have started running: the counter is exact. *)
Theorem C55_wait_count : forall c ls s tr, run c init ls = Some (s, tr) -> procs s = running s.
Proof. exact procs_top. Qed.
Print Assumptions C55_wait_count.
(** But a goroutine may be created before the wait and start after it: the wait passes, and then requestLoop runs. *)
Theorem C55_wait_early_refuted : exists ls s tr, run (NewSwarm_cfg false) init ls = Some (s, tr) /\ loop s = LSendUp /\ req s = QLoop.
Proof. exists [PingStart; RecvStart; RecvFail; RecvErr; RecvRet; PingDone; PingRet; LoopWait; ReqStart]. eexists _, _. split; [reflexivity|]. auto. Qed.
Print Assumptions C55_wait_early_refuted.
