(** PropsReadLoop.v: ReadLoop (src/io/readloop.go) as recvLoop uses it: C53, C54. *)
From Verif Require Import Base ReadLoopModel ReadLoopSpec ReadLoopProofs.

(* ------------------------------------------------------------------ *)
(** * C53 One buffer, shared safely *)
Theorem C53_exclusive : forall b ls s tr, run (init b) ls = Some (s, tr) -> ~ (reading s /\ processing s).
Proof. exact exclusive_top. Qed.
Print Assumptions C53_exclusive.
(** Chunks are handed on in order, none lost or duplicated: at most the last one is still under way, and that only while none is being processed. *)
Theorem C53_order : forall b ls s tr, run (init b) ls = Some (s, tr) -> exists w, delivered tr = received tr ++ w /\ (List.length w <= 1)%nat /\ (processing s -> w = []).
Proof. exact order_top. Qed.
Print Assumptions C53_order.
(** Whenever handleMessage looks at its slice it sees the chunk it was handed. *)
Theorem C53_looks : forall b ls s tr, run (init b) ls = Some (s, tr) -> forall a d c, tr = a ++ EvLook d :: c -> exists r, received a = r ++ [d].
Proof. exact looks_top. Qed.
Print Assumptions C53_looks.
(** Run never waits to hand on a chunk and Ready never waits. *)
Theorem C53_never_wait : forall b ls s tr, run (init b) ls = Some (s, tr) -> (forall n, run_at s = RSendBuf n -> chBuf s = None) /\ (forall e, con_at s = CReady e -> chReady s = false).
Proof. exact noblock_top. Qed.
Print Assumptions C53_never_wait.
(** Every read is offered the whole buffer: a chunk can arrive exactly if it fits. *)
Theorem C53_whole_buffer : forall b ls s tr, run (init b) ls = Some (s, tr) -> run_at s = RRead -> forall d, d <> [] ->
  ((exists s' e, step s (ReadRet d None) = Some (s', e)) <-> (List.length d <= List.length b)%nat).
Proof. exact whole_buffer. Qed.
Print Assumptions C53_whole_buffer.
Definition buf4 : bytes := repeat x00 4.
(** Two reads; the second overwrites the buffer byte by byte once the first has been processed. *)
Definition two_reads : list lab :=
  [SetDeadline true; Scribble (B "h???"); ReadRet (B "hi") None; PutBuf; TakeBuf; Look; Handled None; PutReady; TakeReady; SetDeadline true; Scribble (B "yoo?"); ReadRet (B "yo") None; PutBuf; TakeBuf; Look].
Example C53_case : option_map snd (run (init buf4) two_reads) =
  Some [EvRead (B "hi"); EvRecv (B "hi"); EvLook (B "hi"); EvHandled; EvRead (B "yo"); EvRecv (B "yo"); EvLook (B "yo")].
Proof. reflexivity. Qed.
Example C53_whole_buffer_case : exists s tr, run (init buf4) (firstn 10 two_reads) = Some (s, tr) /\ run_at s = RRead.
Proof. eexists _, _. split; reflexivity. Qed.
(** Data that arrives together with an error is dropped. *)
Theorem C53_data_with_error_refuted : exists ls s tr, run (init buf4) ls = Some (s, tr) /\ In (EvReadErr (B "hi") (Some EEOF)) tr /\ run_at s = REnd /\ con_at s = CEnd /\ received tr = [].
Proof. exists [SetDeadline true; ReadRet (B "hi") (Some EEOF); PutErr; Report]. eexists _, _. split; [reflexivity|]. cbn. auto. Qed.
Print Assumptions C53_data_with_error_refuted.
(** A read of nothing without an error ends recvLoop with no error reported. *)
Theorem C53_silent_end_refuted : exists ls s tr, run (init buf4) ls = Some (s, tr) /\ run_at s = REnd /\ con_at s = CEnd /\ reports tr = [].
Proof. exists [SetDeadline true; ReadRet [] None; PutErr]. eexists _, _. split; [reflexivity|]. auto. Qed.
Print Assumptions C53_silent_end_refuted.

(* ------------------------------------------------------------------ *)
(** * C54 Finish *)
(** The deadline is moved only after Run has returned. *)
Theorem C54_deadline_after_end : forall b ls s tr, run (init b) ls = Some (s, tr) -> forall a c, tr = a ++ EvPastDeadline :: c -> In EvRunEnd a.
Proof. exact past_top. Qed.
Print Assumptions C54_deadline_after_end.
(** Finish called while a Read is pending completes only if that Read delivers data. *)
Theorem C54_needs_data : forall s ls s' tr, run_at s = RRead -> con_at s = CFinish1 -> run s ls = Some (s', tr) -> con_at s' <> CFinish1 -> delivered tr <> [].
Proof. exact needs_data. Qed.
Print Assumptions C54_needs_data.
(** If instead it fails, nothing can happen any more: Run waits to report the error, Finish waits for Run. *)
Theorem C54_deadlock : forall s e, run_at s = RSendErr e -> con_at s = CFinish1 -> forall ls s' tr, run s ls = Some (s', tr) -> ls = [] /\ s' = s.
Proof. exact deadlock. Qed.
Print Assumptions C54_deadlock.
Example C54_case : exists s, run (init buf4) [SetDeadline true; Kill; ReadRet [] (Some EEOF)] = Some (s, [EvReadErr [] (Some EEOF)]) /\ run_at s = RSendErr (Some EEOF) /\ con_at s = CFinish1.
Proof. eexists. split; [reflexivity|]. auto. Qed.
Example C54_data_case : exists s s' tr, run (init buf4) [SetDeadline true; Kill] = Some (s, []) /\ run_at s = RRead /\ con_at s = CFinish1 /\
  run s [ReadRet (B "x") None; PutBuf; TakeDone; PastDeadline] = Some (s', tr) /\ con_at s' = CEnd /\ tr = [EvRead (B "x"); EvRunEnd; EvPastDeadline] /\ received tr = [].
Proof. eexists _, _, _. split; [reflexivity|]. repeat split. Qed.
(** Once recvLoop is on its way out for any other reason than Run's own end, Run never returns: a handler error leaks the goroutine. *)
Theorem C54_leak : forall s ls s' tr, leaving (con_at s) = true -> run_at s <> REnd -> run s ls = Some (s', tr) -> run_at s' <> REnd.
Proof. exact leak_closed. Qed.
Print Assumptions C54_leak.
Example C54_leak_case : exists s tr, run (init buf4) [SetDeadline true; ReadRet (B "hi") None; PutBuf; TakeBuf; Handled (Some EInvalid); PutReady; TakeReady] = Some (s, tr) /\
  leaving (con_at s) = true /\ run_at s = RTop.
Proof. eexists _, _. split; [reflexivity|]. auto. Qed.
(** All the states in which nothing more can happen: both returned; the deadlock; Run left behind. *)
Theorem C54_stuck : forall b ls s tr, run (init b) ls = Some (s, tr) -> (forall l, step s l = None) ->
  (run_at s = REnd /\ con_at s = CEnd) \/ ((exists e, run_at s = RSendErr e) /\ (con_at s = CFinish1 \/ con_at s = CEnd)) \/ (run_at s = RSelect /\ con_at s = CEnd).
Proof. exact stuck_top. Qed.
Print Assumptions C54_stuck.
Example C54_stuck_case : exists s tr, run (init buf4) [SetDeadline true; ReadRet [] None; PutErr] = Some (s, tr) /\ (forall l, step s l = None).
Proof. eexists _, _. split; [reflexivity|]. intros []; reflexivity. Qed.
