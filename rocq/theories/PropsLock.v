(** PropsLock.v: the piece tracker under its mutex (src/swarm/piecetracker.go): C90. *)
From Verif Require Import Base BitfieldModel PptModel PptSpec PropsPpt LockModel LockSpec LockProofs.

(* ------------------------------------------------------------------ *)
(** * C90 Concurrent calls on the piece tracker take effect one after the other *)
Theorem C90_linearizable : forall prog t0 cs s, lock_run prog (lock_init t0) cs = Some s ->
  exists tb rs, in_turn t0 (map prog (done s)) = Ok (tb, rs) /\ Forall2 (fun c r => call_at s c = COut r) (done s) rs /\ NoDup (done s) /\
    (forall c r, call_at s c = COut r -> In c (done s)) /\ (mutex s = None -> tracker s = tb) /\ (forall c d b b', call_at s c = CIn b -> call_at s d = CIn b' -> c = d /\ mutex s = Some c).
Proof. exact linear_top. Qed.
Print Assumptions C90_linearizable.
(** In an order that respects time: what has returned stays in front of what has not. *)
Theorem C90_real_time : forall prog cs s s', lock_run prog s cs = Some s' -> exists more, done s' = done s ++ more.
Proof. intros prog cs s s'. exact (order_top prog cs s s'). Qed.
Print Assumptions C90_real_time.
(** A call waits only for the mutex; the holder gets on whenever its call, made after those that returned, would succeed, and dies only if it would not. *)
Theorem C90_waits : forall prog t0 cs s c, lock_run prog (lock_init t0) cs = Some s ->
  (lock_step prog s c = LBlocked <-> (exists r, call_at s c = COut r) \/ (call_at s c = CStart /\ exists d, mutex s = Some d)).
Proof. exact blocked_top. Qed.
Print Assumptions C90_waits.
Theorem C90_released : forall prog t0 cs s c x, lock_run prog (lock_init t0) cs = Some s -> mutex s = Some c -> in_turn t0 (map prog (done s ++ [c])) = Ok x ->
  exists n s', lock_run prog s (repeat c n) = Some s' /\ mutex s' = None /\ done s' = done s ++ [c].
Proof. exact release_top. Qed.
Print Assumptions C90_released.
Theorem C90_dies : forall prog t0 cs s c x, lock_run prog (lock_init t0) cs = Some s -> lock_step prog s c = LDied ->
  mutex s = Some c /\ in_turn t0 (map prog (done s ++ [c])) <> Ok x.
Proof. exact dies_top. Qed.
Print Assumptions C90_dies.
(** So for calls in the domain (and below 64 peers per piece) C43-C47 hold under concurrency. *)
Theorem C90_safe : forall size prog t0 cs s c, NewPeerPieceTracker size = Ok t0 -> lock_run prog (lock_init t0) cs = Some s -> mutex s = Some c -> pvalid size (map prog (done s ++ [c])) ->
  (forall d, lock_step prog s d <> LDied) /\ exists n s', lock_run prog s (repeat c n) = Some s' /\ mutex s' = None /\ done s' = done s ++ [c].
Proof. exact safe_top. Qed.
Print Assumptions C90_safe.
Theorem C90_tracker : forall size prog t0 cs s, NewPeerPieceTracker size = Ok t0 -> lock_run prog (lock_init t0) cs = Some s -> mutex s = None -> pvalid size (map prog (done s)) ->
  forall i k, 0 <= i < size -> (lists (tracker s) i k <-> registered (rev (map prog (done s))) k i).
Proof. exact tracker_top. Qed.
Print Assumptions C90_tracker.
Theorem C90_next : forall size prog t0 cs s pre c post w bf r, NewPeerPieceTracker size = Ok t0 -> lock_run prog (lock_init t0) cs = Some s -> done s = pre ++ c :: post ->
  prog c = PNext w bf -> call_at s c = COut r -> pvalid size (map prog pre) -> size <= 8 * zlen (Data bf) ->
  exists i ok, r = Some (i, ok) /\
    if ok then candidate size (rev (map prog pre)) bf w i /\
               forall j n m, candidate size (rev (map prog pre)) bf w j -> npeers (rev (map prog pre)) i n -> npeers (rev (map prog pre)) j m -> n <= m
    else i = 0 /\ forall j, ~ candidate size (rev (map prog pre)) bf w j.
Proof. exact next_result_top. Qed.
Print Assumptions C90_next.

(** The calls of hist3 from five goroutines, entering in another order than they were numbered; call 2 tries to enter while call 1 is inside. *)
Definition calls5 (c : nat) : pop := nth c [PRegisterBF hq has12; PRegister hp [0; 1; 2]; PNext hp none3; PUnregister hr; PRegister hr [2; 2; 1]] (PUnregister hp).
Definition order5 : list nat := (repeat 1 6 ++ repeat 0 6 ++ repeat 2 4 ++ repeat 4 6 ++ repeat 3 4)%nat.
Definition new3 : ppt := match NewPeerPieceTracker 3 with Ok t => t | _ => mkppt [] [] [] [] end.
Example C90_case : NewPeerPieceTracker 3 = Ok new3 /\ exists s, lock_run calls5 (lock_init new3) order5 = Some s /\ mutex s = Some 3%nat /\ done s = [1; 0; 2; 4]%nat /\
  call_at s 2%nat = COut (Some (0, true)) /\ pvalid 3 (map calls5 (done s ++ [3%nat])) /\ lock_step calls5 s 7 = LBlocked /\
  (exists s1, lock_run calls5 (lock_init new3) [1; 1; 1]%nat = Some s1 /\ lock_step calls5 s1 2 = LBlocked /\ tracker s1 <> new3).
Proof.
  split; [reflexivity|]. eexists. split; [vm_compute; reflexivity|]. split; [reflexivity|]. split; [reflexivity|]. split; [reflexivity|].
  split; [exact (proj1 C43_case)|]. split; [reflexivity|]. eexists. split; [vm_compute; reflexivity|]. split; [reflexivity|].
  vm_compute. discriminate.
Qed.
