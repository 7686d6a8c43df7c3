(** PropsHelp.v: the helpers of the tests (C120). *)
From Coq Require Import ZifyBool ZifyNat ZifyN.
From Verif Require Import Base PathModel PathSpec LayoutModel FsModel FsSpec TreeModel TreeSpec TreeProofs PropsFs PropsTree HelpModel HelpSpec HelpProofs.

(** C120 *)
(** WriteTestFile puts data there and changes no other file's content. *)
Theorem C120_write : forall p data t, tree_wf t -> clean_path p -> no_faults (tw_w t) -> (0 < tw_free t)%nat -> can_put t (at_place t p) ->
  exists t', WriteTestFile p data t = (Ok tt, t') /\ content_at t' (at_place t p) = Some data /\ (forall x, x <> at_place t p -> content_at t' x = content_at t x) /\ no_faults (tw_w t').
Proof. exact write_ok. Qed.
Print Assumptions C120_write.
Theorem C120_write_iff : forall p data t, tree_wf t -> clean_path p -> no_faults (tw_w t) -> (0 < tw_free t)%nat ->
  (can_put t (at_place t p) <-> exists t', WriteTestFile p data t = (Ok tt, t')).
Proof. exact write_iff. Qed.
Print Assumptions C120_write_iff.
(** Whatever fails: only the file and the directories above it come into being, no descriptor is forgotten about, and no other file changes. *)
Theorem C120_write_faults : forall p data t r t', tree_wf t -> clean_path p -> WriteTestFile p data t = (r, t') ->
  tree_wf t' /\ grown (at_place t p) t t' /\ (r = Ok tt -> can_put t (at_place t p) /\ isfile t' (at_place t p)) /\ total_fds t' = total_fds t.
Proof. exact write_eff. Qed.
Print Assumptions C120_write_faults.
Theorem C120_write_others : forall p data t r t' x, tree_wf t -> clean_path p -> WriteTestFile p data t = (r, t') -> x <> at_place t p -> content_at t' x = content_at t x.
Proof. exact write_others. Qed.
Print Assumptions C120_write_others.
(** It returns nil only if opening, writing and closing went well, and then the file holds data. *)
Theorem C120_write_nil : forall p data t t', tree_wf t -> clean_path p -> WriteTestFile p data t = (Ok tt, t') ->
  (w_flt (tw_w t') = skipn 4 (w_flt (tw_w t)) /\ Forall (eq None) (firstn 3 (skipn 1 (w_flt (tw_w t))))) /\ content_at t' (at_place t p) = Some data.
Proof. exact write_told. Qed.
Print Assumptions C120_write_nil.
(** A failing write leaves the descriptor open with nobody to close it, and a file of part of the data. *)
Theorem C120_write_leak_refuted : exists p data t t', tree_wf t /\ clean_path p /\ WriteTestFile p data t = (Err EIO, t') /\ tw_free t = 1%nat /\ tw_free t' = 0%nat /\ tw_lost t' = 1%nat /\
  content_at t' (at_place t p) = Some (firstn 2 data) /\ (2 < List.length data)%nat.
Proof.
  exists (B "x/y"), (B "data"), (set_w (home 1 []) (mkw (w_cwd disk0) (w_names disk0) (w_inos disk0) [None; None; Some 2] [])). eexists. split; [exact (home_wf 1 [])|]. split; [apply (names_clean (B "x") [B "y"]); split; [repeat constructor; try discriminate; vm_compute; intuition discriminate|reflexivity]|].
  split; [vm_compute; reflexivity|]. repeat split; cbn; lia.
Qed.
Print Assumptions C120_write_leak_refuted.
(** Writing to a path of plain names and cleaning up puts everything back, if there was nothing under its first name. *)
Theorem C120_round : forall surv c ns p data t, tree_wf t -> names_path c ns p -> no_faults (tw_w t) -> (0 < tw_free t)%nat -> empty_at (within (w_cwd (tw_w t) ++ [c])) t ->
  exists t1 t2, WriteTestFile p data t = (Ok tt, t1) /\ content_at t1 (at_place t p) = Some data /\ CleanUpTestFile surv p t1 = (Ok tt, t2) /\ tree_wf t2 /\ same_but (fun _ => False) t t2 /\ total_fds t2 = total_fds t.
Proof. exact round_top. Qed.
Print Assumptions C120_round.
(** Cleaning up takes only what is at or below the first name, whatever fails, and all of it if it returns nil. *)
Theorem C120_clean : forall surv c ns p t r t', names_path c ns p -> CleanUpTestFile surv p t = (r, t') ->
  same_but (within (w_cwd (tw_w t) ++ [c])) t t' /\ (r = Ok tt -> empty_at (within (w_cwd (tw_w t) ++ [c])) t').
Proof. exact clean_faults. Qed.
Print Assumptions C120_clean.
Theorem C120_close_clean : forall surv c ns p t, no_faults (tw_w t) -> names_path c ns p -> exists t', CloseAndClean surv true p t = (Ok tt, t') /\
  same_but (within (w_cwd (tw_w t) ++ [c])) t t' /\ empty_at (within (w_cwd (tw_w t) ++ [c])) t' /\ tw_free t' = S (tw_free t).
Proof. exact close_clean_top. Qed.
Print Assumptions C120_close_clean.
(** A file closed before: an error, and nothing is cleaned up. *)
Theorem C120_closed : forall surv p t, CloseAndClean surv false p t = (Err EClosed, t).
Proof. reflexivity. Qed.
Print Assumptions C120_closed.
(** Cleaning up after an absolute path reports success and removes nothing: the first part is empty. *)
Theorem C120_absolute_refuted : forall surv p t, CleanUpTestFile surv (slash :: p) t = (Ok tt, t).
Proof. exact clean_absolute. Qed.
Print Assumptions C120_absolute_refuted.
(** After ./… it always fails. *)
Theorem C120_dot_refuted : forall surv p t, CleanUpTestFile surv (B "./" ++ p) t = (Err EIO, t).
Proof. exact clean_dot. Qed.
Print Assumptions C120_dot_refuted.
(** After ../… all that is in the parent of the working directory goes, the working directory with it, and an error is returned. *)
Theorem C120_parent_refuted : forall surv p t, no_faults (tw_w t) -> exists t', CleanUpTestFile surv (B "../" ++ p) t = (Err EIO, t') /\
  let d := removelast (w_cwd (tw_w t)) in same_but (below d) t t' /\ empty_at (below d) t'.
Proof. exact clean_up. Qed.
Print Assumptions C120_parent_refuted.
(** DummyHashes gives 20 n zeros, whatever was asked for before. *)
Theorem C120_dummies : forall room ns, Forall (fun n => 0 <= n /\ 20 * n <= max64 /\ 20 * n <= room) ns -> dummies room [] ns = map (fun n => Ok (zeros (20 * n))) ns.
Proof. exact dummies_top. Qed.
Print Assumptions C120_dummies.
Theorem C120_memory : forall room n ns, 0 <= room -> 0 <= n -> 20 * n <= max64 -> room < 20 * n -> Forall (fun n => 0 <= n /\ 20 * n <= max64 /\ 20 * n <= room) ns ->
  dummies room [] (ns ++ [n]) = map (fun n => Ok (zeros (20 * n))) ns ++ [Panic].
Proof. exact dummies_over_top. Qed.
Print Assumptions C120_memory.
Theorem C120_negative : forall room d n, - 2 ^ 58 <= n < 0 -> DummyHashes room d n = Panic.
Proof. exact dummy_negative. Qed.
Print Assumptions C120_negative.
(** Not for every n: 20 n wraps. *)
Theorem C120_wraps_refuted : forall room, 0 <= room -> DummyHashes room [] (2 ^ 62) = Ok ([], []).
Proof. reflexivity. Qed.
Print Assumptions C120_wraps_refuted.

(** Concrete cases. *)
Example C120_case1 : exists t1 t2, WriteTestFile (B "x/y/z") (B "data") (home 1 []) = (Ok tt, t1) /\ content_at t1 [B "h"; B "x"; B "y"; B "z"] = Some (B "data") /\ tw_dirs t1 <> tw_dirs (home 1 []) /\
  CleanUpTestFile (fun _ => true) (B "x/y/z") t1 = (Ok tt, t2) /\ tw_dirs t2 = tw_dirs (home 1 []) /\ w_names (tw_w t2) = w_names disk0.
Proof. do 2 eexists. split; [vm_compute; reflexivity|]. split; [reflexivity|]. split; [discriminate|]. split; [vm_compute; reflexivity|]. split; reflexivity. Qed.
Example C120_case2 : names_path (B "x") [B "y"; B "z"] (B "x/y/z") /\ empty_at (within [B "h"; B "x"]) (home 1 []) /\ no_faults (tw_w (home 1 [])) /\ can_put (home 1 []) [B "h"; B "x"; B "y"; B "z"].
Proof.
  split; [split; [repeat constructor; try discriminate; vm_compute; intuition discriminate|reflexivity]|]. split; [|split; [reflexivity|]].
  - intros x [->|(ns & Hn & ->)]; split; cbn; intuition discriminate.
  - split; [cbn; intuition discriminate|]. intros d Hd. apply below_dec in Hd. cbn in Hd. intros F. cbn in F. intuition (subst; discriminate).
Qed.
Example C120_case3 : CleanUpTestFile (fun _ => true) (B "d/zzz") (home 1 []) = (Ok tt, set_dirs (set_w (home 1 []) (mkw [B "h"] [([B "h"; B "other"], 1%nat)] [B "ABCDE"; B "keep"] [] [])) [[]; [B "h"]]) /\
  dummies 1000 [] [3; 0; 2; 5] = [Ok (zeros 60); Ok []; Ok (zeros 40); Ok (zeros 100)] /\ dummies 1000 [] [1; -1; 1] = [Ok (zeros 20); Panic].
Proof. vm_compute. repeat split. Qed.

(** Whatever fails, the helpers for files return nil or an error; they do not panic. *)
Theorem C120_no_panic : forall surv opened p data t,
  (forall r t', WriteTestFile p data t = (r, t') -> r = Ok tt \/ exists e, r = Err e) /\
  (forall r t', CleanUpTestFile surv p t = (r, t') -> r = Ok tt \/ exists e, r = Err e) /\
  (forall r t', CloseAndClean surv opened p t = (r, t') -> r = Ok tt \/ exists e, r = Err e).
Proof. exact helpers_settle. Qed.
Print Assumptions C120_no_panic.

(** CheckError: every call is made, all errors are logged in order, and the test passes if and only if there was none. *)
Theorem C120_CheckError : forall A (cs : list (A -> option goerr * A)) a,
  exists t, run_test (map (pair false) cs) a (mktesting false [] false) = (snd (errors_of cs a), t) /\ tg_log t = some_errors (fst (errors_of cs a)) /\
  (tg_failed t = false <-> Forall (fun e => e = None) (fst (errors_of cs a))).
Proof. exact @checks_top. Qed.
Print Assumptions C120_CheckError.
(** CheckFatal: the first error is logged, fails the test, and no later call is made. *)
Theorem C120_CheckFatal : forall A (pre post : list (A -> option goerr * A)) c a x a',
  Forall (fun e => e = None) (fst (errors_of pre a)) -> c (snd (errors_of pre a)) = (Some x, a') ->
  run_test (map (pair true) (pre ++ c :: post)) a (mktesting false [] false) = (a', mktesting true [x] true).
Proof. exact @fatal_stops. Qed.
Print Assumptions C120_CheckFatal.
Theorem C120_CheckFatal_passes : forall A (cs : list (A -> option goerr * A)) a, Forall (fun e => e = None) (fst (errors_of cs a)) ->
  run_test (map (pair true) cs) a (mktesting false [] false) = (snd (errors_of cs a), mktesting false [] false).
Proof. exact @fatal_passes. Qed.
Print Assumptions C120_CheckFatal_passes.
Example C120_check_case :
  let ok (n : nat) := (None : option goerr, S n) in let bad (n : nat) := (Some EIO, S n) in
  run_test (map (pair true) ([ok; ok] ++ bad :: [ok; bad])) 0%nat (mktesting false [] false) = (3%nat, mktesting true [EIO] true) /\
  run_test (map (pair false) [ok; bad; ok; bad]) 0%nat (mktesting false [] false) = (4%nat, mktesting true [EIO; EIO] false).
Proof. split; reflexivity. Qed.
