(** HelpModel.v: src/utils/test/tutils.go, the helpers of the tests, over TreeModel's file system. *)
From Verif Require Import Base PathModel PathSpec LayoutModel FsModel TreeModel.

(** File.Close of an open file: the descriptor is free again, whatever close(2) says. *)
Definition close_fd : tio unit :=
  go f <- embed fault;
  fun t => (match f with Some _ => Err EIO | None => Ok tt end, set_fds t (S (tw_free t)) (tw_lost t)).
(** tutils.go:11-33 WriteTestFile; if the write fails, f is dropped without being closed. *)
Definition WriteTestFile (fpath data : bytes) : tio unit :=
  go u <- t_mkdirall (Dir fpath);
  go i <- t_create fpath;
  go u <- losing (embed (os_write i 0 data));
  close_fd.

(** A place at q or below it. *)
Definition under (q x : list bytes) : bool := place_eqb (firstn (List.length q) x) q.
(** os.RemoveAll(path) of Go 1.18 (removeall_at.go) for a path without slashes: nothing for the empty path, EINVAL for "."; all below ".." goes before
    rmdir fails on ".." itself. [surv]: if a call fails, what is left. Simplification: the descriptors it opens meanwhile are not counted. *)
Definition RemoveAll (surv : list bytes -> bool) (path : bytes) : tio unit :=
  if beqb path [] then tlift (Ok tt)
  else if beqb path dot then tlift (Err EIO)
  else
    go f <- embed fault;
    fun t =>
      let q := at_place t path in
      let up := beqb path dotdot in
      let left x := negb (under q x) || (up && place_eqb x q) || match f with Some _ => surv x | None => false end in
      let w := tw_w t in
      (match f with Some _ => Err EIO | None => if up then Err EIO else Ok tt end,
       set_dirs (set_w t (mkw (w_cwd w) (filter (fun n => left (fst n)) (w_names w)) (w_inos w) (w_flt w) (w_lfps w))) (filter left (tw_dirs t))).
(** tutils.go:47-59 CleanUpTestFile: the first part of the path; strings.Split never gives no parts. *)
Definition CleanUpTestFile (surv : list bytes -> bool) (fpath : bytes) : tio unit :=
  match split_slash fpath with
  | [] => tlift (Err EPath)
  | part :: _ => RemoveAll surv part
  end.
(** tutils.go:36-43 CloseAndClean; [opened]: fp has not been closed before. *)
Definition CloseAndClean (surv : list bytes -> bool) (opened : bool) (fpath : bytes) : tio unit :=
  go u <- (if opened then close_fd else tlift (Err EClosed));
  CleanUpTestFile surv fpath.

(** tutils.go:61-72 DummyHashes: the package's variable before and after (nil as the empty slice: both are shorter than any size above 0, and
    the two differ for size 0 only in that make is called), and the string. [room]: the most make can give. *)
Definition DummyHashes (room : Z) (dummyHash : bytes) (n : Z) : res (bytes * bytes) :=
  let size := mul64 20 n in
  do d <- (if zlen dummyHash <? size then (if room <? size then Panic else Ok (zeros size)) else Ok dummyHash);
  if size <? 0 then Panic else Ok (d, firstn (Z.to_nat size) d).
(** Any number of calls. *)
Fixpoint dummies (room : Z) (dummyHash : bytes) (ns : list Z) : list (res bytes) :=
  match ns with
  | [] => []
  | n :: r => match DummyHashes room dummyHash n with Ok (d, s) => Ok s :: dummies room d r | Err e => [Err e] | Panic => [Panic] | NoFuel => [NoFuel] end
  end.

(** What package testing keeps of a test: t.Error marks it failed and logs the error, t.Fatal does and ends it (testing.go of Go 1.18). *)
Record testing := mktesting { tg_failed : bool; tg_log : list goerr; tg_ended : bool }.
(** tutils.go:74-78 CheckError *)
Definition CheckError (e : option goerr) (t : testing) : testing :=
  match e with Some x => mktesting true (tg_log t ++ [x]) (tg_ended t) | None => t end.
(** tutils.go:80-84 CheckFatal *)
Definition CheckFatal (e : option goerr) (t : testing) : testing :=
  match e with Some x => mktesting true (tg_log t ++ [x]) true | None => t end.
(** A test that makes calls one after the other and gives each error to one of the two ([fatal]). *)
Fixpoint run_test {A} (calls : list (bool * (A -> option goerr * A))) (a : A) (t : testing) : A * testing :=
  match calls with
  | [] => (a, t)
  | (fatal, c) :: r =>
    if tg_ended t then (a, t)
    else let (e, a') := c a in run_test r a' (if fatal then CheckFatal e t else CheckError e t)
  end.
