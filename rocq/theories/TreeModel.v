(** TreeModel.v: src/torrent/fileio/fileio.go and src/utils/futils.go over a file system with directories and a bounded number of file
    descriptors. FsModel leaves both out (a call just fails, as its list of faults says); here the tree and the descriptors decide, and any
    call may fail for other reasons as before. Paths are meant to be clean (filepath.Join makes them so); no links, no permissions. *)
From Verif Require Import Base PathModel PathSpec LayoutModel FsModel.

(** [tw_w]: names, contents and open files as in FsModel (names are those of regular files). [tw_dirs]: the directories. [tw_free]: descriptors
    the process may still open. [tw_lost]: descriptors that are open but whose *os.File nobody holds any more; the garbage collector's
    finalizer closes them some time. [tw_gc]: how many it closes before each open; nothing if the list has ended. *)
Record tworld := mktw { tw_w : world; tw_dirs : list (list bytes); tw_free : nat; tw_lost : nat; tw_gc : list nat }.
Definition set_w (t : tworld) (w : world) : tworld := mktw w (tw_dirs t) (tw_free t) (tw_lost t) (tw_gc t).
Definition set_dirs (t : tworld) (d : list (list bytes)) : tworld := mktw (tw_w t) d (tw_free t) (tw_lost t) (tw_gc t).
Definition set_fds (t : tworld) (free lost : nat) : tworld := mktw (tw_w t) (tw_dirs t) free lost (tw_gc t).
Definition at_place (t : tworld) (p : bytes) : list bytes := place (w_cwd (tw_w t)) p.
Definition is_dir (dirs : list (list bytes)) (q : list bytes) : bool := existsb (place_eqb q) dirs.

Definition tio (A : Type) := tworld -> res A * tworld.
Definition tlift {A} (r : res A) : tio A := fun t => (r, t).
Definition tbind {A C} (m : tio A) (f : A -> tio C) : tio C :=
  fun t => match m t with
           | (Ok a, t') => f a t'
           | (Err e, t') => (Err e, t')
           | (Panic, t') => (Panic, t')
           | (NoFuel, t') => (NoFuel, t')
           end.
Notation "'go' x <- m ; k" := (tbind m (fun x => k)) (at level 200, x binder, m at level 100, k at level 200).
(** What neither the tree nor the descriptors have a say in. *)
Definition embed {A} (m : io A) : tio A := fun t => let (r, w') := m (tw_w t) in (r, set_w t w').
Definition tsyscall {A} (body : tio A) : tio A := go f <- embed fault; match f with Some _ => tlift (Err EIO) | None => body end.

(** The collector runs. *)
Definition collect : tio unit := fun t =>
  match tw_gc t with
  | [] => (Ok tt, t)
  | k :: r => let n := Nat.min k (tw_lost t) in (Ok tt, mktw (tw_w t) (tw_dirs t) (tw_free t + n) (tw_lost t - n) r)
  end.
(** open(2): without a free descriptor EMFILE; with one, it is taken if the rest works. *)
Definition with_fd {A} (body : tio A) : tio A :=
  go u <- collect;
  fun t => match tw_free t with
           | O => (Err EIO, t)
           | S n => match body t with (Ok a, t') => (Ok a, set_fds t' n (tw_lost t')) | r => r end
           end.
(** os.OpenFile(path, O_RDWR): EISDIR for a directory. A file above the path means that nothing is there. *)
Definition t_open (p : bytes) : tio nat :=
  tsyscall (with_fd (fun t =>
    if is_dir (tw_dirs t) (at_place t p) then (Err EIO, t)
    else match pget (at_place t p) (w_names (tw_w t)) with Some i => (Ok i, t) | None => (Err EPath, t) end)).
(** os.OpenFile(path, O_CREATE|O_RDWR|O_TRUNC): EISDIR; ENOENT or ENOTDIR if it would not be in a directory. *)
Definition t_create (p : bytes) : tio nat :=
  tsyscall (with_fd (fun t =>
    let w := tw_w t in
    if is_dir (tw_dirs t) (at_place t p) then (Err EIO, t)
    else match pget (at_place t p) (w_names w) with
         | Some i => (Ok i, set_w t (set_inos w (lupd (w_inos w) i [])))
         | None =>
           if is_dir (tw_dirs t) (removelast (at_place t p)) then
             let i := List.length (w_inos w) in
             (Ok i, set_w t (mkw (w_cwd w) (w_names w ++ [(at_place t p, i)]) (w_inos w ++ [[]]) (w_flt w) (w_lfps w)))
           else (Err EIO, t)
         end)).

(** filepath.Dir (Unix): everything up to the last slash, cleaned. *)
Fixpoint upto_slash (p : bytes) : bytes :=
  match p with [] => [] | b :: r => if existsb (Byte.eqb slash) p then b :: upto_slash r else [] end.
Definition Dir (p : bytes) : bytes := Clean (upto_slash p).
(** os.MkdirAll, on the components of the place: a directory that is there is passed, a file ends it with an error, what is missing is made.
    [lim]: it fails after making so many. *)
Fixpoint mk_dirs (lim : option nat) (names : list (list bytes * nat)) (pre todo : list bytes) (dirs : list (list bytes)) : bool * list (list bytes) :=
  match todo with
  | [] => (match lim with Some _ => false | None => true end, dirs)
  | c :: r =>
    let q := pre ++ [c] in
    if is_dir dirs q then mk_dirs lim names q r dirs
    else match pget q names with
         | Some _ => (false, dirs)
         | None => match lim with
                   | Some O => (false, dirs)
                   | _ => mk_dirs (option_map pred lim) names q r (dirs ++ [q])
                   end
         end
  end.
Definition t_mkdirall (p : bytes) : tio unit :=
  go f <- embed fault;
  fun t => let (ok, dirs) := mk_dirs (option_map Z.to_nat f) (w_names (tw_w t)) [] (at_place t p) (tw_dirs t) in
           (if ok then Ok tt else Err EIO, set_dirs t dirs).

(** An error that leaves an open file behind. *)
Definition losing {A} (m : tio A) : tio A := fun t =>
  match m t with (Err e, t') => (Err e, set_fds t' (tw_free t') (S (tw_lost t'))) | r => r end.
(** futils.go:13-31 CreateZeroFilledFile *)
Definition tCreateZeroFilledFile (p : bytes) (size : Z) : tio nat :=
  go u <- t_mkdirall (Dir p);
  go i <- t_create p;
  losing (go u <- embed (AppendZeros i size); tlift (Ok i)).
(** futils.go:78-100: the size of an open file is checked and adjusted. *)
Definition fit (i : nat) (length : Z) : io nat :=
  run chkLen <- os_size i;
  if chkLen =? length then ret i
  else if length <? chkLen then run u <- os_truncate i length; ret i
  else run u <- AppendZeros i (sub64 length chkLen); ret i.
(** futils.go:66-101 OCAT *)
Definition tutils_OCAT (p : bytes) (length : Z) : tio nat := fun t =>
  let opened := match t_open p t with (Err _, t') => tCreateZeroFilledFile p length t' | r => r end in
  match opened with
  | (Ok i, t') => losing (embed (fit i length)) t'
  | r => r
  end.
Definition is_open (l : list (bytes * handle)) (p : bytes) : bool := match aget p l with Some h => h_open h | None => false end.
(** fileio.go:57-65 OCAT: a file that was open under this path is forgotten, not closed. *)
Definition tOCAT (p : bytes) (length : Z) : tio unit :=
  go i <- tutils_OCAT p length;
  fun t => let l := w_lfps (tw_w t) in
           (Ok tt, set_fds (set_w t (set_lfps (tw_w t) (aput p (mkh i true) l))) (tw_free t) (if is_open l p then S (tw_lost t) else tw_lost t)).
(** fileio.go:67-77 OCATAll *)
Fixpoint tOCATAll (files : list entry) : tio unit :=
  match files with
  | [] => tlift (Ok tt)
  | e :: r => go u <- tOCAT (eb_local (en_base e)) (en_len e); tOCATAll r
  end.
(** fileio.go:91-101 Close *)
Definition tClose (p : bytes) : tio unit := fun t =>
  let (r, w') := Close p (tw_w t) in
  (r, set_fds (set_w t w') (if is_open (w_lfps (tw_w t)) p then S (tw_free t) else tw_free t) (tw_lost t)).
(** fileio.go:103-119 CloseAll *)
Fixpoint tCloseAll (order : list bytes) : tio unit :=
  match order with [] => tlift (Ok tt) | p :: r => go u <- tClose p; tCloseAll r end.
(** fileio.go:79-89 Move: rename(2) of a file fails if the new place is a directory or not in one. *)
Definition tMove (a b : bytes) : tio unit := fun t =>
  match aget a (w_lfps (tw_w t)) with
  | Some _ =>
    if is_dir (tw_dirs t) (at_place t b) || negb (is_dir (tw_dirs t) (removelast (at_place t b)))
    then tsyscall (tlift (Err EIO)) t else embed (Move a b) t
  | None => embed (Move a b) t
  end.

(** Any calls on one FileIO; a panic ends the process. *)
Inductive call := KOpen (p : bytes) (length : Z) | KClose (p : bytes) | KMove (a b : bytes).
Definition do_call (c : call) : tio unit :=
  match c with KOpen p l => tOCAT p l | KClose p => tClose p | KMove a b => tMove a b end.
Fixpoint calls (cs : list call) (t : tworld) : list (res unit) * tworld :=
  match cs with
  | [] => ([], t)
  | c :: r =>
    match do_call c t with
    | (Panic, t') => ([Panic], t')
    | (NoFuel, t') => ([NoFuel], t')
    | (x, t') => let (xs, t'') := calls r t' in (x :: xs, t'')
    end
  end.
