(** ConcModel.v: goroutines calling ReadPiece and WritePiece (src/torrent/fileio/fileio.go) at the same time, as a transition
    system. Each file access takes that file's lock (lines 124-125, 136-137) and is one action; nothing makes a whole call atomic.
    Every call has a buffer of its own. *)
From Verif Require Import Base LayoutModel FsModel.

(** A call: WritePiece(i, d) or ReadPiece(i, buf). *)
Inductive job := JWrite (i : Z) (d : gslice) | JRead (i : Z) (buf : gslice).

(** Where a call is: not begun; in the loop with these locations left, its slice and offset; returned. *)
Inductive fpc := FStart | FLoop (locs : list ploc) (buf : gslice) (offset : Z) | FDone (r : res Z) (buf : gslice).
Record fstate := mkfst { f_world : world; f_at : nat -> fpc }.

(** fileio.go:145-150 and 165-176: everything before the loop; no file is accessed. *)
Definition begin_job (sha1 : bytes -> bytes) (ti : torinfo) (j : job) : fpc :=
  match j with
  | JRead i buf =>
    match PieceLookup ti i with
    | Ok locs => FLoop locs buf 0
    | Err e => FDone (Err e) buf | Panic => FDone Panic buf | NoFuel => FDone NoFuel buf
    end
  | JWrite i d =>
    match (do locs <- PieceLookup ti i; do h <- PieceHash ti i; if beqb (sha1 (vis d)) h then Ok locs else Err EBadHash) with
    | Ok locs => FLoop locs d 0
    | Err e => FDone (Err e) d | Panic => FDone Panic d | NoFuel => FDone NoFuel d
    end
  end.
(** fileio.go:153-160 and 179-186: one turn of the loop. *)
Definition access (ti : torinfo) (j : job) (l : ploc) (rest : list ploc) (buf : gslice) (offset : Z) (w : world) : fpc * world :=
  match j with
  | JRead _ _ => match read_locs_io ti [l] buf offset w with
                 | (Ok o, buf', w') => (FLoop rest buf' o, w')
                 | (r, buf', w') => (FDone r buf', w')
                 end
  | JWrite _ _ => match write_locs ti [l] buf offset w with
                  | (Ok o, w') => (FLoop rest buf o, w')
                  | (r, w') => (FDone r buf, w')
                  end
  end.
Definition fgoto (s : fstate) (t : nat) (p : fpc) : nat -> fpc := fun u => if Nat.eqb u t then p else f_at s u.
(** Call t does its next action; None: it has returned. *)
Definition fstep (sha1 : bytes -> bytes) (ti : torinfo) (jobs : nat -> job) (s : fstate) (t : nat) : option fstate :=
  match f_at s t with
  | FStart => Some (mkfst (f_world s) (fgoto s t (begin_job sha1 ti (jobs t))))
  | FLoop [] buf o => Some (mkfst (f_world s) (fgoto s t (FDone (Ok o) buf)))
  | FLoop (l :: r) buf o => let (p, w') := access ti (jobs t) l r buf o (f_world s) in Some (mkfst w' (fgoto s t p))
  | FDone _ _ => None
  end.
(** A schedule: which call acts next. *)
Fixpoint frun (sha1 : bytes -> bytes) (ti : torinfo) (jobs : nat -> job) (s : fstate) (ts : list nat) : option fstate :=
  match ts with
  | [] => Some s
  | t :: r => match fstep sha1 ti jobs s t with Some s' => frun sha1 ti jobs s' r | None => None end
  end.
Definition finit (w : world) : fstate := mkfst w (fun _ => FStart).
