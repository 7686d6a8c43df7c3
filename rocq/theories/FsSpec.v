(** FsSpec.v: specification vocabulary for files on disk. *)
From Verif Require Import Base PathModel PathSpec LayoutModel LayoutSpec FsModel.

(** What is stored under a path. *)
Definition file_at (w : world) (p : bytes) : option bytes :=
  match pget (place (w_cwd w) p) (w_names w) with Some i => nth_error (w_inos w) i | None => None end.

(** Names are bound once, to existing inodes, and no inode has two names (no hard links). *)
Definition fs_wf (w : world) : Prop :=
  NoDup (map fst (w_names w)) /\ NoDup (map snd (w_names w)) /\ Forall (fun n => (snd n < List.length (w_inos w))%nat) (w_names w).

(** No system call fails. *)
Definition no_faults (w : world) : Prop := w_flt w = [].

(** [new] is [old] cut or zero-extended to L bytes. *)
Definition resized (old : bytes) (L : Z) (new : bytes) : Prop :=
  zlen new = L /\ forall x, 0 <= x < L ->
    nth_error new (Z.to_nat x) = (if x <? zlen old then nth_error old (Z.to_nat x) else Some x00).

(** The torrent's files are open, at distinct inodes, with these contents of the right sizes. *)
Definition opened_at (inos : list nat) (w : world) (ti : torinfo) (contents : list bytes) : Prop :=
  NoDup inos /\
  Forall2 (fun e i => aget (eb_local (en_base e)) (w_lfps w) = Some (mkh i true)) (ti_files ti) inos /\
  Forall2 (fun i c => nth_error (w_inos w) i = Some c) inos contents /\
  map zlen contents = lens_of (map en_base (ti_files ti)).
Definition opened (w : world) (ti : torinfo) (contents : list bytes) : Prop := exists inos, opened_at inos w ti contents.

(** Byte string [c] with [d] written over it from position off. *)
Definition over (c : bytes) (off : Z) (d : bytes) : bytes :=
  firstn (Z.to_nat off) c ++ d ++ skipn (Z.to_nat off + List.length d) c.

(** Same files apart from the listed inodes. *)
Definition others_same (inos : list nat) (w w' : world) : Prop :=
  w_cwd w' = w_cwd w /\ w_names w' = w_names w /\ w_lfps w' = w_lfps w /\ List.length (w_inos w') = List.length (w_inos w) /\
  forall i, ~ In i inos -> nth_error (w_inos w') i = nth_error (w_inos w) i.

(** Nothing on disk changed. *)
Definition disk_same (w w' : world) : Prop :=
  w_cwd w' = w_cwd w /\ w_names w' = w_names w /\ w_lfps w' = w_lfps w /\ w_inos w' = w_inos w.

(** Metadata accepted by NewTorInfo for these files. *)
Definition made (P : Z) (hashes : bytes) (files : list ebase) (ti : torinfo) : Prop :=
  sane P (lens_of files) /\ zlen hashes < big /\ exists name, NewTorInfo name P hashes files = Ok ti.

(** Where piece i starts and ends in the concatenation of files of total size T. *)
Definition pstart (P T i : Z) : Z := Z.min (i * P) T.
Definition psize (P T i : Z) : Z := pstart P T (i + 1) - pstart P T i.
(** The i-th 20-byte hash. *)
Definition hash_at (hashes : bytes) (i : Z) : bytes := range hashes (20 * i) (20 * i + 20).

(** A sequence of WritePiece calls, stopping at the first failure. *)
Fixpoint write_all (sha1 : bytes -> bytes) (ti : torinfo) (ws : list (Z * gslice)) : io unit :=
  match ws with
  | [] => ret tt
  | (i, d) :: r => run n <- WritePiece sha1 ti i d; write_all sha1 ti r
  end.
(** What piece j should hold after the writes, [old] before them: the last data written to it. *)
Fixpoint after_writes (ws : list (Z * gslice)) (j : Z) (old : bytes) : bytes :=
  match ws with
  | [] => old
  | (i, d) :: r => after_writes r j (if j =? i then vis d else old)
  end.
(** Content of a path, a missing file counting as empty. *)
Definition old_at (w : world) (p : bytes) : bytes := match file_at w p with Some c => c | None => [] end.
(** [new] still begins with what [old] had up to L. *)
Definition keeps (old : bytes) (L : Z) (new : bytes) : Prop :=
  forall x, 0 <= x < Z.min (zlen old) L -> nth_error new (Z.to_nat x) = nth_error old (Z.to_nat x).
(** Files at any other path are untouched. *)
Definition elsewhere_same (places : list (list bytes)) (w w' : world) : Prop :=
  w_cwd w' = w_cwd w /\ forall q, ~ In (place (w_cwd w) q) places -> file_at w' q = file_at w q.
