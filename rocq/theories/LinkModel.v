(** LinkModel.v: symbolic links. FsModel finds a file at the place its path spells (PathSpec.place);
    here a path is resolved as the kernel does it (path_resolution(7)), so that a component may be a
    symbolic link, and src/utils/futils.go and src/torrent/fileio/fileio.go run on the result.

    Simplified: a link is an entry of a table that no call changes (no function in /repo/src makes or removes
    a link); that the directories on the way exist is not checked (as in FsModel, any call may fail instead);
    the empty link text, which Linux does not allow, leads to the directory of the link. os.Rename
    (fileio.go:84), which renames the link itself, is in RenameModel. *)
From Verif Require Import Base BencodeModel PathModel PathSpec LayoutModel FsModel.

(** Where the links are (places without links on the way to them) and what they say. *)
Definition links := list (list bytes * bytes).

(** path_resolution(7): d is the directory reached, ts the components left, n the links that may still be
    followed (ELOOP afterwards). A link's text is followed from its own directory, or from the root. *)
Fixpoint walk (n : nat) (L : links) : list bytes -> list bytes -> option (list bytes) :=
  fix from (d ts : list bytes) : option (list bytes) :=
  match ts with
  | [] => Some d
  | t :: r =>
    if beqb t [] || beqb t dot then from d r
    else if beqb t dotdot then from (removelast d) r
    else match pget (d ++ [t]) L with
         | None => from (d ++ [t]) r
         | Some text =>
           match n with
           | O => None
           | S n' => walk n' L (if rooted text then [] else d) (split_slash text ++ r)
           end
         end
  end.
(** Linux follows 40 links in one path. *)
Definition max_links : nat := 40.
(** The place that open(2) reaches by path p from the current directory cwd. *)
Definition real (L : links) (cwd : list bytes) (p : bytes) : option (list bytes) :=
  walk max_links L (if rooted p then [] else cwd) (split_slash p).

(** os.OpenFile(path, O_RDWR), futils.go:68 *)
Definition l_open (L : links) (p : bytes) : io nat :=
  syscall (fun w =>
    match real L (w_cwd w) p with
    | None => (Err EPath, w)
    | Some q => match pget q (w_names w) with Some i => (Ok i, w) | None => (Err EPath, w) end
    end).
(** os.OpenFile(path, O_CREATE|O_RDWR|O_TRUNC), futils.go:20: a link whose target is missing has it made. *)
Definition l_create (L : links) (p : bytes) : io nat :=
  syscall (fun w =>
    match real L (w_cwd w) p with
    | None => (Err EPath, w)
    | Some q =>
      match pget q (w_names w) with
      | Some i => (Ok i, set_inos w (lupd (w_inos w) i []))
      | None => let i := List.length (w_inos w) in
                (Ok i, mkw (w_cwd w) (w_names w ++ [(q, i)]) (w_inos w ++ [[]]) (w_flt w) (w_lfps w))
      end
    end).
(** futils.go:13-31 CreateZeroFilledFile *)
Definition l_CreateZeroFilledFile (L : links) (p : bytes) (size : Z) : io nat :=
  run u <- os_mkdirall p;
  run i <- l_create L p;
  run u <- AppendZeros i size;
  ret i.
(** futils.go:66-101 OCAT *)
Definition l_utils_OCAT (L : links) (p : bytes) (length : Z) : io nat :=
  fun w =>
  let opened := match l_open L p w with
                | (Err _, w') => l_CreateZeroFilledFile L p length w'
                | r => r
                end in
  match opened with
  | (Ok i, w') =>
    (run chkLen <- os_size i;
     if chkLen =? length then ret i
     else if length <? chkLen then run u <- os_truncate i length; ret i
     else run u <- AppendZeros i (sub64 length chkLen); ret i) w'
  | r => r
  end.
(** fileio.go:57-65 OCAT *)
Definition l_OCAT (L : links) (p : bytes) (length : Z) : io unit :=
  run i <- l_utils_OCAT L p length; fun w => (Ok tt, set_lfps w (aput p (mkh i true) (w_lfps w))).
(** fileio.go:67-77 OCATAll *)
Fixpoint l_OCATAll (L : links) (files : list entry) : io unit :=
  match files with
  | [] => ret tt
  | e :: r => run u <- l_OCAT L (eb_local (en_base e)) (en_len e); l_OCATAll L r
  end.
