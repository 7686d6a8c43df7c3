(** FsModel.v: the operating-system calls used by the code, and model of src/utils/futils.go and
    src/torrent/fileio/fileio.go.

    A file is an inode; a path names a place in the tree (PathSpec.place) and a place may be bound
    to an inode. Directories, permissions and symbolic links are not represented; instead every
    system call may fail, at any moment, as directed by a list of faults consulted in order
    ([Some k]: this call fails after transferring k bytes; [None] or end of list: it works). *)
From Verif Require Import Base BencodeModel PathModel PathSpec LayoutModel.

(** Association lists keyed by byte strings (Go maps) and by places. *)
Fixpoint aget {A} (k : bytes) (m : list (bytes * A)) : option A :=
  match m with [] => None | (k', v) :: r => if beqb k k' then Some v else aget k r end.
Fixpoint aput {A} (k : bytes) (v : A) (m : list (bytes * A)) : list (bytes * A) :=
  match m with [] => [(k, v)] | (k', v') :: r => if beqb k k' then (k, v) :: r else (k', v') :: aput k v r end.
Definition place_eqb (a b : list bytes) : bool := if list_eq_dec bytes_dec a b then true else false.
Fixpoint pget {A} (k : list bytes) (m : list (list bytes * A)) : option A :=
  match m with [] => None | (k', v) :: r => if place_eqb k k' then Some v else pget k r end.

(** An open file: *os.File (fileio.go:28-31; the lock is not represented, each access is atomic). *)
Record handle := mkh { h_ino : nat; h_open : bool }.

(** The state of the program's files: current directory, names, inode contents, pending faults, and
    FileIO.lfps (fileio.go:33-36). *)
Record world := mkw { w_cwd : list bytes; w_names : list (list bytes * nat); w_inos : list bytes;
                      w_flt : list (option Z); w_lfps : list (bytes * handle) }.
Definition set_inos (w : world) (i : list bytes) : world := mkw (w_cwd w) (w_names w) i (w_flt w) (w_lfps w).
Definition set_lfps (w : world) (l : list (bytes * handle)) : world := mkw (w_cwd w) (w_names w) (w_inos w) (w_flt w) l.

(** Computations on the world. *)
Definition io (A : Type) := world -> res A * world.
Definition ret {A} (a : A) : io A := fun w => (Ok a, w).
Definition lift {A} (r : res A) : io A := fun w => (r, w).
Definition iobind {A C} (m : io A) (f : A -> io C) : io C :=
  fun w => match m w with
           | (Ok a, w') => f a w'
           | (Err e, w') => (Err e, w')
           | (Panic, w') => (Panic, w')
           | (NoFuel, w') => (NoFuel, w')
           end.
Notation "'run' x <- m ; k" := (iobind m (fun x => k)) (at level 200, x binder, m at level 100, k at level 200).

(** The next system call's fate. *)
Definition fault : io (option Z) := fun w =>
  match w_flt w with
  | [] => (Ok None, w)
  | f :: r => (Ok f, mkw (w_cwd w) (w_names w) (w_inos w) r (w_lfps w))
  end.
(** A system call that transfers no data. *)
Definition syscall {A} (body : io A) : io A :=
  run f <- fault; match f with Some _ => lift (Err EIO) | None => body end.

Definition zeros (n : Z) : bytes := repeat x00 (Z.to_nat n).
(** pwrite(2): the content after writing [data] at [off]; a gap is filled with zeros; writing nothing changes nothing. *)
Definition pwrite (c : bytes) (off : Z) (data : bytes) : bytes :=
  match data with
  | [] => c
  | _ => firstn (Z.to_nat off) c ++ zeros (off - zlen c) ++ data ++ skipn (Z.to_nat off + List.length data) c
  end.
(** ftruncate(2) *)
Definition ftruncate (c : bytes) (n : Z) : bytes := firstn (Z.to_nat n) c ++ zeros (n - zlen c).

Definition content (i : nat) : io bytes := fun w => (Ok (nth i (w_inos w) []), w).
Definition put_content (i : nat) (c : bytes) : io unit := fun w => (Ok tt, set_inos w (lupd (w_inos w) i c)).

(** os.OpenFile(path, O_RDWR) *)
Definition os_open (p : bytes) : io nat :=
  syscall (fun w => match pget (place (w_cwd w) p) (w_names w) with Some i => (Ok i, w) | None => (Err EPath, w) end).
(** os.OpenFile(path, O_CREATE|O_RDWR|O_TRUNC) *)
Definition os_create (p : bytes) : io nat :=
  syscall (fun w => match pget (place (w_cwd w) p) (w_names w) with
                    | Some i => (Ok i, set_inos w (lupd (w_inos w) i []))
                    | None => let i := List.length (w_inos w) in
                              (Ok i, mkw (w_cwd w) (w_names w ++ [(place (w_cwd w) p, i)]) (w_inos w ++ [[]]) (w_flt w) (w_lfps w))
                    end).
(** os.MkdirAll *)
Definition os_mkdirall (p : bytes) : io unit := syscall (ret tt).
(** File.Seek(0, SeekEnd) and File.Stat().Size() *)
Definition os_size (i : nat) : io Z := syscall (run c <- content i; ret (zlen c)).
(** File.Truncate *)
Definition os_truncate (i : nat) (n : Z) : io unit :=
  syscall (if n <? 0 then lift (Err EIO) else run c <- content i; put_content i (ftruncate c n)).
(** File.Write / File.WriteAt of non-empty data at an offset: on a fault only a prefix arrives. *)
Definition os_write (i : nat) (off : Z) (data : bytes) : io unit :=
  run f <- fault; run c <- content i;
  match f with
  | Some k => run u <- put_content i (pwrite c off (firstn (Z.to_nat k) data)); lift (Err EIO)
  | None => put_content i (pwrite c off data)
  end.
(** File.WriteAt: negative offset and closed file are errors; empty data makes no system call. *)
Definition WriteAt (h : handle) (data : bytes) (off : Z) : io Z :=
  if off <? 0 then lift (Err EIO)
  else match data with
       | [] => ret 0
       | _ => if h_open h then run u <- os_write (h_ino h) off data; ret (zlen data) else lift (Err EClosed)
       end.
(** File.ReadAt(buf of n bytes, off): the bytes read and the error (EOF if fewer than n). *)
Definition ReadAt (h : handle) (n : Z) (off : Z) : io (bytes * option goerr) :=
  if off <? 0 then ret ([], Some EIO)
  else if n <=? 0 then ret ([], None)
  else if negb (h_open h) then ret ([], Some EClosed)
  else
    run f <- fault; run c <- content (h_ino h);
    let avail := sub c (Z.to_nat off) (Z.to_nat n) in
    match f with
    | Some k => ret (firstn (Z.to_nat k) avail, Some EIO)
    | None => if zlen avail <? n then ret (avail, Some EEOF) else ret (avail, None)
    end.

(** futils.go:10 *)
Definition writeSize : Z := 1048576.
(** futils.go:44-58. [pos] is the file position. data[:left] panics for a negative left. *)
Fixpoint zeros_loop (fuel : nat) (i : nat) (pos left : Z) : io unit :=
  match fuel with
  | O => lift NoFuel
  | S f =>
    if left =? 0 then ret tt
    else if writeSize <? left then
      run u <- os_write i pos (zeros writeSize); zeros_loop f i (pos + writeSize) (left - writeSize)
    else if left <? 0 then lift Panic
    else run u <- os_write i pos (zeros left); zeros_loop f i (pos + left) 0
  end.
(** futils.go:34-60 AppendZeros *)
Definition AppendZeros (i : nat) (amnt : Z) : io unit :=
  run pos <- os_size i; zeros_loop (Z.to_nat (amnt / writeSize) + 2) i pos amnt.
(** futils.go:13-31 CreateZeroFilledFile *)
Definition CreateZeroFilledFile (p : bytes) (size : Z) : io nat :=
  run u <- os_mkdirall p;
  run i <- os_create p;
  run u <- AppendZeros i size;
  ret i.
(** futils.go:66-101 OCAT *)
Definition utils_OCAT (p : bytes) (length : Z) : io nat :=
  fun w =>
  let opened := match os_open p w with
                | (Err _, w') => CreateZeroFilledFile p length w'
                | r => r
                end in
  match opened with
  | (Ok i, w') =>
    (run chkLen <- os_size i;
     if chkLen =? length then ret i
     else if length <? chkLen then run u <- os_truncate i length; ret i
     else run u <- AppendZeros i (sub64 length chkLen); ret i) w'
  | r => r
  end.

(** fileio.go:57-65 OCAT *)
Definition OCAT (p : bytes) (length : Z) : io unit :=
  run i <- utils_OCAT p length; fun w => (Ok tt, set_lfps w (aput p (mkh i true) (w_lfps w))).
(** fileio.go:67-77 OCATAll *)
Fixpoint OCATAll (files : list entry) : io unit :=
  match files with
  | [] => ret tt
  | e :: r => run u <- OCAT (eb_local (en_base e)) (en_len e); OCATAll r
  end.
(** fileio.go:79-89 Move: os.Rename; the map keeps the old key. *)
Definition Move (a b : bytes) : io unit := fun w =>
  match aget a (w_lfps w) with
  | None => (Err EPath, w)
  | Some _ =>
    syscall (fun w =>
      match pget (place (w_cwd w) a) (w_names w) with
      | None => (Err EPath, w)
      | Some i =>
        let keep := filter (fun n => negb (place_eqb (fst n) (place (w_cwd w) a)) && negb (place_eqb (fst n) (place (w_cwd w) b))) (w_names w) in
        (Ok tt, mkw (w_cwd w) (keep ++ [(place (w_cwd w) b, i)]) (w_inos w) (w_flt w) (w_lfps w))
      end) w
  end.
(** fileio.go:91-101 Close: the entry stays in the map; closing twice is an error; a close(2) that fails has closed the file. *)
Definition Close (p : bytes) : io unit := fun w =>
  match aget p (w_lfps w) with
  | None => (Err EPath, w)
  | Some h =>
    if h_open h then
      (run f <- fault;
       fun w => (match f with Some _ => Err EIO | None => Ok tt end, set_lfps w (aput p (mkh (h_ino h) false) (w_lfps w)))) w
    else (Err EClosed, w)
  end.
(** fileio.go:103-119 CloseAll; [order] is Go's map iteration order, a list of the keys. *)
Fixpoint CloseAll (order : list bytes) : io unit :=
  match order with [] => ret tt | p :: r => run u <- Close p; CloseAll r end.

(** fileio.go:121-143 write and read *)
Definition fio_write (p : bytes) (seek : Z) (data : bytes) : io Z := fun w =>
  match aget p (w_lfps w) with Some h => WriteAt h data seek w | None => (Err EPath, w) end.
Definition fio_read (p : bytes) (seek n : Z) : io (bytes * option goerr) := fun w =>
  match aget p (w_lfps w) with Some h => ReadAt h n seek w | None => (Ok ([], Some EPath), w) end.

(** The path of a piece location (piecelocation.go: Entry is a pointer into the file list). *)
Definition loc_path (ti : torinfo) (l : ploc) : res bytes :=
  match nth_error (ti_files ti) (pl_file l) with Some e => Ok (eb_local (en_base e)) | None => Panic end.

(** fileio.go:178-188 *)
Fixpoint write_locs (ti : torinfo) (plocs : list ploc) (data : gslice) (offset : Z) : io Z :=
  match plocs with
  | [] => ret offset
  | l :: r =>
    run subbuf <- lift (sslice data offset (add64 offset (ReadAmnt (pl_info l))));
    run p <- lift (loc_path ti l);
    run n <- fio_write p (SeekAmnt (pl_info l)) (vis subbuf);
    write_locs ti r data (add64 offset n)
  end.
(** fileio.go:165-189 WritePiece *)
Definition WritePiece (sha1 : bytes -> bytes) (ti : torinfo) (index : Z) (data : gslice) : io Z :=
  run plocs <- lift (PieceLookup ti index);
  run knownHash <- lift (PieceHash ti index);
  if negb (beqb (sha1 (vis data)) knownHash) then lift (Err EBadHash)
  else write_locs ti plocs data 0.

(** Bytes placed into a slice's backing array at an offset. *)
Definition splice (s : gslice) (off : Z) (b : bytes) : gslice :=
  let back := vis s ++ spare s in
  let back' := firstn (Z.to_nat off) back ++ b ++ skipn (Z.to_nat off + List.length b) back in
  mkslice (firstn (List.length (vis s)) back') (skipn (List.length (vis s)) back').

(** fileio.go:152-162; the buffer is returned in every case. *)
Fixpoint read_locs_io (ti : torinfo) (plocs : list ploc) (buf : gslice) (offset : Z) (w : world) : res Z * gslice * world :=
  match plocs with
  | [] => (Ok offset, buf, w)
  | l :: r =>
    match sslice buf offset (add64 offset (ReadAmnt (pl_info l))) with
    | Ok subbuf =>
      match loc_path ti l with
      | Ok p =>
        match fio_read p (SeekAmnt (pl_info l)) (zlen (vis subbuf)) w with
        | (Ok (b, None), w') => read_locs_io ti r (splice buf offset b) (add64 offset (zlen b)) w'
        | (Ok (b, Some e), w') => (Err e, splice buf offset b, w')
        | (Err e, w') => (Err e, buf, w')
        | (Panic, w') => (Panic, buf, w')
        | (NoFuel, w') => (NoFuel, buf, w')
        end
      | _ => (Panic, buf, w)
      end
    | _ => (Panic, buf, w)
    end
  end.
(** fileio.go:145-163 ReadPiece *)
Definition ReadPiece (ti : torinfo) (index : Z) (buf : gslice) (w : world) : res Z * gslice * world :=
  match PieceLookup ti index with
  | Ok plocs => read_locs_io ti plocs buf 0 w
  | Err e => (Err e, buf, w)
  | Panic => (Panic, buf, w)
  | NoFuel => (NoFuel, buf, w)
  end.
