(** CreateModel.v: model of SegmentData (src/utils/utils.go) and CreateTorInfo (src/torrent/info/info.go). *)
From Verif Require Import Base PathModel PathSpec LayoutModel FsModel FsSpec.

(** utils.go:96-107. [left] and [idx] as in the code. *)
Fixpoint segment_loop (fuel : nat) (data : gslice) (segSize left idx : Z) : res (list bytes) :=
  match fuel with
  | O => NoFuel
  | S f =>
    if left =? 0 then Ok []
    else
      let toWrite := if left <? segSize then left else segSize in
      do s <- sslice data idx (add64 idx toWrite);
      do r <- segment_loop f data segSize (sub64 left toWrite) (add64 idx toWrite);
      Ok (vis s :: r)
  end.
(** utils.go:90-109 SegmentData: division by zero and a negative capacity panic; each iteration
    takes at least one byte when segSize is positive. *)
Definition SegmentData (data : gslice) (segSize : Z) : res (list bytes) :=
  if segSize =? 0 then Panic
  else if Z.quot (slen data) segSize + 1 <? 0 then Panic
  else segment_loop (S (List.length (vis data))) data segSize (slen data) 0.
(** utils.go:117-123 HashSlices; also the loops info.go:133-136 and 149-152. *)
Fixpoint HashSlices (sha1 : bytes -> bytes) (pieces : list bytes) : bytes :=
  match pieces with [] => [] | p :: r => sha1 p ++ HashSlices sha1 r end.

(** info.go:83-87 *)
Definition maxBuf : Z := 5242880.
Definition bufSize (pieceLen : Z) : Z := mul64 (Z.quot maxBuf pieceLen) pieceLen.

(** One Read into [room] bytes of buffer with [rest] of the file left. The schedule says how many
    bytes the operating system delivers ([None]: an error); at least one arrives before end of file. *)
Inductive rdres := RData (b : bytes) | REof | RErr.
Definition do_read (room : Z) (rest : bytes) (sched : list (option Z)) : rdres * list (option Z) :=
  if room <=? 0 then (RData [], sched)
  else match sched with
       | None :: s => (RErr, s)
       | Some k :: s => (match rest with [] => REof | _ => RData (firstn (Z.to_nat (Z.max 1 (Z.min k room))) rest) end, s)
       | [] => (match rest with [] => REof | _ => RData (firstn (Z.to_nat room) rest) end, [])
       end.

(** info.go:116-139: one file's read loop. [acc] is buf[:buflen]; bytes of buf past buflen are never used,
    because the buffer is hashed only when full. *)
Fixpoint read_file (sha1 : bytes -> bytes) (fuel : nat) (P : Z) (rest acc hashes : bytes) (sched : list (option Z))
  : res (bytes * bytes * list (option Z)) :=
  match fuel with
  | O => NoFuel
  | S f =>
    match do_read (bufSize P - zlen acc) rest sched with
    | (RErr, _) => Err EIO
    | (REof, s) => Ok (acc, hashes, s)
    | (RData b, s) =>
      let acc' := acc ++ b in
      if zlen acc' =? bufSize P then
        do pieces <- SegmentData (mkslice acc' []) P;
        read_file sha1 f P (skipn (List.length b) rest) [] (hashes ++ HashSlices sha1 pieces) s
      else read_file sha1 f P (skipn (List.length b) rest) acc' hashes s
    end
  end.

(** info.go:98-145: all files, in order. A file keeps its content while it is read. *)
Fixpoint read_files (sha1 : bytes -> bytes) (fuel : nat) (P : Z) (w : world) (wd : bytes) (paths : list bytes)
  (acc hashes : bytes) (sched : list (option Z)) : res (bytes * bytes * list ebase) :=
  match paths with
  | [] => Ok (acc, hashes, [])
  | p :: r =>
    let localPath := Join [wd; p] in
    match file_at w localPath with
    | None => Err EPath
    | Some c =>
      do ' (acc', hashes', s) <- read_file sha1 fuel P c acc hashes sched;
      do ' (acc2, hashes2, es) <- read_files sha1 fuel P w wd r acc' hashes' s;
      Ok (acc2, hashes2, SetLocalPath (MakeFileEntry p (zlen c)) localPath :: es)
    end
  end.
(** info.go:80-155 CreateTorInfo. A zero piece length divides by zero (line 86); a buffer size that
    is negative cannot be made. *)
Definition CreateTorInfo (sha1 : bytes -> bytes) (fuel : nat) (sched : list (option Z)) (w : world)
  (paths : list bytes) (workingDir name : bytes) (pieceLen : Z) : res torinfo :=
  if pieceLen =? 0 then Panic
  else if bufSize pieceLen <? 0 then Panic
  else
    let wd := if 1 <? zlen paths then Join [workingDir; name] else workingDir in
    do ' (acc, hashes, fentries) <- read_files sha1 fuel pieceLen w wd paths [] [] sched;
    do pieces <- SegmentData (mkslice acc []) pieceLen;
    NewTorInfo name pieceLen (hashes ++ HashSlices sha1 pieces) fentries.
