(** SeenModel.v: CreateTorInfo (src/torrent/info/info.go) over files that change while it reads them, with failing calls and open descriptors. *)
From Verif Require Import Base PathModel LayoutModel CreateModel.

(** What the operating system answers about one opened file: what Stat says of its size ([None]: an error), the bytes that
    reading delivers before the end of the file, and whether Close succeeds. The two need not agree: the size is asked once,
    before the first Read (info.go:107-112), and others may write to the file, or cut it, until the last. *)
Record seen := mkseen { sn_size : option Z; sn_data : bytes; sn_close : bool }.

(** info.go:98-145: all files, in order; one answer for each, [None] if Open fails. The number is of the descriptors left open
    on return: lines 109 and 121 return without Close; after a failing Close (142) the descriptor is gone. *)
Fixpoint read_seen (sha1 : bytes -> bytes) (fuel : nat) (P : Z) (wd : bytes) (paths : list bytes) (sees : list (option seen))
  (acc hashes : bytes) (sched : list (option Z)) : res (bytes * bytes * list ebase) * nat :=
  match paths with
  | [] => (Ok (acc, hashes, []), 0%nat)
  | p :: r =>
    let localPath := Join [wd; p] in
    match sees with
    | Some k :: ks =>
      match sn_size k with
      | None => (Err EIO, 1%nat)
      | Some n =>
        match read_file sha1 fuel P (sn_data k) acc hashes sched with
        | Ok (acc', hashes', s) =>
          if sn_close k then
            let ' (x, l) := read_seen sha1 fuel P wd r ks acc' hashes' s in
            (do ' (acc2, hashes2, es) <- x; Ok (acc2, hashes2, SetLocalPath (MakeFileEntry p n) localPath :: es), l)
          else (Err EIO, 0%nat)
        | Err e => (Err e, 1%nat)
        | Panic => (Panic, 1%nat)
        | NoFuel => (NoFuel, 1%nat)
        end
      end
    | _ => (Err EPath, 0%nat)
    end
  end.
(** info.go:80-155 CreateTorInfo, as in CreateModel.v otherwise. *)
Definition CreateSeen (sha1 : bytes -> bytes) (fuel : nat) (sched : list (option Z)) (sees : list (option seen))
  (paths : list bytes) (workingDir name : bytes) (pieceLen : Z) : res torinfo * nat :=
  if pieceLen =? 0 then (Panic, 0%nat)
  else if bufSize pieceLen <? 0 then (Panic, 0%nat)
  else
    let wd := if 1 <? zlen paths then Join [workingDir; name] else workingDir in
    let ' (x, l) := read_seen sha1 fuel pieceLen wd paths sees [] [] sched in
    (do ' (acc, hashes, fentries) <- x;
     do pieces <- SegmentData (mkslice acc []) pieceLen;
     NewTorInfo name pieceLen (hashes ++ HashSlices sha1 pieces) fentries, l).
