(** LayoutModel.v: model of src/torrent/filesd and src/torrent/info (file layout and metadata). *)
From Verif Require Import Base BencodeModel PathModel.

(** int64 arithmetic: + - * wrap; / and % truncate and panic on zero. *)
Definition add64 (a b : Z) : Z := i64 (a + b).
Definition sub64 (a b : Z) : Z := i64 (a - b).
Definition mul64 (a b : Z) : Z := i64 (a * b).
Definition div64 (a b : Z) : res Z := if b =? 0 then Panic else Ok (i64 (Z.quot a b)).
Definition rem64 (a b : Z) : res Z := if b =? 0 then Panic else Ok (Z.rem a b).

(** entrybase.go:18-22 EntryBase *)
Record ebase := mkeb { eb_len : Z; eb_tor : bytes; eb_local : bytes }.
(** entrybase.go:46-52 *)
Definition MakeFileEntry (torPath : bytes) (length : Z) : ebase := mkeb length torPath torPath.
(** entrybase.go:39-41 *)
Definition SetLocalPath (e : ebase) (p : bytes) : ebase := mkeb (eb_len e) (eb_tor e) p.

(** entry.go:13-19 Entry *)
Record entry := mken { en_base : ebase; en_sp : Z; en_ep : Z; en_so : Z; en_eo : Z }.
Definition en_len (e : entry) : Z := eb_len (en_base e).

(** entry.go:25-28 *)
Record pinfo := mkpi { SeekAmnt : Z; ReadAmnt : Z }.

(** entry.go:102-110: the loop runs index - startPieceIdx times. *)
Fixpoint seek_loop (n : nat) (P seek off : Z) : Z * Z :=
  match n with
  | O => (seek, off)
  | S k => seek_loop k P (add64 seek (sub64 P off)) 0
  end.

(** entry.go:64-127 PieceInfo *)
Definition PieceInfo (e : entry) (index P : Z) : res pinfo :=
  if (index <? en_sp e) || (en_ep e <? index) then Err EBounds
  else
    let '(seek, off) := seek_loop (Z.to_nat (index - en_sp e)) P 0 (en_so e) in
    let rd := if index <? en_ep e then sub64 P off else add64 (sub64 (en_eo e) off) 1 in
    Ok (mkpi seek rd).

(** flist.go:12-32: the body of the loop for one entry. *)
Definition file_step (b : ebase) (P index offset : Z) : res (entry * Z * Z) :=
  do q <- div64 (sub64 (eb_len b) 1) P;
  do r <- rem64 (sub64 (eb_len b) 1) P;
  let endPiece := add64 index q in
  let endOff := add64 offset r in
  do ' (endPiece, endOff) <-
    (if P <=? endOff then
       do q2 <- div64 endOff P; do r2 <- rem64 endOff P; Ok (add64 endPiece q2, r2)
     else Ok (endPiece, endOff));
  let e := mken b index endPiece offset endOff in
  let off' := add64 endOff 1 in
  if off' =? P then Ok (e, add64 endPiece 1, 0) else Ok (e, endPiece, off').

(** flist.go:5-35 MakeFileList *)
Fixpoint MakeFileList_loop (bs : list ebase) (P index offset : Z) : res (list entry) :=
  match bs with
  | [] => Ok []
  | b :: r =>
    do ' (e, index', offset') <- file_step b P index offset;
    do es <- MakeFileList_loop r P index' offset';
    Ok (e :: es)
  end.
Definition MakeFileList (bs : list ebase) (P : Z) : res (list entry) := MakeFileList_loop bs P 0 0.

(** flist.go:39-60 GetFiles: [i] = index, first hit [start], number of hits [n]. *)
Fixpoint GetFiles_loop (fl : list entry) (piece : Z) (i : nat) (hit : bool) (start n : nat) : nat * nat :=
  match fl with
  | [] => (start, n)
  | e :: r =>
    if piece <? en_sp e then (start, n)
    else if (en_sp e <=? piece) && (piece <=? en_ep e) then
      GetFiles_loop r piece (S i) true (if hit then start else i) (S n)
    else GetFiles_loop r piece (S i) hit start n
  end.
Definition GetFiles (fl : list entry) (piece : Z) : list entry :=
  let '(start, n) := GetFiles_loop fl piece 0 false 0 0 in sub fl start n.

(** entrybase.go:108-121 *)
Definition sum64 (bs : list ebase) : Z := fold_left (fun l b => add64 l (eb_len b)) bs 0.
Definition CalcNumPieces (bs : list ebase) (P : Z) : res Z :=
  let l := sum64 bs in
  do n <- div64 l P;
  do r <- rem64 l P;
  Ok (if 0 <? r then add64 n 1 else n).

(** piecelocation.go:5-8. The entry is kept as its index in the file list (the Go value is a
    pointer into that list). *)
Record ploc := mkpl { pl_file : nat; pl_info : pinfo }.

(** piecemap.go:29-53, the loop for one file. State: map, pieceIdx, pieceRem, totalCounted. *)
Definition pmstate := (list (list ploc) * Z * Z * Z)%type.
Fixpoint pm_inner (fuel : nat) (e : entry) (fidx : nat) (P : Z) (s : pmstate) : res pmstate :=
  match fuel with
  | O => NoFuel
  | S f =>
    let '(pm, pidx, prem, tot) := s in
    match PieceInfo e pidx P with
    | Err _ => Ok s
    | Panic => Panic
    | NoFuel => NoFuel
    | Ok pi =>
      if pidx <? 0 then Panic else
      match nth_error pm (Z.to_nat pidx) with
      | None => Panic                          (* pm[pieceIdx] out of range, line 39 *)
      | Some l =>
        let pm' := lupd pm (Z.to_nat pidx) (l ++ [mkpl fidx pi]) in
        let prem' := sub64 prem (ReadAmnt pi) in
        let tot' := add64 tot (ReadAmnt pi) in
        if prem' <=? 0 then pm_inner f e fidx P (pm', add64 pidx 1, P, tot')
        else Ok (pm', pidx, prem', tot')
      end
    end
  end.

(** Enough iterations: pieceIdx grows by one each time and PieceInfo fails above endPieceIdx. *)
Definition pm_fuel (e : entry) (pidx : Z) : nat := S (S (Z.to_nat (en_ep e - pidx))).

Fixpoint pm_outer (fl : list entry) (fidx : nat) (npieces P : Z) (s : pmstate) : res pmstate :=
  match fl with
  | [] => Ok s
  | e :: r =>
    let '(pm, pidx, prem, tot) := s in
    if pidx =? npieces then Ok s
    else do s' <- pm_inner (pm_fuel e pidx) e fidx P s; pm_outer r (S fidx) npieces P s'
  end.

(** piecemap.go:13-62 MakePieceMap *)
Definition MakePieceMap (fl : list entry) (npieces P total : Z) : res (list (list ploc)) :=
  do ' (pm, _, _, tot) <- pm_outer fl 0 npieces P (repeat [] (Z.to_nat npieces), 0, P, 0);
  if tot =? total then Ok pm else Err EInvalid.

(** info.go:29-40 TorInfo *)
Record torinfo := mkti {
  ti_name : bytes; ti_plen : Z; ti_hashes : bytes; ti_npieces : Z; ti_length : Z;
  ti_files : list entry; ti_single : bool; ti_pm : list (list ploc); ti_lastlen : Z }.

(** info.go:157-192 NewTorInfo *)
Definition NewTorInfo (name : bytes) (P : Z) (hashes : bytes) (files : list ebase) : res torinfo :=
  if negb (zlen hashes mod 20 =? 0) then Err EInvalid else
  let length := sum64 files in
  do flist <- MakeFileList files P;
  let npieces := zlen hashes / 20 in
  do pm <- MakePieceMap flist npieces P length;
  let lastLen := sub64 P (sub64 (mul64 npieces P) length) in
  Ok (mkti name P hashes npieces length flist (Nat.eqb (List.length files) 1) pm lastLen).

(** entrybase.go:73-87: the torrent path of one entry; the empty path list makes the slice
    expression [:l-1] panic. *)
Fixpoint path_concat (l : list gval) : res bytes :=
  match l with
  | [] => Ok []
  | VStr s :: r => do t <- path_concat r; Ok (s ++ slash :: t)
  | _ :: _ => Err EPath
  end.
Definition path_of_list (l : list gval) : res bytes :=
  do s <- path_concat l;
  match s with [] => Panic | _ => Ok (removelast s) end.

(** entrybase.go:54-91 FromBenList *)
Fixpoint FromBenList (l : list gval) : res (list ebase) :=
  match l with
  | [] => Ok []
  | VDict d :: r =>
    do n <- GetInt d (B "length");
    do pl <- GetList d (B "path");
    do p <- path_of_list pl;
    do es <- FromBenList r;
    Ok (MakeFileEntry p n :: es)
  | _ :: _ => Err ENotDict
  end.

(** info.go:213-244: the entries FromDict derives from the dictionary. *)
Definition dict_entries (info : list (bytes * gval)) (workingDir name : bytes) : res (list ebase) :=
  match GetInt info (B "length") with
  | Ok length =>
    let fe := MakeFileEntry name length in
    Ok [SetLocalPath fe (Join [workingDir; eb_tor fe])]
  | Panic => Panic
  | NoFuel => NoFuel
  | Err _ =>
    match GetList info (B "files") with
    | Ok files =>
      do fes <- FromBenList files;
      let wd := Join [workingDir; name] in
      Ok (map (fun fe => SetLocalPath fe (Join [wd; eb_tor fe])) fes)
    | Err _ => Err EMissingKey
    | Panic => Panic
    | NoFuel => NoFuel
    end
  end.

(** info.go:196-247 FromDict *)
Definition FromDict (info : list (bytes * gval)) (workingDir : bytes) : res torinfo :=
  do name <- GetString info (B "name");
  do P <- GetInt info (B "piece length");
  do hashes <- GetString info (B "pieces");
  do fes <- dict_entries info workingDir name;
  NewTorInfo name P hashes fes.

(** info.go:252-255; string slicing panics out of range (idx*20 wraps). *)
Definition PieceHash (ti : torinfo) (idx : Z) : res bytes :=
  let off := mul64 idx 20 in
  let hi := add64 off 20 in
  if (0 <=? off) && (off <=? hi) && (hi <=? zlen (ti_hashes ti))
  then Ok (sub (ti_hashes ti) (Z.to_nat off) (Z.to_nat (hi - off))) else Panic.

(** info.go:283-294 *)
Definition PieceLookup (ti : torinfo) (index : Z) : res (list ploc) :=
  if index <? 0 then Err EBounds
  else if ti_npieces ti <=? index then Err EBounds
  else match nth_error (ti_pm ti) (Z.to_nat index) with Some l => Ok l | None => Panic end.

(** entrybase.go:93-106 *)
Definition entry_Bencode (e : ebase) : gval :=
  VDict [(B "length", VInt KInt64 (eb_len e)); (B "path", VList (map VStr (split_slash (eb_tor e))))].

(** info.go:257-281. The dictionary is listed in insertion order (any order is the same map). *)
Definition InfoBencode (ti : torinfo) : list (bytes * gval) :=
  [(B "name", VStr (ti_name ti)); (B "piece length", VInt KInt64 (ti_plen ti));
   (B "pieces", VStr (ti_hashes ti)); (B "private", VInt KInt64 0);
   (if ti_single ti then (B "length", VInt KInt64 (ti_length ti))
    else (B "files", VList (map (fun e => entry_Bencode (en_base e)) (ti_files ti))))].

(** torrent.go:27-31 *)
Record torrent := mktor { t_infohash : bytes; t_announce : bytes; t_info : torinfo }.

(** torrent.go:51-66 NewTorrent; [sha1] is utils.SHA1. *)
Definition NewTorrent (sha1 : bytes -> bytes) (ti : torinfo) (announce : bytes) : res torrent :=
  match Encode (VDict (InfoBencode ti)) with
  | (_, Some e) => Err e
  | (enc, None) => Ok (mktor (sha1 enc) announce ti)
  end.

(** torrent.go:70-111 FromTorrentFile from the file's bytes on (os.ReadFile gives a slice whose
    spare capacity is arbitrary). Line 100 ignores the encoder's error and hashes what it wrote. *)
Definition FromTorrentFile (sha1 : bytes -> bytes) (fdata : gslice) (workingDir : bytes) : res torrent :=
  do d <- Decode fdata;
  match d with
  | VDict dict =>
    do announce <- GetString dict (B "announce");
    do infodict <- GetDict dict (B "info");
    let enc := fst (Encode (VDict infodict)) in
    do ti <- FromDict infodict workingDir;
    Ok (mktor (sha1 enc) announce ti)
  | _ => Err ENotDict
  end.
