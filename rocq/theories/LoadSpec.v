(** LoadSpec.v: what a torrent file says, and when what it says makes sense. *)
From Verif Require Import Base BencodeModel LenientSpec PathModel LayoutModel LayoutSpec.

(** The file's text begins with a dictionary with an announce string and an info dictionary; the latter has a name, a piece length and hashes. *)
Definition header (data : bytes) (announce : bytes) (info : list (bytes * gval)) (name : bytes) (P : Z) (hashes : bytes) : Prop :=
  exists d t junk, data = t ++ junk /\ lenient (VDict d) t /\ In (B "announce", VStr announce) d /\ In (B "info", VDict info) d /\
    In (B "name", VStr name) info /\ In (B "piece length", VInt KInt64 P) info /\ In (B "pieces", VStr hashes) info.
(** Components with slashes between them. *)
Fixpoint path_text (parts : list bytes) : bytes :=
  match parts with [] => [] | [s] => s | s :: r => s ++ B "/" ++ path_text r end.
(** One entry of the list of files: its path and length. *)
Definition file_entry (v : gval) (f : bytes * Z) : Prop :=
  exists d parts n, v = VDict d /\ In (B "length", VInt KInt64 n) d /\ In (B "path", VList (map VStr parts)) d /\ parts <> [] /\ f = (path_text parts, n).
(** The files: one, if there is a length; otherwise those of the list. *)
Definition lists_files (info : list (bytes * gval)) (name : bytes) (fs : list (bytes * Z)) : Prop :=
  (exists n, In (B "length", VInt KInt64 n) info /\ fs = [(name, n)]) \/
  ((forall n, ~ In (B "length", VInt KInt64 n) info) /\ exists l, In (B "files", VList l) info /\ Forall2 file_entry l fs).
(** There is no length, and the first bad entry of the list is bad in having a path of no components. *)
Definition pathless (info : list (bytes * gval)) : Prop :=
  (forall n, ~ In (B "length", VInt KInt64 n) info) /\
  exists l pre d post fs n, In (B "files", VList l) info /\ l = pre ++ VDict d :: post /\ Forall2 file_entry pre fs /\ In (B "length", VInt KInt64 n) d /\ In (B "path", VList []) d.
(** The number of hashes is enough for the files. *)
Definition enough (P : Z) (hashes : bytes) (fs : list (bytes * Z)) : Prop := zsum (map snd fs) <= zlen hashes / 20 * P.
Definition whole_hashes (hashes : bytes) : Prop := zlen hashes mod 20 = 0.
(** The hashed part ends where a file ends. *)
Definition ends_with_file (P : Z) (hashes : bytes) (fs : list (bytes * Z)) : Prop := exists a b, fs = a ++ b /\ zsum (map snd a) = zlen hashes / 20 * P.
(** What the loaded torrent has. *)
Definition says (tor : torrent) (announce name : bytes) (P : Z) (hashes : bytes) (fs : list (bytes * Z)) : Prop :=
  t_announce tor = announce /\ ti_name (t_info tor) = name /\ ti_plen (t_info tor) = P /\ ti_hashes (t_info tor) = hashes /\
  map (fun e => (eb_tor (en_base e), eb_len (en_base e))) (ti_files (t_info tor)) = fs.
(** Where a file of the torrent goes: under the working directory and the torrent's name, which is also the only file's. *)
Definition lies (wd : bytes) (info : list (bytes * gval)) (name : bytes) (f : bytes * Z) (q : bytes) : Prop :=
  ((exists n, In (B "length", VInt KInt64 n) info) /\ q = Join [wd; name]) \/
  ((forall n, ~ In (B "length", VInt KInt64 n) info) /\ q = Join [Join [wd; name]; fst f]).
(** The torrent keeps these files there, and is known by the hash of the encoding of the info dictionary. *)
Definition keeps_at (sha1 : bytes -> bytes) (tor : torrent) (wd : bytes) (info : list (bytes * gval)) (name : bytes) (fs : list (bytes * Z)) : Prop :=
  Forall2 (lies wd info name) fs (map (fun e => eb_local (en_base e)) (ti_files (t_info tor))) /\ t_infohash tor = sha1 (fst (Encode (VDict info))).
