(** SaySpec.v: which fault of a torrent file, or of a tracker's answer, is the one reported. *)
From Verif Require Import Base BencodeModel DiagModel PeerModel LayoutModel LayoutSpec LoadSpec TrackerSpec SayModel.

(** What a field should be. *)
Inductive sort := AString | AnInt | ADict | AList.
Definition is_a (t : sort) (v : gval) : Prop :=
  match t with AString => exists s, v = VStr s | AnInt => exists z, v = VInt KInt64 z | ADict => exists d, v = VDict d | AList => exists l, v = VList l end.
Definition sort_text (t : sort) : bytes := match t with AString => B "string" | AnInt => B "int64" | ADict => B "dict" | AList => B "list" end.
Definition right (d : list (bytes * gval)) (f : bytes * sort) : Prop := exists v, In (fst f, v) d /\ is_a (snd f) v.
(** It is not there, or is something else. The dictionary is named unless a dictionary was asked for. *)
Definition wrong (d : list (bytes * gval)) (f : bytes * sort) (w : why) : Prop :=
  let (k, t) := f in
  ((forall v, ~ In (k, v) d) /\ w = WMissing k) \/
  exists v, In (k, v) d /\ ~ is_a t v /\ w = WType k (sort_text t) (type_name v) (match t with ADict => None | _ => Some d end).
(** The first of these fields that is wrong. *)
Definition first_wrong (d : list (bytes * gval)) (fs : list (bytes * sort)) (w : why) : Prop :=
  exists pre f post, fs = pre ++ f :: post /\ Forall (right d) pre /\ wrong d f w.

(** ** Torrent files *)
Definition bad_entry (v : gval) (w : why) : Prop :=
  ((forall d, v <> VDict d) /\ w = WEntry) \/
  exists d, v = VDict d /\
    (first_wrong d [(B "length", AnInt); (B "path", AList)] w \/
     exists n l parts x post, In (B "length", VInt KInt64 n) d /\ In (B "path", VList l) d /\ l = map VStr parts ++ x :: post /\ (forall s, x <> VStr s) /\ w = WPath x).
Definition bad_files (info : list (bytes * gval)) (w : why) : Prop :=
  (forall n, ~ In (B "length", VInt KInt64 n) info) /\
  (((forall l, ~ In (B "files", VList l) info) /\ w = WNoFiles) \/
   exists l pre v post fs, In (B "files", VList l) info /\ l = pre ++ v :: post /\ Forall2 file_entry pre fs /\ bad_entry v w).
(** Numbers that make no sense give an error with some numbers or other. *)
Definition bad_numbers (P : Z) (hashes : bytes) (fs : list (bytes * Z)) (w : why) : Prop :=
  (~ whole_hashes hashes /\ w = WHashes) \/
  (whole_hashes hashes /\ exists a b, w = WCounted a b /\
     (sane P (map snd fs) -> ~ enough P hashes fs /\ ends_with_file P hashes fs /\ a = zlen hashes / 20 * P /\ b = zsum (map snd fs))).
Definition told (v : gval) (w : why) : Prop :=
  ((forall d, v <> VDict d) /\ w = WNotDict) \/
  exists d, v = VDict d /\
    (first_wrong d [(B "announce", AString); (B "info", ADict)] w \/
     exists announce info, In (B "announce", VStr announce) d /\ In (B "info", VDict info) d /\
       (first_wrong info [(B "name", AString); (B "piece length", AnInt); (B "pieces", AString)] w \/
        exists name P hashes, In (B "name", VStr name) info /\ In (B "piece length", VInt KInt64 P) info /\ In (B "pieces", VStr hashes) info /\
          (bad_files info w \/ exists fs, lists_files info name fs /\ bad_numbers P hashes fs w))).
(** The file's numbers make sense, if it comes to them. *)
Definition sensible (v : gval) : Prop :=
  forall d info name P hashes fs, v = VDict d -> In (B "info", VDict info) d -> In (B "name", VStr name) info -> In (B "piece length", VInt KInt64 P) info ->
    In (B "pieces", VStr hashes) info -> lists_files info name fs -> sane P (map snd fs).

(** ** A tracker's answers *)
Definition bad_peer (v : gval) (sofar : list info) (w : why) : Prop :=
  ((forall d, v <> VDict d) /\ w = WPeers sofar) \/ exists d, v = VDict d /\ first_wrong d [(B "ip", AString); (B "port", AnInt); (B "peer id", AString)] w.
Definition bad_peers (parseIP : bytes -> ip) (d : list (bytes * gval)) (w : why) : Prop :=
  (exists s, In (B "peers", VStr s) d /\ zlen s mod 6 <> 0 /\ w = WSix (zlen s)) \/
  ((forall s, ~ In (B "peers", VStr s) d) /\ wrong d (B "peers", AList) w) \/
  exists l pre v post ps, In (B "peers", VList l) d /\ l = pre ++ v :: post /\ Forall2 (peer_entry parseIP) pre ps /\ bad_peer v ps w.
Definition counts : list (bytes * sort) := [(B "interval", AnInt); (B "complete", AnInt); (B "incomplete", AnInt)].
Definition replied (parseIP : bytes -> ip) (body : bytes) (v : gval) (w : why) : Prop :=
  ((forall d, v <> VDict d) /\ w = WBody body) \/
  exists d, v = VDict d /\
    ((exists r, In (B "failure reason", VStr r) d /\ w = WReason r) \/
     ((forall r, ~ In (B "failure reason", VStr r) d) /\ (first_wrong d counts w \/ (Forall (right d) counts /\ bad_peers parseIP d w)))).

(** ** Texts *)
(** What the text says; not the dictionary's place, the value in a path, or the bytes and the cursor of Decode. *)
Inductive complaint :=
| PDecode (c : cause) | PNotDict | PMissing (k : bytes) | PType (k want have : bytes) | PNoFiles | PEntry | PPath | PHashes | PCounted (a b : Z)
| PBody | PReason (r : bytes) | PSix (n : Z) | PPeers | PSystem.
Definition meant (w : why) : complaint :=
  match w with
  | WDecode _ c _ => PDecode c | WNotDict => PNotDict | WMissing k => PMissing k | WType k want have _ => PType k want have | WNoFiles => PNoFiles
  | WEntry => PEntry | WPath _ => PPath | WHashes => PHashes | WCounted a b => PCounted a b
  | WBody _ => PBody | WReason r => PReason r | WSix n => PSix n | WPeers _ => PPeers | WSystem _ => PSystem
  end.
(** What a torrent file is told off for. *)
Definition of_torrent (w : why) : Prop := exists sha1 data wd, FromTorrentFileE sha1 (mkslice data []) wd = Says w.
(** What fmt makes of a text used as a format without arguments, if it has no flags, widths or indices. *)
Inductive formatted : bytes -> bytes -> Prop :=
| fo_end : formatted [] []
| fo_byte b s t : b <> "%"%byte -> formatted s t -> formatted (b :: s) (b :: t)
| fo_two s t : formatted s t -> formatted (B "%%" ++ s) (B "%" ++ t)
| fo_verb c s t : 65 <= b2z c <= 90 \/ 97 <= b2z c <= 122 -> formatted s t -> formatted (B "%" ++ [c] ++ s) (B "%!" ++ [c] ++ B "(MISSING)" ++ t)
| fo_last : formatted (B "%") (B "%!(NOVERB)").
