(** InfoSpec.v: specification vocabulary for metadata (TorInfo, Torrent). *)
From Verif Require Import Base BencodeModel BencodeSpec PathModel PathSpec LayoutModel.

(** Same metadata; only the local paths (where the files live on this machine) may differ. *)
Definition same_entry (a b : entry) : Prop :=
  eb_len (en_base a) = eb_len (en_base b) /\ eb_tor (en_base a) = eb_tor (en_base b) /\
  en_sp a = en_sp b /\ en_ep a = en_ep b /\ en_so a = en_so b /\ en_eo a = en_eo b.
Definition same_torinfo (a b : torinfo) : Prop :=
  ti_name a = ti_name b /\ ti_plen a = ti_plen b /\ ti_hashes a = ti_hashes b /\ ti_npieces a = ti_npieces b /\
  ti_length a = ti_length b /\ Forall2 same_entry (ti_files a) (ti_files b) /\ ti_single a = ti_single b /\
  ti_pm a = ti_pm b /\ ti_lastlen a = ti_lastlen b.

(** A one-file torrent names its file after the torrent. *)
Definition single_named (name : bytes) (files : list ebase) : Prop :=
  forall f, files = [f] -> eb_tor f = name.
Definition int64_lens (files : list ebase) : Prop := Forall (fun f => min64 <= eb_len f <= max64) files.

(** Info dictionaries with exactly the keys this program writes. *)
Definition plain_file (f : Z * list bytes) : bval :=
  BDict [(B "length", BInt (fst f)); (B "path", BList (map BStr (snd f)))].
Definition plain_single (name hashes : bytes) (P L : Z) : list (bytes * bval) :=
  [(B "length", BInt L); (B "name", BStr name); (B "piece length", BInt P); (B "pieces", BStr hashes); (B "private", BInt 0)].
Definition plain_multi (name hashes : bytes) (P : Z) (fs : list (Z * list bytes)) : list (bytes * bval) :=
  [(B "files", BList (map plain_file fs)); (B "name", BStr name); (B "piece length", BInt P); (B "pieces", BStr hashes); (B "private", BInt 0)].
(** path components as the format means them: no '/' inside *)
Definition path_list (cs : list bytes) : Prop := cs <> [] /\ Forall (fun c => ~ In slash c) cs.

(** A torrent file: canonical text t of a dictionary m whose info value im has text tb. *)
Definition info_text (m : list (bytes * bval)) (t : bytes) (im : list (bytes * bval)) (tb : bytes) : Prop :=
  canonical (BDict m) t /\ representable (BDict m) /\ In (B "info", BDict im) m /\ canonical (BDict im) tb.

(** Every path list in the files list consists of plain names. *)
Definition plain_paths (info : list (bytes * gval)) : Prop :=
  forall files d pl, GetList info (B "files") = Ok files -> In (VDict d) files -> GetList d (B "path") = Ok pl ->
    exists ts, pl = map VStr ts /\ Forall plain_name ts.
