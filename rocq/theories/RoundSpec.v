(** RoundSpec.v: vocabulary for publishing a torrent: files on a disk, and a torrent file. *)
From Verif Require Import Base BencodeModel BencodeSpec PathModel PathSpec LayoutModel FsModel FsSpec InfoSpec.

(** The files named paths in directory dir have contents cs. *)
Definition on_disk (w : world) (dir : bytes) (paths cs : list bytes) : Prop :=
  Forall2 (fun p c => file_at w (Join [dir; p]) = Some c) paths cs.
(** Where they lie. *)
Definition spots (w : world) (dir : bytes) (paths : list bytes) : list (list bytes) :=
  map (fun p => place (w_cwd w) (Join [dir; p])) paths.
(** Text ct of a torrent file: a dictionary with an announce string a and an info value of text tb, and any other keys. *)
Definition torrent_text (ct a tb : bytes) : Prop :=
  exists m im, info_text m ct im tb /\ In (B "announce", BStr a) m.
(** Names that can be written in a torrent file: no empty name between slashes. *)
Definition no_empty_name (p : bytes) : Prop := Forall (fun t => t <> []) (split_slash p).
(** Strings of a Go program. *)
Definition go_string (s : bytes) : Prop := zlen s <= max64.
