(** LifeSpec.v: vocabulary for moving, closing and creating files. *)
From Verif Require Import Base PathModel PathSpec LayoutModel LayoutSpec FsModel FsSpec.

(** The path is open in the FileIO. *)
Definition is_open (w : world) (p : bytes) : Prop := exists i, aget p (w_lfps w) = Some (mkh i true).
Definition is_closed (w : world) (p : bytes) : Prop := exists i, aget p (w_lfps w) = Some (mkh i false).
(** The next system call works. *)
Definition next_works (w : world) : Prop := hd None (w_flt w) = None.
(** Files and names as before; only the FileIO's handles may differ. *)
Definition files_same (w w' : world) : Prop := w_cwd w' = w_cwd w /\ w_names w' = w_names w /\ w_inos w' = w_inos w.
(** Every file of the torrent has been opened and closed again. *)
Definition all_closed (w : world) (ti : torinfo) : Prop := Forall (fun e => is_closed w (eb_local (en_base e))) (ti_files ti).
(** No file of the torrent has been opened. *)
Definition none_opened (w : world) (ti : torinfo) : Prop := Forall (fun e => aget (eb_local (en_base e)) (w_lfps w) = None) (ti_files ti).
(** The path names the inode of the handle it was opened under. *)
Definition still_there (w : world) (p : bytes) : Prop :=
  exists i o, aget p (w_lfps w) = Some (mkh i o) /\ pget (place (w_cwd w) p) (w_names w) = Some i.
