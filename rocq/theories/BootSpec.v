(** BootSpec.v: a network on which nothing answers; a tree that has kept its files. *)
From Verif Require Import Base PathModel PathSpec PeerModel LayoutModel FsModel FsSpec StartModel TreeModel TreeSpec.

(** URLs parse as before, but no tracker can be reached. *)
Definition silent (n : net) : net := mknet (n_query n) (fun _ _ => None) (n_parseIP n).
(** The same files and directories, with the same contents. *)
Definition untouched (t t' : tworld) : Prop := disk_same (tw_w t) (tw_w t') /\ tw_dirs t' = tw_dirs t.
(** The files in a world, but for those that are open. *)
Definition none_open (w : world) : world := set_lfps w [].
