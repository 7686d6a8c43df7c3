(** HardSpec.v: files that have more than one name (hard links). FsModel's world binds names to inodes, so a
    file with two names is two names with one inode; FsSpec.fs_wf excludes it, the world below does not. *)
From Verif Require Import Base PathModel PathSpec LayoutModel FsModel LinkModel LinkSpec.

(** Every name is the name of a file that is there; a file may have any number of names. *)
Definition names_there (w : world) : Prop := forall q i, pget q (w_names w) = Some i -> (i < List.length (w_inos w))%nat.
(** The place q has file i. *)
Definition names (w : world) (q : list bytes) (i : nat) : Prop := pget q (w_names w) = Some i.
(** A file of the torrent is opened at place q. *)
Definition opens_at (L : links) (w : world) (files : list entry) (q : list bytes) : Prop :=
  exists e, In e files /\ real L (w_cwd w) (eb_local (en_base e)) = Some q.
(** No file has a name inside W and one outside. *)
Definition not_shared (W : list bytes) (w : world) : Prop :=
  forall q q' i, names w q i -> names w q' i -> below W q -> below W q'.
