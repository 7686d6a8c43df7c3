(** PathSpec.v: which directory entry a path names, independent of filepath.Clean.
    A place in the file tree is the list of names from the root; symbolic links are not considered. *)
From Verif Require Import Base PathModel.

(** Follow one component from directory d. *)
Definition step (d : list bytes) (t : bytes) : list bytes :=
  if beqb t [] || beqb t dot then d
  else if beqb t dotdot then removelast d
  else d ++ [t].
Definition follow (d : list bytes) (ts : list bytes) : list bytes := fold_left step ts d.

(** The place named by path p when the current directory is cwd. *)
Definition place (cwd : list bytes) (p : bytes) : list bytes :=
  follow (if rooted p then [] else cwd) (split_slash p).

(** An ordinary file name. *)
Definition plain_name (t : bytes) : Prop := t <> [] /\ t <> dot /\ t <> dotdot /\ ~ In slash t.

(** q is strictly below directory d. *)
Definition below (d q : list bytes) : Prop := exists names, names <> [] /\ q = d ++ names.
