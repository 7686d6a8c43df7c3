(** RenameModel.v: FileIO.Move on a file system with symbolic links and files of several names. rename(2) follows links on the way to
    the last component but not the last one; and it does nothing if the two names are of one file.

    Simplified: a path whose last component is empty, "." or ".." is refused; directories are not renamed, and that the directory of
    the new name exists is not checked (as in FsModel, any call may fail instead); that os.Rename first looks at the new name
    (os/file_unix.go of Go 1.18) is part of the one call. *)
From Verif Require Import Base PathModel PathSpec LayoutModel FsModel LinkModel.

Definition drop {A} (q : list bytes) (m : list (list bytes * A)) : list (list bytes * A) := filter (fun n => negb (place_eqb (fst n) q)) m.
(** The directory entry that path p names: links on the way are followed, one at its end is not. *)
Definition entry_at (L : links) (cwd : list bytes) (p : bytes) : option (list bytes) :=
  let t := last (split_slash p) [] in
  if beqb t [] || beqb t dot || beqb t dotdot then None
  else match walk max_links L (if rooted p then [] else cwd) (removelast (split_slash p)) with Some d => Some (d ++ [t]) | None => None end.
(** rename(2) *)
Definition l_rename (L : links) (a b : bytes) (w : world) : res unit * (links * world) :=
  match entry_at L (w_cwd w) a, entry_at L (w_cwd w) b with
  | Some qa, Some qb =>
    match pget qa L with
    | Some text => (Ok tt, (drop qb (drop qa L) ++ [(qb, text)], mkw (w_cwd w) (drop qb (w_names w)) (w_inos w) (w_flt w) (w_lfps w)))
    | None =>
      match pget qa (w_names w) with
      | None => (Err EPath, (L, w))
      | Some i =>
        if match pget qb (w_names w), pget qb L with Some j, None => Nat.eqb i j | _, _ => false end then (Ok tt, (L, w))
        else (Ok tt, (drop qb L, mkw (w_cwd w) (drop qb (drop qa (w_names w)) ++ [(qb, i)]) (w_inos w) (w_flt w) (w_lfps w)))
      end
    end
  | _, _ => (Err EPath, (L, w))
  end.
(** fileio.go:79-89 Move *)
Definition l_Move (L : links) (a b : bytes) (w : world) : res unit * (links * world) :=
  match aget a (w_lfps w) with
  | None => (Err EPath, (L, w))
  | Some _ =>
    match fault w with
    | (Ok None, w') => l_rename L a b w'
    | (_, w') => (Err EIO, (L, w'))
    end
  end.
