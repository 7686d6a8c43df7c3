(** TreeSpec.v: file trees, which sets of files fit into one, and the descriptors in use. *)
From Verif Require Import Base PathModel PathSpec LayoutModel FsModel FsSpec TreeModel.

Definition isdir (t : tworld) (q : list bytes) : Prop := In q (tw_dirs t).
Definition isfile (t : tworld) (q : list bytes) : Prop := In q (map fst (w_names (tw_w t))).
(** Whatever exists is in a directory, up to the root; nothing is a file and a directory; the current directory is one. *)
Definition tree_wf (t : tworld) : Prop :=
  fs_wf (tw_w t) /\ isdir t [] /\ isdir t (w_cwd (tw_w t)) /\
  (forall q d, isdir t q -> below d q -> isdir t d) /\
  (forall q d, isfile t q -> below d q -> isdir t d) /\
  (forall q, isfile t q -> ~ isdir t q).
(** Files can be put at these places: none is a directory, nothing above one is a file, and none is above another. *)
Definition fits (dir file : list bytes -> Prop) (qs : list (list bytes)) : Prop :=
  (forall q, In q qs -> ~ dir q) /\ (forall q d, In q qs -> below d q -> ~ file d) /\ (forall q d, In q qs -> In d qs -> ~ below d q).
(** A path as filepath.Join returns it. *)
Definition clean_path (p : bytes) : Prop := p = [] \/ exists s, p = Clean s.
(** And all of a torrent's. *)
Definition clean_entries (files : list entry) : Prop := Forall (fun e => clean_path (eb_local (en_base e))) files.
Definition places (t : tworld) (files : list entry) : list (list bytes) := map (fun e => at_place t (eb_local (en_base e))) files.
Definition paths (files : list entry) : list bytes := map (fun e => eb_local (en_base e)) files.
Definition lengths_ok (files : list entry) : Prop := Forall (fun e => 0 <= en_len e <= max64) files.
(** Files open in the FileIO, each once. *)
Definition open_count (w : world) : nat := List.length (filter (fun x => h_open (snd x)) (w_lfps w)).
Definition total_fds (t : tworld) : nat := tw_free t + tw_lost t + open_count (tw_w t).
(** Every path once: a Go map. *)
Definition keys_once (w : world) : Prop := NoDup (map fst (w_lfps w)).
(** From [t] to [t'] nothing has gone; what is new are files at the given places and directories above them. *)
Definition grown_all (qs : list (list bytes)) (t t' : tworld) : Prop :=
  w_cwd (tw_w t') = w_cwd (tw_w t) /\
  (forall x, isfile t x -> isfile t' x) /\ (forall x, isfile t' x -> isfile t x \/ In x qs) /\
  (forall x, isdir t x -> isdir t' x) /\ (forall x, isdir t' x -> isdir t x \/ exists q, In q qs /\ below x q).
(** The call came back. *)
Definition went {A} (r : res A) : Prop := match r with Panic => False | NoFuel => False | _ => True end.
Definition clean_call (c : call) : Prop := match c with KOpen p _ => clean_path p | _ => True end.
(** The same calls in FsModel, where there are no directories and no descriptors. *)
Definition fs_call (c : call) : io unit := match c with KOpen p l => OCAT p l | KClose p => Close p | KMove a b => Move a b end.
Fixpoint fs_calls (cs : list call) (w : world) : list (res unit) * world :=
  match cs with
  | [] => ([], w)
  | c :: r =>
    match fs_call c w with
    | (Ok u, w') => let (xs, w'') := fs_calls r w' in (Ok u :: xs, w'')
    | (Err e, w') => let (xs, w'') := fs_calls r w' in (Err e :: xs, w'')
    | (x, w') => ([x], w')
    end
  end.
