(** LinkSpec.v: what it means that a path leads to a place, links followed; files outside a directory. *)
From Verif Require Import Base PathModel PathSpec FsModel LinkModel.

(** From directory d the components ts lead to q, following k links. *)
Inductive leads (L : links) : nat -> list bytes -> list bytes -> list bytes -> Prop :=
| leads_done d : leads L 0 d [] d
| leads_here k d t r q : t = [] \/ t = dot -> leads L k d r q -> leads L k d (t :: r) q
| leads_up k d r q : leads L k (removelast d) r q -> leads L k d (dotdot :: r) q
| leads_down k d t r q : t <> [] -> t <> dot -> t <> dotdot -> (forall text, ~ In (d ++ [t], text) L) ->
    leads L k (d ++ [t]) r q -> leads L k d (t :: r) q
| leads_link k d t r q text : t <> [] -> t <> dot -> t <> dotdot -> In (d ++ [t], text) L ->
    leads L k (if rooted text then [] else d) (split_slash text ++ r) q -> leads L (S k) d (t :: r) q.

(** No place holds two links. *)
Definition one_each (L : links) : Prop := NoDup (map fst L).
(** No link at q, nor at a directory above q. *)
Definition clear_way (L : links) (q : list bytes) : Prop := forall a b text, q = a ++ b -> ~ In (a, text) L.
(** No link anywhere inside directory W. *)
Definition none_inside (L : links) (W : list bytes) : Prop := forall q text, In (q, text) L -> ~ below W q.
(** A path in which no component is "..". *)
Definition never_up (p : bytes) : Prop := ~ In dotdot (split_slash p).

(** The content of the file at a place, if there is one. *)
Definition file_in (w : world) (q : list bytes) : option bytes :=
  match pget q (w_names w) with Some i => nth_error (w_inos w) i | None => None end.
(** Whatever is not inside W is as it was: the same files with the same content. *)
Definition outside_same (W : list bytes) (w w' : world) : Prop := forall q, ~ below W q -> file_in w' q = file_in w q.
