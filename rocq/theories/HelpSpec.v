(** HelpSpec.v: what is in a tree, and what is left of it. *)
From Verif Require Import Base PathModel PathSpec LayoutModel FsModel FsSpec TreeModel TreeSpec.

(** What is in the file at a place. *)
Definition content_at (t : tworld) (x : list bytes) : option bytes :=
  match pget x (w_names (tw_w t)) with Some i => nth_error (w_inos (tw_w t)) i | None => None end.
(** At q or below. *)
Definition within (q x : list bytes) : Prop := x = q \/ below q x.
(** Nothing but what is at these places has changed. *)
Definition same_but (gone : list bytes -> Prop) (t t' : tworld) : Prop :=
  w_cwd (tw_w t') = w_cwd (tw_w t) /\
  forall x, ~ gone x -> (isdir t' x <-> isdir t x) /\ (isfile t' x <-> isfile t x) /\ content_at t' x = content_at t x.
(** And nothing is there. *)
Definition empty_at (gone : list bytes -> Prop) (t : tworld) : Prop := forall x, gone x -> ~ isdir t x /\ ~ isfile t x.
(** A path whose first part is an ordinary name and that goes on with ordinary names: a/b/c. *)
Definition names_path (c : bytes) (ns : list bytes) (p : bytes) : Prop := Forall plain_name (c :: ns) /\ p = join_slash (c :: ns).

(** The calls made, with their errors, when a test runs up to its first fatal error. *)
Fixpoint errors_of {A} (calls : list (A -> option goerr * A)) (a : A) : list (option goerr) * A :=
  match calls with
  | [] => ([], a)
  | c :: r => let (e, a1) := c a in let (es, a2) := errors_of r a1 in (e :: es, a2)
  end.
Definition some_errors (es : list (option goerr)) : list goerr := List.concat (map (fun e => match e with Some x => [x] | None => [] end) es).
