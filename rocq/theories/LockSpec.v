(** LockSpec.v: calls made one after the other, with their results. *)
From Verif Require Import Base PptModel.

Definition call_alone (t : ppt) (o : pop) : res (ppt * option (Z * bool)) :=
  match o with
  | PNext w bf => do '(i, ok, t') <- NextPiece t bf w; Ok (t', Some (i, ok))
  | _ => do t' <- pstep t o; Ok (t', None)
  end.
Fixpoint in_turn (t : ppt) (os : list pop) : res (ppt * list (option (Z * bool))) :=
  match os with
  | [] => Ok (t, [])
  | o :: r => do '(t1, x) <- call_alone t o; do '(t2, xs) <- in_turn t1 r; Ok (t2, x :: xs)
  end.
