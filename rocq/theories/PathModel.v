(** PathModel.v: the parts of Go's strings and path/filepath (Unix) that the code calls. *)
From Verif Require Import Base.

Definition slash : byte := "/"%byte.
Definition dot : bytes := B ".".
Definition dotdot : bytes := B "..".

(** strings.Split(s, "/"): always at least one token. *)
Fixpoint split_slash (s : bytes) : list bytes :=
  match s with
  | [] => [[]]
  | b :: r =>
    if Byte.eqb b slash then [] :: split_slash r
    else match split_slash r with
         | t :: ts => (b :: t) :: ts
         | [] => [[b]]
         end
  end.

(** strings.Join(tokens, "/") *)
Fixpoint join_slash (ts : list bytes) : bytes :=
  match ts with
  | [] => []
  | [t] => t
  | t :: r => t ++ slash :: join_slash r
  end.

Definition rooted (s : bytes) : bool :=
  match s with b :: _ => Byte.eqb b slash | [] => false end.

(** The component processing of filepath.Clean (rules 2-4 of its documentation): [out] is the
    output so far, innermost component first. *)
Fixpoint clean_loop (root : bool) (ts : list bytes) (out : list bytes) : list bytes :=
  match ts with
  | [] => rev out
  | t :: r =>
    if beqb t [] || beqb t dot then clean_loop root r out
    else if beqb t dotdot then
      match out with
      | o :: out' => if beqb o dotdot then clean_loop root r (t :: out) else clean_loop root r out'
      | [] => if root then clean_loop root r [] else clean_loop root r [t]
      end
    else clean_loop root r (t :: out)
  end.

(** filepath.Clean on Unix. *)
Definition Clean (s : bytes) : bytes :=
  let cs := clean_loop (rooted s) (split_slash s) [] in
  if rooted s then slash :: join_slash cs
  else match cs with [] => dot | _ => join_slash cs end.

(** filepath.Join on Unix: leading empty elements are skipped, the rest are joined and cleaned. *)
Fixpoint Join (elems : list bytes) : bytes :=
  match elems with
  | [] => []
  | [] :: r => Join r
  | _ => Clean (join_slash elems)
  end.
