(** DsModel.v: model of src/utils/ds/linklist.go and src/utils/ds/set.go. *)
From Verif Require Import Base.

(** ** Doubly linked list. Nodes live in a heap shared by every list; a pointer is an index
    into it and nil is None. *)

(** linklist.go:8-12 *)
Record node (T : Type) := mknode { ndata : T; nnext : option nat; nprev : option nat }.
Arguments mknode {T}. Arguments ndata {T}. Arguments nnext {T}. Arguments nprev {T}.
Definition heap T := list (node T).

(** linklist.go:3-6. size never wraps: it counts nodes in memory. *)
Record llist := mkll { lhead : option nat; lsize : Z }.

(** Assignments through a node pointer; a nil or dangling pointer panics. *)
Definition hput {T} (h : heap T) (a : nat) (f : node T -> node T) : res (heap T) :=
  match nth_error h a with Some n => Ok (lupd h a (f n)) | None => Panic end.
Definition hputo {T} (h : heap T) (a : option nat) (f : node T -> node T) : res (heap T) :=
  match a with Some p => hput h p f | None => Panic end.
Definition put_next {T} (x : option nat) (n : node T) : node T := mknode (ndata n) x (nprev n).
Definition put_prev {T} (x : option nat) (n : node T) : node T := mknode (ndata n) (nnext n) x.
Definition put_data {T} (d : T) (n : node T) : node T := mknode d (nnext n) (nprev n).

(** linklist.go:17-23 Next and Prev; 88-90 Head is [lhead]. *)
Definition Next {T} (h : heap T) (a : nat) : res (option nat) :=
  match nth_error h a with Some n => Ok (nnext n) | None => Panic end.
Definition Prev {T} (h : heap T) (a : nat) : res (option nat) :=
  match nth_error h a with Some n => Ok (nprev n) | None => Panic end.

(** linklist.go:28-33 *)
Definition MakeList : llist := mkll None 0.

(** linklist.go:46-58 *)
Definition AddNodeFront {T} (h : heap T) (ll : llist) (n : nat) : res (heap T * llist) :=
  if lsize ll =? 0 then
    do h1 <- hput h n (put_prev None);
    do h2 <- hput h1 n (put_next None);
    Ok (h2, mkll (Some n) (lsize ll + 1))
  else
    do h1 <- hput h n (put_next (lhead ll));
    do h2 <- hput h1 n (put_prev None);
    do h3 <- hputo h2 (lhead ll) (put_prev (Some n));
    Ok (h3, mkll (Some n) (lsize ll + 1)).

(** linklist.go:35-44 *)
Definition AddDataFront {T} (h : heap T) (ll : llist) (d : T) : res (nat * heap T * llist) :=
  let a := List.length h in
  do '(h', ll') <- AddNodeFront (h ++ [mknode d None None]) ll a;
  Ok (a, h', ll').

(** linklist.go:60-81. The pointers of n are read when they are used: n.next at 72, 75 and 77-78
    after the writes before them. *)
Definition Remove {T} (h : heap T) (ll : llist) (n : nat) : res (heap T * llist) :=
  if lsize ll =? 0 then Panic
  else if lsize ll =? 1 then
    do h1 <- hput h n (put_prev None);
    do h2 <- hput h1 n (put_next None);
    Ok (h2, mkll None 0)
  else
    do nx0 <- Next h n;
    let head := if match lhead ll with Some p => Nat.eqb n p | None => false end then nx0 else lhead ll in
    do pv <- Prev h n;
    do h1 <- match pv with Some p => do nx <- Next h n; hput h p (put_next nx) | None => Ok h end;
    do nx <- Next h1 n;
    do h2 <- match nx with Some q => do pv' <- Prev h1 n; hput h1 q (put_prev pv') | None => Ok h1 end;
    Ok (h2, mkll head (lsize ll - 1)).

(** linklist.go:83-86 *)
Definition Clear (ll : llist) : llist := mkll None 0.

(** for cur := head; cur != nil; cur = cur.Next() : the nodes visited. *)
Fixpoint walk {T} (fuel : nat) (h : heap T) (cur : option nat) : res (list nat) :=
  match cur with
  | None => Ok []
  | Some a => match fuel with
              | O => NoFuel
              | S f => do nx <- Next h a; do r <- walk f h nx; Ok (a :: r)
              end
  end.

(** Calls on a number of lists whose nodes come from one heap. *)
Inductive lop (T : Type) := LAddData (k : nat) (d : T) | LAddNode (k : nat) (n : nat) | LRemove (k : nat) (n : nat) | LClear (k : nat).
Arguments LAddData {T}. Arguments LAddNode {T}. Arguments LRemove {T}. Arguments LClear {T}.
Definition lstep {T} (s : heap T * list llist) (o : lop T) : res (heap T * list llist) :=
  let '(h, ls) := s in
  match o with
  | LAddData k d => match nth_error ls k with
                    | Some l => do '(_, h', l') <- AddDataFront h l d; Ok (h', lupd ls k l')
                    | None => Panic end
  | LAddNode k n => match nth_error ls k with
                    | Some l => do '(h', l') <- AddNodeFront h l n; Ok (h', lupd ls k l')
                    | None => Panic end
  | LRemove k n => match nth_error ls k with
                   | Some l => do '(h', l') <- Remove h l n; Ok (h', lupd ls k l')
                   | None => Panic end
  | LClear k => match nth_error ls k with Some l => Ok (h, lupd ls k (Clear l)) | None => Panic end
  end.
Fixpoint lrun {T} (s : heap T * list llist) (ops : list (lop T)) : res (heap T * list llist) :=
  match ops with [] => Ok s | o :: r => do s' <- lstep s o; lrun s' r end.

(** ** Keyed set: a Go map as an association list without duplicate keys. *)
Definition kset (T : Type) := list (bytes * T).
Definition kget {T} (s : kset T) (k : bytes) : option T :=
  match find (fun e => beqb (fst e) k) s with Some e => Some (snd e) | None => None end.

(** set.go:7-11 *)
Definition MakeSet {T} : kset T := [].
(** set.go:22-25 *)
Definition Has {T} (key : T -> bytes) (s : kset T) (x : T) : bool :=
  match kget s (key x) with Some _ => true | None => false end.
(** set.go:13-20 *)
Definition Add {T} (key : T -> bytes) (s : kset T) (x : T) : bool * kset T :=
  if negb (Has key s x) then (true, s ++ [(key x, x)]) else (false, s).
(** set.go:27-34 *)
Definition SetRemove {T} (key : T -> bytes) (s : kset T) (x : T) : bool * kset T :=
  if Has key s x then (true, filter (fun e => negb (beqb (fst e) (key x))) s) else (false, s).
(** set.go:36-38 *)
Definition Size {T} (s : kset T) : Z := zlen s.
(** set.go:40-46. make([]T, n) then append; [order] is the map's iteration order. *)
Definition Items {T} (zero : T) (order : list T -> list T) (s : kset T) : list T :=
  repeat zero (List.length s) ++ order (map snd s).

Inductive sop (T : Type) := SAdd (x : T) | SRem (x : T).
Arguments SAdd {T}. Arguments SRem {T}.
Definition sstep {T} (key : T -> bytes) (s : kset T) (o : sop T) : bool * kset T :=
  match o with SAdd x => Add key s x | SRem x => SetRemove key s x end.
Definition srun {T} (key : T -> bytes) (ops : list (sop T)) : kset T :=
  fold_left (fun s o => snd (sstep key s o)) ops MakeSet.
