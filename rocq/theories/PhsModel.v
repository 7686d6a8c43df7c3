(** PhsModel.v: the slice phs of runListener (src/swarm/swarm.go), to which the goroutine of every accepted connection appends its
    handler without a lock. A slice variable is three words in memory. [phs = append(phs, ph)] loads them, takes a larger array if
    there is no room, stores the element, and stores the words: each a memory operation of its own, which others' may come between.
    Of what is on the two sides of "if there is no room" any order is allowed, the compiler's among them; memory is otherwise
    sequentially consistent. *)
From Verif Require Import Base.

(** swarm.go:161, one goroutine's append. [XLoad]: which of pointer, length and capacity it has loaded. [XStore]: what it works with,
    whether it took a new array, and which of element, pointer, length and capacity are stored. *)
Inductive apc :=
| XLoad (p l c : option nat)
| XStore (p l c : nat) (grew : bool) (de dp dl dc : bool)
| XDone.
(** The arrays allocated so far; the three words of phs; the goroutines, numbered as they come to the statement (the number stands
    for the handler). *)
Record phs := mkphs { x_heap : list (list (option nat)); x_ptr : nat; x_len : nat; x_cap : nat; x_go : list apc }.

Inductive xop :=
| XPtr | XLen | XCap            (* load the word *)
| XRoom                         (* all loaded: decide, and call growslice if there is no room *)
| XPutElem | XPutPtr | XPutLen | XPutCap
| XRet.                         (* all stored *)
Inductive xlabel := XStart | XGo (k : nat) (o : xop).
Inductive xout := XBlocked | XWild | XWent (s : phs).

Definition at_ (s : phs) (k : nat) (a : apc) : phs := mkphs (x_heap s) (x_ptr s) (x_len s) (x_cap s) (lupd (x_go s) k a).

(** swarm.go:161. [grow c n]: the capacity growslice gives for at least n elements when there were c. [keep]: without growth pointer and
    capacity are stored too, as they were loaded (the compiler leaves these two stores out). [XWild]: an access outside of the array. *)
Definition xstep (grow : nat -> nat -> nat) (keep : bool) (l : xlabel) (s : phs) : xout :=
  match l with
  | XStart => XWent (mkphs (x_heap s) (x_ptr s) (x_len s) (x_cap s) (x_go s ++ [XLoad None None None]))
  | XGo k o =>
    match nth_error (x_go s) k with
    | None => XBlocked
    | Some (XLoad p l c) =>
      match o with
      | XPtr => match p with None => XWent (at_ s k (XLoad (Some (x_ptr s)) l c)) | _ => XBlocked end
      | XLen => match l with None => XWent (at_ s k (XLoad p (Some (x_len s)) c)) | _ => XBlocked end
      | XCap => match c with None => XWent (at_ s k (XLoad p l (Some (x_cap s)))) | _ => XBlocked end
      | XRoom =>
        match p, l, c with
        | Some p, Some l, Some c =>
          if Nat.ltb c (S l) then
            let old := nth p (x_heap s) [] in
            let n := grow c (S l) in
            (* growslice copies the first l elements *)
            if Nat.ltb (List.length old) l then XWild
            else XWent (mkphs (x_heap s ++ [firstn l old ++ repeat None (n - l)]) (x_ptr s) (x_len s) (x_cap s)
                          (lupd (x_go s) k (XStore (List.length (x_heap s)) l n true false false false false)))
          else XWent (at_ s k (XStore p l c false false (negb keep) false (negb keep)))
        | _, _, _ => XBlocked
        end
      | _ => XBlocked
      end
    | Some (XStore p l c g de dp dl dc) =>
      match o with
      | XPutElem =>
        if de then XBlocked else
        let a := nth p (x_heap s) [] in
        if Nat.ltb l (List.length a) then
          XWent (mkphs (lupd (x_heap s) p (lupd a l (Some k))) (x_ptr s) (x_len s) (x_cap s) (lupd (x_go s) k (XStore p l c g true dp dl dc)))
        else XWild
      | XPutPtr => if dp then XBlocked else XWent (mkphs (x_heap s) p (x_len s) (x_cap s) (lupd (x_go s) k (XStore p l c g de true dl dc)))
      | XPutLen => if dl then XBlocked else XWent (mkphs (x_heap s) (x_ptr s) (S l) (x_cap s) (lupd (x_go s) k (XStore p l c g de dp true dc)))
      | XPutCap => if dc then XBlocked else XWent (mkphs (x_heap s) (x_ptr s) (x_len s) c (lupd (x_go s) k (XStore p l c g de dp dl true)))
      | XRet => if de && dp && dl && dc then XWent (at_ s k XDone) else XBlocked
      | _ => XBlocked
      end
    | Some XDone => XBlocked
    end
  end.
(** swarm.go:147 make([]*PeerHandler, 0, 4) *)
Definition made : phs := mkphs [repeat None 4] 0 0 4 [].
Fixpoint xrun (grow : nat -> nat -> nat) (keep : bool) (ls : list xlabel) (s : phs) : option phs :=
  match ls with
  | [] => Some s
  | l :: r => match xstep grow keep l s with XWent s' => xrun grow keep r s' | _ => None end
  end.
