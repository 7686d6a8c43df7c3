(** LockModel.v: the piece tracker used by several goroutines (src/swarm/piecetracker.go): every method takes the mutex, works on the shared lists in
    several steps, and releases it. Memory is sequentially consistent. *)
From Verif Require Import Base BitfieldModel DsModel PptModel.

(** Inside a method, holding the mutex. *)
Inductive body :=
| BRegister (w : handler) (is : list Z)                          (* 92-94: indices left *)
| BRegisterBF (w : handler) (bf : bitfield) (n : nat) (i : Z)    (* 80-84: n indices left, i the next *)
| BUnregister (w : handler)                                      (* 123-125 *)
| BNodes (w : handler) (nodes : list nat)                        (* 128-143: nodes left *)
| BBucket (w : handler) (bf : bitfield) (i : nat)                (* 154: about to look at bucket i *)
| BNode (w : handler) (bf : bitfield) (i : nat) (cur : option nat) (* 157: in bucket i, at cur *)
| BReturn (r : option (Z * bool)).                               (* about to unlock and return; NextPiece's results *)
(** Right after Lock(). *)
Definition enter (o : pop) : body :=
  match o with
  | PRegister w is => BRegister w is
  | PRegisterBF w bf => BRegisterBF w bf (Z.to_nat (Nbits bf)) 0
  | PUnregister w => BUnregister w
  | PNext w bf => BBucket w bf 1
  end.
(** One step on the shared structure. *)
Definition body_step (t : ppt) (b : body) : res (ppt * body) :=
  match b with
  | BRegister w [] => Ok (t, BReturn None)
  | BRegister w (i :: is) => do t' <- register t w i; Ok (t', BRegister w is)
  | BRegisterBF w bf O i => Ok (t, BReturn None)
  | BRegisterBF w bf (S n) i => do b <- Get bf i; do t' <- (if b then register t w (u32 i) else Ok t); Ok (t', BRegisterBF w bf n (i + 1))
  | BUnregister w => let t' := put_reqs t (h_ptr w) (map (fun p => mkp (p_index p) false (p_peers p)) (reqs_of t (h_ptr w))) in Ok (t', BNodes w (t_nodes t'))
  | BNodes w [] => Ok (t, BReturn None)
  | BNodes w (a :: r) => do t' <- unregister1 t w a; Ok (t', BNodes w r)
  | BBucket w bf i => match nth_error (t_buckets t) i with
                      | Some l => Ok (t, BNode w bf i (lhead l))
                      | None => Ok (t, BReturn (Some (0, false)))
                      end
  | BNode w bf i None => Ok (t, BBucket w bf (S i))
  | BNode w bf i (Some a) =>
    do p <- node_data t a;
    do got <- Get bf (p_index p);
    if negb got && (negb (p_active p) && Has h_key (p_peers p) w)
    then Ok (put_reqs t (h_ptr w) (reqs_of t (h_ptr w) ++ [mkp (p_index p) true (p_peers p)]), BReturn (Some (p_index p, true)))
    else do nx <- Next (t_heap t) a; Ok (t, BNode w bf i nx)
  | BReturn _ => Panic      (* not a step of the body *)
  end.

(** Where a call is. *)
Inductive cpc := CStart | CIn (b : body) | COut (r : option (Z * bool)).
(** The tracker, the mutex, every call; [done] records the calls in the order they released the mutex. *)
Record lst := mkl { tracker : ppt; mutex : option nat; call_at : nat -> cpc; done : list nat }.
Definition lock_init (t : ppt) : lst := mkl t None (fun _ => CStart) [].
Definition put_call (s : lst) (c : nat) (p : cpc) : nat -> cpc := fun d => if Nat.eqb d c then p else call_at s d.
(** Not possible now; the process dies (a panic leaves the goroutine: piecetracker.go recovers nothing); the next state. *)
Inductive lout := LBlocked | LDied | LWent (s : lst).
(** Call c does its next action: 77-78, 89-90, 119-120, 151-152 Lock; the body; the deferred Unlock. *)
Definition lock_step (prog : nat -> pop) (s : lst) (c : nat) : lout :=
  match call_at s c with
  | CStart => match mutex s with None => LWent (mkl (tracker s) (Some c) (put_call s c (CIn (enter (prog c)))) (done s)) | Some _ => LBlocked end
  | CIn (BReturn r) => LWent (mkl (tracker s) None (put_call s c (COut r)) (done s ++ [c]))
  | CIn b => match body_step (tracker s) b with
             | Ok (t', b') => LWent (mkl t' (mutex s) (put_call s c (CIn b')) (done s))
             | _ => LDied      (* only Panic occurs *)
             end
  | COut _ => LBlocked
  end.
Fixpoint lock_run (prog : nat -> pop) (s : lst) (cs : list nat) : option lst :=
  match cs with
  | [] => Some s
  | c :: r => match lock_step prog s c with LWent s' => lock_run prog s' r | _ => None end
  end.
