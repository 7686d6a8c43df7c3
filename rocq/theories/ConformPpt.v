(** ConformPpt.v: the project's test of the piece tracker, run against the model by computation (see Conform.v). *)
From Verif Require Import Base TrackerModel BencodeModel PeerModel BitfieldModel DsModel PptModel Conform.

(** ** src/swarm/piecetracker_test.go:42-128 *)
(** A peer: its number and id; the pieces of its bitfield, of its have messages; the piece expected; whether it leaves. *)
Record action := mka { a_no : nat; a_bf : list Z; a_gets : list Z; a_want : Z; a_succ : bool; a_leaves : bool }.
Definition ph (a : action) : handler := mkh (a_no a) (Key (MakePeer (itoa (Z.of_nat (a_no a))) [] 60666)).
Definition bf_of (size : Z) (init : bool) (l : list Z) (v : bool) : res bitfield :=
  do bf <- NewBitfield size;
  do bf <- fold_left (fun r i => do b <- r; SetBit b i init) (map Z.of_nat (seq 0 (Z.to_nat size))) (Ok bf);
  fold_left (fun r i => do b <- r; SetBit b i v) l (Ok bf).
Definition act (size : Z) (t : ppt) (a : action) : res ppt :=
  do bf <- bf_of size false (a_bf a) true;
  do t <- RegisterBF t (ph a) bf;
  do t <- Register t (ph a) (a_gets a);
  if a_leaves a then Unregister t (ph a) else Ok t.
Fixpoint asks (t : ppt) (own : bitfield) (l : list action) : bool :=
  match l with
  | [] => true
  | a :: r => if a_leaves a then asks t own r
              else okv (NextPiece t own (ph a)) (fun x => let '(i, ok, t') := x in (implb (a_succ a) ok) && (i =? a_want a) && asks t' own r)
  end.
Definition test (size : Z) (need : list Z) (l : list action) : bool :=
  okv (bf_of size true need false) (fun own => okv (NewPeerPieceTracker size) (fun t => okv (fold_left (fun r a => do t <- r; act size t a) l (Ok t)) (fun t => asks t own l))).
Example TestPeerPieceTracker_NextPiece :
  test 3 [0] [mka 1 [0] [] 0 true false] = true /\
  test 3 [0] [mka 1 [] [0] 0 true false] = true /\
  test 3 [0; 1; 2] [mka 1 [0; 1; 2] [] 2 true false; mka 2 [0; 1] [] 1 true false; mka 3 [0] [] 0 true false] = true /\
  test 2 [0; 1] [mka 1 [0; 1] [] 1 true false; mka 2 [0] [] 0 true false; mka 3 [1] [] 0 false true; mka 4 [1] [] 0 false true] = true /\
  test 10 [2] [mka 1 [0; 1] [] 0 false false; mka 2 [1; 2] [] 2 true false] = true.
Proof. vm_compute. repeat split; reflexivity. Qed.

