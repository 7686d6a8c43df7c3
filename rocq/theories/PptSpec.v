(** PptSpec.v: who is registered for what, read off the history of calls. *)
From Verif Require Import Base BitfieldModel DsModel PptModel.

(** The peer with key k is registered for piece i after a history (latest call first). *)
Fixpoint registered (hist : list pop) (k : bytes) (i : Z) : Prop :=
  match hist with
  | [] => False
  | PRegister w is :: h => (h_key w = k /\ In i is) \/ registered h k i
  | PRegisterBF w bf :: h => (h_key w = k /\ 0 <= i < Nbits bf /\ Get bf i = Ok true) \/ registered h k i
  | PUnregister w :: h => h_key w <> k /\ registered h k i
  | PNext _ _ :: h => registered h k i
  end.
(** Piece i has exactly n registered peers. *)
Definition npeers (hist : list pop) (i : Z) (n : Z) : Prop :=
  exists ks, NoDup ks /\ (forall k, In k ks <-> registered hist k i) /\ zlen ks = n.
(** Calls within the documented domain for a tracker of [size] pieces; the bitfields cover the pieces. *)
Definition pdomain (size : Z) (o : pop) : Prop :=
  match o with
  | PRegister _ is => Forall (fun i => 0 <= i < size) is
  | PRegisterBF _ bf => Nbits bf <= size /\ Nbits bf <= 8 * zlen (Data bf)
  | PUnregister _ => True
  | PNext _ bf => size <= 8 * zlen (Data bf)
  end.
(** Histories (earliest call first) in which no piece ever has 64 peers. *)
Definition at_most_63 (hist : list pop) : Prop :=
  forall i ks, NoDup ks -> (forall k, In k ks -> registered hist k i) -> zlen ks <= 63.
Definition never64 (ops : list pop) : Prop := forall n, at_most_63 (rev (firstn n ops)).
Definition pvalid (size : Z) (ops : list pop) : Prop := 0 <= size < 4294967296 /\ Forall (pdomain size) ops /\ never64 ops.

(** Observations of a tracker: the piece indices met walking bucket j from its head; the keys in piece i's peer set. *)
Fixpoint indices_at (h : heap piece) (l : list nat) : res (list Z) :=
  match l with
  | [] => Ok []
  | a :: r => match nth_error h a with Some n => do is <- indices_at h r; Ok (p_index (ndata n) :: is) | None => Panic end
  end.
Definition bucket (t : ppt) (j : Z) : res (list Z) :=
  match nth_error (t_buckets t) (Z.to_nat j) with
  | Some l => do addrs <- walk (List.length (t_heap t)) (t_heap t) (lhead l); indices_at (t_heap t) addrs
  | None => Panic
  end.
Definition lists (t : ppt) (i : Z) (k : bytes) : Prop :=
  exists a n, nth_error (t_nodes t) (Z.to_nat i) = Some a /\ nth_error (t_heap t) a = Some n /\ kget (p_peers (ndata n)) k <> None.

(** What NextPiece may hand to w: pieces we lack that w is registered for. *)
Definition candidate (size : Z) (hist : list pop) (bf : bitfield) (w : handler) (i : Z) : Prop :=
  0 <= i < size /\ Get bf i = Ok false /\ registered hist (h_key w) i.
(** A bitfield message from w on top of a history: bit i of the payload announces piece i. *)
Definition announced (size : Z) (hist : list pop) (w : handler) (bits : list bool) (k : bytes) (i : Z) : Prop :=
  (h_key w = k /\ 0 <= i < size /\ nth (Z.to_nat i) bits false = true) \/ registered hist k i.

(** Requests for a piece of len bytes, as a client must send them: blocks of at most 16384 bytes, in order, covering it. *)
Fixpoint covers (idx off len : Z) (ms : list WireModel.msg) : Prop :=
  match ms with
  | [] => off = len
  | WireModel.MRequest i b l :: r => i = idx /\ b = off /\ 1 <= l <= 16384 /\ covers idx (off + l) len r
  | _ => False
  end.
