(** RunSpec.v: what the connections of a running swarm may observe of each other: nothing but the tracker's registrations. *)
From Verif Require Import Base BitfieldModel BitfieldSpec WireModel WireSpec HandshakeModel LayoutModel LayoutSpec FsModel FsSpec DsModel PptModel SessionModel SessionSpec RunModel.

(** The message announces piece i of n: a bitfield of the right size with bit i set. *)
Definition tells (n : Z) (m : msg) (i : Z) : Prop :=
  exists bf, m = MBitfield bf /\ Nbytes bf = bytes_for n /\ 0 <= i < n /\ nth (Z.to_nat i) (bits_of (Data bf)) false = true.
(** Some connection - alive or not - of a peer with this key has announced piece i. *)
Definition told (n : Z) (conns : list conn) (key : bytes) (i : Z) : Prop :=
  exists x m, In x conns /\ h_key (k_who x) = key /\ In m (k_done x) /\ tells n m i.
(** The message announces a piece that this key has not announced yet and exactly 63 others have. *)
Definition crowded (n : Z) (conns : list conn) (key : bytes) (m : msg) : Prop :=
  exists i ks, tells n m i /\ ~ told n conns key i /\ NoDup ks /\ zlen ks = 63 /\ forall k, In k ks <-> told n conns k i.
(** A request that no buffer of P bytes can answer, or for a piece index beyond our bitfield's bytes. *)
Definition deadly_request (P n : Z) (own : bitfield) (m : msg) : Prop :=
  exists i b l, m = MRequest i b l /\ ((Complete own = false /\ 8 * zlen (Data own) <= i) \/ (have own i /\ i < n /\ P < b + l)).
(** Connection x may handle a message now; it may decode a buffer now. *)
Definition next_msg (x : conn) (m : msg) : Prop := (exists r, k_todo x = m :: r) /\ k_pend x = [] /\ k_recv x = true.
Definition idle (x : conn) : Prop := k_todo x = [] /\ k_pend x = [] /\ k_recv x = true.
(** The steps that end the process, in a state with these connections. *)
Definition deadly (P n : Z) (own : bitfield) (conns : list conn) (l : slabel) : Prop :=
  match l with
  | SDeliver k fuel b => exists x, nth_error conns k = Some x /\ idle x /\ DecodeAll fuel b = Panic
  | SHandle k => exists x m, nth_error conns k = Some x /\ next_msg x m /\ (deadly_request P n own m \/ crowded n conns (h_key (k_who x)) m)
  | _ => False
  end.

(** A request for a piece we have; a piece message answers it. *)
Definition asked (own : bitfield) (m : msg) : bool := match m with MRequest i _ _ => haveb own i | _ => false end.
Definition answers (r p : msg) : Prop := exists i b l blk, r = MRequest i b l /\ p = MPiece i b blk /\ zlen blk = l.
(** What goes out first: a peer that connected to us is told what we have, a peer we connected to is not. *)
Definition opening (own : bitfield) (x : conn) : list msg := if k_in x then [MBitfield own; MUnchoke] else [MUnchoke].
(** The bytes sent on a connection: a handshake, the opening, then keep-alives and genuine answers, in the order of the requests,
    one for each request handled so far unless its file could not be read or a write failed. *)
Definition lawful (P T n : Z) (contents : list bytes) (own : bitfield) (ih me : bytes) (x : conn) : Prop :=
  exists ms ps reqs late, Forall (genuine_or_alive P T n contents own) (ms ++ ps) /\
    begins (k_out x) (MakeHandshake ih me ++ stream (opening own x ++ ms)) /\
    (k_up x = true -> k_out x = MakeHandshake ih me ++ stream (opening own x ++ ms)) /\
    k_pend x = map wire_of ps /\
    filter (asked own) (k_done x) = reqs ++ late /\ Forall2 answers reqs (filter is_piece (ms ++ ps)) /\ (k_recv x = true -> late = []).
(** The buffers delivered to connection k in a run, and their messages. *)
Fixpoint delivered (k : nat) (ls : list slabel) : list (nat * gslice) :=
  match ls with
  | [] => []
  | SDeliver k' f b :: r => if Nat.eqb k' k then (f, b) :: delivered k r else delivered k r
  | _ :: r => delivered k r
  end.
Definition decoded (d : nat * gslice) : list msg := match DecodeAll (fst d) (snd d) with Ok (ms, _) => ms | _ => [] end.
(** Buffers short enough for 32-bit lengths (the read loop's buffer has 16384 bytes); handshakes read into 68 bytes. *)
Definition fair (l : slabel) : Prop :=
  match l with
  | SDeliver _ _ b => zlen (vis b) < 4294967296
  | SAccept _ _ r _ _ => (List.length (rd_bytes r) <= 68)%nat
  | _ => True
  end.

(** ** A swarm with its files open, serving *)
Definition swarm_up (P : Z) (hashes : bytes) (files : list ebase) (c : sconst) (contents : list bytes) (w0 : world) : Prop :=
  made P hashes files (sc_ti c) /\ P < 4294967283 /\ zlen hashes / 20 < 4294967296 /\ Nbytes (sc_own c) = bytes_for (zlen hashes / 20) /\
  msg_ok (MBitfield (sc_own c)) /\ opened w0 (sc_ti c) contents.
(** Its live states: after any sequence of steps in which the process did not die. *)
Definition reaches (n : Z) (c : sconst) (w0 : world) (ls : list slabel) (s : sstate) : Prop :=
  exists t0, NewPeerPieceTracker n = Ok t0 /\ Forall fair ls /\ srun c ls (mkss t0 w0 []) = Some s.
(** The step is one of connection k (of its reading, handling and writing). *)
Definition of_conn (k : nat) (l : slabel) : bool :=
  match l with
  | SDeliver k' _ _ | SHandle k' | SWrite k' | SWriteFail k' _ | SPing k' | SPingFail k' _ | SEnd k' => Nat.eqb k' k
  | _ => false
  end.
(** A keep-alive, or a block of a piece whose SHA-1 is the torrent's; within the piece, the block is the content's. *)
Definition proven (sha1 : bytes -> bytes) (P T : Z) (hashes : bytes) (contents : list bytes) (m : msg) : Prop :=
  m = MKeepAlive \/ exists i b blk, m = MPiece i b blk /\ 0 <= i < zlen hashes / 20 /\ sha1 (piece_bytes P contents i) = hash_at hashes i /\
    (b + zlen blk <= psize P T i -> blk = block P contents i b (zlen blk)).
(** Not a message that says anything about the pieces we have or want. *)
Definition reveals (m : msg) : bool :=
  match m with MHave _ | MBitfield _ | MRequest _ _ _ | MInterested | MNotInterested => true | _ => false end.
