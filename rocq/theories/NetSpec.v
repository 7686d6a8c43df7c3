(** NetSpec.v: what a network of gotors may do, and reads that do not cut messages. *)
From Verif Require Import Base BitfieldModel BitfieldSpec WireModel WireSpec HandshakeModel LayoutModel LayoutSpec FsModel FsSpec PptModel SessionModel SessionSpec RunModel RunSpec LeechSpec NetModel.

(** The swarm each node runs: its torrent, constants, files. *)
Record site := mksite { st_P : Z; st_hashes : bytes; st_files : list ebase; st_c : sconst; st_contents : list bytes; st_w : world }.
Definition st_n (st : site) : Z := zlen (st_hashes st) / 20.
Definition site_up (st : site) : Prop := swarm_up (st_P st) (st_hashes st) (st_files st) (st_c st) (st_contents st) (st_w st).
(** Nobody is connected yet. *)
Definition starting (st : site) (nd : node) : Prop :=
  nd_c nd = st_c st /\ exists t0, NewPeerPieceTracker (st_n st) = Ok t0 /\ nd_s nd = mkss t0 (st_w st) [].
Definition begun (sites : list site) (N : net) : Prop := Forall site_up sites /\ Forall2 starting sites (n_nodes N) /\ n_links N = [].

(** Where messages end in a stream: after the handshake of 68 bytes, and then after each length-prefixed message. *)
Inductive boundary (s : bytes) : nat -> Prop :=
| after_handshake : (68 <= List.length s)%nat -> boundary s 68
| after_message p a b c d r : boundary s p -> skipn p s = a :: b :: c :: d :: r -> num32 a b c d <= zlen r -> boundary s (p + 4 + Z.to_nat (num32 a b c d)).
(** A read that got q bytes in all of what x has written cuts no message, unless x itself could not write it all. *)
Definition ends (x : conn) (q : nat) : Prop := boundary (k_out x) q \/ (k_up x = false /\ q = List.length (k_out x)).
Definition aligned (N : net) (l : nlabel) : Prop :=
  match l with
  | NAccept _ _ _ m err _ _ => err = true \/ m = 68%nat
  | NHear j m _ => forall L x, nth_error (n_links N) j = Some L -> conn_at N (l_from L) (l_conn L) = Some x -> ends x (l_got L + m)
  | NReply j m _ => forall L, nth_error (n_links N) j = Some L ->
      match l_far L with
      | Taken k => forall x, conn_at N (l_to L) k = Some x -> ends x (l_back L + m)
      | Refused sent => (l_back L + m)%nat = List.length sent
      | Waiting => True
      end
  | _ => True
  end.
Fixpoint aligned_run (ls : list nlabel) (N : net) : Prop :=
  match ls with
  | [] => True
  | l :: r => aligned N l /\ match nstep l N with NWent N' => aligned_run r N' | _ => True end
  end.
(** Node i has dialled, under this key, a node whose bitfield has piece p. *)
Definition offered (sites : list site) (N : net) (i : nat) (key : bytes) (p : Z) : Prop :=
  exists L x st, In L (n_links N) /\ l_from L = i /\ conn_at N i (l_conn L) = Some x /\ h_key (k_who x) = key /\
    nth_error sites (l_to L) = Some st /\ nth (Z.to_nat p) (bits_of (Data (sc_own (st_c st)))) false = true.
(** Nothing but the opening and keep-alives. *)
Definition idles (c : sconst) (x : conn) : Prop :=
  exists t, begins (k_out x) (MakeHandshake (sc_ih c) (sc_id c) ++ stream (opening (sc_own c) x ++ repeat MKeepAlive t)) /\
    (k_up x = true -> k_out x = MakeHandshake (sc_ih c) (sc_id c) ++ stream (opening (sc_own c) x ++ repeat MKeepAlive t)).
Definition is_bitfield (m : msg) : bool := match m with MBitfield _ => true | _ => false end.
