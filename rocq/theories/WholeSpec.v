(** WholeSpec.v: the program from its command line to what its peers get. *)
From Verif Require Import Base TrackerModel BencodeModel BitfieldModel WireModel WireSpec HandshakeModel HandshakeSpec PptModel PeerModel UtilsModel LayoutModel LayoutSpec LoadSpec FlagSpec.
From Verif Require Import PathSpec FsModel FsSpec StartModel SessionModel SessionSpec RunModel ProcModel ProcSpec.

(** The command line asks for these options. *)
Definition commanded (args : list bytes) (o : Opts) : Prop :=
  exists a ss rest, args = a ++ rest /\ spelled a ss /\ ports_good ss /\ ends rest /\ means ss o.
(** The torrent file's text, and where its files go. *)
Definition describes (sha1 : bytes -> bytes) (data wd announce ih name : bytes) (P : Z) (hashes : bytes) (fs : list (bytes * Z)) (qs : list bytes) : Prop :=
  exists info, header data announce info name P hashes /\ lists_files info name fs /\ Forall2 (lies wd info name) fs qs /\ ih = sha1 (fst (Encode (VDict info))).
(** Numbers a torrent has in practice; at least one piece. *)
Definition ordinary (P : Z) (hashes : bytes) (fs : list (bytes * Z)) : Prop :=
  sane P (map snd fs) /\ P < 4294967283 /\ 0 < zlen hashes / 20 < 4294967296.
Definition on_disk (w : world) (qs contents : list bytes) : Prop := Forall2 (fun q c => file_at w q = Some c) qs contents.
(** The files are as they were before, cut or extended with zeros to the torrent's sizes. *)
Definition fitted (w : world) (qs : list bytes) (fs : list (bytes * Z)) (contents : list bytes) : Prop :=
  Forall2 (fun x c => resized (old_at w (fst x)) (snd (snd x)) c) (combine qs fs) contents.
(** Every piece has the hash the torrent gives. *)
Definition all_right (sha1 : bytes -> bytes) (P : Z) (hashes : bytes) (contents : list bytes) : Prop :=
  forall i, 0 <= i < zlen hashes / 20 -> sha1 (piece_bytes P contents i) = hash_at hashes i.
(** What the goroutines of a started swarm run with, given the number of sockets the process may have open. *)
Definition process_of (sw : swarm) (socks : nat) : pconst :=
  mkpconst (mksc (t_info (sw_tor sw)) (t_infohash (sw_tor sw)) (sw_bf sw) (sw_id sw)) (sw_wrate sw) socks.
(** A state the process comes to, whatever peers send and however the goroutines are scheduled. *)
Definition comes_to (sw : swarm) (socks : nat) (w1 : world) (s : pstate) : Prop :=
  exists ls, Forall pfair ls /\ prun (process_of sw socks) ls (started (sw_ppt sw) w1 (sw_peers sw)) = Some s.
(** What a peer is told first: what we have, if it connected to us. *)
Definition greeting (sw : swarm) (ih : bytes) (incoming : bool) : bytes :=
  handshake_of (repeat x00 8) ih (sw_id sw) ++ stream (if incoming then [MBitfield (sw_bf sw); MUnchoke] else [MUnchoke]).
(** Steps of connection k, of the listener and the ticker; of other connections only what gives the write lock back. *)
Definition newcomers (k : nat) (l : plabel) : Prop :=
  match l with
  | PAccept | PTick => True
  | PShake _ _ r _ _ => (List.length (rd_bytes r) <= 68)%nat
  | PConn j l => j = k \/ l = GSpin \/ l = GAdd
  | _ => False
  end.
(** Requests inside a piece, and messages that need no answer, that a peer sends in one go. *)
Definition readable (P T n : Z) (ms : list msg) : Prop := ms <> [] /\ Forall (polite P T n) ms /\ (List.length (stream ms) <= RecvBufSize)%nat.
(** Someone connects in state s as peer id, with our infohash, and sends these groups of messages: the process can go on, by steps for the
    newcomer only, until the newcomer has got the greeting and these answers, and nothing else. *)
Definition newcomer_gets (sw : swarm) (ih : bytes) (socks : nat) (s : pstate) (p : bytes) (port : Z) (rsv id : bytes) (groups : list (list msg)) (answers : bytes) : Prop :=
  let k := List.length (p_conns s) in
  exists rest s' g, Forall (newcomers k) rest /\
    prun (process_of sw socks) (PAccept :: PShake p port (mkread (handshake_of rsv ih id) false) (HandshakeModel.mkw true true) None :: rest) s = Some s' /\
    nth_error (p_conns s') k = Some g /\ c_got (g_c g) = map stream groups /\ m_out (g_m g) = greeting sw ih true ++ answers.
(** The block asked for. *)
Definition delivery (P : Z) (contents : list bytes) (m : msg) : bytes :=
  match m with MRequest i b l => wire_of (MPiece i b (block P contents i b l)) | _ => [] end.
(** The announce URL parses and the tracker's answer is read as resp, whatever it is asked. *)
Definition tracker_says (n : net) (announce : bytes) (resp : response) : Prop :=
  n_query n announce <> None /\ forall q, exists body, n_answer n announce q = Some body /\ handle_body (n_parseIP n) body = Ok resp.
