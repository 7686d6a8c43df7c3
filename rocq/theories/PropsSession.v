(** PropsSession.v: handling received messages, requesting, and the bytes of a connection (C77-C79). *)
From Coq Require Import ZifyBool ZifyNat ZifyN.
From Verif Require Import Base BitfieldModel BitfieldSpec BitfieldProofs WireModel WireSpec WireProofs HandshakeModel HandshakeSpec HandshakeProofs PathModel PathSpec LayoutModel LayoutSpec LayoutProofs PieceMapProofs
  FsModel FsSpec FsProofs OcatProofs SwarmModel SwarmProofs DsModel PptModel PptProofs PptSpec SessionModel SessionSpec SessionProofs PropsFs PropsSwarm PropsPpt.

(** C77 *)
Theorem C77_polite_peer_served : forall P hashes files ti own who contents w, made P hashes files ti -> opened w ti contents -> no_faults w ->
  P < 4294967283 -> zlen hashes / 20 <= 8 * zlen (Data own) -> forall groups spares t bf buf, zlen (vis buf) = P -> spare buf = [] ->
  List.length spares = List.length groups ->
  Forall (fun g => Forall (polite P (zsum (lens_of files)) (zlen hashes / 20)) g /\ zlen (stream g) < 4294967296) groups ->
  exists f0 buf', forall fuel, (f0 <= fuel)%nat ->
    recv_all fuel (mkhc ti own who) (map (fun p => mkslice (stream (fst p)) (snd p)) (combine groups spares)) (mkhs t bf buf w) =
    (Ok tt, flat_map (reply P contents own) (List.concat groups), mkhs t bf buf' w).
Proof. exact recv_all_polite. Qed.
Print Assumptions C77_polite_peer_served.
Theorem C77_every_answer_genuine : forall P hashes files ti own who contents fuel bufs t bf buf w, made P hashes files ti -> P < 4294967283 -> opened w ti contents ->
  zlen (vis buf) = P -> spare buf = [] -> Forall (fun b => zlen (vis b) < 4294967296) bufs ->
  exists x ps s', recv_all fuel (mkhc ti own who) bufs (mkhs t bf buf w) = (x, map wire_of ps, s') /\
    Forall (genuine P (zsum (lens_of files)) (zlen hashes / 20) contents own) ps /\ disk_same w (hs_world s').
Proof. exact recv_all_genuine. Qed.
Print Assumptions C77_every_answer_genuine.
Theorem C77_bad_index_ends_session : forall P hashes files ti own who contents w ms i b l rest t bf buf sp, made P hashes files ti -> opened w ti contents -> no_faults w ->
  P < 4294967283 -> zlen hashes / 20 <= 8 * zlen (Data own) -> zlen (vis buf) = P -> spare buf = [] ->
  Forall (polite P (zsum (lens_of files)) (zlen hashes / 20)) ms -> Complete own = true -> zlen hashes / 20 <= i ->
  msg_ok (MRequest i b l) -> Forall (fun m => msg_ok m /\ not_piece m) rest ->
  zlen (stream (ms ++ MRequest i b l :: rest)) < 4294967296 ->
  exists f0 s', forall fuel, (f0 <= fuel)%nat ->
    handleMessage fuel (mkhc ti own who) (mkslice (stream (ms ++ MRequest i b l :: rest)) sp) (mkhs t bf buf w) =
    (Err EBounds, flat_map (reply P contents own) ms, s').
Proof. exact recv_bad_index. Qed.
Print Assumptions C77_bad_index_ends_session.
Theorem C77_oversized_request_panics : forall P hashes files ti own who contents w i b l t bf buf sp, made P hashes files ti -> opened w ti contents -> no_faults w ->
  P < 4294967283 -> zlen (vis buf) = P -> spare buf = [] -> 0 <= i < zlen hashes / 20 -> have own i -> msg_ok (MRequest i b l) -> P < b + l ->
  forall fuel, (2 <= fuel)%nat -> exists s', handleMessage fuel (mkhc ti own who) (mkslice (wire_of (MRequest i b l)) sp) (mkhs t bf buf w) = (Panic, [], s').
Proof. exact recv_oversized. Qed.
Print Assumptions C77_oversized_request_panics.
(** Piece 1 is missing on disk: the request for it is not answered, the two others are. *)
Definition asks : list (list msg) := [[MInterested; MRequest 0 1 1; MKeepAlive; MRequest 1 0 2]; [MHave 3; MRequest 2 0 1]].
Definition tracker3 : ppt := match NewPeerPieceTracker 3 with Ok t => t | _ => mkppt [] [] [] [] end.
Definition const3 : hconst := mkhc ti2 bf_part hp.
Definition state3 : hstate := fresh tracker3 bf_part ti2 open_part.
Lemma open_part_opened : opened open_part ti2 [B "xyQ"; B "Qv"].
Proof. exists [0%nat; 1%nat]. vm_compute. repeat split; repeat constructor; cbn; intuition (try discriminate). Qed.
Example C77_case : made 2 hash2 two ti2 /\ opened open_part ti2 [B "xyQ"; B "Qv"] /\ no_faults open_part /\ zlen hash2 / 20 <= 8 * zlen (Data bf_part) /\
  Forall (fun g => Forall (polite 2 (zsum (lens_of two)) (zlen hash2 / 20)) g /\ zlen (stream g) < 4294967296) asks /\
  flat_map (reply 2 [B "xyQ"; B "Qv"] bf_part) (List.concat asks) = [wire_of (MPiece 0 1 (B "y")); wire_of (MPiece 2 0 (B "v"))].
Proof.
  split; [exact two_made|]. split; [exact open_part_opened|]. split; [reflexivity|]. split; [vm_compute; discriminate|].
  split; [|reflexivity]. repeat constructor; try (vm_compute; reflexivity); try (vm_compute; discriminate); try (vm_compute; intuition discriminate).
Qed.
(** The same run computed. *)
Example C77_run : fst (recv_all 9 const3 (map (fun g => mkslice (stream g) []) asks) state3) = (Ok tt, [wire_of (MPiece 0 1 (B "y")); wire_of (MPiece 2 0 (B "v"))]).
Proof. vm_compute. reflexivity. Qed.
Example C77_case_errors : msg_ok (MRequest 0 1 2) /\ have bf_part 0 /\ 2 < 1 + 2 /\ fst (handleMessage 5 const3 (mkslice (wire_of (MRequest 0 1 2)) []) state3) = (Panic, []).
Proof. vm_compute. repeat split; try discriminate. right. reflexivity. Qed.

(** C78 *)
Theorem C78_requestLoop_sends_nothing : forall rounds fuel ti whom env k n, snd (requestLoop rounds fuel ti whom env k n) = [].
Proof. exact requestLoop_silent. Qed.
Print Assumptions C78_requestLoop_sends_nothing.
Theorem C78_requestLoop_stuck : forall rounds fuel ti whom env k n next t', Complete (snd (env k)) = false -> (n < 5)%nat ->
  NextPiece (fst (env (S k))) (snd (env (S k))) whom = Ok (next, true, t') ->
  (if next =? ti_npieces ti - 1 then u32 (ti_lastlen ti) else u32 (ti_plen ti)) <> 0 ->
  fst (requestLoop rounds fuel ti whom env k n) = NoFuel.
Proof. exact requestLoop_stuck. Qed.
Print Assumptions C78_requestLoop_stuck.
Theorem C78_received_piece_panics : forall fuel c i b blk rest sp s, (1 <= fuel)%nat -> zlen (wire_of (MPiece i b blk) ++ rest) < 4294967296 ->
  handleMessage fuel c (mkslice (wire_of (MPiece i b blk) ++ rest) sp) s = (Panic, [], s).
Proof. exact handle_piece_panics. Qed.
Print Assumptions C78_received_piece_panics.
Theorem C78_files_never_written : forall P hashes files ti own who contents fuel bufs t bf buf w, made P hashes files ti -> P < 4294967283 -> opened w ti contents ->
  zlen (vis buf) = P -> spare buf = [] -> Forall (fun b => zlen (vis b) < 4294967296) bufs ->
  disk_same w (hs_world (snd (recv_all fuel (mkhc ti own who) bufs (mkhs t bf buf w)))).
Proof.
  intros P hashes files ti own who contents fuel bufs t bf buf w H1 H2 H3 H4 H5 H6.
  destruct (recv_all_genuine P hashes files ti own who contents fuel bufs t bf buf w H1 H2 H3 H4 H5 H6) as (x & ps & s' & -> & _ & H). exact H.
Qed.
Print Assumptions C78_files_never_written.
(** Piece 1 is missing here and a connected peer has it; the request for it is never sent. *)
Definition tracker3' : ppt := match (do t <- NewPeerPieceTracker 3; Register t hq [1]) with Ok t => t | _ => tracker3 end.
Example C78_case : Complete bf_part = false /\ (exists t', NextPiece tracker3' bf_part hq = Ok (1, true, t')) /\ u32 (ti_plen ti2) <> 0 /\
  fst (requestLoop 9 99 ti2 hq (fun _ => (tracker3', bf_part)) 0 0) = NoFuel.
Proof. vm_compute. split; [reflexivity|]. split; [eexists; reflexivity|]. split; [discriminate|reflexivity]. Qed.

(** C79 *)
Theorem C79_connection_bytes : forall P hashes files ti own who contents ih me r wr id t bf w ls s, made P hashes files ti -> P < 4294967283 -> opened w ti contents ->
  msg_ok (MBitfield own) -> (List.length (rd_bytes r) <= 68)%nat -> in_peer (FromIncoming ih me own r wr) = Ok id ->
  Forall (fun d => zlen (vis (snd d)) < 4294967296) (deliveries ls) ->
  crun (mkhc ti own who) ls (accepted (in_sent (FromIncoming ih me own r wr)) (fresh t bf ti w)) = Some s ->
  exists ms tail rest, cn_out s = MakeHandshake ih me ++ stream (MBitfield own :: MUnchoke :: ms) ++ tail /\
    Forall (genuine_or_alive P (zsum (lens_of files)) (zlen hashes / 20) contents own) ms /\
    handled (mkhc ti own who) (deliveries ls) (fresh t bf ti w) = map wire_of (filter is_piece ms) ++ rest /\
    (cn_up s = true -> tail = [] /\ rest = cn_pend s) /\
    (exists m, genuine_or_alive P (zsum (lens_of files)) (zlen hashes / 20) contents own m /\ begins tail (wire_of m)) /\
    disk_same w (hs_world (cn_h s)).
Proof. exact connection_top. Qed.
Print Assumptions C79_connection_bytes.
(** After a write that failed, or a message whose handling failed, nothing is taken in any more. *)
Theorem C79_stops : forall c l ls s s', crun c (l :: ls) s = Some s' ->
  (exists k, l = CWriteFail k) \/ (exists f b, l = CDeliver f b /\ forall u, fst (fst (handleMessage f c b (cn_h s))) <> Ok u) -> deliveries ls = [].
Proof. exact stops. Qed.
Print Assumptions C79_stops.
(** Two requests in one read; a keep-alive goes out between the two answers and the second answer is cut. *)
Definition hello : first_read := mkread (handshake_of (repeat x00 8) (repeat x61 20) (repeat x63 20)) false.
Definition events : list clabel := [CDeliver 9 (mkslice (stream [MRequest 0 0 2; MRequest 2 0 1]) []); CWrite; CPing; CWriteFail 3].
Definition sent3 : bytes := in_sent (FromIncoming (repeat x61%byte 20) (repeat x62%byte 20) bf_part hello (HandshakeModel.mkw true true)).
Example C79_case : msg_ok (MBitfield bf_part) /\ in_peer (FromIncoming (repeat x61%byte 20) (repeat x62%byte 20) bf_part hello (HandshakeModel.mkw true true)) = Ok (repeat x63%byte 20) /\
  option_map cn_out (crun const3 events (accepted sent3 state3)) =
    Some (MakeHandshake (repeat x61%byte 20) (repeat x62%byte 20) ++ stream [MBitfield bf_part; MUnchoke; MPiece 0 0 (B "xy"); MKeepAlive] ++ [x00; x00; x00]%byte).
Proof. vm_compute. repeat split; (reflexivity || discriminate). Qed.
Example C79_stops_case : (exists s, crun const3 (events ++ []) (accepted sent3 state3) = Some s) /\ crun const3 (events ++ [CDeliver 9 (mkslice [] [])]) (accepted sent3 state3) = None.
Proof. vm_compute. split; [eexists; reflexivity|reflexivity]. Qed.
