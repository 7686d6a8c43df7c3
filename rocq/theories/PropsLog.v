(** PropsLog.v: what the log says (C114). *)
From Coq Require Import ZifyBool ZifyNat ZifyN.
From Verif Require Import Base BitfieldModel BitfieldSpec WireModel WireSpec HandshakeModel HandshakeSpec LayoutModel LayoutSpec DsModel PptModel PeerModel FsModel FsSpec SwarmModel SessionModel SessionSpec PropsFs PropsSwarm PropsPpt PropsSession RunModel RunSpec PropsRun ProcModel ProcSpec ProcProofs ProcLiveProofs ProcSockProofs PropsProc MemModel MemSpec MemProofs BencodeModel UtilsModel TrackerModel StartModel LogModel LogSpec LogProofs LogRunProofs LogTextProofs.
From Verif Require LoopModel ReadLoopModel.
(** ** Witnesses *)
Lemma dial_log i : exists s, wrun slow1 [WDo (PDial 0 true true None); WDo (PConn 0 GRecvStart)] (wstarted tracker3 open_part [i]) = Some (s, [(Some 0%nat, LStartRecv (Key i))]).
Proof.
  assert (H : match wrun slow1 [WDo (PDial 0 true true None); WDo (PConn 0 GRecvStart)] (wstarted tracker3 open_part [i]) with Some (_, es) => Some es | None => None end = Some [(Some 0%nat, LStartRecv (Key i))]) by (vm_compute; reflexivity).
  destruct (wrun slow1 [WDo (PDial 0 true true None); WDo (PConn 0 GRecvStart)] (wstarted tracker3 open_part [i])) as [[s es]|]; [|discriminate]. exists s. injection H as ->. reflexivity.
Qed.
Lemma forged_line k stamp a : plain stamp -> plain a -> exists pc t w peers ls s es, wrun pc ls (wstarted t w peers) = Some (s, es) /\ Forall made_peer peers /\
  In (stamp ++ own_line (text k (LDone a))) (text_lines (log_bytes k (repeat stamp (List.length es)) (map snd es))) /\ count is_done (map snd es) = 0%nat.
Proof.
  intros Hs Ha. pose (line := stamp ++ B "peer " ++ a ++ B " done"). pose (i := MakePeer ([x0a] ++ line ++ [x0a]) (IPv4 x0a x00 x00 x03) 4000).
  destruct (dial_log i) as [s H]. exists slow1, tracker3, open_part, [i], [WDo (PDial 0 true true None); WDo (PConn 0 GRecvStart)], s, [(Some 0%nat, LStartRecv (Key i))].
  split; [exact H|]. split; [constructor; [do 3 eexists; reflexivity|apply Forall_nil]|]. split; [|reflexivity].
  assert (Hl : plain (B "peer " ++ a ++ B " done")) by (repeat apply plain_app; try exact Ha; apply plainb_ok; reflexivity).
  replace (own_line (text k (LDone a))) with (B "peer " ++ a ++ B " done").
  2:{ cbn [text]. unfold own_line. destruct (rev (B "peer " ++ a ++ B " done")) as [|c r] eqn:E; [reflexivity|]. rewrite (plain_last _ _ _ Hl E). reflexivity. }
  fold line. cbn [List.length repeat map snd log_bytes text]. unfold Key, i, MakePeer, output. cbn [pi_str]. rewrite app_nil_r. rewrite <- !app_assoc. rewrite (app_assoc stamp). cbn [app].
  rewrite lines_one by (apply plain_app; [exact Hs|apply plainb_ok; reflexivity]). right.
  rewrite lines_one by (apply plain_app; [exact Hs|exact Hl]). left. reflexivity.
Qed.
Definition lies : list wlabel := WAccept (IPv4 x0a x00 x00 x01) 4000 :: WDo (PShake (IPv4 x0a x00 x00 x01) 4000 (mkread (handshake_of (repeat x00 8) ih1 (peer_id 1)) false) (HandshakeModel.mkw true true) None) ::
  map (fun l => WDo (PConn 0 l)) [GPingStart; GPingTick (Some 0%nat); GPingErr].
Lemma keepalive_lie : exists pc t w peers ls s es g, wrun pc ls (wstarted t w peers) = Some (s, es) /\ nth_error (p_conns (w_p s)) 0 = Some g /\
  count is_pinged (lines_by 0 es) = 1%nat /\ keepalives 0 ls = 0%nat /\ m_out (g_m g) = MakeHandshake (sc_ih (pc_c pc)) (sc_id (pc_c pc)) ++ stream (opening (sc_own (pc_c pc)) (conn_view g)).
Proof. exists slow1, tracker3, open_part, [], lies. do 3 eexists. split; [vm_compute; reflexivity|]. split; [reflexivity|]. repeat split; vm_compute; reflexivity. Qed.

(* ------------------------------------------------------------------ *)
(** * C114 The log *)
(** Logging changes nothing: the process behind the log is the one of C98, and every run of that one is logged. *)
Theorem C114_refines : forall pc t w peers ls s es, wrun pc ls (wstarted t w peers) = Some (s, es) -> prun pc (map erase ls) (started t w peers) = Some (w_p s).
Proof. exact wrun_erased. Qed.
Print Assumptions C114_refines.
Theorem C114_lift : forall pc t w peers ls p, ~ In (WDo PAccept) ls -> prun pc (map erase ls) (started t w peers) = Some p -> exists s es, wrun pc ls (wstarted t w peers) = Some (s, es) /\ w_p s = p.
Proof. exact wrun_lift. Qed.
Print Assumptions C114_lift.
(** Which of a handler's goroutines have started, and which have ended, can be read off its lines. *)
Theorem C114_state : forall pc t w peers ls s es k g, wrun pc ls (wstarted t w peers) = Some (s, es) -> nth_error (p_conns (w_p s)) k = Some g -> shows (lines_by k es) g.
Proof. exact wrun_state. Qed.
Print Assumptions C114_state.
(** The lines name the handler's peer: the key by which the tracker knows it. *)
Theorem C114_names : forall pc t w peers ls s es k g i a, wrun pc ls (wstarted t w peers) = Some (s, es) -> nth_error (p_conns (w_p s)) k = Some g -> nth_error (w_who s) k = Some (i, a) -> h_key (m_who (g_m g)) = Key i.
Proof. exact wrun_names. Qed.
Print Assumptions C114_names.
(** One "Decoded" line for every Read, in order and with its length, but for at most the last. *)
Theorem C114_decoded : forall pc t w peers ls s es k g, wrun pc ls (wstarted t w peers) = Some (s, es) -> nth_error (p_conns (w_p s)) k = Some g ->
  (exists r, map zlen (c_got (g_c g)) = map snd (decodes (lines_by k es)) ++ r /\ (List.length r <= 1)%nat) /\ Forall (fun d => 0 <= fst d <= snd d) (decodes (lines_by k es)).
Proof. exact wrun_decoded. Qed.
Print Assumptions C114_decoded.
(** One "registered bitfield" for every bitfield of the right length handled. *)
Theorem C114_registered : forall P hashes files pc contents w0 peers t ls s es k g, swarm_up P hashes files (pc_c pc) contents w0 -> NewPeerPieceTracker (zlen hashes / 20) = Ok t -> Forall (fun l => pfair (erase l)) ls ->
  wrun pc ls (wstarted t w0 peers) = Some (s, es) -> nth_error (p_conns (w_p s)) k = Some g -> count is_registered (lines_by k es) = List.length (filter (sized (sc_own (pc_c pc))) (m_done (g_m g))).
Proof. exact wrun_registered. Qed.
Print Assumptions C114_registered.
(** "sent keep alive" is logged once for every keep-alive written, and once more after the one that failed. *)
Theorem C114_keepalives : forall pc t w peers ls s es k, wrun pc ls (wstarted t w peers) = Some (s, es) ->
  count is_pinged (lines_by k es) = (keepalives k ls + count is_ping_err (lines_by k es))%nat /\ (count is_ping_err (lines_by k es) <= 1)%nat.
Proof. exact wrun_keepalives. Qed.
Print Assumptions C114_keepalives.
(** No "peer ... done" is ever logged; no "end requestLoop" while a piece is missing; "(killing)" at most once for a handler. *)
Theorem C114_never : forall pc t w peers n ls s es, NewPeerPieceTracker n = Ok t -> Forall (fun l => pfair (erase l)) ls -> wrun pc ls (wstarted t w peers) = Some (s, es) -> forall k,
  count is_done (lines_by k es) = 0%nat /\ (Complete (sc_own (pc_c pc)) = false -> count is_end_req (lines_by k es) = 0%nat) /\ (count is_killing (lines_by k es) <= 1)%nat.
Proof. exact wrun_never. Qed.
Print Assumptions C114_never.
(** Every "new client" is still shaking hands, has failed with a line, or has a handler; every peer of the tracker is still to be
    dialled, has failed with a line, or has a handler. *)
Theorem C114_clients : forall pc t w peers ls s es, wrun pc ls (wstarted t w peers) = Some (s, es) ->
  count is_client (map snd es) = (p_shake (w_p s) + count is_in_fail (map snd es) + List.length (filter (fun g => m_in (g_m g)) (p_conns (w_p s))))%nat /\
  List.length peers = (List.length (p_dial (w_p s)) + count is_boot_fail (map snd es) + List.length (filter (fun g => negb (m_in (g_m g))) (p_conns (w_p s))))%nat.
Proof. exact wrun_came. Qed.
Print Assumptions C114_clients.
(** The bytes of the log: a line for every call, as long as no peer id has a newline in it. *)
Theorem C114_lines : forall k stamps pc t w peers ls s es, plain_looks k -> Forall plain stamps -> Forall made_peer peers -> wrun pc ls (wstarted t w peers) = Some (s, es) -> Forall (fun x => plain (pi_id (fst x))) (w_who s) ->
  text_lines (log_bytes k stamps (map snd es)) = stamped k stamps (map snd es).
Proof. exact lines_run. Qed.
Print Assumptions C114_lines.
(** NewSwarm's lines: it does what it does without them, they come in order, and all four come before it returns a swarm. *)
Theorem C114_boot : forall sha1 n src fuel sp o w r lg w', NewSwarm_logged sha1 n src fuel sp o w = (r, lg, w') ->
  NewSwarm sha1 n src fuel sp o w = (r, w') /\
  (forall sw, r = Ok sw -> lg = [LReading (o_input o); LOpening; LHave (Nset (sw_bf sw)) (Nbits (sw_bf sw)); LGet (t_announce (sw_tor sw))]) /\
  exists a b u q, lg ++ q = [LReading (o_input o); LOpening; LHave a b; LGet u].
Proof. exact boot_log. Qed.
Print Assumptions C114_boot.
(** A case: two visitors and a failed dial, and what is logged of them. *)
Definition logs (ls : list plabel) : list wlabel := map (fun l => match l with PAccept => WAccept (IPv4 x0a x00 x00 x01) 4000 | _ => WDo l end) ls.
Definition run14 : list plabel := runp ++ [PDial 0 true false None; PAccept; PConn 1 GPingStart; PConn 1 (GPingTick (Some 0%nat)); PConn 1 GPingErr; PConn 1 GPingRet].
Definition peer14 : info := MakePeer (peer_id 3) (IPv4 x0a x00 x00 x03) 4000.
Definition where14 : bytes := B "10.0.0.1:4000".
Example C114_case : exists s es, wrun slow1 (logs run14) (wstarted tracker3 open_part [peer14]) = Some (s, es) /\
  lines_by 0 es = [LGood where14; LSentHs where14; LSentBf where14; LStartRecv (peer_id 1 ++ B " @ " ++ where14); LStartPing where14; LPinged where14; LStartRead where14; LDecoded 34 34 where14] /\
  lines_by 1 es = [LGood where14; LSentHs where14; LSentBf where14; LStartRecv (peer_id 2 ++ B " @ " ++ where14); LStartRead where14; LDecoded 17 17 where14;
                   LStartPing where14; LKilling (peer_id 2 ++ B " @ " ++ where14) EIO; LPingErr where14; LPinged where14; LEndPing (peer_id 2 ++ B " @ " ++ where14)] /\
  filter is_boot_fail (map snd es) = [LBootFail (B "10.0.0.3:4000") EIO] /\ count is_client (map snd es) = 3%nat /\ p_shake (w_p s) = 1%nat /\
  Forall (fun l => pfair (erase l)) (logs run14) /\ Forall (fun x => plain (pi_id (fst x))) (w_who s) /\ Forall made_peer [peer14] /\ List.length (p_conns (w_p s)) = 2%nat.
Proof.
  pose (sum := fun p : wstate * list entry => let (s, es) := p in
    (lines_by 0 es, lines_by 1 es, filter is_boot_fail (map snd es), count is_client (map snd es), p_shake (w_p s), forallb (fun x => plainb (pi_id (fst x))) (w_who s), List.length (p_conns (w_p s)))).
  pose (r := match wrun slow1 (logs run14) (wstarted tracker3 open_part [peer14]) with Some p => Some (sum p) | None => None end).
  assert (H : r = Some ([LGood where14; LSentHs where14; LSentBf where14; LStartRecv (peer_id 1 ++ B " @ " ++ where14); LStartPing where14; LPinged where14; LStartRead where14; LDecoded 34 34 where14],
    [LGood where14; LSentHs where14; LSentBf where14; LStartRecv (peer_id 2 ++ B " @ " ++ where14); LStartRead where14; LDecoded 17 17 where14;
     LStartPing where14; LKilling (peer_id 2 ++ B " @ " ++ where14) EIO; LPingErr where14; LPinged where14; LEndPing (peer_id 2 ++ B " @ " ++ where14)],
    [LBootFail (B "10.0.0.3:4000") EIO], 3%nat, 1%nat, true, 2%nat)) by (vm_compute; reflexivity).
  unfold r in H. clear r. destruct (wrun slow1 (logs run14) (wstarted tracker3 open_part [peer14])) as [[s es]|]; [|discriminate].
  unfold sum in H. injection H as H1 H2 H3 H4 H5 H6 H7. exists s, es. split; [reflexivity|]. split; [exact H1|]. split; [exact H2|]. split; [exact H3|]. split; [exact H4|]. split; [exact H5|]. split; [|split; [|split; [|exact H7]]].
  - assert (Hb : forallb (fun l => match erase l with PShake _ _ r _ _ => Nat.leb (List.length (rd_bytes r)) 68 | _ => true end) (logs run14) = true) by (vm_compute; reflexivity).
    apply Forall_forall. intros l Hl. rewrite forallb_forall in Hb. specialize (Hb l Hl). clear - Hb. unfold pfair. destruct (erase l); try exact I. apply Nat.leb_le. exact Hb.
  - apply Forall_forall. intros x Hx. rewrite forallb_forall in H6. apply plainb_ok, H6, Hx.
  - constructor; [do 3 eexists; reflexivity|apply Forall_nil].
Qed.
(** ... and its bytes, with times in front. *)
Definition looks14 : looks := mklooks (fun _ => B "write: broken pipe") (fun a b => itoa (100 * a / b)).
Definition stamps14 : list bytes := repeat (B "2022/04/01 10:00:00 ") 40%nat.
Example C114_lines_case : plain_looks looks14 /\ Forall plain stamps14 /\ firstn 3%nat (text_lines (log_bytes looks14 stamps14 match wrun slow1 (logs run14) (wstarted tracker3 open_part [peer14]) with Some (_, es) => map snd es | None => [] end)) =
    [B "2022/04/01 10:00:00 new client @ 10.0.0.1:4000"; B "2022/04/01 10:00:00 good handshake from 10.0.0.1:4000"; B "2022/04/01 10:00:00 Sent 10.0.0.1:4000 handshake"].
Proof.
  split; [split; [intros e; apply plainb_ok; reflexivity|intros a b; apply plain_itoa]|]. split; [apply Forall_forall; intros x Hx; apply repeat_spec in Hx; subst; apply plainb_ok; reflexivity|]. vm_compute. reflexivity.
Qed.
(** "sent keep alive" does not mean that one was sent: the visitor has got our greeting and nothing else. *)
Theorem C114_keepalive_refuted : exists pc t w peers ls s es g, wrun pc ls (wstarted t w peers) = Some (s, es) /\ nth_error (p_conns (w_p s)) 0 = Some g /\ count is_pinged (lines_by 0 es) = 1%nat /\ keepalives 0 ls = 0%nat /\ m_out (g_m g) = MakeHandshake (sc_ih (pc_c pc)) (sc_id (pc_c pc)) ++ stream (opening (sc_own (pc_c pc)) (conn_view g)).
Proof. exact keepalive_lie. Qed.
Print Assumptions C114_keepalive_refuted.
(** A peer id with newlines in it, which a tracker can send, writes any line it likes: here, in any log, one that is never logged (C114_never). *)
Theorem C114_forged_refuted : forall k stamp a, plain stamp -> plain a -> exists pc t w peers ls s es, wrun pc ls (wstarted t w peers) = Some (s, es) /\ Forall made_peer peers /\ In (stamp ++ own_line (text k (LDone a))) (text_lines (log_bytes k (repeat stamp (List.length es)) (map snd es))) /\ count is_done (map snd es) = 0%nat.
Proof. exact forged_line. Qed.
Print Assumptions C114_forged_refuted.
