(** NewcomerProofs.v: a peer that comes to a live process and asks politely is served. *)
From Coq Require Import ZifyBool ZifyNat ZifyN.
From Verif Require Import Base BitfieldModel BitfieldSpec BitfieldProofs WireModel WireSpec WireProofs HandshakeModel HandshakeSpec HandshakeProofs LayoutModel LayoutSpec PieceMapProofs DsModel PptModel PptSpec PeerModel FsModel FsSpec FsProofs OcatProofs SwarmModel
  SessionModel SessionSpec SessionProofs RunModel RunSpec RunProofs ProcModel ProcSpec ProcProofs ProcLiveProofs ProcSockProofs UtilsModel FlagSpec PathSpec StartModel WholeSpec.
From Verif Require LoopModel ReadLoopModel.

Local Opaque decode_fuel RecvBufSize.
Lemma wire_nonnil m : wire_of m <> [].
Proof. destruct m; cbn; unfold frame; try discriminate; cbn; discriminate. Qed.
Lemma stream_nonnil ms : ms <> [] -> stream ms <> [].
Proof. destruct ms as [|m ms]; [congruence|]. intros _. unfold stream. cbn [flat_map]. pose proof (wire_nonnil m) as H. destruct (wire_of m); [congruence|]. discriminate. Qed.
Lemma firstn_overwrite (b d : bytes) : firstn (List.length d) (ReadLoopModel.overwrite b d) = d.
Proof. unfold ReadLoopModel.overwrite. rewrite firstn_app, Nat.sub_diag, firstn_all. cbn. apply app_nil_r. Qed.

Section Serve.
Variable P : Z. Variable hashes : bytes. Variable files : list ebase. Variable pc : pconst. Variable contents : list bytes. Variable w0 : world. Variable peers : list info. Variable k : nat.
Hypothesis Hup : swarm_up P hashes files (pc_c pc) contents w0.
Hypothesis Hnf : no_faults w0.
Hypothesis Hrate : pc_rate pc = -1 \/ 0 < pc_rate pc.
Let n := zlen hashes / 20.
Let T := zsum (lens_of files).
Let own := sc_own (pc_c pc).
Definition run_to (s s' : pstate) : Prop := exists ls, Forall (newcomers k) ls /\ prun pc ls s = Some s'.
Lemma newcomers_fair l : newcomers k l -> pfair l. Proof. destruct l; cbn; tauto. Qed.
Lemma run_live s s' : live n pc w0 peers s -> run_to s s' -> live n pc w0 peers s'.
Proof. intros H (ls & Hf & Hr). eapply live_more; [exact H| |exact Hr]. eapply Forall_impl; [|exact Hf]. exact newcomers_fair. Qed.
Lemma run_refl s : run_to s s. Proof. exists []. split; [constructor|reflexivity]. Qed.
Lemma run_trans s1 s2 s3 : run_to s1 s2 -> run_to s2 s3 -> run_to s1 s3.
Proof. intros (l1 & F1 & R1) (l2 & F2 & R2). exists (l1 ++ l2). split; [apply Forall_app; auto|]. rewrite prun_app, R1. exact R2. Qed.
Lemma run_one s l g sh g' : nth_error (p_conns s) k = Some g -> gstep pc k (p_sh s) g l = GWent sh g' -> run_to s (moved s k sh g').
Proof. intros Hk Hg. exists [PConn k l]. split; [constructor; [left; reflexivity|constructor]|]. cbn [prun pstep]. rewrite Hk, Hg. reflexivity. Qed.
Lemma way_newcomers l : on_the_way k l -> newcomers k l.
Proof. destruct l as [| | | | |j l]; cbn; try tauto. destruct l; tauto. Qed.
Lemma live_world s : live n pc w0 peers s -> sh_world (p_sh s) = w0.
Proof. intros H. destruct (live_view _ _ _ _ _ H) as (ls & Hr & _). destruct (reach_world _ _ _ _ _ _ _ _ Hup Hr) as [_ E]. exact (E Hnf). Qed.
Lemma run_send s g : live n pc w0 peers s -> nth_error (p_conns s) k = Some g -> a_recv (g_a g) = VWrite -> exists s', run_to s s' /\ nth_error (p_conns s') k = Some (at_ g VSend).
Proof.
  intros H Hk Ev. destruct (live_inv _ _ _ _ _ H) as (t0 & ls & _ & Hi & Hl). destruct (to_send pc t0 w0 k Hrate s g (conj (ex_intro _ ls Hi) (conj Hl (live_vinv _ _ _ _ _ H))) Hk) as (s' & (ls' & F & R) & N); [now rewrite Ev|].
  exists s'. split; [|exact N]. exists ls'. split; [|exact R]. eapply Forall_impl; [|exact F]. exact way_newcomers.
Qed.
(** recvLoop at work, the connection in order. *)
Definition busy (g : gconn) (ms : list msg) (out : bytes) (h : chans) : Prop :=
  a_recv (g_a g) = VWork /\ m_todo (g_m g) = ms /\ m_pend (g_m g) = [] /\ m_up (g_m g) = true /\ zlen (vis (m_buf (g_m g))) = P /\ spare (m_buf (g_m g)) = [] /\ m_out (g_m g) = out /\ g_c g = h.
Lemma serve_msgs : forall ms s g out h, live n pc w0 peers s -> nth_error (p_conns s) k = Some g -> busy g ms out h -> Forall (polite P T n) ms ->
  exists s' g', run_to s s' /\ nth_error (p_conns s') k = Some g' /\ busy g' [] (out ++ List.concat (flat_map (reply P contents own) ms)) h.
Proof.
  pose proof Hup as (Hm & HP & Hn & Hnb & (H5 & Hd & Hd0) & Ho).
  induction ms as [|m ms IH]; intros s g out h Hl Hk Hb HF.
  { exists s, g. split; [apply run_refl|]. split; [exact Hk|]. cbn [flat_map List.concat]. rewrite app_nil_r. exact Hb. }
  inversion HF as [|? ? H1 H2]. subst. destruct Hb as (B1 & B2 & B3 & B4 & B5 & B6 & B7 & B8).
  assert (Hd8 : n <= 8 * zlen (Data own)) by (unfold own, n in *; rewrite <- Hd, Hnb; unfold bytes_for; Z.div_mod_to_equations; lia).
  destruct (handle_msg_polite P hashes files (sc_ti (pc_c pc)) own (m_who (g_m g)) contents m (sh_ppt (p_sh s)) (m_bf (g_m g)) (m_buf (g_m g)) w0 Hm Ho Hnf HP B5 B6 Hd8 H1) as (buf' & A1 & A2 & E).
  assert (G1 : run_to s (moved s k (mksh (sh_ppt (p_sh s)) w0 (sh_used (p_sh s)) (sh_lock (p_sh s)))
      (mkg (rx (g_m g) (m_bf (g_m g)) buf' ms (m_done (g_m g) ++ [m]) (reply P contents own m)) (recv_at (g_a g) (match reply P contents own m with [] => VWork | _ => VWrite end)) (g_c g)))).
  { eapply (run_one s GHandle g); [exact Hk|]. cbn [gstep]. rewrite B1, B2. rewrite (live_world s Hl). fold own. rewrite E. reflexivity. }
  pose proof (run_live _ _ Hl G1) as Hl1. pose proof (moved_at s k (mksh (sh_ppt (p_sh s)) w0 (sh_used (p_sh s)) (sh_lock (p_sh s))) g (mkg (rx (g_m g) (m_bf (g_m g)) buf' ms (m_done (g_m g) ++ [m]) (reply P contents own m)) (recv_at (g_a g) (match reply P contents own m with [] => VWork | _ => VWrite end)) (g_c g)) Hk) as N1.
  cbn [flat_map]. rewrite concat_app.
  assert (Hre : reply P contents own m = [] \/ exists f, reply P contents own m = [f]) by (destruct m; cbn [reply]; auto; match goal with |- context [haveb own ?i] => destruct (haveb own i) end; eauto).
  destruct Hre as [Er|[f Er]]; rewrite Er in *.
  - cbn [List.concat app]. destruct (IH _ _ out h Hl1 N1) as (s2 & g2 & G2 & N2 & B); [repeat split; assumption|exact H2|]. exists s2, g2. split; [eapply run_trans; eassumption|]. split; [exact N2|]. subst out. exact B.
  - cbn [List.concat]. rewrite app_nil_r. destruct (run_send _ _ Hl1 N1) as (s2 & G2 & N2); [reflexivity|]. pose proof (run_live _ _ Hl1 G2) as Hl2.
    assert (G3 : run_to s2 (moved s2 k (p_sh s2) (mkg (tx (rx (g_m g) (m_bf (g_m g)) buf' ms (m_done (g_m g) ++ [m]) [f]) [] true (m_out (g_m g) ++ f)) (recv_at (recv_at (recv_at (g_a g) VWrite) VSend) VWork) (g_c g)))).
    { eapply (run_one s2 (GSend None)); [exact N2|]. cbn [gstep at_ g_m g_a g_c a_recv recv_at rx m_pend m_up m_out]. rewrite B4. reflexivity. }
    pose proof (run_live _ _ Hl2 G3) as Hl3. pose proof (moved_at s2 k (p_sh s2) _ (mkg (tx (rx (g_m g) (m_bf (g_m g)) buf' ms (m_done (g_m g) ++ [m]) [f]) [] true (m_out (g_m g) ++ f)) (recv_at (recv_at (recv_at (g_a g) VWrite) VSend) VWork) (g_c g)) N2) as N3.
    destruct (IH _ _ (m_out (g_m g) ++ f) (g_c g) Hl3 N3) as (s4 & g4 & G4 & N4 & B); [repeat split; assumption|exact H2|].
    exists s4, g4. split; [eapply run_trans; [exact G1|]; eapply run_trans; [exact G2|]; eapply run_trans; eassumption|]. split; [exact N4|]. rewrite app_assoc. subst out h. exact B.
Qed.
(** recvLoop waiting, Run about to read. *)
Definition ready_for (g : gconn) (out : bytes) (got : list bytes) : Prop :=
  a_recv (g_a g) = VSelect /\ m_todo (g_m g) = [] /\ m_pend (g_m g) = [] /\ m_up (g_m g) = true /\ zlen (vis (m_buf (g_m g))) = P /\ spare (m_buf (g_m g)) = [] /\ m_out (g_m g) = out /\
  c_buf (g_c g) = None /\ c_ready (g_c g) = false /\ c_read (g_c g) = ReadLoopModel.RTop /\ c_got (g_c g) = got /\ List.length (c_mem (g_c g)) = RecvBufSize.
Lemma serve_read ms s g out got : live n pc w0 peers s -> nth_error (p_conns s) k = Some g -> ready_for g out got -> readable P T n ms ->
  exists s' g', run_to s s' /\ nth_error (p_conns s') k = Some g' /\ ready_for g' (out ++ List.concat (flat_map (reply P contents own) ms)) (got ++ [stream ms]).
Proof.
  intros Hl Hk (B1 & B2 & B3 & B4 & B5 & B6 & B7 & C1 & C2 & C3 & C4 & C5) (Hne & Hp & Hlen).
  pose proof (stream_nonnil ms Hne) as Hd. set (d := stream ms) in *.
  pose (h5 := mkch (ReadLoopModel.overwrite (c_mem (g_c g)) d) None false ReadLoopModel.RSelect (List.length d) (got ++ [d])).
  pose (g5 := mkg (rx (g_m g) (m_bf (g_m g)) (m_buf (g_m g)) ms (m_done (g_m g)) []) (recv_at (g_a g) VWork) h5).
  assert (HD : exists z, DecodeAll decode_fuel (mkslice d (skipn (List.length d) (ReadLoopModel.overwrite (c_mem (g_c g)) d))) = Ok (ms, z)).
  { assert (Hnp : Forall not_piece ms) by (eapply Forall_impl; [|exact Hp]; intros m [_ Hx]; destruct m; (exact I || exact Hx)).
    assert (Hok : Forall msg_ok ms) by (eapply Forall_impl; [|exact Hp]; intros m [Hx _]; exact Hx).
    assert (HL : zlen d < 4294967296) by (unfold zlen; assert (Z.of_nat RecvBufSize < 4294967296) by (vm_compute; reflexivity); lia).
    destruct (DecodeAll_stream ms (skipn (List.length d) (ReadLoopModel.overwrite (c_mem (g_c g)) d)) Hnp Hok HL) as (ms' & F & R). rewrite (same_polite_all _ _ _ ms Hp ms' F) in R.
    eexists. apply R. rewrite fuel_is. assert (Hle : (List.length ms <= List.length d)%nat); [|lia].
    unfold d, stream. clear. induction ms as [|m ms IH]; cbn [flat_map List.length]; [lia|]. rewrite app_length. pose proof (wire_nonnil m). destruct (wire_of m); [congruence|]. cbn [List.length]. lia. }
  destruct HD as [z HD].
  assert (G1 : run_to s (moved s k (p_sh s) g5)).
  { exists (map (PConn k) [GDeadline true; GReadRet d None; GPutBuf; GTakeBuf; GDecode]). split; [repeat (constructor; [left; reflexivity|]); constructor|].
    destruct g as [m [L Pg V Q np] [mem cb cr crd cl cg]]. cbn [g_m g_a g_c a_recv c_buf c_ready c_read c_got c_mem m_todo m_pend m_up m_out] in *. subst V cb cr crd cg.
    pose proof (lupd_at (p_conns s) k) as Hlu.
    assert (Hn1 : forall sh x, nth_error (p_conns (moved s k sh x)) k = Some x) by (intros sh x; eapply moved_at; exact Hk).
    assert (Hn2 : forall sh x sh' y, mkps sh' (p_shake (moved s k sh x)) (p_drop (moved s k sh x)) (p_dial (moved s k sh x)) (lupd (p_conns (moved s k sh x)) k y) = moved s k sh' y) by (intros; unfold moved; cbn [p_conns p_shake p_drop p_dial]; now rewrite lupd_twice).
    cbn [map prun]. cbn [pstep]. rewrite Hk. cbn [gstep g_m g_a g_c a_recv c_read read_at]. change (mkps (p_sh s) (p_shake s) (p_drop s) (p_dial s) (lupd (p_conns s) k ?x)) with (moved s k (p_sh s) x).
    rewrite Hn1. cbn [gstep g_m g_a g_c a_recv c_read c_mem c_buf c_ready c_len c_got read_at]. rewrite C5. replace (Nat.leb (List.length d) RecvBufSize) with true by (symmetry; now apply Nat.leb_le).
    destruct d as [|d0 dr] eqn:Ed; [congruence|]. rewrite <- Ed in *. rewrite Hn2.
    rewrite Hn1. cbn [gstep g_m g_a g_c a_recv c_read c_mem c_buf c_ready c_len c_got read_at p_sh moved]. rewrite Hn2.
    rewrite Hn1. cbn [gstep g_m g_a g_c a_recv c_read c_mem c_buf c_ready c_len c_got read_at p_sh moved recv_at a_loop a_ping a_req a_procs]. rewrite Hn2.
    rewrite Hn1. cbn [gstep g_m g_a g_c a_recv c_read c_mem c_buf c_ready c_len c_got read_at p_sh moved recv_at a_loop a_ping a_req a_procs]. rewrite firstn_overwrite, HD, Hn2. unfold g5, h5. rewrite <- Ed. reflexivity. }
  pose proof (run_live _ _ Hl G1) as Hl1. pose proof (moved_at s k (p_sh s) g g5 Hk) as N1.
  destruct (serve_msgs ms _ g5 out h5 Hl1 N1) as (s2 & g2 & G2 & N2 & (D1 & D2 & D3 & D4 & D5 & D6 & D7 & D8)); [repeat split; assumption|exact Hp|].
  pose proof (run_live _ _ Hl1 G2) as Hl2.
  pose (g6 := mkg (g_m g2) (recv_at (recv_at (g_a g2) (VReady None)) VSelect) (mkch (c_mem h5) None false ReadLoopModel.RTop (List.length d) (got ++ [d]))).
  assert (G3 : run_to s2 (moved s2 k (p_sh s2) g6)).
  { exists (map (PConn k) [GHandled; GPutReady; GTakeReady]). split; [repeat (constructor; [left; reflexivity|]); constructor|].
    destruct g2 as [m [L Pg V Q np] h]. cbn [g_m g_a g_c a_recv m_todo] in *. subst V h.
    assert (Hn1 : forall sh x, nth_error (p_conns (moved s2 k sh x)) k = Some x) by (intros sh x; eapply moved_at; exact N2).
    assert (Hn2 : forall sh x sh' y, mkps sh' (p_shake (moved s2 k sh x)) (p_drop (moved s2 k sh x)) (p_dial (moved s2 k sh x)) (lupd (p_conns (moved s2 k sh x)) k y) = moved s2 k sh' y) by (intros; unfold moved; cbn [p_conns p_shake p_drop p_dial]; now rewrite lupd_twice).
    cbn [map prun]. cbn [pstep]. rewrite N2. cbn [gstep g_m g_a g_c a_recv recv_at a_loop a_ping a_req a_procs]. rewrite D2. change (mkps (p_sh s2) (p_shake s2) (p_drop s2) (p_dial s2) (lupd (p_conns s2) k ?x)) with (moved s2 k (p_sh s2) x).
    rewrite Hn1. cbn [gstep g_m g_a g_c a_recv recv_at a_loop a_ping a_req a_procs c_read c_mem c_buf c_ready c_len c_got read_at p_sh moved h5]. rewrite Hn2.
    rewrite Hn1. cbn [gstep g_m g_a g_c a_recv recv_at a_loop a_ping a_req a_procs c_read c_mem c_buf c_ready c_len c_got read_at p_sh moved h5]. rewrite Hn2. reflexivity. }
  exists (moved s2 k (p_sh s2) g6), g6. split; [eapply run_trans; [exact G1|]; eapply run_trans; eassumption|]. split; [eapply moved_at; exact N2|].
  repeat (split; [first [assumption|reflexivity]|]). cbn [g6 g_c c_mem h5]. unfold ReadLoopModel.overwrite. rewrite app_length, skipn_length, C5. lia.
Qed.
Lemma serve_reads : forall groups s g out got, live n pc w0 peers s -> nth_error (p_conns s) k = Some g -> ready_for g out got -> Forall (readable P T n) groups ->
  exists s' g', run_to s s' /\ nth_error (p_conns s') k = Some g' /\ ready_for g' (out ++ List.concat (flat_map (reply P contents own) (List.concat groups))) (got ++ map stream groups).
Proof.
  induction groups as [|ms groups IH]; intros s g out got Hl Hk Hr HF; [exists s, g; split; [apply run_refl|]; split; [exact Hk|]; cbn; rewrite !app_nil_r; exact Hr|].
  inversion HF as [|? ? H1 H2]. subst. destruct (serve_read ms s g out got Hl Hk Hr H1) as (s1 & g1 & G1 & N1 & R1).
  destruct (IH _ _ _ _ (run_live _ _ Hl G1) N1 R1 H2) as (s2 & g2 & G2 & N2 & R2). exists s2, g2. split; [eapply run_trans; eassumption|]. split; [exact N2|].
  cbn [List.concat map]. rewrite flat_map_app, concat_app, app_assoc. change (stream ms :: map stream groups) with ([stream ms] ++ map stream groups). rewrite (app_assoc got). exact R2.
Qed.
End Serve.

Lemma newcomer_served P hashes files pc contents w0 peers s p port rsv id groups : swarm_up P hashes files (pc_c pc) contents w0 -> no_faults w0 -> pc_rate pc = -1 \/ 0 < pc_rate pc ->
  live (zlen hashes / 20) pc w0 peers s -> (sockets s < pc_socks pc)%nat -> List.length (sc_ih (pc_c pc)) = 20%nat -> List.length rsv = 8%nat -> List.length id = 20%nat ->
  Forall (readable P (zsum (lens_of files)) (zlen hashes / 20)) groups ->
  let k := List.length (p_conns s) in
  exists rest s' g, Forall (newcomers k) rest /\
    prun pc (PAccept :: PShake p port (mkread (handshake_of rsv (sc_ih (pc_c pc)) id) false) (HandshakeModel.mkw true true) None :: rest) s = Some s' /\
    nth_error (p_conns s') k = Some g /\ c_got (g_c g) = map stream groups /\
    m_out (g_m g) = MakeHandshake (sc_ih (pc_c pc)) (sc_id (pc_c pc)) ++ stream [MBitfield (sc_own (pc_c pc)); MUnchoke] ++ List.concat (flat_map (reply P contents (sc_own (pc_c pc))) (List.concat groups)).
Proof.
  intros Hup Hnf Hrate Hl Hs Hih Hrs Hid HF k.
  assert (Hlen : List.length (handshake_of rsv (sc_ih (pc_c pc)) id) = 68%nat) by (unfold handshake_of; cbn [List.length]; rewrite !app_length, Hih, Hrs, Hid; reflexivity).
  set (rd := mkread (handshake_of rsv (sc_ih (pc_c pc)) id) false).
  assert (E : in_peer (FromIncoming (sc_ih (pc_c pc)) (sc_id (pc_c pc)) (sc_own (pc_c pc)) rd (HandshakeModel.mkw true true)) = Ok id).
  { apply FromIncoming_iff; [cbn [rd rd_bytes]; lia|]. cbn [rd rd_err rd_bytes w_handshake w_bitfield]. repeat split. exists rsv. repeat (split; [assumption|]). unfold pad68. rewrite Hlen. cbn [Nat.sub repeat]. apply app_nil_r. }
  pose proof (FromIncoming_sent (sc_ih (pc_c pc)) (sc_id (pc_c pc)) (sc_own (pc_c pc)) rd (HandshakeModel.mkw true true) id ltac:(cbn [rd rd_bytes]; lia) E) as ES.
  pose proof Hup as (Hm & HP & _ & _ & Hok & _). assert (Hnp : 0 <= ti_npieces (sc_ti (pc_c pc))) by (rewrite (np_n _ _ _ _ Hm); apply (n_pos _ _ _ _ Hm)).
  destruct (NewBitfield_inv _ Hnp) as (b & Eb & _).
  pose (g1 := mkg (mkmem true (PptModel.mkh k (Key (MakePeer id p port))) b (mkslice (FsModel.zeros (ti_plen (sc_ti (pc_c pc)))) []) [] [] [] true
                ((MakeHandshake (sc_ih (pc_c pc)) (sc_id (pc_c pc)) ++ EncodeMsg (MBitfield (sc_own (pc_c pc)))) ++ EncodeMsg MUnchoke))
             (mkpc LoopModel.LSelect LoopModel.PNew VSelect QNew 1) (mkch (FsModel.zeros (Z.of_nat RecvBufSize)) None false ReadLoopModel.RTop 0 [])).
  pose (s1 := mkps (p_sh s) (p_shake s) (p_drop s) (p_dial s) (p_conns s ++ [g1])).
  assert (N1 : nth_error (p_conns s1) k = Some g1) by (cbn [s1 p_conns]; unfold k; rewrite nth_error_app2, Nat.sub_diag by lia; reflexivity).
  assert (R1 : prun pc [PAccept; PShake p port rd (HandshakeModel.mkw true true) None; PConn k GRecvStart] s = Some s1).
  { cbn [prun pstep]. pose proof (proj2 (Nat.ltb_lt _ _) Hs) as Hlt. rewrite Hlt. cbn [p_shake p_drop p_dial p_conns p_sh]. rewrite E, ES. unfold fresh_conn. rewrite Eb. cbn [bind new_handler p_sh p_drop p_dial p_conns p_shake].
    fold k. assert (Hat : forall x, nth_error (p_conns s ++ [x]) k = Some x) by (intros x; unfold k; rewrite nth_error_app2, Nat.sub_diag by lia; reflexivity).
    rewrite Hat. cbn [gstep g_m g_a g_c a_recv a_loop a_ping a_req a_procs LoopModel.add_panics]. assert (Hu2 : forall x y, lupd (p_conns s ++ [x]) k y = p_conns s ++ [y]) by (intros; apply lupd_last). rewrite Hu2. reflexivity. }
  assert (Hl1 : live (zlen hashes / 20) pc w0 peers s1).
  { eapply live_more; [exact Hl| |exact R1]. constructor; [exact I|]. constructor; [cbn [pfair rd rd_bytes]; lia|]. constructor; [exact I|constructor]. }
  assert (Hpl : ti_plen (sc_ti (pc_c pc)) = P) by (destruct (made_facts _ _ _ _ Hm) as (_ & _ & _ & H & _); exact H).
  destruct (serve_reads P hashes files pc contents w0 peers k Hup Hnf Hrate groups s1 g1 (m_out (g_m g1)) [] Hl1 N1) as (s2 & g2 & (ls & F & R) & N2 & (_ & _ & _ & _ & _ & _ & O & _ & _ & _ & C & _)); [|exact HF|].
  { repeat (split; [reflexivity|]). split; [cbn [g1 g_m m_buf vis]; rewrite Hpl; destruct Hm as ((HP0 & _) & _); unfold FsModel.zeros, zlen; rewrite repeat_length; lia|]. repeat (split; [reflexivity|]).
    cbn [g1 g_c c_mem]. unfold FsModel.zeros. rewrite repeat_length. lia. }
  exists (PConn k GRecvStart :: ls), s2, g2. split; [constructor; [left; reflexivity|exact F]|].
  split. { change (PAccept :: PShake p port rd (HandshakeModel.mkw true true) None :: PConn k GRecvStart :: ls) with ([PAccept; PShake p port rd (HandshakeModel.mkw true true) None; PConn k GRecvStart] ++ ls). rewrite prun_app, R1. exact R. }
  split; [exact N2|]. split; [exact C|]. rewrite O. cbn [g1 g_m m_out]. unfold stream. cbn [flat_map]. rewrite app_nil_r, <- !app_assoc. rewrite (Encode_wire (MBitfield _)) by (exact I || exact Hok). rewrite (Encode_wire MUnchoke) by exact I. reflexivity.
Qed.
