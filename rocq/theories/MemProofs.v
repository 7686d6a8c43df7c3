(** MemProofs.v: proofs about MemModel. *)
From Coq Require Import ZifyBool ZifyNat ZifyN.
From Verif Require Import Base BitfieldModel BitfieldSpec BitfieldProofs WireModel WireSpec WireProofs HandshakeModel HandshakeSpec HandshakeProofs LayoutModel LayoutSpec LayoutProofs DsModel PptModel PptProofs PeerModel FsModel FsSpec FsProofs SwarmModel SwarmProofs SessionModel SessionSpec RunModel RunSpec RunProofs ProcModel ProcSpec ProcProofs ProcLiveProofs ProcSockProofs MemModel MemSpec.
From Verif Require LoopModel ReadLoopModel ReadLoopProofs NewcomerProofs.

Lemma fit_inv M pc s s' : fit M pc s = HWent s' -> s' = s /\ held pc s <= M.
Proof. unfold fit. destruct (held pc s <=? M) eqn:E; [|discriminate]. intros H. inversion H; subst. split; [reflexivity|lia]. Qed.
Lemma hstep_inv M pc l s s' : hstep M pc l s = HWent s' -> held pc s' <= M /\
  match l with HStep l => pstep pc l (h_p s) = PWent (h_p s') /\ h_made s' = h_made s | HMake k => h_p s' = h_p s /\ h_made s' = h_made s + 1 end.
Proof.
  destruct l as [l|k]; cbn [hstep]; intros H.
  - destruct (pstep pc l (h_p s)) as [| |p] eqn:E; try discriminate. apply fit_inv in H. destruct H as [-> H]. auto.
  - destruct (nth_error _ k) as [g|]; [|discriminate]. destruct (a_req (g_a g)); try discriminate. destruct (0 <? _); [|discriminate]. apply fit_inv in H. destruct H as [-> H]. auto.
Qed.
Lemma rounds_cons l r : rounds (l :: r) = match l with HMake _ => 1 | _ => 0 end + rounds r.
Proof. unfold rounds, zlen. destruct l; cbn [filter List.length]; lia. Qed.
Lemma hrun_inv M pc : forall ls s s', hrun M pc ls s = Some s' -> prun pc (steps ls) (h_p s) = Some (h_p s') /\ h_made s' = h_made s + rounds ls /\ (held pc s <= M -> held pc s' <= M).
Proof.
  induction ls as [|l r IH]; intros s s' H; cbn [hrun] in H.
  - injection H as <-. split; [reflexivity|]. split; [unfold rounds; cbn; lia|auto].
  - destruct (hstep M pc l s) as [| |s1] eqn:E; try discriminate. apply hstep_inv in E. destruct E as [E1 E2]. destruct (IH _ _ H) as (I1 & I2 & I3). rewrite rounds_cons. unfold steps in *. cbn [flat_map].
    destruct l as [l|k]; destruct E2 as [E2 E3]; (split; [|split; [lia|intros _; auto]]).
    + cbn [app prun]. now rewrite E2.
    + cbn [app]. now rewrite <- E2.
Qed.
Lemma hrun_fits M pc ls t w peers s : 0 <= M -> hrun M pc ls (hstarted t w peers) = Some s -> zlen (p_conns (h_p s)) * ti_plen (sc_ti (pc_c pc)) + rounds ls * RequestSize <= M.
Proof.
  intros HM H. apply hrun_inv in H. destruct H as (_ & H2 & H3). cbn [hstarted h_made] in H2. assert (X : held pc s <= M) by (apply H3; unfold held; cbn; lia). unfold held in X. rewrite H2 in X. replace (0 + rounds ls) with (rounds ls) in X by lia. exact X.
Qed.
Lemma hrun_app M pc : forall a b s, hrun M pc (a ++ b) s = match hrun M pc a s with Some s' => hrun M pc b s' | None => None end.
Proof. induction a as [|l a IH]; intros b s; cbn [hrun app]; [reflexivity|]. destruct (hstep M pc l s); try reflexivity. apply IH. Qed.
(** A createReqMessages under way on a piece that is not empty can always go on, *)
Lemma req_pos ti x : nonempty ti -> 0 < req_length ti x.
Proof. intros [H1 H2]. unfold req_length. pose proof (Z.mod_pos_bound (ti_lastlen ti) 4294967296). pose proof (Z.mod_pos_bound (ti_plen ti) 4294967296). unfold u32 in *. destruct (x =? _); lia. Qed.
Lemma make_goes M pc k s : nonempty (sc_ti (pc_c pc)) -> making (h_p s) k -> hstep M pc (HMake k) s = fit M pc (mkh (h_p s) (h_made s + 1)).
Proof. intros HN (g & x & i & E1 & E2). cbn [hstep]. rewrite E1, E2. pose proof (req_pos (sc_ti (pc_c pc)) x HN). replace (0 <? _) with true by lia. reflexivity. Qed.
(** and does so until the memory is used up. *)
Lemma make_dies M pc k : nonempty (sc_ti (pc_c pc)) -> forall n s, making (h_p s) k -> held pc s <= M -> M - held pc s < (Z.of_nat n + 1) * RequestSize ->
  exists j s', (j <= n)%nat /\ hrun M pc (repeat (HMake k) j) s = Some s' /\ hstep M pc (HMake k) s' = HDied.
Proof.
  intros HN. induction n as [|n IH]; intros s Hm Hh Hn; pose proof (make_goes M pc k s HN Hm) as E.
  - exists 0%nat, s. split; [lia|]. split; [reflexivity|]. rewrite E. unfold fit, held in *. cbn [h_p h_made]. unfold RequestSize in *. replace (_ <=? M) with false by lia. reflexivity.
  - destruct (held pc (mkh (h_p s) (h_made s + 1)) <=? M) eqn:El.
    + destruct (IH (mkh (h_p s) (h_made s + 1))) as (j & s' & J1 & J2 & J3); [exact Hm|lia|unfold held, RequestSize in *; cbn [h_p h_made] in *; lia|]. exists (S j), s'. split; [lia|]. split; [|exact J3].
      cbn [repeat hrun]. rewrite E. unfold fit. rewrite El. exact J2.
    + exists 0%nat, s. split; [lia|]. split; [reflexivity|]. rewrite E. unfold fit. now rewrite El.
Qed.
(** It stays under way. *)
Lemma making_stays pc k : nonempty (sc_ti (pc_c pc)) -> forall ls s s', making s k -> prun pc ls s = Some s' -> making s' k.
Proof. intros HN ls s s' (g & x & i & E1 & E2) H. destruct (stuck_run pc k x i HN ls s s' g E1 E2 H) as (g' & G1 & G2). exists g', x, i. auto. Qed.
Lemma hmaking_stays M pc k : nonempty (sc_ti (pc_c pc)) -> forall ls s s', making (h_p s) k -> hrun M pc ls s = Some s' -> making (h_p s') k.
Proof. intros HN ls s s' Hm H. apply hrun_inv in H. destruct H as (H & _). eapply making_stays; eassumption. Qed.

(** ** A peer with a piece we lack *)
Local Opaque decode_fuel RecvBufSize.
Lemma seeds_fair c p port rsv id b k : List.length (sc_ih c) = 20%nat -> List.length rsv = 8%nat -> List.length id = 20%nat -> Forall pfair (seeds c p port rsv id b k).
Proof. intros Hih Hrs Hid. unfold seeds. cbn [app map]. constructor; [exact I|]. constructor; [cbn [pfair rd_bytes]; unfold handshake_of; cbn [List.length]; rewrite !app_length, Hih, Hrs, Hid; cbn; lia|]. repeat (constructor; [exact I|]). constructor. Qed.
Lemma seeds_app c p port rsv id b k : seeds c p port rsv id b k = ([PAccept; PShake p port (mkread (handshake_of rsv (sc_ih c) id) false) (HandshakeModel.mkw true true) None] ++
  map (PConn k) [GRecvStart; GDeadline true; GReadRet (wire_of (MBitfield b)) None; GPutBuf; GTakeBuf; GDecode]) ++ map (PConn k) [GHandle; GReqStart; GReqNext].
Proof. reflexivity. Qed.
Lemma bf_decoded b sp : msg_ok (MBitfield b) -> (List.length (wire_of (MBitfield b)) <= RecvBufSize)%nat -> exists b' z, DecodeAll decode_fuel (mkslice (wire_of (MBitfield b)) sp) = Ok ([MBitfield b'], z) /\ Data b' = Data b /\ Nbytes b' = Nbytes b.
Proof.
  intros Hok Hlen. pose proof Hok as (_ & Hb & _). assert (Es : stream [MBitfield b] = wire_of (MBitfield b)) by (unfold stream; cbn [flat_map]; apply app_nil_r).
  destruct (DecodeAll_stream [MBitfield b] sp) as (ms' & F & R).
  - constructor; [exact I|constructor].
  - constructor; [exact Hok|constructor].
  - rewrite Es. unfold zlen. assert (Z.of_nat RecvBufSize < 4294967296) by (vm_compute; reflexivity). lia.
  - inversion F as [|? m' ? r Hs Hr]. subst. inversion Hr. subst. cbn [same_msg] in Hs. destruct Hs as (b' & -> & (A1 & A2 & _) & Hd). rewrite Es in R. exists b', (zlen (wire_of (MBitfield b))). split; [apply R; vm_compute; lia|]. split; [exact Hd|]. rewrite A2, Hd, Hb. reflexivity.
Qed.
Lemma nonnil_match {A} (d : bytes) (x y : A) : d <> [] -> match d with [] => y | _ :: _ => x end = x.
Proof. destruct d; congruence. Qed.
(** Up to the decoded message. *)
Lemma seed_read P hashes files pc contents w0 p port rsv id b s : swarm_up P hashes files (pc_c pc) contents w0 -> List.length (sc_ih (pc_c pc)) = 20%nat -> List.length rsv = 8%nat -> List.length id = 20%nat -> (sockets s < pc_socks pc)%nat ->
  msg_ok (MBitfield b) -> (List.length (wire_of (MBitfield b)) <= RecvBufSize)%nat ->
  exists b' m h, Data b' = Data b /\ Nbytes b' = Nbytes b /\ h_key (m_who m) = Key (MakePeer id p port) /\ m_todo m = [MBitfield b'] /\ m_done m = [] /\
    prun pc ([PAccept; PShake p port (mkread (handshake_of rsv (sc_ih (pc_c pc)) id) false) (HandshakeModel.mkw true true) None] ++
      map (PConn (List.length (p_conns s))) [GRecvStart; GDeadline true; GReadRet (wire_of (MBitfield b)) None; GPutBuf; GTakeBuf; GDecode]) s =
    Some (mkps (p_sh s) (p_shake s) (p_drop s) (p_dial s) (p_conns s ++ [mkg m (mkpc LoopModel.LSelect LoopModel.PNew VWork QNew 1) h])).
Proof.
  intros Hup Hih Hrs Hid Hs Hok Hw. set (k := List.length (p_conns s)).
  set (d := wire_of (MBitfield b)) in *. set (z0 := FsModel.zeros (Z.of_nat RecvBufSize)).
  destruct (bf_decoded b (skipn (List.length d) (ReadLoopModel.overwrite z0 d)) Hok Hw) as (b' & z & HD & Hd1 & Hd2). fold d in HD.
  assert (Hlen : List.length (handshake_of rsv (sc_ih (pc_c pc)) id) = 68%nat) by (unfold handshake_of; cbn [List.length]; rewrite !app_length, Hih, Hrs, Hid; reflexivity).
  assert (E : in_peer (FromIncoming (sc_ih (pc_c pc)) (sc_id (pc_c pc)) (sc_own (pc_c pc)) (mkread (handshake_of rsv (sc_ih (pc_c pc)) id) false) (HandshakeModel.mkw true true)) = Ok id).
  { apply FromIncoming_iff; [cbn [rd_bytes]; lia|]. cbn [rd_err rd_bytes w_handshake w_bitfield]. repeat split. exists rsv. repeat (split; [assumption|]). unfold pad68. rewrite Hlen. cbn [Nat.sub repeat]. apply app_nil_r. }
  assert (Hne : d <> []) by (apply NewcomerProofs.wire_nonnil).
  assert (Hz : List.length z0 = RecvBufSize) by (unfold z0, FsModel.zeros; rewrite repeat_length; lia).
  destruct Hup as (H1 & _). assert (Hnp : 0 <= ti_npieces (sc_ti (pc_c pc))) by (rewrite (np_n _ _ _ _ H1); apply (n_pos _ _ _ _ H1)).
  destruct (NewBitfield_inv _ Hnp) as (b0 & Eb0 & _).
  exists b'.
  exists (rx (mkmem true (PptModel.mkh k (Key (MakePeer id p port))) b0 (mkslice (FsModel.zeros (ti_plen (sc_ti (pc_c pc)))) []) [] [] [] true
    (in_sent (FromIncoming (sc_ih (pc_c pc)) (sc_id (pc_c pc)) (sc_own (pc_c pc)) (mkread (handshake_of rsv (sc_ih (pc_c pc)) id) false) (HandshakeModel.mkw true true)) ++ EncodeMsg MUnchoke)) b0
    (mkslice (FsModel.zeros (ti_plen (sc_ti (pc_c pc)))) []) [MBitfield b'] [] []).
  exists (mkch (ReadLoopModel.overwrite z0 d) None false ReadLoopModel.RSelect (List.length d) [d]).
  split; [exact Hd1|]. split; [exact Hd2|]. split; [reflexivity|]. split; [reflexivity|]. split; [reflexivity|].
  cbn [app map prun]. cbn [pstep]. pose proof (proj2 (Nat.ltb_lt _ _) Hs) as Hlt. rewrite Hlt. cbn [p_shake p_drop p_dial p_conns p_sh]. rewrite E. unfold fresh_conn.
  rewrite Eb0. cbn [bind new_handler p_sh p_drop p_dial p_conns p_shake]. fold z0.
  assert (Hat : forall x, nth_error (p_conns s ++ [x]) k = Some x) by (intros x; unfold k; rewrite nth_error_app2, Nat.sub_diag by lia; reflexivity).
  assert (Hup2 : forall x y, lupd (p_conns s ++ [x]) k y = p_conns s ++ [y]) by (intros; apply lupd_last).
  do 2 vstep Hat Hup2. cbn [prun pstep p_conns p_sh p_shake p_drop p_dial]; rewrite Hat; cbn [gstep g_m g_a g_c c_read read_at c_mem c_buf c_ready c_len c_got]. rewrite Hz. replace (Nat.leb (List.length d) RecvBufSize) with true by (symmetry; now apply Nat.leb_le).
  rewrite (nonnil_match d _ _ Hne), Hup2. do 2 vstep Hat Hup2.
  cbn [prun pstep p_conns p_sh p_shake p_drop p_dial]; rewrite Hat; cbn [gstep g_m g_a g_c a_recv c_read read_at c_mem c_buf c_ready c_len c_got recv_at a_loop a_ping a_req a_procs]. rewrite ReadLoopProofs.firstn_overwrite, HD, Hup2. reflexivity.
Qed.
Lemma told_app_fresh n l x key i : k_done x = [] -> (told n (l ++ [x]) key i <-> told n l key i).
Proof.
  intros E. split; intros (y & m & Hi & Hk & Hm & Ht).
  - apply in_app_iff in Hi. destruct Hi as [Hi|[<-|[]]]; [exists y, m; auto|]. rewrite E in Hm. destruct Hm.
  - exists y, m. split; [apply in_app_iff; auto|auto].
Qed.
Lemma tells_data n b b' i : Data b' = Data b -> Nbytes b' = Nbytes b -> tells n (MBitfield b') i -> tells n (MBitfield b) i.
Proof. intros Hd Hn (bf & Eq & H1 & H2 & H3). injection Eq as <-. exists b. rewrite <- Hn, <- Hd. auto. Qed.
(** Handling it: however that ends, the process alive, the peer has told us. *)
Lemma seed_handle P hashes files pc contents w0 peers key b s m h cs : swarm_up P hashes files (pc_c pc) contents w0 -> live (zlen hashes / 20) pc w0 peers s -> p_conns s = cs ++ [mkg m (mkpc LoopModel.LSelect LoopModel.PNew VWork QNew 1) h] ->
  h_key (m_who m) = key -> m_todo m = [MBitfield b] -> m_done m = [] -> ~ crowded (zlen hashes / 20) (map conn_view cs) key (MBitfield b) ->
  exists s' m' v, pstep pc (PConn (List.length cs) GHandle) s = PWent s' /\ p_conns s' = cs ++ [mkg m' (mkpc LoopModel.LSelect LoopModel.PNew v QNew 1) h] /\ h_key (m_who m') = key /\ m_done m' = [MBitfield b].
Proof.
  intros Hu Hl Hc Hk Ht Hd Hn. pose proof (live_dies _ _ _ _ _ _ _ _ (PConn (List.length cs) GHandle) Hu Hl I) as Hdie.
  assert (Hat : nth_error (p_conns s) (List.length cs) = Some (mkg m (mkpc LoopModel.LSelect LoopModel.PNew VWork QNew 1) h)) by (rewrite Hc, nth_error_app2, Nat.sub_diag by lia; reflexivity).
  cbn [pstep] in *. rewrite Hat in *. cbn [gstep g_m g_a g_c a_recv] in *. rewrite Ht in *.
  assert (Hno : ~ pdeadly P (zlen hashes / 20) pc s (PConn (List.length cs) GHandle)).
  { intros (g & x & r & E1 & _ & E2 & [(i & bb & l & Eq & _)|(i & ks & K1 & K2 & K3 & K4 & K5)]).
    - rewrite Hat in E1. injection E1 as <-. cbn [g_m] in E2. rewrite Ht in E2. injection E2 as <- <-. discriminate.
    - rewrite Hat in E1. injection E1 as <-. cbn [g_m] in E2. rewrite Ht in E2. injection E2 as <- <-. apply Hn. rewrite Hc, map_app in K2, K5. cbn [map] in K2, K5.
      assert (Ed : k_done (conn_view (mkg m (mkpc LoopModel.LSelect LoopModel.PNew VWork QNew 1) h)) = []) by exact Hd.
      exists i, ks. split; [exact K1|]. cbn [g_m] in K2. rewrite Hk in K2. rewrite told_app_fresh in K2 by exact Ed. split; [exact K2|]. split; [exact K3|]. split; [exact K4|]. intros k. rewrite K5. apply told_app_fresh. exact Ed. }
  destruct (handle_msg _ (MBitfield b) _) as [[r out] hs]. destruct r as [u|e| |].
  3: exfalso; apply Hno, Hdie; reflexivity.
  all: eexists _, _, _; split; [reflexivity|]; cbn [p_conns]; rewrite Hc, lupd_last; (split; [reflexivity|]); cbn [m_who rx m_done]; rewrite Hd; auto.
Qed.
Lemma seeder P hashes files pc contents w0 peers p port rsv id b i s : swarm_up P hashes files (pc_c pc) contents w0 -> live (zlen hashes / 20) pc w0 peers s ->
  List.length (sc_ih (pc_c pc)) = 20%nat -> List.length rsv = 8%nat -> List.length id = 20%nat -> (sockets s < pc_socks pc)%nat ->
  msg_ok (MBitfield b) -> (List.length (wire_of (MBitfield b)) <= RecvBufSize)%nat -> tells (zlen hashes / 20) (MBitfield b) i -> Get (sc_own (pc_c pc)) i = Ok false -> Complete (sc_own (pc_c pc)) = false ->
  ~ crowded (zlen hashes / 20) (map conn_view (p_conns s)) (Key (MakePeer id p port)) (MBitfield b) ->
  exists s', prun pc (seeds (pc_c pc) p port rsv id b (List.length (p_conns s))) s = Some s' /\ live (zlen hashes / 20) pc w0 peers s' /\ List.length (p_conns s') = S (List.length (p_conns s)) /\ making s' (List.length (p_conns s)).
Proof.
  intros Hu Hl Hih Hrs Hid Hs Hok Hw Htl Hlack Hcom Hn.
  destruct (seed_read _ _ _ _ _ _ p port rsv id b s Hu Hih Hrs Hid Hs Hok Hw) as (b' & m & h & D1 & D2 & M1 & M2 & M3 & R).
  pose proof (seeds_fair (pc_c pc) p port rsv id b (List.length (p_conns s)) Hih Hrs Hid) as HF.
  rewrite seeds_app in *. apply Forall_app in HF. destruct HF as [F1 F2]. rewrite prun_app, R.
  set (s1 := mkps _ _ _ _ _) in *. assert (L1 : live (zlen hashes / 20) pc w0 peers s1) by (eapply live_more; [exact Hl|exact F1|exact R]).
  assert (Hn' : ~ crowded (zlen hashes / 20) (map conn_view (p_conns s)) (Key (MakePeer id p port)) (MBitfield b')).
  { intros (j & ks & K1 & K). apply Hn. exists j, ks. split; [eapply tells_data; eassumption|exact K]. }
  destruct (seed_handle _ _ _ _ _ _ _ (Key (MakePeer id p port)) b' s1 m h (p_conns s) Hu L1 eq_refl M1 M2 M3 Hn') as (s2 & m2 & v & H1 & H2 & H3 & H4).
  cbn [map prun]. rewrite H1. assert (L2 : live (zlen hashes / 20) pc w0 peers s2).
  { eapply (live_more _ _ _ _ _ [PConn (List.length (p_conns s)) GHandle]); [exact L1|constructor; [exact I|apply Forall_nil]|]. cbn [prun]. rewrite H1. reflexivity. }
  assert (Hat : forall x, nth_error (p_conns s ++ [x]) (List.length (p_conns s)) = Some x) by (intros x; rewrite nth_error_app2, Nat.sub_diag by lia; reflexivity).
  assert (Hat2 := Hat (mkg m2 (mkpc LoopModel.LSelect LoopModel.PNew v QNew 1) h)). rewrite <- H2 in Hat2.
  destruct (live_view _ _ _ _ _ L2) as (ls & Hr & _).
  assert (Hv : nth_error (ss_conns (run_view s2)) (List.length (p_conns s)) = Some (conn_view (mkg m2 (mkpc LoopModel.LSelect LoopModel.PNew v QNew 1) h))) by (cbn [run_view ss_conns]; now apply map_nth_error).
  pose proof (reach_next _ _ _ _ _ _ _ _ _ _ Hu Hr Hv) as HX. cbv zeta in HX. cbn [run_view ss_ppt ss_conns conn_view k_who g_m] in HX.
  assert (Ht2 : tells (zlen hashes / 20) (MBitfield b') i) by (eapply (tells_data _ b' b); [now symmetry|now symmetry|exact Htl]).
  assert (Hcand : 0 <= i < zlen hashes / 20 /\ Get (sc_own (pc_c pc)) i = Ok false /\ told (zlen hashes / 20) (map conn_view (p_conns s2)) (h_key (m_who m2)) i).
  { split; [destruct Htl as (? & _ & _ & ? & _); assumption|]. split; [exact Hlack|]. exists (conn_view (mkg m2 (mkpc LoopModel.LSelect LoopModel.PNew v QNew 1) h)), (MBitfield b').
    split; [apply in_map; rewrite H2; apply in_app_iff; right; left; reflexivity|]. split; [reflexivity|]. split; [cbn [conn_view k_done g_m]; rewrite H4; left; reflexivity|exact Ht2]. }
  destruct HX as [(x & t' & E & _)|[_ E]]; [|destruct (E i Hcand)].
  cbn [pstep]. rewrite Hat2. cbn [gstep g_m g_a g_c a_loop a_ping a_recv a_req a_procs]. cbn [LoopModel.add_panics].
  rewrite H2, lupd_last. cbn [p_conns]. rewrite Hat. cbn [gstep g_m g_a g_c a_loop a_ping a_recv a_req a_procs req_at]. rewrite Hcom. cbn [Nat.ltb Nat.leb p_sh]. rewrite E. cbn [p_conns]. rewrite lupd_last.
  eexists. split; [reflexivity|].
  assert (G : prun pc (map (PConn (List.length (p_conns s))) [GHandle; GReqStart; GReqNext]) s1 = Some (mkps (mksh t' (sh_world (p_sh s2)) (sh_used (p_sh s2)) (sh_lock (p_sh s2))) (p_shake s2) (p_drop s2) (p_dial s2) (p_conns s ++ [mkg m2 (mkpc LoopModel.LSelect LoopModel.PNew v (QMake x 0) 2) h]))).
  { cbn [map prun]. rewrite H1. cbn [pstep]. rewrite Hat2. cbn [gstep g_m g_a g_c a_loop a_ping a_recv a_req a_procs]. cbn [LoopModel.add_panics].
    rewrite H2, lupd_last. cbn [p_conns]. rewrite Hat. cbn [gstep g_m g_a g_c a_loop a_ping a_recv a_req a_procs req_at]. rewrite Hcom. cbn [Nat.ltb Nat.leb p_sh]. rewrite E. cbn [p_conns]. rewrite lupd_last. reflexivity. }
  split; [eapply live_more; [exact L1|exact F2|exact G]|]. cbn [p_conns]. rewrite app_length. split; [cbn; lia|]. eexists _, _, _. split; [apply Hat|reflexivity].
Qed.

(** ** How it dies *)
Lemma hdies_here M pc l b s : hstep M pc l s = HDied -> hdies M pc (l :: b) s.
Proof. intros H. exists [], l, b, s. split; [reflexivity|]. split; [reflexivity|exact H]. Qed.
Lemma hdies_app M pc a b s s' : hrun M pc a s = Some s' -> hdies M pc b s' -> hdies M pc (a ++ b) s.
Proof. intros H (x & l & y & s1 & -> & H1 & H2). exists (a ++ x), l, y, s1. split; [now rewrite <- app_assoc|]. split; [|exact H2]. rewrite hrun_app, H. exact H1. Qed.
Lemma hdies_more M pc a b s : hdies M pc a s -> hdies M pc (a ++ b) s.
Proof. intros (x & l & y & s1 & -> & H1 & H2). exists x, l, (y ++ b), s1. rewrite <- app_assoc. auto. Qed.
Lemma hrun_or_dies M pc : forall ls s a s', prun pc ls s = Some s' -> hdies M pc (map HStep ls) (mkh s a) \/ hrun M pc (map HStep ls) (mkh s a) = Some (mkh s' a).
Proof.
  induction ls as [|l r IH]; intros s a s' H; cbn [prun] in H; [injection H as <-; right; reflexivity|].
  destruct (pstep pc l s) as [| |s1] eqn:E; try discriminate. assert (E1 : hstep M pc (HStep l) (mkh s a) = fit M pc (mkh s1 a)) by (cbn [hstep h_p h_made]; now rewrite E).
  unfold fit in E1. destruct (held pc (mkh s1 a) <=? M) eqn:Ef; [|left; cbn [map]; now apply hdies_here].
  destruct (IH s1 a s' H) as [D|D].
  - left. cbn [map]. change (HStep l :: map HStep r) with ([HStep l] ++ map HStep r). eapply hdies_app; [|exact D]. cbn [hrun]. now rewrite E1.
  - right. cbn [map hrun]. now rewrite E1.
Qed.
Lemma hstep_dies M pc l s : hstep M pc l s = HDied <->
  match l with
  | HStep l => pstep pc l (h_p s) = PDied \/ exists s', pstep pc l (h_p s) = PWent s' /\ M < held pc (mkh s' (h_made s))
  | HMake k => exists g x i, nth_error (p_conns (h_p s)) k = Some g /\ a_req (g_a g) = QMake x i /\ 0 < req_length (sc_ti (pc_c pc)) x /\ M < held pc s + RequestSize
  end.
Proof.
  assert (HR : forall n, held pc (mkh (h_p s) (h_made s + n)) = held pc s + n * RequestSize) by (intros n; unfold held; cbn [h_p h_made]; lia).
  destruct l as [l|k]; cbn [hstep].
  - destruct (pstep pc l (h_p s)) as [| |s'] eqn:E.
    + split; [discriminate|]. intros [H|(s' & H & _)]; discriminate.
    + split; auto.
    + unfold fit. destruct (held pc (mkh s' (h_made s)) <=? M) eqn:Ef; split; try discriminate.
      * intros [H|(s2 & H & Hl)]; [discriminate|]. injection H as <-. lia.
      * intros _. right. exists s'. split; [reflexivity|lia].
      * auto.
  - split.
    + destruct (nth_error _ k) as [g|] eqn:E; [|discriminate]. destruct (a_req (g_a g)) as [|i|x i| |] eqn:Eq; try discriminate. destruct (0 <? _) eqn:E0; [|discriminate]. unfold fit. rewrite HR. destruct (_ <=? M) eqn:Ef; [discriminate|]. intros _. exists g, x, i. repeat split; try assumption; lia.
    + intros (g & x & i & -> & -> & H1 & H2). replace (0 <? _) with true by lia. unfold fit. rewrite HR. replace (_ <=? M) with false by lia. reflexivity.
Qed.
Lemma making_dies M pc k s : 0 <= M -> nonempty (sc_ti (pc_c pc)) -> making (h_p s) k -> 0 <= held pc s -> hdies M pc (repeat (HMake k) (S (Z.to_nat (M / RequestSize)))) s.
Proof.
  intros HM HN Hm H0. destruct (Z.le_gt_cases (held pc s) M) as [Hh|Hh].
  - destruct (make_dies M pc k HN (Z.to_nat (M / RequestSize)) s Hm Hh) as (j & s' & J1 & J2 & J3).
    { unfold RequestSize. pose proof (Z.div_pos M 28 HM). pose proof (Z.mul_div_le M 28). pose proof (Z.mul_succ_div_gt M 28). lia. }
    replace (S (Z.to_nat (M / RequestSize))) with (j + S (Z.to_nat (M / RequestSize) - j))%nat by lia. rewrite repeat_app. eapply hdies_app; [exact J2|]. cbn [repeat]. now apply hdies_here.
  - cbn [repeat]. apply hdies_here. rewrite (make_goes M pc k s HN Hm). unfold fit. replace (_ <=? M) with false; [reflexivity|]. unfold held, RequestSize in *. cbn [h_p h_made]. lia.
Qed.
Lemma seeder_kills M P hashes files pc contents w0 peers p port rsv id b i s a : 0 <= M -> 0 <= a -> nonempty (sc_ti (pc_c pc)) -> swarm_up P hashes files (pc_c pc) contents w0 -> live (zlen hashes / 20) pc w0 peers s ->
  List.length (sc_ih (pc_c pc)) = 20%nat -> List.length rsv = 8%nat -> List.length id = 20%nat -> (sockets s < pc_socks pc)%nat ->
  msg_ok (MBitfield b) -> (List.length (wire_of (MBitfield b)) <= RecvBufSize)%nat -> tells (zlen hashes / 20) (MBitfield b) i -> Get (sc_own (pc_c pc)) i = Ok false -> Complete (sc_own (pc_c pc)) = false ->
  ~ crowded (zlen hashes / 20) (map conn_view (p_conns s)) (Key (MakePeer id p port)) (MBitfield b) ->
  let k := List.length (p_conns s) in hdies M pc (map HStep (seeds (pc_c pc) p port rsv id b k) ++ repeat (HMake k) (S (Z.to_nat (M / RequestSize)))) (mkh s a).
Proof.
  intros HM Ha HN Hu Hl Hih Hrs Hid Hs Hok Hw Htl Hlack Hcom Hn k.
  destruct (seeder _ _ _ _ _ _ _ p port rsv id b i s Hu Hl Hih Hrs Hid Hs Hok Hw Htl Hlack Hcom Hn) as (s' & R & L & _ & Hm).
  destruct (hrun_or_dies M pc _ s a s' R) as [D|D]; [now apply hdies_more|]. eapply hdies_app; [exact D|]. apply making_dies; [exact HM|exact HN|exact Hm|].
  destruct Hu as (H1 & _). destruct (made_facts _ _ _ _ H1) as (HP & _ & _ & EP & _). unfold held, RequestSize. cbn [h_p h_made]. rewrite EP. unfold zlen. lia.
Qed.
Lemma visitors_fill M P hashes files pc contents w0 p port rsv id n s a : swarm_up P hashes files (pc_c pc) contents w0 -> List.length (sc_ih (pc_c pc)) = 20%nat -> List.length rsv = 8%nat -> List.length id = 20%nat ->
  (sockets s + n <= pc_socks pc)%nat -> held pc (mkh s a) <= M -> M < held pc (mkh s a) + Z.of_nat n * P ->
  hdies M pc (map HStep (flat_map (visit (pc_c pc) p port rsv id) (seq (List.length (p_conns s)) n))) (mkh s a).
Proof.
  intros Hu Hih Hrs Hid Hs Hh HM. destruct (visits _ _ _ _ _ _ p port rsv id Hu Hih Hrs Hid n s Hs) as (gs & L & _ & R).
  destruct (hrun_or_dies M pc _ s a _ R) as [D|D]; [exact D|]. exfalso. apply hrun_inv in D. destruct D as (_ & _ & D). specialize (D Hh).
  destruct Hu as (H1 & _). destruct (made_facts _ _ _ _ H1) as (_ & _ & _ & EP & _). unfold held in *. cbn [h_p h_made p_conns] in *. rewrite zlen_app, EP in *. unfold zlen in D at 2. rewrite L in D. lia.
Qed.
(** A process that has everything makes no requests. *)
Definition unmade (g : gconn) : Prop := forall x i, a_req (g_a g) <> QMake x i.
Lemma unmade_step pc k sh g l sh' g' : Complete (sc_own (pc_c pc)) = true -> gstep pc k sh g l = GWent sh' g' -> unmade g -> unmade g'.
Proof.
  intros Hc. destruct g as [m [L P V Q n] h]. unfold unmade. destruct l; cbn [gstep g_m g_a g_c a_loop a_ping a_recv a_req a_procs recv_at req_at]; cbv zeta; intros E HQ; cases E; went E; cbn [g_a a_req recv_at req_at] in *; try assumption; try (intros x' i'; discriminate); congruence.
Qed.
Lemma unmade_run pc ls t w peers s g : Complete (sc_own (pc_c pc)) = true -> prun pc ls (started t w peers) = Some s -> In g (p_conns s) -> unmade g.
Proof.
  intros Hc H Hin. assert (HF : Forall unmade (p_conns s)).
  { apply (conns_inv pc unmade) with (ls := ls) (s := started t w peers); [|intros k sh g0 l sh' g' E; now apply (unmade_step pc k sh g0 l sh' g' Hc E)|apply Forall_nil|exact H]. intros c inc ptr key sent u x E x' i'. rewrite (fresh_new _ _ _ _ _ _ _ E). discriminate. }
  rewrite Forall_forall in HF. auto.
Qed.
Lemma hrun_complete M pc t w peers : Complete (sc_own (pc_c pc)) = true -> forall ls s, hrun M pc ls (hstarted t w peers) = Some s -> rounds ls = 0 /\ h_made s = 0.
Proof.
  intros Hc. induction ls as [|l ls IH] using rev_ind; intros s H; [injection H as <-; split; reflexivity|]. rewrite hrun_app in H. destruct (hrun M pc ls (hstarted t w peers)) as [s1|] eqn:E1; [|discriminate]. destruct (IH s1 eq_refl) as [I1 I2].
  pose proof E1 as E2. apply hrun_inv in E2. destruct E2 as (E2 & _). cbn [hrun] in H. destruct (hstep M pc l s1) as [| |s2] eqn:E; try discriminate. injection H as <-.
  assert (HR : rounds (ls ++ [l]) = rounds ls + rounds [l]) by (unfold rounds; rewrite filter_app, zlen_app; reflexivity). rewrite HR, I1, rounds_cons. change (rounds []) with 0.
  destruct l as [l|k]; [apply hstep_inv in E; lia|]. exfalso. cbn [hstep] in E. destruct (nth_error _ k) as [g|] eqn:Ek; [|discriminate]. apply nth_error_In in Ek. pose proof (unmade_run pc _ t w peers _ g Hc E2 Ek) as HU. destruct (a_req (g_a g)) as [| |x i| |] eqn:Eq; try discriminate. exact (HU x i Eq).
Qed.
Lemma complete_room M P hashes files pc contents w0 t w peers ls s l : swarm_up P hashes files (pc_c pc) contents w0 -> Complete (sc_own (pc_c pc)) = true -> hrun M pc ls (hstarted t w peers) = Some s ->
  zlen (filter taken_up (steps ls)) * P <= M -> taken_up l = false \/ (zlen (filter taken_up (steps ls)) + 1) * P <= M -> hstep M pc (HStep l) s = HDied -> pstep pc l (h_p s) = PDied.
Proof.
  intros Hu Hc H HM1 HM2 HD. apply hstep_dies in HD. destruct HD as [HD|(s' & E & HD)]; [exact HD|]. exfalso. destruct (hrun_complete M pc t w peers Hc ls s H) as [_ H2].
  apply hrun_inv in H. destruct H as (H & _). pose proof (count_run _ _ _ _ H) as C1. pose proof (count_step _ _ _ _ E) as C2. cbn [hstarted h_p started p_shake p_drop p_conns List.length] in C1.
  destruct Hu as (H1 & _). destruct (made_facts _ _ _ _ H1) as (HP & _ & _ & EP & _). unfold held in HD. cbn [h_p h_made] in HD. rewrite EP, H2 in HD.
  assert (C : zlen (p_conns s') <= zlen (filter taken_up (steps ls)) + (if taken_up l then 1 else 0)) by (unfold zlen; destruct (taken_up l); lia).
  assert (D : zlen (p_conns s') * P <= (zlen (filter taken_up (steps ls)) + (if taken_up l then 1 else 0)) * P) by (apply Z.mul_le_mono_nonneg_r; lia).
  destruct (taken_up l); [destruct HM2 as [HM2|HM2]; [discriminate|]|]; lia.
Qed.
(** There is another round exactly when createReqMessages does not come to an end. *)
Lemma loop_on : forall fuel index length msgs, 0 < length -> req_loop fuel index 0 length msgs = NoFuel.
Proof. induction fuel as [|f IH]; intros index length msgs H; cbn [req_loop]; replace (0 <? length) with true by lia; [reflexivity|]. cbv zeta. apply IH. exact H. Qed.
Lemma round_iff ti x : (0 < req_length ti x <-> forall fuel, createReqMessages fuel ti x = NoFuel) /\ (~ 0 < req_length ti x <-> forall fuel, createReqMessages fuel ti x = Ok []).
Proof.
  assert (A : 0 < req_length ti x -> forall fuel, createReqMessages fuel ti x = NoFuel) by (intros H fuel; unfold createReqMessages; apply loop_on; exact H).
  assert (C : ~ 0 < req_length ti x -> forall fuel, createReqMessages fuel ti x = Ok []).
  { intros H fuel. unfold createReqMessages. fold (req_length ti x). destruct fuel; cbn [req_loop]; replace (0 <? req_length ti x) with false by lia; reflexivity. }
  destruct (Z_lt_ge_dec 0 (req_length ti x)) as [L|L]; split; split; intros H; try assumption; try lia; auto.
  - specialize (H 0%nat). rewrite (A L) in H. discriminate.
  - specialize (H 0%nat). rewrite C in H by lia. discriminate.
Qed.
