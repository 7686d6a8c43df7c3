(** ProcSockProofs.v: the sockets and the goroutines of a process only become more. *)
From Coq Require Import ZifyBool ZifyNat ZifyN.
From Verif Require Import Base BitfieldModel BitfieldSpec BitfieldProofs WireModel WireSpec WireProofs HandshakeModel HandshakeSpec HandshakeProofs LayoutModel LayoutSpec PieceMapProofs DsModel PptModel PptSpec PeerModel FsModel FsSpec FsProofs SwarmModel SessionModel SessionSpec RunModel RunSpec RunProofs ProcModel ProcSpec ProcProofs ProcLiveProofs.
From Verif Require PptProofs LoopModel LoopSpec LoopProofs PropsLoop ReadLoopModel.

Lemma live_looping n pc w0 peers s g : live n pc w0 peers s -> In g (p_conns s) -> a_loop (g_a g) <> LoopModel.LEnd.
Proof.
  intros H Hin. destruct (live_channels _ _ _ _ _ _ H Hin) as (_ & ls & tr & Hr). destruct (PropsLoop.C55_never_returns _ _ _ _ Hr) as [H1 _]. exact H1.
Qed.
Lemma filter_all {A} (f : A -> bool) l : (forall x, In x l -> f x = true) -> filter f l = l.
Proof. induction l as [|a l IH]; intros H; cbn; [reflexivity|]. rewrite (H a) by (left; reflexivity). f_equal. apply IH. intros x Hx. apply H. now right. Qed.
Lemma live_sockets n pc w0 peers s : live n pc w0 peers s -> sockets s = (p_shake s + p_drop s + List.length (p_conns s))%nat.
Proof. intros H. unfold sockets. rewrite filter_all; [reflexivity|]. intros g Hg. apply (live_looping _ _ _ _ _ _ H) in Hg. unfold looping. destruct (a_loop (g_a g)); congruence. Qed.
Lemma live_more n pc w0 peers s ls s' : live n pc w0 peers s -> Forall pfair ls -> prun pc ls s = Some s' -> live n pc w0 peers s'.
Proof. intros (t0 & ls0 & Ht & Hf & Hr) Hf' Hr'. exists t0, (ls0 ++ ls). split; [exact Ht|]. split; [apply Forall_app; auto|]. rewrite prun_app, Hr. exact Hr'. Qed.
Lemma conns_step pc l s s' : pstep pc l s = PWent s' -> (List.length (p_conns s) <= List.length (p_conns s'))%nat.
Proof.
  destruct l as [|p port r wr u|i okd hs u| | |k l]; cbn [pstep]; cbv zeta; intros H.
  - destruct (Nat.ltb _ _); [|discriminate]. inversion H; subst. cbn. lia.
  - destruct (p_shake s); [discriminate|]. destruct (in_peer _); try discriminate; [|inversion H; subst; cbn; lia]. unfold new_handler in H. destruct (fresh_conn _ _ _ _ _ _); try discriminate. inversion H; subst. cbn. rewrite app_length. lia.
  - destruct (nth_error (p_dial s) i); [|discriminate]. destruct okd; [|inversion H; subst; cbn; lia]. destruct (Nat.ltb _ _); [|discriminate]. destruct hs; [|inversion H; subst; cbn; lia]. unfold new_handler in H. destruct (fresh_conn _ _ _ _ _ _); try discriminate. inversion H; subst. cbn. rewrite app_length. lia.
  - destruct (p_drop s); [discriminate|]. inversion H; subst. cbn. lia.
  - inversion H; subst. cbn. lia.
  - destruct (nth_error (p_conns s) k); [|discriminate]. destruct (gstep _ _ _ _ _); try discriminate. inversion H; subst. cbn. rewrite lupd_len. lia.
Qed.
Lemma conns_run pc : forall ls s s', prun pc ls s = Some s' -> (List.length (p_conns s) <= List.length (p_conns s'))%nat.
Proof. induction ls as [|l ls IH]; intros s s' H; cbn in H; [inversion H; subst; lia|]. destruct (pstep pc l s) as [| |s1] eqn:E; try discriminate. pose proof (conns_step _ _ _ _ E). pose proof (IH _ _ H). lia. Qed.
(** A process that has taken up fewer connections than it may have open is not ended by Accept. *)
Lemma count_step pc l s s' : pstep pc l s = PWent s' -> (p_shake s' + p_drop s' + List.length (p_conns s') <= p_shake s + p_drop s + List.length (p_conns s) + if taken_up l then 1 else 0)%nat.
Proof.
  destruct l as [|p port r wr u|i okd hs u| | |k l]; cbn [pstep taken_up]; cbv zeta; intros H.
  - destruct (Nat.ltb _ _); [|discriminate]. inversion H; subst. cbn. lia.
  - destruct (p_shake s) eqn:Es; [discriminate|]. destruct (in_peer _); try discriminate; [|inversion H; subst; cbn; destruct (TimeModel.closes _ _); lia]. unfold new_handler in H. destruct (fresh_conn _ _ _ _ _ _); try discriminate. inversion H; subst. cbn. rewrite app_length. cbn. lia.
  - destruct (nth_error (p_dial s) i); [|discriminate]. destruct okd; [|inversion H; subst; cbn; lia]. destruct (Nat.ltb _ _); [|discriminate]. destruct hs; [|inversion H; subst; cbn; lia]. unfold new_handler in H. destruct (fresh_conn _ _ _ _ _ _); try discriminate. inversion H; subst. cbn. rewrite app_length. cbn. lia.
  - destruct (p_drop s) eqn:E; [discriminate|]. inversion H; subst. cbn. lia.
  - inversion H; subst. cbn. lia.
  - destruct (nth_error (p_conns s) k); [|discriminate]. destruct (gstep _ _ _ _ _); try discriminate. inversion H; subst. cbn. rewrite lupd_len. lia.
Qed.
Lemma count_run pc : forall ls s s', prun pc ls s = Some s' -> (p_shake s' + p_drop s' + List.length (p_conns s') <= p_shake s + p_drop s + List.length (p_conns s) + List.length (filter taken_up ls))%nat.
Proof.
  induction ls as [|l ls IH]; intros s s' H; cbn in H; [inversion H; subst; cbn; lia|]. destruct (pstep pc l s) as [| |s1] eqn:E; try discriminate. pose proof (count_step _ _ _ _ E) as H1. pose proof (IH _ _ H) as H2. cbn [filter]. destruct (taken_up l); cbn [List.length]; lia.
Qed.
Lemma few_accepted pc t0 w0 peers ls s : prun pc ls (started t0 w0 peers) = Some s -> (List.length (filter taken_up ls) < pc_socks pc)%nat -> pstep pc PAccept s <> PDied.
Proof.
  intros H Hn. pose proof (count_run _ _ _ _ H) as Hc. cbn [started p_shake p_drop p_conns List.length] in Hc. cbn [pstep].
  assert (Hs : (sockets s < pc_socks pc)%nat).
  { unfold sockets. assert (Hf : (List.length (filter looping (p_conns s)) <= List.length (p_conns s))%nat) by (clear; induction (p_conns s) as [|a l IH]; cbn; [lia|]; destruct (looping a); cbn; lia). lia. }
  apply Nat.ltb_lt in Hs. rewrite Hs. discriminate.
Qed.
(** ** Visitors *)
Lemma lupd_last {A} : forall (l : list A) x y, lupd (l ++ [x]) (List.length l) y = l ++ [y].
Proof. induction l as [|a l IH]; intros x y; cbn; [reflexivity|]. now rewrite IH. Qed.
Lemma visit_one P hashes files pc contents w0 p port rsv id s : swarm_up P hashes files (pc_c pc) contents w0 -> List.length (sc_ih (pc_c pc)) = 20%nat -> List.length rsv = 8%nat -> List.length id = 20%nat -> (sockets s < pc_socks pc)%nat ->
  exists g, prun pc (visit (pc_c pc) p port rsv id (List.length (p_conns s))) s = Some (mkps (p_sh s) (p_shake s) (p_drop s) (p_dial s) (p_conns s ++ [g])) /\ a_loop (g_a g) = LoopModel.LWait /\ a_ping (g_a g) = LoopModel.PEnd /\ a_recv (g_a g) = VEnd.
Proof.
  intros Hup Hih Hrs Hid Hs. set (k := List.length (p_conns s)). unfold visit. cbn [app map prun].
  assert (Hlen : List.length (handshake_of rsv (sc_ih (pc_c pc)) id) = 68%nat) by (unfold handshake_of; cbn [List.length]; rewrite !app_length, Hih, Hrs, Hid; reflexivity).
  assert (E : in_peer (FromIncoming (sc_ih (pc_c pc)) (sc_id (pc_c pc)) (sc_own (pc_c pc)) (mkread (handshake_of rsv (sc_ih (pc_c pc)) id) false) (HandshakeModel.mkw true true)) = Ok id).
  { apply FromIncoming_iff; [cbn [rd_bytes]; lia|]. cbn [rd_err rd_bytes w_handshake w_bitfield]. repeat split. exists rsv. repeat (split; [assumption|]). unfold pad68. rewrite Hlen. cbn [Nat.sub repeat]. apply app_nil_r. }
  cbn [pstep]. pose proof (proj2 (Nat.ltb_lt _ _) Hs) as Hlt. rewrite Hlt. cbn [p_shake p_drop p_dial p_conns p_sh]. rewrite E. unfold fresh_conn.
  destruct Hup as (H1 & _). assert (Hnp : 0 <= ti_npieces (sc_ti (pc_c pc))) by (rewrite (np_n _ _ _ _ H1); apply (n_pos _ _ _ _ H1)).
  destruct (NewBitfield_inv _ Hnp) as (b & -> & _). cbn [bind new_handler p_sh p_drop p_dial p_conns p_shake].
  assert (Hat : forall x, nth_error (p_conns s ++ [x]) k = Some x) by (intros x; unfold k; rewrite nth_error_app2, Nat.sub_diag by lia; reflexivity).
  assert (Hup2 : forall x y, lupd (p_conns s ++ [x]) k y = p_conns s ++ [y]) by (intros; apply lupd_last).
  Ltac vstep Hat Hup2 := cbn [prun pstep p_conns p_sh p_shake p_drop p_dial]; rewrite Hat; cbn [gstep g_m g_a g_c a_loop a_ping a_recv a_req a_procs recv_at req_at c_read c_buf c_ready read_at c_mem c_len c_got List.length Nat.leb LoopModel.add_panics pred]; rewrite Hup2.
  do 10 vstep Hat Hup2. eexists. split; [reflexivity|]. split; [reflexivity|]. split; reflexivity.
Qed.
Lemma visit_pfair c p port rsv id k : List.length (sc_ih c) = 20%nat -> List.length rsv = 8%nat -> List.length id = 20%nat -> Forall pfair (visit c p port rsv id k).
Proof. intros Hih Hrs Hid. unfold visit. cbn [app map]. constructor; [exact I|]. constructor; [cbn [pfair rd_bytes]; unfold handshake_of; cbn [List.length]; rewrite !app_length, Hih, Hrs, Hid; cbn; lia|]. repeat (constructor; [exact I|]). constructor. Qed.
Lemma visits P hashes files pc contents w0 p port rsv id : swarm_up P hashes files (pc_c pc) contents w0 -> List.length (sc_ih (pc_c pc)) = 20%nat -> List.length rsv = 8%nat -> List.length id = 20%nat ->
  forall n s, (sockets s + n <= pc_socks pc)%nat -> exists gs, List.length gs = n /\ Forall (fun g => a_loop (g_a g) = LoopModel.LWait /\ a_ping (g_a g) = LoopModel.PEnd /\ a_recv (g_a g) = VEnd) gs /\
    prun pc (flat_map (visit (pc_c pc) p port rsv id) (seq (List.length (p_conns s)) n)) s = Some (mkps (p_sh s) (p_shake s) (p_drop s) (p_dial s) (p_conns s ++ gs)).
Proof.
  intros Hu Hih Hrs Hid. induction n as [|n IH]; intros s Hs.
  - exists []. split; [reflexivity|]. split; [constructor|]. cbn. rewrite app_nil_r. destruct s; reflexivity.
  - destruct (visit_one _ _ _ _ _ _ p port rsv id s Hu Hih Hrs Hid ltac:(lia)) as (g & Hr & H1 & H2 & H3).
    destruct (IH (mkps (p_sh s) (p_shake s) (p_drop s) (p_dial s) (p_conns s ++ [g]))) as (gs & L & F & R).
    { unfold sockets in *. cbn [p_shake p_drop p_conns]. rewrite filter_app, app_length. cbn [filter]. unfold looping at 2. rewrite H1. cbn. lia. }
    exists (g :: gs). split; [cbn; lia|]. split; [constructor; auto|]. cbn [seq flat_map]. rewrite prun_app, Hr. cbn [p_sh p_shake p_drop p_dial p_conns] in R. rewrite app_length, Nat.add_comm in R. cbn [List.length Nat.add] in R. rewrite R, <- app_assoc. reflexivity.
Qed.
Lemma visitors_kill P hashes files pc contents w0 peers p port rsv id s : swarm_up P hashes files (pc_c pc) contents w0 -> live (zlen hashes / 20) pc w0 peers s -> List.length (sc_ih (pc_c pc)) = 20%nat -> List.length rsv = 8%nat -> List.length id = 20%nat ->
  exists s', prun pc (flat_map (visit (pc_c pc) p port rsv id) (seq (List.length (p_conns s)) (pc_socks pc - sockets s))) s = Some s' /\ live (zlen hashes / 20) pc w0 peers s' /\
    (forall g, In g (skipn (List.length (p_conns s)) (p_conns s')) -> a_loop (g_a g) = LoopModel.LWait /\ a_ping (g_a g) = LoopModel.PEnd /\ a_recv (g_a g) = VEnd) /\ pstep pc PAccept s' = PDied.
Proof.
  intros Hu Hl Hih Hrs Hid. destruct (Nat.le_gt_cases (pc_socks pc) (sockets s)) as [Hc|Hc].
  - replace (pc_socks pc - sockets s)%nat with 0%nat by lia. cbn [seq flat_map prun]. exists s. split; [reflexivity|]. split; [exact Hl|]. split; [rewrite skipn_all; intros g []|]. cbn [pstep]. apply Nat.ltb_ge in Hc. rewrite Hc. reflexivity.
  - destruct (visits _ _ _ _ _ _ p port rsv id Hu Hih Hrs Hid (pc_socks pc - sockets s)%nat s ltac:(lia)) as (gs & L & F & R). eexists. split; [exact R|]. split; [|split].
    + eapply live_more; [exact Hl| |exact R]. apply Forall_flat_map. apply Forall_forall. intros k _. apply visit_pfair; assumption.
    + cbn [p_conns]. rewrite skipn_app, skipn_all, Nat.sub_diag. cbn [app skipn]. rewrite Forall_forall in F. exact F.
    + cbn [pstep]. replace (Nat.ltb _ _) with false; [reflexivity|]. symmetry. apply Nat.ltb_ge. unfold sockets in *. cbn [p_shake p_drop p_conns]. rewrite filter_app, app_length.
      rewrite (filter_all looping gs); [lia|]. intros g Hg. rewrite Forall_forall in F. destruct (F g Hg) as [E _]. unfold looping. rewrite E. reflexivity.
Qed.
(** Peers that only connect are enough. *)
Lemma accepts pc : forall n s, (sockets s + n <= pc_socks pc)%nat -> prun pc (repeat PAccept n) s = Some (mkps (p_sh s) (p_shake s + n) (p_drop s) (p_dial s) (p_conns s)).
Proof.
  induction n as [|n IH]; intros s Hs; cbn [repeat prun]; [rewrite Nat.add_0_r; destruct s; reflexivity|]. cbn [pstep]. assert (Hlt : Nat.ltb (sockets s) (pc_socks pc) = true) by (apply Nat.ltb_lt; lia). rewrite Hlt, IH; [cbn; f_equal; f_equal; lia|]. unfold sockets in *. cbn. lia.
Qed.
Lemma silent_kill pc s : exists s', prun pc (repeat PAccept (pc_socks pc - sockets s)) s = Some s' /\ pstep pc PAccept s' = PDied.
Proof.
  destruct (Nat.le_gt_cases (pc_socks pc) (sockets s)) as [Hc|Hc].
  - replace (pc_socks pc - sockets s)%nat with 0%nat by lia. exists s. split; [reflexivity|]. cbn [pstep]. apply Nat.ltb_ge in Hc. rewrite Hc. reflexivity.
  - eexists. split; [apply accepts; lia|]. cbn [pstep]. replace (Nat.ltb _ _) with false; [reflexivity|]. symmetry. apply Nat.ltb_ge. unfold sockets in *. cbn. lia.
Qed.
(** ** requestLoop of an incomplete swarm *)
Lemma asking_step pc k sh g l sh' g' : gstep pc k sh g l = GWent sh' g' -> Complete (sc_own (pc_c pc)) = false -> asking (a_req (g_a g)) = true -> asking (a_req (g_a g')) = true.
Proof.
  destruct g as [m [L P V Q n] h]. destruct l; cbn [gstep g_m g_a g_c a_loop a_ping a_recv a_req a_procs recv_at req_at]; cbv zeta; intros E Hc Hq; cases E; went E; cbn [g_a a_req recv_at req_at asking] in *; try assumption; try reflexivity; try congruence.
  all: try match goal with |- context [if ?x then _ else _] => destruct x end; reflexivity.
Qed.
Lemma asking_run pc k : Complete (sc_own (pc_c pc)) = false -> forall ls s s' g, nth_error (p_conns s) k = Some g -> asking (a_req (g_a g)) = true -> prun pc ls s = Some s' ->
  exists g', nth_error (p_conns s') k = Some g' /\ asking (a_req (g_a g')) = true.
Proof.
  intros Hc. induction ls as [|l ls IH]; intros s s' g Hk Hq H; cbn in H; [inversion H; subst; eauto|]. destruct (pstep pc l s) as [| |s1] eqn:E; try discriminate.
  assert (HS : exists g1, nth_error (p_conns s1) k = Some g1 /\ asking (a_req (g_a g1)) = true); [|destruct HS as (g1 & N1 & Q1); eapply IH; eassumption].
  assert (Hlen : (k < List.length (p_conns s))%nat) by (apply nth_error_Some; congruence).
  destruct l as [|p port r wr u|i okd hs u| | |j l]; cbn [pstep] in E; cbv zeta in E.
  - destruct (Nat.ltb _ _); [|discriminate]. inversion E; subst. eauto.
  - destruct (p_shake s); [discriminate|]. destruct (in_peer _); try discriminate; [|inversion E; subst; eauto]. unfold new_handler in E. destruct (fresh_conn _ _ _ _ _ _); try discriminate. inversion E; subst. exists g. cbn [p_conns]. rewrite nth_error_app1 by assumption. auto.
  - destruct (nth_error (p_dial s) i); [|discriminate]. destruct okd; [|inversion E; subst; eauto]. destruct (Nat.ltb _ _); [|discriminate]. destruct hs; [|inversion E; subst; eauto]. unfold new_handler in E. destruct (fresh_conn _ _ _ _ _ _); try discriminate. inversion E; subst. exists g. cbn [p_conns]. rewrite nth_error_app1 by assumption. auto.
  - destruct (p_drop s); [discriminate|]. inversion E; subst. eauto.
  - inversion E; subst. eauto.
  - destruct (nth_error (p_conns s) j) as [gj|] eqn:Ej; [|discriminate]. destruct (gstep pc j (p_sh s) gj l) as [| |sh g'] eqn:Eg; try discriminate. inversion E; subst. cbn [p_conns]. rewrite lupd_at. destruct (Nat.eqb k j) eqn:Ekj; [|eauto].
    apply Nat.eqb_eq in Ekj. subst j. rewrite Ej. exists g'. split; [reflexivity|]. rewrite Hk in Ej. inversion Ej; subst. eapply asking_step; eassumption.
Qed.
(** ** A visitor whose requestLoop is late *)
Lemma short_visit_kills P hashes files pc contents w0 peers p port rsv id s : swarm_up P hashes files (pc_c pc) contents w0 -> live (zlen hashes / 20) pc w0 peers s -> List.length (sc_ih (pc_c pc)) = 20%nat -> List.length rsv = 8%nat -> List.length id = 20%nat -> (sockets s < pc_socks pc)%nat ->
  let k := List.length (p_conns s) in
  exists s', prun pc (short_visit (pc_c pc) p port rsv id k) s = Some s' /\ live (zlen hashes / 20) pc w0 peers s' /\ pstep pc (PConn k GReqStart) s' = PDied /\
    exists s'', prun pc [PConn k GRelease; PConn k GReqStart] s' = Some s'' /\ live (zlen hashes / 20) pc w0 peers s'' /\ pstep pc (PConn k GAwake) s'' = PDied.
Proof.
  intros Hup Hl Hih Hrs Hid Hs k.
  assert (Hlen : List.length (handshake_of rsv (sc_ih (pc_c pc)) id) = 68%nat) by (unfold handshake_of; cbn [List.length]; rewrite !app_length, Hih, Hrs, Hid; reflexivity).
  assert (HF : Forall pfair (short_visit (pc_c pc) p port rsv id k)).
  { unfold short_visit. cbn [app map]. constructor; [exact I|]. constructor; [cbn [pfair rd_bytes]; lia|]. repeat (constructor; [exact I|]). constructor. }
  enough (HG : exists g, prun pc (short_visit (pc_c pc) p port rsv id k) s = Some (mkps (p_sh s) (p_shake s) (p_drop s) (p_dial s) (p_conns s ++ [g])) /\ g_a g = mkpc LoopModel.LAsleep LoopModel.PEnd VEnd QNew 0).
  { destruct HG as (g & Hr & Ha). assert (Hat : forall x, nth_error (p_conns s ++ [x]) k = Some x) by (intros x; unfold k; rewrite nth_error_app2, Nat.sub_diag by lia; reflexivity).
    assert (Hup2 : forall x y, lupd (p_conns s ++ [x]) k y = p_conns s ++ [y]) by (intros; apply lupd_last).
    pose proof (live_more _ _ _ _ _ _ _ Hl HF Hr) as Hl1. eexists. split; [exact Hr|]. split; [exact Hl1|]. split; [cbn [pstep p_conns p_sh]; rewrite Hat; cbn [gstep]; rewrite Ha; reflexivity|].
    assert (Hr2 : exists g2, prun pc [PConn k GRelease; PConn k GReqStart] (mkps (p_sh s) (p_shake s) (p_drop s) (p_dial s) (p_conns s ++ [g])) = Some (mkps (p_sh s) (p_shake s) (p_drop s) (p_dial s) (p_conns s ++ [g2])) /\ g_a g2 = mkpc LoopModel.LAwake LoopModel.PEnd VEnd (QLoop 0) 1).
    { cbn [prun pstep p_conns p_sh p_shake p_drop p_dial]. rewrite Hat. cbn [gstep]. rewrite Ha. cbn [a_loop a_ping a_recv a_req a_procs g_m g_a g_c p_conns p_sh p_shake p_drop p_dial]. rewrite Hup2, Hat. cbn [a_loop a_ping a_recv a_req a_procs g_m g_a g_c LoopModel.add_panics]. rewrite Hup2.
      eexists. split; reflexivity. }
    destruct Hr2 as (g2 & Hr2 & Ha2). eexists. split; [exact Hr2|]. split; [eapply live_more; [exact Hl1| |exact Hr2]; repeat constructor|]. cbn [pstep p_conns p_sh]. rewrite Hat. cbn [gstep]. rewrite Ha2. reflexivity. }
  unfold short_visit. cbn [app map prun].
  assert (E : in_peer (FromIncoming (sc_ih (pc_c pc)) (sc_id (pc_c pc)) (sc_own (pc_c pc)) (mkread (handshake_of rsv (sc_ih (pc_c pc)) id) false) (HandshakeModel.mkw true true)) = Ok id).
  { apply FromIncoming_iff; [cbn [rd_bytes]; lia|]. cbn [rd_err rd_bytes w_handshake w_bitfield]. repeat split. exists rsv. repeat (split; [assumption|]). unfold pad68. rewrite Hlen. cbn [Nat.sub repeat]. apply app_nil_r. }
  cbn [pstep]. pose proof (proj2 (Nat.ltb_lt _ _) Hs) as Hlt. rewrite Hlt. cbn [p_shake p_drop p_dial p_conns p_sh]. rewrite E. unfold fresh_conn.
  destruct Hup as (H1 & _). assert (Hnp : 0 <= ti_npieces (sc_ti (pc_c pc))) by (rewrite (np_n _ _ _ _ H1); apply (n_pos _ _ _ _ H1)).
  destruct (NewBitfield_inv _ Hnp) as (b & -> & _). cbn [bind new_handler p_sh p_drop p_dial p_conns p_shake].
  assert (Hat : forall x, nth_error (p_conns s ++ [x]) k = Some x) by (intros x; unfold k; rewrite nth_error_app2, Nat.sub_diag by lia; reflexivity).
  assert (Hup2 : forall x y, lupd (p_conns s ++ [x]) k y = p_conns s ++ [y]) by (intros; apply lupd_last).
  do 10 (cbn [prun pstep p_conns p_sh p_shake p_drop p_dial]; rewrite Hat; cbn [gstep g_m g_a g_c a_loop a_ping a_recv a_req a_procs recv_at req_at c_read c_buf c_ready read_at c_mem c_len c_got List.length Nat.leb LoopModel.add_panics pred]; rewrite Hup2).
  eexists. split; reflexivity.
Qed.
(** ** What requestLoop has taken *)
Lemma conns_inv pc (Q : gconn -> Prop) : (forall c inc ptr key sent u g, fresh_conn c inc ptr key sent u = Ok g -> Q g) -> (forall k sh g l sh' g', gstep pc k sh g l = GWent sh' g' -> Q g -> Q g') ->
  forall ls s s', Forall Q (p_conns s) -> prun pc ls s = Some s' -> Forall Q (p_conns s').
Proof.
  intros Hf Hg. induction ls as [|l ls IH]; intros s s' HQ H; cbn [prun] in H; [inversion H; subst; exact HQ|]. destruct (pstep pc l s) as [| |s1] eqn:E; try discriminate. apply (IH s1); [|exact H].
  assert (Hnew : forall sk dl c inc ptr key sent u, new_handler s sk dl (fresh_conn c inc ptr key sent u) = PWent s1 -> Forall Q (p_conns s1)).
  { intros sk dl c inc ptr key sent u En. unfold new_handler in En. destruct (fresh_conn c inc ptr key sent u) eqn:Ef; try discriminate. inversion En; subst. cbn [p_conns]. apply Forall_app. split; [exact HQ|]. constructor; [|constructor]. eapply Hf; exact Ef. }
  destruct l as [|p port r wr u|i okd hs u| | |j l]; cbn [pstep] in E; cbv zeta in E.
  - destruct (Nat.ltb _ _); [|discriminate]. inversion E; subst. exact HQ.
  - destruct (p_shake s); [discriminate|]. destruct (in_peer _); try discriminate; [eapply Hnew; exact E|inversion E; subst; exact HQ].
  - destruct (nth_error (p_dial s) i); [|discriminate]. destruct okd; [|inversion E; subst; exact HQ]. destruct (Nat.ltb _ _); [|discriminate]. destruct hs; [eapply Hnew; exact E|inversion E; subst; exact HQ].
  - destruct (p_drop s); [discriminate|]. inversion E; subst. exact HQ.
  - inversion E; subst. exact HQ.
  - destruct (nth_error (p_conns s) j) as [gj|] eqn:Ej; [|discriminate]. destruct (gstep pc j (p_sh s) gj l) as [| |sh g'] eqn:Eg; try discriminate. inversion E; subst. cbn [p_conns].
    apply Forall_forall. intros x Hx. apply In_nth_error in Hx. destruct Hx as (i & Hi). rewrite lupd_at, Ej in Hi. rewrite Forall_forall in HQ. destruct (Nat.eqb i j); [injection Hi as <-; eapply Hg; [exact Eg|apply HQ; eapply nth_error_In; exact Ej]|apply HQ; eapply nth_error_In; exact Hi].
Qed.
Definition five (g : gconn) : Prop := match a_req (g_a g) with QLoop i => (i <= 5)%nat | QMake _ i => (i < 5)%nat | _ => True end.
Lemma five_step pc k sh g l sh' g' : gstep pc k sh g l = GWent sh' g' -> five g -> five g'.
Proof.
  destruct g as [m [L P V Q n] h]. unfold five. destruct l; cbn [gstep g_m g_a g_c a_loop a_ping a_recv a_req a_procs recv_at req_at]; cbv zeta; intros E HQ; cases E; went E; cbn [g_a a_req recv_at req_at] in *; try assumption; try lia; try exact I.
  all: match goal with H : Nat.ltb _ _ = true |- _ => apply Nat.ltb_lt in H end; try match goal with |- context [if ?b then _ else _] => destruct b end; lia.
Qed.
Lemma fresh_new c inc ptr key sent u g : fresh_conn c inc ptr key sent u = Ok g -> a_req (g_a g) = QNew.
Proof. unfold fresh_conn. destruct (NewBitfield _); cbn [bind]; try discriminate. intros E. apply Ok_eq in E. subst g. reflexivity. Qed.
Lemma five_run pc ls t w peers s g : prun pc ls (started t w peers) = Some s -> In g (p_conns s) -> five g.
Proof.
  intros H Hin. assert (HF : Forall five (p_conns s)).
  { apply (conns_inv pc five) with (ls := ls) (s := started t w peers); [|intros k sh g0 l sh' g'; apply five_step|apply Forall_nil|exact H]. intros c inc ptr key sent u x E. unfold five. now rewrite (fresh_new _ _ _ _ _ _ _ E). }
  rewrite Forall_forall in HF. auto.
Qed.
(** Where pieces have a length, the first one is the last. *)
Definition lengths (ti : torinfo) : Prop := u32 (ti_plen ti) <> 0 /\ u32 (ti_lastlen ti) <> 0.
Definition one (g : gconn) : Prop := match a_req (g_a g) with QLoop i => i = 0%nat | QMake _ i => i = 0%nat | _ => True end.
Lemma one_step pc k sh g l sh' g' : lengths (sc_ti (pc_c pc)) -> gstep pc k sh g l = GWent sh' g' -> (one g -> one g') /\ (forall x i, a_req (g_a g) = QMake x i -> a_req (g_a g') = QMake x i).
Proof.
  intros [H1 H2]. assert (HD : forall fuel x, createReqMessages fuel (sc_ti (pc_c pc)) x = NoFuel) by (intros fuel x; apply PptProofs.createReq_diverges; destruct (x =? _); assumption).
  destruct g as [m [L P V Q n] h]. unfold one. destruct l; cbn [gstep g_m g_a g_c a_loop a_ping a_recv a_req a_procs recv_at req_at]; cbv zeta; intros E; cases E; went E; cbn [g_a a_req recv_at req_at] in *; (split; [|intros x' i' Hq; try assumption; try discriminate]); try (intros HQ; try assumption; try lia; exact I).
  all: try match goal with |- context [if ?b then _ else _] => destruct b end; try (intros HQ; exact HQ); try discriminate.
  all: rewrite HD in *; discriminate.
Qed.
Lemma one_run pc ls t w peers s g : lengths (sc_ti (pc_c pc)) -> prun pc ls (started t w peers) = Some s -> In g (p_conns s) -> one g.
Proof.
  intros HL H Hin. assert (HF : Forall one (p_conns s)).
  { apply (conns_inv pc one) with (ls := ls) (s := started t w peers); [|intros k sh g0 l sh' g' E; now apply (one_step pc k sh g0 l sh' g' HL E)|apply Forall_nil|exact H]. intros c inc ptr key sent u x E. unfold one. now rewrite (fresh_new _ _ _ _ _ _ _ E). }
  rewrite Forall_forall in HF. auto.
Qed.
Lemma stuck_run pc k x i : lengths (sc_ti (pc_c pc)) -> forall ls s s' g, nth_error (p_conns s) k = Some g -> a_req (g_a g) = QMake x i -> prun pc ls s = Some s' ->
  exists g', nth_error (p_conns s') k = Some g' /\ a_req (g_a g') = QMake x i.
Proof.
  intros HL. induction ls as [|l ls IH]; intros s s' g Hk Hq H; cbn [prun] in H; [inversion H; subst; eauto|]. destruct (pstep pc l s) as [| |s1] eqn:E; try discriminate.
  assert (HS : exists g1, nth_error (p_conns s1) k = Some g1 /\ a_req (g_a g1) = QMake x i); [|destruct HS as (g1 & N1 & Q1); eapply IH; eassumption].
  assert (Hlen : (k < List.length (p_conns s))%nat) by (apply nth_error_Some; congruence).
  assert (Hnew : forall sk dl r, new_handler s sk dl r = PWent s1 -> exists g1, nth_error (p_conns s1) k = Some g1 /\ a_req (g_a g1) = QMake x i).
  { intros sk dl r En. unfold new_handler in En. destruct r; try discriminate. inversion En; subst. exists g. cbn [p_conns]. rewrite nth_error_app1 by exact Hlen. auto. }
  destruct l as [|p port r wr u|j okd hs u| | |j l]; cbn [pstep] in E; cbv zeta in E.
  - destruct (Nat.ltb _ _); [|discriminate]. inversion E; subst. eauto.
  - destruct (p_shake s); [discriminate|]. destruct (in_peer _); try discriminate; [eapply Hnew; exact E|inversion E; subst; eauto].
  - destruct (nth_error (p_dial s) j); [|discriminate]. destruct okd; [|inversion E; subst; eauto]. destruct (Nat.ltb _ _); [|discriminate]. destruct hs; [eapply Hnew; exact E|inversion E; subst; eauto].
  - destruct (p_drop s); [discriminate|]. inversion E; subst. eauto.
  - inversion E; subst. eauto.
  - destruct (nth_error (p_conns s) j) as [gj|] eqn:Ej; [|discriminate]. destruct (gstep pc j (p_sh s) gj l) as [| |sh g'] eqn:Eg; try discriminate. inversion E; subst. cbn [p_conns]. rewrite lupd_at. destruct (Nat.eqb k j) eqn:Ekj; [|eauto].
    apply Nat.eqb_eq in Ekj. subst j. rewrite Ej. exists g'. split; [reflexivity|]. rewrite Hk in Ej. injection Ej as <-. eapply one_step; eassumption.
Qed.
