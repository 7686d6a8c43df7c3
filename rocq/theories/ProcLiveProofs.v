(** ProcLiveProofs.v: what holds of a live process, and how its answers get out. *)
From Coq Require Import ZifyBool ZifyNat ZifyN.
From Verif Require Import Base BitfieldModel BitfieldSpec WireModel WireSpec WireProofs HandshakeModel HandshakeProofs LayoutModel LayoutSpec DsModel PptModel PptSpec PeerModel FsModel FsSpec SwarmModel SessionModel SessionSpec RunModel RunSpec RunProofs ProcModel ProcSpec ProcProofs.
From Verif Require LoopModel LoopSpec LoopProofs ReadLoopModel ReadLoopSpec ReadLoopProofs.

Lemma fuel_is : decode_fuel = S RecvBufSize. Proof. reflexivity. Qed.
Local Opaque decode_fuel RecvBufSize.
Lemma live_inv n pc w0 peers s : live n pc w0 peers s -> exists t0 ls, NewPeerPieceTracker n = Ok t0 /\ pinv pc t0 w0 ls s /\ linv s.
Proof.
  intros (t0 & ls & Ht & Hf & Hr). destruct (pinv_run _ _ _ _ _ _ _ (pinv_start pc t0 w0 peers) Hf Hr) as [ls' Hi]. exists t0, ls'. split; [exact Ht|]. split; [exact Hi|]. exact (linv_run _ _ _ _ (linv_start _ _ _) Hr).
Qed.
Lemma pinv_reaches n pc t0 w0 ls s : NewPeerPieceTracker n = Ok t0 -> pinv pc t0 w0 ls s -> reaches n (pc_c pc) w0 ls (run_view s).
Proof. intros Ht [_ Hr Hf _ _]. exists t0. auto. Qed.
Lemma live_view n pc w0 peers s : live n pc w0 peers s -> exists ls, reaches n (pc_c pc) w0 ls (run_view s) /\
  forall k g, nth_error (p_conns s) k = Some g -> exists w, c_got (g_c g) = map (fun d => vis (snd d)) (delivered k ls) ++ w /\ (List.length w <= 1)%nat.
Proof.
  intros H. destruct (live_inv _ _ _ _ _ H) as (t0 & ls & Ht & Hi & _). exists ls. split; [eapply pinv_reaches; eassumption|].
  intros k g Hk. destruct (v_conn _ _ _ _ _ Hi k g Hk) as (_ & (rls & tr & Hr & Hd & Hc) & _).
  destruct (ReadLoopProofs.order_top _ _ _ _ Hr) as (w & Hw & Hl & Hp). rewrite Hd, Hc in Hw. unfold shown, in_hand in Hw. unfold ReadLoopSpec.processing, read_view in Hp. cbn in Hp.
  destruct (a_recv (g_a g)) eqn:Ev; try (exists w; rewrite app_nil_r in Hw; auto; fail).
  eexists. split; [rewrite Hw, <- app_assoc; reflexivity|]. rewrite Hp; [cbn; lia|]. cbn [con_view]. eauto.
Qed.
Lemma live_channels n pc w0 peers s g : live n pc w0 peers s -> In g (p_conns s) ->
  (exists b ls tr, ReadLoopModel.run (ReadLoopModel.init b) ls = Some (read_view g, tr) /\ ReadLoopSpec.delivered tr = c_got (g_c g)) /\
  (exists ls tr, LoopModel.run (LoopModel.NewSwarm_cfg (Complete (sc_own (pc_c pc)))) LoopModel.init ls = Some (loop_view g, tr)).
Proof.
  intros H Hin. destruct (live_inv _ _ _ _ _ H) as (t0 & ls & Ht & Hi & _). apply In_nth_error in Hin. destruct Hin as [k Hk].
  destruct (v_conn _ _ _ _ _ Hi k g Hk) as (_ & (rls & tr & Hr & Hd & Hc) & Hl). split; [eauto|exact Hl].
Qed.
Lemma live_lawful P hashes files pc contents w0 peers s g : swarm_up P hashes files (pc_c pc) contents w0 -> live (zlen hashes / 20) pc w0 peers s -> In g (p_conns s) ->
  lawful P (zsum (lens_of files)) (zlen hashes / 20) contents (sc_own (pc_c pc)) (sc_ih (pc_c pc)) (sc_id (pc_c pc)) (conn_view g).
Proof. intros Hu H Hin. destruct (live_view _ _ _ _ _ H) as (ls & Hr & _). apply (reach_lawful _ _ _ _ _ _ _ _ _ Hu Hr). cbn. apply in_map. exact Hin. Qed.
Lemma live_heard P hashes files pc contents w0 peers s k g : swarm_up P hashes files (pc_c pc) contents w0 -> live (zlen hashes / 20) pc w0 peers s -> nth_error (p_conns s) k = Some g ->
  exists ds w rest, c_got (g_c g) = map (fun d => vis (snd d)) ds ++ w /\ (List.length w <= 1)%nat /\ m_done (g_m g) ++ m_todo (g_m g) ++ rest = flat_map decoded ds /\ (receiving (a_recv (g_a g)) = true -> rest = []).
Proof.
  intros Hu H Hk. destruct (live_view _ _ _ _ _ H) as (ls & Hr & Hw). destruct (Hw k g Hk) as (w & Hw1 & Hw2). assert (Hk' : nth_error (ss_conns (run_view s)) k = Some (conn_view g)) by (cbn; rewrite nth_error_map, Hk; reflexivity).
  destruct (reach_heard _ _ _ _ _ _ _ _ _ _ Hu Hr Hk') as (rest & H1 & H2). exists (delivered k ls), w, rest. auto.
Qed.
(** ** DecodeAll on a buffer of RecvBufSize bytes *)
Lemma DecodeAllLoop_more data : forall f f' idx read ms, (f <= f')%nat -> DecodeAllLoop f data idx read ms <> NoFuel -> DecodeAllLoop f' data idx read ms = DecodeAllLoop f data idx read ms.
Proof.
  induction f as [|f IH]; intros f' idx read ms Hf H; [cbn in H; congruence|]. destruct f' as [|f']; [lia|]. cbn [DecodeAllLoop] in *. destruct (slen data <=? idx); [reflexivity|].
  destruct (sfrom data idx); cbn [bind] in *; try reflexivity. destruct (DecodeMsg a); cbn [bind] in *; try reflexivity. destruct (d_err a0); [apply IH; [lia|assumption]|]. destruct (d_msg a0); [apply IH; [lia|assumption]|reflexivity].
Qed.
Lemma DecodeAll_more data f f' : (f <= f')%nat -> DecodeAll f data <> NoFuel -> DecodeAll f' data = DecodeAll f data.
Proof. apply DecodeAllLoop_more. Qed.
Lemma decode_enough (l : bytes) sp fuel : (List.length l <= RecvBufSize)%nat -> DecodeAll fuel (mkslice l sp) <> NoFuel -> DecodeAll decode_fuel (mkslice l sp) = DecodeAll fuel (mkslice l sp).
Proof.
  intros Hl Hf. assert (HL : zlen l < 4294967296) by (unfold zlen; assert (Z.of_nat RecvBufSize < 4294967296) by (vm_compute; reflexivity); lia).
  assert (Ht : DecodeAll decode_fuel (mkslice l sp) <> NoFuel).
  { apply loop_terminates; try assumption; try lia.
    - intros j Hj E. apply Hf. apply DecodeAll_diverges; [assumption|]. eauto.
    - unfold zlen. rewrite fuel_is. lia.
    - rewrite fuel_is. lia. }
  rewrite <- (DecodeAll_more _ decode_fuel (Nat.max decode_fuel fuel)) by (assumption || lia). apply DecodeAll_more; [lia|assumption].
Qed.
Lemma decode_hangs (l : bytes) sp : (List.length l <= RecvBufSize)%nat -> DecodeAll decode_fuel (mkslice l sp) = NoFuel -> forall fuel, DecodeAll fuel (mkslice l sp) = NoFuel.
Proof. intros Hl H fuel. destruct (DecodeAll fuel (mkslice l sp)) eqn:E; try reflexivity; rewrite (decode_enough l sp fuel Hl) in H by congruence; congruence. Qed.
Lemma hand_short g : List.length (c_mem (g_c g)) = RecvBufSize -> (List.length (in_buffer g) <= RecvBufSize)%nat.
Proof. intros H. unfold in_buffer. rewrite firstn_length, H. apply Nat.le_min_r. Qed.
(** ** Death *)
Lemma decode_at pc k sh g : gstep pc k sh g GDecode <> GBlocked -> a_recv (g_a g) = VGot.
Proof. intros H. cbn [gstep] in H. destruct (a_recv (g_a g)); first [reflexivity | exfalso; apply H; reflexivity]. Qed.
Lemma handle_at pc k sh g : gstep pc k sh g GHandle <> GBlocked -> a_recv (g_a g) = VWork.
Proof. intros H. cbn [gstep] in H. destruct (a_recv (g_a g)); first [reflexivity | exfalso; apply H; reflexivity]. Qed.
Lemma wg_top comp ls tr g l : LoopModel.run (LoopModel.NewSwarm_cfg comp) LoopModel.init ls = Some (loop_view g, tr) -> wg_panic g l ->
  (l = GReqStart /\ a_req (g_a g) = QNew /\ a_loop (g_a g) = LoopModel.LAsleep /\ a_procs (g_a g) = 0%nat) \/ (l = GAwake /\ a_loop (g_a g) = LoopModel.LAwake /\ a_procs (g_a g) <> 0%nat).
Proof.
  intros Hr Hw. pose proof (fun x => LoopProofs.dies_top _ _ _ _ x Hr) as Hd. destruct l; try (destruct Hw; fail); cbn [wg_panic] in Hw; pose proof (Hd _ Hw) as Hx; clear Hd; (destruct Hx as [(E & H1 & H2 & H3)|(E & H1 & H2 & H3 & H4)]; try discriminate E).
  - right. split; [reflexivity|]. split; [exact H1|]. cbn in Hw. unfold LoopModel.wait_panics in Hw. destruct (a_loop (g_a g)); try discriminate. destruct (a_procs (g_a g)); [discriminate|]. discriminate.
  - left. split; [reflexivity|]. split; [|split; [exact H2|]].
    + cbn in H1. destruct (a_req (g_a g)); (reflexivity || discriminate).
    + pose proof (LoopProofs.procs_top _ _ _ _ Hr) as Hp. rewrite H3 in Hp. exact Hp.
Qed.
Lemma live_dies P hashes files pc contents w0 peers s l : swarm_up P hashes files (pc_c pc) contents w0 -> live (zlen hashes / 20) pc w0 peers s -> pfair l -> pstep pc l s = PDied -> pdeadly P (zlen hashes / 20) pc s l.
Proof.
  intros Hu H Hf Hd. destruct (live_inv _ _ _ _ _ H) as (t0 & ls & Ht & Hi & _). pose proof (pinv_reaches _ _ _ _ _ _ Ht Hi) as Hr.
  pose proof (pv_step pc l s (v_ok _ _ _ _ _ Hi)) as Hv. rewrite Hd in Hv. destruct Hv as [(l' & El & Ed)|[[-> Hs]|(k & gl & g & -> & Ek & Hw)]]; [|exact Hs|].
  2: { destruct (v_conn _ _ _ _ _ Hi k g Ek) as (_ & _ & lls & ltr & Hlr). destruct (wg_top _ _ _ _ _ Hlr Hw) as [(-> & H1 & H2 & H3)|(-> & H1 & H2)]; cbn [pdeadly]; eauto. }
  assert (Hfl : fair l').
  { destruct l as [|p port r wr u|i okd hs u| | |k l]; cbn in El; try discriminate; try (inversion El; subst; exact Hf).
    - destruct okd, hs; try discriminate. destruct (nth_error _ _); inversion El; subst; exact I.
    - destruct (nth_error (p_conns s) k) as [g|] eqn:Ek; [|discriminate]. destruct (v_conn _ _ _ _ _ Hi k g Ek) as (Hm & _). exact (slab_fair _ _ _ _ Hm El). }
  pose proof (reach_dies _ _ _ _ _ _ _ _ _ Hu Hr Hfl Ed) as Hdd.
  destruct l as [|p port r wr u|i okd hs u| | |k l]; cbn [plab] in El; try discriminate.
  - inversion El; subst. destruct Hdd.
  - destruct okd, hs; try discriminate. destruct (nth_error _ _); inversion El; subst. destruct Hdd.
  - destruct (nth_error (p_conns s) k) as [g|] eqn:Ek; [|discriminate]. cbn [pstep] in Hd. rewrite Ek in Hd. cbn [pdeadly].
    destruct l; cbn [slab] in El; try discriminate; try (destruct f; inversion El; subst; destruct Hdd; fail); inversion El; subst; cbn [deadly] in Hdd; try (destruct Hdd; fail).
    + destruct Hdd as (x & Ex & _ & Ep). assert (Ev : a_recv (g_a g) = VGot) by (eapply decode_at; intros Eb; rewrite Eb in Hd; discriminate). exists g. split; [exact Ek|]. split; [exact Ev|]. exists decode_fuel. rewrite <- Ep. apply DecodeAll_spare.
      destruct (v_conn _ _ _ _ _ Hi k g Ek) as (Hm & _). exact (slab_fair k g GDecode _ Hm eq_refl).
    + destruct Hdd as (x & m & Ex & ((r & Em) & _ & _) & Hx). cbn [ss_conns run_view] in Ex. rewrite nth_error_map, Ek in Ex. cbn in Ex. inversion Ex; subst x. clear Ex. cbn in Em, Hx. assert (Ev : a_recv (g_a g) = VWork) by (eapply handle_at; intros Eb; rewrite Eb in Hd; discriminate).
      exists g, m, r. auto.
Qed.
Lemma live_dies_iff P hashes files pc contents w0 peers s l : swarm_up P hashes files (pc_c pc) contents w0 -> no_faults w0 -> live (zlen hashes / 20) pc w0 peers s -> pfair l ->
  pstep pc l s = PDied <-> pdeadly P (zlen hashes / 20) pc s l.
Proof.
  intros Hu Hn H Hf. split; [eapply live_dies; eassumption|]. intros Hd. destruct (live_inv _ _ _ _ _ H) as (t0 & ls & Ht & Hi & _). pose proof (pinv_reaches _ _ _ _ _ _ Ht Hi) as Hr.
  assert (Hk : forall k l, match l with GDecode | GHandle => True | _ => False end -> pdeadly P (zlen hashes / 20) pc s (PConn k l) -> pstep pc (PConn k l) s = PDied).
  2: { destruct l as [|p port r wr u|i okd hs u| | |k l]; cbn [pdeadly] in Hd; try (destruct Hd; fail); [|destruct l; try (destruct Hd; fail); try (apply Hk; [exact I|exact Hd])].
       2: { destruct Hd as (g & E & E1 & E2). cbn [pstep]. rewrite E. cbn [gstep]. rewrite E1. destruct (a_procs (g_a g)); [congruence|reflexivity]. }
       2: { destruct Hd as (g & E & E1 & E2 & E3). cbn [pstep]. rewrite E. cbn [gstep]. rewrite E1, E2, E3. reflexivity. }
       cbn [pstep]. replace (Nat.ltb (sockets s) (pc_socks pc)) with false; [reflexivity|]. symmetry. apply Nat.ltb_ge. exact Hd. }
  clear l Hf Hd. intros k l Hl Hd.
  assert (Hg : exists g, nth_error (p_conns s) k = Some g) by (destruct l; try (destruct Hl; fail); cbn in Hd; [destruct Hd as (g & E & _)|destruct Hd as (g & m & r & E & _)]; eauto). destruct Hg as [g Ek].
  pose proof (pv_step pc (PConn k l) s (v_ok _ _ _ _ _ Hi)) as Hv. cbn [plab] in Hv. rewrite Ek in Hv. destruct (v_conn _ _ _ _ _ Hi k g Ek) as (Hm & _).
  pose proof (v_ok _ _ _ _ _ Hi) as Hok. unfold ok_all in Hok. rewrite Forall_forall in Hok. specialize (Hok g (nth_error_In _ _ Ek)). unfold ok_conn in Hok.
  assert (Hk' : nth_error (ss_conns (run_view s)) k = Some (conn_view g)) by (cbn; rewrite nth_error_map, Ek; reflexivity).
  assert (Hs : exists l', slab k g l = Some l' /\ fair l' /\ deadly P (zlen hashes / 20) (sc_own (pc_c pc)) (ss_conns (run_view s)) l' /\ pstep pc (PConn k l) s <> PBlocked).
  { destruct l; try (destruct Hl; fail); cbn [slab pdeadly] in *.
    - destruct Hd as (g0 & E & Ev & fuel & Ep). rewrite Ek in E. inversion E; subst g0. eexists. split; [reflexivity|]. split; [exact (slab_fair k g GDecode _ Hm eq_refl)|].
      assert (Hp : DecodeAll decode_fuel (mkslice (firstn (c_len (g_c g)) (c_mem (g_c g))) (skipn (c_len (g_c g)) (c_mem (g_c g)))) = Panic).
      { transitivity (DecodeAll decode_fuel (mkslice (in_buffer g) [])); [apply DecodeAll_spare; exact (slab_fair k g GDecode _ Hm eq_refl)|]. rewrite <- Ep. apply decode_enough; [apply hand_short; exact Hm|congruence]. }
      split; [|cbn [pstep]; rewrite Ek; cbn [gstep]; rewrite Ev, Hp; discriminate]. cbn [deadly]. exists (conn_view g). split; [exact Hk'|]. rewrite Ev in Hok. destruct Hok as [O1 O2]. split; [|exact Hp]. unfold idle. cbn. rewrite Ev. auto.
    - destruct Hd as (g0 & m & r & E & Ev & Em & Hx). rewrite Ek in E. inversion E; subst g0. eexists. split; [reflexivity|]. split; [exact I|]. rewrite Ev in Hok. split.
      + cbn [deadly]. exists (conn_view g), m. split; [exact Hk'|]. split; [|exact Hx]. unfold next_msg. cbn. rewrite Ev. eauto.
      + cbn [pstep]. rewrite Ek. cbn [gstep]. rewrite Ev, Em. destruct (handle_msg _ _ _) as [[[] ?] ?]; discriminate. }
  destruct Hs as (l' & El & Hfl & Hdl & Hb). apply (reach_dies_iff _ _ _ _ _ _ _ _ _ Hu Hn Hr Hfl) in Hdl. rewrite El in Hv. destruct (pstep pc (PConn k l) s) as [| |s']; [congruence|reflexivity|]. destruct Hv as [_ Hv]. rewrite Hdl in Hv. discriminate.
Qed.
(** ** The limit *)
Definition vok (pc : pconst) (g : gconn) : Prop :=
  match a_recv (g_a g) with VLock | VSpin => pc_rate pc <> -1 | VAdd => pc_rate pc <> -1 /\ 0 < pc_rate pc | VSend => pc_rate pc = -1 \/ 0 < pc_rate pc | _ => True end.
Definition vinv (pc : pconst) (s : pstate) : Prop := 0 <= sh_used (p_sh s) /\ Forall (vok pc) (p_conns s).
Lemma vok_step pc k sh g l sh' g' : gstep pc k sh g l = GWent sh' g' -> 0 <= sh_used sh -> vok pc g -> 0 <= sh_used sh' /\ vok pc g'.
Proof.
  destruct g as [m [L P V Q n] h]. destruct l; cbn [gstep g_m g_a g_c a_loop a_ping a_recv a_req a_procs recv_at req_at]; cbv zeta; intros E Hu Hv; cases E; went E; unfold vok in *; cbn [g_a a_recv recv_at req_at sh_used] in *;
    try (split; [assumption|try exact I; try assumption]).
  all: try match goal with |- context [match ?x with nil => VWork | cons _ _ => VWrite end] => destruct x end.
  all: try match goal with |- context [if ?x =? -1 then VSend else VLock] => destruct (Z.eqb_spec x (-1)); [left|]; assumption end.
  all: try match goal with |- context [match ?x with Some _ => _ | None => _ end] => destruct x end.
  all: try exact I.
  - left. match goal with H : (_ =? _) = true |- _ => apply Z.eqb_eq in H; exact H end.
  - match goal with H : (_ =? _) = false |- _ => apply Z.eqb_neq in H; exact H end.
  - match goal with H : (_ <? _) = true |- _ => apply Z.ltb_lt in H end. split; [assumption|lia].
  - pose proof (zlen_nonneg b). split; [lia|]. right. apply Hv.
Qed.
Lemma vinv_step pc l s s' : vinv pc s -> pstep pc l s = PWent s' -> vinv pc s'.
Proof.
  intros [Hu Hv] H. assert (Hnew : forall sk dl r, (forall g, r = Ok g -> a_recv (g_a g) = VNew) -> new_handler s sk dl r = PWent s' -> vinv pc s').
  { intros sk dl r Hr E. unfold new_handler in E. destruct r as [g| | |]; try discriminate. inversion E; subst. split; [exact Hu|]. apply Forall_app. split; [exact Hv|]. constructor; [|constructor]. unfold vok. rewrite (Hr g eq_refl). exact I. }
  destruct l as [|p port r wr u|i okd hs u| | |k l]; cbn [pstep] in H; cbv zeta in H.
  - destruct (Nat.ltb _ _); [|discriminate]. inversion H; subst. split; assumption.
  - destruct (p_shake s); [discriminate|]. destruct (in_peer _); try discriminate; [|inversion H; subst; split; assumption]. eapply Hnew; [|exact H]. intros g. apply fresh_hold.
  - destruct (nth_error (p_dial s) i); [|discriminate]. destruct okd; [|inversion H; subst; split; assumption]. destruct (Nat.ltb _ _); [|discriminate]. destruct hs; [|inversion H; subst; split; assumption]. eapply Hnew; [|exact H]. intros g. apply fresh_hold.
  - destruct (p_drop s); [discriminate|]. inversion H; subst. split; assumption.
  - inversion H; subst. split; [cbn; lia|assumption].
  - destruct (nth_error (p_conns s) k) as [g|] eqn:Ek; [|discriminate]. destruct (gstep pc k (p_sh s) g l) as [| |sh g'] eqn:Eg; try discriminate. inversion H; subst. clear H Hnew.
    destruct (vok_step _ _ _ _ _ _ _ Eg Hu (nth_error_Forall _ _ _ _ Hv Ek)) as [H1 H2]. split; [exact H1|]. apply Forall_lupd; assumption.
Qed.
Lemma vinv_run pc : forall ls s s', vinv pc s -> prun pc ls s = Some s' -> vinv pc s'.
Proof. induction ls as [|l ls IH]; intros s s' Hi H; cbn in H; [inversion H; subst; exact Hi|]. destruct (pstep pc l s) as [| |s1] eqn:E; try discriminate. exact (IH _ _ (vinv_step _ _ _ _ Hi E) H). Qed.
Lemma vinv_start pc t w peers : vinv pc (started t w peers).
Proof. split; [cbn; lia|constructor]. Qed.
Lemma live_vinv n pc w0 peers s : live n pc w0 peers s -> vinv pc s.
Proof. intros (t0 & ls & _ & _ & Hr). exact (vinv_run _ _ _ _ (vinv_start _ _ _ _) Hr). Qed.
(** ** How the answers get out *)
Section Progress.
Variable pc : pconst. Variable t0 : ppt. Variable w0 : world. Variable k : nat.
Hypothesis Hrate : pc_rate pc = -1 \/ 0 < pc_rate pc.
Definition good (s : pstate) : Prop := (exists ls, pinv pc t0 w0 ls s) /\ linv s /\ vinv pc s.
Definition goes (s s' : pstate) : Prop := exists ls, Forall (on_the_way k) ls /\ prun pc ls s = Some s'.
Definition ends (s : pstate) : Prop := exists ls s1 l, Forall (on_the_way k) ls /\ on_the_way k l /\ prun pc ls s = Some s1 /\ pstep pc l s1 = PDied.
Lemma way_fair l : on_the_way k l -> pfair l. Proof. destruct l; cbn; tauto. Qed.
Lemma goes_good s s' : good s -> goes s s' -> good s'.
Proof.
  intros ([ls Hi] & Hl & Hv) (ls1 & Hf & Hr). split; [|split; [eapply linv_run; eassumption|eapply vinv_run; eassumption]]. apply (pinv_run _ _ _ _ _ _ _ Hi) in Hr; [exact Hr|]. eapply Forall_impl; [|exact Hf]. exact way_fair.
Qed.
Lemma goes_refl s : goes s s. Proof. exists []. split; [constructor|reflexivity]. Qed.
Lemma goes_trans s1 s2 s3 : goes s1 s2 -> goes s2 s3 -> goes s1 s3.
Proof. intros (l1 & F1 & R1) (l2 & F2 & R2). exists (l1 ++ l2). split; [apply Forall_app; auto|]. rewrite prun_app, R1. exact R2. Qed.
Lemma goes_ends s1 s2 : goes s1 s2 -> ends s2 -> ends s1.
Proof. intros (l1 & F1 & R1) (l2 & s & l & F2 & Fl & R2 & D). exists (l1 ++ l2), s, l. split; [apply Forall_app; auto|]. split; [exact Fl|]. split; [rewrite prun_app, R1; exact R2|exact D]. Qed.
Definition moved (s : pstate) (j : nat) (sh : shared) (g : gconn) : pstate := mkps sh (p_shake s) (p_drop s) (p_dial s) (lupd (p_conns s) j g).
Lemma goes_one s j l g sh g' : nth_error (p_conns s) j = Some g -> on_the_way k (PConn j l) -> gstep pc j (p_sh s) g l = GWent sh g' -> goes s (moved s j sh g').
Proof. intros Hk Hw Hg. exists [PConn j l]. split; [constructor; [exact Hw|constructor]|]. cbn [prun pstep]. rewrite Hk, Hg. reflexivity. Qed.
Lemma moved_at s j sh g g' : nth_error (p_conns s) j = Some g -> nth_error (p_conns (moved s j sh g')) j = Some g'.
Proof. intros H. cbn. rewrite lupd_at, Nat.eqb_refl, H. reflexivity. Qed.
Lemma moved_other s j i sh g' : i <> j -> nth_error (p_conns (moved s j sh g')) i = nth_error (p_conns s) i.
Proof. intros H. cbn. rewrite lupd_at. apply Nat.eqb_neq in H. rewrite H. reflexivity. Qed.
Lemma good_conn s j g : good s -> nth_error (p_conns s) j = Some g -> ok_conn g /\ List.length (c_mem (g_c g)) = RecvBufSize /\ ReadLoopProofs.phase (read_view g) /\ vok pc g.
Proof.
  intros ([ls Hi] & _ & Hvv) Hk. split; [|].
  - pose proof (v_ok _ _ _ _ _ Hi) as H. unfold ok_all in H. rewrite Forall_forall in H. apply H. eapply nth_error_In; eassumption.
  - destruct (v_conn _ _ _ _ _ Hi j g Hk) as (Hm & (rls & tr & Hr & _) & _). split; [exact Hm|]. split; [apply ReadLoopProofs.reach in Hr; apply Hr|]. exact (nth_error_Forall _ _ _ _ (proj2 Hvv) Hk).
Qed.
Definition at_ (g : gconn) (v : vat) : gconn := mkg (g_m g) (recv_at (g_a g) v) (g_c g).
(** Holding the lock, one gets to the write, and the lock is free. *)
Lemma spun s j g : 0 < pc_rate pc -> good s -> nth_error (p_conns s) j = Some g -> holding (a_recv (g_a g)) = true ->
  exists s', goes s s' /\ sh_lock (p_sh s') = None /\ nth_error (p_conns s') j = Some (at_ g VSend) /\ forall i, i <> j -> nth_error (p_conns s') i = nth_error (p_conns s) i.
Proof.
  intros Hr Hg Hj Hh. destruct (good_conn s j g Hg Hj) as (Hok & _). unfold ok_conn in Hok.
  assert (HA : forall s1 g1, a_recv (g_a g1) = VAdd -> m_pend (g_m g1) <> [] -> nth_error (p_conns s1) j = Some g1 ->
    exists s', goes s1 s' /\ sh_lock (p_sh s') = None /\ nth_error (p_conns s') j = Some (at_ g1 VSend) /\ forall i, i <> j -> nth_error (p_conns s') i = nth_error (p_conns s1) i).
  { intros s1 g1 Ev Hp E1. destruct (m_pend (g_m g1)) as [|f r] eqn:Ep; [congruence|]. eexists. split; [eapply (goes_one s1 j GAdd g1); [exact E1|exact I|]; cbn [gstep]; rewrite Ev, Ep; reflexivity|].
    split; [reflexivity|]. split; [eapply moved_at; exact E1|]. intros i Hi. apply moved_other. exact Hi. }
  destruct (a_recv (g_a g)) eqn:Ev; try discriminate Hh; [|apply HA; assumption].
  pose (s1 := mkps (mksh (sh_ppt (p_sh s)) (sh_world (p_sh s)) 0 (sh_lock (p_sh s))) (p_shake s) (p_drop s) (p_dial s) (p_conns s)).
  assert (G1 : goes s s1) by (exists [PTick]; split; [repeat constructor|reflexivity]).
  assert (G2 : goes s1 (moved s1 j (p_sh s1) (at_ g VAdd))).
  { eapply (goes_one s1 j GSpin g); [exact Hj|exact I|]. cbn [gstep]. rewrite Ev. cbn [sh_used p_sh s1]. replace (0 <? pc_rate pc) with true by lia. reflexivity. }
  destruct (HA (moved s1 j (p_sh s1) (at_ g VAdd)) (at_ g VAdd)) as (s' & G3 & L3 & N3 & O3); [reflexivity|exact Hok|eapply moved_at; exact Hj|].
  exists s'. split; [eapply goes_trans; [exact G1|]; eapply goes_trans; [exact G2|exact G3]|]. split; [exact L3|]. split; [exact N3|]. intros i Hi. rewrite O3, moved_other by assumption. reflexivity.
Qed.
(** From RLIO.Write's beginning, or inside, to conn.Write. *)
Definition writing (v : vat) : bool := match v with VWrite | VLock | VSpin | VAdd | VSend => true | _ => false end.
Lemma to_send s g : good s -> nth_error (p_conns s) k = Some g -> writing (a_recv (g_a g)) = true ->
  exists s', goes s s' /\ nth_error (p_conns s') k = Some (at_ g VSend).
Proof.
  intros Hg Hk Hw.
  assert (Hp : a_recv (g_a g) = VWrite \/ a_recv (g_a g) = VSend \/ 0 < pc_rate pc).
  { destruct (good_conn _ _ _ Hg Hk) as (_ & _ & _ & Hv). unfold vok in Hv. destruct (a_recv (g_a g)); try discriminate Hw; auto; right; right; try lia. }
  assert (HL : 0 < pc_rate pc -> forall s g, good s -> nth_error (p_conns s) k = Some g -> a_recv (g_a g) = VLock -> exists s', goes s s' /\ nth_error (p_conns s') k = Some (at_ g VSend)).
  { clear s g Hg Hk Hw Hp. intros Hr s g Hg Hk Ev.
    assert (HF : exists s1, goes s s1 /\ sh_lock (p_sh s1) = None /\ nth_error (p_conns s1) k = Some g).
    { destruct (sh_lock (p_sh s)) as [j|] eqn:El; [|exists s; split; [apply goes_refl|auto]]. apply (proj1 (proj2 Hg)) in El. unfold hold in El. destruct (nth_error (p_conns s) j) as [gj|] eqn:Ej; [|discriminate].
      assert (k <> j) by (intros <-; rewrite Hk in Ej; inversion Ej; subst; rewrite Ev in El; discriminate). destruct (spun s j gj Hr Hg Ej El) as (s1 & G & L & _ & O). exists s1. split; [exact G|]. split; [exact L|]. rewrite O by assumption. exact Hk. }
    destruct HF as (s1 & G1 & L1 & N1). assert (G2 : goes s1 (moved s1 k (mksh (sh_ppt (p_sh s1)) (sh_world (p_sh s1)) (sh_used (p_sh s1)) (Some k)) (at_ g VSpin))).
    { eapply (goes_one s1 k GLock g); [exact N1|reflexivity|]. cbn [gstep]. rewrite Ev, L1. reflexivity. }
    pose proof (goes_good _ _ Hg (goes_trans _ _ _ G1 G2)) as Hg2.
    destruct (spun _ k (at_ g VSpin) Hr Hg2) as (s3 & G3 & _ & N3 & _); [eapply moved_at; exact N1|reflexivity|]. exists s3. split; [eapply goes_trans; [exact G1|]; eapply goes_trans; eassumption|exact N3]. }
  destruct (a_recv (g_a g)) eqn:Ev; try discriminate Hw.
  - assert (G1 : goes s (moved s k (p_sh s) (at_ g (if pc_rate pc =? -1 then VSend else VLock)))) by (eapply (goes_one s k GCheck g); [exact Hk|reflexivity|]; cbn [gstep]; rewrite Ev; reflexivity).
    destruct Hrate as [E|E].
    + rewrite E in G1. change (-1 =? -1) with true in G1. cbn iota in G1. eexists. split; [exact G1|]. eapply moved_at; exact Hk.
    + replace (pc_rate pc =? -1) with false in G1 by lia. destruct (HL E _ (at_ g VLock) (goes_good _ _ Hg G1)) as (s' & G2 & N2); [eapply moved_at; exact Hk|reflexivity|].
      exists s'. split; [eapply goes_trans; eassumption|exact N2].
  - destruct Hp as [Hp|[Hp|Hp]]; try discriminate. eapply HL; eassumption.
  - destruct Hp as [Hp|[Hp|Hp]]; try discriminate. destruct (spun s k g Hp Hg Hk) as (s' & G & _ & N & _); [rewrite Ev; reflexivity|]. eauto.
  - destruct Hp as [Hp|[Hp|Hp]]; try discriminate. destruct (spun s k g Hp Hg Hk) as (s' & G & _ & N & _); [rewrite Ev; reflexivity|]. eauto.
  - exists s. split; [apply goes_refl|]. rewrite Hk. destruct g as [m [L P V Q n] h]. cbn in Ev. subst V. reflexivity.
Qed.

Definition outcome_of (s : pstate) (Q : pstate -> gconn -> Prop) : Prop := ends s \/ exists s' g', goes s s' /\ nth_error (p_conns s') k = Some g' /\ Q s' g'.
Lemma after_goes s s1 Q : goes s s1 -> outcome_of s1 Q -> outcome_of s Q.
Proof. intros G [H|(s' & g' & G' & N & HQ)]; [left; eapply goes_ends; eassumption|right]. exists s', g'. split; [eapply goes_trans; eassumption|auto]. Qed.
Lemma written : forall n s g, (List.length (m_pend (g_m g)) <= n)%nat -> good s -> nth_error (p_conns s) k = Some g -> writing (a_recv (g_a g)) = true ->
  exists s' g', goes s s' /\ nth_error (p_conns s') k = Some g' /\ ((a_recv (g_a g') = VWork /\ m_todo (g_m g') = m_todo (g_m g)) \/ exists e, a_recv (g_a g') = VReady (Some e)).
Proof.
  induction n as [|n IH]; intros s g Hn Hg Hk Hw; destruct (to_send s g Hg Hk Hw) as (s1 & G1 & N1); pose proof (goes_good _ _ Hg G1) as Hg1; destruct (good_conn _ _ _ Hg1 N1) as (Hok & _); unfold ok_conn in Hok; cbn in Hok;
    destruct (m_pend (g_m g)) as [|f r] eqn:Ep; try congruence; [cbn in Hn; lia|]. cbn in Hn.
  destruct (m_up (g_m g)) eqn:Eu.
  - assert (G2 : goes s1 (moved s1 k (p_sh s1) (mkg (tx (g_m g) r true (m_out (g_m g) ++ f)) (recv_at (g_a (at_ g VSend)) (match r with [] => VWork | _ => VWrite end)) (g_c g)))).
    { eapply (goes_one s1 k (GSend None) (at_ g VSend)); [exact N1|reflexivity|]. cbn. rewrite Ep, Eu. reflexivity. }
    pose proof (goes_good _ _ Hg1 G2) as Hg2. destruct r as [|f2 r].
    + eexists _, _. split; [eapply goes_trans; eassumption|]. split; [eapply moved_at; exact N1|]. left. split; reflexivity.
    + destruct (IH (moved s1 k (p_sh s1) (mkg (tx (g_m g) (f2 :: r) true (m_out (g_m g) ++ f)) (recv_at (g_a (at_ g VSend)) VWrite) (g_c g))) (mkg (tx (g_m g) (f2 :: r) true (m_out (g_m g) ++ f)) (recv_at (g_a (at_ g VSend)) VWrite) (g_c g)) ltac:(cbn in *; lia) Hg2) as (s3 & g3 & G3 & N3 & Q3); [eapply moved_at; exact N1|reflexivity|].
      exists s3, g3. split; [eapply goes_trans; [exact G1|]; eapply goes_trans; eassumption|]. split; [exact N3|]. exact Q3.
  - assert (G2 : exists m', goes s1 (moved s1 k (p_sh s1) (mkg m' (recv_at (g_a (at_ g VSend)) (VReady (Some EIO))) (g_c g)))).
    { eexists. eapply (goes_one s1 k (GSend (Some 0%nat)) (at_ g VSend)); [exact N1|reflexivity|]. cbn. rewrite Ep. reflexivity. }
    destruct G2 as [m' G2]. eexists _, _. split; [eapply goes_trans; eassumption|]. split; [eapply moved_at; exact N1|]. right. eexists. reflexivity.
Qed.
Definition worked (s : pstate) (g : gconn) : Prop := (exists e, a_recv (g_a g) = VReady e) \/ a_recv (g_a g) = VHang.
Lemma work_done : forall n s g, (List.length (m_todo (g_m g)) <= n)%nat -> good s -> nth_error (p_conns s) k = Some g -> a_recv (g_a g) = VWork -> outcome_of s worked.
Proof.
  induction n as [|n IH]; intros s g Hn Hg Hk Ev; destruct (m_todo (g_m g)) as [|x r] eqn:Et.
  1,3: right; eexists _, _; split; [eapply (goes_one s k GHandled g); [exact Hk|reflexivity|]; cbn [gstep]; rewrite Ev, Et; reflexivity|]; split; [eapply moved_at; exact Hk|]; left; eexists; reflexivity.
  { cbn in Hn. lia. }
  destruct (gstep pc k (p_sh s) g GHandle) as [| |sh g'] eqn:Eg.
  - exfalso. cbn [gstep] in Eg. rewrite Ev, Et in Eg. destruct (handle_msg _ _ _) as [[[] ?] ?]; discriminate.
  - left. exists [], s, (PConn k GHandle). split; [constructor|]. split; [reflexivity|]. split; [reflexivity|]. cbn [pstep]. rewrite Hk, Eg. reflexivity.
  - assert (G1 : goes s (moved s k sh g')) by (eapply (goes_one s k GHandle g); [exact Hk|reflexivity|exact Eg]). pose proof (goes_good _ _ Hg G1) as Hg1. pose proof (moved_at s k sh g g' Hk) as N1.
    apply (after_goes _ _ _ G1). cbn [gstep] in Eg. rewrite Ev, Et in Eg. destruct (handle_msg _ _ _) as [[[u|e| |] out] h] eqn:Eh; try discriminate; apply GWent_inj in Eg; destruct Eg as [-> ->].
    + cbn in Hn. destruct out as [|f out].
      * eapply IH; [|exact Hg1|exact N1|reflexivity]. cbn. lia.
      * destruct (written _ _ _ (le_n _) Hg1 N1 eq_refl) as (s2 & g2 & G2 & N2 & [[Q2 T2]|[e Q2]]).
        -- apply (after_goes _ _ _ G2). eapply IH; [|exact (goes_good _ _ Hg1 G2)|exact N2|exact Q2]. rewrite T2. cbn. lia.
        -- right. exists s2, g2. split; [exact G2|]. split; [exact N2|]. left. eauto.
    + right. eexists _, _. split; [apply goes_refl|]. split; [exact N1|]. left. eexists. reflexivity.
    + right. eexists _, _. split; [apply goes_refl|]. split; [exact N1|]. right. reflexivity.
Qed.
Definition rested (s : pstate) (g : gconn) : Prop :=
  (a_recv (g_a g) = VSelect /\ c_buf (g_c g) = None /\ forall n, c_read (g_c g) <> ReadLoopModel.RSendBuf n) \/ receiving (a_recv (g_a g)) = false.
Lemma from_worked s g : good s -> nth_error (p_conns s) k = Some g -> worked s g -> outcome_of s rested.
Proof.
  intros Hg Hk [[e Ev]|Ev]; [|right; exists s, g; split; [apply goes_refl|]; split; [exact Hk|]; right; rewrite Ev; reflexivity].
  destruct (good_conn _ _ _ Hg Hk) as (_ & _ & Hph & _). unfold ReadLoopProofs.phase, ReadLoopProofs.quiet, read_view in Hph. cbn in Hph. rewrite Ev in Hph. cbn in Hph.
  assert (Hc : c_ready (g_c g) = false /\ c_buf (g_c g) = None /\ c_read (g_c g) = ReadLoopModel.RSelect) by (destruct (c_read (g_c g)); try tauto; destruct Hph as [(n & _ & _ & [])|[(A & B & _)|(_ & _ & [])]]; auto).
  destruct Hc as (C1 & C2 & C3).
  assert (G1 : goes s (moved s k (p_sh s) (mkg (g_m g) (recv_at (g_a g) (match e with Some x => VErr x | None => VSelect end)) (mkch (c_mem (g_c g)) (c_buf (g_c g)) true (c_read (g_c g)) (c_len (g_c g)) (c_got (g_c g)))))).
  { eapply (goes_one s k GPutReady g); [exact Hk|reflexivity|]. cbn [gstep]. rewrite Ev, C1. reflexivity. }
  right. eexists _, _. split; [exact G1|]. split; [eapply moved_at; exact Hk|]. unfold rested. cbn. destruct e; [right; reflexivity|left]. split; [reflexivity|]. split; [exact C2|]. rewrite C3. discriminate.
Qed.
Lemma then_ s Q R : good s -> outcome_of s Q -> (forall s' g', good s' -> nth_error (p_conns s') k = Some g' -> Q s' g' -> outcome_of s' R) -> outcome_of s R.
Proof. intros Hg [H|(s' & g' & G & N & HQ)] HR; [left; exact H|]. apply (after_goes _ _ _ G). eapply HR; [exact (goes_good _ _ Hg G)|exact N|exact HQ]. Qed.
Lemma from_work s g : good s -> nth_error (p_conns s) k = Some g -> a_recv (g_a g) = VWork -> outcome_of s rested.
Proof. intros Hg Hk Ev. eapply then_; [exact Hg|eapply (work_done _ s g (le_n _)); eassumption|]. apply from_worked. Qed.
Lemma from_got s g : good s -> nth_error (p_conns s) k = Some g -> a_recv (g_a g) = VGot -> outcome_of s rested.
Proof.
  intros Hg Hk Ev. destruct (gstep pc k (p_sh s) g GDecode) as [| |sh g'] eqn:Eg.
  - exfalso. cbn [gstep] in Eg. rewrite Ev in Eg. destruct (DecodeAll _ _) as [[]| | |]; discriminate Eg.
  - left. exists [], s, (PConn k GDecode). split; [constructor|]. split; [reflexivity|]. split; [reflexivity|]. cbn [pstep]. rewrite Hk, Eg. reflexivity.
  - assert (G1 : goes s (moved s k sh g')) by (eapply (goes_one s k GDecode g); [exact Hk|reflexivity|exact Eg]). pose proof (goes_good _ _ Hg G1) as Hg1. pose proof (moved_at s k sh g g' Hk) as N1.
    apply (after_goes _ _ _ G1). cbn [gstep] in Eg. rewrite Ev in Eg. destruct (DecodeAll _ _) as [[ms z]| | |]; try discriminate Eg; apply GWent_inj in Eg; destruct Eg as [-> ->].
    + eapply from_work; [exact Hg1|exact N1|reflexivity].
    + right. eexists _, _. split; [apply goes_refl|]. split; [exact N1|]. right. reflexivity.
    + right. eexists _, _. split; [apply goes_refl|]. split; [exact N1|]. right. reflexivity.
Qed.
Lemma from_select s g : good s -> nth_error (p_conns s) k = Some g -> a_recv (g_a g) = VSelect -> outcome_of s rested.
Proof.
  intros Hg Hk Ev.
  assert (HB : forall s g n, good s -> nth_error (p_conns s) k = Some g -> a_recv (g_a g) = VSelect -> c_buf (g_c g) = Some n -> outcome_of s rested).
  { clear s g Hg Hk Ev. intros s g n Hg Hk Ev Eb. assert (G1 : goes s (moved s k (p_sh s) (mkg (g_m g) (recv_at (g_a g) VGot) (mkch (c_mem (g_c g)) None (c_ready (g_c g)) (c_read (g_c g)) n (c_got (g_c g)))))).
    { eapply (goes_one s k GTakeBuf g); [exact Hk|reflexivity|]. cbn [gstep]. rewrite Ev, Eb. reflexivity. }
    apply (after_goes _ _ _ G1). eapply from_got; [exact (goes_good _ _ Hg G1)|eapply moved_at; exact Hk|reflexivity]. }
  destruct (c_buf (g_c g)) as [n|] eqn:Eb; [eapply HB; eassumption|].
  destruct (c_read (g_c g)) eqn:Er; try (right; exists s, g; split; [apply goes_refl|]; split; [exact Hk|]; left; split; [exact Ev|]; split; [exact Eb|]; intros i; rewrite Er; discriminate).
  assert (G1 : goes s (moved s k (p_sh s) (mkg (g_m g) (g_a g) (mkch (c_mem (g_c g)) (Some n) (c_ready (g_c g)) ReadLoopModel.RSelect (c_len (g_c g)) (c_got (g_c g)))))).
  { eapply (goes_one s k GPutBuf g); [exact Hk|reflexivity|]. cbn [gstep]. rewrite Er, Eb. reflexivity. }
  apply (after_goes _ _ _ G1). eapply HB; [exact (goes_good _ _ Hg G1)|eapply moved_at; exact Hk|exact Ev|reflexivity].
Qed.
Lemma to_rest s g : good s -> nth_error (p_conns s) k = Some g -> outcome_of s rested.
Proof.
  intros Hg Hk. destruct (receiving (a_recv (g_a g))) eqn:Erc; [|right; exists s, g; split; [apply goes_refl|]; split; [exact Hk|right; exact Erc]].
  destruct (writing (a_recv (g_a g))) eqn:Ew.
  { destruct (written _ _ _ (le_n _) Hg Hk Ew) as (s1 & g1 & G1 & N1 & [[Q1 _]|[e Q1]]); apply (after_goes _ _ _ G1); pose proof (goes_good _ _ Hg G1) as Hg1; [eapply from_work; eassumption|]. eapply from_worked; [exact Hg1|exact N1|]. left. eauto. }
  destruct (a_recv (g_a g)) as [| | | | | | | | | |e| | | | |] eqn:Ev; try discriminate.
  - assert (Hap : LoopModel.add_panics (a_loop (g_a g)) (a_procs (g_a g)) = false).
    { destruct Hg as ([ls Hi] & _). destruct (v_conn _ _ _ _ _ Hi k g Hk) as (_ & _ & lls & ltr & Hlr). destruct (LoopModel.add_panics (a_loop (g_a g)) (a_procs (g_a g))) eqn:E; [|reflexivity].
      assert (Hw : wg_panic g GRecvStart) by (cbn; rewrite Ev; exact E). destruct (wg_top _ _ _ _ _ Hlr Hw) as [(A & _)|(A & _)]; discriminate A. }
    assert (G1 : goes s (moved s k (p_sh s) (mkg (g_m g) (mkpc (a_loop (g_a g)) (a_ping (g_a g)) VSelect (a_req (g_a g)) (S (a_procs (g_a g)))) (g_c g)))) by (eapply (goes_one s k GRecvStart g); [exact Hk|reflexivity|]; cbn [gstep]; rewrite Ev, Hap; reflexivity).
    apply (after_goes _ _ _ G1). eapply from_select; [exact (goes_good _ _ Hg G1)|eapply moved_at; exact Hk|reflexivity].
  - eapply from_select; eassumption.
  - eapply from_got; eassumption.
  - eapply from_work; eassumption.
  - eapply from_worked; [exact Hg|exact Hk|]. left. eauto.
Qed.
End Progress.
Lemma live_settles P hashes files pc contents w0 peers s k g : swarm_up P hashes files (pc_c pc) contents w0 -> live (zlen hashes / 20) pc w0 peers s -> pc_rate pc = -1 \/ 0 < pc_rate pc -> nth_error (p_conns s) k = Some g ->
  exists ls s', Forall (on_the_way k) ls /\ prun pc ls s = Some s' /\
    ((exists l, on_the_way k l /\ pstep pc l s' = PDied) \/
     exists g', nth_error (p_conns s') k = Some g' /\ ((a_recv (g_a g') = VSelect /\ settled g') \/ receiving (a_recv (g_a g')) = false)).
Proof.
  intros Hu H Hr Hk. destruct (live_inv _ _ _ _ _ H) as (t0 & ls & Ht & Hi & Hl). pose proof (live_vinv _ _ _ _ _ H) as Hv.
  destruct (to_rest pc t0 w0 k Hr s g (conj (ex_intro _ ls Hi) (conj Hl Hv)) Hk) as [(ls1 & s1 & l & F1 & Fl & R1 & D1)|(s1 & g1 & (ls1 & F1 & R1) & N1 & Q1)].
  - exists ls1, s1. split; [exact F1|]. split; [exact R1|]. left. eauto.
  - exists ls1, s1. split; [exact F1|]. split; [exact R1|]. right. exists g1. split; [exact N1|]. destruct Q1 as [(Q1 & Q2 & Q3)|Q1]; [left; split; [exact Q1|]|right; exact Q1].
    destruct (goes_good pc t0 w0 k Hr s s1 (conj (ex_intro _ ls Hi) (conj Hl Hv)) (ex_intro _ ls1 (conj F1 R1))) as ([ls2 Hi2] & _).
    destruct (v_conn _ _ _ _ _ Hi2 k g1 N1) as (_ & (rls & tr & Hrr & Hd & Hc) & _). pose proof (ReadLoopProofs.reach _ _ _ _ Hrr) as HI. destruct (ReadLoopProofs.i_pend _ _ HI) as (w & Hw1 & Hw2). pose proof (ReadLoopProofs.i_phase _ _ HI) as Hph.
    unfold read_view in Hw2, Hph. cbn in Hw2. rewrite Q2 in Hw2. unfold ReadLoopProofs.phase in Hph. cbn in Hph. rewrite Q1 in Hph. cbn in Hph.
    assert (w = []) by (destruct (c_read (g_c g1)) eqn:E; try assumption; exfalso; eapply Q3; reflexivity). subst w. rewrite app_nil_r in Hw1. rewrite Hd, Hc in Hw1. unfold shown, in_hand in Hw1. rewrite Q1, app_nil_r in Hw1.
    assert (Hk' : nth_error (ss_conns (run_view s1)) k = Some (conn_view g1)) by (cbn; rewrite nth_error_map, N1; reflexivity).
    destruct (reach_heard _ _ _ _ _ _ _ _ _ _ Hu (pinv_reaches _ _ _ _ _ _ Ht Hi2) Hk') as (rest & H1 & H2). cbn in H1, H2. rewrite Q1 in H2. specialize (H2 eq_refl). subst rest.
    pose proof (v_ok _ _ _ _ _ Hi2) as Hok. unfold ok_all in Hok. rewrite Forall_forall in Hok. specialize (Hok g1 (nth_error_In _ _ N1)). unfold ok_conn in Hok. rewrite Q1 in Hok. destruct Hok as [O1 O2].
    exists (delivered k ls2). split; [exact Hw1|]. split; [rewrite O1, !app_nil_r in H1; exact H1|]. auto.
Qed.
Lemma live_lock n pc w0 peers s k : live n pc w0 peers s -> sh_lock (p_sh s) = Some k <-> exists g, nth_error (p_conns s) k = Some g /\ holding (a_recv (g_a g)) = true.
Proof.
  intros H. destruct (live_inv _ _ _ _ _ H) as (t0 & ls & _ & _ & Hl). rewrite (Hl k). unfold hold. destruct (nth_error (p_conns s) k) as [g|]; [|split; [discriminate|intros (g & E & _); discriminate]]. split; [eauto|]. intros (g' & E & Hh). inversion E; subst. exact Hh.
Qed.
(** ** A limit that lets nothing through *)
Definition mute (c : sconst) (g : gconn) : Prop :=
  exists n, let all := MakeHandshake (sc_ih c) (sc_id c) ++ stream (opening (sc_own c) (conn_view g) ++ repeat MKeepAlive n) in begins (m_out (g_m g)) all /\ (m_up (g_m g) = true -> m_out (g_m g) = all).
Lemma mute_step pc k sh g l sh' g' c : gstep pc k sh g l = GWent sh' g' -> a_recv (g_a g) <> VSend -> mute c g -> mute c g'.
Proof.
  intros H Hs Hm. assert (Hsame : m_in (g_m g') = m_in (g_m g) -> m_out (g_m g') = m_out (g_m g) -> (m_up (g_m g') = m_up (g_m g)) -> mute c g').
  { intros E1 E2 E3. destruct Hm as (n & H1 & H2). exists n. unfold opening, conn_view in *. cbn in *. rewrite E1, E2, E3. auto. }
  destruct g as [m [L P V Q n] h]. destruct l; cbn [gstep g_m g_a g_c a_loop a_ping a_recv a_req a_procs recv_at req_at] in *; cbv zeta in H; cases H; went H; try (apply Hsame; reflexivity); try congruence; clear Hsame;
    destruct Hm as (i & H1 & H2); exists (S i); unfold opening, conn_view in *; cbn [g_m g_a m_in m_out m_up k_in tx m_pend m_todo m_done m_who m_bf m_buf] in *;
    (assert (Hk : stream ((if m_in m then [MBitfield (sc_own c); MUnchoke] else [MUnchoke]) ++ repeat MKeepAlive (S i)) = stream ((if m_in m then [MBitfield (sc_own c); MUnchoke] else [MUnchoke]) ++ repeat MKeepAlive i) ++ keepalive)
      by (replace (S i) with (i + 1)%nat by lia; rewrite repeat_app, app_assoc, stream_app; reflexivity)); rewrite Hk, app_assoc.
  - rewrite H2 by assumption. split; [apply begins_first|discriminate].
  - rewrite app_nil_r. split; [apply begins_app; assumption|discriminate].
  - rewrite H2 by assumption. split; [apply begins_refl|reflexivity].
Qed.
Lemma mute_fresh c inc ptr key sent u g : msg_ok (MBitfield (sc_own c)) -> fresh_conn c inc ptr key sent u = Ok g -> (inc = true -> sent = MakeHandshake (sc_ih c) (sc_id c) ++ EncodeMsg (MBitfield (sc_own c))) ->
  (inc = false -> sent = MakeHandshake (sc_ih c) (sc_id c)) -> mute c g.
Proof.
  intros Hbf Hg H1 H2. unfold fresh_conn in Hg. destruct (NewBitfield _); cbn [bind] in Hg; try discriminate. apply Ok_eq in Hg. subst g. exists 0%nat. unfold opening, conn_view. cbn [g_m g_a m_in m_out m_up k_in repeat]. cbv zeta.
  assert (Hs : MakeHandshake (sc_ih c) (sc_id c) ++ stream ((if inc then [MBitfield (sc_own c); MUnchoke] else [MUnchoke]) ++ []) = sent ++ EncodeMsg MUnchoke).
  { rewrite app_nil_r. destruct inc; [rewrite H1 by reflexivity|rewrite H2 by reflexivity]; cbn [stream flat_map].
    - rewrite (Encode_wire (MBitfield (sc_own c))) by (exact I || exact Hbf). rewrite (Encode_wire MUnchoke) by exact I. now rewrite <- !app_assoc, app_nil_r.
    - rewrite (Encode_wire MUnchoke) by exact I. now rewrite app_nil_r. }
  rewrite Hs. destruct u; [split; [apply begins_first|discriminate]|split; [apply begins_refl|reflexivity]].
Qed.
Lemma mute_pstep pc l s s' : msg_ok (MBitfield (sc_own (pc_c pc))) -> pfair l -> pc_rate pc <= 0 -> pc_rate pc <> -1 -> vinv pc s -> Forall (mute (pc_c pc)) (p_conns s) -> pstep pc l s = PWent s' -> Forall (mute (pc_c pc)) (p_conns s').
Proof.
  intros Hbf Hf Hr0 Hr1 Hv Hm H.
  assert (Hnew : forall sk dl inc ptr key sent u, (inc = true -> sent = MakeHandshake (sc_ih (pc_c pc)) (sc_id (pc_c pc)) ++ EncodeMsg (MBitfield (sc_own (pc_c pc)))) -> (inc = false -> sent = MakeHandshake (sc_ih (pc_c pc)) (sc_id (pc_c pc))) ->
    new_handler s sk dl (fresh_conn (pc_c pc) inc ptr key sent u) = PWent s' -> Forall (mute (pc_c pc)) (p_conns s')).
  { intros sk dl inc ptr key sent u H1 H2 E. unfold new_handler in E. destruct (fresh_conn _ _ _ _ _ _) as [g| | |] eqn:Eg; try discriminate. inversion E; subst. apply Forall_app. split; [exact Hm|]. constructor; [|constructor]. exact (mute_fresh _ _ _ _ _ _ _ Hbf Eg H1 H2). }
  destruct l as [|p port r wr u|i okd hs u| | |k l]; cbn [pstep] in H; cbv zeta in H.
  - destruct (Nat.ltb _ _); [|discriminate]. inversion H; subst. exact Hm.
  - destruct (p_shake s); [discriminate|]. destruct (in_peer _) eqn:Ei; try discriminate; [|inversion H; subst; exact Hm]. eapply Hnew; [| |exact H]; [|discriminate]. intros _. eapply FromIncoming_sent; eassumption.
  - destruct (nth_error (p_dial s) i); [|discriminate]. destruct okd; [|inversion H; subst; exact Hm]. destruct (Nat.ltb _ _); [|discriminate]. destruct hs; [|inversion H; subst; exact Hm]. eapply Hnew; [| |exact H]; [discriminate|reflexivity].
  - destruct (p_drop s); [discriminate|]. inversion H; subst. exact Hm.
  - inversion H; subst. exact Hm.
  - destruct (nth_error (p_conns s) k) as [g|] eqn:Ek; [|discriminate]. destruct (gstep pc k (p_sh s) g l) as [| |sh g'] eqn:Eg; try discriminate. inversion H; subst. clear H Hnew. apply Forall_lupd; [exact Hm|].
    apply (mute_step _ _ _ _ _ _ _ _ Eg); [|exact (nth_error_Forall _ _ _ _ Hm Ek)]. intros Ev. pose proof (nth_error_Forall _ _ _ _ (proj2 Hv) Ek) as Hx. unfold vok in Hx. rewrite Ev in Hx. lia.
Qed.
Lemma live_mute P hashes files pc contents w0 peers s g : swarm_up P hashes files (pc_c pc) contents w0 -> live (zlen hashes / 20) pc w0 peers s -> pc_rate pc <= 0 -> pc_rate pc <> -1 -> In g (p_conns s) ->
  only_greeted (pc_c pc) g.
Proof.
  intros Hu (t0 & ls & _ & Hf & Hr) H0 H1 Hin. assert (Hbf : msg_ok (MBitfield (sc_own (pc_c pc)))) by apply Hu.
  assert (HA : Forall (mute (pc_c pc)) (p_conns s)).
  { assert (Hm0 : Forall (mute (pc_c pc)) (p_conns (started t0 w0 peers))) by constructor. pose proof (vinv_start pc t0 w0 peers) as Hv0. clear Hu Hin. revert Hm0 Hv0 Hf Hr. generalize (started t0 w0 peers) as s0.
    induction ls as [|l ls IH]; intros s0 Hm Hv Hf Hr; cbn in Hr; [inversion Hr; subst; exact Hm|]. destruct (pstep pc l s0) as [| |s1] eqn:E; try discriminate. inversion Hf; subst.
    apply (IH s1); try assumption; [eapply mute_pstep; eassumption|eapply vinv_step; eassumption]. }
  rewrite Forall_forall in HA. destruct (HA g Hin) as (n & Hn & _). exists n. exact Hn.
Qed.
