(** LogRunProofs.v: the log of a run. *)
From Coq Require Import ZifyBool ZifyNat ZifyN.
From Verif Require Import Base BencodeModel BitfieldModel BitfieldSpec WireModel WireSpec WireProofs HandshakeModel HandshakeSpec LayoutModel LayoutSpec DsModel PptModel PeerModel UtilsModel TrackerModel FsModel FsSpec SwarmModel SwarmProofs SessionModel SessionSpec RunModel RunSpec RunProofs ProcModel ProcSpec ProcProofs ProcLiveProofs ProcSockProofs StartModel LogModel LogSpec LogProofs.
From Verif Require LoopModel ReadLoopModel.
Local Opaque decode_fuel RecvBufSize.

(** ** Keep-alives and bitfields of one handler *)
Definition tick (l : glabel) : nat := match l with GPingTick None => 1%nat | _ => 0%nat end.
Definition pinged_ok (n : nat) (ls : list logline) (g : gconn) : Prop :=
  count is_pinged ls = (n + count is_ping_err ls)%nat /\
  match a_ping (g_a g) with LoopModel.PNew | LoopModel.PSelect | LoopModel.PErr => count is_ping_err ls = 0%nat | _ => (count is_ping_err ls <= 1)%nat end.
Lemma tail_count f i x y : (forall a, f (LDone a) = false) -> count f match x, y with LoopModel.LEnd, _ => [] | _, LoopModel.LEnd => [LDone (Addr i)] | _, _ => [] end = 0%nat.
Proof. intros H. destruct x, y; cbn; rewrite ?H; reflexivity. Qed.
Lemma glog_pinged pc i a sh g l g' : count is_pinged (glog pc i a sh g l g') = (tick l + match l with GPingErr => 1 | _ => 0 end)%nat.
Proof.
  unfold glog. rewrite count_app, tail_count, Nat.add_0_r by reflexivity. destruct l; try reflexivity.
  - destruct f; reflexivity.
  - destruct (DecodeAll _ _) as [[]| | |]; reflexivity.
  - destruct (m_todo (g_m g)) as [|[]]; try reflexivity. destruct (handleBitfield _ _ _ _ _ _) as [[[]]]; reflexivity.
  - destruct (a_recv (g_a g)); reflexivity.
  - destruct (c_got (g_c g)); reflexivity.
Qed.
Lemma glog_ping_err pc i a sh g l g' : count is_ping_err (glog pc i a sh g l g') = match l with GPingErr => 1%nat | _ => 0%nat end.
Proof.
  unfold glog. rewrite count_app, tail_count, Nat.add_0_r by reflexivity. destruct l; try reflexivity.
  - destruct f; reflexivity.
  - destruct (DecodeAll _ _) as [[]| | |]; reflexivity.
  - destruct (m_todo (g_m g)) as [|[]]; try reflexivity. destruct (handleBitfield _ _ _ _ _ _) as [[[]]]; reflexivity.
  - destruct (a_recv (g_a g)); reflexivity.
  - destruct (c_got (g_c g)); reflexivity.
Qed.
Lemma glog_registered pc i a sh g l g' : count is_registered (glog pc i a sh g l g') =
  match l, m_todo (g_m g) with
  | GHandle, MBitfield b :: _ => match handleBitfield (sh_ppt sh) (sc_own (pc_c pc)) (ti_npieces (sc_ti (pc_c pc))) (m_who (g_m g)) (m_bf (g_m g)) b with (Ok _, _, _) => 1%nat | _ => 0%nat end
  | _, _ => 0%nat
  end.
Proof.
  unfold glog. rewrite count_app, tail_count, Nat.add_0_r by reflexivity. destruct l; try reflexivity.
  - destruct f; reflexivity.
  - destruct (DecodeAll _ _) as [[]| | |]; reflexivity.
  - destruct (m_todo (g_m g)) as [|[]]; try reflexivity. destruct (handleBitfield _ _ _ _ _ _) as [[[]]]; reflexivity.
  - destruct (a_recv (g_a g)); reflexivity.
  - destruct (c_got (g_c g)); reflexivity.
Qed.
Lemma pinged_step pc k i a sh g l sh' g' n ls : gstep pc k sh g l = GWent sh' g' -> pinged_ok n ls g -> pinged_ok (n + tick l) (ls ++ glog pc i a sh g l g') g'.
Proof.
  intros E [H1 H2]. unfold pinged_ok. rewrite !count_app, glog_pinged, glog_ping_err, H1. split; [lia|].
  destruct g as [m [L P V Q q] h]. destruct l; cbn [gstep g_m g_a g_c a_loop a_ping a_recv a_req a_procs recv_at req_at] in E; cbv zeta in E; cases E; went E;
    cbn [g_m g_a g_c a_loop a_ping a_recv a_req a_procs recv_at req_at] in *; rewrite ?Nat.add_0_r; try exact H2; try lia.
Qed.
Lemma gstep_done pc k sh g l sh' g' : gstep pc k sh g l = GWent sh' g' -> m_done (g_m g') = m_done (g_m g) ++ match l, m_todo (g_m g) with GHandle, x :: _ => [x] | _, _ => [] end.
Proof.
  intros E. destruct g as [m [L P V Q q] h]. destruct l; cbn [gstep g_m g_a g_c a_loop a_ping a_recv a_req a_procs recv_at req_at] in E; cbv zeta in E; cases E; went E;
    cbn [g_m g_a g_c m_done m_todo rx tx]; rewrite ?app_nil_r; try reflexivity; match goal with H : m_todo _ = _ |- _ => rewrite H end; reflexivity.
Qed.

(** ** The steps of a run *)
Definition hello (a : bytes) (inc : bool) (u : option nat) : list logline := (if inc then [LGood a; LSentHs a; LSentBf a] else []) ++ unchoking u.
Definition ticks (k : nat) (l : wlabel) : nat := match l with WDo (PConn j gl) => if Nat.eqb j k then tick gl else 0%nat | _ => 0%nat end.
Lemma keepalives_app k a b : keepalives k (a ++ b) = (keepalives k a + keepalives k b)%nat.
Proof. unfold keepalives. rewrite filter_app, app_length. reflexivity. Qed.
Lemma keepalives_one k l : keepalives k [l] = ticks k l.
Proof. unfold keepalives, ticks. destruct l as [|[]]; try reflexivity. destruct l; cbn; try (destruct (Nat.eqb _ _); reflexivity). destruct f; cbn; destruct (Nat.eqb _ _); reflexivity. Qed.
Lemma wrun_snoc pc : forall ls l s s2 es, wrun pc (ls ++ [l]) s = Some (s2, es) -> exists s1 e1 e2, wrun pc ls s = Some (s1, e1) /\ wstep pc l s1 = WWent s2 e2 /\ es = e1 ++ e2.
Proof.
  induction ls as [|x ls IH]; intros l s s2 es H.
  - cbn [app wrun] in H. destruct (wstep pc l s) as [| |s1 e1] eqn:E; try discriminate. injection H as <- <-. exists s, [], e1. rewrite app_nil_r. auto.
  - cbn [app wrun] in *. destruct (wstep pc x s) as [| |s1 e1] eqn:E; try discriminate. destruct (wrun pc (ls ++ [l]) s1) as [[s3 e3]|] eqn:E2; try discriminate. injection H as <- <-.
    destruct (IH _ _ _ _ E2) as (s4 & e4 & e5 & H1 & H2 & ->). rewrite H1. exists s4, (e1 ++ e4), e5. rewrite app_assoc. auto.
Qed.
Lemma prun_snoc pc : forall ls l s s1 s2, prun pc ls s = Some s1 -> pstep pc l s1 = PWent s2 -> prun pc (ls ++ [l]) s = Some s2.
Proof.
  induction ls as [|x ls IH]; intros l s s1 s2 H1 H2; cbn [prun app] in *.
  - injection H1 as <-. rewrite H2. reflexivity.
  - destruct (pstep pc x s); try discriminate. eapply IH; eassumption.
Qed.
(** What a step of the logged process is. *)
Inductive went_by (pc : pconst) (l : wlabel) (s s' : wstate) : list entry -> Prop :=
| went_new inc i a u sent g : p_conns (w_p s') = p_conns (w_p s) ++ [g] -> w_who s' = w_who s ++ [(i, a)] -> fresh_conn (pc_c pc) inc (List.length (p_conns (w_p s))) (Key i) sent u = Ok g -> (forall k, ticks k l = 0%nat) ->
    went_by pc l s s' (map (pair (Some (List.length (p_conns (w_p s))))) (hello a inc u))
| went_old log : p_conns (w_p s') = p_conns (w_p s) -> w_who s' = w_who s -> (forall k, ticks k l = 0%nat) -> went_by pc l s s' (map (pair None) log)
| went_conn j gl g g' i a sh' : l = WDo (PConn j gl) -> nth_error (p_conns (w_p s)) j = Some g -> nth_error (w_who s) j = Some (i, a) -> gstep pc j (p_sh (w_p s)) g gl = GWent sh' g' ->
    p_conns (w_p s') = lupd (p_conns (w_p s)) j g' -> p_sh (w_p s') = sh' -> w_who s' = w_who s -> went_by pc l s s' (map (pair (Some j)) (glog pc i a (p_sh (w_p s)) g gl g')).
Lemma PWent_eq a b : PWent a = PWent b -> b = a.
Proof. intros H. inversion H. reflexivity. Qed.
Lemma WWent_eq a b e f : WWent a e = WWent b f -> b = a /\ f = e.
Proof. intros H. inversion H. auto. Qed.
Lemma wstep_went pc l s s' e : wstep pc l s = WWent s' e -> pstep pc (erase l) (w_p s) = PWent (w_p s') /\ went_by pc l s s' e.
Proof.
  unfold wstep. destruct (pstep pc (erase l) (w_p s)) as [| |p'] eqn:Ep; try discriminate. intros H.
  destruct l as [q port|l]; cbn [erase] in Ep.
  - apply WWent_eq in H. destruct H as [-> ->]. split; [reflexivity|]. apply went_old; cbn; try reflexivity.
    cbn [pstep] in Ep. destruct (Nat.ltb _ _); try discriminate. apply PWent_eq in Ep. rewrite Ep. reflexivity.
  - destruct l; try discriminate.
    + cbn [pstep] in Ep. cbv zeta in Ep. destruct (p_shake (w_p s)) as [|m]; try discriminate.
      assert (Hu : in_log (pc_c pc) (TCPAddrString p port) r wr u = match in_peer (FromIncoming (sc_ih (pc_c pc)) (sc_id (pc_c pc)) (sc_own (pc_c pc)) r wr) with Ok _ => hello (TCPAddrString p port) true u | _ => in_log (pc_c pc) (TCPAddrString p port) r wr u end)
        by (unfold in_log, hello; destruct (in_peer _); reflexivity).
      destruct (in_peer _) as [id|er| |]; try discriminate.
      * unfold new_handler in Ep. destruct (fresh_conn _ _ _ _ _ _) as [g| | |] eqn:Ef; try discriminate. apply PWent_eq in Ep. rewrite Hu in H. apply WWent_eq in H. destruct H as [-> ->]. split; [reflexivity|].
        eapply went_new; [cbn; rewrite Ep; reflexivity|reflexivity|exact Ef|reflexivity].
      * apply PWent_eq in Ep. apply WWent_eq in H. destruct H as [-> ->]. split; [reflexivity|]. apply went_old; cbn; rewrite ?Ep; reflexivity.
    + cbn [pstep] in Ep. destruct (nth_error (p_dial (w_p s)) i) as [d|]; try discriminate. destruct ok.
      * destruct (Nat.ltb _ _); try discriminate. destruct hs; cbn [andb] in H.
        -- unfold new_handler in Ep. destruct (fresh_conn _ _ _ _ _ _) as [g| | |] eqn:Ef; try discriminate. apply PWent_eq in Ep. apply WWent_eq in H. destruct H as [-> ->]. split; [reflexivity|].
           change (unchoking u) with (hello (TCPAddrString (pi_ip d) (pi_port d)) false u). eapply went_new; [cbn; rewrite Ep; reflexivity|reflexivity|exact Ef|reflexivity].
        -- apply PWent_eq in Ep. apply WWent_eq in H. destruct H as [-> ->]. split; [reflexivity|]. apply went_old; cbn; rewrite ?Ep; reflexivity.
      * apply PWent_eq in Ep. apply WWent_eq in H. destruct H as [-> ->]. split; [reflexivity|]. apply went_old; cbn; rewrite ?Ep; reflexivity.
    + cbn [pstep] in Ep. destruct (p_drop (w_p s)); try discriminate. apply PWent_eq in Ep. apply WWent_eq in H. destruct H as [-> ->]. split; [reflexivity|]. apply (went_old _ _ _ _ []); cbn; rewrite ?Ep; reflexivity.
    + cbn [pstep] in Ep. apply PWent_eq in Ep. apply WWent_eq in H. destruct H as [-> ->]. split; [reflexivity|]. apply (went_old _ _ _ _ []); cbn; rewrite ?Ep; reflexivity.
    + cbn [pstep] in Ep. destruct (nth_error (p_conns (w_p s)) k) as [g|] eqn:Eg; try discriminate. destruct (gstep _ _ _ _ _) as [| |sh' g'] eqn:Es; try discriminate. apply PWent_eq in Ep.
      assert (Hp : p_conns p' = lupd (p_conns (w_p s)) k g') by (rewrite Ep; reflexivity).
      rewrite Hp in H. rewrite (ProcProofs.lupd_at _ k g' k) in H. rewrite Eg, Nat.eqb_refl in H. destruct (nth_error (w_who s) k) as [[i a]|] eqn:Ew; try discriminate.
      apply WWent_eq in H. destruct H as [-> ->]. split; [reflexivity|]. eapply went_conn; [reflexivity|exact Eg|exact Ew|exact Es|exact Hp|cbn; rewrite Ep; reflexivity|reflexivity].
Qed.
Lemma wstep_new pc l s p' : List.length (w_who s) = List.length (p_conns (w_p s)) -> l <> WDo PAccept -> pstep pc (erase l) (w_p s) = PWent p' -> exists s' e, wstep pc l s = WWent s' e /\ w_p s' = p'.
Proof.
  intros Hl Hn Ep. unfold wstep. rewrite Ep. destruct l as [q port|l]; [do 2 eexists; split; reflexivity|]. cbn [erase] in Ep. destruct l; try congruence.
  - destruct (in_peer _); do 2 eexists; split; reflexivity.
  - cbn [pstep] in Ep. destruct (nth_error (p_dial (w_p s)) i); try discriminate. destruct (ok && hs)%bool; do 2 eexists; split; reflexivity.
  - do 2 eexists; split; reflexivity.
  - do 2 eexists; split; reflexivity.
  - cbn [pstep] in Ep. destruct (nth_error (p_conns (w_p s)) k) as [g|] eqn:Eg; try discriminate. destruct (gstep _ _ _ _ _) as [| |sh' g'] eqn:Es; try discriminate. apply PWent_eq in Ep.
    assert (Hp : p_conns p' = lupd (p_conns (w_p s)) k g') by (rewrite Ep; reflexivity). rewrite Hp, (ProcProofs.lupd_at _ k g' k), Eg, Nat.eqb_refl.
    destruct (nth_error (w_who s) k) as [[i a]|] eqn:Ew; [do 2 eexists; split; reflexivity|]. exfalso. apply nth_error_None in Ew. assert (k < List.length (p_conns (w_p s)))%nat by (apply nth_error_Some; congruence). lia.
Qed.

(** ** Every run *)
Lemma gstep_same pc k sh g l sh' g' : gstep pc k sh g l = GWent sh' g' -> m_who (g_m g') = m_who (g_m g) /\ m_in (g_m g') = m_in (g_m g).
Proof.
  intros E. destruct g as [m [L P V Q q] h]. destruct l; cbn [gstep g_m g_a g_c a_loop a_ping a_recv a_req a_procs recv_at req_at] in E; cbv zeta in E; cases E; went E; split; reflexivity.
Qed.
Lemma fresh_is c inc ptr key sent u g : fresh_conn c inc ptr key sent u = Ok g -> h_key (m_who (g_m g)) = key /\ m_in (g_m g) = inc.
Proof. unfold fresh_conn. destruct (NewBitfield _); cbn [bind]; try discriminate. intros E. apply Ok_eq in E. rewrite E. split; reflexivity. Qed.
Lemma nth_snoc {A} (l : list A) x k y : nth_error (l ++ [x]) k = Some y -> (k < List.length l)%nat /\ nth_error l k = Some y \/ k = List.length l /\ y = x.
Proof.
  intros H. destruct (Nat.lt_ge_cases k (List.length l)) as [Hk|Hk].
  - left. rewrite nth_error_app1 in H by exact Hk. auto.
  - right. rewrite nth_error_app2 in H by exact Hk. destruct (k - List.length l)%nat as [|d] eqn:E; cbn in H; [|destruct d; discriminate]. split; [lia|congruence].
Qed.
Lemma wrun_base pc t w peers : forall ls s es, wrun pc ls (wstarted t w peers) = Some (s, es) ->
  List.length (w_who s) = List.length (p_conns (w_p s)) /\ prun pc (map erase ls) (started t w peers) = Some (w_p s) /\
  (forall k, (List.length (p_conns (w_p s)) <= k)%nat -> lines_by k es = [] /\ keepalives k ls = 0%nat) /\
  (forall k g i a, nth_error (p_conns (w_p s)) k = Some g -> nth_error (w_who s) k = Some (i, a) -> h_key (m_who (g_m g)) = Key i).
Proof.
  induction ls as [|l ls IH] using rev_ind; intros s es H.
  - injection H as <- <-. repeat split; try reflexivity. intros k g i a E. destruct k; discriminate.
  - apply wrun_snoc in H. destruct H as (s1 & e1 & e2 & H1 & H2 & ->). destruct (IH _ _ H1) as (A & B & C & D). destruct (wstep_went _ _ _ _ _ H2) as [P1 P2].
    split; [|split; [|split]].
    + destruct P2 as [inc i a u sent g Hc Hw| |j gl g g' i a sh' _ _ _ _ Hc _ Hw]; rewrite Hc, Hw || congruence; [rewrite !app_length; cbn; lia|rewrite lupd_len; exact A].
    + rewrite map_app. eapply prun_snoc; eassumption.
    + intros k Hk. rewrite lines_by_app, keepalives_app, keepalives_one. destruct P2 as [inc i a u sent g Hc Hw Hf Ht|log Hc Hw Ht|j gl g g' i a sh' -> Hg _ _ Hc _ Hw].
      * rewrite Hc, app_length in Hk. cbn in Hk. destruct (C k) as [-> ->]; [lia|]. rewrite lines_by_tag, Ht. destruct (Nat.eqb_spec (List.length (p_conns (w_p s1))) k); [lia|]. split; reflexivity.
      * rewrite Hc in Hk. destruct (C k) as [-> ->]; [lia|]. rewrite lines_by_none, Ht. split; reflexivity.
      * rewrite Hc, lupd_len in Hk. destruct (C k) as [-> ->]; [lia|]. assert (j < List.length (p_conns (w_p s1)))%nat by (apply nth_error_Some; congruence). rewrite lines_by_tag. cbn [ticks].
        destruct (Nat.eqb_spec j k); [lia|]. split; reflexivity.
    + intros k g0 i0 a0 Hk Hk2. destruct P2 as [inc i a u sent g Hc Hw Hf Ht|log Hc Hw Ht|j gl g g' i a sh' -> Hg Hi Hs Hc _ Hw]; rewrite Hc in Hk; rewrite Hw in Hk2.
      * apply nth_snoc in Hk. apply nth_snoc in Hk2. destruct Hk as [[? ?]|[? ->]], Hk2 as [[? ?]|[? Hx]]; try lia; [eapply D; eassumption|]. injection Hx as -> ->. apply (fresh_is _ _ _ _ _ _ _ Hf).
      * eapply D; eassumption.
      * rewrite lupd_at in Hk. destruct (Nat.eqb_spec k j) as [->|]; [|eapply D; eassumption]. rewrite Hg in Hk. injection Hk as <-. rewrite (proj1 (gstep_same _ _ _ _ _ _ _ Hs)). eapply D; eassumption.
Qed.
(** A property of the handlers and their lines that starts and goes on. *)
Lemma wrun_each (F : wlabel -> Prop) pc t w peers (Q : nat -> list logline -> gconn -> Prop) :
  (forall inc i a u sent ptr g, fresh_conn (pc_c pc) inc ptr (Key i) sent u = Ok g -> Q 0%nat (hello a inc u) g) ->
  (forall ls s es k g i a gl sh' g', Forall F ls -> wrun pc ls (wstarted t w peers) = Some (s, es) -> nth_error (p_conns (w_p s)) k = Some g -> gstep pc k (p_sh (w_p s)) g gl = GWent sh' g' ->
     Q (keepalives k ls) (lines_by k es) g -> Q (keepalives k ls + tick gl)%nat (lines_by k es ++ glog pc i a (p_sh (w_p s)) g gl g') g') ->
  forall ls s es, Forall F ls -> wrun pc ls (wstarted t w peers) = Some (s, es) -> forall k g, nth_error (p_conns (w_p s)) k = Some g -> Q (keepalives k ls) (lines_by k es) g.
Proof.
  intros Q0 Q1. induction ls as [|l ls IH] using rev_ind; intros s es HF H k g0 Hk.
  - injection H as <- <-. destruct k; discriminate.
  - apply Forall_app in HF. destruct HF as [HF _]. apply wrun_snoc in H. destruct H as (s1 & e1 & e2 & H1 & H2 & ->). destruct (wrun_base _ _ _ _ _ _ _ H1) as (A & _ & C & _). destruct (wstep_went _ _ _ _ _ H2) as [P1 P2].
    rewrite lines_by_app, keepalives_app, keepalives_one. destruct P2 as [inc i a u sent g Hc Hw Hf Ht|log Hc Hw Ht|j gl g g' i a sh' -> Hg Hi Hs Hc _ Hw]; rewrite Hc in Hk.
    + rewrite lines_by_tag, Ht, Nat.add_0_r. apply nth_snoc in Hk. destruct Hk as [[Hl Hk]|[-> ->]].
      * destruct (Nat.eqb_spec (List.length (p_conns (w_p s1))) k); [lia|]. rewrite app_nil_r. eapply IH; eassumption.
      * rewrite Nat.eqb_refl. destruct (C _ (le_n _)) as [-> ->]. eapply Q0; exact Hf.
    + rewrite lines_by_none, Ht, Nat.add_0_r, app_nil_r. eapply IH; eassumption.
    + rewrite lines_by_tag. cbn [ticks]. rewrite lupd_at in Hk. destruct (Nat.eqb_spec k j) as [->|Hn].
      * rewrite Hg in Hk. injection Hk as <-. rewrite Nat.eqb_refl. eapply Q1; try eassumption. eapply IH; eassumption.
      * destruct (Nat.eqb_spec j k); [congruence|]. rewrite Nat.add_0_r, app_nil_r. eapply IH; eassumption.
Qed.
Lemma all_true {A} (l : list A) : Forall (fun _ => True) l.
Proof. induction l; constructor; auto. Qed.
Lemma fresh_tok c inc ptr key sent u g : fresh_conn c inc ptr key sent u = Ok g -> tok g.
Proof.
  unfold fresh_conn. destruct (NewBitfield _); cbn [bind]; try discriminate. intros E. apply Ok_eq in E. rewrite E. unfold tok. cbn [g_c g_a c_mem c_read c_buf c_ready c_got a_recv].
  split; [unfold FsModel.zeros; rewrite repeat_length, Nat2Z.id; reflexivity|]. repeat split; reflexivity.
Qed.
Lemma fresh_shows c inc i a ptr sent u g : fresh_conn c inc ptr (Key i) sent u = Ok g -> shows (hello a inc u) g.
Proof.
  unfold fresh_conn. destruct (NewBitfield _); cbn [bind]; try discriminate. intros E. apply Ok_eq in E. rewrite E. unfold shows. destruct inc, u; cbn; repeat split; reflexivity.
Qed.
Lemma fresh_decoded c inc i a ptr sent u g : fresh_conn c inc ptr (Key i) sent u = Ok g -> decoded_ok (hello a inc u) g.
Proof.
  unfold fresh_conn. destruct (NewBitfield _); cbn [bind]; try discriminate. intros E. apply Ok_eq in E. rewrite E. unfold decoded_ok. replace (decodes (hello a inc u)) with (@nil (Z * Z)) by (destruct inc, u; reflexivity).
  split; [exists []; split; reflexivity|apply Forall_nil].
Qed.
Lemma fresh_pinged c inc i a ptr sent u g : fresh_conn c inc ptr (Key i) sent u = Ok g -> pinged_ok 0 (hello a inc u) g.
Proof.
  unfold fresh_conn. destruct (NewBitfield _); cbn [bind]; try discriminate. intros E. apply Ok_eq in E. rewrite E. unfold pinged_ok. destruct inc, u; cbn; repeat split; reflexivity.
Qed.
Lemma wrun_shows pc t w peers ls s es k g : wrun pc ls (wstarted t w peers) = Some (s, es) -> nth_error (p_conns (w_p s)) k = Some g ->
  tok g /\ shows (lines_by k es) g /\ decoded_ok (lines_by k es) g /\ pinged_ok (keepalives k ls) (lines_by k es) g.
Proof.
  intros H Hk. refine (wrun_each (fun _ => True) pc t w peers (fun n lg g => tok g /\ shows lg g /\ decoded_ok lg g /\ pinged_ok n lg g) _ _ ls s es (all_true _) H k g Hk).
  - intros inc i a u sent ptr g0 Hf. split; [exact (fresh_tok _ _ _ _ _ _ _ Hf)|]. split; [exact (fresh_shows _ _ _ _ _ _ _ _ Hf)|]. split; [exact (fresh_decoded _ _ _ _ _ _ _ _ Hf)|exact (fresh_pinged _ _ _ _ _ _ _ _ Hf)].
  - intros ls0 s0 es0 k0 g0 i a gl sh' g' _ _ _ Hs (H1 & H2 & H3 & H4). split; [eapply tok_step; eassumption|]. split; [eapply shows_step; eassumption|]. split; [eapply decoded_step; eassumption|eapply pinged_step; eassumption].
Qed.
(** The run of the process behind it, and back. *)
Lemma wrun_lift pc t w peers : forall ls p, ~ In (WDo PAccept) ls -> prun pc (map erase ls) (started t w peers) = Some p -> exists s es, wrun pc ls (wstarted t w peers) = Some (s, es) /\ w_p s = p.
Proof.
  assert (Hg : forall ls s p, List.length (w_who s) = List.length (p_conns (w_p s)) -> ~ In (WDo PAccept) ls -> prun pc (map erase ls) (w_p s) = Some p -> exists s' es, wrun pc ls s = Some (s', es) /\ w_p s' = p).
  { induction ls as [|l ls IH]; intros s p Hl Hn H; cbn [map prun] in H.
    - injection H as <-. exists s, []. split; reflexivity.
    - destruct (pstep pc (erase l) (w_p s)) as [| |p1] eqn:E; try discriminate. destruct (wstep_new pc l s p1 Hl) as (s1 & e1 & H1 & H2); [intros ->; apply Hn; left; reflexivity|exact E|].
      subst p1. assert (Hl1 : List.length (w_who s1) = List.length (p_conns (w_p s1))).
      { destruct (wstep_went _ _ _ _ _ H1) as [_ [inc i a u sent g Hc Hw| |j gl g g' i a sh' _ _ _ _ Hc _ Hw]]; rewrite ?Hc, ?Hw; try congruence; [rewrite !app_length; cbn; lia|rewrite lupd_len; exact Hl]. }
      destruct (IH s1 p Hl1) as (s2 & e2 & H3 & H4); [intros Hi; apply Hn; right; exact Hi|exact H|]. exists s2, (e1 ++ e2). cbn [wrun]. rewrite H1, H3. auto. }
  intros ls p. apply (Hg ls (wstarted t w peers)). reflexivity.
Qed.
(** ** Who came and who went *)
Lemma glog_count f pc i a sh g l g' : (forall x, In x (glog pc i a sh g l g') -> f x = false) -> count f (glog pc i a sh g l g') = 0%nat.
Proof. unfold count. induction (glog pc i a sh g l g') as [|x r IH]; intros H; [reflexivity|]. cbn. rewrite H by (left; reflexivity). apply IH. intros y Hy. apply H. right. exact Hy. Qed.
Definition by_handler (x : logline) : Prop := is_client x = false /\ is_in_fail x = false /\ is_boot_fail x = false.
Lemma glog_by pc i a sh g l g' x : In x (glog pc i a sh g l g') -> by_handler x.
Proof.
  unfold glog. intros H. apply in_app_or in H. destruct H as [H|H].
  - destruct l; try (cbn in H; intuition (subst; repeat split; reflexivity); fail).
    + destruct f; cbn in H; intuition (subst; repeat split; reflexivity).
    + destruct (DecodeAll _ _) as [[]| | |]; cbn in H; intuition (subst; repeat split; reflexivity).
    + destruct (m_todo (g_m g)) as [|[]]; try (cbn in H; tauto). destruct (handleBitfield _ _ _ _ _ _) as [[[]]]; cbn in H; intuition (subst; repeat split; reflexivity).
    + destruct (a_recv (g_a g)); cbn in H; intuition (subst; repeat split; reflexivity).
    + destruct (c_got (g_c g)); cbn in H; intuition (subst; repeat split; reflexivity).
  - destruct (a_loop (g_a g)), (a_loop (g_a g')); cbn in H; intuition (subst; repeat split; reflexivity).
Qed.
Definition came (s : wstate) (es : list entry) : Prop :=
  count is_client (map snd es) = (p_shake (w_p s) + count is_in_fail (map snd es) + List.length (filter (fun g => m_in (g_m g)) (p_conns (w_p s))))%nat.
Definition dialled (peers : list info) (s : wstate) (es : list entry) : Prop :=
  List.length peers = (List.length (p_dial (w_p s)) + count is_boot_fail (map snd es) + List.length (filter (fun g => negb (m_in (g_m g))) (p_conns (w_p s))))%nat.
Lemma filter_lupd {A} (f : A -> bool) : forall l k x y, nth_error l k = Some x -> f y = f x -> List.length (filter f (lupd l k y)) = List.length (filter f l).
Proof.
  induction l as [|z l IH]; intros k x y H E; [destruct k; discriminate|]. destruct k; cbn in *.
  - injection H as ->. rewrite E. destruct (f x); reflexivity.
  - destruct (f z); cbn; rewrite (IH _ _ _ H E); reflexivity.
Qed.
Lemma snd_tag {A B} (x : A) (l : list B) : map snd (map (pair x) l) = l.
Proof. rewrite map_map. cbn. apply map_id. Qed.
Lemma in_log_fail c a r wr u e : in_peer (FromIncoming (sc_ih c) (sc_id c) (sc_own c) r wr) = Err e ->
  count is_client (in_log c a r wr u) = 0%nat /\ count is_in_fail (in_log c a r wr u) = 1%nat /\ count is_boot_fail (in_log c a r wr u) = 0%nat.
Proof. intros H. unfold in_log. rewrite H. destruct e, (rd_err r), (w_handshake wr); repeat split; reflexivity. Qed.
Lemma hello_by a inc u : count is_client (hello a inc u) = 0%nat /\ count is_in_fail (hello a inc u) = 0%nat /\ count is_boot_fail (hello a inc u) = 0%nat.
Proof. destruct inc, u; repeat split; reflexivity. Qed.
Lemma drop_nth_len {A} : forall (l : list A) i x, nth_error l i = Some x -> List.length l = S (List.length (firstn i l ++ skipn (S i) l)).
Proof. intros l i x H. assert (i < List.length l)%nat by (apply nth_error_Some; congruence). rewrite app_length, firstn_length, skipn_length. lia. Qed.
Lemma wstep_came pc peers l s s' e es : wstep pc l s = WWent s' e -> came s es /\ dialled peers s es -> came s' (es ++ e) /\ dialled peers s' (es ++ e).
Proof.
  unfold wstep. destruct (pstep pc (erase l) (w_p s)) as [| |p'] eqn:Ep; try discriminate. intros H [Ha Hd]. unfold came, dialled, entry in *. rewrite map_app, !count_app.
  destruct l as [q port|l]; cbn [erase] in Ep.
  - apply WWent_eq in H. destruct H as [-> ->]. cbn [pstep] in Ep. destruct (Nat.ltb _ _); try discriminate. apply PWent_eq in Ep. rewrite Ep. cbn [w_p p_shake p_dial p_conns]. unfold count in *; cbn [map snd filter is_client is_in_fail is_boot_fail List.length]. lia.
  - destruct l; try discriminate.
    + cbn [pstep] in Ep. cbv zeta in Ep. destruct (p_shake (w_p s)) as [|m]; try discriminate.
      pose proof (in_log_fail (pc_c pc) (TCPAddrString p port) r wr u) as Hl.
      assert (Hu : in_log (pc_c pc) (TCPAddrString p port) r wr u = match in_peer (FromIncoming (sc_ih (pc_c pc)) (sc_id (pc_c pc)) (sc_own (pc_c pc)) r wr) with Ok _ => hello (TCPAddrString p port) true u | _ => in_log (pc_c pc) (TCPAddrString p port) r wr u end)
        by (unfold in_log, hello; destruct (in_peer _); reflexivity).
      destruct (in_peer _) as [id|er| |]; try discriminate.
      * unfold new_handler in Ep. destruct (fresh_conn _ _ _ _ _ _) as [g| | |] eqn:Ef; try discriminate. apply PWent_eq in Ep. rewrite Hu in H. apply WWent_eq in H. destruct H as [-> ->].
        destruct (fresh_is _ _ _ _ _ _ _ Ef) as [_ Hin]. cbn [w_p]. rewrite Ep, snd_tag. destruct (hello_by (TCPAddrString p port) true u) as (-> & -> & ->). cbn [p_shake p_dial p_conns]. rewrite !filter_app, !app_length. cbn [filter]. rewrite Hin. cbn [negb List.length]. lia.
      * destruct (Hl er eq_refl) as (H1 & H2 & H3). apply PWent_eq in Ep. apply WWent_eq in H. destruct H as [-> ->]. rewrite snd_tag, H1, H2, H3. cbn [w_p]. rewrite Ep. cbn [p_shake p_dial p_conns]. lia.
    + cbn [pstep] in Ep. destruct (nth_error (p_dial (w_p s)) i) as [d|] eqn:Ed; try discriminate. pose proof (drop_nth_len _ _ _ Ed) as Hln. destruct ok.
      * destruct (Nat.ltb _ _); try discriminate. destruct hs; cbn [andb] in H.
        -- unfold new_handler in Ep. destruct (fresh_conn _ _ _ _ _ _) as [g| | |] eqn:Ef; try discriminate. apply PWent_eq in Ep. apply WWent_eq in H. destruct H as [-> ->].
           destruct (fresh_is _ _ _ _ _ _ _ Ef) as [_ Hin]. cbn [w_p]. rewrite Ep, snd_tag. destruct (hello_by (TCPAddrString (pi_ip d) (pi_port d)) false u) as (H1 & H2 & H3). change (hello (TCPAddrString (pi_ip d) (pi_port d)) false u) with (unchoking u) in *. rewrite H1, H2, H3.
           cbn [p_shake p_dial p_conns]. rewrite !filter_app, !app_length. cbn [filter]. rewrite Hin. cbn [negb List.length] in *. rewrite app_length in Hln. lia.
        -- apply PWent_eq in Ep. apply WWent_eq in H. destruct H as [-> ->]. cbn [w_p]. rewrite Ep. unfold count in *; cbn [p_shake p_dial p_conns map snd filter is_client is_in_fail is_boot_fail List.length]. lia.
      * apply PWent_eq in Ep. apply WWent_eq in H. destruct H as [-> ->]. cbn [w_p]. rewrite Ep. unfold count in *; cbn [p_shake p_dial p_conns map snd filter is_client is_in_fail is_boot_fail List.length]. lia.
    + cbn [pstep] in Ep. destruct (p_drop (w_p s)); try discriminate. apply PWent_eq in Ep. apply WWent_eq in H. destruct H as [-> ->]. cbn [w_p]. rewrite Ep. unfold count in *; cbn [p_shake p_dial p_conns map snd filter List.length]. lia.
    + cbn [pstep] in Ep. apply PWent_eq in Ep. apply WWent_eq in H. destruct H as [-> ->]. cbn [w_p]. rewrite Ep. unfold count in *; cbn [p_shake p_dial p_conns map snd filter List.length]. lia.
    + cbn [pstep] in Ep. destruct (nth_error (p_conns (w_p s)) k) as [g|] eqn:Eg; try discriminate. destruct (gstep _ _ _ _ _) as [| |sh' g'] eqn:Es; try discriminate. apply PWent_eq in Ep.
      destruct (nth_error (p_conns p') k) as [g1|]; try discriminate. destruct (nth_error (w_who s) k) as [[i a]|]; try discriminate.
      apply WWent_eq in H. destruct H as [-> ->]. rewrite snd_tag. rewrite !glog_count by (intros x Hx; apply (glog_by _ _ _ _ _ _ _ _ Hx)).
      cbn [w_p]. rewrite Ep. cbn [p_shake p_dial p_conns]. destruct (gstep_same _ _ _ _ _ _ _ Es) as [_ Hin]. rewrite !(filter_lupd _ _ _ _ _ Eg) by (rewrite Hin; reflexivity). lia.
Qed.
Lemma wrun_came pc t w peers : forall ls s es, wrun pc ls (wstarted t w peers) = Some (s, es) -> came s es /\ dialled peers s es.
Proof.
  induction ls as [|l ls IH] using rev_ind; intros s es H.
  - injection H as <- <-. unfold came, dialled. cbn. split; [reflexivity|lia].
  - apply wrun_snoc in H. destruct H as (s1 & e1 & e2 & H1 & H2 & ->). eapply wstep_came; [exact H2|]. apply IH, H1.
Qed.
(** ** The bitfields registered *)
Lemma wrun_live pc t w peers n ls s es : NewPeerPieceTracker n = Ok t -> Forall (fun l => pfair (erase l)) ls -> wrun pc ls (wstarted t w peers) = Some (s, es) -> live n pc w peers (w_p s).
Proof. intros Ht Hf H. destruct (wrun_base _ _ _ _ _ _ _ H) as (_ & Hp & _). exists t, (map erase ls). split; [exact Ht|]. split; [|exact Hp]. apply Forall_map. exact Hf. Qed.
Lemma live_registers P hashes files pc contents w0 peers s k g b r : swarm_up P hashes files (pc_c pc) contents w0 -> live (zlen hashes / 20) pc w0 peers s -> nth_error (p_conns s) k = Some g -> m_todo (g_m g) = MBitfield b :: r ->
  match handleBitfield (sh_ppt (p_sh s)) (sc_own (pc_c pc)) (ti_npieces (sc_ti (pc_c pc))) (m_who (g_m g)) (m_bf (g_m g)) b with
  | (Ok _, _, _) => Nbytes b = Nbytes (sc_own (pc_c pc)) | (Panic, _, _) => True | _ => Nbytes b <> Nbytes (sc_own (pc_c pc)) end.
Proof.
  intros Hu Hl Hk Ht. destruct (live_view _ _ _ _ _ Hl) as (ls & Hr & _). destruct (up_reach _ _ _ _ _ _ Hu _ _ Hr) as (A1 & _ & _ & A4).
  destruct (up_parts _ _ _ _ _ _ Hu) as (H1 & H2 & H3 & H4 & H5 & H6). rewrite (np_n _ _ _ _ H1).
  assert (Hm : Forall msg_ok (MBitfield b :: r)).
  { rewrite Forall_forall in A4. destruct (A4 (conn_view g)) as (_ & _ & Hx & _); [cbn; apply in_map; eapply nth_error_In; exact Hk|]. cbn in Hx. rewrite Ht in Hx. exact Hx. }
  destruct (handle_bf_cases (zlen hashes / 20) (sc_own (pc_c pc)) (m_who (g_m g)) (m_bf (g_m g)) b (told (zlen hashes / 20) (ss_conns (run_view s))) (sh_ppt (p_sh s))) as [(C1 & ->)|[(C1 & t1 & b1 & E1 & _)|(C1 & [b1 ->] & _)]].
  - split; [exact (n_pos _ _ _ _ H1)|exact H3].
  - exact A1.
  - intros; eapply told_inside; eassumption.
  - exact H4.
  - inversion Hm as [|? ? Hb _]. apply Hb.
  - rewrite H4. exact C1.
  - rewrite E1, H4. exact C1.
  - exact I.
Qed.
Lemma wrun_registered P hashes files pc contents w0 peers t ls s es k g : swarm_up P hashes files (pc_c pc) contents w0 -> NewPeerPieceTracker (zlen hashes / 20) = Ok t -> Forall (fun l => pfair (erase l)) ls ->
  wrun pc ls (wstarted t w0 peers) = Some (s, es) -> nth_error (p_conns (w_p s)) k = Some g -> count is_registered (lines_by k es) = List.length (filter (sized (sc_own (pc_c pc))) (m_done (g_m g))).
Proof.
  intros Hu Ht Hf H Hk. refine (wrun_each (fun l => pfair (erase l)) pc t w0 peers (fun _ lg g => count is_registered lg = List.length (filter (sized (sc_own (pc_c pc))) (m_done (g_m g)))) _ _ ls s es Hf H k g Hk).
  - intros inc i a u sent ptr g0 E. unfold fresh_conn in E. destruct (NewBitfield _); cbn [bind] in E; try discriminate. apply Ok_eq in E. rewrite E. destruct inc, u; reflexivity.
  - clear - Hu Ht. intros ls s es k g i a gl sh' g' Hf H Hk Hs IH. rewrite count_app, IH, glog_registered, (gstep_done _ _ _ _ _ _ _ Hs), filter_app, app_length. f_equal.
    destruct gl; try (destruct (m_todo (g_m g)); reflexivity). destruct (m_todo (g_m g)) as [|x r] eqn:Em; [reflexivity|]. destruct x; try reflexivity.
    pose proof (live_registers _ _ _ _ _ _ _ _ _ _ _ _ Hu (wrun_live _ _ _ _ _ _ _ _ Ht Hf H) Hk Em) as Hc.
    assert (Hd : forall q v, handleBitfield (sh_ppt (p_sh (w_p s))) (sc_own (pc_c pc)) (ti_npieces (sc_ti (pc_c pc))) (m_who (g_m g)) (m_bf (g_m g)) bf <> (Panic, q, v)).
    { intros q v E. cbn [gstep] in Hs. rewrite Em in Hs. cbv zeta in Hs. cbn [handle_msg hc_ti hc_own hc_whom hs_ppt hs_bf hs_buf hs_world] in Hs. rewrite E in Hs. destruct (a_recv (g_a g)); discriminate. }
    destruct (handleBitfield _ _ _ _ _ _) as [[[u|e| |] q] v]; cbn [filter sized].
    + destruct (Z.eqb_spec (Nbytes bf) (Nbytes (sc_own (pc_c pc)))); [reflexivity|congruence].
    + destruct (Z.eqb_spec (Nbytes bf) (Nbytes (sc_own (pc_c pc)))); [congruence|reflexivity].
    + exfalso. eapply Hd. reflexivity.
    + destruct (Z.eqb_spec (Nbytes bf) (Nbytes (sc_own (pc_c pc)))); [congruence|reflexivity].
Qed.
(** ** requestLoop *)
Lemma wrun_requests pc t w peers ls s es k g : wrun pc ls (wstarted t w peers) = Some (s, es) -> nth_error (p_conns (w_p s)) k = Some g -> match a_req (g_a g) with QRet | QEnd => Complete (sc_own (pc_c pc)) = true | _ => True end.
Proof.
  intros H Hk. refine (wrun_each (fun _ => True) pc t w peers (fun _ _ g => match a_req (g_a g) with QRet | QEnd => Complete (sc_own (pc_c pc)) = true | _ => True end) _ _ ls s es (all_true _) H k g Hk).
  - intros inc i a u sent ptr g0 E. unfold fresh_conn in E. destruct (NewBitfield _); cbn [bind] in E; try discriminate. apply Ok_eq in E. rewrite E. exact I.
  - clear. intros ls s es k g i a gl sh' g' _ _ _ E IH. destruct g as [m [L P V Q q] h]. destruct gl; cbn [gstep g_m g_a g_c a_loop a_ping a_recv a_req a_procs recv_at req_at] in E; cbv zeta in E; cases E; went E;
      cbn [g_m g_a g_c a_loop a_ping a_recv a_req a_procs recv_at req_at] in *; try exact IH; try exact I; try assumption; repeat match goal with |- context [if ?b then _ else _] => destruct b end; first [exact I|reflexivity].
Qed.
Lemma wrun_state pc t w peers ls s es k g : wrun pc ls (wstarted t w peers) = Some (s, es) -> nth_error (p_conns (w_p s)) k = Some g -> shows (lines_by k es) g.
Proof. intros H Hk. apply (wrun_shows _ _ _ _ _ _ _ _ _ H Hk). Qed.
Lemma wrun_decoded pc t w peers ls s es k g : wrun pc ls (wstarted t w peers) = Some (s, es) -> nth_error (p_conns (w_p s)) k = Some g ->
  (exists r, map zlen (c_got (g_c g)) = map snd (decodes (lines_by k es)) ++ r /\ (List.length r <= 1)%nat) /\ Forall (fun d => 0 <= fst d <= snd d) (decodes (lines_by k es)).
Proof. intros H Hk. destruct (wrun_shows _ _ _ _ _ _ _ _ _ H Hk) as (_ & _ & ((r & H1 & H2) & H3) & _). split; [|exact H3]. exists r. split; [exact H1|]. eapply pend_short; exact H2. Qed.
Lemma wrun_keepalives pc t w peers ls s es k : wrun pc ls (wstarted t w peers) = Some (s, es) ->
  count is_pinged (lines_by k es) = (keepalives k ls + count is_ping_err (lines_by k es))%nat /\ (count is_ping_err (lines_by k es) <= 1)%nat.
Proof.
  intros H. destruct (nth_error (p_conns (w_p s)) k) as [g|] eqn:Hk.
  - destruct (wrun_shows _ _ _ _ _ _ _ _ _ H Hk) as (_ & _ & _ & H1 & H2). split; [exact H1|]. destruct (a_ping (g_a g)); lia.
  - apply nth_error_None in Hk. destruct (wrun_base _ _ _ _ _ _ _ H) as (_ & _ & C & _). destruct (C k Hk) as [-> ->]. split; [reflexivity|cbn; lia].
Qed.
Lemma lines_by_In k es l : In (Some k, l) es <-> In l (lines_by k es).
Proof.
  unfold lines_by. rewrite in_flat_map. split.
  - intros H. exists (Some k, l). split; [exact H|]. cbn. rewrite Nat.eqb_refl. left. reflexivity.
  - intros ([[j|] x] & H1 & H2); cbn in H2; [|contradiction]. destruct (Nat.eqb_spec j k) as [->|]; [|contradiction]. destruct H2 as [<-|[]]. exact H1.
Qed.
(** No handler is ever done; requestLoop ends only when there is nothing to request; and a handler is killed once. *)
Lemma wrun_never pc t w peers n ls s es : NewPeerPieceTracker n = Ok t -> Forall (fun l => pfair (erase l)) ls -> wrun pc ls (wstarted t w peers) = Some (s, es) -> forall k,
  count is_done (lines_by k es) = 0%nat /\ (Complete (sc_own (pc_c pc)) = false -> count is_end_req (lines_by k es) = 0%nat) /\ (count is_killing (lines_by k es) <= 1)%nat.
Proof.
  intros Ht Hf H k. destruct (nth_error (p_conns (w_p s)) k) as [g|] eqn:Hk.
  - pose proof (live_looping _ _ _ _ _ g (wrun_live _ _ _ _ _ _ _ _ Ht Hf H) (nth_error_In _ _ Hk)) as Hl. pose proof (wrun_requests _ _ _ _ _ _ _ _ _ H Hk) as Hq.
    destruct (wrun_state _ _ _ _ _ _ _ _ _ H Hk) as (_ & _ & _ & _ & _ & H6 & _ & _ & H9 & H10 & _). rewrite H6, H9, H10. split; [destruct (a_loop (g_a g)); congruence || reflexivity|]. split; [|destruct (a_loop (g_a g)); cbn; lia].
    intros Hc. destruct (a_req (g_a g)); try reflexivity. congruence.
  - apply nth_error_None in Hk. destruct (wrun_base _ _ _ _ _ _ _ H) as (_ & _ & C & _). destruct (C k Hk) as [-> _]. repeat split; cbn; lia.
Qed.
Lemma wrun_erased pc t w peers ls s es : wrun pc ls (wstarted t w peers) = Some (s, es) -> prun pc (map erase ls) (started t w peers) = Some (w_p s).
Proof. intros H. apply (wrun_base _ _ _ _ _ _ _ H). Qed.
Lemma wrun_names pc t w peers ls s es k g i a : wrun pc ls (wstarted t w peers) = Some (s, es) -> nth_error (p_conns (w_p s)) k = Some g -> nth_error (w_who s) k = Some (i, a) -> h_key (m_who (g_m g)) = Key i.
Proof. intros H. destruct (wrun_base _ _ _ _ _ _ _ H) as (_ & _ & _ & D). apply D. Qed.
