(** RaceConnProofs.v: the memory of one connection. *)
From Coq Require Import ZifyBool ZifyNat ZifyN.
From Verif Require Import Base BitfieldModel WireModel HandshakeModel LayoutModel PptModel PeerModel FsModel SwarmModel SessionModel RunModel ProcModel ProcSpec ProcProofs RaceSpec RaceModel RaceProofs RaceInvProofs RaceMemProofs.
From Verif Require LoopModel ReadLoopModel ReadLoopSpec ReadLoopProofs TimeModel.

(** ** Whose the receive buffer is *)
Definition owner (g : gconn) (t : trace) (k p : nat) : Prop :=
  match c_read (g_c g) with
  | ReadLoopModel.RSelect =>
    match c_buf (g_c g) with
    | Some _ => Ch t (CBuf k) p
    | None => if c_ready (g_c g) then Ch t (CReady k) p else K t (GRecv k) p
    end
  | ReadLoopModel.REnd => True
  | _ => K t (GRead k) p
  end.
Definition isnew (og : option gconn) : Prop := match og with Some g => a_recv (g_a g) = VNew | None => True end.
Definition fullb (og : option gconn) : nat := match og with Some g => match c_buf (g_c g) with Some _ => 1 | None => 0 end | None => 0 end.
Definition fullr (og : option gconn) : nat := match og with Some g => if c_ready (g_c g) then 1 else 0 | None => 0 end.

(** ** The invariant for the k-th connection, [og], if there is one, whose Loop runs in [ow] *)
Record pk (t : trace) (og : option gconn) (ow : option gid) (k : nat) : Prop := {
  k_peer : RF (touches (XPeer k)) (XPeer k) t;
  k_peer0 : og = None -> forall p, ~ acc (touches (XPeer k)) t p;
  k_peer1 : og <> None -> forall p, wacc (XPeer k) t p -> K t (GPing k) p /\ K t (GRecv k) p /\ K t (GReq k) p /\ forall w, ow = Some w -> K t w p;
  k_bb : forall x, x = XBf k \/ x = XBuf k -> RF (touches x) x t /\ (og = None -> forall p, ~ acc (touches x) t p) /\ (og <> None -> forall p, acc (touches x) t p -> K t (GRecv k) p);
  k_loop : RF (touches (XLoop k)) (XLoop k) t;
  k_loop0 : isnew og -> forall p, ~ acc (touches (XLoop k)) t p;
  k_loop1 : ~ isnew og -> forall p, wacc (XLoop k) t p -> K t (GRecv k) p /\ K t (GRead k) p;
  k_recv : RF (touches (XRecv k)) (XRecv k) t;
  k_recv0 : isnew og -> forall p, ~ acc (touches (XRecv k)) t p;
  k_recv1 : forall g, og = Some g -> ~ isnew og -> forall p, acc (touches (XRecv k)) t p -> owner g t k p;
  k_cbuf : sends (CBuf k) t = (recvs (CBuf k) t + fullb og)%nat;
  k_cready : sends (CReady k) t = (recvs (CReady k) t + fullr og)%nat }.

(** Events that have nothing to do with connection k. *)
Definition about (k : nat) (e : event) : Prop :=
  (exists x, idx x = Some k /\ touches x e) \/ match snd e with Snd (CBuf j) | Snd (CReady j) | Rcv (CBuf j) | Rcv (CReady j) => j = k | _ => False end.
Lemma counts c es : (forall e, In e es -> snd e <> Snd c /\ snd e <> Rcv c) -> sends c es = 0%nat /\ recvs c es = 0%nat.
Proof.
  induction es as [|e es IH]; intros H; [split; reflexivity|]. destruct IH as [I1 I2]; [intros e' Hin; apply H; now right|]. pose proof (H e (or_introl eq_refl)) as [H1 H2].
  unfold sends, recvs in *. cbn [filter]. destruct e as [g a]. cbn [snd] in *. destruct a; cbn; try (split; assumption).
  - destruct (chan_eqb c c0) eqn:E; [|split; assumption]. exfalso. destruct c, c0; cbn in E; try discriminate; apply Nat.eqb_eq in E; subst; congruence.
  - destruct (chan_eqb c c0) eqn:E; [|split; assumption]. exfalso. destruct c, c0; cbn in E; try discriminate; apply Nat.eqb_eq in E; subst; congruence.
Qed.
Lemma owner_app g t es k p : owner g t k p -> (forall c, c = CBuf k \/ c = CReady k -> recvs c es = 0%nat) -> owner g (t ++ es) k p.
Proof.
  unfold owner. intros H Hc. destruct (c_read (g_c g)); try exact I; try (apply K_app; exact H). destruct (c_buf (g_c g)); [apply Ch_app; auto|]. destruct (c_ready (g_c g)); [apply Ch_app; auto|apply K_app; exact H].
Qed.
Lemma wacc_app_old x t es p : (forall e, In e es -> ~ touches x e) -> wacc x (t ++ es) p -> wacc x t p.
Proof. intros H. apply wacc_old. intros e Hin. split; intros E; apply (H e Hin); unfold touches, access; rewrite E; tauto. Qed.
Lemma pk_frame t og ow k es : pk t og ow k -> (forall e, In e es -> ~ about k e) -> pk (t ++ es) og ow k.
Proof.
  intros [P1 P2 P3 B0 L1 L2 L3 R1 R2 R3 C1 C2] Hn.
  assert (Hx : forall x, idx x = Some k -> forall e, In e es -> ~ touches x e) by (intros x Hi e Hin Ht; apply (Hn e Hin); left; eauto).
  assert (Hc : forall c, c = CBuf k \/ c = CReady k -> sends c es = 0%nat /\ recvs c es = 0%nat).
  { intros c Hc. apply counts. intros e Hin. split; intros E; apply (Hn e Hin); right; rewrite E; destruct Hc as [-> | ->]; reflexivity. }
  split.
  - apply RF_app; [exact P1|apply Hx; reflexivity].
  - intros Ho p Hp. apply (P2 Ho p). eapply acc_old; [apply Hx; reflexivity|exact Hp].
  - intros Ho p Hp. apply wacc_app_old in Hp; [|apply Hx; reflexivity]. destruct (P3 Ho p Hp) as (A & B & C & D). repeat split; try (apply K_app; assumption). intros w Hw. apply K_app. auto.
  - intros x Hxx. destruct (B0 x Hxx) as (A & B & C). assert (Hi : idx x = Some k) by (destruct Hxx as [-> | ->]; reflexivity). split; [apply RF_app; auto|]. split; intros Ho p Hp; (apply acc_old in Hp; [|apply Hx; exact Hi]); [exact (B Ho p Hp)|apply K_app; auto].
  - apply RF_app; [exact L1|apply Hx; reflexivity].
  - intros Ho p Hp. apply (L2 Ho p). eapply acc_old; [apply Hx; reflexivity|exact Hp].
  - intros Ho p Hp. apply wacc_app_old in Hp; [|apply Hx; reflexivity]. destruct (L3 Ho p Hp) as (A & B). split; apply K_app; assumption.
  - apply RF_app; [exact R1|apply Hx; reflexivity].
  - intros Ho p Hp. apply (R2 Ho p). eapply acc_old; [apply Hx; reflexivity|exact Hp].
  - intros g Hg Ho p Hp. apply acc_old in Hp; [|apply Hx; reflexivity]. apply owner_app; [eauto|]. intros c Hcc. apply Hc. exact Hcc.
  - rewrite sends_app, recvs_app. destruct (Hc (CBuf k)) as [E1 E2]; [auto|]. rewrite E1, E2, C1. lia.
  - rewrite sends_app, recvs_app. destruct (Hc (CReady k)) as [E1 E2]; [auto|]. rewrite E1, E2, C2. lia.
Qed.
(** A new connection. *)
Lemma pk_new logs t k g g0 u pre mid : pk t None None k -> fresh g0 -> (forall e, In e (pre ++ mid) -> fst e = g /\ ~ about k e) ->
  pk (t ++ pre ++ made_by g k ++ mid ++ loop_starts logs g k u) (Some g0) (Some g) k.
Proof.
  intros [P1 P2 P3 B0 L1 L2 L3 R1 R2 R3 C1 C2] (F1 & F2 & F3 & F4 & _) Hn.
  set (es := pre ++ made_by g k ++ mid ++ loop_starts logs g k u).
  set (A := pre ++ made_by g k ++ mid ++ by_ g [Rd (XPeer k)] ++ match u with Some _ => lg logs g | None => [] end).
  set (C := by_ g [Go (GPing k); Go (GRecv k); Go (GReq k)]).
  assert (E : es = A ++ C) by (subst es A C; unfold loop_starts; rewrite <- !app_assoc; reflexivity).
  assert (HA : forall e, In e A -> fst e = g).
  { subst A. intros e Hin. apply in_app_or in Hin. destruct Hin as [Hin|Hin]; [apply Hn; apply in_or_app; now left|]. apply in_app_or in Hin. destruct Hin as [Hin|Hin]; [unfold made_by in Hin; ins; reflexivity|].
    apply in_app_or in Hin. destruct Hin as [Hin|Hin]; [apply Hn; apply in_or_app; now right|]. ins; reflexivity. }
  assert (HC : forall x e, In e C -> ~ touches x e) by (subst C; intros x e Hin Hx; ins; hits).
  assert (Hb : forall x, (forall p, ~ acc (touches x) t p) -> RF (touches x) x t -> RF (touches x) x (t ++ es) /\ forall p, acc (touches x) (t ++ es) p ->
    K (t ++ es) (GPing k) p /\ K (t ++ es) (GRecv k) p /\ K (t ++ es) (GReq k) p /\ K (t ++ es) g p).
  { intros x Hx Hrf. rewrite E. assert (HB : forall h, In (g, Go h) C -> RF (touches x) x (t ++ A ++ C) /\ forall p, acc (touches x) (t ++ A ++ C) p -> K (t ++ A ++ C) h p /\ K (t ++ A ++ C) g p).
    { intros h Hh. apply birth; auto. }
    destruct (HB (GPing k)) as [H1 H2]; [subst C; cbn; tauto|]. destruct (HB (GRecv k)) as [_ H3]; [subst C; cbn; tauto|]. destruct (HB (GReq k)) as [_ H4]; [subst C; cbn; tauto|].
    split; [exact H1|]. intros p Hp. specialize (H2 p Hp). specialize (H3 p Hp). specialize (H4 p Hp). tauto. }
  assert (Hoth : forall x, x = XLoop k \/ x = XRecv k -> forall e, In e es -> ~ touches x e).
  { intros x Hx e Hin Ht. assert (Hi : idx x = Some k) by (destruct Hx as [-> | ->]; reflexivity). subst es. apply in_app_or in Hin. destruct Hin as [Hin|Hin]; [destruct (Hn e) as [_ N]; [apply in_or_app; now left|]; apply N; left; eauto|].
    apply in_app_or in Hin. destruct Hin as [Hin|Hin]; [unfold made_by in Hin; destruct Hx as [-> | ->]; ins; hits|]. apply in_app_or in Hin. destruct Hin as [Hin|Hin]; [destruct (Hn e) as [_ N]; [apply in_or_app; now right|]; apply N; left; eauto|].
    unfold loop_starts in Hin. destruct Hx as [-> | ->]; ins; hits. }
  assert (Hc : forall c, c = CBuf k \/ c = CReady k -> sends c es = 0%nat /\ recvs c es = 0%nat).
  { intros c Hc. apply counts. intros e Hin. subst es. apply in_app_or in Hin. destruct Hin as [Hin|Hin]; [destruct (Hn e) as [_ N]; [apply in_or_app; now left|]; split; intros X; apply N; right; rewrite X; destruct Hc as [-> | ->]; reflexivity|].
    apply in_app_or in Hin. destruct Hin as [Hin|Hin]; [unfold made_by in Hin; ins; split; discriminate|]. apply in_app_or in Hin. destruct Hin as [Hin|Hin]; [destruct (Hn e) as [_ N]; [apply in_or_app; now right|]; split; intros X; apply N; right; rewrite X; destruct Hc as [-> | ->]; reflexivity|].
    unfold loop_starts in Hin. ins; split; discriminate. }
  split.
  - apply Hb; auto.
  - discriminate.
  - intros _ p Hp. apply wacc_acc in Hp. destruct (Hb (XPeer k)) as [_ H]; auto. destruct (H p Hp) as (X1 & X2 & X3 & X4). repeat split; try assumption. intros w Hw. apply Some_inj in Hw. subst w. exact X4.
  - intros x Hx. destruct (B0 x Hx) as (X1 & X2 & _). specialize (X2 eq_refl). destruct (Hb x X2 X1) as [Y1 Y2]. split; [exact Y1|]. split; [discriminate|]. intros _ p Hp. apply Y2. exact Hp.
  - apply RF_app; [exact L1|apply Hoth; auto].
  - intros _ p Hp. apply (L2 I p). eapply acc_old; [apply Hoth; auto|exact Hp].
  - intros Ho. exfalso. apply Ho. exact F1.
  - apply RF_app; [exact R1|apply Hoth; auto].
  - intros _ p Hp. apply (R2 I p). eapply acc_old; [apply Hoth; auto|exact Hp].
  - intros g1 Hg Ho. exfalso. apply Ho. exact F1.
  - rewrite sends_app, recvs_app. destruct (Hc (CBuf k)) as [E1 E2]; [auto|]. rewrite E1, E2, C1. cbn [fullb]. rewrite F3. lia.
  - rewrite sends_app, recvs_app. destruct (Hc (CReady k)) as [E1 E2]; [auto|]. rewrite E1, E2, C2. cbn [fullr]. rewrite F4. lia.
Qed.

(** ** A step of the connection *)
Lemma gev_peer logs pc w c g gl e : In e (gevents logs pc w c g gl) -> touches (XPeer c) e -> snd e = Rd (XPeer c) /\ (fst e = w \/ fst e = GPing c \/ fst e = GRecv c \/ fst e = GReq c).
Proof.
  intros H Ht. destruct gl; cbn [gevents] in H; try (ins; hits; (split; [reflexivity|cbn; tauto]); fail).
  destruct (m_todo (g_m g)) as [|m r]; [destruct H|]. unfold handles in H. apply in_app_or in H. destruct H as [H|H]; [ins; hits; (split; [reflexivity|cbn; tauto])|]. destruct m; ins; hits; (split; [reflexivity|cbn; tauto]).
Qed.
Lemma gev_bb logs pc w c g gl e x : x = XBf c \/ x = XBuf c -> In e (gevents logs pc w c g gl) -> touches x e -> fst e = GRecv c.
Proof.
  intros Hx H Ht. destruct gl; cbn [gevents] in H; try (destruct Hx as [-> | ->]; ins; hits; fail).
  destruct (m_todo (g_m g)) as [|m r]; [destruct H|]. unfold handles in H. apply in_app_or in H. destruct H as [H|H]; [ins; hits; reflexivity|]. destruct m; ins; hits; reflexivity.
Qed.
Lemma gev_loop logs pc w c g gl e : gl <> GRecvStart -> In e (gevents logs pc w c g gl) -> touches (XLoop c) e -> snd e = Rd (XLoop c) /\ (fst e = GRecv c \/ fst e = GRead c).
Proof.
  intros Hs H Ht. destruct gl; cbn [gevents] in H; try (ins; hits; (split; [reflexivity|cbn; tauto]); fail); [congruence|].
  destruct (m_todo (g_m g)) as [|m r]; [destruct H|]. unfold handles in H. apply in_app_or in H. destruct H as [H|H]; [ins; hits|]. destruct m; ins; hits.
Qed.
Lemma gev_new logs pc w c sh g gl sh' g' e x : gstep pc c sh g gl = GWent sh' g' -> cok pc g -> a_recv (g_a g) = VNew -> gl <> GRecvStart -> x = XLoop c \/ x = XRecv c -> In e (gevents logs pc w c g gl) -> ~ touches x e.
Proof.
  intros H (_ & HN & _) Hv Hs Hx Hin Ht. destruct (HN Hv) as (A & B & C). destruct g as [m [L P V Q n] h]. cbn [g_a a_recv g_c] in *. subst V.
  destruct gl; cbn [gstep g_m g_a g_c a_loop a_ping a_recv a_req a_procs recv_at req_at] in H; cbv zeta in H; rewrite ?A, ?B, ?C in H; try discriminate H; try congruence; cbn [gevents] in Hin; destruct Hx as [-> | ->]; ins; hits.
Qed.
Lemma cok_phase pc g : cok pc g -> ReadLoopProofs.phase (read_view g).
Proof. intros ((ds & _ & (rls & tr & Hr & _) & _) & _). exact (ReadLoopProofs.i_phase _ _ (ReadLoopProofs.reach _ _ _ _ Hr)). Qed.
(** Steps that leave the receive buffer and its channels alone. *)
Definition special (gl : glabel) : bool :=
  match gl with GRecvStart | GTakeBuf | GDecode | GHandle | GPutReady | GDeadline _ | GScribble _ | GReadRet _ _ | GPutBuf | GTakeReady | GTakeDone | GPutErr => true | _ => false end.
Lemma plain logs pc w c sh g gl sh' g' : gstep pc c sh g gl = GWent sh' g' -> special gl = false ->
  g_c g' = g_c g /\ (forall e, In e (gevents logs pc w c g gl) -> ~ touches (XRecv c) e /\ forall d, snd e <> Snd d /\ snd e <> Rcv d).
Proof.
  intros H Hs. split.
  - destruct g as [m [L P V Q n] h]. destruct gl; try discriminate Hs; cbn [gstep g_m g_a g_c a_loop a_ping a_recv a_req a_procs recv_at req_at] in H; cbv zeta in H; cases H; went H; reflexivity.
  - intros e Hin. destruct gl; try discriminate Hs; cbn [gevents] in Hin; ins; (split; [intros Ht; hits|intros d; split; discriminate]).
Qed.
Lemma handles_quiet logs pc c m e : In e (handles logs pc c m) -> fst e = GRecv c /\ forall d, snd e <> Snd d /\ snd e <> Rcv d.
Proof. unfold handles. intros H. apply in_app_or in H. destruct H as [H|H]; [|destruct m]; ins; (split; [reflexivity|intros d; split; discriminate]). Qed.
Lemma cnt_step logs pc w c sh g gl sh' g' : gstep pc c sh g gl = GWent sh' g' -> let es := gevents logs pc w c g gl in
  (fullb (Some g) + sends (CBuf c) es = recvs (CBuf c) es + fullb (Some g') /\ fullr (Some g) + sends (CReady c) es = recvs (CReady c) es + fullr (Some g'))%nat.
Proof.
  intros H es. assert (Hq : (forall e, In e es -> forall d, snd e <> Snd d /\ snd e <> Rcv d) -> c_buf (g_c g') = c_buf (g_c g) -> c_ready (g_c g') = c_ready (g_c g) ->
    (fullb (Some g) + sends (CBuf c) es = recvs (CBuf c) es + fullb (Some g') /\ fullr (Some g) + sends (CReady c) es = recvs (CReady c) es + fullr (Some g'))%nat).
  { intros Hn E1 E2. destruct (counts (CBuf c) es) as [A1 A2]; [intros e Hin; apply Hn; exact Hin|]. destruct (counts (CReady c) es) as [A3 A4]; [intros e Hin; apply Hn; exact Hin|]. cbn [fullb fullr]. rewrite A1, A2, A3, A4, E1, E2. lia. }
  destruct (special gl) eqn:Hs.
  2: { destruct (plain logs pc w c sh g gl sh' g' H Hs) as [E Hn]. apply Hq; [intros e Hin; apply Hn; exact Hin|now rewrite E..]. }
  clear Hs. subst es. destruct g as [m [L P V Q n] h].
  destruct gl; cbn [gstep g_m g_a g_c a_loop a_ping a_recv a_req a_procs recv_at req_at] in *; cbv zeta in H; cases H; went H;
    try (apply Hq; [|reflexivity..]; intros ev Hin d; cbn [gevents g_a a_procs] in Hin; ins; split; discriminate).
  all: try (cbn [gevents g_m] in Hq |- *; match goal with E : m_todo _ = _ |- _ => rewrite E in * end; apply Hq; [|reflexivity..]; intros ev Hin; apply (handles_quiet _ _ _ _ _ Hin)).
  all: cbn [gevents by_ map]; unfold sends, recvs; cbn [filter snd chan_eqb]; rewrite ?Nat.eqb_refl; cbn [filter List.length fullb fullr g_c c_buf c_ready read_at];
    repeat match goal with E : c_buf _ = _ |- _ => rewrite E; clear E | E : c_ready _ = _ |- _ => rewrite E; clear E end; cbn; try lia; try (split; lia).
Qed.
Definition recv_part (t : trace) (g : gconn) (k : nat) : Prop :=
  RF (touches (XRecv k)) (XRecv k) t /\ (a_recv (g_a g) = VNew -> forall p, ~ acc (touches (XRecv k)) t p) /\ (a_recv (g_a g) <> VNew -> forall p, acc (touches (XRecv k)) t p -> owner g t k p).
Lemma recv_step logs pc w t c sh g gl sh' g' : gstep pc c sh g gl = GWent sh' g' -> cok pc g -> recv_part t g c ->
  sends (CBuf c) t = (recvs (CBuf c) t + fullb (Some g))%nat -> sends (CReady c) t = (recvs (CReady c) t + fullr (Some g))%nat ->
  recv_part (t ++ gevents logs pc w c g gl) g' c.
Proof.
  intros H Hok (R1 & R2 & R3) C1 C2. pose proof (cok_phase _ _ Hok) as Hph. pose proof (new_step _ _ _ _ _ _ _ H) as Hnew.
  destruct (special gl) eqn:Hs.
  2: { destruct (plain logs pc w c sh g gl sh' g' H Hs) as [E Hn]. assert (Hnt : forall e, In e (gevents logs pc w c g gl) -> ~ touches (XRecv c) e) by (intros e Hin; apply Hn; exact Hin).
    split; [apply RF_app; auto|]. split; [intros Ev p Hp; apply (R2 (Hnew Ev) p); eapply acc_old; eassumption|]. intros Ev p Hp. apply acc_old in Hp; [|exact Hnt].
    assert (Eo : owner g' (t ++ gevents logs pc w c g gl) c p = owner g (t ++ gevents logs pc w c g gl) c p) by (unfold owner; now rewrite E). rewrite Eo. apply owner_app.
    - apply R3; [|exact Hp]. intros Ev'. apply (R2 Ev' p). exact Hp.
    - intros d _. apply counts. intros e Hin. apply Hn. exact Hin. }
  unfold ReadLoopProofs.phase, ReadLoopProofs.quiet, read_view in Hph. destruct g as [m [L P V Q n] [mm cb cr rd ln gt]]. cbn [g_a g_c a_recv c_buf c_ready c_read c_mem c_len c_got fullb fullr ReadLoopModel.run_at ReadLoopModel.chBuf ReadLoopModel.chReady ReadLoopModel.con_at] in *.
  (* exclusive use by one goroutine, to which everything is known *)
  assert (Hex : forall h es, (forall p, acc (touches (XRecv c)) t p -> K t h p) -> (forall e, In e es -> touches (XRecv c) e -> fst e = h) ->
    RF (touches (XRecv c)) (XRecv c) (t ++ es) /\ forall p, acc (touches (XRecv c)) (t ++ es) p -> K (t ++ es) h p) by (intros h es A B; apply excl; auto).
  destruct gl; try discriminate Hs; clear Hs; cbn [gstep g_m g_a g_c a_loop a_ping a_recv a_req a_procs recv_at req_at c_buf c_ready c_read c_mem c_len c_got] in *; cbv zeta in H; cbn [gevents g_m].
  - (* GRecvStart *)
    destruct V; try discriminate H. cases H. went H. cbn [g_a a_recv]. assert (Er : rd = ReadLoopModel.RTop) by (destruct Hok as (_ & HN & _); apply HN; reflexivity). subst rd.
    pose proof (birth (touches (XRecv c)) (XRecv c) t (by_ (GRecv c) [Rd (XPeer c)] ++ lg logs (GRecv c) ++ by_ (GRecv c) [Wr (XLoop c); Wr (XRecv c)]) [(GRecv c, Go (GRead c))] (GRecv c) (GRead c) R1 (R2 eq_refl)) as HB.
    rewrite <- !app_assoc in HB. cbn [by_ map app] in HB |- *. destruct HB as [B1 B2].
    + intros ev Hin Ht. destruct Hin as [<-|Hin]; [reflexivity|]. ins; reflexivity.
    + intros ev [<-|[]] Ht; hits.
    + now left.
    + split; [exact B1|]. split; [discriminate|]. intros _ p Hp. unfold owner. cbn [g_c c_read]. apply B2. exact Hp.
  - (* GTakeBuf *)
    destruct V; try discriminate H. destruct cb as [b|]; [|discriminate H]. went H. cbn [con_view] in Hph.
    assert (Er : rd = ReadLoopModel.RSelect /\ cr = false). { destruct rd; try (destruct Hph as (X & _); discriminate X); [|destruct Hph]. split; [reflexivity|]. destruct Hph as [(x & _ & X & _)|[(X & _)|(X & _)]]; (exact X || discriminate X). }
    destruct Er as [-> ->]. assert (Hn : forall e, In e (by_ (GRecv c) [Rd (XLoop c); Rcv (CBuf c)]) -> ~ touches (XRecv c) e) by (intros e Hin Ht; ins; hits).
    split; [apply RF_app; auto|]. split; [discriminate|]. intros _ p Hp. apply acc_old in Hp; [|exact Hn]. specialize (R3 ltac:(discriminate) p Hp). unfold owner in *. cbn [g_c c_read c_buf c_ready] in *.
    cbn [by_ map]. change [(GRecv c, Rd (XLoop c)); (GRecv c, Rcv (CBuf c))] with ([(GRecv c, Rd (XLoop c))] ++ [(GRecv c, Rcv (CBuf c))]). rewrite app_assoc. apply Rcv_new. apply Ch_app; [reflexivity|exact R3].
  - (* GDecode *)
    destruct V; try discriminate H. cbn [con_view] in Hph.
    assert (Er : rd = ReadLoopModel.RSelect /\ cb = None /\ cr = false). { destruct rd; try (destruct Hph as (_ & _ & []); fail); [|destruct Hph]. destruct Hph as [(x & _ & _ & [])|[(X & Y & _)|(_ & _ & [])]]. auto. }
    destruct Er as (-> & -> & ->). unfold owner in R3. cbn [g_c c_read c_buf c_ready] in R3. specialize (R3 ltac:(discriminate)).
    destruct (Hex (GRecv c) (by_ (GRecv c) [Rd (XRecv c); Rd (XPeer c)] ++ lg logs (GRecv c)) R3) as [X1 X2]; [intros ev Hin _; ins; reflexivity|].
    cases H; went H; (split; [exact X1|]; split; [discriminate|]; intros _ p Hp; unfold owner; cbn [g_c c_read c_buf c_ready]; apply X2; exact Hp).
  - (* GHandle *)
    destruct V; try discriminate H. destruct (m_todo m) as [|x r] eqn:Em; [discriminate H|]. cbn [con_view] in Hph.
    assert (Er : rd = ReadLoopModel.RSelect /\ cb = None /\ cr = false). { destruct rd; try (destruct Hph as (_ & _ & []); fail); [|destruct Hph]. destruct Hph as [(y & _ & _ & [])|[(X & Y & _)|(_ & _ & [])]]. auto. }
    destruct Er as (-> & -> & ->). unfold owner in R3. cbn [g_c c_read c_buf c_ready] in R3. specialize (R3 ltac:(discriminate)).
    destruct (Hex (GRecv c) (handles logs (pc_c pc) c x) R3) as [X1 X2]; [intros ev Hin _; apply (handles_quiet _ _ _ _ _ Hin)|].
    assert (Hv : a_recv (g_a g') <> VNew /\ g_c g' = mkch mm None false ReadLoopModel.RSelect ln gt).
    { cases H; went H; cbn [g_a a_recv recv_at g_c]; split; try reflexivity; try discriminate; match goal with |- context [match ?l with nil => VWork | cons _ _ => VWrite end] => destruct l; discriminate | _ => idtac end. }
    destruct Hv as [Hv Eg]. split; [exact X1|]. split; [contradiction|]. intros _ p Hp. unfold owner. rewrite Eg. cbn [c_read c_buf c_ready]. apply X2. exact Hp.
  - (* GPutReady *)
    destruct V; try discriminate H. destruct cr; [discriminate H|]. went H. cbn [con_view] in Hph.
    assert (Er : rd = ReadLoopModel.RSelect /\ cb = None). { destruct rd; try (destruct Hph as (_ & _ & []); fail); [|destruct Hph]. destruct Hph as [(y & _ & _ & [])|[(X & Y & _)|(_ & _ & [])]]. auto. }
    destruct Er as (-> & ->). unfold owner in R3. cbn [g_c c_read c_buf c_ready] in R3. specialize (R3 ltac:(discriminate)).
    assert (Hn : forall e, In e (by_ (GRecv c) [Rd (XLoop c); Snd (CReady c)]) -> ~ touches (XRecv c) e) by (intros ev Hin Ht; ins; hits).
    split; [apply RF_app; auto|]. split; [cbn [g_a a_recv recv_at]; destruct e; discriminate|]. intros _ p Hp. apply acc_old in Hp; [|exact Hn]. unfold owner. cbn [g_c c_read c_buf c_ready].
    cbn [by_ map]. change [(GRecv c, Rd (XLoop c)); (GRecv c, Snd (CReady c))] with ([(GRecv c, Rd (XLoop c))] ++ [(GRecv c, Snd (CReady c))]). rewrite app_assoc. apply Snd_new; [apply K_app; auto|].
    rewrite sends_app, recvs_app. cbn [by_ map]. change (sends (CReady c) [(GRecv c, Rd (XLoop c))]) with 0%nat. change (recvs (CReady c) [(GRecv c, Rd (XLoop c))]) with 0%nat. lia.
  - (* GDeadline *)
    assert (Hv : V <> VNew) by (intros ->; discriminate H). assert (Er : rd = ReadLoopModel.RTop) by (destruct V, rd; (discriminate H || reflexivity)). subst rd. specialize (R3 Hv). unfold owner in R3. cbn [g_c c_read] in R3.
    assert (Hn : forall e, In e (by_ (GRead c) [Rd (XLoop c)]) -> ~ touches (XRecv c) e) by (intros ev Hin Ht; ins; hits).
    assert (Eg : a_recv (g_a g') = V /\ (c_read (g_c g') = ReadLoopModel.RRead \/ exists x, c_read (g_c g') = ReadLoopModel.RSendErr x)) by (destruct V; try discriminate H; went H; (split; [reflexivity|]); destruct ok; cbn; eauto).
    destruct Eg as [Ev Eg]. split; [apply RF_app; auto|]. split; [congruence|]. intros _ p Hp. apply acc_old in Hp; [|exact Hn]. unfold owner. destruct Eg as [->|(x & ->)]; apply K_app; auto.
  - (* GScribble *)
    destruct rd; try discriminate H. destruct (Nat.eqb _ _); [|discriminate H]. went H. assert (Hv : V <> VNew) by (intros ->; destruct Hok as (_ & HN & _); destruct (HN eq_refl) as (X & _); discriminate X).
    specialize (R3 Hv). unfold owner in R3. cbn [g_c c_read] in R3. destruct (Hex (GRead c) (by_ (GRead c) [Rd (XLoop c); Wr (XRecv c)]) R3) as [X1 X2]; [intros ev Hin _; ins; reflexivity|].
    split; [exact X1|]. split; [contradiction|]. intros _ p Hp. unfold owner. cbn [g_c c_read]. apply X2. exact Hp.
  - (* GReadRet *)
    destruct rd; try discriminate H. destruct (Nat.leb _ _); [|discriminate H]. assert (Hv : V <> VNew) by (intros ->; destruct Hok as (_ & HN & _); destruct (HN eq_refl) as (X & _); discriminate X).
    specialize (R3 Hv). unfold owner in R3. cbn [g_c c_read] in R3. destruct (Hex (GRead c) (by_ (GRead c) [Wr (XRecv c)]) R3) as [X1 X2]; [intros ev Hin _; ins; reflexivity|].
    destruct d, e; went H; (split; [exact X1|]; split; [contradiction|]; intros _ p Hp; unfold owner; cbn [g_c c_read]; apply X2; exact Hp).
  - (* GPutBuf *)
    destruct rd; try discriminate H. destruct cb; [discriminate H|]. went H. assert (Hv : V <> VNew) by (intros ->; destruct Hok as (_ & HN & _); destruct (HN eq_refl) as (X & _); discriminate X).
    specialize (R3 Hv). unfold owner in R3. cbn [g_c c_read] in R3. assert (Hn : forall e, In e (by_ (GRead c) [Rd (XLoop c); Snd (CBuf c)]) -> ~ touches (XRecv c) e) by (intros ev Hin Ht; ins; hits).
    split; [apply RF_app; auto|]. split; [contradiction|]. intros _ p Hp. apply acc_old in Hp; [|exact Hn]. unfold owner. cbn [g_c c_read c_buf].
    cbn [by_ map]. change [(GRead c, Rd (XLoop c)); (GRead c, Snd (CBuf c))] with ([(GRead c, Rd (XLoop c))] ++ [(GRead c, Snd (CBuf c))]). rewrite app_assoc. apply Snd_new; [apply K_app; auto|].
    rewrite sends_app, recvs_app. change (sends (CBuf c) [(GRead c, Rd (XLoop c))]) with 0%nat. change (recvs (CBuf c) [(GRead c, Rd (XLoop c))]) with 0%nat. lia.
  - (* GTakeReady *)
    destruct rd; try discriminate H. destruct cr; [|discriminate H]. went H. assert (Hv : V <> VNew) by (intros ->; destruct Hok as (_ & HN & _); destruct (HN eq_refl) as (X & _); discriminate X).
    assert (Er : cb = None) by (destruct Hph as [(y & _ & X & _)|[(_ & X & _)|(X & _)]]; (discriminate X || exact X)). subst cb.
    specialize (R3 Hv). unfold owner in R3. cbn [g_c c_read c_buf c_ready] in R3. assert (Hn : forall e, In e (by_ (GRead c) [Rd (XLoop c); Rcv (CReady c)]) -> ~ touches (XRecv c) e) by (intros ev Hin Ht; ins; hits).
    split; [apply RF_app; auto|]. split; [contradiction|]. intros _ p Hp. apply acc_old in Hp; [|exact Hn]. unfold owner. cbn [g_c c_read].
    cbn [by_ map]. change [(GRead c, Rd (XLoop c)); (GRead c, Rcv (CReady c))] with ([(GRead c, Rd (XLoop c))] ++ [(GRead c, Rcv (CReady c))]). rewrite app_assoc. apply Rcv_new. apply Ch_app; [reflexivity|auto].
  - (* GTakeDone *)
    destruct rd; try discriminate H. destruct V; try discriminate H. went H. assert (Hn : forall e, In e ([(GRecv c, Meet (GRead c))] ++ lg logs (GRead c)) -> ~ touches (XRecv c) e) by (intros ev Hin Ht; ins; hits).
    split; [apply RF_app; auto|]. split; [discriminate|]. intros _ p Hp. exact I.
  - (* GPutErr *)
    destruct rd; try discriminate H. destruct V; try discriminate H. went H. assert (Hn : forall e, In e ([(GRead c, Meet (GRecv c))] ++ lg logs (GRead c)) -> ~ touches (XRecv c) e) by (intros ev Hin Ht; ins; hits).
    split; [apply RF_app; auto|]. split; [cbn [g_a a_recv recv_at]; match goal with |- context [match ?x with Some _ => _ | None => _ end] => destruct x; discriminate end|]. intros _ p Hp. exact I.
Qed.
Lemma pk_conn logs pc w t c sh g gl sh' g' : gstep pc c sh g gl = GWent sh' g' -> cok pc g -> pk t (Some g) (Some w) c -> pk (t ++ gevents logs pc w c g gl) (Some g') (Some w) c.
Proof.
  intros H Hok [P1 P2 P3 B0 L1 L2 L3 R1 R2 R3 C1 C2]. pose proof (new_step _ _ _ _ _ _ _ H) as Hnew. specialize (P3 ltac:(discriminate)).
  destruct (readers (XPeer c) (gevents logs pc w c g gl) t P1) as [Q1 Q2].
  { intros e Hin Ht. destruct (gev_peer _ _ _ _ _ _ _ Hin Ht) as [E Hf]. split; [exact E|]. intros p Hp. destruct (P3 p Hp) as (X1 & X2 & X3 & X4). specialize (X4 w eq_refl). destruct Hf as [->|[->|[->| ->]]]; assumption. }
  assert (HL : RF (touches (XLoop c)) (XLoop c) (t ++ gevents logs pc w c g gl) /\ (isnew (Some g') -> forall p, ~ acc (touches (XLoop c)) (t ++ gevents logs pc w c g gl) p) /\
    (~ isnew (Some g') -> forall p, wacc (XLoop c) (t ++ gevents logs pc w c g gl) p -> K (t ++ gevents logs pc w c g gl) (GRecv c) p /\ K (t ++ gevents logs pc w c g gl) (GRead c) p)).
  { assert (Hd : gl = GRecvStart \/ gl <> GRecvStart) by (destruct gl; (now left) || (right; discriminate)). destruct Hd as [->|Hs].
    - cbn [gstep] in H. cbv zeta in H. destruct (a_recv (g_a g)) eqn:Ev; try discriminate H. cases H. went H. cbn [gevents isnew g_a a_recv] in *.
      pose proof (birth (touches (XLoop c)) (XLoop c) t (by_ (GRecv c) [Rd (XPeer c)] ++ lg logs (GRecv c) ++ by_ (GRecv c) [Wr (XLoop c); Wr (XRecv c)]) [(GRecv c, Go (GRead c))] (GRecv c) (GRead c) L1 (L2 Ev)) as HB.
      rewrite <- !app_assoc in HB. cbn [by_ map app] in HB |- *. destruct HB as [X1 X2].
      + intros ev Hin Ht. destruct Hin as [<-|Hin]; [reflexivity|]. ins; reflexivity.
      + intros ev [<-|[]] Ht; hits.
      + now left.
      + split; [exact X1|]. split; [discriminate|]. intros _ p Hp. apply wacc_acc in Hp. destruct (X2 p Hp). tauto.
    - destruct (a_recv (g_a g)) eqn:Ev.
      1: { assert (Hn : forall e, In e (gevents logs pc w c g gl) -> ~ touches (XLoop c) e) by (intros e Hin; eapply gev_new; eauto).
           split; [apply RF_app; auto|]. split; [intros En p Hp; apply (L2 Ev p); eapply acc_old; eassumption|]. intros _ p Hp. exfalso. apply (L2 Ev p). apply wacc_acc. eapply wacc_app_old; eassumption. }
      all: assert (Hv : ~ isnew (Some g)) by (cbn; rewrite Ev; discriminate); specialize (L3 Hv); (destruct (readers (XLoop c) (gevents logs pc w c g gl) t L1) as [X1 X2];
           [intros ev Hin Ht; destruct (gev_loop _ _ _ _ _ _ _ Hs Hin Ht) as [E Hf]; (split; [exact E|]); intros p Hp; destruct (L3 p Hp); destruct Hf as [->| ->]; assumption|]);
           (split; [exact X1|]); (split; [intros En; exfalso; apply Hv; cbn; rewrite Ev; apply Hnew; exact En|]); intros _ p Hp; destruct (L3 p (X2 p Hp)); split; apply K_app; assumption. }
  assert (HR : recv_part (t ++ gevents logs pc w c g gl) g' c).
  { apply (recv_step logs pc w t c sh g gl sh' g'); auto. split; [exact R1|]. split; [exact R2|]. intros Hv p Hp. apply (R3 g eq_refl Hv p Hp). }
  pose proof (cnt_step logs pc w c sh g gl sh' g' H) as [N1 N2]. destruct HL as (HL1 & HL2 & HL3). destruct HR as (HR1 & HR2 & HR3).
  split.
  - exact Q1.
  - discriminate.
  - intros _ p Hp. destruct (P3 p (Q2 p Hp)) as (X1 & X2 & X3 & X4). repeat split; try (apply K_app; assumption). intros w' Hw. apply K_app. auto.
  - intros x Hx. destruct (B0 x Hx) as (X1 & _ & X3). destruct (excl (touches x) x (GRecv c) (gevents logs pc w c g gl) t X1) as [Y1 Y2]; [apply X3; discriminate|intros e Hin Ht; eapply gev_bb; eassumption|]. split; [exact Y1|]. split; [discriminate|]. intros _. exact Y2.
  - exact HL1.
  - exact HL2.
  - exact HL3.
  - exact HR1.
  - exact HR2.
  - intros g1 Hg Hv. apply Some_inj in Hg. subst g1. exact (HR3 Hv).
  - rewrite sends_app, recvs_app. lia.
  - rewrite sends_app, recvs_app. lia.
Qed.

(** ** All connections *)
Definition conns_pk (s : rstate) : Prop := forall k, pk (r_t s) (nth_error (p_conns (r_p s)) k) (nth_error (r_who s) k) k.
Lemma gev_about logs pc w c g gl e k : In e (gevents logs pc w c g gl) -> k <> c -> ~ about k e.
Proof.
  intros Hin Hk [(x & Hi & Ht)|Hc]; [destruct (gev_idx _ _ _ _ _ _ _ _ Hin Ht); congruence|].
  destruct gl; cbn [gevents] in Hin; try (ins; cbn in Hc; (contradiction || congruence)).
  destruct (m_todo (g_m g)) as [|m r]; [destruct Hin|]. destruct (handles_quiet _ _ _ _ _ Hin) as [_ Hq]. destruct (snd e) eqn:E; try contradiction; destruct (Hq c0); congruence.
Qed.
Lemma new_about logs g k u pre mid e j : (forall e, In e (pre ++ mid) -> fst e = g /\ forall k, ~ about k e) -> In e (pre ++ made_by g k ++ mid ++ loop_starts logs g k u) -> j <> k -> ~ about j e.
Proof.
  intros Hn Hin Hj. apply in_app_or in Hin. destruct Hin as [Hin|Hin]; [apply Hn; apply in_or_app; now left|]. apply in_app_or in Hin. destruct Hin as [Hin|Hin].
  - intros [(x & Hi & Ht)|Hc]; unfold made_by in Hin; ins; hits; cbn in *; (contradiction || congruence).
  - apply in_app_or in Hin. destruct Hin as [Hin|Hin]; [apply Hn; apply in_or_app; now right|].
    intros [(x & Hi & Ht)|Hc]; unfold loop_starts in Hin; ins; hits; cbn in *; (contradiction || congruence).
Qed.
Lemma quiet_about e k : (match snd e with Rd x | Wr x | At x => idx x = None | Snd _ | Rcv _ => False | _ => True end) -> ~ about k e.
Proof. destruct e as [g a]. intros H [(x & Hi & Ht)|Hc]; unfold touches, access in *; cbn [snd] in *; destruct a; try contradiction; destruct Ht as [Ht|[Ht|Ht]]; try discriminate; injection Ht as ->; congruence. Qed.
Lemma pks_step logs pc s es s' : moved logs pc s es s' -> List.length (r_who s) = List.length (p_conns (r_p s)) -> conns_ok pc s -> conns_pk s -> conns_pk s'.
Proof.
  intros H Hlen Hc Hp k. pose proof (moved_t _ _ _ _ _ H) as Et. rewrite Et. specialize (Hp k). destruct H; subst; cbn [r_p r_who p_conns].
  - rewrite H. apply pk_frame; [exact Hp|]. intros e Hin. apply quiet_about. ins; reflexivity.
  - rewrite H. apply pk_frame; [exact Hp|]. intros e Hin. apply quiet_about. ins; reflexivity.
  - rewrite H. apply pk_frame; [exact Hp|]. subst es. intros e Hin. apply quiet_about. ins; cbn; auto.
  - rewrite H. apply pk_frame; [exact Hp|]. intros e Hin. apply quiet_about. destruct H1 as [(-> & _)|[(j & m & a' & b & -> & _ & _ & _ & ->)|(j & m & -> & _ & _ & _ & ->)]]; unfold turned_away in *; ins; cbn; auto.
  - rewrite H. assert (Hn : forall e, In e (pre ++ mid) -> fst e = g /\ forall k, ~ about k e).
    { intros e Hin. split; [|intros k1; apply quiet_about]; destruct H2 as [(j & m & -> & _ & _ & _ & -> & ->)|(j & m & -> & _ & _ & _ & -> & ->)]; ins; cbn; auto. }
    subst k0. destruct (Nat.eq_dec k (List.length (p_conns (r_p s)))) as [->|Hne].
    + assert (E1 : nth_error (p_conns (r_p s) ++ [g0]) (List.length (p_conns (r_p s))) = Some g0) by apply nth_end. assert (E2 : nth_error (r_who s ++ [g]) (List.length (p_conns (r_p s))) = Some g) by (rewrite <- Hlen; apply nth_end). rewrite E1, E2.
      assert (N1 : nth_error (p_conns (r_p s)) (List.length (p_conns (r_p s))) = None) by (apply nth_error_None; lia). assert (N2 : nth_error (r_who s) (List.length (p_conns (r_p s))) = None) by (apply nth_error_None; lia).
      rewrite N1, N2 in Hp. apply pk_new; [exact Hp|assumption|]. intros e Hin. destruct (Hn e Hin). auto.
    + assert (E1 : nth_error (p_conns (r_p s) ++ [g0]) k = nth_error (p_conns (r_p s)) k). { destruct (Nat.lt_ge_cases k (List.length (p_conns (r_p s)))) as [Hk|Hk]; [apply nth_error_app1; exact Hk|]. transitivity (@None gconn); [|symmetry]; apply nth_error_None; rewrite ?app_length; cbn; lia. }
      assert (E2 : nth_error (r_who s ++ [g]) k = nth_error (r_who s) k). { destruct (Nat.lt_ge_cases k (List.length (r_who s))) as [Hk|Hk]; [apply nth_error_app1; exact Hk|]. transitivity (@None gid); [|symmetry]; apply nth_error_None; rewrite ?app_length; cbn; lia. }
      rewrite E1, E2. apply pk_frame; [exact Hp|]. intros e Hin. eapply new_about; eassumption.
  - subst p. rewrite lupd_at. subst es. destruct (Nat.eqb k c) eqn:Ek.
    + apply Nat.eqb_eq in Ek. subst k. rewrite H0, H in *. eapply pk_conn; [eassumption| |exact Hp]. eapply Hc. eassumption.
    + apply Nat.eqb_neq in Ek. apply pk_frame; [exact Hp|]. intros e Hin. eapply gev_about; eassumption.
Qed.
