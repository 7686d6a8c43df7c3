(** RaceMemProofs.v: who may touch which memory, over the runs of the process. *)
From Coq Require Import ZifyBool ZifyNat ZifyN.
From Verif Require Import Base BitfieldModel WireModel HandshakeModel LayoutModel PptModel PeerModel FsModel SwarmModel SessionModel RunModel ProcModel ProcSpec ProcProofs RaceSpec RaceModel RaceProofs RaceInvProofs.
From Verif Require LoopModel ReadLoopModel ReadLoopSpec ReadLoopProofs TimeModel.

(** ** What kind of access each event is *)
Definition isIn (g : gid) : Prop := match g with GIn _ => True | _ => False end.
Definition kind (e : event) : Prop :=
  (touches XSwarm e -> snd e = Rd XSwarm) /\ (touches XTotal e -> snd e = At XTotal) /\ (touches XRUsed e -> fst e = GClock) /\
  (touches XHead e -> isIn (fst e)) /\ (touches XUsed e -> (fst e = GClock /\ snd e <> Rd XUsed) \/ exists k, fst e = GRecv k).
Ltac kinds := unfold kind; repeat match goal with |- _ /\ _ => split end; intros; hits; cbn; eauto; try (left; split; [reflexivity|discriminate]).
Lemma lg_kind logs g e : In e (lg logs g) -> kind e.
Proof. unfold lg. destruct logs; intros H; ins; kinds. Qed.
Lemma gev_kind logs pc w c g gl e : In e (gevents logs pc w c g gl) -> kind e.
Proof.
  intros H. destruct gl; cbn [gevents] in H; try (ins; kinds; fail).
  destruct (m_todo (g_m g)) as [|m r]; [destruct H|]. unfold handles in H. apply in_app_or in H. destruct H as [H|H]; [ins; kinds|]. destruct m; ins; kinds.
Qed.
Lemma gev_phs logs pc w c g gl e : In e (gevents logs pc w c g gl) -> ~ touches XPhs e.
Proof.
  intros H Ht. destruct gl; cbn [gevents] in H; try (ins; hits; fail).
  destruct (m_todo (g_m g)) as [|m r]; [destruct H|]. unfold handles in H. apply in_app_or in H. destruct H as [H|H]; [ins; hits|]. destruct m; ins; hits.
Qed.
Lemma moved_kind logs pc s es s' : moved logs pc s es s' -> forall e, In e es -> kind e /\ (touches XPhs e -> isIn (fst e)).
Proof.
  intros H e Hin. destruct H as [p' E1 E2 E3|p' E1 E2 E3|p' E1 E2 es|p' g wait left es E1 E2 Hes|p' g wait left es g0 u pre mid E1 E2 Hf k Hes Ees|sh c w g g' gl Ew Eg Hg p es]; subst.
  - ins; (split; [kinds|intros; hits]).
  - ins; (split; [kinds|intros; hits]).
  - subst es. ins; (split; [kinds|intros; hits]).
  - destruct Hes as [(-> & _)|[(j & n & a & b & -> & _ & _ & _ & ->)|(j & n & -> & _ & _ & _ & ->)]].
    + destruct Hin.
    + unfold turned_away in Hin. ins; (split; [kinds|intros; hits; exact I]).
    + ins; (split; [kinds|intros; hits]).
  - destruct Hes as [(j & n & -> & _ & _ & _ & -> & ->)|(j & n & -> & _ & _ & _ & -> & ->)]; unfold made_by, loop_starts in Hin; ins; (split; [kinds|intros; hits; exact I]).
  - subst es. split; [eapply gev_kind; exact Hin|]. intros Ht. exfalso. eapply gev_phs; eassumption.
Qed.

(** ** The frame of the invariant *)
Record base (pc : pconst) (n0 : nat) (s : rstate) : Prop := {
  b_len : List.length (r_who s) = List.length (p_conns (r_p s));
  b_who : whos s;
  b_conn : conns_ok pc s;
  b_n0 : (7 <= n0 <= List.length (r_t s))%nat;
  b_root : forall p, (p < 6)%nat -> after (fun _ => True) p (r_t s);
  b_alive : forall g p, alive s g -> (p < 6)%nat -> K (r_t s) g p;
  b_phs : after isIn (pred n0) (r_t s);
  b_listen : K (r_t s) GListen (pred n0);
  b_in : forall n, alive s (GIn n) -> K (r_t s) (GIn n) (pred n0);
  b_kind : all6 kind (r_t s);
  b_list : forall p e, (6 <= p)%nat -> nth_error (r_t s) p = Some e -> touches XPhs e -> (p = pred n0 /\ fst e = GListen) \/ ((n0 <= p)%nat /\ isIn (fst e)) }.

Lemma base_step logs pc n0 s es s' : moved logs pc s es s' -> base pc n0 s -> base pc n0 s'.
Proof.
  intros H [Hlen Hw Hc Hn Hr Ha Hp Hl Hi Hk Hs]. pose proof (acts_alive _ _ _ _ _ H Hlen Hw Hc) as Hact. pose proof (new_alive _ _ _ _ _ H Hlen) as Hnew. pose proof (moved_t _ _ _ _ _ H) as Ht. pose proof (moved_kind _ _ _ _ _ H) as Hmk.
  split; try rewrite Ht.
  - destruct H; subst; cbn [r_who r_p p_conns]; rewrite ?app_length; try (rewrite H; exact Hlen).
    + rewrite H, app_length, Hlen. reflexivity.
    + rewrite lupd_len. exact Hlen.
  - destruct H; subst; try exact Hw. intros x Hx. cbn [r_who] in Hx. apply in_app_or in Hx. destruct Hx as [Hx|[<-|[]]]; [auto|]. destruct H2 as [(j & n & -> & _)|(j & n & -> & _)]; eauto.
  - destruct H; subst; intros j x Hx; cbn [r_p p_conns] in Hx; try (rewrite H in Hx; eapply Hc; exact Hx).
    + rewrite H in Hx. destruct (Nat.lt_ge_cases j (List.length (p_conns (r_p s)))) as [Hj|Hj]; [rewrite nth_error_app1 in Hx by exact Hj; eapply Hc; exact Hx|].
      rewrite nth_error_app2 in Hx by exact Hj. destruct (at_end _ _ _ _ Hj Hx) as [_ ->]. now apply fresh_cok.
    + rewrite lupd_at in Hx. destruct (Nat.eqb j c) eqn:E; [|eapply Hc; exact Hx]. subst p. rewrite H0 in Hx. apply Some_inj in Hx. subst x. eapply cok_step; [eassumption|]. eapply Hc. eassumption.
  - rewrite app_length. lia.
  - intros p Hp6. apply after_app; [lia|auto|]. intros e Hin _. apply Ha; [|exact Hp6]. auto.
  - intros g p Hg Hp6. destruct (Hnew g Hg) as [Hg'|(a & Hin)]; [apply K_app; auto|]. apply (K_in _ _ a (a, Go g)); [|exact Hin|now left|now right]. apply Ha; [|exact Hp6]. exact (Hact _ Hin).
  - apply after_app; [lia|exact Hp|]. intros e Hin He. destruct e as [g a]. cbn [fst] in *. destruct g; try destruct He. apply Hi. exact (Hact _ Hin).
  - apply K_app. exact Hl.
  - intros n Hg. destruct (Hnew _ Hg) as [Hg'|(a & Hin)]; [apply K_app; auto|]. apply (K_in _ _ a (a, Go (GIn n))); [|exact Hin|now left|now right].
    assert (a = GListen); [|subst a; exact Hl]. clear - H Hin. destruct H; subst; try (unfold turned_away in *; ins; congruence).
    + subst es. ins; congruence.
    + destruct H1 as [(-> & _)|[(j & m & a' & b & -> & _ & _ & _ & ->)|(j & m & -> & _ & _ & _ & ->)]]; unfold turned_away in *; ins; congruence.
    + destruct H2 as [(j & m & -> & _ & _ & _ & -> & ->)|(j & m & -> & _ & _ & _ & -> & ->)]; unfold made_by, loop_starts in Hin; ins; congruence.
    + subst es. destruct gl; cbn [gevents] in Hin; try (ins; congruence). destruct (m_todo (g_m g)) as [|m' r]; [destruct Hin|]. unfold handles in Hin. apply in_app_or in Hin. destruct Hin as [Hin|Hin]; [ins; congruence|]. destruct m'; ins; congruence.
  - apply all6_app; [exact Hk|]. intros e Hin. apply Hmk. exact Hin.
  - intros p e H6 E Hx. destruct (Nat.lt_ge_cases p (List.length (r_t s))) as [Hj|Hj]; [rewrite nth_error_app1 in E by exact Hj; eauto|]. rewrite nth_error_app2 in E by exact Hj. right. split; [lia|]. apply (Hmk e); [|exact Hx]. eapply nth_error_In. exact E.
Qed.

(** ** The piece tracker: only under its mutex *)
Definition trk (t : trace) : Prop := RF (touches XTrack) XTrack t /\ forall p, acc (touches XTrack) t p -> L t MTrack p.
Lemma trk_none t es : trk t -> (forall e, In e es -> ~ touches XTrack e) -> trk (t ++ es).
Proof. intros [H1 H2] Hn. split; [now apply RF_app|]. intros p Hp. apply L_app, H2. eapply acc_old; eassumption. Qed.
Lemma trk_lock t e1 g e2 e3 : trk t -> (forall e, In e e1 -> ~ touches XTrack e) -> (forall e, In e e2 -> fst e = g) -> (forall e, In e e3 -> ~ touches XTrack e) ->
  trk (t ++ e1 ++ (g, Lk MTrack) :: e2 ++ (g, Ul MTrack) :: e3).
Proof. intros [H1 H2] N1 N2 N3. apply (locked (touches XTrack) XTrack t e1 MTrack g e2 e3); auto; intros Hx; hits. Qed.
Lemma trk_step logs pc s es s' : moved logs pc s es s' -> trk (r_t s) -> trk (r_t s').
Proof.
  intros H Ht. pose proof (moved_t _ _ _ _ _ H) as E. rewrite E. destruct H; subst.
  - apply trk_none; [exact Ht|]. intros ev Hin Hx. ins; hits.
  - apply trk_none; [exact Ht|]. intros ev Hin Hx. ins; hits.
  - apply trk_none; [exact Ht|]. subst es. intros ev Hin Hx. ins; hits.
  - apply trk_none; [exact Ht|]. intros e Hin Hx. destruct H1 as [(-> & _)|[(j & m & a' & b & -> & _ & _ & _ & ->)|(j & m & -> & _ & _ & _ & ->)]]; unfold turned_away in *; ins; hits.
  - apply trk_none; [exact Ht|]. intros e Hin Hx. destruct H2 as [(j & m & -> & _ & _ & _ & -> & ->)|(j & m & -> & _ & _ & _ & -> & ->)]; unfold made_by, loop_starts in Hin; ins; hits.
  - subst es. destruct gl; cbn [gevents]; try (apply trk_none; [exact Ht|]; intros ev Hin Hx; ins; hits; fail).
    + destruct (m_todo (g_m g)) as [|m r]; [apply trk_none; [exact Ht|intros e []]|]. unfold handles. destruct m; try (apply trk_none; [exact Ht|]; intros ev Hin Hx; ins; hits; fail).
      match goal with |- context [if ?x then _ else _] => destruct x end; [|apply trk_none; [exact Ht|]; intros ev Hin Hx; ins; hits].
      pose proof (trk_lock (r_t s) (by_ (GRecv c) [Rd (XPeer c); Rd XSwarm; Rd (XRecv c); Wr (XBf c)]) (GRecv c) (by_ (GRecv c) [Rd XTrack; Rd (XPeer c); Wr XTrack]) (lg logs (GRecv c)) Ht) as HL.
      cbn [by_ map app] in *. apply HL.
      * intros ev Hin Hx. ins; hits.
      * intros e Hin. ins; reflexivity.
      * intros ev Hin Hx. ins; hits.
    + apply (trk_lock (r_t s) (by_ (GReq c) [Rd XSwarm]) (GReq c) (by_ (GReq c) [Rd XTrack; Rd XSwarm; Rd (XPeer c); Wr XTrack]) [] Ht).
      * intros ev Hin Hx. ins; hits.
      * intros e Hin. ins; reflexivity.
      * intros e [].
Qed.

(** ** wUsed, without what Run does to it *)
Definition mine (e : event) : Prop := touches XUsed e /\ fst e <> GClock.
Definition usd (pc : pconst) (s : rstate) : Prop :=
  RF mine XUsed (r_t s) /\ (pc_rate pc = -1 -> all6 (fun e => mine e -> snd e = At XUsed) (r_t s)) /\
  (pc_rate pc <> -1 -> match sh_lock (p_sh (r_p s)) with
                       | None => forall p, acc mine (r_t s) p -> L (r_t s) MWrite p
                       | Some k => forall p, acc mine (r_t s) p -> K (r_t s) (GRecv k) p
                       end).
Lemma all_at t : all6 (fun e => mine e -> snd e = At XUsed) t -> RF mine XUsed t.
Proof. intros H i j e f Hij Ei Ej He Hf (_ & _ & _ & Hn). exfalso. apply Hn. split; [apply (H i e); auto; lia|apply (H j f); auto; lia]. Qed.
Lemma usd_none pc s s' es : usd pc s -> r_t s' = r_t s ++ es -> sh_lock (p_sh (r_p s')) = sh_lock (p_sh (r_p s)) -> (forall e, In e es -> ~ mine e) -> usd pc s'.
Proof.
  intros (H1 & H2 & H3) Et El Hn. unfold usd. rewrite Et, El. split; [now apply RF_app|]. split.
  - intros Er. apply all6_app; [auto|]. intros e Hin Hm. destruct (Hn e Hin Hm).
  - intros Er. specialize (H3 Er). destruct (sh_lock _); intros p Hp; apply acc_old in Hp; auto; [apply K_app|apply L_app]; auto.
Qed.
Lemma gev_mine logs pc w c g gl e : In e (gevents logs pc w c g gl) -> mine e -> match gl with GSpin | GAdd => True | GSend _ => pc_rate pc = -1 | _ => False end.
Proof.
  intros H [Hx Hn]. destruct gl; cbn [gevents] in H; try exact I; try (ins; hits; fail).
  - destruct (m_todo (g_m g)) as [|m r]; [destruct H|]. unfold handles in H. apply in_app_or in H. destruct H as [H|H]; [ins; hits|]. destruct m; ins; hits.
  - destruct (pc_rate pc =? -1) eqn:E; [apply Z.eqb_eq; exact E|]. ins; hits.
Qed.
Lemma lock_same pc k sh g l sh' g' : gstep pc k sh g l = GWent sh' g' -> l <> GLock -> l <> GAdd -> sh_lock sh' = sh_lock sh.
Proof.
  destruct g as [m [L P V Q n] h]. destruct l; cbn [gstep g_m g_a g_c a_loop a_ping a_recv a_req a_procs recv_at req_at]; cbv zeta; intros E N1 N2; try congruence; cases E; went E; reflexivity.
Qed.
Lemma usd_step logs pc s es s' : moved logs pc s es s' -> conns_ok pc s -> linv (r_p s) -> usd pc s -> usd pc s'.
Proof.
  intros H Hc Hl Hu. pose proof (moved_t _ _ _ _ _ H) as Et. destruct H; subst.
  - eapply usd_none; [exact Hu|exact Et|assumption|]. intros e Hin [Hx Hn]. ins; hits; cbn in Hn; congruence.
  - eapply usd_none; [exact Hu|exact Et|assumption|]. intros e Hin [Hx Hn]. ins; hits; cbn in Hn; congruence.
  - eapply usd_none; [exact Hu|exact Et|assumption|]. subst es. intros e Hin [Hx Hn]. ins; hits.
  - eapply usd_none; [exact Hu|exact Et|assumption|]. intros e Hin [Hx Hn]. destruct H1 as [(-> & _)|[(j & m & a' & b & -> & _ & _ & _ & ->)|(j & m & -> & _ & _ & _ & ->)]]; unfold turned_away in *; ins; hits.
  - eapply usd_none; [exact Hu|exact Et|assumption|]. intros e Hin [Hx Hn]. destruct H2 as [(j & m & -> & _ & _ & _ & -> & ->)|(j & m & -> & _ & _ & _ & -> & ->)]; unfold made_by, loop_starts in Hin; ins; hits.
  - subst p es. pose proof (Hc c g H0) as (_ & _ & HR). pose proof (Hl c) as Hlc. unfold hold in Hlc. rewrite H0 in Hlc.
    destruct (match gl with GLock | GSpin | GAdd | GSend _ => true | _ => false end) eqn:El.
    2: { eapply usd_none; [exact Hu|exact Et|eapply lock_same; [exact H1| |]; intros ->; discriminate|]. intros e Hin Hm. pose proof (gev_mine _ _ _ _ _ _ _ Hin Hm). destruct gl; try contradiction; discriminate. }
    destruct Hu as (U1 & U2 & U3). destruct g as [m [L0 P V Q n] h]. cbn [g_a a_recv] in *. unfold usd. rewrite Et. clear Et.
    destruct gl; try discriminate El; clear El; cbn [gstep g_m g_a g_c a_loop a_ping a_recv a_req a_procs recv_at req_at] in H1; cbv zeta in H1; cbn [gevents r_p p_sh].
    + (* GLock *)
      destruct V; try discriminate H1. destruct (sh_lock (p_sh (r_p s))) eqn:Es; [discriminate H1|]. went H1. cbn [sh_lock].
      assert (Hn : forall e, In e [(GRecv c, Lk MWrite)] -> ~ mine e) by (intros e [<-|[]] [Hx _]; hits).
      split; [now apply RF_app|]. split; [intros Er; apply all6_app; [auto|intros e Hin Hm; destruct (Hn e Hin Hm)]|].
      intros Er p Hp. apply Lk_new. apply (U3 Er). eapply acc_old; eassumption.
    + (* GSpin *)
      destruct V; try discriminate H1. cases H1. went H1. assert (Es : sh_lock (p_sh (r_p s)) = Some c) by (apply Hlc; reflexivity). rewrite Es in *.
      assert (Er : pc_rate pc <> -1) by (intros Er; exact (HR Er)). specialize (U3 Er).
      destruct (excl mine XUsed (GRecv c) (by_ (GRecv c) [Rd XUsed; Rd XSwarm]) (r_t s) U1 U3) as [X1 X2]; [intros e Hin _; ins; reflexivity|]. split; [exact X1|]. split; [contradiction|]. intros _. exact X2.
    + (* GAdd *)
      destruct V; try discriminate H1. cases H1. went H1. cbn [sh_lock]. assert (Es : sh_lock (p_sh (r_p s)) = Some c) by (apply Hlc; reflexivity). rewrite Es in *.
      assert (Er : pc_rate pc <> -1) by (intros Er; exact (HR Er)). specialize (U3 Er).
      destruct (excl mine XUsed (GRecv c) (by_ (GRecv c) [At XUsed]) (r_t s) U1 U3) as [X1 X2]; [intros e Hin _; ins; reflexivity|].
      replace (r_t s ++ by_ (GRecv c) [At XUsed; Ul MWrite; At XTotal]) with (((r_t s ++ by_ (GRecv c) [At XUsed]) ++ [(GRecv c, Ul MWrite)]) ++ [(GRecv c, At XTotal)]) by (rewrite <- !app_assoc; reflexivity).
      assert (N1 : forall e, In e [(GRecv c, Ul MWrite)] -> ~ mine e) by (intros e [<-|[]] [Hx _]; hits).
      assert (N2 : forall e, In e [(GRecv c, At XTotal)] -> ~ mine e) by (intros e [<-|[]] [Hx _]; hits).
      split; [apply RF_app; [apply RF_app; [exact X1|exact N1]|exact N2]|]. split; [contradiction|]. intros _ p Hp. apply L_app, L_new, X2. eapply acc_old; [exact N1|]. eapply acc_old; [exact N2|]. exact Hp.
    + (* GSend *)
      assert (Es : sh = p_sh (r_p s)) by (cases H1; went H1; reflexivity). subst sh.
      destruct (pc_rate pc =? -1) eqn:Er.
      * apply Z.eqb_eq in Er. assert (A : all6 (fun e => mine e -> snd e = At XUsed) (r_t s ++ by_ (GRecv c) [Rd (XPeer c)] ++ by_ (GRecv c) [At XUsed; At XTotal])).
        { apply all6_app; [auto|]. intros e Hin [Hx _]. ins; hits; reflexivity. }
        split; [now apply all_at|]. split; [auto|contradiction].
      * apply Z.eqb_neq in Er. assert (N : forall e, In e (by_ (GRecv c) [Rd (XPeer c)] ++ []) -> ~ mine e) by (intros e Hin [Hx _]; ins; hits).
        split; [now apply RF_app|]. split; [contradiction|]. intros _. specialize (U3 Er). destruct (sh_lock _); intros p Hp; apply acc_old in Hp; auto; [apply K_app|apply L_app]; auto.
Qed.
