(** RaceTopProofs.v: which races there are. *)
From Coq Require Import ZifyBool ZifyNat ZifyN.
From Verif Require Import Base BitfieldModel WireModel HandshakeModel LayoutModel PptModel PeerModel FsModel SwarmModel SessionModel RunModel ProcModel ProcSpec ProcProofs RaceSpec RaceModel RaceProofs RaceInvProofs RaceMemProofs RaceConnProofs.
From Verif Require LoopModel ReadLoopModel ReadLoopSpec ReadLoopProofs TimeModel.

(** ** The beginning *)
Definition head6 : trace := by_ GMain [Wr XSwarm; Wr XHead; Wr XTrack; Wr XUsed; Wr XRUsed; Wr XTotal].
Definition body (logs : bool) (n : nat) : trace := by_ GMain ([Go GListen; Go GClock] ++ map (fun i => Go (GOut i)) (seq 0 n)) ++ by_ GListen [Rd XSwarm] ++ lg logs GListen.
Lemma opening_split logs n : opening logs n = (head6 ++ body logs n) ++ [(GListen, Wr XPhs)].
Proof. unfold opening, head6, body, by_. rewrite !map_app. cbn [map]. rewrite <- !app_assoc. reflexivity. Qed.
Definition early (e : event) : Prop := (exists g, e = (GMain, Go g) /\ (g = GListen \/ g = GClock \/ exists n, g = GOut n)) \/ e = (GListen, Rd XSwarm) \/ e = (GListen, Lk MLog) \/ e = (GListen, Ul MLog).
Lemma body_early logs n e : In e (body logs n) -> early e.
Proof.
  unfold body, early. intros H. rewrite !in_app_iff in H. destruct H as [H|[H|H]].
  - unfold by_ in H. rewrite map_app, in_app_iff in H. destruct H as [H|H].
    + left. cbn in H. destruct H as [<-|[<-|[]]]; eauto 8.
    + left. rewrite map_map in H. apply in_map_iff in H. destruct H as (i & <- & _). eauto 8.
  - ins. auto.
  - ins; auto.
Qed.
Lemma opening_len logs n : List.length (opening logs n) = S (6 + List.length (body logs n)).
Proof. rewrite opening_split, !app_length. cbn. lia. Qed.
Lemma opening_at logs n p e : (6 <= p)%nat -> nth_error (opening logs n) p = Some e -> early e \/ (e = (GListen, Wr XPhs) /\ p = pred (List.length (opening logs n))).
Proof.
  intros Hp H. rewrite opening_len. rewrite opening_split in H. destruct (Nat.lt_ge_cases p (List.length (head6 ++ body logs n))) as [Hl|Hl].
  - left. rewrite nth_error_app1 in H by exact Hl. rewrite nth_error_app2 in H by exact Hp. apply (body_early logs n). eapply nth_error_In. exact H.
  - right. rewrite nth_error_app2 in H by exact Hl. destruct (at_end _ _ _ _ Hl H) as [-> ->]. rewrite app_length. split; reflexivity.
Qed.
Lemma opening_head logs n p : (p < 6)%nat -> exists x, nth_error (opening logs n) p = Some (GMain, Wr x).
Proof. intros H. rewrite opening_split, nth_error_app1 by (rewrite app_length; cbn; lia). rewrite nth_error_app1 by (cbn; lia). do 6 (destruct p as [|p]; [eexists; reflexivity|]). lia. Qed.
Lemma opening_6 logs n : nth_error (opening logs n) 6 = Some (GMain, Go GListen) /\ nth_error (opening logs n) 7 = Some (GMain, Go GClock) /\ forall i, (i < n)%nat -> nth_error (opening logs n) (8 + i) = Some (GMain, Go (GOut i)).
Proof.
  unfold opening, by_. rewrite map_app. cbn [map app]. split; [reflexivity|]. split; [reflexivity|]. intros i Hi. cbn [nth_error Nat.add]. rewrite nth_error_app1 by (rewrite !map_length, seq_length; exact Hi).
  rewrite map_map, nth_error_map. rewrite nth_error_nth' with (d := O) by (rewrite seq_length; exact Hi). rewrite seq_nth by exact Hi. reflexivity.
Qed.
Lemma early_kind e : early e -> kind e /\ ~ touches XPhs e /\ forall x, x <> XSwarm -> ~ touches x e.
Proof. intros [(g & -> & _)|[->|[->| ->]]]; (split; [kinds|]; split; [intros H; hits|]; intros x Hx H; hits; congruence). Qed.
Lemma opening_quiet logs n x p e : x <> XSwarm -> x <> XPhs -> (6 <= p)%nat -> nth_error (opening logs n) p = Some e -> ~ touches x e.
Proof. intros H1 H2 H6 E. destruct (opening_at _ _ _ _ H6 E) as [He|[-> _]]; [apply early_kind in He; apply He; exact H1|]. intros Ht. hits. congruence. Qed.
Lemma opening_main logs n p g : (p < 6)%nat -> g = GMain \/ g = GListen \/ g = GClock \/ (exists i, (i < n)%nat /\ g = GOut i) -> K (opening logs n) g p.
Proof.
  intros Hp Hg. destruct (opening_head logs n p Hp) as (x & Hx). destruct (opening_6 logs n) as (H6 & H7 & H8).
  assert (Hq : forall q h, (6 <= q)%nat -> nth_error (opening logs n) q = Some (GMain, Go h) -> K (opening logs n) h p).
  { intros q h Hq Hn. exists q, (GMain, Go h). split; [exact Hn|]. split; [|now right]. right. apply (hb_program _ p q _ _ GMain ltac:(lia) Hx Hn); now left. }
  destruct Hg as [->|[->|[->|(i & Hi & ->)]]].
  - exists p, (GMain, Wr x). split; [exact Hx|]. split; [now left|]. left. now left.
  - apply (Hq 6%nat); [lia|exact H6].
  - apply (Hq 7%nat); [lia|exact H7].
  - apply (Hq (8 + i)%nat); [lia|auto].
Qed.

(** ** The whole invariant *)
Record rinv (pc : pconst) (n0 : nat) (s : rstate) : Prop := { i_base : base pc n0 s; i_lock : linv (r_p s); i_trk : trk (r_t s); i_usd : usd pc s; i_pk : conns_pk s }.
Lemma no_acc_opening logs n x : x <> XSwarm -> x <> XPhs -> forall p, ~ acc (touches x) (opening logs n) p.
Proof. intros H1 H2 p (e & E & Ht & H6). exact (opening_quiet _ _ _ _ _ H1 H2 H6 E Ht). Qed.
Lemma RF_none R x t : (forall p, ~ acc R t p) -> RF R x t.
Proof. intros H i j e f Hij Ei Ej He Hf _. exfalso. apply (H i). exists e. repeat split; [exact Ei|exact He|lia]. Qed.
Lemma sent_none logs n c : sends c (opening logs n) = 0%nat /\ recvs c (opening logs n) = 0%nat.
Proof.
  apply counts. intros e Hin. rewrite opening_split, !in_app_iff in Hin. destruct Hin as [[Hin|Hin]|Hin].
  - unfold head6 in Hin. ins; split; discriminate.
  - apply body_early in Hin. destruct Hin as [(g & -> & _)|[->|[->| ->]]]; split; discriminate.
  - ins. split; discriminate.
Qed.
Lemma rinv_start logs pc t w peers : rinv pc (List.length (opening logs (List.length peers))) (rstarted logs t w peers).
Proof.
  unfold rstarted. set (n := List.length peers). assert (Hn : (7 <= List.length (opening logs n))%nat) by (rewrite opening_len; lia). split.
  - split; cbn [r_who r_p started p_conns r_t].
    + reflexivity.
    + intros x [].
    + intros k g Hk. destruct k; discriminate.
    + lia.
    + intros p Hp j e Hj E _. destruct (opening_head logs n p Hp) as (x & Hx). destruct (Nat.lt_ge_cases j 6) as [Hl|Hl].
      * destruct (opening_head logs n j Hl) as (y & Hy). eapply hb_program; [exact Hj|exact Hx|exact Hy|now left..].
      * assert (Hm : fst e = GMain \/ fst e = GListen). { destruct (opening_at _ _ _ _ Hl E) as [[(g & -> & _)|[->|[->| ->]]]|[-> _]]; cbn; auto. }
        destruct Hm as [Hm|Hm]; [eapply hb_program; [exact Hj|exact Hx|exact E|now left|left; exact Hm]|]. destruct (opening_6 logs n) as (H6 & _).
        destruct (Nat.eq_dec j 6) as [->|Hne]; [rewrite H6 in E; apply Some_inj in E; subst e; discriminate Hm|].
        apply (hb_trans _ _ 6); [eapply hb_program; [|exact Hx|exact H6|now left..]; lia|]. eapply hb_go; [|exact H6|exact E|left; exact Hm]. lia.
    + intros g p Hg Hp. apply opening_main; [exact Hp|]. destruct g; cbn [alive r_wait r_who r_left r_p started p_conns List.length] in Hg; auto; try lia; try (destruct Hg as [[]|[]]; fail); try (destruct Hg as (g & Hg & _); destruct k; discriminate).
      destruct Hg as [Hg|[]]. apply in_seq in Hg. right. right. right. exists n0. split; [lia|reflexivity].
    + intros j e Hj E. pose proof (nth_lt _ _ _ E) as Hl. unfold trace, event in *. lia.
    + exists (pred (List.length (opening logs n))), (GListen, Wr XPhs). split; [|split; [now left|left; now left]]. rewrite opening_len. cbn [pred]. rewrite opening_split.
      replace (6 + List.length (body logs n))%nat with (List.length (head6 ++ body logs n)) by (rewrite app_length; reflexivity). apply nth_end.
    + intros m [Hm|[]]. destruct Hm.
    + intros p e H6 E. destruct (opening_at _ _ _ _ H6 E) as [He|[-> _]]; [apply early_kind in He; apply He|kinds].
    + intros p e H6 E Ht. destruct (opening_at _ _ _ _ H6 E) as [He|[-> ->]]; [apply early_kind in He; destruct He as (_ & He & _); destruct (He Ht)|]. left. split; reflexivity.
  - intros k. cbn. unfold hold. cbn. destruct k; cbn; split; discriminate.
  - cbn [r_t]. assert (Ha : forall p, ~ acc (touches XTrack) (opening logs n) p) by (apply no_acc_opening; discriminate). split; [apply RF_none; exact Ha|]. intros p Hp. destruct (Ha p Hp).
  - assert (Ha : forall p, ~ acc mine (opening logs n) p) by (intros p (e & E & [Ht _] & H6); apply (no_acc_opening logs n XUsed ltac:(discriminate) ltac:(discriminate) p); exists e; auto).
    unfold usd. cbn [r_t r_p started p_sh sh_lock]. split; [apply RF_none; exact Ha|]. split.
    + intros _ p e H6 E Hm. destruct (Ha p). exists e. auto.
    + intros _ p Hp. destruct (Ha p Hp).
  - intros k. cbn [r_t r_p r_who started p_conns]. assert (Ha : forall x, idx x = Some k -> forall p, ~ acc (touches x) (opening logs n) p) by (intros x Hx; apply no_acc_opening; intros ->; discriminate).
    destruct (sent_none logs n (CBuf k)) as [S1 S2]. destruct (sent_none logs n (CReady k)) as [S3 S4].
    assert (E1 : nth_error (@nil gconn) k = None) by (destruct k; reflexivity). rewrite E1. split; try (apply RF_none, Ha; reflexivity); try (intros _; apply Ha; reflexivity); try (intros X; exfalso; apply X; (reflexivity || exact I)).
    + intros x Hx. assert (Hi : idx x = Some k) by (destruct Hx as [-> | ->]; reflexivity). split; [apply RF_none, Ha; exact Hi|]. split; [intros _; apply Ha; exact Hi|]. intros X. exfalso. apply X. reflexivity.
    + discriminate.
    + rewrite S1, S2. reflexivity.
    + rewrite S3, S4. reflexivity.
Qed.
Lemma rstep_lock logs pc l s s' : rstep logs pc l s = Some s' -> linv (r_p s) -> linv (r_p s').
Proof.
  intros H Hl. destruct l as [|l j]; cbn [rstep] in H.
  - destruct (r_on s); [discriminate|]. apply Some_inj in H. subst s'. cbn [r_p]. eapply linv_same; [exact Hl|reflexivity|]. reflexivity.
  - destruct (pstep pc l (r_p s)) as [| |p'] eqn:Ep; try discriminate. pose proof (linv_step _ _ _ _ Hl Ep) as Hl'. destruct l.
    + apply Some_inj in H. subst s'. exact Hl'.
    + destruct (nth_error (r_wait s) j); [|discriminate]. destruct (in_peer _); apply Some_inj in H; subst s'; exact Hl'.
    + destruct (nth_error (r_left s) i); [|discriminate]. destruct (ok && hs); apply Some_inj in H; subst s'; exact Hl'.
    + apply Some_inj in H. subst s'. exact Hl'.
    + destruct (r_on s); [|discriminate]. apply Some_inj in H. subst s'. exact Hl'.
    + destruct (nth_error (r_who s) k); [|discriminate]. destruct (nth_error (p_conns (r_p s)) k); [|discriminate]. apply Some_inj in H. subst s'. exact Hl'.
Qed.
Lemma rinv_step logs pc n0 l s s' : rstep logs pc l s = Some s' -> rinv pc n0 s -> rinv pc n0 s'.
Proof.
  intros H [HB HL HT HU HP]. destruct (rstep_moved _ _ _ _ _ H) as (es & Hm). split.
  - eapply base_step; eassumption.
  - eapply rstep_lock; eassumption.
  - eapply trk_step; eassumption.
  - eapply usd_step; [exact Hm|apply HB|exact HL|exact HU].
  - eapply pks_step; [exact Hm|apply HB|apply HB|exact HP].
Qed.
Lemma rinv_run logs pc n0 : forall ls s s', rrun logs pc ls s = Some s' -> rinv pc n0 s -> rinv pc n0 s'.
Proof.
  induction ls as [|l ls IH]; intros s s' H Hi; cbn in H; [apply Some_inj in H; now subst|]. destruct (rstep logs pc l s) as [s1|] eqn:E; [|discriminate]. eapply IH; [exact H|]. eapply rinv_step; eassumption.
Qed.

(** ** The only races *)
Lemma race_sym t i j x : race t i j x -> race t j i x.
Proof.
  intros (e & f & H1 & H2 & H3 & (C1 & C2 & C3 & C4) & H5 & H6). exists f, e. split; [exact H2|]. split; [exact H1|]. split; [congruence|]. split; [|auto].
  split; [exact C2|]. split; [exact C1|]. split; intros [X Y]; [apply C3|apply C4]; auto.
Qed.
Definition limiter_race (e f : event) : Prop := fst e = GClock /\ exists k, fst f = GRecv k.
Lemma races_lt pc n0 s i j x : rinv pc n0 s -> (i < j)%nat -> race (r_t s) i j x ->
  exists e f, nth_error (r_t s) i = Some e /\ nth_error (r_t s) j = Some f /\
    (((x = XPhs \/ x = XHead) /\ exists n m, n <> m /\ fst e = GIn n /\ fst f = GIn m) \/
     (x = XUsed /\ (limiter_race e f \/ limiter_race f e) /\ (pc_rate pc = -1 -> snd e = Wr XUsed \/ snd f = Wr XUsed))).
Proof.
  intros [HB _ HT HU HP] Hij (e & f & Ei & Ej & Hne & Hc & Hh & _). exists e, f. split; [exact Ei|]. split; [exact Ej|].
  destruct (Nat.lt_ge_cases i 6) as [Hl|Hl]; [exfalso; apply Hh; exact (b_root _ _ _ HB i Hl j f Hij Ej I)|].
  pose proof (b_kind _ _ _ HB i e Hl Ei) as (K1 & K2 & K3 & K4 & K5). pose proof (b_kind _ _ _ HB j f ltac:(lia) Ej) as (J1 & J2 & J3 & J4 & J5).
  assert (He : touches x e) by apply Hc. assert (Hf : touches x f) by apply Hc.
  assert (Hrf : forall R, RF R x (r_t s) -> R e -> R f -> False) by (intros R Hr H1 H2; apply Hh; apply (Hr i j e f); auto).
  destruct x.
  - exfalso. destruct Hc as (_ & _ & X & _). apply X. auto.
  - left. split; [now right|]. specialize (K4 He). specialize (J4 Hf). destruct (fst e) eqn:E1; try destruct K4. destruct (fst f) eqn:E2; try destruct J4. exists n, n1. split; [congruence|auto].
  - exfalso. exact (Hrf _ (proj1 HT) He Hf).
  - left. split; [now left|]. destruct (b_list _ _ _ HB i e Hl Ei He) as [[X1 X2]|[X1 X2]], (b_list _ _ _ HB j f ltac:(lia) Ej Hf) as [[Y1 Y2]|[Y1 Y2]].
    + congruence.
    + exfalso. apply Hh. subst i. exact (b_phs _ _ _ HB j f Hij Ej Y2).
    + exfalso. pose proof (b_n0 _ _ _ HB). lia.
    + destruct (fst e) eqn:E1; try destruct X2. destruct (fst f) eqn:E2; try destruct Y2. exists n, n1. split; [congruence|auto].
  - right. split; [reflexivity|]. destruct HU as (U1 & U2 & _).
    assert (Hcl : limiter_race e f \/ limiter_race f e).
    { destruct (K5 He) as [[X _]|(k & X)], (J5 Hf) as [[Y _]|(k' & Y)]; [congruence|left; split; eauto|right; split; eauto|]. exfalso. apply (Hrf _ U1); split; auto; congruence. }
    split; [exact Hcl|]. intros Er. specialize (U2 Er). destruct Hc as (A1 & A2 & A3 & A4). destruct Hcl as [[X (k & Y)]|[X (k & Y)]].
    + assert (Z : snd f = At XUsed) by (apply (U2 j f); auto; [lia|split; [exact Hf|congruence]]). left. destruct A1 as [A|[A|A]]; [|exact A|exfalso; apply A4; auto].
      destruct (K5 He) as [[_ N]|(k1 & N)]; congruence.
    + assert (Z : snd e = At XUsed) by (apply (U2 i e); auto; split; [exact He|congruence]). right. destruct A2 as [A|[A|A]]; [|exact A|exfalso; apply A4; auto]. destruct (J5 Hf) as [[_ N]|(k1 & N)]; congruence.
  - exfalso. rewrite (K3 He), (J3 Hf) in Hne. congruence.
  - exfalso. destruct Hc as (_ & _ & _ & X). apply X. auto.
  - exfalso. exact (Hrf _ (k_peer _ _ _ _ (HP k)) He Hf).
  - exfalso. exact (Hrf _ (proj1 (k_bb _ _ _ _ (HP k) (XBf k) (or_introl eq_refl))) He Hf).
  - exfalso. exact (Hrf _ (proj1 (k_bb _ _ _ _ (HP k) (XBuf k) (or_intror eq_refl))) He Hf).
  - exfalso. exact (Hrf _ (k_loop _ _ _ _ (HP k)) He Hf).
  - exfalso. exact (Hrf _ (k_recv _ _ _ _ (HP k)) He Hf).
Qed.
