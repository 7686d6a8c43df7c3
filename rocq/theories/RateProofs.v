(** RateProofs.v: proofs about RateModel. *)
From Coq Require Import ZifyBool ZifyNat ZifyN.
From Verif Require Import Base RateModel RateSpec.

Lemma goto_eq s t p : goto s t p t = p.
Proof. unfold goto. rewrite Nat.eqb_refl. reflexivity. Qed.
Lemma goto_neq s t p u : u <> t -> goto s t p u = at_ s u.
Proof. intros H. unfold goto. replace (Nat.eqb u t) with false by lia. reflexivity. Qed.

(** An invariant of state and record. *)
Lemma run_inv prog (I : rl -> list ev -> Prop) : (forall s tr l s' e, I s tr -> step prog s l = Some (s', e) -> I s' (tr ++ e)) ->
  forall ls s tr s' e, I s tr -> run prog s ls = Some (s', e) -> I s' (tr ++ e).
Proof.
  intros HS. induction ls as [|l ls IH]; intros s tr s' e HI H; cbn [run] in H.
  - assert (s = s' /\ e = []) as [<- ->] by (split; congruence). rewrite app_nil_r. exact HI.
  - destruct (step prog s l) as [[s1 e1]|] eqn:E; [|discriminate]. destruct (run prog s1 ls) as [[s2 e2]|] eqn:E2; [|discriminate].
    assert (s2 = s' /\ e = e1 ++ e2) as [<- ->] by (split; congruence). rewrite app_assoc. eapply IH; [|exact E2]. eapply HS; eassumption.
Qed.
Lemma run_inv0 prog (I : rl -> list ev -> Prop) ls s s' tr : (forall s tr l s' e, I s tr -> step prog s l = Some (s', e) -> I s' (tr ++ e)) -> I s [] -> run prog s ls = Some (s', tr) -> I s' tr.
Proof. intros HS HI H. exact (run_inv prog I HS ls s [] s' tr HI H). Qed.
Lemma run_app prog ls : forall s ls' s1 e1 s2 e2, run prog s ls = Some (s1, e1) -> run prog s1 ls' = Some (s2, e2) -> run prog s (ls ++ ls') = Some (s2, e1 ++ e2).
Proof.
  induction ls as [|l ls IH]; intros s ls' s1 e1 s2 e2 H H'; cbn [run app] in *.
  - assert (s = s1 /\ e1 = []) as [<- ->] by (split; congruence). exact H'.
  - destruct (step prog s l) as [[sa ea]|] eqn:E; [|discriminate]. destruct (run prog sa ls) as [[sb eb]|] eqn:E2; [|discriminate].
    assert (sb = s1 /\ e1 = ea ++ eb) as [<- ->] by (split; congruence). rewrite (IH _ _ _ _ _ _ E2 H'), app_assoc. reflexivity.
Qed.

(** ** The lock *)
Definition holds (p : pc) : bool := match p with PSpin | PAdd | PUnlock | SSet | SUnlock => true | _ => false end.
Definition exclusive (s : rl) : Prop := forall t, holds (at_ s t) = true <-> owner s = Some t.
Lemma step_exclusive prog s l s' e : exclusive s -> step prog s l = Some (s', e) -> exclusive s'.
Proof.
  intros HI H. destruct l as [|u]; cbn [step] in H.
  - assert (s' = mkrl (rate s) 0 (total s) (owner s) (at_ s)) as -> by congruence. exact HI.
  - pose proof (HI u) as HU. destruct (prog u), (at_ s u) eqn:Ep; try discriminate; try (destruct (owner s) eqn:Eo; try discriminate);
    match type of H with Some (?x, _) = _ => assert (s' = x) as -> by congruence end; intros t; cbn [at_ owner]; pose proof (HI t) as HT; rewrite ?Eo in *;
    (destruct (Nat.eq_dec t u) as [->|Hne]; [rewrite goto_eq|rewrite goto_neq by exact Hne]);
    try (destruct (rate s =? NoLimit)); try (destruct (used s <? rate s)); cbn [holds] in *;
    try tauto; try (split; intros; congruence); try (split; [intros HX; apply HT in HX; congruence|intros; congruence]).
    all: try (rewrite Ep in HT; cbn [holds] in HT; tauto).
    all: split; [intros HX; apply HT in HX; pose proof (proj1 HU eq_refl); congruence|intros HX; try discriminate].
Qed.

(** ** The limit (C50) *)
Definition since_tick (tr : list ev) : Z := fold_left (fun a e => match e with EvTick => 0 | EvAdmit _ n => a + n | _ => a end) tr 0.
Lemma since_tick_snoc tr e : since_tick (tr ++ [e]) = match e with EvTick => 0 | EvAdmit _ n => since_tick tr + n | _ => since_tick tr end.
Proof. unfold since_tick. rewrite fold_left_app. reflexivity. Qed.
Lemma snoc_split {A} (tr : list A) e p x q : tr ++ [e] = p ++ x :: q -> (q = [] /\ p = tr /\ x = e) \/ exists q', tr = p ++ x :: q'.
Proof.
  intros H. destruct q as [|y q _] using rev_ind.
  - left. apply app_inj_tail in H. destruct H as [-> ->]. auto.
  - right. exists q. rewrite app_comm_cons, app_assoc in H. apply app_inj_tail in H. destruct H as [H _]. exact H.
Qed.
Definition limit_ok (R : Z) (tr : list ev) : Prop := forall p t n q, tr = p ++ EvAdmit t n :: q -> since_tick p < R.
Lemma limit_ok_nil R : limit_ok R [].
Proof. intros [|? p] t n q H; discriminate. Qed.
Lemma limit_ok_snoc R tr e : limit_ok R tr -> (forall t n, e = EvAdmit t n -> since_tick tr < R) -> limit_ok R (tr ++ [e]).
Proof. intros H He p t n q E. destruct (snoc_split _ _ _ _ _ E) as [(-> & -> & Ex)|(q' & E')]; [eapply He; symmetry; exact Ex|exact (H _ _ _ _ E')]. Qed.
Definition byp (p : pc) : bool := match p with PBypIO | PBypUsed | PBypTotal => true | _ => false end.
Record I50 (R L : Z) (s : rl) (tr : list ev) : Prop := {
  i_ex : exclusive s; i_rate : 0 <= rate s <= R; i_byp : forall t, byp (at_ s t) = false; i_used : used s = since_tick tr;
  i_bound : 0 <= used s < R + L \/ used s = 0; i_add : forall t, at_ s t = PAdd -> used s < R; i_ok : limit_ok R tr }.
Lemma I50_step prog R L : 0 < R -> limited prog R L -> R + L <= max64 -> forall s tr l s' e, I50 R L s tr -> step prog s l = Some (s', e) -> I50 R L s' (tr ++ e).
Proof.
  intros HR [HN HV] HL s tr l s' e [Iex Irate Ibyp Iused Ibound Iadd Iok] H. pose proof (step_exclusive _ _ _ _ _ Iex H) as Hex'.
  destruct l as [|u]; cbn [step] in H.
  - assert (s' = mkrl (rate s) 0 (total s) (owner s) (at_ s) /\ e = [EvTick]) as [-> ->] by (split; congruence). split; cbn [rate used at_]; auto.
    + rewrite since_tick_snoc. reflexivity.
    + apply limit_ok_snoc; [exact Iok|]. intros; discriminate.
  - assert (HA : forall p, (p = PAdd -> used s < R) -> forall t, goto s u p t = PAdd -> used s < R).
    { intros p Hp t Ht. destruct (Nat.eq_dec t u) as [->|Hne]; [rewrite goto_eq in Ht; auto|rewrite goto_neq in Ht by exact Hne; exact (Iadd t Ht)]. }
    assert (HB : forall p, byp p = false -> forall t, byp (goto s u p t) = false).
    { intros p Hp t. destruct (Nat.eq_dec t u) as [->|Hne]; [rewrite goto_eq; exact Hp|rewrite goto_neq by exact Hne; apply Ibyp]. }
    pose proof (Ibyp u) as Hbu.
    destruct (prog u) as [n x|v] eqn:Ep, (at_ s u) eqn:Ea; try discriminate; try (destruct (owner s) eqn:Eo; try discriminate);
      match type of H with Some ?y = _ => assert (HX : y = (s', e)) by congruence end; injection HX as <- <-; rewrite ?app_nil_r;
      (split; cbn [rate used at_]; auto;
       try (rewrite since_tick_snoc; exact Iused); try (apply limit_ok_snoc; [exact Iok|intros; discriminate]); try (apply HA; discriminate); try (apply HB; reflexivity)).
    all: try (replace (rate s =? NoLimit) with false by (unfold NoLimit; lia); apply HB; reflexivity).
    all: try (replace (rate s =? NoLimit) with false by (unfold NoLimit; lia); apply HA; discriminate).
    all: try (apply HB; destruct (used s <? rate s); reflexivity).
    all: try (apply HA; intros; destruct (Z.ltb_spec (used s) (rate s)); [lia|discriminate]).
    all: try (unfold clamp, NoLimit; specialize (HV u v Ep); destruct (Z.ltb_spec v (-1)); lia).
    all: specialize (HN u n x Ep); pose proof (Iadd u Ea) as HuR.
    all: try (rewrite i64_id by (unfold min64; lia)).
    all: try (rewrite since_tick_snoc, <- Iused; reflexivity).
    all: try (left; lia).
    all: try (apply limit_ok_snoc; [exact Iok|]; intros; rewrite <- Iused; exact HuR).
    all: intros t Ht; exfalso; (destruct (Nat.eq_dec t u) as [->|Hne]; [rewrite goto_eq in Ht; discriminate|rewrite goto_neq in Ht by exact Hne]).
    all: assert (owner s = Some t) by (apply Iex; rewrite Ht; reflexivity); assert (owner s = Some u) by (apply Iex; rewrite Ea; reflexivity); congruence.
Qed.
Lemma I50_init R L r : 0 < R -> 0 <= r <= R -> I50 R L (init r) [].
Proof.
  intros HR Hr. split; cbn [init rate used at_ owner].
  - intros t. cbn [init at_ owner holds]. split; discriminate.
  - exact Hr.
  - reflexivity.
  - reflexivity.
  - right. reflexivity.
  - intros; discriminate.
  - apply limit_ok_nil.
Qed.
Lemma admitted_app a b : admitted (a ++ b) = admitted a + admitted b.
Proof. induction a as [|e a IH]; [reflexivity|]. cbn [app admitted fold_right]. change (fold_right _ 0 (a ++ b)) with (admitted (a ++ b)). change (fold_right _ 0 a) with (admitted a). destruct e; lia. Qed.
Lemma since_tick_window a w : no_tick w -> since_tick (a ++ w) = since_tick a + admitted w.
Proof.
  induction w as [|e w IH] using rev_ind; intros H; [rewrite !app_nil_r; cbn; lia|]. rewrite app_assoc, since_tick_snoc, admitted_app.
  rewrite IH by (intros Hi; apply H, in_app_iff; auto). destruct e; cbn; try lia. exfalso. apply H, in_app_iff. right. left. reflexivity.
Qed.
Lemma since_tick_nonneg tr : (forall t n, In (EvAdmit t n) tr -> 0 <= n) -> 0 <= since_tick tr.
Proof.
  induction tr as [|e tr IH] using rev_ind; intros H; [cbn; lia|]. rewrite since_tick_snoc. assert (0 <= since_tick tr) by (apply IH; intros t n Hi; eapply H, in_app_iff; eauto).
  destruct e; try lia. specialize (H t n ltac:(apply in_app_iff; right; left; reflexivity)). lia.
Qed.
Lemma admit_of_step prog s l s' e : step prog s l = Some (s', e) -> forall t n, In (EvAdmit t n) e -> exists x, prog t = OpIO n x.
Proof.
  intros H t n Hi. destruct l as [|u]; cbn [step] in H; [assert (e = [EvTick]) as -> by congruence; destruct Hi as [Hi|[]]; discriminate|].
  destruct (prog u) as [m x|v] eqn:Ep, (at_ s u) eqn:Ea; try discriminate; try (destruct (owner s) eqn:Eo; try discriminate);
      match type of H with Some (_, ?y) = _ => assert (e = y) as -> by congruence end; cbn [In] in Hi; try contradiction; destruct Hi as [Hi|[]]; try discriminate.
  all: assert (u = t /\ m = n) as [-> ->] by (split; congruence); eauto.
Qed.
Lemma admits prog s ls s' tr : run prog s ls = Some (s', tr) -> forall t n, In (EvAdmit t n) tr -> exists x, prog t = OpIO n x.
Proof.
  intros H. pose proof (run_inv prog (fun _ tr => forall t n, In (EvAdmit t n) tr -> exists x, prog t = OpIO n x)) as HI.
  refine (HI _ ls s [] s' tr _ H); [|intros ? ? []]. intros s0 tr0 l s1 e H0 HS t n Hi. apply in_app_iff in Hi. destruct Hi as [Hi|Hi]; [eauto|]. eapply admit_of_step; eassumption.
Qed.
Lemma limit_admission prog R L r ls s tr : 0 < R -> 0 <= r <= R -> limited prog R L -> R + L <= max64 -> run prog (init r) ls = Some (s, tr) ->
  forall a w t n b, tr = a ++ w ++ EvAdmit t n :: b -> no_tick w -> admitted w < R.
Proof.
  intros HR Hr HL HM H a w t n b E Hw. pose proof (run_inv prog (I50 R L) (I50_step prog R L HR HL HM) ls (init r) [] s tr (I50_init R L r HR Hr) H) as HI.
  pose proof (i_ok _ _ _ _ HI (a ++ w) t n b ltac:(rewrite <- app_assoc; exact E)) as Hlt. rewrite since_tick_window in Hlt by exact Hw.
  assert (0 <= since_tick a); [|lia]. apply since_tick_nonneg. intros u m Hi. destruct (admits _ _ _ _ _ H u m) as (x & Hx); [rewrite E, in_app_iff; auto|]. destruct HL as [HN _]. specialize (HN u m x Hx). lia.
Qed.
Lemma limit_window prog R L r ls s tr : 0 < R -> 0 <= r <= R -> limited prog R L -> R + L <= max64 -> 0 <= L -> run prog (init r) ls = Some (s, tr) ->
  forall a w b, tr = a ++ w ++ b -> no_tick w -> admitted w < R + L.
Proof.
  intros HR Hr HL HM HL0 H a w b E Hw.
  assert (HX : admitted w = 0 \/ exists w1 t n w2, w = w1 ++ EvAdmit t n :: w2 /\ admitted w2 = 0).
  { clear. induction w as [|e w [IH|(w1 & t & n & w2 & -> & IH)]]; [left; reflexivity| |].
    - destruct e; try (left; exact IH). right. exists [], t, n, w. auto.
    - right. exists (e :: w1), t, n, w2. auto. }
  destruct HX as [->|(w1 & t & n & w2 & -> & Hz)]; [lia|].
  assert (H1 : admitted w1 < R). { eapply (limit_admission prog R L r ls s tr HR Hr HL HM H a w1 t n (w2 ++ b)); [rewrite E, <- app_assoc; reflexivity|]. intros Hi. apply Hw, in_app_iff. auto. }
  destruct (admits _ _ _ _ _ H t n) as (x & Hx); [rewrite E, !in_app_iff; right; left; right; left; reflexivity|]. destruct HL as [HN _]. specialize (HN t n x Hx).
  rewrite admitted_app. cbn [admitted fold_right]. change (fold_right _ 0 w2) with (admitted w2). lia.
Qed.

(** ** The limit is not one on the bytes written per tick *)
Definition ones (t : nat) : op := OpIO 1 (B "x").
Definition admit_labs (t : nat) : list lab := [Go t; Go t; Go t; Go t; Go t; Go t; Tick].
Lemma ones_admit s t : owner s = None -> used s = 0 -> rate s = 1 -> at_ s t = PStart ->
  exists s' e, run ones s (admit_labs t) = Some (s', e) /\ owner s' = None /\ used s' = 0 /\ rate s' = 1 /\ at_ s' t = PIO /\ forall u, u <> t -> at_ s' u = at_ s u.
Proof.
  intros Ho Hu Hr Ha. unfold admit_labs. cbn [run step ones]. rewrite Ha. cbn [at_]. rewrite goto_eq, Hr. cbn [Z.eqb NoLimit Pos.eqb owner at_]. rewrite Ho. cbn [at_]. rewrite goto_eq. cbn [used rate]. rewrite Hu. cbn [Z.ltb Z.compare at_].
  rewrite goto_eq. cbn [at_]. rewrite goto_eq. cbn [at_]. rewrite goto_eq. eexists _, _. split; [reflexivity|]. cbn [owner used rate at_]. repeat split; [rewrite goto_eq; reflexivity|]. intros u Hne. rewrite goto_neq by exact Hne. unfold goto. cbn [at_]. replace (Nat.eqb u t) with false by lia. reflexivity.
Qed.
Lemma ones_admit_all K : forall s k, owner s = None -> used s = 0 -> rate s = 1 -> (forall t, (k <= t)%nat -> at_ s t = PStart) ->
  exists s' e, run ones s (flat_map admit_labs (seq k K)) = Some (s', e) /\ (forall t, (t < k)%nat -> at_ s' t = at_ s t) /\ forall t, (k <= t < k + K)%nat -> at_ s' t = PIO.
Proof.
  induction K as [|K IH]; intros s k Ho Hu Hr Hs; cbn [seq flat_map].
  - exists s, []. split; [reflexivity|]. split; [reflexivity|]. intros; lia.
  - destruct (ones_admit s k Ho Hu Hr (Hs k ltac:(lia))) as (s1 & e1 & R1 & Ho1 & Hu1 & Hr1 & Hk & Hother).
    destruct (IH s1 (S k) Ho1 Hu1 Hr1) as (s2 & e2 & R2 & Hlo & Hhi); [intros t Ht; rewrite Hother by lia; apply Hs; lia|].
    exists s2, (e1 ++ e2). split; [exact (run_app _ _ _ _ _ _ _ _ R1 R2)|]. split.
    + intros t Ht. rewrite Hlo by lia. apply Hother. lia.
    + intros t Ht. destruct (Nat.eq_dec t k) as [->|Hne]; [rewrite Hlo by lia; exact Hk|apply Hhi; lia].
Qed.
Lemma ones_write_all ts : NoDup ts -> forall s, (forall t, In t ts -> at_ s t = PIO) -> exists s', run ones s (map Go ts) = Some (s', map (fun t => EvIO t (B "x")) ts).
Proof.
  induction 1 as [|t ts Hn _ IH]; intros s Hs; cbn [map run]; [eexists; reflexivity|]. cbn [step ones]. rewrite (Hs t) by (left; reflexivity).
  destruct (IH (mkrl (rate s) (used s) (total s) (owner s) (goto s t PDone))) as (s' & E).
  - intros u Hu. cbn [at_]. rewrite goto_neq by (intros ->; contradiction). apply Hs. right. exact Hu.
  - exists s'. rewrite E. reflexivity.
Qed.
Lemma moved_ones ts : moved (map (fun t => EvIO t (B "x")) ts) = Z.of_nat (List.length ts).
Proof.
  induction ts as [|t l IHl]; [reflexivity|]. cbn [map moved fold_right List.length]. change (fold_right _ 0 (map ?f l)) with (moved (map f l)). rewrite IHl. change (zlen (B "x")) with 1. lia.
Qed.
Lemma written_unbounded K : exists ls s a w, run ones (init 1) ls = Some (s, a ++ w) /\ no_tick w /\ moved w = Z.of_nat K.
Proof.
  destruct (ones_admit_all K (init 1) 0 eq_refl eq_refl eq_refl ltac:(reflexivity)) as (s1 & a & R1 & _ & Hp).
  destruct (ones_write_all (seq 0 K) (seq_NoDup K 0) s1) as (s2 & R2); [intros t Ht; apply in_seq in Ht; apply Hp; lia|].
  exists (flat_map admit_labs (seq 0 K) ++ map Go (seq 0 K)), s2, a, (map (fun t => EvIO t (B "x")) (seq 0 K)). split; [exact (run_app _ _ _ _ _ _ _ _ R1 R2)|]. split.
  - intros Hi. apply in_map_iff in Hi. destruct Hi as (t & E & _). discriminate.
  - rewrite moved_ones, seq_length. reflexivity.
Qed.

(** ** Wedges (C51) *)
Lemma reach_exclusive prog r ls s tr : run prog (init r) ls = Some (s, tr) -> exclusive s.
Proof.
  apply (run_inv0 prog (fun s _ => exclusive s)).
  - intros s0 tr0 l s1 e HI HS. eapply step_exclusive; eassumption.
  - intros t. cbn. split; discriminate.
Qed.
Record wedged (t : nat) (s0 s : rl) (tr : list ev) : Prop := {
  w_ex : exclusive s; w_rate : rate s = rate s0; w_at : at_ s t = PSpin;
  w_used : used s0 + bypassed tr <= max64 -> 0 <= used s <= used s0 + bypassed tr;
  w_wait : forall u, at_ s0 u = PLock \/ at_ s0 u = SLock -> at_ s u = at_ s0 u;
  w_pos : 0 <= bypassed tr }.
Lemma bypassed_app a b : bypassed (a ++ b) = bypassed a + bypassed b.
Proof. induction a as [|e a IH]; [reflexivity|]. cbn [app bypassed fold_right]. change (fold_right _ 0 (a ++ b)) with (bypassed (a ++ b)). change (fold_right _ 0 a) with (bypassed a). destruct e; lia. Qed.
Lemma wedged_step prog s0 t : sizes_nonneg prog -> at_ s0 t = PSpin -> rate s0 <= 0 -> 0 <= used s0 ->
  forall s1 tr1 l s2 e, (used s0 + bypassed tr1 <= max64 -> wedged t s0 s1 tr1) -> step prog s1 l = Some (s2, e) -> used s0 + bypassed (tr1 ++ e) <= max64 -> wedged t s0 s2 (tr1 ++ e) /\ (used s0 + bypassed tr1 <= max64).
Proof.
  intros HN Hat Hr Hu.
  intros s1 tr1 l s2 e IH HS Hle. rewrite bypassed_app in Hle.
  assert (He : 0 <= bypassed e).
  { destruct l as [|u]; cbn [step] in HS; [assert (e = [EvTick]) as -> by congruence; cbn; lia|].
    destruct (prog u) as [m x|v] eqn:Ep, (at_ s1 u) eqn:Ea; try discriminate; try (destruct (owner s1) eqn:Eo; try discriminate);
      match type of HS with Some (_, ?y) = _ => assert (e = y) as -> by congruence end; cbn [bypassed fold_right]; try lia; specialize (HN u m x Ep); lia. }
  split; [|lia].
  destruct (IH ltac:(lia)) as [Wex Wrate Wat Wused Wwait Wpos]. specialize (Wused ltac:(lia)). pose proof (step_exclusive _ _ _ _ _ Wex HS) as Hex2.
  assert (Hown : owner s1 = Some t) by (apply Wex; rewrite Wat; reflexivity).
  destruct l as [|u]; cbn [step] in HS.
  { assert (s2 = mkrl (rate s1) 0 (total s1) (owner s1) (at_ s1) /\ e = [EvTick]) as [-> ->] by (split; congruence). split; cbn [rate used at_]; auto; intros; rewrite ?bypassed_app; cbn; lia. }
  destruct (Nat.eq_dec u t) as [->|Hne].
  { destruct (prog t) as [m x|v] eqn:Ep; rewrite Wat in HS; try discriminate. replace (used s1 <? rate s1) with false in HS by lia.
    assert (s2 = mkrl (rate s1) (used s1) (total s1) (owner s1) (goto s1 t PSpin) /\ e = []) as [-> ->] by (split; congruence). rewrite app_nil_r. split; cbn [rate used at_]; auto.
    - apply goto_eq.
    - intros u Hw. destruct (Nat.eq_dec u t) as [->|Hne]; [exfalso; destruct Hw; congruence|]. rewrite goto_neq by exact Hne. auto. }
  assert (Hnh : holds (at_ s1 u) = false). { destruct (holds (at_ s1 u)) eqn:Eh; [|reflexivity]. apply Wex in Eh. congruence. }
  destruct (prog u) as [m x|v] eqn:Ep, (at_ s1 u) eqn:Ea; try discriminate; try (rewrite Hown in HS; discriminate);
    match type of HS with Some ?y = _ => assert (HX : y = (s2, e)) by congruence end; injection HX as <- <-;
    (split; cbn [rate used at_]; auto; rewrite ?bypassed_app; cbn [bypassed fold_right] in *; intros;
     rewrite ?goto_neq by congruence; auto; try lia).
  all: try (match goal with |- goto _ _ _ ?w = _ => destruct (Nat.eq_dec w u) as [->|Hwu]; [exfalso; match goal with Hw : _ \/ _ |- _ => rewrite <- (Wwait u Hw) in Hw; rewrite Ea in Hw; destruct Hw; discriminate end|rewrite goto_neq by exact Hwu; auto] end).
  all: try (rewrite i64_id by (unfold min64; specialize (HN u m x Ep); lia); specialize (HN u m x Ep); lia).
Qed.
Lemma wedge_closed prog s0 t : sizes_nonneg prog -> exclusive s0 -> at_ s0 t = PSpin -> rate s0 <= 0 -> 0 <= used s0 ->
  forall ls s tr, run prog s0 ls = Some (s, tr) -> used s0 + bypassed tr <= max64 -> wedged t s0 s tr.
Proof.
  intros HN Hex Hat Hr Hu ls s tr H.
  refine (run_inv0 prog (fun s tr => used s0 + bypassed tr <= max64 -> wedged t s0 s tr) ls s0 s tr _ _ H).
  - intros s1 tr1 l s2 e IH HS Hle. exact (proj1 (wedged_step prog s0 t HN Hat Hr Hu s1 tr1 l s2 e IH HS Hle)).
  - intros _. split; auto; cbn [bypassed fold_right]; lia.
Qed.

(** ** Otherwise every call can finish *)
Definition typed_at (o : op) (p : pc) : bool :=
  match o, p with OpIO _ _, (SLock | SSet | SUnlock) => false | OpIO _ _, _ => true | OpSet _, (PStart | SLock | SSet | SUnlock | PDone) => true | OpSet _, _ => false end.
Definition typed (prog : nat -> op) (s : rl) : Prop := forall t, typed_at (prog t) (at_ s t) = true.
Lemma step_typed prog s l s' e : typed prog s -> step prog s l = Some (s', e) -> typed prog s'.
Proof.
  intros HT H. destruct l as [|u]; cbn [step] in H; [assert (s' = mkrl (rate s) 0 (total s) (owner s) (at_ s)) as -> by congruence; exact HT|].
  destruct (prog u) as [m x|v] eqn:Ep, (at_ s u) eqn:Ea; try discriminate; try (destruct (owner s) eqn:Eo; try discriminate);
    match type of H with Some (?y, _) = _ => assert (s' = y) as -> by congruence end; intros t; cbn [at_];
    (destruct (Nat.eq_dec t u) as [->|Hne]; [rewrite goto_eq, Ep|rewrite goto_neq by exact Hne; apply HT]); try reflexivity.
  - destruct (_ =? _); reflexivity.
  - destruct (_ =? _); reflexivity.
  - destruct (_ <? _); reflexivity.
  - destruct (_ <? _); reflexivity.
Qed.
(** Calls that have not got past the lock never do. *)
Definition outside (p : pc) : bool := match p with PStart | SLock | PLock => true | _ => false end.
Lemma wedge_top prog r ls0 s0 tr0 t : sizes_nonneg prog -> run prog (init r) ls0 = Some (s0, tr0) -> at_ s0 t = PSpin -> rate s0 <= 0 -> 0 <= used s0 ->
  forall ls s tr, run prog s0 ls = Some (s, tr) -> used s0 + bypassed tr <= max64 ->
  at_ s t = PSpin /\ owner s = Some t /\ rate s = rate s0 /\
  (forall u v, prog u = OpSet v -> at_ s0 u <> PDone -> at_ s u = PStart \/ at_ s u = SLock) /\
  (rate s0 <> NoLimit -> forall u n x, prog u = OpIO n x -> at_ s0 u = PStart \/ at_ s0 u = PLock -> at_ s u = PStart \/ at_ s u = PLock).
Proof.
  intros HN H0 Hat Hr Hu ls s tr H Hb. pose proof (reach_exclusive _ _ _ _ _ H0) as Hex.
  assert (HT0 : typed prog s0). { refine (run_inv0 prog (fun s _ => typed prog s) ls0 (init r) s0 tr0 _ _ H0); [intros; eapply step_typed; eassumption|]. intros u. cbn [init at_]. destruct (prog u); reflexivity. }
  set (Q := fun a : rl => (forall u v, prog u = OpSet v -> outside (at_ s0 u) = true -> outside (at_ a u) = true) /\ (rate s0 <> NoLimit -> forall u, outside (at_ s0 u) = true -> outside (at_ a u) = true)).
  assert (HP : (used s0 + bypassed tr <= max64 -> wedged t s0 s tr /\ Q s) /\ typed prog s).
  { refine (run_inv0 prog (fun s tr => (used s0 + bypassed tr <= max64 -> wedged t s0 s tr /\ Q s) /\ typed prog s) ls s0 s tr _ _ H).
    2:{ split; [|exact HT0]. intros _. split; [split; auto; cbn [bypassed fold_right]; lia|]. split; auto. }
    intros s1 tr1 l s2 e (IH & HT) HS. split; [|eapply step_typed; eassumption]. intros Hle.
    destruct (wedged_step prog s0 t HN Hat Hr Hu s1 tr1 l s2 e (fun h => proj1 (IH h)) HS Hle) as (HW & Hle1). split; [exact HW|].
    destruct (IH Hle1) as ([Wex Wrate Wat _ _ _] & Q1 & Q2). assert (Hown : owner s1 = Some t) by (apply Wex; rewrite Wat; reflexivity).
    destruct l as [|w]; cbn [step] in HS; [assert (s2 = mkrl (rate s1) 0 (total s1) (owner s1) (at_ s1)) as -> by congruence; split; auto|].
    assert (Hstay : outside (at_ s1 w) = true -> (match prog w with OpSet _ => True | OpIO _ _ => rate s0 <> NoLimit end) -> outside (at_ s2 w) = true).
    { intros Ho Hk. destruct (prog w) as [m x|v] eqn:Ep, (at_ s1 w) eqn:Ea; try discriminate; try (rewrite Hown in HS; discriminate);
        match type of HS with Some (?y, _) = _ => assert (s2 = y) as -> by congruence end; cbn [at_]; rewrite goto_eq; try reflexivity.
      replace (rate s1 =? NoLimit) with false by (rewrite Wrate; lia). reflexivity. }
    assert (Hoth : forall u, u <> w -> at_ s2 u = at_ s1 u).
    { intros u Hne. destruct (prog w) as [m x|v] eqn:Ep, (at_ s1 w) eqn:Ea; try discriminate; try (rewrite Hown in HS; discriminate);
        match type of HS with Some (?y, _) = _ => assert (s2 = y) as -> by congruence end; cbn [at_]; apply goto_neq; exact Hne. }
    split.
    - intros u v Eu Ho. specialize (Q1 u v Eu Ho). destruct (Nat.eq_dec u w) as [->|Hne]; [apply Hstay; [exact Q1|rewrite Eu; exact I]|rewrite Hoth by exact Hne; exact Q1].
    - intros Hk u Ho. specialize (Q2 Hk u Ho). destruct (Nat.eq_dec u w) as [->|Hne]; [apply Hstay; [exact Q2|destruct (prog w); auto]|rewrite Hoth by exact Hne; exact Q2]. }
  destruct HP as (HP & HT). destruct (HP Hb) as ([Wex Wrate Wat _ _ _] & Q1 & Q2).
  split; [exact Wat|]. split; [apply Wex; rewrite Wat; reflexivity|]. split; [exact Wrate|]. split.
  - intros u v Eu Hd. pose proof (HT0 u) as Ht0. pose proof (HT u) as Ht. rewrite Eu in Ht0, Ht.
    assert (Ho : outside (at_ s0 u) = true).
    { assert (Hh : holds (at_ s0 u) = false). { destruct (holds (at_ s0 u)) eqn:Eh; [|reflexivity]. apply Hex in Eh. assert (owner s0 = Some t) by (apply Hex; rewrite Hat; reflexivity). assert (u = t) by congruence. subst u. rewrite Hat in Ht0. discriminate. }
      destruct (at_ s0 u); try discriminate; try reflexivity. congruence. }
    specialize (Q1 u v Eu Ho). destruct (at_ s u); try discriminate; auto.
  - intros Hk u n x Eu Hs. pose proof (HT u) as Ht. rewrite Eu in Ht. assert (Ho : outside (at_ s0 u) = true) by (destruct Hs as [-> | ->]; reflexivity). specialize (Q2 Hk u Ho). destruct (at_ s u); try discriminate; auto.
Qed.
Definition calm (prog : nat -> op) (s : rl) : Prop := exclusive s /\ typed prog s /\ 0 < rate s.
Lemma step_calm prog s l s' e : positive prog -> calm prog s -> step prog s l = Some (s', e) -> calm prog s'.
Proof.
  intros HP (H1 & H2 & H3) H. split; [eapply step_exclusive; eassumption|]. split; [eapply step_typed; eassumption|].
  destruct l as [|u]; cbn [step] in H; [assert (s' = mkrl (rate s) 0 (total s) (owner s) (at_ s)) as -> by congruence; exact H3|].
  destruct (prog u) as [m x|v] eqn:Ep, (at_ s u) eqn:Ea; try discriminate; try (destruct (owner s) eqn:Eo; try discriminate);
    match type of H with Some (?y, _) = _ => assert (s' = y) as -> by congruence end; cbn [rate]; try exact H3.
  all: unfold clamp, NoLimit; specialize (HP u v Ep); destruct (Z.ltb_spec v (-1)); lia.
Qed.
Definition can_finish (prog : nat -> op) (t : nat) (s : rl) : Prop := exists ls s' e, run prog s ls = Some (s', e) /\ at_ s' t = PDone.
Lemma can_step prog t s l s1 e : step prog s l = Some (s1, e) -> can_finish prog t s1 -> can_finish prog t s.
Proof. intros H (ls & s' & e' & HR & Hd). exists (l :: ls), s', (e ++ e'). cbn [run]. rewrite H, HR. auto. Qed.
Lemma can_done prog t s : at_ s t = PDone -> can_finish prog t s.
Proof. intros H. exists [], s, []. auto. Qed.
Ltac one := match goal with |- can_finish ?prog ?t ?s => eapply (can_step prog t s (Go t)); [cbn [step]; match goal with E : prog t = _ |- _ => rewrite E end; match goal with E : at_ s t = _ |- _ => rewrite E end; try reflexivity|] end.
Lemma finish_io prog t n x : prog t = OpIO n x -> forall s, calm prog s -> positive prog -> (owner s = None \/ owner s = Some t) -> can_finish prog t s.
Proof.
  intros Ep.
  assert (F1 : forall s, at_ s t = PIO -> can_finish prog t s) by (intros s Ha; one; apply can_done, goto_eq).
  assert (F2 : forall s, at_ s t = PTotal -> can_finish prog t s) by (intros s Ha; one; apply F1, goto_eq).
  assert (F3 : forall s, at_ s t = PUnlock -> can_finish prog t s) by (intros s Ha; one; apply F2, goto_eq).
  assert (F4 : forall s, at_ s t = PAdd -> can_finish prog t s) by (intros s Ha; one; apply F3, goto_eq).
  assert (F5 : forall s, at_ s t = PSpin -> 0 < rate s -> can_finish prog t s).
  { intros s Ha Hr. eapply (can_step _ _ _ Tick); [reflexivity|]. set (s1 := mkrl _ _ _ _ _). assert (Ha1 : at_ s1 t = PSpin) by exact Ha. one. apply F4. cbn [at_]. rewrite goto_eq. cbn [s1 used rate]. replace (0 <? rate s) with true by lia. reflexivity. }
  assert (F6 : forall s, at_ s t = PLock -> owner s = None -> 0 < rate s -> can_finish prog t s) by (intros s Ha Ho Hr; one; [rewrite Ho; reflexivity|]; apply F5; [apply goto_eq|exact Hr]).
  assert (F7 : forall s, at_ s t = PStart -> owner s = None -> 0 < rate s -> can_finish prog t s).
  { intros s Ha Ho Hr. one. apply F6; [cbn [at_]; rewrite goto_eq; replace (rate s =? NoLimit) with false by (unfold NoLimit; lia); reflexivity|exact Ho|exact Hr]. }
  assert (F8 : forall s, at_ s t = PBypTotal -> can_finish prog t s) by (intros s Ha; one; apply can_done, goto_eq).
  assert (F9 : forall s, at_ s t = PBypUsed -> can_finish prog t s) by (intros s Ha; one; apply F8, goto_eq).
  assert (F10 : forall s, at_ s t = PBypIO -> can_finish prog t s) by (intros s Ha; one; apply F9, goto_eq).
  intros s (Hex & HT & Hr) _ Ho. pose proof (HT t) as Ht. rewrite Ep in Ht. specialize (Hex t).
  destruct (at_ s t) eqn:Ea; cbn [typed_at holds] in *; try discriminate; eauto using can_done.
  - apply F7; auto. destruct Ho as [Ho|Ho]; [exact Ho|]. apply Hex in Ho. discriminate.
  - apply F6; auto. destruct Ho as [Ho|Ho]; [exact Ho|]. apply Hex in Ho. discriminate.
Qed.
Lemma finish_set prog t v : prog t = OpSet v -> forall s, calm prog s -> (owner s = None \/ owner s = Some t) -> can_finish prog t s.
Proof.
  intros Ep.
  assert (F1 : forall s, at_ s t = SUnlock -> can_finish prog t s) by (intros s Ha; one; apply can_done, goto_eq).
  assert (F2 : forall s, at_ s t = SSet -> can_finish prog t s) by (intros s Ha; one; apply F1, goto_eq).
  assert (F3 : forall s, at_ s t = SLock -> owner s = None -> can_finish prog t s) by (intros s Ha Ho; one; [rewrite Ho; reflexivity|]; apply F2, goto_eq).
  assert (F4 : forall s, at_ s t = PStart -> owner s = None -> can_finish prog t s) by (intros s Ha Ho; one; apply F3; [apply goto_eq|exact Ho]).
  intros s (Hex & HT & Hr) Ho. pose proof (HT t) as Ht. rewrite Ep in Ht. specialize (Hex t).
  destruct (at_ s t) eqn:Ea; cbn [typed_at holds] in *; try discriminate; eauto using can_done.
  - apply F4; auto. destruct Ho as [Ho|Ho]; [exact Ho|]. apply Hex in Ho. discriminate.
  - apply F3; auto. destruct Ho as [Ho|Ho]; [exact Ho|]. apply Hex in Ho. discriminate.
Qed.
(** The holder of the lock can finish; by then it has released it. *)
Lemma run_calm prog s ls s' e : positive prog -> calm prog s -> run prog s ls = Some (s', e) -> calm prog s'.
Proof. intros HP HC H. refine (run_inv0 prog (fun s _ => calm prog s) ls s s' e _ HC H). intros s0 tr0 l s1 e1 H0 HS. eapply step_calm; eassumption. Qed.
Lemma live prog t s : positive prog -> calm prog s -> can_finish prog t s.
Proof.
  intros HP HC.
  assert (Hmain : forall s, calm prog s -> (owner s = None \/ owner s = Some t) -> can_finish prog t s).
  { intros s0 H0 Ho. destruct (prog t) as [n x|v] eqn:Ep; [eapply finish_io|eapply finish_set]; eassumption. }
  destruct (owner s) as [u|] eqn:Eo; [|apply Hmain; auto]. destruct (Nat.eq_dec u t) as [->|Hne]; [apply Hmain; auto|].
  (* run the holder until it releases the lock *)
  assert (Hrel : exists ls s' e, run prog s ls = Some (s', e) /\ owner s' = None).
  { assert (Hu : holds (at_ s u) = true) by (apply HC; exact Eo). pose proof (proj1 (proj2 HC) u) as Ht.
    assert (Hone : forall a p, match prog u with OpIO _ _ => p = PUnlock | OpSet _ => p = SUnlock end -> at_ a u = p -> exists ls s' e, run prog a ls = Some (s', e) /\ owner s' = None).
    { intros a p Hp Ha. destruct (prog u) as [n x|v] eqn:Ep; subst p; exists [Go u]; cbn [run step]; rewrite Ep, Ha; eexists _, _; split; reflexivity. }
    assert (Hcons : forall a l a1 e1, step prog a l = Some (a1, e1) -> (exists ls s' e, run prog a1 ls = Some (s', e) /\ owner s' = None) -> exists ls s' e, run prog a ls = Some (s', e) /\ owner s' = None).
    { intros a l a1 e1 HS (ls & s' & e & HR & Ho). exists (l :: ls), s', (e1 ++ e). cbn [run]. rewrite HS, HR. auto. }
    destruct (prog u) as [n x|v] eqn:Ep; destruct (at_ s u) eqn:Ea; try discriminate.
    - eapply (Hcons _ Tick); [reflexivity|]. eapply (Hcons _ (Go u)); [cbn [step]; rewrite Ep; cbn [at_]; rewrite Ea; reflexivity|]. cbn [used rate]. replace (0 <? rate s) with true by (destruct HC as (_ & _ & ?); lia).
      eapply (Hcons _ (Go u)); [cbn [step]; rewrite Ep; cbn [at_]; rewrite goto_eq; reflexivity|]. eapply Hone; [reflexivity|]. apply goto_eq.
    - eapply (Hcons _ (Go u)); [cbn [step]; rewrite Ep, Ea; reflexivity|]. eapply Hone; [reflexivity|]. apply goto_eq.
    - eapply Hone; [reflexivity|exact Ea].
    - eapply (Hcons _ (Go u)); [cbn [step]; rewrite Ep, Ea; reflexivity|]. eapply Hone; [reflexivity|]. apply goto_eq.
    - eapply Hone; [reflexivity|exact Ea]. }
  destruct Hrel as (ls & s' & e & HR & Ho). destruct (Hmain s' (run_calm _ _ _ _ _ HP HC HR) (or_introl Ho)) as (ls' & s2 & e2 & HR2 & Hd).
  exists (ls ++ ls'), s2, (e ++ e2). split; [exact (run_app _ _ _ _ _ _ _ _ HR HR2)|exact Hd].
Qed.
Lemma calm_init prog r : 0 < r -> calm prog (init r).
Proof. intros Hr. split; [intros t; cbn; split; discriminate|]. split; [intros t; cbn [init at_]; destruct (prog t); reflexivity|exact Hr]. Qed.
Lemma live_top prog r ls s tr t : 0 < r -> positive prog -> run prog (init r) ls = Some (s, tr) -> exists ls' s' tr', run prog s ls' = Some (s', tr') /\ at_ s' t = PDone.
Proof. intros Hr HP H. exact (live prog t s HP (run_calm _ _ _ _ _ HP (calm_init prog r Hr) H)). Qed.

(** ** Totals (C52) *)
Definition io_done (p : pc) : bool := match p with PBypUsed | PBypTotal | PDone => true | _ => false end.
Definition total_done (p : pc) : bool := match p with PIO | PDone => true | _ => false end.
Record I52 (prog : nat -> op) (s : rl) (tr : list ev) : Prop := {
  t_typed : typed prog s; t_total : total s = i64 (counted tr);
  t_io : forall t, io_of t tr = match prog t with OpIO _ x => if io_done (at_ s t) then [x] else [] | OpSet _ => [] end;
  t_tot : forall t, total_of t tr = match prog t with OpIO n _ => if total_done (at_ s t) then [n] else [] | OpSet _ => [] end }.
Lemma counted_app a b : counted (a ++ b) = counted a + counted b.
Proof. induction a as [|e a IH]; [reflexivity|]. cbn [app counted fold_right]. change (fold_right _ 0 (a ++ b)) with (counted (a ++ b)). change (fold_right _ 0 a) with (counted a). destruct e; lia. Qed.
Lemma i64_add a b : i64 (i64 a + b) = i64 (a + b).
Proof. unfold i64. f_equal. replace ((a - min64) mod 18446744073709551616 + min64 + b - min64) with ((a - min64) mod 18446744073709551616 + b) by lia. rewrite Zplus_mod_idemp_l. f_equal. lia. Qed.
Lemma I52_step prog s tr l s' e : I52 prog s tr -> step prog s l = Some (s', e) -> I52 prog s' (tr ++ e).
Proof.
  intros [HT Htot Hio Htt] H. pose proof (step_typed _ _ _ _ _ HT H) as HT'.
  assert (Ha1 : forall t, io_of t (tr ++ e) = io_of t tr ++ io_of t e) by (intros; unfold io_of; apply flat_map_app).
  assert (Ha2 : forall t, total_of t (tr ++ e) = total_of t tr ++ total_of t e) by (intros; unfold total_of; apply flat_map_app).
  destruct l as [|u]; cbn [step] in H.
  - assert (s' = mkrl (rate s) 0 (total s) (owner s) (at_ s) /\ e = [EvTick]) as [-> ->] by (split; congruence).
    split; [exact HT'|cbn [total]; rewrite counted_app; cbn; rewrite Z.add_0_r; exact Htot| |]; intros t; [rewrite Ha1, Hio|rewrite Ha2, Htt]; cbn [at_]; apply app_nil_r.
  - destruct (prog u) as [m x|v] eqn:Ep, (at_ s u) eqn:Ea; try discriminate; try (destruct (owner s) eqn:Eo; try discriminate);
      match type of H with Some ?y = _ => assert (HX : y = (s', e)) by congruence end; injection HX as <- <-;
      (split; [exact HT'| | |]; cbn [total at_]; [rewrite ?counted_app; cbn [counted fold_right]; rewrite ?Z.add_0_r; try exact Htot| |]).
    all: try (rewrite Htot, i64_add; reflexivity).
    all: intros t; rewrite ?Ha1, ?Ha2, ?Hio, ?Htt; cbn [io_of total_of flat_map]; rewrite ?app_nil_r;
      (destruct (Nat.eq_dec t u) as [->|Hne]; [rewrite ?goto_eq, ?Ep, ?Ea, ?Nat.eqb_refl|rewrite ?goto_neq by exact Hne; replace (Nat.eqb u t) with false by lia; rewrite ?app_nil_r; reflexivity]).
    all: try (destruct (_ =? _)); try (destruct (_ <? _)); reflexivity.
Qed.
Lemma io_in t x tr : In (EvIO t x) tr <-> In x (io_of t tr).
Proof.
  induction tr as [|e tr IH]; [cbn; tauto|]. cbn [io_of flat_map In]. change (flat_map _ tr) with (io_of t tr). rewrite in_app_iff, <- IH. destruct e as [|?|?|?|u y]; try (split; [intros [H|H]; [discriminate|auto]|intros [[]|H]; auto]).
  destruct (Nat.eqb_spec u t) as [->|Hne]; cbn [In]; split; intros [H|H]; auto; try contradiction.
  - left. left. congruence.
  - destruct H as [->|[]]. auto.
  - exfalso. congruence.
Qed.
Lemma totals_top prog r ls s tr : run prog (init r) ls = Some (s, tr) ->
  total s = i64 (counted tr) /\
  (forall t n x, prog t = OpIO n x -> (io_of t tr = [] \/ io_of t tr = [x]) /\ (total_of t tr = [] \/ total_of t tr = [n]) /\ (at_ s t = PDone -> io_of t tr = [x] /\ total_of t tr = [n])) /\
  (forall t x, In (EvIO t x) tr -> exists n, prog t = OpIO n x).
Proof.
  intros H. assert (HI : I52 prog s tr).
  { refine (run_inv0 prog (I52 prog) ls (init r) s tr (fun s tr l s' e => I52_step prog s tr l s' e) _ H). split; try reflexivity; intros t; cbn [init at_]; destruct (prog t); reflexivity. }
  destruct HI as [_ Htot Hio Htt]. split; [exact Htot|]. split.
  - intros t n x Ep. rewrite Hio, Htt, Ep. split; [destruct (io_done _); auto|]. split; [destruct (total_done _); auto|]. intros ->. auto.
  - intros t x Hi. apply io_in in Hi. rewrite Hio in Hi. destruct (prog t) as [n y|v]; [|contradiction]. destruct (io_done _); [|contradiction]. destruct Hi as [->|[]]. eauto.
Qed.

(** ** What the limit is *)
Definition past (p : pc) : bool := match p with SUnlock | PDone => true | _ => false end.
Lemma rate_top prog r ls s tr : run prog (init r) ls = Some (s, tr) ->
  (rate s = r \/ exists t v, prog t = OpSet v /\ (at_ s t = SUnlock \/ at_ s t = PDone) /\ rate s = Z.max (-1) v) /\
  (forall t v, prog t = OpSet v -> at_ s t = PDone -> (forall u v', prog u = OpSet v' -> u <> t -> at_ s u = PStart \/ at_ s u = SLock) -> rate s = Z.max (-1) v).
Proof.
  intros H.
  assert (HP : (rate s = r /\ (forall t v, prog t = OpSet v -> past (at_ s t) = false)) \/ exists t v, prog t = OpSet v /\ past (at_ s t) = true /\ rate s = Z.max (-1) v).
  { revert H. apply (run_inv0 prog (fun s _ => (rate s = r /\ (forall t v, prog t = OpSet v -> past (at_ s t) = false)) \/ exists t v, prog t = OpSet v /\ past (at_ s t) = true /\ rate s = Z.max (-1) v)); [|left; split; [reflexivity|intros; reflexivity]].
    intros s1 _ l s2 e HI HS. destruct l as [|u]; cbn [step] in HS; [assert (s2 = mkrl (rate s1) 0 (total s1) (owner s1) (at_ s1)) as -> by congruence; exact HI|].
    destruct (prog u) as [m x|v] eqn:Ep, (at_ s1 u) eqn:Ea; try discriminate; try (destruct (owner s1) eqn:Eo; try discriminate);
      match type of HS with Some (?y, _) = _ => assert (s2 = y) as -> by congruence end; cbn [rate at_].
    all: try (right; exists u, v; split; [exact Ep|]; split; [rewrite goto_eq; reflexivity|unfold clamp, NoLimit; destruct (Z.ltb_spec v (-1)); lia]).
    all: try (destruct HI as [[HI1 HI2]|(t & v' & HI1 & HI2 & HI3)];
      [left; split; [exact HI1|]; intros t v' Et; destruct (Nat.eq_dec t u) as [->|Hne]; [first [congruence|rewrite goto_eq; reflexivity]|rewrite goto_neq by exact Hne; eauto]
      |right; exists t, v'; split; [exact HI1|]; split; [|exact HI3]; destruct (Nat.eq_dec t u) as [->|Hne]; [first [congruence|rewrite Ea in HI2; discriminate HI2]|rewrite goto_neq by exact Hne; exact HI2]]; fail).
    all: destruct HI as [[HI1 HI2]|(t & v' & HI1 & HI2 & HI3)].
    all: try (specialize (HI2 u v Ep); rewrite Ea in HI2; discriminate HI2).
    all: right; exists t, v'; split; [exact HI1|]; split; [|exact HI3]; destruct (Nat.eq_dec t u) as [->|Hne]; [rewrite goto_eq; reflexivity|rewrite goto_neq by exact Hne; exact HI2]. }
  split.
  - destruct HP as [[HP _]|(t & v & H1 & H2 & H3)]; [left; exact HP|right]. exists t, v. split; [exact H1|]. split; [|exact H3]. destruct (at_ s t); try discriminate; auto.
  - intros t v Et Ed Ho. destruct HP as [[_ HP]|(u & v' & H1 & H2 & H3)]; [specialize (HP t v Et); rewrite Ed in HP; discriminate HP|].
    destruct (Nat.eq_dec u t) as [->|Hne]; [assert (v' = v) as -> by congruence; exact H3|]. destruct (Ho u v' H1 Hne) as [Hx|Hx]; rewrite Hx in H2; discriminate H2.
Qed.
(** Without ticks (Run is over, or has not been started) a call that finds the budget spent waits for ever. *)
Lemma bypassed_step prog s l s' e : sizes_nonneg prog -> step prog s l = Some (s', e) -> 0 <= bypassed e.
Proof.
  intros HN HS. destruct l as [|u]; cbn [step] in HS; [assert (e = [EvTick]) as -> by congruence; cbn; lia|].
  destruct (prog u) as [m x|v] eqn:Ep, (at_ s u) eqn:Ea; try discriminate; try (destruct (owner s) eqn:Eo; try discriminate);
    match type of HS with Some (_, ?y) = _ => assert (e = y) as -> by congruence end; cbn [bypassed fold_right]; try lia; specialize (HN u m x Ep); lia.
Qed.
Lemma bypassed_run prog s ls s' e : sizes_nonneg prog -> run prog s ls = Some (s', e) -> 0 <= bypassed e.
Proof.
  intros HN. apply (run_inv0 prog (fun _ tr => 0 <= bypassed tr)); [|cbn; lia]. intros s1 tr l s2 e1 H HS. rewrite bypassed_app. pose proof (bypassed_step _ _ _ _ _ HN HS). lia.
Qed.
Lemma stopped_step prog s t l s' e : sizes_nonneg prog -> exclusive s -> at_ s t = PSpin -> rate s <= used s -> min64 <= used s -> used s + bypassed e <= max64 -> l <> Tick ->
  step prog s l = Some (s', e) -> at_ s' t = PSpin /\ rate s' = rate s /\ used s' = used s + bypassed e /\ admitted e = 0.
Proof.
  intros HN Hex Hat Hr Hmn Hb Hl HS. assert (Hown : owner s = Some t) by (apply Hex; rewrite Hat; reflexivity).
  destruct l as [|u]; [congruence|]. cbn [step] in HS. destruct (Nat.eq_dec u t) as [->|Hne].
  { destruct (prog t) as [m x|v] eqn:Ep; rewrite Hat in HS; try discriminate. replace (used s <? rate s) with false in HS by (symmetry; apply Z.ltb_ge; lia).
    match type of HS with Some ?y = _ => assert (HX : y = (s', e)) by congruence end; injection HX as <- <-. cbn [at_ rate used]. rewrite goto_eq. repeat split. cbn. lia. }
  assert (Hnh : holds (at_ s u) = false). { destruct (holds (at_ s u)) eqn:Eh; [|reflexivity]. apply Hex in Eh. congruence. }
  destruct (prog u) as [m x|v] eqn:Ep, (at_ s u) eqn:Ea; try discriminate; try (rewrite Hown in HS; discriminate);
    match type of HS with Some ?y = _ => assert (HX : y = (s', e)) by congruence end; injection HX as <- <-;
    cbn [at_ rate used bypassed admitted fold_right] in *; rewrite goto_neq by congruence; repeat split; auto; try lia.
  rewrite Z.add_0_r in *. apply i64_id. specialize (HN u m x Ep). lia.
Qed.
Lemma stopped_top prog r ls0 s0 tr0 t : sizes_nonneg prog -> run prog (init r) ls0 = Some (s0, tr0) -> at_ s0 t = PSpin -> rate s0 <= used s0 -> min64 <= used s0 ->
  forall ls s tr, ~ In Tick ls -> run prog s0 ls = Some (s, tr) -> used s0 + bypassed tr <= max64 -> at_ s t = PSpin /\ owner s = Some t /\ rate s = rate s0 /\ admitted tr = 0.
Proof.
  intros HN H0 Hat Hr Hmn ls s tr Hnt H Hb. pose proof (reach_exclusive _ _ _ _ _ H0) as Hex. clear H0. revert s0 tr Hat Hr Hex Hb Hmn H.
  induction ls as [|l ls IH]; intros s0 tr Hat Hr Hex Hb Hmn H; cbn [run] in H.
  { assert (s = s0 /\ tr = []) as [-> ->] by (split; congruence). split; [exact Hat|]. split; [apply Hex; rewrite Hat; reflexivity|]. auto. }
  destruct (step prog s0 l) as [[s1 e1]|] eqn:E1; [|discriminate]. destruct (run prog s1 ls) as [[s2 e2]|] eqn:E2; [|discriminate]. assert (s2 = s /\ tr = e1 ++ e2) as [-> ->] by (split; congruence).
  rewrite bypassed_app in Hb. pose proof (bypassed_step _ _ _ _ _ HN E1) as Hb1. pose proof (bypassed_run _ _ _ _ _ HN E2) as Hb2.
  destruct (stopped_step prog s0 t l s1 e1 HN Hex Hat Hr Hmn ltac:(lia) ltac:(intros ->; apply Hnt; left; reflexivity) E1) as (A1 & A2 & A3 & A4).
  destruct (IH ltac:(intros Hi; apply Hnt; right; exact Hi) s1 e2 A1 ltac:(lia) (step_exclusive _ _ _ _ _ Hex E1) ltac:(lia) ltac:(lia) E2) as (B1 & B2 & B3 & B4).
  rewrite admitted_app. repeat split; auto; lia.
Qed.
