(** RlioProofs.v: proofs about RlioModel. *)
From Coq Require Import ZifyBool ZifyNat ZifyN.
From Verif Require Import Base RateModel RateSpec RateProofs RlioModel RlioSpec.

Lemma iorun_inv pw pr (I : rlio -> list ioev -> Prop) : (forall x es l x' e, I x es -> iostep pw pr x l = Some (x', e) -> I x' (es ++ e)) ->
  forall ls x es x' e, I x es -> iorun pw pr x ls = Some (x', e) -> I x' (es ++ e).
Proof.
  intros HS. induction ls as [|l ls IH]; intros x es x' e HI H; cbn [iorun] in H.
  - assert (x = x' /\ e = []) as [<- ->] by (split; congruence). rewrite app_nil_r. exact HI.
  - destruct (iostep pw pr x l) as [[x1 e1]|] eqn:E; [|discriminate]. destruct (iorun pw pr x1 ls) as [[x2 e2]|] eqn:E2; [|discriminate].
    assert (x2 = x' /\ e = e1 ++ e2) as [<- ->] by (split; congruence). rewrite app_assoc. eapply IH; [|exact E2]. eapply HS; eassumption.
Qed.
Lemma w_events_app a b : w_events (a ++ b) = w_events a ++ w_events b.
Proof. apply flat_map_app. Qed.
Lemma r_events_app a b : r_events (a ++ b) = r_events a ++ r_events b.
Proof. apply flat_map_app. Qed.
Lemma met_app a b : met (a ++ b) = met a ++ met b.
Proof. apply flat_map_app. Qed.
Lemma w_events_inw e : w_events (map InW e) = e.
Proof. induction e as [|a e IH]; [reflexivity|]. cbn. now f_equal. Qed.
Lemma r_events_inw e : r_events (map InW e) = [].
Proof. induction e as [|a e IH]; [reflexivity|exact IH]. Qed.
Lemma w_events_inr e : w_events (map InR e) = [].
Proof. induction e as [|a e IH]; [reflexivity|exact IH]. Qed.
Lemma r_events_inr e : r_events (map InR e) = e.
Proof. induction e as [|a e IH]; [reflexivity|]. cbn. now f_equal. Qed.
Lemma w_events_start u e : w_events (EvStart u :: e) = w_events e.
Proof. reflexivity. Qed.
Lemma r_events_start u e : r_events (EvStart u :: e) = r_events e.
Proof. reflexivity. Qed.
Lemma met_start u e : met (EvStart u :: e) = met e.
Proof. reflexivity. Qed.
Lemma filter_zlen_app {A} (f : A -> bool) a b : zlen (filter f (a ++ b)) = zlen (filter f a) + zlen (filter f b).
Proof. unfold zlen. rewrite filter_app, app_length. lia. Qed.

(** ** Projection to the directions *)
Definition wlab (x : rlio) (l : iolab) : list lab := match l with AtW t => [Go t] | AtRun u => match runs x u with UStart2 | UTick => [Tick] | _ => [] end | _ => [] end.
Definition rlab (x : rlio) (l : iolab) : list lab := match l with AtR t => [Go t] | AtRun u => match runs x u with UStart | UTick2 => [Tick] | _ => [] end | _ => [] end.
Lemma run1 prog s l s' e : step prog s l = Some (s', e) -> run prog s [l] = Some (s', e).
Proof. intros H. cbn [run]. rewrite H, app_nil_r. reflexivity. Qed.
Ltac iocases H := repeat match type of H with
  | context [match step ?p ?d ?l with _ => _ end] => let E := fresh "E" in destruct (step p d l) as [[? ?]|] eqn:E; [|discriminate H]
  | context [match runs ?x ?u with _ => _ end] => let E := fresh "Eu" in destruct (runs x u) eqn:E; try discriminate H
  | context [if ready ?x then _ else _] => let E := fresh "Er" in destruct (ready x) eqn:E; [|discriminate H]
  | context [match stopped ?x ?u with _ => _ end] => let E := fresh "Es" in destruct (stopped x u) eqn:E; try discriminate H
  end.
Lemma iostep_proj pw pr x l x' e : iostep pw pr x l = Some (x', e) ->
  run pw (wdir x) (wlab x l) = Some (wdir x', w_events e) /\ run pr (rdir x) (rlab x l) = Some (rdir x', r_events e).
Proof.
  intros H. destruct l as [t|t| |u|u s]; cbn [iostep] in H; cbv zeta in H; unfold wlab, rlab; iocases H; injection H as <- <-; cbn [wdir rdir];
    rewrite ?w_events_app, ?r_events_app, ?w_events_start, ?r_events_start, ?w_events_inw, ?r_events_inw, ?w_events_inr, ?r_events_inr, ?app_nil_r; cbn [w_events r_events flat_map app];
    (split; [try reflexivity; apply run1; assumption|try reflexivity; apply run1; assumption]).
Qed.
Lemma directions pw pr ls : forall x x' es, iorun pw pr x ls = Some (x', es) ->
  exists lw lr, run pw (wdir x) lw = Some (wdir x', w_events es) /\ run pr (rdir x) lr = Some (rdir x', r_events es) /\
    (forall t, In (Go t) lw -> In (AtW t) ls) /\ (forall t, In (Go t) lr -> In (AtR t) ls).
Proof.
  induction ls as [|l ls IH]; intros x x' es H; cbn [iorun] in H.
  - injection H as <- <-. exists [], []. repeat split; intros t [].
  - destruct (iostep pw pr x l) as [[x1 e1]|] eqn:E; [|discriminate]. destruct (iorun pw pr x1 ls) as [[x2 e2]|] eqn:E2; [|discriminate]. injection H as <- <-.
    destruct (iostep_proj _ _ _ _ _ _ E) as [Hw Hr]. destruct (IH _ _ _ E2) as (lw & lr & Hlw & Hlr & Gw & Gr).
    exists (wlab x l ++ lw), (rlab x l ++ lr). rewrite w_events_app, r_events_app.
    split; [eapply run_app; eassumption|]. split; [eapply run_app; eassumption|].
    split; intros t Ht; apply in_app_or in Ht; destruct Ht as [Ht|Ht]; [left|right; auto|left|right; auto].
    + destruct l as [t'|t'| |u|u s]; cbn [wlab] in Ht; try (now destruct Ht). { destruct Ht as [Ht|[]]. congruence. } destruct (runs x u); cbn in Ht; intuition discriminate.
    + destruct l as [t'|t'| |u|u s]; cbn [rlab] in Ht; try (now destruct Ht). { destruct Ht as [Ht|[]]. congruence. } destruct (runs x u); cbn in Ht; intuition discriminate.
Qed.
(** Whatever one direction is doing, the other can do everything it could do alone. *)
Lemma apart_r pw pr ts : forall x s tr, run pr (rdir x) (map Go ts) = Some (s, tr) ->
  iorun pw pr x (map AtR ts) = Some (mkio (wdir x) s (ready x) (runs x) (stopped x), map InR tr).
Proof.
  induction ts as [|t ts IH]; intros x s tr H; cbn [map run iorun iostep] in *.
  - injection H as <- <-. destruct x; reflexivity.
  - destruct (step pr (rdir x) (Go t)) as [[d e]|] eqn:E; [|discriminate]. destruct (run pr d (map Go ts)) as [[s2 e2]|] eqn:E2; [|discriminate]. injection H as <- <-.
    rewrite (IH _ s2 e2) by exact E2. cbn [wdir ready runs stopped]. now rewrite map_app.
Qed.
Lemma apart_w pw pr ts : forall x s tr, run pw (wdir x) (map Go ts) = Some (s, tr) ->
  iorun pw pr x (map AtW ts) = Some (mkio s (rdir x) (ready x) (runs x) (stopped x), map InW tr).
Proof.
  induction ts as [|t ts IH]; intros x s tr H; cbn [map run iorun iostep] in *.
  - injection H as <- <-. destruct x; reflexivity.
  - destruct (step pw (wdir x) (Go t)) as [[d e]|] eqn:E; [|discriminate]. destruct (run pw d (map Go ts)) as [[s2 e2]|] eqn:E2; [|discriminate]. injection H as <- <-.
    rewrite (IH _ s2 e2) by exact E2. cbn [rdir ready runs stopped]. now rewrite map_app.
Qed.

(** ** Stop and Run *)
Lemma set_run_eq x u p : set_run x u p u = p.
Proof. unfold set_run. now rewrite Nat.eqb_refl. Qed.
Lemma set_run_neq x u p v : v <> u -> set_run x u p v = runs x v.
Proof. intros H. unfold set_run. now rewrite (proj2 (Nat.eqb_neq v u) H). Qed.
Definition paired (x : rlio) (es : list ioev) : Prop :=
  NoDup (map fst (met es)) /\ NoDup (map snd (met es)) /\ (forall u, runs x u = UEnd <-> In u (map fst (met es))) /\ (forall s, stopped x s = true <-> In s (map snd (met es))).
Lemma met_inw e : met (map InW e) = [].
Proof. induction e as [|a e IH]; [reflexivity|exact IH]. Qed.
Lemma met_inr e : met (map InR e) = [].
Proof. induction e as [|a e IH]; [reflexivity|exact IH]. Qed.
Lemma nodup_snoc {A} (l : list A) a : NoDup l -> ~ In a l -> NoDup (l ++ [a]).
Proof. intros H Ha. apply NoDup_rev in H. rewrite <- (rev_involutive (l ++ [a])). apply NoDup_rev. rewrite rev_unit. constructor; [|exact H]. now rewrite <- in_rev. Qed.
Lemma iostep_paired pw pr x es l x' e : paired x es -> iostep pw pr x l = Some (x', e) -> paired x' (es ++ e).
Proof.
  intros (P1 & P2 & P3 & P4) H. unfold paired. rewrite met_app.
  destruct l as [t|t| |u|u s]; cbn [iostep] in H; cbv zeta in H; iocases H; injection H as <- <-; cbn [runs stopped];
    rewrite ?met_app; cbn [app]; rewrite ?met_start, ?met_inw, ?met_inr; cbn [met flat_map app]; rewrite ?app_nil_r; try (repeat split; solve [assumption|apply P3|apply P4]).
  all: try (split; [assumption|split; [assumption|split; [|assumption]]]; intros v; rewrite <- P3; destruct (Nat.eq_dec v u) as [->|Hne]; [rewrite set_run_eq, Eu; split; discriminate|rewrite set_run_neq by assumption; tauto]).
  rewrite !map_app. cbn [map fst snd]. split; [apply nodup_snoc; [assumption|rewrite <- P3, Eu; discriminate]|]. split; [apply nodup_snoc; [assumption|rewrite <- P4, Es; discriminate]|].
  split; intros v; rewrite in_app_iff; cbn [In].
  - destruct (Nat.eq_dec v u) as [->|Hne]; [rewrite set_run_eq; tauto|rewrite set_run_neq by assumption; rewrite P3; split; [tauto|intros [?|[?|[]]]; [assumption|congruence]]].
  - destruct (Nat.eqb_spec v s) as [->|Hne]; [tauto|]. rewrite P4. split; [tauto|intros [?|[?|[]]]; [assumption|congruence]].
Qed.
Lemma stop_pairs pw pr up dn ls x es : iorun pw pr (limits_set up dn) ls = Some (x, es) ->
  NoDup (map fst (met es)) /\ NoDup (map snd (met es)) /\ (forall u, runs x u = UEnd <-> In u (map fst (met es))) /\ (forall s, stopped x s = true <-> In s (map snd (met es))).
Proof.
  intros H. apply (iorun_inv pw pr paired (iostep_paired pw pr) ls (limits_set up dn) [] x es); [|exact H].
  repeat split; try constructor; cbn; try discriminate; intros [].
Qed.
(** A Run that has begun and not ended can be stopped at once. *)
Lemma run_next pw pr y u p : match runs y u with UStart2 => p = USelect | UTick => p = UTick2 | UTick2 => p = USelect | _ => False end ->
  exists y' e, iostep pw pr y (AtRun u) = Some (y', e) /\ runs y' u = p /\ stopped y' = stopped y.
Proof. intros H. cbn [iostep]. cbv zeta. destruct (runs y u); try contradiction; subst p; cbn [step]; eexists _, _; (split; [reflexivity|]); cbn [runs stopped]; now rewrite set_run_eq. Qed.
Lemma iorun_cons pw pr x l x1 e1 ls x2 e2 : iostep pw pr x l = Some (x1, e1) -> iorun pw pr x1 ls = Some (x2, e2) -> iorun pw pr x (l :: ls) = Some (x2, e1 ++ e2).
Proof. intros H1 H2. cbn [iorun]. now rewrite H1, H2. Qed.
Lemma can_stop pw pr x u s : runs x u <> UStart -> runs x u <> UEnd -> stopped x s = false ->
  exists ls x' es, iorun pw pr x ls = Some (x', es) /\ stopped x' s = true /\ runs x' u = UEnd.
Proof.
  assert (HM : forall y, runs y u = USelect -> stopped y s = false -> exists ls x' es, iorun pw pr y ls = Some (x', es) /\ stopped x' s = true /\ runs x' u = UEnd).
  { intros y E1 E2. exists [Meet u s]. cbn [iorun iostep]. rewrite E1, E2. eexists _, _. split; [reflexivity|]. cbn [runs stopped]. now rewrite Nat.eqb_refl, set_run_eq. }
  assert (H1 : forall y, runs y u = UStart2 \/ runs y u = UTick2 -> stopped y s = false -> exists ls x' es, iorun pw pr y ls = Some (x', es) /\ stopped x' s = true /\ runs x' u = UEnd).
  { intros y E Hs. destruct (run_next pw pr y u USelect) as (y' & e & HA & HB & HC); [now destruct E as [->| ->]|].
    destruct (HM y' HB ltac:(now rewrite HC)) as (ls & x' & es & HD & HE). exists (AtRun u :: ls). eexists _, _. split; [eapply iorun_cons; eassumption|exact HE]. }
  intros N1 N2 Hs. destruct (runs x u) eqn:E; try congruence; auto.
  destruct (run_next pw pr x u UTick2) as (y' & e & HA & HB & HC); [now rewrite E|].
  destruct (H1 y' (or_intror HB) ltac:(now rewrite HC)) as (ls & x' & es & HD & HE). exists (AtRun u :: ls). eexists _, _. split; [eapply iorun_cons; eassumption|exact HE].
Qed.

(** ** Nobody refills *)
Definition quiet (x : rlio) (es : list ioev) : Prop := starts es = 0 -> idle x /\ no_tick (w_events es) /\ no_tick (r_events es) /\ met es = [].
Lemma go_no_tick prog s t s' e : step prog s (Go t) = Some (s', e) -> ~ In EvTick e.
Proof.
  intros H HI. cbn [step] in H. destruct (prog t), (at_ s t); try discriminate; try (destruct (owner s); try discriminate); injection H as <- <-; cbn in HI; intuition discriminate.
Qed.
Lemma filter_nonneg {A} (f : A -> bool) l : 0 <= zlen (filter f l).
Proof. unfold zlen. lia. Qed.
Lemma iostep_quiet pw pr x es l x' e : quiet x es -> iostep pw pr x l = Some (x', e) -> quiet x' (es ++ e).
Proof.
  intros Q H S. unfold starts in S. rewrite filter_zlen_app in S. pose proof (filter_nonneg (fun e => match e with EvStart _ => true | _ => false end) es). pose proof (filter_nonneg (fun e => match e with EvStart _ => true | _ => false end) e).
  destruct (Q ltac:(unfold starts; lia)) as (Q1 & Q2 & Q3 & Q4). rewrite w_events_app, r_events_app, met_app, Q4.
  destruct l as [t|t| |u|u s]; cbn [iostep] in H; cbv zeta in H; try (destruct (Q1 u) as [Eu|Eu]; rewrite Eu in H); iocases H; try discriminate H; injection H as <- <-; cbn [idle runs];
    rewrite ?w_events_inw, ?r_events_inw, ?w_events_inr, ?r_events_inr, ?met_inw, ?met_inr, ?app_nil_r.
  - split; [exact Q1|]. split; [|auto]. unfold no_tick. rewrite in_app_iff. intros [Ht|Ht]; [auto|eapply go_no_tick; eauto].
  - split; [exact Q1|]. split; [auto|]. split; [|auto]. unfold no_tick. rewrite in_app_iff. intros [Ht|Ht]; [auto|eapply go_no_tick; eauto].
  - repeat split; assumption.
  - exfalso. cbn [filter app] in S. unfold zlen in S, H0. cbn [List.length app] in S. lia.
Qed.
Lemma no_refill pw pr x ls x' es : idle x -> starts es = 0 -> iorun pw pr x ls = Some (x', es) ->
  idle x' /\ no_tick (w_events es) /\ no_tick (r_events es) /\ met es = [].
Proof.
  intros Hi Hs H. apply (iorun_inv pw pr quiet (iostep_quiet pw pr) ls x [] x' es); [|exact H|exact Hs]. intros _. repeat split; auto; intros [].
Qed.
Lemma run_go_only prog ls : forall s s' tr, run prog s ls = Some (s', tr) -> no_tick tr -> ~ In Tick ls.
Proof.
  induction ls as [|l ls IH]; intros s s' tr H N HI; cbn [run] in H; [destruct HI|].
  destruct (step prog s l) as [[s1 e1]|] eqn:E; [|discriminate]. destruct (run prog s1 ls) as [[s2 e2]|] eqn:E2; [|discriminate]. injection H as <- <-.
  destruct HI as [->|HI]; [cbn [step] in E; injection E as <- <-; apply N; now left|]. eapply IH; [exact E2| |exact HI]. intros Ht. apply N. apply in_or_app. now right.
Qed.
(** The write direction once nobody refills: the waiting call waits for ever. *)
Lemma stuck_w pw pr up dn ls0 x0 es0 t : sizes_nonneg pw -> iorun pw pr (limits_set up dn) ls0 = Some (x0, es0) -> idle x0 ->
  at_ (wdir x0) t = PSpin -> rate (wdir x0) <= used (wdir x0) -> min64 <= used (wdir x0) ->
  forall ls x es, iorun pw pr x0 ls = Some (x, es) -> starts es = 0 -> used (wdir x0) + bypassed (w_events es) <= max64 ->
  at_ (wdir x) t = PSpin /\ owner (wdir x) = Some t /\ rate (wdir x) = rate (wdir x0) /\ admitted (w_events es) = 0.
Proof.
  intros Hp H0 Hi Ht Hr Hm ls x es H Hs Hb.
  destruct (directions _ _ _ _ _ _ H0) as (lw0 & _ & Hw0 & _). destruct (directions _ _ _ _ _ _ H) as (lw & _ & Hw & _).
  destruct (no_refill _ _ _ _ _ _ Hi Hs H) as (_ & N & _ & _).
  exact (stopped_top pw up lw0 (wdir x0) _ t Hp Hw0 Ht Hr Hm lw (wdir x) _ (run_go_only _ _ _ _ _ Hw N) Hw Hb).
Qed.
Lemma stuck_r pw pr up dn ls0 x0 es0 t : sizes_nonneg pr -> iorun pw pr (limits_set up dn) ls0 = Some (x0, es0) -> idle x0 ->
  at_ (rdir x0) t = PSpin -> rate (rdir x0) <= used (rdir x0) -> min64 <= used (rdir x0) ->
  forall ls x es, iorun pw pr x0 ls = Some (x, es) -> starts es = 0 -> used (rdir x0) + bypassed (r_events es) <= max64 ->
  at_ (rdir x) t = PSpin /\ owner (rdir x) = Some t /\ rate (rdir x) = rate (rdir x0) /\ admitted (r_events es) = 0.
Proof.
  intros Hp H0 Hi Ht Hr Hm ls x es H Hs Hb.
  destruct (directions _ _ _ _ _ _ H0) as (_ & lr0 & _ & Hr0 & _). destruct (directions _ _ _ _ _ _ H) as (_ & lr & _ & Hlr & _).
  destruct (no_refill _ _ _ _ _ _ Hi Hs H) as (_ & _ & N & _).
  exact (stopped_top pr dn lr0 (rdir x0) _ t Hp Hr0 Ht Hr Hm lr (rdir x) _ (run_go_only _ _ _ _ _ Hlr N) Hlr Hb).
Qed.

(** ** The clock *)
Definition pend_w (p : upc) : Z := match p with UStart2 | UTick => 1 | _ => 0 end.
Definition pend_r (p : upc) : Z := match p with UTick | UTick2 => 1 | _ => 0 end.
Lemma starts_inw e : starts (map InW e) = 0.
Proof. induction e as [|a e IH]; [reflexivity|exact IH]. Qed.
Lemma starts_inr e : starts (map InR e) = 0.
Proof. induction e as [|a e IH]; [reflexivity|exact IH]. Qed.
Lemma fires_inw e : fires (map InW e) = 0.
Proof. induction e as [|a e IH]; [reflexivity|exact IH]. Qed.
Lemma fires_inr e : fires (map InR e) = 0.
Proof. induction e as [|a e IH]; [reflexivity|exact IH]. Qed.
Lemma starts_app a b : starts (a ++ b) = starts a + starts b.
Proof. apply filter_zlen_app. Qed.
Lemma fires_app a b : fires (a ++ b) = fires a + fires b.
Proof. apply filter_zlen_app. Qed.
Lemma resets_app a b : resets (a ++ b) = resets a + resets b.
Proof. apply filter_zlen_app. Qed.
Lemma resets_go prog s t s' e : step prog s (Go t) = Some (s', e) -> resets e = 0.
Proof. intros H. cbn [step] in H. destruct (prog t), (at_ s t); try discriminate; try (destruct (owner s); try discriminate); injection H as <- <-; reflexivity. Qed.
Definition tot (f : upc -> Z) (g : nat -> upc) (us : list nat) : Z := fold_right (fun u a => f (g u) + a) 0 us.
Lemma tot_same f g g' us : (forall u, In u us -> g u = g' u) -> tot f g us = tot f g' us.
Proof. induction us as [|u us IH]; intros H; [reflexivity|]. cbn [tot fold_right]. fold (tot f g us) (tot f g' us). rewrite IH by (intros; apply H; now right). now rewrite H by now left. Qed.
Lemma tot_set f x u p us : NoDup us -> In u us -> tot f (set_run x u p) us = tot f (runs x) us - f (runs x u) + f p.
Proof.
  induction us as [|v us IH]; intros Hn Hi; [destruct Hi|]. inversion Hn as [|? ? Hv Hn']; subst. cbn [tot fold_right]. fold (tot f (set_run x u p) us) (tot f (runs x) us).
  destruct (Nat.eq_dec v u) as [->|Hne].
  - rewrite set_run_eq, (tot_same f (set_run x u p) (runs x)); [lia|]. intros w Hw. apply set_run_neq. congruence.
  - rewrite set_run_neq by assumption. destruct Hi as [->|Hi]; [congruence|]. rewrite IH by assumption. lia.
Qed.
Definition clocked (x : rlio) (es : list ioev) : Prop :=
  exists us, NoDup us /\ (forall u, runs x u <> UStart <-> In u us) /\
    resets (w_events es) + tot pend_w (runs x) us + (if ready x then 1 else 0) <= fires es + starts es /\
    resets (r_events es) + tot pend_r (runs x) us + (if ready x then 1 else 0) <= fires es + starts es.
Lemma tot_nonneg f g us : (forall p, 0 <= f p) -> 0 <= tot f g us.
Proof. intros H. induction us as [|u us IH]; cbn [tot fold_right]; [lia|]. fold (tot f g us). specialize (H (g u)). lia. Qed.
Lemma started_set x u p us v : (forall u, runs x u <> UStart <-> In u us) -> In u us -> p <> UStart -> set_run x u p v <> UStart <-> In v us.
Proof. intros H Hi Hp. destruct (Nat.eq_dec v u) as [->|Hne]; [rewrite set_run_eq; tauto|rewrite set_run_neq by assumption; apply H]. Qed.
Lemma iostep_clocked pw pr x es l x' e : clocked x es -> iostep pw pr x l = Some (x', e) -> clocked x' (es ++ e).
Proof.
  intros (us & Hn & Hu & Hw & Hr) H. unfold clocked. rewrite w_events_app, r_events_app, !resets_app, fires_app, starts_app.
  destruct l as [t|t| |u|u s]; cbn [iostep] in H; cbv zeta in H.
  - destruct (step pw (wdir x) (Go t)) as [[d e0]|] eqn:E; [|discriminate]. injection H as <- <-. exists us. cbn [runs ready]. rewrite w_events_inw, r_events_inw, starts_inw, fires_inw, (resets_go _ _ _ _ _ E).
    change (resets []) with 0. repeat split; try apply Hu; try assumption; lia.
  - destruct (step pr (rdir x) (Go t)) as [[d e0]|] eqn:E; [|discriminate]. injection H as <- <-. exists us. cbn [runs ready]. rewrite w_events_inr, r_events_inr, starts_inr, fires_inr, (resets_go _ _ _ _ _ E).
    change (resets []) with 0. repeat split; try apply Hu; try assumption; lia.
  - injection H as <- <-. exists us. cbn [runs ready]. change (resets (w_events [EvFire])) with 0. change (resets (r_events [EvFire])) with 0. change (fires [EvFire]) with 1. change (starts [EvFire]) with 0.
    repeat split; try apply Hu; try assumption; destruct (ready x); lia.
  - destruct (runs x u) eqn:Eu; cbn [step] in H; try discriminate.
    + injection H as <- <-. exists (u :: us). cbn [runs ready app map]. rewrite w_events_start, r_events_start.
      assert (Hni : ~ In u us) by (rewrite <- Hu; congruence).
      assert (HT : forall f, f UStart2 + tot f (runs x) us = tot f (set_run x u UStart2) (u :: us)).
      { intros f. cbn [tot fold_right]. fold (tot f (set_run x u UStart2) us). rewrite set_run_eq. f_equal. apply tot_same. intros v Hv. symmetry. apply set_run_neq. congruence. }
      rewrite <- !HT. change (w_events [InR EvTick]) with (@nil ev). change (r_events [InR EvTick]) with [EvTick]. change (resets []) with 0. change (resets [EvTick]) with 1.
      change (fires [EvStart u; InR EvTick]) with 0. change (starts [EvStart u; InR EvTick]) with 1. cbn [pend_w pend_r].
      split; [now constructor|]. split; [|split; lia]. intros v. destruct (Nat.eq_dec v u) as [->|Hne]; [rewrite set_run_eq; split; [now left|discriminate]|].
      rewrite set_run_neq by assumption. rewrite Hu. cbn [In]. split; [tauto|intros [?|?]; congruence].
    + injection H as <- <-. exists us. assert (Hi : In u us) by (rewrite <- Hu; congruence). cbn [runs ready app map]. rewrite !tot_set, Eu by assumption.
      change (w_events [InW EvTick]) with [EvTick]. change (r_events [InW EvTick]) with (@nil ev). change (resets []) with 0. change (resets [EvTick]) with 1. change (fires [InW EvTick]) with 0. change (starts [InW EvTick]) with 0.
      cbn [pend_w pend_r]. split; [assumption|]. split; [intros; now apply started_set|split; lia].
    + destruct (ready x); [|discriminate]. injection H as <- <-. exists us. assert (Hi : In u us) by (rewrite <- Hu; congruence). cbn [runs ready]. rewrite !tot_set, Eu by assumption.
      change (resets (w_events [])) with 0. change (resets (r_events [])) with 0. change (fires []) with 0. change (starts []) with 0.
      cbn [pend_w pend_r]. split; [assumption|]. split; [intros; now apply started_set|split; lia].
    + injection H as <- <-. exists us. assert (Hi : In u us) by (rewrite <- Hu; congruence). cbn [runs ready app map]. rewrite !tot_set, Eu by assumption.
      change (w_events [InW EvTick]) with [EvTick]. change (r_events [InW EvTick]) with (@nil ev). change (resets []) with 0. change (resets [EvTick]) with 1. change (fires [InW EvTick]) with 0. change (starts [InW EvTick]) with 0.
      cbn [pend_w pend_r]. split; [assumption|]. split; [intros; now apply started_set|split; lia].
    + injection H as <- <-. exists us. assert (Hi : In u us) by (rewrite <- Hu; congruence). cbn [runs ready app map]. rewrite !tot_set, Eu by assumption.
      change (w_events [InR EvTick]) with (@nil ev). change (r_events [InR EvTick]) with [EvTick]. change (resets []) with 0. change (resets [EvTick]) with 1. change (fires [InR EvTick]) with 0. change (starts [InR EvTick]) with 0.
      cbn [pend_w pend_r]. split; [assumption|]. split; [intros; now apply started_set|split; lia].
  - destruct (runs x u) eqn:Eu; try discriminate. destruct (stopped x s); [discriminate|]. injection H as <- <-. exists us. assert (Hi : In u us) by (rewrite <- Hu; congruence). cbn [runs ready]. rewrite !tot_set, Eu by assumption.
    change (w_events [EvMet u s]) with (@nil ev). change (r_events [EvMet u s]) with (@nil ev). change (resets []) with 0. change (fires [EvMet u s]) with 0. change (starts [EvMet u s]) with 0.
    cbn [pend_w pend_r]. split; [assumption|]. split; [intros; now apply started_set|split; lia].
Qed.
Lemma resets_bounded pw pr up dn ls x es : iorun pw pr (limits_set up dn) ls = Some (x, es) ->
  resets (w_events es) <= fires es + starts es /\ resets (r_events es) <= fires es + starts es.
Proof.
  intros H. assert (clocked x es) as (us & _ & _ & Hw & Hr).
  { apply (iorun_inv pw pr clocked (iostep_clocked pw pr) ls (limits_set up dn) [] x es); [|exact H]. exists []. repeat split; cbn; try constructor; try lia; try contradiction. }
  pose proof (tot_nonneg pend_w (runs x) us ltac:(intros []; cbn; lia)). pose proof (tot_nonneg pend_r (runs x) us ltac:(intros []; cbn; lia)). destruct (ready x); lia.
Qed.

(** ** Throughput *)
Lemma admitted_app a b : admitted (a ++ b) = admitted a + admitted b.
Proof. unfold admitted. induction a as [|e a IH]; [reflexivity|]. cbn [app fold_right]. rewrite IH. destruct e; lia. Qed.
Lemma windows M tr : 0 < M -> (forall a w b, tr = a ++ w ++ b -> no_tick w -> admitted w < M) -> admitted tr < (resets tr + 1) * M.
Proof.
  intros HM. remember (List.length tr) as n eqn:En. revert tr En. induction n as [n IH] using lt_wf_ind. intros tr -> H.
  assert (HS : no_tick tr \/ exists a b, tr = a ++ EvTick :: b /\ no_tick a).
  { clear IH H. induction tr as [|e tr IHt]; [left; intros []|]. destruct (match e with EvTick => true | _ => false end) eqn:Ee.
    - destruct e; try discriminate. right. exists [], tr. split; [reflexivity|intros []].
    - assert (Hne : e <> EvTick) by (intros ->; discriminate). destruct IHt as [Hn|(a & b & -> & Hn)]; [left; intros [?|?]; auto|right; exists (e :: a), b; split; [reflexivity|intros [?|?]; auto]]. }
  destruct HS as [Hn|(a & b & -> & Hn)].
  - specialize (H [] tr [] ltac:(now rewrite app_nil_r) Hn). pose proof (filter_nonneg (fun e => match e with EvTick => true | _ => false end) tr). unfold resets. nia.
  - assert (Ha : admitted a < M) by (apply (H [] a (EvTick :: b)); auto).
    assert (Hb : admitted b < (resets b + 1) * M).
    { apply (IH (List.length b)); [rewrite app_length; cbn; lia|reflexivity|]. intros a' w b' E Hw. apply (H (a ++ EvTick :: a') w b'); [|exact Hw]. rewrite E, <- app_assoc. reflexivity. }
    rewrite admitted_app, resets_app. change (admitted (EvTick :: b)) with (admitted b). change (resets (EvTick :: b)) with (zlen (EvTick :: filter (fun e => match e with EvTick => true | _ => false end) b)).
    assert (E : zlen (EvTick :: filter (fun e => match e with EvTick => true | _ => false end) b) = 1 + resets b) by (unfold resets, zlen; cbn [List.length]; lia). rewrite E.
    pose proof (filter_nonneg (fun e => match e with EvTick => true | _ => false end) a). fold (resets a) in *. nia.
Qed.
Lemma throughput_w pw pr up dn R L ls x es : 0 < R -> 0 <= up <= R -> limited pw R L -> R + L <= max64 -> 0 <= L -> iorun pw pr (limits_set up dn) ls = Some (x, es) ->
  admitted (w_events es) < (fires es + starts es + 1) * (R + L).
Proof.
  intros HR Hu Hl Hm HL H. destruct (directions _ _ _ _ _ _ H) as (lw & _ & Hw & _). pose proof (resets_bounded _ _ _ _ _ _ _ H) as [Hb _].
  assert (HA : admitted (w_events es) < (resets (w_events es) + 1) * (R + L)) by (apply windows; [lia|]; eapply limit_window; eassumption). nia.
Qed.
Lemma throughput_r pw pr up dn R L ls x es : 0 < R -> 0 <= dn <= R -> limited pr R L -> R + L <= max64 -> 0 <= L -> iorun pw pr (limits_set up dn) ls = Some (x, es) ->
  admitted (r_events es) < (fires es + starts es + 1) * (R + L).
Proof.
  intros HR Hu Hl Hm HL H. destruct (directions _ _ _ _ _ _ H) as (_ & lr & _ & Hw & _). pose proof (resets_bounded _ _ _ _ _ _ _ H) as [_ Hb].
  assert (HA : admitted (r_events es) < (resets (r_events es) + 1) * (R + L)) by (apply windows; [lia|]; eapply limit_window; eassumption). nia.
Qed.

(** ** A new limiter *)
Definition free (prog : nat -> op) (d : rl) : Prop :=
  rate d = NoLimit /\ forall t, match at_ d t with PStart | PBypIO | PBypUsed | PBypTotal | PDone => True | _ => False end.
Lemma free_step prog d l d' e : (forall t v, prog t <> OpSet v) -> free prog d -> step prog d l = Some (d', e) -> free prog d' /\ admitted e = 0.
Proof.
  intros Hp [Hr Ha] E. destruct l as [|t]; cbn [step] in E; [inversion E; subst; cbn [rate at_]; repeat split; auto|].
  destruct (prog t) as [n x|v] eqn:Ep; [|exfalso; exact (Hp t v Ep)]. specialize (Ha t) as Ht.
  assert (Hset : forall p u r y o, match p with PStart | PBypIO | PBypUsed | PBypTotal | PDone => True | _ => False end -> r = NoLimit -> free prog (mkrl r u y o (goto d t p))).
  { intros p u r y o Hok ->. split; [reflexivity|]. intros v. cbn [at_]. unfold goto. destruct (Nat.eqb v t); [exact Hok|apply Ha]. }
  destruct (at_ d t); try contradiction; try discriminate; inversion E; subst; (split; [apply Hset; [try exact I|exact Hr]|reflexivity]).
  rewrite Hr. exact I.
Qed.
Lemma free_go prog d t : (forall t v, prog t <> OpSet v) -> free prog d -> at_ d t <> PDone -> exists r, step prog d (Go t) = Some r.
Proof.
  intros Hp [Hr Ha] Ht. cbn [step]. destruct (prog t) as [n x|v] eqn:Ep; [|exfalso; exact (Hp t v Ep)]. specialize (Ha t).
  destruct (at_ d t); try contradiction; eexists; reflexivity.
Qed.
Lemma free_run prog ls : (forall t v, prog t <> OpSet v) -> forall d d' tr, free prog d -> run prog d ls = Some (d', tr) -> free prog d' /\ admitted tr = 0.
Proof.
  intros Hp. induction ls as [|l ls IH]; intros d d' tr Hf E; cbn [run] in E; [inversion E; subst; auto|].
  destruct (step prog d l) as [[d1 e]|] eqn:E1; [|discriminate]. destruct (run prog d1 ls) as [[d2 e']|] eqn:E2; [|discriminate]. inversion E; subst.
  destruct (free_step _ _ _ _ _ Hp Hf E1) as [H1 H2]. destruct (IH _ _ _ H1 E2) as [H3 H4]. split; [exact H3|]. rewrite admitted_app. lia.
Qed.
Lemma new_unlimited pw pr ls x es : (forall t v, pw t <> OpSet v) -> (forall t v, pr t <> OpSet v) -> iorun pw pr NewRateLimitIO ls = Some (x, es) ->
  admitted (w_events es) = 0 /\ admitted (r_events es) = 0 /\
  (forall t, at_ (wdir x) t <> PDone -> exists r, iostep pw pr x (AtW t) = Some r) /\ (forall t, at_ (rdir x) t <> PDone -> exists r, iostep pw pr x (AtR t) = Some r).
Proof.
  intros Hw Hr E. destruct (directions pw pr ls _ _ _ E) as (lw & lr & Rw & Rr & _ & _).
  assert (F0 : forall prog, free prog (init NoLimit)) by (intros prog; split; [reflexivity|intros t; exact I]).
  destruct (free_run pw lw Hw _ _ _ (F0 pw) Rw) as [Fw Aw]. destruct (free_run pr lr Hr _ _ _ (F0 pr) Rr) as [Fr Ar]. split; [exact Aw|]. split; [exact Ar|].
  split; intros t Ht; cbn [iostep]; [destruct (free_go pw _ t Hw Fw Ht) as [[d e] ->]|destruct (free_go pr _ t Hr Fr Ht) as [[d e] ->]]; eexists; reflexivity.
Qed.
Lemma set_alone prog t v : prog t = OpSet v -> exists d, run prog (init NoLimit) (map Go (repeat t 4)) = Some (d, []) /\ rate d = clamp v /\ used d = 0 /\ total d = 0 /\ owner d = None /\
  forall u, u <> t -> at_ d u = PStart.
Proof.
  intros Hp. cbn [repeat map run step]. rewrite Hp. cbn [init at_ owner]. unfold goto. cbn [at_]. repeat (rewrite ?Nat.eqb_refl; cbn [app at_ owner rate used total]). eexists. split; [reflexivity|].
  cbn [rate used total owner at_]. repeat (split; [reflexivity|]). intros u Hu. apply Nat.eqb_neq in Hu. rewrite !Hu. reflexivity.
Qed.
Lemma iorun_app pw pr a b : forall x x1 e1 x2 e2, iorun pw pr x a = Some (x1, e1) -> iorun pw pr x1 b = Some (x2, e2) -> iorun pw pr x (a ++ b) = Some (x2, e1 ++ e2).
Proof.
  induction a as [|l a IH]; intros x x1 e1 x2 e2 Ha Hb; cbn [iorun app] in *; [inversion Ha; subst; exact Hb|].
  destruct (iostep pw pr x l) as [[y e]|]; [|discriminate]. destruct (iorun pw pr y a) as [[y1 e']|] eqn:E; [|discriminate]. inversion Ha; subst.
  rewrite (IH _ _ _ _ _ E Hb). rewrite app_assoc. reflexivity.
Qed.
Lemma new_set pw pr t u up dn : pw t = OpSet up -> pr u = OpSet dn -> min64 <= up -> min64 <= dn ->
  exists x, iorun pw pr NewRateLimitIO (repeat (AtW t) 4 ++ repeat (AtR u) 4) = Some (x, []) /\ rate (wdir x) = Z.max NoLimit up /\ rate (rdir x) = Z.max NoLimit dn /\
    used (wdir x) = 0 /\ used (rdir x) = 0 /\ total (wdir x) = 0 /\ total (rdir x) = 0 /\ owner (wdir x) = None /\ owner (rdir x) = None /\
    (forall v, v <> t -> at_ (wdir x) v = PStart) /\ (forall v, v <> u -> at_ (rdir x) v = PStart) /\ ready x = false /\ (forall v, runs x v = UStart) /\ (forall v, stopped x v = false).
Proof.
  intros Hw Hr H1 H2.
  assert (Hc : forall v, clamp v = Z.max NoLimit v) by (intros v; unfold clamp, NoLimit; destruct (Z.ltb_spec v (-1)); lia).
  destruct (set_alone pw t up Hw) as (d & Ed & D1 & D2 & D3 & D4 & D5). destruct (set_alone pr u dn Hr) as (d' & Ed' & D1' & D2' & D3' & D4' & D5').
  pose proof (apart_w pw pr (repeat t 4) NewRateLimitIO d [] Ed) as A. pose proof (apart_r pw pr (repeat u 4) (mkio d (rdir NewRateLimitIO) false (fun _ => UStart) (fun _ => false)) d' [] Ed') as A'.
  eexists. split; [exact (iorun_app pw pr _ _ _ _ _ _ _ A A')|]. cbn [wdir rdir ready runs stopped]. rewrite D1, D1', !Hc. auto 20.
Qed.

(** ** Ticks give the budget back *)
Lemma iorun_cat pw pr : forall a b x, iorun pw pr x (a ++ b) =
  match iorun pw pr x a with Some (y, e) => match iorun pw pr y b with Some (z, f) => Some (z, e ++ f) | None => None end | None => None end.
Proof.
  induction a as [|l a IH]; intros b x; cbn [app iorun].
  - now destruct (iorun pw pr x b) as [[z f]|].
  - destruct (iostep pw pr x l) as [[y e]|]; [|reflexivity]. rewrite IH. destruct (iorun pw pr y a) as [[z f]|]; [|reflexivity].
    destruct (iorun pw pr z b) as [[w g]|]; [|reflexivity]. now rewrite app_assoc.
Qed.
Lemma refill_select pw pr x u : runs x u = USelect -> exists x' es, iorun pw pr x (Fire :: repeat (AtRun u) 3) = Some (x', es) /\
  wdir x' = refilled (wdir x) /\ rdir x' = refilled (rdir x) /\ runs x' u = USelect /\ fires es = 1.
Proof.
  intros E. cbn [repeat iorun iostep runs ready wdir rdir stopped]. rewrite E. cbv zeta. cbn [step wdir rdir runs ready stopped]. rewrite set_run_eq. cbn [wdir rdir runs ready stopped]. rewrite set_run_eq.
  cbn [wdir rdir runs ready stopped]. eexists _, _. split; [reflexivity|]. cbn [wdir rdir runs]. rewrite set_run_eq. repeat split.
Qed.
Lemma to_select pw pr x u : runs x u <> UStart -> runs x u <> UEnd -> exists n x' es, (n <= 2)%nat /\ iorun pw pr x (repeat (AtRun u) n) = Some (x', es) /\ fires es = 0 /\
  refilled (wdir x') = refilled (wdir x) /\ refilled (rdir x') = refilled (rdir x) /\ runs x' u = USelect.
Proof.
  intros N1 N2. destruct (runs x u) eqn:E; try congruence.
  - exists 1%nat. cbn [repeat iorun iostep]. rewrite E. cbn [step wdir rdir]. eexists _, _. split; [lia|]. split; [reflexivity|]. cbn [wdir rdir runs]. rewrite set_run_eq. repeat split.
  - exists 0%nat, x, []. split; [lia|]. repeat split. exact E.
  - exists 2%nat. cbn [repeat iorun iostep]. rewrite E. cbv zeta. cbn [step wdir rdir runs]. rewrite set_run_eq. cbn [wdir rdir runs]. eexists _, _. split; [lia|]. split; [reflexivity|]. cbn [wdir rdir runs]. rewrite set_run_eq. repeat split.
  - exists 1%nat. cbn [repeat iorun iostep]. rewrite E. cbn [step wdir rdir]. eexists _, _. split; [lia|]. split; [reflexivity|]. cbn [wdir rdir runs]. rewrite set_run_eq. repeat split.
Qed.
Lemma refill pw pr x u : runs x u <> UStart -> runs x u <> UEnd -> exists n x' es, (n <= 2)%nat /\ iorun pw pr x (repeat (AtRun u) n ++ Fire :: repeat (AtRun u) 3) = Some (x', es) /\
  fires es = 1 /\ wdir x' = refilled (wdir x) /\ rdir x' = refilled (rdir x) /\ runs x' u = USelect.
Proof.
  intros N1 N2. destruct (to_select pw pr x u N1 N2) as (n & y & es & Hn & R & Hf & Hw & Hr & Hu). destruct (refill_select pw pr y u Hu) as (z & fs & R2 & Hw2 & Hr2 & Hu2 & Hf2).
  exists n, z, (es ++ fs). split; [exact Hn|]. split; [now rewrite iorun_cat, R, R2|]. split; [rewrite fires_app; lia|]. split; [congruence|]. split; [congruence|exact Hu2].
Qed.
Lemma spin_through p d t n b : p t = OpIO n b -> at_ d t = PSpin -> used d = 0 -> 0 < rate d ->
  exists d', run p d (repeat (Go t) 5) = Some (d', [EvAdmit t n; EvTotal t n; EvIO t b]) /\ at_ d' t = PDone /\ owner d' = None.
Proof.
  intros Hp Ha Hu Hr. cbn [repeat run step]. rewrite Hp, Ha. replace (used d <? rate d) with true by lia.
  assert (G : forall s q, goto s t q t = q) by (intros s q; unfold goto; now rewrite Nat.eqb_refl).
  cbn [at_ owner used rate total]. rewrite G. cbn [at_ owner used rate total]. rewrite G. cbn [at_ owner used rate total]. rewrite G. cbn [at_ owner used rate total]. rewrite G. eexists. split; [reflexivity|].
  cbn [at_ owner]. now rewrite G.
Qed.
Lemma map_InW_events e : w_events (map InW e) = e.
Proof. unfold w_events. induction e as [|x e IH]; cbn; [reflexivity|]. now f_equal. Qed.
Lemma map_InR_events e : r_events (map InR e) = e.
Proof. unfold r_events. induction e as [|x e IH]; cbn; [reflexivity|]. now f_equal. Qed.
Lemma fires_InW e : fires (map InW e) = 0.
Proof. unfold fires. induction e as [|x e IH]; cbn; [reflexivity|exact IH]. Qed.
Lemma fires_InR e : fires (map InR e) = 0.
Proof. unfold fires. induction e as [|x e IH]; cbn; [reflexivity|exact IH]. Qed.
Lemma let_in_w pw pr x u t n b : runs x u <> UStart -> runs x u <> UEnd -> at_ (wdir x) t = PSpin -> pw t = OpIO n b -> 0 < rate (wdir x) ->
  exists ls x' es, iorun pw pr x ls = Some (x', es) /\ fires es = 1 /\ In (EvIO t b) (w_events es) /\ at_ (wdir x') t = PDone /\ owner (wdir x') = None.
Proof.
  intros N1 N2 Ha Hp Hr. destruct (refill pw pr x u N1 N2) as (k & y & es & _ & R & Hf & Hw & _ & _).
  destruct (spin_through pw (wdir y) t n b Hp) as (d & Rd & Hd & Ho); [rewrite Hw; exact Ha|now rewrite Hw|now rewrite Hw|].
  change (repeat (Go t) 5) with (map Go (repeat t 5)) in Rd. pose proof (apart_w pw pr (repeat t 5) y d _ Rd) as R2.
  eexists (_ ++ map AtW (repeat t 5)), _, _. split; [rewrite iorun_cat, R, R2; reflexivity|]. cbn [wdir]. split; [rewrite fires_app, fires_InW; lia|].
  split; [|now split]. unfold w_events at 1. rewrite flat_map_app. apply in_or_app. right. fold (w_events (map InW [EvAdmit t n; EvTotal t n; EvIO t b])). rewrite map_InW_events. cbn. tauto.
Qed.
Lemma let_in_r pw pr x u t n b : runs x u <> UStart -> runs x u <> UEnd -> at_ (rdir x) t = PSpin -> pr t = OpIO n b -> 0 < rate (rdir x) ->
  exists ls x' es, iorun pw pr x ls = Some (x', es) /\ fires es = 1 /\ In (EvIO t b) (r_events es) /\ at_ (rdir x') t = PDone /\ owner (rdir x') = None.
Proof.
  intros N1 N2 Ha Hp Hr. destruct (refill pw pr x u N1 N2) as (k & y & es & _ & R & Hf & _ & Hw & _).
  destruct (spin_through pr (rdir y) t n b Hp) as (d & Rd & Hd & Ho); [rewrite Hw; exact Ha|now rewrite Hw|now rewrite Hw|].
  change (repeat (Go t) 5) with (map Go (repeat t 5)) in Rd. pose proof (apart_r pw pr (repeat t 5) y d _ Rd) as R2.
  eexists (_ ++ map AtR (repeat t 5)), _, _. split; [rewrite iorun_cat, R, R2; reflexivity|]. cbn [rdir]. split; [rewrite fires_app, fires_InR; lia|].
  split; [|now split]. unfold r_events at 1. rewrite flat_map_app. apply in_or_app. right. fold (r_events (map InR [EvAdmit t n; EvTotal t n; EvIO t b])). rewrite map_InR_events. cbn. tauto.
Qed.
