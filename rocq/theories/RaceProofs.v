(** RaceProofs.v: what a goroutine, a lock or a channel knows of the past, and ownership of memory. *)
From Coq Require Import ZifyBool ZifyNat ZifyN.
From Verif Require Import Base RaceSpec.

(** ** Traces *)
Lemma hb_lt t i j : hb t i j -> (i < j)%nat.
Proof. induction 1; lia. Qed.
Lemma nth_app1 {A} (t u : list A) i e : nth_error t i = Some e -> nth_error (t ++ u) i = Some e.
Proof. intros H. rewrite nth_error_app1; [exact H|]. apply nth_error_Some. congruence. Qed.
Lemma nth_lt {A} (t : list A) i e : nth_error t i = Some e -> (i < List.length t)%nat.
Proof. intros H. apply nth_error_Some. congruence. Qed.
Lemma nth_end {A} (t : list A) e : nth_error (t ++ [e]) (List.length t) = Some e.
Proof. rewrite nth_error_app2, Nat.sub_diag by lia. reflexivity. Qed.
Lemma firstn_app1 {A} (t u : list A) i : (i <= List.length t)%nat -> firstn i (t ++ u) = firstn i t.
Proof. intros H. rewrite firstn_app. replace (i - List.length t)%nat with 0%nat by lia. rewrite firstn_O. apply app_nil_r. Qed.
Lemma hb_app t u i j : hb t i j -> hb (t ++ u) i j.
Proof.
  induction 1.
  - eapply hb_program; eauto using nth_app1.
  - eapply hb_go; eauto using nth_app1.
  - eapply hb_mutex; eauto using nth_app1.
  - eapply hb_send; eauto using nth_app1. pose proof (nth_lt _ _ _ H0). pose proof (nth_lt _ _ _ H1). rewrite !firstn_app1 by lia. assumption.
  - eapply hb_room; eauto using nth_app1. pose proof (nth_lt _ _ _ H0). pose proof (nth_lt _ _ _ H1). rewrite !firstn_app1 by lia. assumption.
  - eapply hb_atomic; eauto using nth_app1.
  - eapply hb_done; eauto using nth_app1.
  - eapply hb_trans; eauto.
Qed.
Lemma sends_app c a b : sends c (a ++ b) = (sends c a + sends c b)%nat.
Proof. unfold sends. now rewrite filter_app, app_length. Qed.
Lemma recvs_app c a b : recvs c (a ++ b) = (recvs c a + recvs c b)%nat.
Proof. unfold recvs. now rewrite filter_app, app_length. Qed.

(** ** Knowledge: p is before whatever the goroutine g does next, whoever locks m next, whoever receives from c next *)
Definition upto (t : trace) (p q : nat) : Prop := p = q \/ hb t p q.
Definition reaches (e : event) (g : gid) : Prop := of_ e g \/ snd e = Go g.
Definition K (t : trace) (g : gid) (p : nat) : Prop := exists q e, nth_error t q = Some e /\ upto t p q /\ reaches e g.
Definition L (t : trace) (m : mutex) (p : nat) : Prop := exists q a, nth_error t q = Some (a, Ul m) /\ upto t p q.
Definition Ch (t : trace) (c : chan) (p : nat) : Prop := exists q a, nth_error t q = Some (a, Snd c) /\ upto t p q /\ sends c (firstn q t) = recvs c t.

Lemma upto_app t u p q : upto t p q -> upto (t ++ u) p q.
Proof. intros [->|H]; [now left|right]. now apply hb_app. Qed.
Lemma upto_hb t p q r : upto t p q -> hb t q r -> hb t p r.
Proof. intros [->|H] H'; [exact H'|]. eapply hb_trans; eassumption. Qed.
Lemma K_app t u g p : K t g p -> K (t ++ u) g p.
Proof. intros (q & e & H1 & H2 & H3). exists q, e. eauto using nth_app1, upto_app. Qed.
Lemma L_app t u m p : L t m p -> L (t ++ u) m p.
Proof. intros (q & a & H1 & H2). exists q, a. eauto using nth_app1, upto_app. Qed.
Lemma Ch_app t u c p : recvs c u = 0%nat -> Ch t c p -> Ch (t ++ u) c p.
Proof.
  intros Hu (q & a & H1 & H2 & H3). exists q, a. split; [now apply nth_app1|]. split; [now apply upto_app|].
  rewrite firstn_app1 by (pose proof (nth_lt _ _ _ H1); lia). rewrite recvs_app, Hu. lia.
Qed.
Lemma K_self t e g : reaches e g -> K (t ++ [e]) g (List.length t).
Proof. intros H. exists (List.length t), e. split; [apply nth_end|]. split; [now left|exact H]. Qed.
Lemma K_new t e g p : K t g p -> of_ e g -> hb (t ++ [e]) p (List.length t).
Proof.
  intros (q & f & H1 & H2 & H3) He. apply (upto_hb _ _ q); [now apply upto_app|]. pose proof (nth_lt _ _ _ H1).
  destruct H3 as [H3|H3]; [eapply hb_program; eauto using nth_app1, nth_end|]. destruct f as [a f]. cbn in H3. subst f. eapply hb_go; eauto using nth_app1, nth_end.
Qed.
Lemma K_hb t e g p : hb (t ++ [e]) p (List.length t) -> reaches e g -> K (t ++ [e]) g p.
Proof. intros H He. exists (List.length t), e. split; [apply nth_end|]. split; [now right|exact He]. Qed.
Lemma K_pass t e g g' p : K t g p -> of_ e g -> reaches e g' -> K (t ++ [e]) g' p.
Proof. intros H H1 H2. apply K_hb; [eapply K_new; eassumption|exact H2]. Qed.
Lemma L_new t g m p : K t g p -> L (t ++ [(g, Ul m)]) m p.
Proof. intros H. exists (List.length t), g. split; [apply nth_end|]. right. eapply K_new; [eassumption|now left]. Qed.
Lemma Lk_new t g m p : L t m p -> K (t ++ [(g, Lk m)]) g p.
Proof.
  intros (q & a & H1 & H2). apply K_hb; [|left; now left]. apply (upto_hb _ _ q); [now apply upto_app|].
  eapply hb_mutex; eauto using nth_app1, nth_end. exact (nth_lt _ _ _ H1).
Qed.
Lemma Snd_new t g c p : K t g p -> sends c t = recvs c t -> Ch (t ++ [(g, Snd c)]) c p.
Proof.
  intros H E. exists (List.length t), g. split; [apply nth_end|]. split; [right; eapply K_new; [eassumption|now left]|].
  rewrite firstn_app1, firstn_all, recvs_app by lia. cbn. lia.
Qed.
Lemma Rcv_new t g c p : Ch t c p -> K (t ++ [(g, Rcv c)]) g p.
Proof.
  intros (q & a & H1 & H2 & H3). apply K_hb; [|left; now left]. apply (upto_hb _ _ q); [now apply upto_app|]. pose proof (nth_lt _ _ _ H1).
  eapply hb_send; eauto using nth_app1, nth_end. rewrite !firstn_app1, firstn_all by lia. exact H3.
Qed.

(** ** Accesses after the first six events; [R] says which *)
Definition acc (R : event -> Prop) (t : trace) (p : nat) : Prop := exists e, nth_error t p = Some e /\ R e /\ (6 <= p)%nat.
Definition wacc (x : loc) (t : trace) (p : nat) : Prop := exists e, nth_error t p = Some e /\ (snd e = Wr x \/ snd e = At x) /\ (6 <= p)%nat.
(** Conflicting accesses are ordered. *)
Definition RF (R : event -> Prop) (x : loc) (t : trace) : Prop :=
  forall i j e f, (6 <= i < j)%nat -> nth_error t i = Some e -> nth_error t j = Some f -> R e -> R f -> conflict (snd e) (snd f) x -> hb t i j.
Definition touches (x : loc) (e : event) : Prop := access (snd e) x.

Lemma acc_split R t es p : acc R (t ++ es) p -> acc R t p \/ ((List.length t <= p)%nat /\ exists e, nth_error es (p - List.length t) = Some e /\ R e).
Proof.
  intros (e & H1 & H2 & H3). destruct (Nat.lt_ge_cases p (List.length t)) as [Hp|Hp].
  - left. rewrite nth_error_app1 in H1 by exact Hp. exists e. auto.
  - right. split; [exact Hp|]. rewrite nth_error_app2 in H1 by exact Hp. eauto.
Qed.
Lemma acc_old R t es p : (forall e, In e es -> ~ R e) -> acc R (t ++ es) p -> acc R t p.
Proof. intros H Hp. destruct (acc_split _ _ _ _ Hp) as [Ho|(_ & e & E & He)]; [exact Ho|]. exfalso. exact (H e (nth_error_In _ _ E) He). Qed.
Lemma wacc_old x t es p : (forall e, In e es -> snd e <> Wr x /\ snd e <> At x) -> wacc x (t ++ es) p -> wacc x t p.
Proof. intros H. apply (acc_old (fun e => snd e = Wr x \/ snd e = At x)). intros e Hin [E|E]; apply H in Hin; tauto. Qed.
Lemma wacc_acc x t p : wacc x t p -> acc (touches x) t p.
Proof. intros (e & H1 & H2 & H3). exists e. split; [exact H1|]. split; [|exact H3]. unfold touches, access. tauto. Qed.
Lemma RF_app R x t es : RF R x t -> (forall e, In e es -> ~ R e) -> RF R x (t ++ es).
Proof.
  intros H Hn i j e f Hij Hi Hj He Hf Hc. destruct (Nat.lt_ge_cases j (List.length t)) as [Hl|Hl].
  - rewrite nth_error_app1 in Hi, Hj by lia. apply hb_app. exact (H i j e f Hij Hi Hj He Hf Hc).
  - exfalso. rewrite nth_error_app2 in Hj by lia. exact (Hn f (nth_error_In _ _ Hj) Hf).
Qed.
(** One more access, by a goroutine that knows of all earlier ones it conflicts with. *)
Lemma RF_snoc R x t f : RF R x t -> (R f -> forall p e, nth_error t p = Some e -> (6 <= p)%nat -> R e -> conflict (snd e) (snd f) x -> K t (fst f) p) -> RF R x (t ++ [f]).
Proof.
  intros H Hk i j e f' Hij Hi Hj He Hf Hc. pose proof (nth_lt _ _ _ Hj) as Hl. rewrite app_length in Hl. cbn in Hl. destruct (Nat.eq_dec j (List.length t)) as [->|Hne].
  - rewrite nth_end in Hj. injection Hj as <-. rewrite nth_error_app1 in Hi by lia. eapply K_new; [|now left]. exact (Hk Hf i e Hi ltac:(lia) He Hc).
  - rewrite nth_error_app1 in Hi, Hj by lia. apply hb_app. exact (H i j e f' Hij Hi Hj He Hf Hc).
Qed.
Lemma at_end {A} (t : list A) (e : A) (p : nat) (f : A) : (List.length t <= p)%nat -> nth_error [e] (p - List.length t) = Some f -> p = List.length t /\ f = e.
Proof. intros Hl E. destruct (p - List.length t)%nat as [|n] eqn:En; [|destruct n; discriminate]. cbn in E. injection E as <-. split; [lia|reflexivity]. Qed.
(** Exclusive use by one goroutine. *)
Lemma excl R x g : forall es t, RF R x t -> (forall p, acc R t p -> K t g p) -> (forall e, In e es -> R e -> fst e = g) ->
  RF R x (t ++ es) /\ forall p, acc R (t ++ es) p -> K (t ++ es) g p.
Proof.
  induction es as [|f es IH]; intros t H Hk He.
  - rewrite app_nil_r. auto.
  - change (f :: es) with ([f] ++ es). rewrite app_assoc. apply IH.
    + apply RF_snoc; [exact H|]. intros Hf p e Hp H6 Hr Hc. rewrite (He _ (or_introl eq_refl) Hf). apply Hk. exists e. auto.
    + intros p Hp. destruct (acc_split _ _ _ _ Hp) as [Ho|(Hl & e & E & Ht)]; [apply K_app; auto|]. destruct (at_end _ _ _ _ Hl E) as [-> ->].
      apply K_self. left. left. exact (He _ (or_introl eq_refl) Ht).
    + intros e Hin. apply He. now right.
Qed.
(** Reads by goroutines that know of all writes. *)
Lemma readers x : forall es t, RF (touches x) x t -> (forall e, In e es -> touches x e -> snd e = Rd x /\ forall p, wacc x t p -> K t (fst e) p) ->
  RF (touches x) x (t ++ es) /\ forall p, wacc x (t ++ es) p -> wacc x t p.
Proof.
  intros es t H He. split.
  2: { intros p. apply wacc_old. intros e Hin. split; intros E; destruct (He e Hin) as [E' _]; try (unfold touches, access; rewrite E; tauto); congruence. }
  revert t H He. induction es as [|f es IH]; intros t H He.
  - rewrite app_nil_r. auto.
  - change (f :: es) with ([f] ++ es). rewrite app_assoc. apply IH.
    + apply RF_snoc; [exact H|]. intros Hf p e Hp H6 Hr Hc. destruct (He _ (or_introl eq_refl) Hf) as [E Hk]. apply Hk. exists e. split; [exact Hp|]. split; [|exact H6].
      destruct Hr as [Hr|Hr]; [|exact Hr]. exfalso. destruct Hc as (_ & _ & Hn & _). apply Hn. split; [exact Hr|exact E].
    + intros e Hin Ht. destruct (He e (or_intror Hin) Ht) as [E Hk]. split; [exact E|]. intros p Hp. apply K_app, Hk.
      apply (wacc_old x t [f]); [|exact Hp]. intros f' [<-|[]]. split; intros F; destruct (He _ (or_introl eq_refl)) as [F' _]; try (unfold touches, access; rewrite F; tauto); congruence.
Qed.
(** What happens in a block of events. *)
Lemma K_in t es a e g p : K t a p -> In e es -> of_ e a -> reaches e g -> K (t ++ es) g p.
Proof.
  intros H Hin Ho Hr. apply in_split in Hin. destruct Hin as (l1 & l2 & ->). replace (t ++ l1 ++ e :: l2) with (((t ++ l1) ++ [e]) ++ l2) by (rewrite <- !app_assoc; reflexivity).
  apply K_app. apply (K_pass _ e a); [now apply K_app|exact Ho|exact Hr].
Qed.
(** First use by g, which then starts h. *)
Lemma birth R x t A C g h : RF R x t -> (forall p, ~ acc R t p) -> (forall e, In e A -> R e -> fst e = g) -> (forall e, In e C -> ~ R e) -> In (g, Go h) C ->
  RF R x (t ++ A ++ C) /\ forall p, acc R (t ++ A ++ C) p -> K (t ++ A ++ C) h p /\ K (t ++ A ++ C) g p.
Proof.
  intros H Hn HA HC Hin. destruct (excl R x g A t H) as [H1 H2]; [intros p Hp; destruct (Hn p Hp)|exact HA|]. rewrite app_assoc. split; [apply RF_app; assumption|].
  intros p Hp. apply acc_old in Hp; [|exact HC]. split; [|apply K_app; auto]. apply (K_in _ _ g (g, Go h)); [auto|exact Hin|now left|now right].
Qed.
(** Use under a lock. *)
Lemma locked R x t e1 m g e2 e3 : RF R x t -> (forall p, acc R t p -> L t m p) -> (forall e, In e e1 -> ~ R e) -> (forall e, In e e2 -> R e -> fst e = g) -> (forall e, In e e3 -> ~ R e) ->
  ~ R (g, Lk m) -> ~ R (g, Ul m) -> let es := e1 ++ (g, Lk m) :: e2 ++ (g, Ul m) :: e3 in RF R x (t ++ es) /\ forall p, acc R (t ++ es) p -> L (t ++ es) m p.
Proof.
  intros H Hl H1 H2 H3 N1 N2 es. subst es.
  replace (t ++ e1 ++ (g, Lk m) :: e2 ++ (g, Ul m) :: e3) with (((((t ++ e1) ++ [(g, Lk m)]) ++ e2) ++ [(g, Ul m)]) ++ e3) by (rewrite <- !app_assoc; reflexivity).
  assert (A1 : RF R x ((t ++ e1) ++ [(g, Lk m)])). { apply RF_app; [now apply RF_app|]. intros e [<-|[]]. exact N1. }
  destruct (excl R x g e2 _ A1) as [A2 A3].
  { intros p Hp. apply acc_old in Hp; [|intros e [<-|[]]; exact N1]. apply acc_old in Hp; [|exact H1]. apply Lk_new, L_app. auto. }
  { exact H2. }
  split; [apply RF_app; [apply RF_app; [exact A2|intros e [<-|[]]; exact N2]|exact H3]|].
  intros p Hp. apply acc_old in Hp; [|exact H3]. apply acc_old in Hp; [|intros e [<-|[]]; exact N2]. apply L_app, L_new. auto.
Qed.
(** Before all that certain goroutines do later. *)
Definition after (P : gid -> Prop) (p : nat) (t : trace) : Prop := forall j e, (p < j)%nat -> nth_error t j = Some e -> P (fst e) -> hb t p j.
Lemma after_app P p : forall es t, (p < List.length t)%nat -> after P p t -> (forall e, In e es -> P (fst e) -> K t (fst e) p) -> after P p (t ++ es).
Proof.
  induction es as [|f es IH]; intros t Hl Hr He.
  - now rewrite app_nil_r.
  - change (f :: es) with ([f] ++ es). rewrite app_assoc. apply IH.
    + rewrite app_length. unfold trace, event in *. lia.
    + intros j e Hp Hj HP. destruct (Nat.lt_ge_cases j (List.length t)) as [Hn|Hn].
      * rewrite nth_error_app1 in Hj by exact Hn. apply hb_app. exact (Hr j e Hp Hj HP).
      * rewrite nth_error_app2 in Hj by exact Hn. destruct (at_end _ _ _ _ Hn Hj) as [-> ->]. eapply K_new; [apply (He f); [now left|exact HP]|now left].
    + intros e Hin HP. apply K_app. apply He; [now right|exact HP].
Qed.
(** True of all events after the first six. *)
Definition all6 (Q : event -> Prop) (t : trace) : Prop := forall p e, (6 <= p)%nat -> nth_error t p = Some e -> Q e.
Lemma all6_app Q t es : all6 Q t -> (forall e, In e es -> Q e) -> all6 Q (t ++ es).
Proof.
  intros H He p e Hp E. destruct (Nat.lt_ge_cases p (List.length t)) as [Hn|Hn].
  - rewrite nth_error_app1 in E by exact Hn. eauto.
  - rewrite nth_error_app2 in E by exact Hn. apply He. eapply nth_error_In. exact E.
Qed.
