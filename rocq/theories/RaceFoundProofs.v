(** RaceFoundProofs.v: races that are always there. *)
From Coq Require Import ZifyBool ZifyNat ZifyN.
From Verif Require Import Base BitfieldModel WireModel HandshakeModel LayoutModel PptModel PeerModel FsModel SwarmModel SessionModel RunModel ProcModel ProcSpec ProcProofs RaceSpec RaceModel RaceProofs RaceInvProofs RaceMemProofs RaceConnProofs RaceTopProofs.
From Verif Require LoopModel ReadLoopModel ReadLoopSpec ReadLoopProofs TimeModel.

(** ** The shape of events *)
Definition simple (a : act) : Prop := match a with Rd _ | Wr _ | Go _ => True | _ => False end.
Definition clocky (a : act) : Prop := a = Wr XRUsed \/ a = Wr XUsed \/ a = At XUsed \/ a = At XRUsed.
Definition shape (e : event) : Prop :=
  (fst e = GMain -> simple (snd e)) /\ (fst e = GClock -> clocky (snd e)) /\ (snd e = At XRUsed -> fst e = GClock) /\
  match snd e with
  | Meet GMain | Meet GListen | Meet GClock => False
  | Go GMain => False
  | Go GListen | Go GClock => fst e = GMain
  | Go (GIn _) => fst e = GListen
  | _ => True
  end.
Ltac shp := unfold shape, clocky; cbn [fst snd]; repeat match goal with |- _ /\ _ => split end; intros; try discriminate; try exact I; try reflexivity; try (cbn; tauto).
Lemma lg_shape logs g e : g <> GMain -> g <> GClock -> In e (lg logs g) -> shape e.
Proof. unfold lg. intros H1 H2 H. destruct logs; ins; shp; congruence. Qed.
Lemma moved_shape logs pc s es s' : moved logs pc s es s' -> whos s -> forall e, In e es -> shape e.
Proof.
  intros H Hw e Hin. destruct H; subst.
  - ins; shp.
  - ins; shp.
  - subst es. ins; shp.
  - destruct H1 as [(-> & _)|[(j & m & a' & b & -> & _ & _ & _ & ->)|(j & m & -> & _ & _ & _ & ->)]]; unfold turned_away in *; ins; shp.
  - destruct H2 as [(j & m & -> & _ & _ & _ & -> & ->)|(j & m & -> & _ & _ & _ & -> & ->)]; unfold made_by, loop_starts in Hin; ins; shp.
  - subst es. destruct (Hw w (nth_error_In _ _ H)) as [(m & ->)|(m & ->)]; (destruct gl; cbn [gevents] in Hin; try (ins; shp; fail); (destruct (m_todo (g_m g)) as [|m' r]; [destruct Hin|]); unfold handles in Hin; apply in_app_or in Hin; destruct Hin as [Hin|Hin]; [ins; shp|]; destruct m'; ins; shp).
Qed.
(** Without log's mutex, what the listener does is simple. *)
Lemma moved_listen pc s es s' : moved false pc s es s' -> whos s -> forall e, In e es -> fst e = GListen -> simple (snd e).
Proof.
  intros H Hw e Hin He. destruct H; subst.
  - ins; discriminate.
  - ins; discriminate.
  - subst es. ins; exact I.
  - destruct H1 as [(-> & _)|[(j & m & a' & b & -> & _ & _ & _ & ->)|(j & m & -> & _ & _ & _ & ->)]]; unfold turned_away in *; ins; discriminate.
  - destruct H2 as [(j & m & -> & _ & _ & _ & -> & ->)|(j & m & -> & _ & _ & _ & -> & ->)]; unfold made_by, loop_starts in Hin; ins; discriminate.
  - subst es. exfalso. destruct (gev_actor _ _ _ _ _ _ _ Hin) as [Ha|[Ha|[Ha|[Ha|Ha]]]]; try congruence. destruct (Hw w (nth_error_In _ _ H)) as [(m & Hm)|(m & Hm)]; congruence.
Qed.
(** New connections' goroutines have done nothing yet. *)
Lemma gev_list logs pc w c g gl e : In e (gevents logs pc w c g gl) -> ~ touches XPhs e /\ ~ touches XHead e.
Proof.
  intros H. split; intros Ht; (destruct gl; cbn [gevents] in H; try (ins; hits; fail); (destruct (m_todo (g_m g)) as [|m r]; [destruct H|]); unfold handles in H; apply in_app_or in H; destruct H as [H|H]; [ins; hits|]; destruct m; ins; hits).
Qed.
Lemma gev_of logs pc w c g gl e n : In e (gevents logs pc w c g gl) -> of_ e (GIn n) -> w = GIn n.
Proof.
  intros H [Ho|Ho].
  - destruct (gev_actor _ _ _ _ _ _ _ H) as [Ha|[Ha|[Ha|[Ha|Ha]]]]; congruence.
  - destruct gl; cbn [gevents] in H; try (ins; cbn in Ho; congruence). destruct (m_todo (g_m g)) as [|m r]; [destruct H|]. unfold handles in H. apply in_app_or in H. destruct H as [H|H]; [ins; cbn in Ho; congruence|]. destruct m; ins; cbn in Ho; congruence.
Qed.
Lemma without_nodup {A} : forall j (l : list A) x, NoDup l -> nth_error l j = Some x -> NoDup (without j l) /\ ~ In x (without j l).
Proof.
  unfold without. induction j as [|j IH]; intros [|a l] x Hd Hn; cbn in Hn; try discriminate; inversion Hd; subst; cbn [firstn skipn app].
  - injection Hn as <-. auto.
  - destruct (IH l x H2 Hn) as [I1 I2]. split.
    + constructor; [|exact I1]. intros Hin. apply H1. eapply (without_in j). exact Hin.
    + intros [->|Hin]; [|auto]. apply H1. eapply nth_error_In. exact Hn.
Qed.
Record young (s : rstate) : Prop := {
  y_none : forall n, In n (r_wait s) \/ (r_next s <= n)%nat -> forall p e, nth_error (r_t s) p = Some e -> ~ of_ e (GIn n);
  y_nodup : NoDup (r_wait s);
  y_wait : forall n, In n (r_wait s) -> (n < r_next s)%nat;
  y_who : forall n, In (GIn n) (r_who s) -> (n < r_next s)%nat /\ ~ In n (r_wait s);
  y_first : forall j e n, nth_error (r_t s) j = Some e -> fst e = GIn n -> touches XPhs e \/ touches XHead e ->
    forall p f, (p <= j)%nat -> nth_error (r_t s) p = Some f -> of_ f (GIn n) -> fst f = GIn n /\ simple (snd f) }.
(** Blocks without new connections' goroutines. *)
Lemma nth_split {A} (t es : list A) p e : nth_error (t ++ es) p = Some e -> ((p < List.length t)%nat /\ nth_error t p = Some e) \/ ((List.length t <= p)%nat /\ In e es).
Proof. intros H. destruct (Nat.lt_ge_cases p (List.length t)) as [Hl|Hl]; [left; rewrite nth_error_app1 in H by exact Hl; auto|right; rewrite nth_error_app2 in H by exact Hl; split; [exact Hl|eapply nth_error_In; exact H]]. Qed.
Lemma first_app s t es : t = r_t s -> young s -> (forall e n, In e es -> fst e = GIn n -> touches XPhs e \/ touches XHead e -> (forall p f, nth_error t p = Some f -> ~ of_ f (GIn n)) /\ forall f, In f es -> of_ f (GIn n) -> fst f = GIn n /\ simple (snd f)) ->
  forall j e n, nth_error (t ++ es) j = Some e -> fst e = GIn n -> touches XPhs e \/ touches XHead e -> forall p f, (p <= j)%nat -> nth_error (t ++ es) p = Some f -> of_ f (GIn n) -> fst f = GIn n /\ simple (snd f).
Proof.
  intros -> Hy He j e n Hj Hn Ht p f Hp Hf Ho. destruct (nth_split _ _ _ _ Hj) as [[Hl Hj']|[Hl Hj']].
  - destruct (nth_split _ _ _ _ Hf) as [[Hl' Hf']|[Hl' _]]; [|lia]. exact (y_first _ Hy j e n Hj' Hn Ht p f Hp Hf' Ho).
  - destruct (He e n Hj' Hn Ht) as [H1 H2]. destruct (nth_split _ _ _ _ Hf) as [[Hl' Hf']|[Hl' Hf']]; [destruct (H1 p f Hf' Ho)|exact (H2 f Hf' Ho)].
Qed.
Lemma young_step pc s es s' : moved false pc s es s' -> young s -> young s'.
Proof.
  intros H Hy. pose proof Hy as [Y1 Y2 Y3 Y4 Y5]. pose proof (moved_t _ _ _ _ _ H) as Et. split; try rewrite Et.
  - intros n Hn p e E Ho. destruct (nth_split _ _ _ _ E) as [[_ E']|[_ Hin]].
    + apply (Y1 n) with (p := p) (e := e); auto. clear - H Hn. destruct H; subst; cbn [r_wait r_next] in *; auto.
      * destruct Hn as [Hn|Hn]; [|right; lia]. apply in_app_or in Hn. destruct Hn as [Hn|[<-|[]]]; [now left|right; lia].
      * destruct Hn as [Hn|Hn]; [left|now right]. destruct H1 as [(_ & -> & _)|[(j & m & a' & b & _ & _ & -> & _)|(j & m & _ & _ & _ & -> & _)]]; try exact Hn. eapply without_in; exact Hn.
      * destruct Hn as [Hn|Hn]; [left|now right]. destruct H2 as [(j & m & _ & _ & -> & _)|(j & m & _ & _ & _ & -> & _)]; try exact Hn. eapply without_in; exact Hn.
    + destruct H; subst; cbn [r_wait r_next] in *.
      * ins; destruct Ho as [Ho|Ho]; cbn in Ho; congruence.
      * ins; destruct Ho as [Ho|Ho]; cbn in Ho; congruence.
      * subst es. ins; destruct Ho as [Ho|Ho]; cbn in Ho; congruence.
      * destruct H1 as [(-> & _)|[(j & m & a' & b & -> & Hj & -> & _ & ->)|(j & m & -> & _ & _ & _ & ->)]].
        -- destruct Hin.
        -- assert (n = m) by (unfold turned_away in Hin; ins; destruct Ho as [Ho|Ho]; cbn in Ho; congruence). subst m. destruct Hn as [Hn|Hn]; [destruct (without_nodup _ _ _ Y2 Hj); auto|]. apply nth_error_In in Hj. apply Y3 in Hj. lia.
        -- ins; destruct Ho as [Ho|Ho]; cbn in Ho; congruence.
      * destruct H2 as [(j & m & -> & Hj & -> & _ & -> & ->)|(j & m & -> & _ & _ & -> & -> & ->)]; unfold made_by, loop_starts in Hin.
        -- assert (n = m) by (ins; destruct Ho as [Ho|Ho]; cbn in Ho; congruence). subst m. destruct Hn as [Hn|Hn]; [destruct (without_nodup _ _ _ Y2 Hj); auto|]. apply nth_error_In in Hj. apply Y3 in Hj. lia.
        -- ins; destruct Ho as [Ho|Ho]; cbn in Ho; congruence.
      * subst es. pose proof (gev_of _ _ _ _ _ _ _ _ Hin Ho) as ->. destruct (Y4 n (nth_error_In _ _ H)) as [A B]. destruct Hn as [Hn|Hn]; [auto|lia].
  - clear Et. destruct H; subst; cbn [r_wait]; auto.
    + rewrite <- (rev_involutive (r_wait s ++ [r_next s])). apply NoDup_rev. rewrite rev_app_distr. cbn. constructor; [|apply NoDup_rev; exact Y2]. intros Hin. apply in_rev in Hin. apply Y3 in Hin. lia.
    + destruct H1 as [(_ & -> & _)|[(j & m & a' & b & _ & Hj & -> & _)|(j & m & _ & _ & _ & -> & _)]]; auto. apply (without_nodup _ _ _ Y2 Hj).
    + destruct H2 as [(j & m & _ & Hj & -> & _)|(j & m & _ & _ & _ & -> & _)]; auto. apply (without_nodup _ _ _ Y2 Hj).
  - clear Et. intros n Hn. destruct H; subst; cbn [r_wait r_next] in *; auto.
    + apply in_app_or in Hn. destruct Hn as [Hn|[<-|[]]]; [apply Y3 in Hn|]; lia.
    + apply Y3. destruct H1 as [(_ & -> & _)|[(j & m & a' & b & _ & Hj & -> & _)|(j & m & _ & _ & _ & -> & _)]]; auto. eapply without_in; exact Hn.
    + apply Y3. destruct H2 as [(j & m & _ & Hj & -> & _)|(j & m & _ & _ & _ & -> & _)]; auto. eapply without_in; exact Hn.
  - clear Et. intros n Hn. destruct H; subst; cbn [r_wait r_next r_who] in *; auto.
    + destruct (Y4 n Hn) as [A B]. split; [lia|]. intros Hin. apply in_app_or in Hin. destruct Hin as [Hin|[<-|[]]]; [auto|lia].
    + destruct (Y4 n Hn) as [A B]. split; [exact A|]. intros Hin. apply B. destruct H1 as [(_ & -> & _)|[(j & m & a' & b & _ & Hj & -> & _)|(j & m & _ & _ & _ & -> & _)]]; auto. eapply without_in; exact Hin.
    + apply in_app_or in Hn. destruct Hn as [Hn|[Hn|[]]].
      * destruct (Y4 n Hn) as [A B]. split; [exact A|]. intros Hin. apply B. destruct H2 as [(j & m & _ & Hj & -> & _)|(j & m & _ & _ & _ & -> & _)]; auto. eapply without_in; exact Hin.
      * destruct H2 as [(j & m & Hg & Hj & -> & _)|(j & m & Hg & _)]; [|congruence]. assert (m = n) by congruence. subst m. split; [apply Y3; eapply nth_error_In; exact Hj|]. apply (without_nodup _ _ _ Y2 Hj).
  - apply (first_app s); [reflexivity|exact Hy|]. intros e n Hin He Ht.
    assert (Hk : isIn (fst e)) by (rewrite He; exact I).
    destruct H; subst; cbn [r_wait r_next] in *.
    + ins; discriminate.
    + ins; discriminate.
    + subst es. ins; discriminate.
    + destruct H1 as [(-> & _)|[(j & m & a' & b & -> & Hj & _ & _ & ->)|(j & m & -> & _ & _ & _ & ->)]].
      * destruct Hin.
      * assert (m = n) by (unfold turned_away in Hin; ins; cbn in He; congruence). subst m. split; [apply Y1; left; eapply nth_error_In; exact Hj|]. intros f Hf _. unfold turned_away in Hf. ins; cbn; auto.
      * ins; discriminate.
    + destruct H2 as [(j & m & -> & Hj & _ & _ & -> & ->)|(j & m & -> & _ & _ & _ & -> & ->)]; unfold made_by, loop_starts in *.
      * assert (m = n) by (ins; cbn in He; congruence). subst m. split; [apply Y1; left; eapply nth_error_In; exact Hj|]. intros f Hf _. ins; cbn; auto.
      * ins; discriminate.
    + subst es. destruct (gev_list _ _ _ _ _ _ _ Hin) as [N1 N2]. exfalso. destruct Ht; auto.
Qed.
Lemma opening_shape logs n e : In e (opening logs n) -> shape e /\ (logs = false -> fst e = GListen -> simple (snd e)) /\ forall m, ~ of_ e (GIn m).
Proof.
  intros Hin. rewrite opening_split, !in_app_iff in Hin. destruct Hin as [[Hin|Hin]|Hin].
  - unfold head6 in Hin. ins; (split; [shp|split; [discriminate|intros m [Ho|Ho]; discriminate]]).
  - assert (Hl : logs = false -> e <> (GListen, Lk MLog) /\ e <> (GListen, Ul MLog)).
    { intros ->. unfold body in Hin. rewrite !in_app_iff in Hin. destruct Hin as [Hin|[Hin|[]]]; [|ins; split; discriminate]. unfold by_ in Hin. apply in_map_iff in Hin. destruct Hin as (a & <- & _). split; discriminate. }
    apply body_early in Hin. destruct Hin as [(g & -> & Hg)|[->|[->| ->]]].
    + split; [destruct Hg as [->|[->|(i & ->)]]; shp|]. split; [discriminate|]. intros m [Ho|Ho]; discriminate.
    + split; [shp|]. split; [intros; exact I|]. intros m [Ho|Ho]; discriminate.
    + split; [shp|]. split; [intros E; destruct (Hl E); congruence|]. intros m [Ho|Ho]; discriminate.
    + split; [shp|]. split; [intros E; destruct (Hl E); congruence|]. intros m [Ho|Ho]; discriminate.
  - ins. split; [shp|]. split; [intros; exact I|]. intros m [Ho|Ho]; discriminate.
Qed.

(** ** The facts that the proofs below need of a trace *)
Definition shapes (t : trace) : Prop := forall p e, nth_error t p = Some e -> shape e.
(** What is before something that main or the listener has done. *)
Lemma main_only t : shapes t -> forall i j, hb t i j -> forall f, nth_error t j = Some f -> fst f = GMain -> exists e, nth_error t i = Some e /\ fst e = GMain.
Proof.
  intros Hs. induction 1; intros f Hf Hm.
  - rewrite H1 in Hf. apply Some_inj in Hf. subst f. destruct (Hs _ _ H0) as (_ & _ & _ & S0). destruct (Hs _ _ H1) as (S1 & _). specialize (S1 Hm). exists a. split; [exact H0|].
    assert (g = GMain) by (destruct H3 as [X|X]; [congruence|rewrite X in S1; destruct S1]). subst g. destruct H2 as [X|X]; [exact X|]. rewrite X in S0. destruct S0.
  - rewrite H1 in Hf. apply Some_inj in Hf. subst f. destruct (Hs _ _ H0) as (_ & _ & _ & S0). destruct (Hs _ _ H1) as (S1 & _). specialize (S1 Hm). cbn [fst snd] in S0.
    assert (g = GMain) by (destruct H2 as [X|X]; [congruence|rewrite X in S1; destruct S1]). subst g. destruct S0.
  - rewrite H1 in Hf. apply Some_inj in Hf. subst f. destruct (Hs _ _ H1) as (S1 & _). destruct (S1 Hm).
  - rewrite H1 in Hf. apply Some_inj in Hf. subst f. destruct (Hs _ _ H1) as (S1 & _). destruct (S1 Hm).
  - rewrite H1 in Hf. apply Some_inj in Hf. subst f. destruct (Hs _ _ H1) as (S1 & _). destruct (S1 Hm).
  - rewrite H1 in Hf. apply Some_inj in Hf. subst f. destruct (Hs _ _ H1) as (S1 & _). destruct (S1 Hm).
  - rewrite H1 in Hf. apply Some_inj in Hf. subst f. destruct (Hs _ _ H1) as (S1 & _). destruct (S1 Hm).
  - destruct (IHhb2 f Hf Hm) as (e & E & M). exact (IHhb1 e E M).
Qed.
(** The goroutine n before it has synchronised with anybody. *)
Definition pure (t : trace) (n j : nat) : Prop := exists f, nth_error t j = Some f /\
  (fst f = GMain \/ fst f = GListen \/ (fst f = GIn n /\ forall p e, (p <= j)%nat -> nth_error t p = Some e -> of_ e (GIn n) -> fst e = GIn n /\ simple (snd e))).
Lemma pure_simple t n j b : shapes t -> (forall p e, nth_error t p = Some e -> fst e = GListen -> simple (snd e)) -> pure t n j -> nth_error t j = Some b ->
  simple (snd b) /\ (forall h, of_ b h -> h = fst b) /\
  (fst b = GMain \/ fst b = GListen \/ (fst b = GIn n /\ forall p e, (p <= j)%nat -> nth_error t p = Some e -> of_ e (GIn n) -> fst e = GIn n /\ simple (snd e))).
Proof.
  intros Hs Hl (f & Hf & Hp) Ej. rewrite Ej in Hf. apply Some_inj in Hf. subst f.
  assert (S : simple (snd b)) by (destruct Hp as [Hp|[Hp|[Hp Hq]]]; [apply (Hs _ _ Ej); exact Hp|exact (Hl _ _ Ej Hp)|apply (Hq j _ (Nat.le_refl j) Ej); now left]).
  split; [exact S|]. split; [|exact Hp]. intros h [X|X]; [symmetry; exact X|rewrite X in S; destruct S].
Qed.
Lemma pure_before t n : shapes t -> (forall p e, nth_error t p = Some e -> fst e = GListen -> simple (snd e)) -> forall i j, hb t i j -> pure t n j -> pure t n i.
Proof.
  intros Hs Hl. induction 1; intros Hp0.
  8: { auto. }
  all: destruct (pure_simple _ _ _ _ Hs Hl Hp0 H1) as (Sj & Oj & Hp); try (destruct Sj; fail).
  - apply Oj in H3. subst g. destruct (Hs _ _ H0) as (_ & _ & _ & S0). exists a. split; [exact H0|]. destruct Hp as [Hp|[Hp|[Hp Hq]]]; rewrite Hp in *.
    + left. destruct H2 as [X|X]; [exact X|rewrite X in S0; destruct S0].
    + right. left. destruct H2 as [X|X]; [exact X|rewrite X in S0; destruct S0].
    + right. right. destruct (Hq i a ltac:(lia) H0 H2) as [X _]. split; [exact X|]. intros p e Hpp. apply Hq. lia.
  - apply Oj in H2. subst g. destruct (Hs _ _ H0) as (_ & _ & _ & S0). cbn [fst snd] in S0. eexists. split; [exact H0|]. cbn [fst]. destruct Hp as [Hp|[Hp|[Hp Hq]]]; rewrite Hp in S0; [destruct S0|now left|right; now left].
Qed.
(** ** Two new connections always race *)
Lemma pure_races t n m i j e f x : shapes t -> (forall p e, nth_error t p = Some e -> fst e = GListen -> simple (snd e)) ->
  (forall j e n, nth_error t j = Some e -> fst e = GIn n -> touches XPhs e \/ touches XHead e -> forall p f, (p <= j)%nat -> nth_error t p = Some f -> of_ f (GIn n) -> fst f = GIn n /\ simple (snd f)) ->
  x = XPhs \/ x = XHead -> n <> m -> nth_error t i = Some e -> nth_error t j = Some f -> fst e = GIn n -> fst f = GIn m -> conflict (snd e) (snd f) x -> race t i j x.
Proof.
  intros Hs Hl Hy Hx Hnm Ei Ej He Hf Hc. exists e, f. split; [exact Ei|]. split; [exact Ej|]. split; [congruence|]. split; [exact Hc|].
  assert (Te : touches x e) by apply Hc. assert (Tf : touches x f) by apply Hc.
  assert (Pe : pure t n i). { exists e. split; [exact Ei|]. right. right. split; [exact He|]. intros p e' Hp. apply (Hy i e n Ei He); [destruct Hx as [-> | ->]; auto|exact Hp]. }
  assert (Pf : pure t m j). { exists f. split; [exact Ej|]. right. right. split; [exact Hf|]. intros p e' Hp. apply (Hy j f m Ej Hf); [destruct Hx as [-> | ->]; auto|exact Hp]. }
  split; intros Hb.
  - destruct (pure_before t m Hs Hl _ _ Hb Pf) as (e' & E' & Hp). rewrite Ei in E'. apply Some_inj in E'. subst e'. destruct Hp as [X|[X|[X _]]]; congruence.
  - destruct (pure_before t n Hs Hl _ _ Hb Pe) as (e' & E' & Hp). rewrite Ej in E'. apply Some_inj in E'. subst e'. destruct Hp as [X|[X|[X _]]]; congruence.
Qed.

(** ** Run and the others *)
Definition ticked (t : trace) (i j : nat) : Prop := exists k m a, (i <= k < m)%nat /\ (m <= j)%nat /\ nth_error t k = Some (a, At XUsed) /\ nth_error t m = Some (GClock, At XUsed).
Definition seen (t : trace) (i j : nat) : Prop := exists k m a b, (i <= k < m)%nat /\ (m <= j)%nat /\ nth_error t k = Some (a, At XUsed) /\ nth_error t m = Some (b, At XUsed).
Lemma clock_of b : shape b -> fst b = GClock -> forall h, of_ b h -> h = GClock.
Proof. intros (_ & S & _) Hb h [X|X]; [congruence|]. specialize (S Hb). rewrite X in S. destruct S as [S|[S|[S|S]]]; discriminate. Qed.
Lemma of_clock a : shape a -> of_ a GClock -> fst a = GClock.
Proof. intros (_ & _ & _ & S) [X|X]; [exact X|]. rewrite X in S. destruct S. Qed.
Lemma into_clock t : shapes t -> forall i j, hb t i j -> forall e f, nth_error t i = Some e -> nth_error t j = Some f -> fst f = GClock -> fst e = GClock \/ fst e = GMain \/ ticked t i j.
Proof.
  intros Hs. induction 1; intros e f He Hf Hc.
  8: { destruct (nth_error t j) as [x|] eqn:Ex.
       2: { exfalso. apply nth_error_None in Ex. pose proof (hb_lt _ _ _ H0). pose proof (nth_lt _ _ _ Hf). lia. }
       pose proof (hb_lt _ _ _ H). pose proof (hb_lt _ _ _ H0).
       destruct (IHhb2 _ _ eq_refl Hf Hc) as [X|[X|(k1 & m & a & X1 & X2 & X3)]].
       - destruct (IHhb1 _ _ He eq_refl X) as [Y|[Y|(k1 & m & a & Y1 & Y2 & Y3)]]; [now left|right; now left|]. right. right. exists k1, m, a. split; [exact Y1|]. split; [lia|exact Y3].
       - right. left. destruct (main_only t Hs _ _ H x Ex X) as (e' & E' & M). congruence.
       - right. right. exists k1, m, a. split; [lia|]. split; [lia|exact X3]. }
  all: rewrite H0 in He; apply Some_inj in He; subst e; rewrite H1 in Hf; apply Some_inj in Hf; subst f.
  all: pose proof (Hs _ _ H0) as Si; pose proof (Hs _ _ H1) as Sj.
  - left. apply (clock_of _ Sj Hc) in H3. subst g. exact (of_clock _ Si H2).
  - right. left. apply (clock_of _ Sj Hc) in H2. subst g. destruct Si as (_ & _ & _ & Si). exact Si.
  - exfalso. destruct Sj as (_ & S & _). destruct (S Hc) as [X|[X|[X|X]]]; discriminate.
  - exfalso. destruct Sj as (_ & S & _). destruct (S Hc) as [X|[X|[X|X]]]; discriminate.
  - exfalso. destruct Sj as (_ & S & _). destruct (S Hc) as [X|[X|[X|X]]]; discriminate.
  - cbn [fst] in *. subst b. destruct Sj as (_ & S & _). specialize (S eq_refl). cbn [snd] in S. destruct S as [X|[X|[X|X]]]; try discriminate; injection X as ->.
    + right. right. exists i, j, a. split; [lia|]. split; [lia|]. split; assumption.
    + left. destruct Si as (_ & _ & Si & _). apply Si. reflexivity.
  - exfalso. destruct Sj as (_ & S & _). destruct (S Hc) as [X|[X|[X|X]]]; discriminate.
Qed.
Lemma out_clock t : shapes t -> forall i j, hb t i j -> forall e f, nth_error t i = Some e -> nth_error t j = Some f -> fst e = GClock -> fst f = GClock \/ seen t i j.
Proof.
  intros Hs. induction 1; intros e f He Hf Hc.
  8: { destruct (nth_error t j) as [x|] eqn:Ex.
       2: { exfalso. apply nth_error_None in Ex. pose proof (hb_lt _ _ _ H0). pose proof (nth_lt _ _ _ Hf). lia. }
       pose proof (hb_lt _ _ _ H). pose proof (hb_lt _ _ _ H0).
       destruct (IHhb1 _ _ He eq_refl Hc) as [X|(k1 & m & a & b & X1 & X2 & X3)].
       - destruct (IHhb2 _ _ eq_refl Hf X) as [Y|(k1 & m & a & b & Y1 & Y2 & Y3)]; [now left|]. right. exists k1, m, a, b. split; [lia|]. split; [lia|exact Y3].
       - right. exists k1, m, a, b. split; [lia|]. split; [lia|exact X3]. }
  all: rewrite H0 in He; apply Some_inj in He; subst e; rewrite H1 in Hf; apply Some_inj in Hf; subst f.
  all: pose proof (Hs _ _ H0) as Si; pose proof (Hs _ _ H1) as Sj.
  - left. apply (clock_of _ Si Hc) in H2. subst g. exact (of_clock _ Sj H3).
  - exfalso. destruct Si as (_ & S & _). destruct (S Hc) as [X|[X|[X|X]]]; discriminate.
  - exfalso. destruct Si as (_ & S & _). destruct (S Hc) as [X|[X|[X|X]]]; discriminate.
  - exfalso. destruct Si as (_ & S & _). destruct (S Hc) as [X|[X|[X|X]]]; discriminate.
  - exfalso. destruct Si as (_ & S & _). destruct (S Hc) as [X|[X|[X|X]]]; discriminate.
  - cbn [fst] in *. subst a. destruct Si as (_ & S & _). specialize (S eq_refl). cbn [snd] in S. destruct S as [X|[X|[X|X]]]; try discriminate; injection X as ->.
    + right. exists i, j, GClock, b. split; [lia|]. split; [lia|]. split; assumption.
    + left. destruct Sj as (_ & _ & Sj & _). apply Sj. reflexivity.
  - exfalso. destruct Si as (_ & S & _). destruct (S Hc) as [X|[X|[X|X]]]; discriminate.
Qed.
(** Conflicting accesses with no atomic operation between them are a race. *)
Lemma used_race t i j e f k : shapes t -> (i < j)%nat -> nth_error t i = Some e -> nth_error t j = Some f -> conflict (snd e) (snd f) XUsed ->
  (fst e = GClock /\ fst f = GRecv k) \/ (fst f = GClock /\ fst e = GRecv k) -> (forall m a, (i < m < j)%nat -> nth_error t m <> Some (a, At XUsed)) -> race t i j XUsed.
Proof.
  intros Hs Hij Ei Ej Hc Hw Hn. exists e, f. split; [exact Ei|]. split; [exact Ej|]. split; [destruct Hw as [[A B]|[A B]]; congruence|]. split; [exact Hc|]. split; [|intros Hb; apply hb_lt in Hb; lia].
  intros Hb. assert (Hsn : seen t i j).
  { destruct Hw as [[A B]|[A B]].
    - destruct (out_clock t Hs _ _ Hb e f Ei Ej A) as [X|X]; [congruence|exact X].
    - destruct (into_clock t Hs _ _ Hb e f Ei Ej A) as [X|[X|(k1 & m & a & X1 & X2 & X3 & X4)]]; [congruence..|]. exists k1, m, a, GClock. auto. }
  destruct Hsn as (k1 & m & a & b & X1 & X2 & X3 & X4). destruct Hc as (_ & _ & _ & Hc). apply Hc.
  destruct (Nat.eq_dec k1 i) as [->|N1]; [|exfalso; apply (Hn k1 a); [lia|exact X3]]. destruct (Nat.eq_dec m j) as [->|N2]; [|exfalso; apply (Hn m b); [lia|exact X4]].
  rewrite Ei in X3. rewrite Ej in X4. apply Some_inj in X3. apply Some_inj in X4. subst. cbn. split; congruence.
Qed.
Definition clock_first (t : trace) : Prop := forall j m x, nth_error t j = Some (GClock, Wr XUsed) -> nth_error t m = Some (GClock, At x) -> (j < m)%nat.
Lemma start_race t i j e k : shapes t -> clock_first t -> (i < j)%nat -> nth_error t i = Some e -> fst e = GRecv k -> touches XUsed e -> nth_error t j = Some (GClock, Wr XUsed) -> race t i j XUsed.
Proof.
  intros Hs Hcf Hij Ei Hk Ht Ej. exists e, (GClock, Wr XUsed). split; [exact Ei|]. split; [exact Ej|]. split; [cbn; congruence|]. split.
  - split; [exact Ht|]. split; [right; now left|]. split; intros [_ X]; discriminate.
  - split; [|intros Hb; apply hb_lt in Hb; lia]. intros Hb. destruct (into_clock t Hs _ _ Hb _ _ Ei Ej eq_refl) as [X|[X|(k1 & m & a & X1 & X2 & X3 & X4)]]; [congruence..|]. specialize (Hcf j m XUsed Ej X4). lia.
Qed.

(** ** Over runs *)
Record found (logs : bool) (s : rstate) : Prop := {
  f_who : whos s;
  f_shape : shapes (r_t s);
  f_clock : clock_first (r_t s) /\ (r_on s = false -> forall p e, nth_error (r_t s) p = Some e -> fst e <> GClock);
  f_listen : logs = false -> forall p e, nth_error (r_t s) p = Some e -> fst e = GListen -> simple (snd e);
  f_young : logs = false -> young s }.
Lemma moved_who logs pc s es s' : moved logs pc s es s' -> whos s -> whos s'.
Proof.
  intros H Hw. destruct H; subst; try exact Hw. intros x Hx. cbn [r_who] in Hx. apply in_app_or in Hx. destruct Hx as [Hx|[<-|[]]]; [auto|]. destruct H2 as [(j & n & -> & _)|(j & n & -> & _)]; eauto.
Qed.
Lemma moved_clock logs pc s es s' : moved logs pc s es s' -> whos s -> clock_first (r_t s) /\ (r_on s = false -> forall p e, nth_error (r_t s) p = Some e -> fst e <> GClock) ->
  clock_first (r_t s') /\ (r_on s' = false -> forall p e, nth_error (r_t s') p = Some e -> fst e <> GClock).
Proof.
  intros H Hw [Hc Ho]. assert (Hq : (forall e, In e es -> fst e <> GClock) -> r_on s' = r_on s -> clock_first (r_t s ++ es) /\ (r_on s' = false -> forall p e, nth_error (r_t s ++ es) p = Some e -> fst e <> GClock)).
  { intros Hn Er. split.
    - intros j m x Hj Hm. destruct (nth_split _ _ _ _ Hj) as [[_ Hj']|[_ Hj']]; [|exfalso; exact (Hn _ Hj' eq_refl)]. destruct (nth_split _ _ _ _ Hm) as [[_ Hm']|[_ Hm']]; [exact (Hc j m x Hj' Hm')|exfalso; exact (Hn _ Hm' eq_refl)].
    - intros E p e Hp. destruct (nth_split _ _ _ _ Hp) as [[_ Hp']|[_ Hp']]; [apply (Ho ltac:(congruence) p e Hp')|exact (Hn _ Hp')]. }
  pose proof (moved_t _ _ _ _ _ H) as Et. rewrite Et. destruct H; subst.
  - clear Hq. split; [|discriminate]. intros j m x Hj Hm. destruct (nth_split _ _ _ _ Hm) as [[_ Hm']|[_ Hm']]; [exfalso; exact (Ho H1 _ _ Hm' eq_refl)|]. ins; discriminate.
  - clear Hq. split; [|discriminate]. intros j m x Hj Hm. destruct (nth_split _ _ _ _ Hj) as [[Hl Hj']|[_ Hj']]; [|ins; discriminate]. destruct (nth_split _ _ _ _ Hm) as [[_ Hm']|[Hl' _]]; [exact (Hc j m x Hj' Hm')|lia].
  - apply Hq; [|reflexivity]. subst es. intros e Hin. ins; discriminate.
  - apply Hq; [|reflexivity]. intros e Hin. destruct H1 as [(-> & _)|[(j & m & a' & b & -> & _ & _ & _ & ->)|(j & m & -> & _ & _ & _ & ->)]]; unfold turned_away in *; ins; discriminate.
  - apply Hq; [|reflexivity]. intros e Hin. destruct H2 as [(j & m & -> & _ & _ & _ & -> & ->)|(j & m & -> & _ & _ & _ & -> & ->)]; unfold made_by, loop_starts in Hin; ins; discriminate.
  - apply Hq; [|reflexivity]. subst es. intros e Hin Hx. destruct (gev_actor _ _ _ _ _ _ _ Hin) as [Ha|[Ha|[Ha|[Ha|Ha]]]]; try congruence. destruct (Hw w (nth_error_In _ _ H)) as [(m & Hm)|(m & Hm)]; congruence.
Qed.
Lemma found_step logs pc s l s' : rstep logs pc l s = Some s' -> found logs s -> found logs s'.
Proof.
  intros H [F1 F2 F3 F4 F5]. destruct (rstep_moved _ _ _ _ _ H) as (es & Hm). pose proof (moved_t _ _ _ _ _ Hm) as Et. split.
  - eapply moved_who; eassumption.
  - rewrite Et. intros p e Hp. destruct (nth_split _ _ _ _ Hp) as [[_ Hp']|[_ Hp']]; [eauto|]. eapply moved_shape; eassumption.
  - eapply moved_clock; eassumption.
  - intros -> p e Hp He. rewrite Et in Hp. destruct (nth_split _ _ _ _ Hp) as [[_ Hp']|[_ Hp']]; [eauto|]. eapply moved_listen; eassumption.
  - intros ->. eapply young_step; [exact Hm|auto].
Qed.
Lemma found_start logs t w peers : found logs (rstarted logs t w peers).
Proof.
  assert (Hs : forall p e, nth_error (opening logs (List.length peers)) p = Some e -> shape e /\ (logs = false -> fst e = GListen -> simple (snd e)) /\ forall m, ~ of_ e (GIn m)) by (intros p e Hp; apply (opening_shape logs (List.length peers)); eapply nth_error_In; exact Hp).
  assert (Hc : forall p e, nth_error (opening logs (List.length peers)) p = Some e -> fst e <> GClock).
  { intros p e Hp Hx. destruct (Nat.lt_ge_cases p 6) as [Hl|Hl]; [destruct (opening_head logs (List.length peers) p Hl) as (x & E); rewrite E in Hp; apply Some_inj in Hp; subst e; discriminate|].
    destruct (opening_at _ _ _ _ Hl Hp) as [[(g & -> & _)|[->|[->| ->]]]|[-> _]]; discriminate. }
  split; cbn [rstarted r_t r_on].
  - intros x [].
  - intros p e Hp. apply (Hs p e Hp).
  - split; [|intros _; exact Hc]. intros j m x Hj. exfalso. exact (Hc _ _ Hj eq_refl).
  - intros E p e Hp. apply (Hs p e Hp). exact E.
  - intros E. split; cbn [rstarted r_t r_wait r_who r_next].
    + intros n _ p e Hp. apply (Hs p e Hp).
    + constructor.
    + intros n [].
    + intros n [].
    + intros j e n Hj Hn Ht p f _ Hf Ho. exfalso. destruct (Hs p f Hf) as (_ & _ & X). exact (X n Ho).
Qed.
Lemma found_run logs pc : forall ls s s', rrun logs pc ls s = Some s' -> found logs s -> found logs s'.
Proof.
  induction ls as [|l ls IH]; intros s s' H Hi; cbn in H; [apply Some_inj in H; now subst|]. destruct (rstep logs pc l s) as [s1|] eqn:E; [|discriminate]. eapply IH; [exact H|]. eapply found_step; eassumption.
Qed.

(** ** Tops *)
Lemma races_top logs pc ls t w peers s i j x : rrun logs pc ls (rstarted logs t w peers) = Some s -> race (r_t s) i j x ->
  exists e f, nth_error (r_t s) i = Some e /\ nth_error (r_t s) j = Some f /\
    (((x = XPhs \/ x = XHead) /\ exists n m, n <> m /\ fst e = GIn n /\ fst f = GIn m) \/
     (x = XUsed /\ (limiter_race e f \/ limiter_race f e) /\ (pc_rate pc = -1 -> snd e = Wr XUsed \/ snd f = Wr XUsed))).
Proof.
  intros H Hr. pose proof (rinv_run _ _ _ _ _ _ H (rinv_start logs pc t w peers)) as Hi. destruct (Nat.lt_trichotomy i j) as [Hl|[->|Hl]].
  - eapply races_lt; eassumption.
  - exfalso. destruct Hr as (e & f & E & F & N & _). congruence.
  - destruct (races_lt _ _ _ _ _ _ Hi Hl (race_sym _ _ _ _ Hr)) as (e & f & E & F & [(A & n & m & B & C & D)|(A & B & C)]); exists f, e; (split; [exact F|]); (split; [exact E|]).
    + left. split; [exact A|]. exists m, n. auto.
    + right. split; [exact A|]. split; [tauto|]. intros Er. specialize (C Er). tauto.
Qed.
Lemma appends_top pc ls t w peers s i j e f n m x : rrun false pc ls (rstarted false t w peers) = Some s -> x = XPhs \/ x = XHead ->
  nth_error (r_t s) i = Some e -> nth_error (r_t s) j = Some f -> fst e = GIn n -> fst f = GIn m -> n <> m -> conflict (snd e) (snd f) x -> race (r_t s) i j x.
Proof.
  intros H Hx Ei Ej He Hf Hn Hc. destruct (found_run _ _ _ _ _ H (found_start false t w peers)) as [_ F2 _ F4 F5]. specialize (F4 eq_refl). specialize (F5 eq_refl).
  eapply (pure_races _ n m); try eassumption. apply F5.
Qed.
Lemma used_top logs pc ls t w peers s i j e f k : rrun logs pc ls (rstarted logs t w peers) = Some s -> (i < j)%nat -> nth_error (r_t s) i = Some e -> nth_error (r_t s) j = Some f -> conflict (snd e) (snd f) XUsed ->
  (fst e = GClock /\ fst f = GRecv k) \/ (fst f = GClock /\ fst e = GRecv k) -> (forall m a, (i < m < j)%nat -> nth_error (r_t s) m <> Some (a, At XUsed)) -> race (r_t s) i j XUsed.
Proof. intros H. apply used_race. apply (found_run _ _ _ _ _ H (found_start logs t w peers)). Qed.
Lemma start_top logs pc ls t w peers s i j e k : rrun logs pc ls (rstarted logs t w peers) = Some s -> (i < j)%nat -> nth_error (r_t s) i = Some e -> fst e = GRecv k -> access (snd e) XUsed ->
  nth_error (r_t s) j = Some (GClock, Wr XUsed) -> race (r_t s) i j XUsed.
Proof. intros H. destruct (found_run _ _ _ _ _ H (found_start logs t w peers)) as [_ F2 F3 _ _]. apply start_race; [exact F2|apply F3]. Qed.

(** ** The runs are those of the process *)
Lemma erase_step logs pc l s s' : rstep logs pc l s = Some s' -> pstep pc (erase l) (r_p s) = PWent (r_p s').
Proof.
  intros H. destruct l as [|l j]; cbn [rstep erase] in *.
  - destruct (r_on s); [discriminate|]. apply Some_inj in H. subst s'. reflexivity.
  - destruct (pstep pc l (r_p s)) as [| |p'] eqn:Ep; try discriminate. f_equal. destruct l.
    + apply Some_inj in H. subst s'. reflexivity.
    + destruct (nth_error (r_wait s) j); [|discriminate]. destruct (in_peer _); apply Some_inj in H; subst s'; reflexivity.
    + destruct (nth_error (r_left s) i); [|discriminate]. destruct (ok && hs); apply Some_inj in H; subst s'; reflexivity.
    + apply Some_inj in H. subst s'. reflexivity.
    + destruct (r_on s); [|discriminate]. apply Some_inj in H. subst s'. reflexivity.
    + destruct (nth_error (r_who s) k); [|discriminate]. destruct (nth_error (p_conns (r_p s)) k); [|discriminate]. apply Some_inj in H. subst s'. reflexivity.
Qed.
Lemma erase_run logs pc : forall ls s s', rrun logs pc ls s = Some s' -> prun pc (map erase ls) (r_p s) = Some (r_p s').
Proof.
  induction ls as [|l ls IH]; intros s s' H; cbn [rrun map prun] in *; [apply Some_inj in H; now subst|]. destruct (rstep logs pc l s) as [s1|] eqn:E; [|discriminate]. rewrite (erase_step _ _ _ _ _ E). auto.
Qed.
Definition fits (s : rstate) : Prop := List.length (r_wait s) = p_shake (r_p s) /\ List.length (r_left s) = List.length (p_dial (r_p s)) /\ List.length (r_who s) = List.length (p_conns (r_p s)).
Lemma without_len {A} : forall j (l : list A) x, nth_error l j = Some x -> S (List.length (without j l)) = List.length l.
Proof. unfold without. induction j as [|j IH]; intros [|a l] x H; cbn in *; try discriminate; [reflexivity|]. f_equal. eauto. Qed.
Lemma without_eq {A B} j (l : list A) (l' : list B) : List.length l = List.length l' -> List.length (without j l) = List.length (without j l').
Proof. intros E. unfold without. rewrite !app_length, !firstn_length, !skipn_length. lia. Qed.
Lemma fits_step logs pc l s p' : fits s -> pstep pc l (r_p s) = PWent p' -> exists rl s', erase rl = l /\ rstep logs pc rl s = Some s' /\ r_p s' = p' /\ fits s'.
Proof.
  intros (F1 & F2 & F3) H. destruct l as [|q port r wr u|i okd hs u| | |c gl].
  - exists (RStep PAccept 0). cbn [rstep erase]. rewrite H. eexists. split; [reflexivity|]. split; [reflexivity|]. split; [reflexivity|]. cbn [pstep] in H. destruct (Nat.ltb _ _); [|discriminate]. apply PWent_inj in H. subst p'.
    unfold fits. cbn [r_wait r_left r_who r_p p_shake p_dial p_conns]. rewrite app_length. cbn. repeat split; (assumption || lia).
  - destruct (r_wait s) as [|n rest] eqn:Ew. { cbn [pstep] in H. destruct (p_shake (r_p s)); [discriminate|]. cbn in F1. lia. }
    exists (RStep (PShake q port r wr u) 0). cbn [rstep erase]. rewrite H, Ew. cbn [nth_error].
    cbn [pstep] in H. destruct (p_shake (r_p s)) as [|m] eqn:Es; [discriminate|]. cbv zeta in H. destruct (in_peer _) as [id|e| |]; try discriminate.
    + unfold new_handler in H. destruct (fresh_conn _ _ _ _ _ _); try discriminate. apply PWent_inj in H. subst p'. eexists. split; [reflexivity|]. split; [reflexivity|]. split; [reflexivity|].
      unfold fits. cbn [r_wait r_left r_who r_p p_shake p_dial p_conns]. rewrite !app_length. cbn in *. repeat split; (assumption || lia).
    + apply PWent_inj in H. subst p'. eexists. split; [reflexivity|]. split; [reflexivity|]. split; [reflexivity|]. unfold fits. cbn [r_wait r_left r_who r_p p_shake p_dial p_conns]. cbn in *. repeat split; (assumption || lia).
  - destruct (nth_error (r_left s) i) as [n|] eqn:En.
    2: { apply nth_error_None in En. rewrite F2 in En. apply nth_error_None in En. cbn [pstep] in H. rewrite En in H. discriminate. }
    exists (RStep (PDial i okd hs u) 0). cbn [rstep erase]. rewrite H, En. cbn [pstep] in H. destruct (nth_error (p_dial (r_p s)) i) as [q|] eqn:Eq; [|discriminate]. cbv zeta in H.
    pose proof (without_eq i _ _ F2) as HW. unfold without at 2 in HW.
    destruct okd; [|apply PWent_inj in H; subst p'; eexists; (split; [reflexivity|]); (split; [reflexivity|]); (split; [reflexivity|]); unfold fits; cbn [r_wait r_left r_who r_p p_shake p_dial p_conns]; auto].
    destruct (Nat.ltb _ _); [|discriminate]. destruct hs; [|apply PWent_inj in H; subst p'; eexists; (split; [reflexivity|]); (split; [reflexivity|]); (split; [reflexivity|]); unfold fits; cbn [r_wait r_left r_who r_p p_shake p_dial p_conns]; auto].
    unfold new_handler in H. destruct (fresh_conn _ _ _ _ _ _); try discriminate. apply PWent_inj in H. subst p'. eexists. split; [reflexivity|]. split; [reflexivity|]. split; [reflexivity|].
    unfold fits. cbn [r_wait r_left r_who r_p p_shake p_dial p_conns]. rewrite (app_length (r_who s)), (app_length (p_conns (r_p s))), F3. auto.
  - exists (RStep PCollect 0). cbn [rstep erase]. rewrite H. eexists. split; [reflexivity|]. split; [reflexivity|]. split; [reflexivity|]. cbn [pstep] in H. destruct (p_drop (r_p s)); [discriminate|]. apply PWent_inj in H. subst p'. unfold fits. auto.
  - cbn [pstep] in H. apply PWent_inj in H. subst p'. destruct (r_on s) eqn:Eo.
    + exists (RStep PTick 0). cbn [rstep erase pstep]. rewrite Eo. eexists. split; [reflexivity|]. split; [reflexivity|]. split; [reflexivity|]. unfold fits. auto.
    + exists RClock. cbn [rstep erase]. rewrite Eo. eexists. split; [reflexivity|]. split; [reflexivity|]. split; [reflexivity|]. unfold fits. auto.
  - exists (RStep (PConn c gl) 0). cbn [rstep erase]. rewrite H. cbn [pstep] in H. destruct (nth_error (p_conns (r_p s)) c) as [g|] eqn:Eg; [|discriminate]. destruct (gstep _ _ _ _ _) as [| |sh g']; try discriminate. apply PWent_inj in H. subst p'.
    destruct (nth_error (r_who s) c) as [w|] eqn:Ew. 2: { apply nth_error_None in Ew. pose proof (nth_lt _ _ _ Eg). lia. }
    eexists. split; [reflexivity|]. split; [reflexivity|]. split; [reflexivity|]. unfold fits. cbn [r_wait r_left r_who r_p p_shake p_dial p_conns]. rewrite lupd_len. auto.
Qed.
Lemma fits_run logs pc : forall ls s p', fits s -> prun pc ls (r_p s) = Some p' -> exists rls s', map erase rls = ls /\ rrun logs pc rls s = Some s' /\ r_p s' = p'.
Proof.
  induction ls as [|l ls IH]; intros s p' Hf H; cbn [prun] in H.
  - exists [], s. apply Some_inj in H. subst p'. auto.
  - destruct (pstep pc l (r_p s)) as [| |p1] eqn:E; try discriminate. destruct (fits_step logs pc l s p1 Hf E) as (rl & s1 & E1 & E2 & E3 & Hf1). subst p1.
    destruct (IH s1 p' Hf1 H) as (rls & s' & E4 & E5 & E6). exists (rl :: rls), s'. cbn [map rrun]. rewrite E1, E2, E4. auto.
Qed.
Lemma runs_top logs pc ls t w peers p : prun pc ls (started t w peers) = Some p <-> exists rls s, map erase rls = ls /\ rrun logs pc rls (rstarted logs t w peers) = Some s /\ r_p s = p.
Proof.
  split.
  - intros H. apply (fits_run logs pc ls (rstarted logs t w peers)); [|exact H]. unfold fits. cbn. rewrite seq_length. auto.
  - intros (rls & s & <- & H & <-). exact (erase_run _ _ _ _ _ H).
Qed.
