(** TreeTopProofs.v: opening without faults, the descriptors, and torrents that cannot be opened. *)
From Coq Require Import ZifyBool ZifyNat ZifyN.
From Verif Require Import Base BencodeModel PathModel PathSpec PathProofs LayoutModel LayoutProofs FsModel FsSpec OcatProofs InfoProofs TreeModel TreeSpec TreeSimProofs TreeProofs.

(** ** Without faults *)
Lemma tsyscall_nf {A} (b : tio A) t : no_faults (tw_w t) -> tsyscall b t = b t.
Proof. intros H. unfold tsyscall, tbind, embed, fault. rewrite H. destruct t. reflexivity. Qed.
Lemma with_fd_some {A} (b : tio A) t : (0 < tw_free t)%nat ->
  exists t1, tw_w t1 = tw_w t /\ tw_dirs t1 = tw_dirs t /\ (tw_free t <= tw_free t1)%nat /\ (tw_lost t1 <= tw_lost t)%nat /\
    with_fd b t = match b t1 with (Ok a, t2) => (Ok a, set_fds t2 (pred (tw_free t1)) (tw_lost t2)) | r => r end.
Proof.
  intros H. unfold with_fd, tbind. destruct (collect t) as [x t1] eqn:E. destruct (collect_w _ _ _ E) as (-> & Hw & Hd).
  exists t1. split; [assumption|]. split; [assumption|]. assert (K : (tw_free t <= tw_free t1)%nat /\ (tw_lost t1 <= tw_lost t)%nat).
  { unfold collect in E. destruct (tw_gc t); inversion E; subst; cbn [tw_free tw_lost]; lia. }
  split; [apply K|]. split; [apply K|]. destruct (tw_free t1); [lia|reflexivity].
Qed.
Lemma with_fd_none {A} (b : tio A) t : tw_free t = O -> tw_lost t = O -> exists t1, tw_w t1 = tw_w t /\ tw_dirs t1 = tw_dirs t /\ tw_free t1 = O /\ tw_lost t1 = O /\ with_fd b t = (Err EIO, t1).
Proof.
  intros Hf Hl. unfold with_fd, tbind. destruct (collect t) as [x t1] eqn:E. destruct (collect_w _ _ _ E) as (-> & Hw & Hd). exists t1.
  assert (K : tw_free t1 = O /\ tw_lost t1 = O) by (unfold collect in E; destruct (tw_gc t); inversion E; subst; cbn [tw_free tw_lost]; lia).
  destruct K as [K1 K2]. rewrite K1. auto.
Qed.
Lemma t_open_found p t i : no_faults (tw_w t) -> (0 < tw_free t)%nat -> ~ isdir t (at_place t p) -> pget (at_place t p) (w_names (tw_w t)) = Some i ->
  exists t', t_open p t = (Ok i, t') /\ tw_w t' = tw_w t /\ tw_dirs t' = tw_dirs t /\ (tw_lost t' <= tw_lost t)%nat.
Proof.
  intros Hn Hf Hd Hp. unfold t_open. rewrite tsyscall_nf by assumption. destruct (with_fd_some (fun t0 : tworld =>
    if is_dir (tw_dirs t0) (at_place t0 p) then (Err EIO, t0) else match pget (at_place t0 p) (w_names (tw_w t0)) with Some i => (Ok i, t0) | None => (Err EPath, t0) end) t Hf) as (t1 & A1 & A2 & A3 & A4 & ->).
  cbv beta. unfold at_place in *. rewrite A1, A2. apply is_dir_false in Hd. unfold isdir in Hd. rewrite Hd, Hp.
  eexists. split; [reflexivity|]. cbn. auto.
Qed.
Lemma t_open_missing p t : no_faults (tw_w t) -> (0 < tw_free t)%nat -> pget (at_place t p) (w_names (tw_w t)) = None ->
  exists t' e, t_open p t = (Err e, t') /\ tw_w t' = tw_w t /\ tw_dirs t' = tw_dirs t /\ (tw_free t <= tw_free t')%nat /\ (tw_lost t' <= tw_lost t)%nat.
Proof.
  intros Hn Hf Hp. unfold t_open. rewrite tsyscall_nf by assumption. destruct (with_fd_some (fun t0 : tworld =>
    if is_dir (tw_dirs t0) (at_place t0 p) then (Err EIO, t0) else match pget (at_place t0 p) (w_names (tw_w t0)) with Some i => (Ok i, t0) | None => (Err EPath, t0) end) t Hf) as (t1 & A1 & A2 & A3 & A4 & ->).
  cbv beta. unfold at_place in *. rewrite A1, Hp. destruct (is_dir _ _); exists t1; eexists; (split; [reflexivity|auto]).
Qed.
Lemma t_create_new p t : no_faults (tw_w t) -> (0 < tw_free t)%nat -> ~ isdir t (at_place t p) -> isdir t (removelast (at_place t p)) -> pget (at_place t p) (w_names (tw_w t)) = None ->
  exists t', t_create p t = (Ok (List.length (w_inos (tw_w t))), t') /\ os_create p (tw_w t) = (Ok (List.length (w_inos (tw_w t))), tw_w t') /\ (tw_lost t' <= tw_lost t)%nat.
Proof.
  intros Hn Hf Hd Hr Hp. unfold t_create. rewrite tsyscall_nf by assumption.
  match goal with |- context [with_fd ?b t] => destruct (with_fd_some b t Hf) as (t1 & A1 & A2 & A3 & A4 & ->) end.
  cbv beta zeta. unfold at_place in *. rewrite A1, A2. apply is_dir_false in Hd. apply is_dir_spec in Hr. unfold isdir in *. rewrite Hd, Hp, Hr.
  eexists. split; [reflexivity|]. split; [|exact A4]. unfold os_create. rewrite syscall_ok by (rewrite Hn; exact I). rewrite no_flt_id by assumption. rewrite Hp. reflexivity.
Qed.

Lemma fault_nf w : no_faults w -> fault w = (Ok None, w).
Proof. intros H. unfold fault. now rewrite H. Qed.
(** What tutils_OCAT has done when it ends well, given a free descriptor. *)
Lemma tutils_ok p L t : tree_wf t -> clean_path p -> no_faults (tw_w t) -> can_put t (at_place t p) -> 0 <= L <= max64 -> (0 < tw_free t)%nat ->
  exists i t', tutils_OCAT p L t = (Ok i, t') /\ utils_OCAT p L (tw_w t) = (Ok i, tw_w t') /\ no_faults (tw_w t') /\ (tw_lost t' <= tw_lost t)%nat.
Proof.
  intros Hwf Hcl Hn [Hd Hup] HL Hf. pose proof Hwf as (H1 & H2 & H3 & H4 & H5 & H6).
  destruct (OCAT_spec p L (tw_w t) H1 HL Hn) as (i & c & w' & E & _ & _ & _ & _ & _ & _ & Hn'). exists i. rewrite E. unfold tutils_OCAT. rewrite fit_is in E.
  destruct (pget (at_place t p) (w_names (tw_w t))) as [j|] eqn:Hp.
  - destruct (t_open_found p t j Hn Hf Hd Hp) as (t1 & -> & A1 & A2 & A3). unfold at_place in Hp.
    unfold os_open in E. rewrite syscall_ok in E by (rewrite Hn; exact I). rewrite no_flt_id in E by assumption. rewrite Hp in E.
    unfold losing, embed. rewrite A1, E. eexists. split; [reflexivity|]. cbn [tw_w set_w tw_lost]. auto.
  - destruct (t_open_missing p t Hn Hf Hp) as (t1 & e & -> & A1 & A2 & A3 & A4). unfold at_place in Hp.
    unfold os_open in E. rewrite syscall_ok in E by (rewrite Hn; exact I). rewrite no_flt_id in E by assumption. rewrite Hp in E.
    unfold CreateZeroFilledFile, iobind at 1 in E. unfold os_mkdirall in E. rewrite syscall_ok in E by (rewrite Hn; exact I). rewrite no_flt_id in E by assumption. unfold ret at 1 in E.
    unfold tCreateZeroFilledFile, tbind at 1.
    assert (S1 : same t t1) by (unfold same; rewrite A1, A2; repeat split).
    pose proof (same_wf _ _ S1 Hwf) as Hwf1. destruct (t_mkdirall (Dir p) t1) as [x t2] eqn:Em.
    assert (Ep : exists nm, at_place t p = at_place t (Dir p) ++ [nm]).
    { destruct (clean_parent t p H2 H3 H4 Hcl) as [[Hc _]|Hc]; [contradiction|assumption]. } destruct Ep as [nm Ep].
    assert (Hat : forall a, at_place t1 a = at_place t a) by (intros; now apply same_at, S1).
    destruct (t_mkdirall_eff _ _ _ _ (at_place t p) Hwf1 ltac:(intros y Hy; left; rewrite Ep; rewrite Hat in Hy; apply below_snoc; exact Hy) Em) as (W2 & G2 & D2 & K2 & N2).
    assert (Hx : x = Ok tt).
    { apply K2; [rewrite A1; exact Hn|]. intros y Hy. rewrite Hat in Hy. unfold isfile. rewrite A1. apply Hup. rewrite Ep. apply below_snoc. exact Hy. }
    subst x. specialize (D2 eq_refl). rewrite Hat in D2.
    assert (Ew2 : tw_w t2 = tw_w t /\ tw_free t2 = tw_free t1 /\ tw_lost t2 = tw_lost t1).
    { unfold t_mkdirall, tbind, embed in Em. rewrite A1, (fault_nf _ Hn) in Em. destruct (mk_dirs _ _ _ _ _) as [ok ds]. inversion Em; subst. auto. } destruct Ew2 as (Ew2 & Ef2 & El2).
    destruct (t_create_new p t2) as (t3 & C1 & C2 & C3); rewrite ?(grows_at _ _ _ p G2), ?Hat, ?Ew2.
    { exact Hn. } { lia. }
    { intros Hdd. destruct G2 as (_ & _ & _ & _ & _ & G). destruct (G _ Hdd) as [Hdd'|Hb]; [|exact (below_irrefl _ Hb)]. apply Hd. unfold isdir in *. now rewrite <- A2. }
    { rewrite Ep, removelast_last. exact D2. }
    { exact Hp. }
    unfold tbind at 1. rewrite C1. rewrite Ew2 in C2. unfold iobind in E. rewrite C2 in E.
    rewrite Ew2. destruct (AppendZeros (List.length (w_inos (tw_w t))) L (tw_w t3)) as [[[]|e1| |] w3] eqn:Ea; try discriminate.
    unfold losing, tbind, embed, tlift. rewrite Ea. cbn [set_w tw_w]. unfold ret in E. rewrite E. eexists. split; [reflexivity|]. cbn [set_w tw_w tw_lost]. split; [reflexivity|]. split; [assumption|]. lia.
Qed.
Lemma tOCAT_ok p L t : tree_wf t -> clean_path p -> no_faults (tw_w t) -> can_put t (at_place t p) -> 0 <= L <= max64 -> (0 < tw_free t)%nat ->
  exists t', tOCAT p L t = (Ok tt, t') /\ OCAT p L (tw_w t) = (Ok tt, tw_w t') /\ no_faults (tw_w t') /\
    (tw_lost t' <= tw_lost t + if is_open (w_lfps (tw_w t)) p then 1 else 0)%nat.
Proof.
  intros Hwf Hcl Hn Hc HL Hf. destruct (tutils_ok p L t Hwf Hcl Hn Hc HL Hf) as (i & t1 & E1 & E2 & Hn1 & Hl1).
  destruct (tutils_eff _ _ _ _ _ Hwf Hcl E1) as (_ & (_ & Hlf & _) & _).
  unfold tOCAT, tbind, OCAT, iobind. rewrite E1, E2. eexists. split; [reflexivity|]. cbn [tw_w set_w set_fds tw_lost]. split; [reflexivity|]. split; [exact Hn1|].
  rewrite Hlf. destruct (is_open _ p); lia.
Qed.

(** ** Counting descriptors *)
Definition idle (t : tworld) : nat := tw_free t + tw_lost t.
Definition costs {A} (n : nat) (r : res A) (t t' : tworld) : Prop :=
  match r with Ok _ => idle t = (n + idle t')%nat | Err _ => idle t = idle t' | _ => True end.
Lemma embed_idle {A} (m : io A) t r t' : embed m t = (r, t') -> idle t' = idle t.
Proof. unfold embed. destruct (m (tw_w t)). intros H. inversion H; subst. reflexivity. Qed.
Lemma tsyscall_costs {A} (b : tio A) n t r t' : (forall t1, b t1 = (r, t') -> costs n r t1 t') -> tsyscall b t = (r, t') -> costs n r t t'.
Proof.
  intros Hb H. unfold tsyscall, tbind in H. destruct (embed fault t) as [x t1] eqn:E. pose proof (embed_idle _ _ _ _ E) as Hi.
  assert (Hx : exists f, x = Ok f) by (unfold embed, fault in E; destruct (w_flt (tw_w t)); inversion E; subst; eauto). destruct Hx as [f ->].
  destruct f; [inversion H; subst; cbn; congruence|]. specialize (Hb t1 H). unfold costs in *. now rewrite Hi in Hb.
Qed.
Lemma with_fd_costs {A} (b : tio A) t r t' : (forall t1 x t2, b t1 = (x, t2) -> tw_free t2 = tw_free t1 /\ tw_lost t2 = tw_lost t1) -> with_fd b t = (r, t') -> costs 1 r t t'.
Proof.
  intros Hb H. unfold with_fd, tbind in H. destruct (collect t) as [x t1] eqn:E. destruct (collect_w _ _ _ E) as (-> & _ & _).
  assert (Hi : idle t1 = idle t) by (unfold collect in E; destruct (tw_gc t); inversion E; subst; unfold idle; cbn [tw_free tw_lost]; lia).
  destruct (tw_free t1) as [|n] eqn:Ef; [inversion H; subst; cbn; congruence|]. destruct (b t1) as [y t2] eqn:Eb. destruct (Hb _ _ _ Eb) as [H1 H2].
  destruct y; inversion H; subst; cbn; unfold idle in *; cbn [tw_free tw_lost set_fds]; try lia; exact I.
Qed.
Lemma t_open_costs p t r t' : t_open p t = (r, t') -> costs 1 r t t'.
Proof.
  apply tsyscall_costs. intros t1. apply with_fd_costs. intros t2 x t3. destruct (is_dir _ _); [|destruct (pget _ _)]; intros H; inversion H; subst; auto.
Qed.
Lemma t_create_costs p t r t' : t_create p t = (r, t') -> costs 1 r t t'.
Proof.
  apply tsyscall_costs. intros t1. apply with_fd_costs. intros t2 x t3. cbv zeta.
  destruct (is_dir _ _); [|destruct (pget _ _); [|destruct (is_dir _ _)]]; intros H; inversion H; subst; auto.
Qed.
Lemma t_mkdirall_idle d t r t' : t_mkdirall d t = (r, t') -> idle t' = idle t.
Proof.
  unfold t_mkdirall, tbind. destruct (embed fault t) as [x t1] eqn:E. apply embed_idle in E. rewrite <- E.
  destruct x; [destruct (mk_dirs _ _ _ _ _)|..]; intros H; inversion H; subst; reflexivity.
Qed.
Lemma losing_idle {A} (tm : tio A) t r t' : (forall x t1, tm t = (x, t1) -> idle t1 = idle t) -> losing tm t = (r, t') ->
  match r with Err _ => idle t' = S (idle t) | _ => idle t' = idle t end.
Proof.
  intros Hm H. unfold losing in H. destruct (tm t) as [x t1] eqn:E. specialize (Hm _ _ eq_refl).
  destruct x; inversion H; subst; try assumption. unfold idle in *. cbn [tw_free tw_lost set_fds]. lia.
Qed.
Lemma tCZF_costs p L t r t' : tCreateZeroFilledFile p L t = (r, t') -> costs 1 r t t'.
Proof.
  unfold tCreateZeroFilledFile. unfold tbind at 1. intros H. destruct (t_mkdirall (Dir p) t) as [x t1] eqn:E1. apply t_mkdirall_idle in E1.
  destruct x as [[]|e| |]; [|inversion H; subst; cbn; auto..]. unfold tbind at 1 in H. destruct (t_create p t1) as [y t2] eqn:E2. apply t_create_costs in E2.
  destruct y as [j|e| |]; cbn in E2; [|inversion H; subst; cbn; auto; congruence..].
  apply losing_idle in H.
  - destruct r; cbn; auto; lia.
  - intros z t3 Hz. unfold tbind in Hz. destruct (embed _ t2) as [u t4] eqn:E4. apply embed_idle in E4. destruct u; inversion Hz; subst; exact E4.
Qed.
Lemma tutils_costs p L t r t' : tutils_OCAT p L t = (r, t') -> costs 1 r t t'.
Proof.
  unfold tutils_OCAT. intros H. destruct (t_open p t) as [x t1] eqn:E1. apply t_open_costs in E1.
  assert (Hfit : forall j t2, losing (embed (fit j L)) t2 = (r, t') -> match r with Err _ => idle t' = S (idle t2) | _ => idle t' = idle t2 end).
  { intros j t2. apply losing_idle. intros z t3. apply embed_idle. }
  destruct x as [j|e| |]; cbn in E1; [| |inversion H; subst; exact I..].
  - apply Hfit in H. destruct r; cbn; auto; lia.
  - destruct (tCreateZeroFilledFile p L t1) as [y t2] eqn:E2. apply tCZF_costs in E2. destruct y as [j|e2| |]; cbn in E2; [|inversion H; subst; cbn; auto; congruence..].
    apply Hfit in H. destruct r; cbn; auto; lia.
Qed.

Definition opens (l : list (bytes * handle)) : nat := List.length (filter (fun x => h_open (snd x)) l).
Definition b1 (b : bool) : nat := if b then 1%nat else 0%nat.
Lemma opens_aput p h l : (opens (aput p h l) + b1 (is_open l p) = opens l + b1 (h_open h))%nat.
Proof.
  unfold opens, is_open, b1. induction l as [|[k x] l IH]; cbn; [destruct (h_open h); reflexivity|].
  destruct (beqb p k) eqn:E; cbn; [destruct (h_open h), (h_open x); cbn; lia|]. destruct (h_open x); cbn; lia.
Qed.
Definition keeps_table {A} (tm : tio A) : Prop := forall t r t', tm t = (r, t') -> w_lfps (tw_w t') = w_lfps (tw_w t).
Lemma kt_bind {A C} (tm : tio A) (tf : A -> tio C) : keeps_table tm -> (forall a, keeps_table (tf a)) -> keeps_table (tbind tm tf).
Proof. intros Hm Hf t r t' H. unfold tbind in H. destruct (tm t) as [x t1] eqn:E. apply Hm in E. rewrite <- E. destruct x; [eapply Hf; exact H|inversion H; subst; reflexivity..]. Qed.
Lemma kt_same {A} (tm : tio A) : (forall t r t', tm t = (r, t') -> same t t') -> keeps_table tm.
Proof. intros Hm t r t' H. apply Hm in H. apply H. Qed.
Lemma kt_losing {A} (tm : tio A) : keeps_table tm -> keeps_table (losing tm).
Proof. intros Hm t r t' H. unfold losing in H. destruct (tm t) as [x t1] eqn:E. apply Hm in E. rewrite <- E. destruct x; inversion H; subst; reflexivity. Qed.
Lemma kt_lift {A} (x : res A) : keeps_table (tlift x).
Proof. intros t r t' H. inversion H; subst. reflexivity. Qed.
Lemma kt_embed {A} (m : io A) : still m -> keeps_table (embed m).
Proof. intros Hm. apply kt_same. intros t r t'. now apply same_embed. Qed.
Lemma kt_create p : keeps_table (t_create p).
Proof.
  intros t r t' H. apply tsyscall_cases in H. destruct H as (t1 & S1 & [[-> ->]|H]); [apply S1|].
  apply with_fd_cases in H. destruct H as (t2 & S2 & [[-> ->]|(t3 & H & Ew & Ed)]); pose proof (same_trans _ _ _ S1 S2) as S; [apply S|].
  rewrite Ew. destruct S as (_ & _ & <- & _). cbv beta zeta in H. destruct (is_dir _ _); [|destruct (pget _ _); [|destruct (is_dir _ _)]]; inversion H; subst; reflexivity.
Qed.
Lemma kt_mkdirall p : keeps_table (t_mkdirall p).
Proof.
  apply kt_bind; [apply kt_embed, still_fault|]. intros f t r t' H. destruct (mk_dirs _ _ _ _ _). inversion H; subst. reflexivity.
Qed.
Lemma kt_czf p L : keeps_table (tCreateZeroFilledFile p L).
Proof. apply kt_bind; [apply kt_mkdirall|intros _]. apply kt_bind; [apply kt_create|intros i]. apply kt_losing, kt_bind; [apply kt_embed, still_append|intros; apply kt_lift]. Qed.
Lemma kt_utils p L : keeps_table (tutils_OCAT p L).
Proof.
  intros t r t' H. unfold tutils_OCAT in H. destruct (t_open p t) as [x t1] eqn:E1. apply t_open_eff in E1. destruct E1 as [(_ & _ & E1 & _) _]. rewrite <- E1.
  destruct x as [j|e| |]; [eapply (kt_losing _ (kt_embed _ (still_fit j L))); exact H| |inversion H; subst; reflexivity..].
  destruct (tCreateZeroFilledFile p L t1) as [y t2] eqn:E2. apply kt_czf in E2. rewrite <- E2.
  destruct y as [j|e2| |]; [eapply (kt_losing _ (kt_embed _ (still_fit j L))); exact H|inversion H; subst; reflexivity..].
Qed.

Lemma tOCAT_total p L t r t' : tOCAT p L t = (r, t') -> went r -> total_fds t' = total_fds t.
Proof.
  intros H Hw. unfold tOCAT, tbind in H. destruct (tutils_OCAT p L t) as [x t1] eqn:E. pose proof (tutils_costs _ _ _ _ _ E) as Hc. pose proof (kt_utils _ _ _ _ _ E) as Hl.
  unfold total_fds, open_count, costs, idle in *. destruct x as [i|e| |]; inversion H; subst; cbn [went] in Hw; [| |contradiction..].
  - cbn [tw_w set_w set_fds tw_free tw_lost w_lfps set_lfps]. pose proof (opens_aput p (mkh i true) (w_lfps (tw_w t1))) as Ho. unfold opens, b1 in Ho. cbn [h_open] in Ho.
    rewrite Hl in *. destruct (is_open (w_lfps (tw_w t)) p); lia.
  - rewrite Hl. lia.
Qed.
Lemma tClose_total p t r t' : tClose p t = (r, t') -> total_fds t' = total_fds t.
Proof.
  unfold tClose, Close, total_fds, open_count. pose proof (fun h => opens_aput p h (w_lfps (tw_w t))) as Ho. unfold opens, b1 in Ho. unfold is_open in *.
  destruct (aget p (w_lfps (tw_w t))) as [h|] eqn:E; [|intros H; inversion H; subst; reflexivity].
  destruct (h_open h) eqn:Eh; [|intros H; inversion H; subst; reflexivity].
  specialize (Ho (mkh (h_ino h) false)). cbn [h_open] in Ho. unfold iobind. destruct (fault (tw_w t)) as [x w1] eqn:Ef.
  destruct (still_fault _ _ _ Ef) as (_ & _ & Hl & _). assert (Hx : exists f, x = Ok f) by (unfold fault in Ef; destruct (w_flt (tw_w t)); inversion Ef; subst; eauto). destruct Hx as [f ->].
  intros H. inversion H; subst. cbn [tw_w set_w set_fds tw_free tw_lost w_lfps set_lfps]. rewrite Hl. lia.
Qed.
Lemma tMove_total a b t r t' : tMove a b t = (r, t') -> total_fds t' = total_fds t.
Proof.
  unfold tMove. assert (Hm : forall a b, forall w x w', Move a b w = (x, w') -> w_lfps w' = w_lfps w).
  { intros a0 b0 w x w'. unfold Move. destruct (aget a0 (w_lfps w)); [|intros H; inversion H; subst; reflexivity]. unfold syscall, iobind. destruct (fault w) as [y w1] eqn:Ef.
    destruct (still_fault _ _ _ Ef) as (_ & _ & Hl & _). destruct y as [[k|]|e| |]; [..|intros H; inversion H; subst; exact Hl|intros H; inversion H; subst; exact Hl|intros H; inversion H; subst; exact Hl].
    - intros H. inversion H; subst. exact Hl.
    - destruct (pget _ _); intros H; inversion H; subst; exact Hl. }
  assert (He : forall r t', embed (Move a b) t = (r, t') -> total_fds t' = total_fds t).
  { intros r0 t0. unfold embed. destruct (Move a b (tw_w t)) as [x w'] eqn:E. apply Hm in E. intros H. inversion H; subst. unfold total_fds, open_count. cbn [tw_w set_w tw_free tw_lost]. now rewrite E. }
  destruct (aget a (w_lfps (tw_w t))); [|apply He]. destruct (_ || _); [|apply He]. intros H. unfold tsyscall, tbind in H.
  destruct (embed fault t) as [x t1] eqn:E. pose proof (embed_idle _ _ _ _ E) as Hi. pose proof (same_embed _ _ _ _ still_fault E) as (_ & _ & Hl & _).
  assert (Ht : t' = t1) by (destruct x as [[k|]|e| |]; inversion H; subst; reflexivity). subst t1. unfold total_fds, open_count, idle in *. rewrite Hl. lia.
Qed.
(** Descriptors are neither made nor lost track of: free, open in the FileIO, or waiting for the collector. *)
Lemma calls_total cs : forall t rs t', calls cs t = (rs, t') -> Forall went rs -> total_fds t' = total_fds t.
Proof.
  induction cs as [|c cs IH]; intros t rs t' H Hw; cbn [calls] in H; [inversion H; subst; reflexivity|].
  destruct (do_call c t) as [x t1] eqn:E. assert (K : went x -> total_fds t1 = total_fds t).
  { intros Hx. destruct c; [eapply tOCAT_total; eassumption|eapply tClose_total; eassumption|eapply tMove_total; eassumption]. }
  destruct x as [u|e| |].
  - destruct (calls cs t1) as [xs t2] eqn:E2. inversion H; subst. inversion Hw; subst. rewrite (IH _ _ _ E2) by assumption. now apply K.
  - destruct (calls cs t1) as [xs t2] eqn:E2. inversion H; subst. inversion Hw; subst. rewrite (IH _ _ _ E2) by assumption. now apply K.
  - inversion H; subst. inversion Hw; subst. contradiction.
  - inversion H; subst. inversion Hw; subst. contradiction.
Qed.

(** ** All files *)
Lemma fits_after t t' q qs : tree_wf t' -> grown q t t' -> fits (isdir t) (isfile t) (q :: qs) -> fits (isdir t') (isfile t') qs.
Proof. intros W (G1 & G2 & G3 & G4 & G5) HF. apply fits_cons in HF. destruct HF as [_ HF]. eapply fits_mono; [| |exact HF]; auto. Qed.
Lemma tOCAT_table p L t t' : tOCAT p L t = (Ok tt, t') -> exists i, w_lfps (tw_w t') = aput p (mkh i true) (w_lfps (tw_w t)).
Proof.
  unfold tOCAT, tbind. destruct (tutils_OCAT p L t) as [x t1] eqn:E. apply kt_utils in E. destruct x as [i| | |]; [|discriminate..].
  intros H. inversion H; subst. exists i. cbn. now rewrite E.
Qed.
Lemma tOCAT_free p L t t' : tOCAT p L t = (Ok tt, t') -> (tw_lost t' <= tw_lost t + if is_open (w_lfps (tw_w t)) p then 1 else 0)%nat -> (tw_free t <= S (tw_free t'))%nat.
Proof.
  intros E Hl. pose proof (tOCAT_total _ _ _ _ _ E I) as Ht. destruct (tOCAT_table _ _ _ _ E) as [i Et]. unfold total_fds, open_count in Ht. rewrite Et in Ht.
  pose proof (opens_aput p (mkh i true) (w_lfps (tw_w t))) as Ho. unfold opens, b1 in Ho. cbn [h_open] in Ho. destruct (is_open _ p); lia.
Qed.
Lemma tOCATAll_ok files : forall t, tree_wf t -> clean_entries files -> no_faults (tw_w t) -> lengths_ok files -> fits (isdir t) (isfile t) (places t files) ->
  (List.length files <= tw_free t)%nat ->
  exists t', tOCATAll files t = (Ok tt, t') /\ OCATAll files (tw_w t) = (Ok tt, tw_w t').
Proof.
  induction files as [|e files IH]; intros t Hwf Hcl Hn HL HF Hlen; cbn [tOCATAll OCATAll].
  { exists t. split; reflexivity. }
  inversion Hcl as [|? ? Hc1 Hc2]; subst. inversion HL as [|? ? Hl1 Hl2]; subst. cbn [List.length] in Hlen.
  rewrite (places_cons t t e files eq_refl) in HF. pose proof (proj1 (proj1 (fits_cons _ _ _ _) HF)) as HP.
  destruct (tOCAT_ok _ _ _ Hwf Hc1 Hn HP Hl1 ltac:(lia)) as (t1 & E1 & E2 & Hn1 & Hlost).
  destruct (tOCAT_eff _ _ _ _ _ Hwf Hc1 E1) as (W1 & G1 & _).
  pose proof (fits_after _ _ _ _ W1 G1 HF) as HF1. pose proof (tOCAT_free _ _ _ _ E1 Hlost) as Hfree.
  destruct (IH t1 W1 Hc2 Hn1 Hl2) as (t2 & E3 & E4); [|lia|].
  { unfold places, at_place in *. destruct G1 as (-> & _). exact HF1. }
  exists t2. unfold tbind, iobind. rewrite E1, E2. split; assumption.
Qed.
Lemma tOCATAll_opens files t : tree_wf t -> clean_entries files -> no_faults (tw_w t) -> lengths_ok files -> fits (isdir t) (isfile t) (places t files) ->
  (List.length files <= tw_free t)%nat ->
  exists t', tOCATAll files t = (Ok tt, t') /\ OCATAll files (tw_w t) = (Ok tt, tw_w t') /\ tree_wf t' /\
    (forall x, isfile t' x <-> isfile t x \/ In x (places t files)) /\ (forall x, isdir t' x <-> isdir t x \/ exists q, In q (places t files) /\ below x q).
Proof.
  intros Hwf Hcl Hn HL HF Hlen. destruct (tOCATAll_ok files t Hwf Hcl Hn HL HF Hlen) as (t' & E1 & E2). exists t'. split; [assumption|]. split; [assumption|].
  destruct (tOCATAll_eff _ _ _ _ Hwf Hcl E1) as (W & (G1 & G2 & G3 & G4 & G5) & R). destruct (R eq_refl) as (_ & R2 & _). split; [assumption|]. split.
  - intros x. split; [apply G3|]. intros [Hx|Hx]; [now apply G2|now apply R2].
  - intros x. split; [apply G5|]. intros [Hx|(q & Hq & Hb)]; [now apply G4|]. eapply wf_up; [exact W|exact (R2 q Hq)|exact Hb].
Qed.

(** The table after opening all: one open file per path. *)
Lemma aput_new {A} k (v : A) l : ~ In k (map fst l) -> aput k v l = l ++ [(k, v)].
Proof.
  induction l as [|[k' x] l IH]; cbn; [reflexivity|]. intros H. destruct (beqb k k') eqn:E; [apply beqb_eq in E; subst; tauto|]. rewrite IH; tauto.
Qed.
Lemma aget_none_notin {A} k (l : list (bytes * A)) : ~ In k (map fst l) -> aget k l = None.
Proof.
  induction l as [|[k' x] l IH]; cbn; [reflexivity|]. intros H. destruct (beqb k k') eqn:E; [apply beqb_eq in E; subst; tauto|]. apply IH. tauto.
Qed.
Lemma aget_in {A} k (l : list (bytes * A)) v : aget k l = Some v -> In k (map fst l).
Proof.
  induction l as [|[k' x] l IH]; cbn; [discriminate|]. destruct (beqb k k') eqn:E; [apply beqb_eq in E; subst; auto|]. intros H. right. now apply IH.
Qed.
Lemma opens_app l m : opens (l ++ m) = (opens l + opens m)%nat.
Proof. unfold opens. now rewrite filter_app, app_length. Qed.
Lemma tOCATAll_total files : forall t t', tOCATAll files t = (Ok tt, t') -> total_fds t' = total_fds t.
Proof.
  induction files as [|e files IH]; intros t t' H; cbn [tOCATAll] in H; [inversion H; subst; reflexivity|].
  unfold tbind in H. destruct (tOCAT _ _ t) as [[[]|er| |] t1] eqn:E; [|discriminate..]. rewrite (IH _ _ H). eapply tOCAT_total; [exact E|exact I].
Qed.
Lemma tOCATAll_opens_count files : forall t t', NoDup (paths files) -> (forall p, In p (paths files) -> is_open (w_lfps (tw_w t)) p = false) -> tOCATAll files t = (Ok tt, t') ->
  (open_count (tw_w t') = open_count (tw_w t) + List.length files)%nat.
Proof.
  induction files as [|e files IH]; intros t t' HN Hp H; cbn [tOCATAll] in H; [inversion H; subst; cbn; lia|].
  unfold tbind in H. destruct (tOCAT _ _ t) as [[[]|er| |] t1] eqn:E; [|discriminate..]. destruct (tOCAT_table _ _ _ _ E) as [i Et].
  cbn [paths map] in HN, Hp. inversion HN as [|? ? Hx HN']; subst. specialize (IH t1 t' HN'). rewrite IH; [|clear IH|exact H].
  - pose proof (opens_aput (eb_local (en_base e)) (mkh i true) (w_lfps (tw_w t))) as Ho. rewrite <- Et, (Hp _ (or_introl eq_refl)) in Ho.
    unfold opens, b1 in Ho. cbn [h_open] in Ho. unfold open_count. cbn [List.length]. lia.
  - intros p Hin. rewrite Et. unfold is_open. rewrite aget_aput_other; [exact (Hp p (or_intror Hin))|]. intros ->. contradiction.
Qed.
(** So many files need so many descriptors. *)
Lemma tOCATAll_needs files t t' : NoDup (paths files) -> (forall p, In p (paths files) -> is_open (w_lfps (tw_w t)) p = false) -> tOCATAll files t = (Ok tt, t') ->
  (List.length files <= tw_free t + tw_lost t)%nat.
Proof.
  intros HN Hp H. pose proof (tOCATAll_total _ _ _ H) as Ht. pose proof (tOCATAll_opens_count _ _ _ HN Hp H) as Hc. unfold total_fds in Ht. lia.
Qed.

(** ** Too few descriptors *)
Lemma tutils_none p L t : no_faults (tw_w t) -> tw_free t = O -> tw_lost t = O -> exists t' e, tutils_OCAT p L t = (Err e, t') /\ tw_w t' = tw_w t.
Proof.
  intros Hn Hf Hl. unfold tutils_OCAT, t_open. rewrite tsyscall_nf by assumption.
  match goal with |- context [with_fd ?b t] => destruct (with_fd_none b t Hf Hl) as (t1 & A1 & A2 & A3 & A4 & ->) end.
  unfold tCreateZeroFilledFile, tbind. destruct (t_mkdirall (Dir p) t1) as [x t2] eqn:Em.
  assert (Ew2 : tw_w t2 = tw_w t1 /\ tw_free t2 = tw_free t1 /\ tw_lost t2 = tw_lost t1 /\ (x = Ok tt \/ x = Err EIO)).
  { unfold t_mkdirall, tbind, embed in Em. rewrite A1, (fault_nf _ Hn) in Em. destruct (mk_dirs _ _ _ _ _) as [ok ds]. inversion Em; subst. rewrite A1. destruct ok; auto. }
  destruct Ew2 as (B1 & B2 & B3 & [->| ->]); [|exists t2, EIO; split; [reflexivity|congruence]].
  unfold t_create. rewrite tsyscall_nf by (unfold no_faults; rewrite B1, A1; exact Hn).
  match goal with |- context [with_fd ?b t2] => destruct (with_fd_none b t2 ltac:(lia) ltac:(lia)) as (t3 & C1 & C2 & C3 & C4 & ->) end.
  exists t3, EIO. split; [reflexivity|congruence].
Qed.
Lemma tOCATAll_short files : forall t, tree_wf t -> clean_entries files -> no_faults (tw_w t) -> lengths_ok files -> fits (isdir t) (isfile t) (places t files) ->
  NoDup (paths files) -> (forall p, In p (paths files) -> is_open (w_lfps (tw_w t)) p = false) -> tw_lost t = O -> (tw_free t < List.length files)%nat ->
  exists t' e, tOCATAll files t = (Err e, t') /\ OCATAll (firstn (tw_free t) files) (tw_w t) = (Ok tt, tw_w t').
Proof.
  induction files as [|e files IH]; intros t Hwf Hcl Hn HL HF HN Hp Hlost Hlen; cbn [List.length] in Hlen; [lia|]. cbn [tOCATAll].
  inversion Hcl as [|? ? Hc1 Hc2]; subst. inversion HL as [|? ? Hl1 Hl2]; subst. cbn [paths map] in HN, Hp. inversion HN as [|? ? Hx HN']; subst.
  destruct (tw_free t) as [|n] eqn:Ef.
  - destruct (tutils_none (eb_local (en_base e)) (en_len e) t Hn Ef Hlost) as (t1 & er & E & Ew). exists t1, er. unfold tbind at 1. unfold tOCAT, tbind. rewrite E. cbn [firstn OCATAll].
    rewrite Ew. split; reflexivity.
  - rewrite (places_cons t t e files eq_refl) in HF. pose proof (proj1 (proj1 (fits_cons _ _ _ _) HF)) as HP.
    destruct (tOCAT_ok _ _ _ Hwf Hc1 Hn HP Hl1 ltac:(lia)) as (t1 & E1 & E2 & Hn1 & Hlost1).
    destruct (tOCAT_eff _ _ _ _ _ Hwf Hc1 E1) as (W1 & G1 & _). pose proof (fits_after _ _ _ _ W1 G1 HF) as HF1.
    pose proof (tOCAT_total _ _ _ _ _ E1 I) as Ht. destruct (tOCAT_table _ _ _ _ E1) as [i Et].
    pose proof (opens_aput (eb_local (en_base e)) (mkh i true) (w_lfps (tw_w t))) as Ho. rewrite <- Et in Ho.
    rewrite (Hp _ (or_introl eq_refl)) in Ho, Hlost1. unfold opens, b1 in Ho. cbn [h_open] in Ho. unfold total_fds, open_count in Ht.
    assert (Ef1 : tw_free t1 = n) by lia.
    destruct (IH t1 W1 Hc2 Hn1 Hl2) as (t2 & er & E3 & E4); [|assumption| |lia|lia|].
    { unfold places, at_place in *. destruct G1 as (-> & _). exact HF1. }
    { intros p Hin. rewrite Et. unfold is_open. rewrite aget_aput_other; [exact (Hp p (or_intror Hin))|]. intros ->. contradiction. }
    exists t2, er. unfold tbind at 1. rewrite E1. split; [assumption|]. cbn [firstn OCATAll]. unfold iobind. rewrite E2. rewrite Ef1 in E4. exact E4.
Qed.

(** ** Closing *)
Lemma tClose_gone p t r t' : tClose p t = (r, t') -> is_open (w_lfps (tw_w t')) p = false /\ (forall q, q <> p -> is_open (w_lfps (tw_w t')) q = is_open (w_lfps (tw_w t)) q) /\
  map fst (w_lfps (tw_w t')) = map fst (w_lfps (tw_w t)) /\ tw_lost t' = tw_lost t.
Proof.
  unfold tClose, Close. destruct (aget p (w_lfps (tw_w t))) as [h|] eqn:E.
  2:{ intros H. inversion H; subst. cbn [tw_w set_w set_fds tw_lost]. unfold is_open. rewrite E. auto. }
  destruct (h_open h) eqn:Eh.
  2:{ intros H. inversion H; subst. cbn [tw_w set_w set_fds tw_lost]. unfold is_open. rewrite E. auto. }
  unfold iobind. destruct (fault (tw_w t)) as [x w1] eqn:Ef. destruct (still_fault _ _ _ Ef) as (_ & _ & Hl & _).
  assert (Hx : exists f, x = Ok f) by (unfold fault in Ef; destruct (w_flt (tw_w t)); inversion Ef; subst; eauto). destruct Hx as [f ->].
  intros H. inversion H; subst. cbn [tw_w set_w set_fds tw_lost w_lfps set_lfps]. rewrite Hl. unfold is_open. rewrite aget_aput_same. split; [reflexivity|]. split; [|split; [|reflexivity]].
  - intros q Hq. now rewrite aget_aput_other by assumption.
  - clear - E. induction (w_lfps (tw_w t)) as [|[k v] l IH]; cbn in *; [discriminate|]. destruct (beqb p k) eqn:Eb; cbn; [apply beqb_eq in Eb; now subst|]. now rewrite IH.
Qed.
Lemma tCloseAll_gone order : forall t t', tCloseAll order t = (Ok tt, t') ->
  (forall p, In p order -> is_open (w_lfps (tw_w t')) p = false) /\ (forall p, is_open (w_lfps (tw_w t)) p = false -> is_open (w_lfps (tw_w t')) p = false) /\
  map fst (w_lfps (tw_w t')) = map fst (w_lfps (tw_w t)) /\ tw_lost t' = tw_lost t /\ total_fds t' = total_fds t.
Proof.
  induction order as [|p order IH]; intros t t' H; cbn [tCloseAll] in H; [inversion H; subst; repeat split; auto; intros p []|].
  unfold tbind in H. destruct (tClose p t) as [x t1] eqn:E. pose proof (tClose_total _ _ _ _ E) as Ht. apply tClose_gone in E. destruct E as (A1 & A2 & A3 & A4).
  destruct x as [[]|er| |]; [|discriminate..]. destruct (IH _ _ H) as (B1 & B2 & B3 & B4 & B5).
  assert (K : forall q, is_open (w_lfps (tw_w t)) q = false -> is_open (w_lfps (tw_w t1)) q = false).
  { intros q Hq. destruct (bytes_dec q p) as [->|Hne]; [exact A1|]. now rewrite A2. }
  repeat split; try congruence; [intros q [<-|Hq]|]; auto.
Qed.
Lemma opens_none l : NoDup (map fst l) -> (forall p, is_open l p = false) -> opens l = O.
Proof.
  induction l as [|[k h] l IH]; intros HN H; [reflexivity|]. cbn in HN. inversion HN as [|? ? Hx HN']; subst. unfold opens. cbn [filter snd].
  pose proof (H k) as Hk. unfold is_open in Hk. cbn in Hk. rewrite beqb_refl in Hk. rewrite Hk. apply IH; [assumption|]. intros p. specialize (H p). unfold is_open in *. cbn in H.
  destruct (beqb p k) eqn:E; [apply beqb_eq in E; subst; now rewrite aget_none_notin|exact H].
Qed.
(** After CloseAll everything is free again except what waits for the collector. *)
Lemma tCloseAll_frees order t t' : keys_once (tw_w t) -> incl (map fst (w_lfps (tw_w t))) order -> tCloseAll order t = (Ok tt, t') ->
  tw_lost t' = tw_lost t /\ (tw_free t' + tw_lost t = total_fds t)%nat.
Proof.
  intros Hk Hi H. destruct (tCloseAll_gone _ _ _ H) as (B1 & B2 & B3 & B4 & B5). split; [assumption|].
  assert (Ho : opens (w_lfps (tw_w t')) = O).
  { apply opens_none; [rewrite B3; exact Hk|]. intros p. unfold is_open at 1. destruct (aget p (w_lfps (tw_w t'))) as [h|] eqn:E; [|reflexivity].
    pose proof (aget_in _ _ _ E) as Hin. rewrite B3 in Hin. specialize (B1 p (Hi p Hin)). unfold is_open in B1. now rewrite E in B1. }
  unfold total_fds in *. unfold open_count in *. unfold opens in Ho. lia.
Qed.

(** ** The paths of a torrent that was loaded are clean. *)
Lemma Join_clean l : clean_path (Join l).
Proof. induction l as [|[|x a] l IH]; [left; reflexivity|exact IH|right; eexists; reflexivity]. Qed.
Lemma loaded_clean sha1 fdata wd tor : FromTorrentFile sha1 fdata wd = Ok tor -> clean_entries (ti_files (t_info tor)).
Proof.
  intros H. unfold FromTorrentFile in H. destruct (Decode fdata) as [d| | |]; cbn [bind] in H; try discriminate. destruct d as [| |dict| |]; try discriminate.
  destruct (GetString dict _) as [an| | |]; cbn [bind] in H; try discriminate. destruct (GetDict dict _) as [info| | |]; cbn [bind] in H; try discriminate.
  destruct (FromDict info wd) as [ti| | |] eqn:HF; cbn [bind] in H; try discriminate. apply Ok_inj in H. subst tor. cbn [t_info].
  unfold FromDict in HF. destruct (GetString info (B "name")) as [name| | |]; cbn [bind] in HF; try discriminate.
  destruct (GetInt info (B "piece length")) as [P| | |]; cbn [bind] in HF; try discriminate.
  destruct (GetString info (B "pieces")) as [hashes| | |]; cbn [bind] in HF; try discriminate.
  destruct (dict_entries info wd name) as [fes| | |] eqn:Ed; cbn [bind] in HF; try discriminate.
  destruct (NewTorInfo_fields _ _ _ _ _ HF) as (_ & _ & _ & _ & Hb & _).
  assert (Hc : Forall (fun b => clean_path (eb_local b)) fes).
  { unfold dict_entries in Ed. destruct (GetInt info (B "length")) as [L|er| |]; try discriminate.
    - apply Ok_inj in Ed; subst fes. constructor; [apply Join_clean|constructor].
    - destruct (GetList info (B "files")) as [files| | |] eqn:Efl; try discriminate.
      destruct (FromBenList files) as [es| | |] eqn:Eb; cbn [bind] in Ed; try discriminate. apply Ok_inj in Ed; subst fes.
      apply Forall_forall. intros b Hin. apply in_map_iff in Hin. destruct Hin as (f & <- & _). apply Join_clean. }
  rewrite <- Hb in Hc. rewrite Forall_map in Hc. exact Hc.
Qed.

(** ** Move *)
Lemma tMove_eff a b t r t' : tree_wf t -> tMove a b t = (r, t') ->
  tree_wf t' /\ tw_dirs t' = tw_dirs t /\ w_cwd (tw_w t') = w_cwd (tw_w t) /\
  (r = Ok tt -> isfile t (at_place t a) /\ ~ isdir t (at_place t b) /\ isdir t (removelast (at_place t b)) /\
    forall x, isfile t' x <-> x = at_place t b \/ isfile t x /\ x <> at_place t a) /\
  (r <> Ok tt -> w_names (tw_w t') = w_names (tw_w t)).
Proof.
  intros Hwf H. assert (K : forall t1, same t t1 -> r <> Ok tt -> t' = t1 -> tree_wf t' /\ tw_dirs t' = tw_dirs t /\ w_cwd (tw_w t') = w_cwd (tw_w t) /\
    (r = Ok tt -> isfile t (at_place t a) /\ ~ isdir t (at_place t b) /\ isdir t (removelast (at_place t b)) /\
      forall x, isfile t' x <-> x = at_place t b \/ isfile t x /\ x <> at_place t a) /\ (r <> Ok tt -> w_names (tw_w t') = w_names (tw_w t))).
  { intros t1 S Hr ->. split; [now apply (same_wf t)|]. destruct S as (A1 & A2 & A3 & A4 & A5). split; [assumption|]. split; [assumption|]. split; [contradiction|auto]. }
  unfold tMove in H. destruct (aget a (w_lfps (tw_w t))) as [h|] eqn:Ea.
  2:{ unfold embed, Move in H. rewrite Ea in H. inversion H; subst. apply (K t); [apply same_refl|discriminate|]. destruct t; reflexivity. }
  destruct (is_dir (tw_dirs t) (at_place t b) || negb (is_dir (tw_dirs t) (removelast (at_place t b)))) eqn:Ed.
  { apply tsyscall_cases in H. destruct H as (t1 & S & [[-> ->]|H]); [now apply (K t1); [|discriminate|]|]. unfold tlift in H. inversion H; subst. apply (K t'); [assumption|discriminate|reflexivity]. }
  apply orb_false_iff in Ed. destruct Ed as [Ed1 Ed2]. apply is_dir_false in Ed1. apply negb_false_iff, is_dir_spec in Ed2.
  unfold embed, Move in H. rewrite Ea in H. unfold syscall, iobind in H. destruct (fault (tw_w t)) as [x w1] eqn:Ef. destruct (still_fault _ _ _ Ef) as (A1 & A2 & A3 & A4).
  assert (Hx : exists f, x = Ok f) by (unfold fault in Ef; destruct (w_flt (tw_w t)); inversion Ef; subst; eauto). destruct Hx as [f ->].
  assert (S : same t (set_w t w1)) by (repeat split; assumption).
  destruct f as [k|]; [inversion H; subst; now apply (K (set_w t w1)); [|discriminate|]|].
  rewrite A1, A2 in H. fold (at_place t a) in H. fold (at_place t b) in H. destruct (pget (at_place t a) (w_names (tw_w t))) as [i|] eqn:Ep.
  2:{ inversion H; subst. now apply (K (set_w t w1)); [|discriminate|]. }
  set (keep := filter _ _) in H. inversion H; subst r t'. clear H K. cbn [tw_dirs set_w tw_w w_cwd]. pose proof Hwf as ((F1 & F2 & F3) & H2 & H3 & H4 & H5 & H6).
  assert (Hk : forall n, In n keep <-> In n (w_names (tw_w t)) /\ fst n <> at_place t a /\ fst n <> at_place t b).
  { intros n. unfold keep. rewrite filter_In, andb_true_iff, !negb_true_iff. split; intros (Hin & B1 & B2); (split; [exact Hin|]); split.
    - intros E. apply place_eqb_spec in E. congruence.
    - intros E. apply place_eqb_spec in E. congruence.
    - destruct (place_eqb _ _) eqn:E; [apply place_eqb_spec in E; contradiction|reflexivity].
    - destruct (place_eqb (fst n) (at_place t b)) eqn:E; [apply place_eqb_spec in E; contradiction|reflexivity]. }
  assert (Hsub : forall (l : list (list bytes * nat)) f, NoDup (map fst l) -> NoDup (map fst (filter f l))).
  { clear. intros l f. induction l as [|n l IH]; cbn; intros HN; [constructor|]. inversion HN; subst. destruct (f n); cbn; [|auto]. constructor; [|auto].
    intros Hin. apply in_map_iff in Hin. destruct Hin as (m & E & Hm). apply filter_In in Hm. apply H1. rewrite <- E. apply in_map, Hm. }
  assert (Hsub2 : forall (l : list (list bytes * nat)) f, NoDup (map snd l) -> NoDup (map snd (filter f l))).
  { clear. intros l f. induction l as [|n l IH]; cbn; intros HN; [constructor|]. inversion HN; subst. destruct (f n); cbn; [|auto]. constructor; [|auto].
    intros Hin. apply in_map_iff in Hin. destruct Hin as (m & E & Hm). apply filter_In in Hm. apply H1. rewrite <- E. apply in_map, Hm. }
  pose proof (pget_in _ _ _ Ep) as Hai.
  assert (Hfiles : forall y, In y (map fst (keep ++ [(at_place t b, i)])) <-> y = at_place t b \/ isfile t y /\ y <> at_place t a).
  { intros y. rewrite map_app, in_app_iff, in_map_iff. cbn [map fst In]. split.
    - intros [(n & <- & Hn)|[<-|[]]]; [|auto]. apply Hk in Hn. right. split; [apply in_map, Hn|apply Hn].
    - intros [->|[Hy Hne]]; [auto|]. apply in_map_iff in Hy. destruct Hy as (n & <- & Hn). destruct (list_eq_dec bytes_dec (fst n) (at_place t b)) as [E|E]; [auto|].
      left. exists n. split; [reflexivity|]. apply Hk. auto. }
  assert (Hb : at_place t b <> []) by (intros E; apply Ed1; rewrite E; exact H2). destruct (removelast_split _ Hb) as [z Ez].
  split; [|split; [reflexivity|split; [reflexivity|split; [|intros Hne; now contradiction Hne]]]].
  - unfold tree_wf, isdir, isfile. cbn [tw_dirs set_w tw_w w_cwd w_names w_inos]. split; [|split; [assumption|split; [assumption|split; [exact H4|split]]]].
    + unfold fs_wf. cbn [w_names w_inos]. rewrite !map_app, A4. split; [|split].
      * apply nodup_snoc; [now apply Hsub|]. intros Hin. apply in_map_iff in Hin. destruct Hin as (n & E & Hn). apply Hk in Hn. tauto.
      * apply nodup_snoc; [now apply Hsub2|]. intros Hin. apply in_map_iff in Hin. destruct Hin as (n & E & Hn). apply Hk in Hn. destruct Hn as (Hn & Hna & _). apply Hna.
        destruct n as [q j]. cbn in E. subst j. cbn. eapply nodup_snd; [exact F2|exact Hn|exact Hai].
      * apply Forall_app. rewrite Forall_forall in F3. split; [apply Forall_forall; intros n Hn; apply Hk in Hn; apply F3, Hn|]. repeat constructor. exact (F3 _ Hai).
    + intros y d Hy Hd. apply Hfiles in Hy. destruct Hy as [->|[Hy _]]; [|exact (H5 y d Hy Hd)]. rewrite Ez in Hd. apply below_snoc in Hd. destruct Hd as [->|Hd]; [exact Ed2|exact (H4 _ _ Ed2 Hd)].
    + intros y Hy. apply Hfiles in Hy. destruct Hy as [->|[Hy _]]; [exact Ed1|exact (H6 y Hy)].
  - intros _. split; [apply isfile_pget; eauto|]. split; [exact Ed1|]. split; [exact Ed2|]. exact Hfiles.
Qed.
Lemma tMove_works a b t h : no_faults (tw_w t) -> aget a (w_lfps (tw_w t)) = Some h -> isfile t (at_place t a) -> ~ isdir t (at_place t b) -> isdir t (removelast (at_place t b)) ->
  exists t', tMove a b t = (Ok tt, t').
Proof.
  intros Hn Ha Hf Hd Hp. unfold tMove. rewrite Ha. apply is_dir_false in Hd. apply is_dir_spec in Hp. rewrite Hd, Hp. cbn [orb negb]. unfold embed, Move. rewrite Ha.
  rewrite syscall_ok by (rewrite Hn; exact I). rewrite no_flt_id by assumption. apply isfile_pget in Hf. destruct Hf as [i Hi]. unfold at_place in Hi. rewrite Hi. eexists. reflexivity.
Qed.
Lemma tClose_same p t r t' : tClose p t = (r, t') -> w_cwd (tw_w t') = w_cwd (tw_w t) /\ w_names (tw_w t') = w_names (tw_w t) /\ w_inos (tw_w t') = w_inos (tw_w t) /\ tw_dirs t' = tw_dirs t.
Proof.
  unfold tClose, Close. destruct (aget p (w_lfps (tw_w t))) as [h|]; [destruct (h_open h)|]; intros H; try (inversion H; subst; auto; fail).
  unfold iobind, fault in H. destruct (w_flt (tw_w t)); inversion H; subst; auto.
Qed.
(** The tree stays one, and no directory goes away. *)
Lemma calls_tree cs : forall t rs t', tree_wf t -> Forall clean_call cs -> calls cs t = (rs, t') -> tree_wf t' /\ w_cwd (tw_w t') = w_cwd (tw_w t) /\ (forall x, isdir t x -> isdir t' x).
Proof.
  induction cs as [|c cs IH]; intros t rs t' Hwf Hc H; cbn [calls] in H; [inversion H; subst; auto|]. inversion Hc as [|? ? Hc1 Hc2]; subst.
  destruct (do_call c t) as [x t1] eqn:E. assert (K : tree_wf t1 /\ w_cwd (tw_w t1) = w_cwd (tw_w t) /\ (forall x, isdir t x -> isdir t1 x)).
  { destruct c as [p l|p|a b]; cbn [do_call] in E.
    - destruct (tOCAT_eff _ _ _ _ _ Hwf Hc1 E) as (W & (G1 & _ & _ & G4 & _) & _). auto.
    - apply tClose_same in E. destruct E as (A1 & A2 & A3 & A4). split; [|split; [assumption|unfold isdir; now rewrite A4]].
      destruct Hwf as (H1 & H2 & H3 & H4 & H5 & H6). unfold tree_wf, isdir, isfile in *. rewrite A1, A2, A4. split; [apply (fs_wf_same_names (tw_w t)); [assumption|now rewrite A3|assumption]|auto].
    - destruct (tMove_eff _ _ _ _ _ Hwf E) as (W & D & C & _). split; [assumption|]. split; [assumption|]. unfold isdir. now rewrite D. }
  destruct K as (W1 & C1 & D1). assert (J : forall xs t2, calls cs t1 = (xs, t2) -> tree_wf t2 /\ w_cwd (tw_w t2) = w_cwd (tw_w t) /\ (forall x, isdir t x -> isdir t2 x)).
  { intros xs t2 E2. destruct (IH _ _ _ W1 Hc2 E2) as (W2 & C2 & D2). split; [assumption|]. split; [congruence|]. auto. }
  destruct x as [u|e| |]; [destruct (calls cs t1) as [xs t2] eqn:E2; inversion H; subst; eapply J; reflexivity..|inversion H; subst; auto|inversion H; subst; auto].
Qed.
