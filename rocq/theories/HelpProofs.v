(** HelpProofs.v: lemmas for C120. *)
From Coq Require Import ZifyBool ZifyNat ZifyN.
From Verif Require Import Base BencodeModel PathModel PathSpec PathProofs LayoutModel LayoutProofs FsModel FsSpec FsProofs OcatProofs TreeModel TreeSpec TreeSimProofs TreeProofs TreeTopProofs HelpModel HelpSpec.

(** ** Places *)
Lemma place_eqb_iff a b : place_eqb a b = true <-> a = b.
Proof. unfold place_eqb. destruct (list_eq_dec bytes_dec a b); split; congruence. Qed.
Lemma under_iff q x : under q x = true <-> within q x.
Proof.
  unfold under, within. rewrite place_eqb_iff. split.
  - intros H. pose proof (firstn_skipn (List.length q) x) as E. rewrite H in E. destruct (skipn (List.length q) x) as [|y r]; [left; rewrite app_nil_r in E; auto|]. right. exists (y :: r). split; [discriminate|auto].
  - intros [->|(ns & _ & ->)]; [apply firstn_all|]. rewrite firstn_app, Nat.sub_diag, firstn_all. cbn. apply app_nil_r.
Qed.
Lemma pget_filter {A} (g : list bytes -> bool) q (m : list (list bytes * A)) : g q = true -> pget q (filter (fun n => g (fst n)) m) = pget q m.
Proof.
  intros Hg. induction m as [|[k v] m IH]; [reflexivity|]. cbn [filter fst]. destruct (g k) eqn:E; cbn [pget]; [now rewrite IH|]. destruct (place_eqb q k) eqn:Ek; [|exact IH].
  apply place_eqb_iff in Ek. congruence.
Qed.
Lemma in_filter_fst {A} (g : list bytes -> bool) q (m : list (list bytes * A)) : In q (map fst (filter (fun n => g (fst n)) m)) <-> In q (map fst m) /\ g q = true.
Proof.
  rewrite !in_map_iff. split.
  - intros ([k v] & E & H). apply filter_In in H. cbn in *. subst k. destruct H. split; [exists (q, v); auto|assumption].
  - intros [([k v] & E & H) Hg]. cbn in E. subst k. exists (q, v). split; [reflexivity|]. apply filter_In. auto.
Qed.
Lemma within_below q x y : within q x -> below x y -> within q y.
Proof. intros [->|H] Hb; right; [exact Hb|exact (below_trans _ _ _ H Hb)]. Qed.
Lemma noslash_plain ns : Forall plain_name ns -> Forall noslash ns.
Proof. apply Forall_impl. intros a H. apply H. Qed.
Lemma names_split c ns p : names_path c ns p -> split_slash p = c :: ns.
Proof. intros [H ->]. apply split_join; [discriminate|apply noslash_plain, H]. Qed.
Lemma names_place cwd c ns p : names_path c ns p -> place cwd p = cwd ++ c :: ns.
Proof.
  intros H. unfold place. rewrite (names_split _ _ _ H). destruct H as [H ->]. rewrite rooted_join; [apply follow_names, H|apply noslash_plain, H|]. eapply Forall_impl; [|exact H]. intros a Ha. apply Ha.
Qed.
Lemma clean_names root : forall ts out, Forall plain_name ts -> clean_loop root ts out = rev out ++ ts.
Proof.
  induction ts as [|t ts IH]; intros out H; cbn [clean_loop]; [now rewrite app_nil_r|]. pose proof (Forall_inv H) as (H1 & H2 & H3 & _). apply Forall_inv_tail in H.
  apply beqb_neq in H1, H2, H3. rewrite H1, H2, H3. cbn [orb]. rewrite IH by assumption. cbn [rev]. now rewrite <- app_assoc.
Qed.
Lemma names_clean c ns p : names_path c ns p -> clean_path p.
Proof.
  intros H. right. exists p. unfold Clean. rewrite (names_split _ _ _ H). destruct H as [H ->]. rewrite rooted_join; [|apply noslash_plain, H|eapply Forall_impl; [|exact H]; intros a Ha; apply Ha].
  rewrite clean_names by assumption. reflexivity.
Qed.

(** ** RemoveAll *)
Definition keep (g : list bytes -> bool) (t : tworld) : tworld :=
  set_dirs (set_w t (mkw (w_cwd (tw_w t)) (filter (fun n => g (fst n)) (w_names (tw_w t))) (w_inos (tw_w t)) (w_flt (tw_w t)) (w_lfps (tw_w t)))) (filter g (tw_dirs t)).
Lemma keep_dir g t x : isdir (keep g t) x <-> isdir t x /\ g x = true.
Proof. apply filter_In. Qed.
Lemma keep_file g t x : isfile (keep g t) x <-> isfile t x /\ g x = true.
Proof. apply in_filter_fst. Qed.
Lemma keep_content g t x : g x = true -> content_at (keep g t) x = content_at t x.
Proof. intros H. unfold content_at. cbn [keep tw_w set_w set_dirs w_names w_inos]. now rewrite pget_filter. Qed.
Lemma place_name t c : plain_name c -> at_place t c = w_cwd (tw_w t) ++ [c].
Proof. intros Hc. apply (names_place _ c [] c). split; [constructor; [exact Hc|constructor]|reflexivity]. Qed.
Lemma embed_fault_nf t : no_faults (tw_w t) -> embed fault t = (Ok None, t).
Proof. intros H. unfold embed. rewrite (fault_nf _ H). destruct t; reflexivity. Qed.
Lemma remove_is surv c t : no_faults (tw_w t) -> plain_name c -> RemoveAll surv c t = (Ok tt, keep (fun x => negb (under (w_cwd (tw_w t) ++ [c]) x) || false || false) t).
Proof.
  intros Hn Hc. rewrite <- (place_name t c Hc). pose proof Hc as (H1 & H2 & H3 & H4). apply beqb_neq in H1, H2, H3. unfold RemoveAll. rewrite H1, H2. unfold tbind. rewrite (embed_fault_nf _ Hn), H3. reflexivity.
Qed.
Lemma remove_plain surv c t : no_faults (tw_w t) -> plain_name c -> exists t', RemoveAll surv c t = (Ok tt, t') /\
  same_but (within (w_cwd (tw_w t) ++ [c])) t t' /\ empty_at (within (w_cwd (tw_w t) ++ [c])) t' /\ tw_free t' = tw_free t /\ tw_lost t' = tw_lost t.
Proof.
  intros Hn Hc. eexists. split; [apply (remove_is _ _ _ Hn Hc)|]. set (q := w_cwd (tw_w t) ++ [c]). set (g := fun x => negb (under q x) || false || false).
  assert (HL : forall x, g x = true <-> ~ within q x).
  { intros x. unfold g. rewrite <- under_iff. destruct (under q x); cbn; intuition discriminate. }
  split; [|split; [|split; reflexivity]].
  - split; [reflexivity|]. intros x Hx. apply HL in Hx. rewrite keep_dir, keep_file, keep_content by exact Hx. tauto.
  - intros x Hx. rewrite keep_dir, keep_file, HL. tauto.
Qed.
Lemma nodup_filter_map {A C} (h : A -> C) (g : A -> bool) l : NoDup (map h l) -> NoDup (map h (filter g l)).
Proof.
  induction l as [|a l IH]; cbn; intros H; [constructor|]. inversion H; subst. destruct (g a); cbn; [|auto]. constructor; [|auto].
  intros Hin. apply in_map_iff in Hin. destruct Hin as (b & E & Hb). apply filter_In in Hb. apply H2. apply in_map_iff. exists b. tauto.
Qed.
Lemma keep_fs_wf g t : fs_wf (tw_w t) -> fs_wf (tw_w (keep g t)).
Proof.
  intros (H1 & H2 & H3). unfold fs_wf. cbn [keep tw_w set_w set_dirs w_names w_inos]. split; [now apply nodup_filter_map|]. split; [now apply nodup_filter_map|].
  rewrite Forall_forall in *. intros n Hn. apply filter_In in Hn. now apply H3.
Qed.
Lemma keep_wf g t : tree_wf t -> g [] = true -> g (w_cwd (tw_w t)) = true -> (forall x d, below d x -> g x = true -> g d = true) -> tree_wf (keep g t).
Proof.
  intros (H1 & H2 & H3 & H4 & H5 & H6) G0 Gc Gb. split; [apply keep_fs_wf, H1|]. rewrite !keep_dir. split; [auto|]. split; [auto|]. split; [|split].
  - intros q d Hq Hb. rewrite keep_dir in *. split; [now apply (H4 q)|apply (Gb q); tauto].
  - intros q d Hq Hb. rewrite keep_dir, keep_file in *. split; [now apply (H5 q)|apply (Gb q); tauto].
  - intros q Hq. rewrite keep_dir, keep_file in *. intros [Hd _]. apply (H6 q); tauto.
Qed.
Lemma not_within_cwd cwd c : ~ within (cwd ++ [c]) cwd.
Proof. intros [H|(ns & _ & H)]; apply (f_equal (@List.length _)) in H; rewrite !app_length in H; cbn in H; lia. Qed.
Lemma remove_tree surv c t t' : tree_wf t -> no_faults (tw_w t) -> plain_name c -> RemoveAll surv c t = (Ok tt, t') -> tree_wf t'.
Proof.
  intros Hwf Hn Hc H. rewrite (remove_is _ _ _ Hn Hc) in H. injection H as <-. set (q := w_cwd (tw_w t) ++ [c]).
  assert (HL : forall x, negb (under q x) || false || false = true <-> ~ within q x).
  { intros x. rewrite <- under_iff. destruct (under q x); cbn; intuition discriminate. }
  apply keep_wf; [exact Hwf|apply HL|apply HL|].
  - intros [H|(ns & _ & H)]; unfold q in H; destruct (w_cwd (tw_w t)); discriminate.
  - apply not_within_cwd.
  - intros x d Hb. rewrite !HL. intros Hx Hd. apply Hx. exact (within_below _ _ _ Hd Hb).
Qed.

(** ** CleanUpTestFile *)
Lemma clean_first surv p : exists c r, split_slash p = c :: r /\ CleanUpTestFile surv p = RemoveAll surv c.
Proof. unfold CleanUpTestFile. destruct (split_slash p) as [|c r] eqn:E; [exfalso; exact (split_nonempty p E)|eauto]. Qed.
Lemma clean_absolute surv p t : CleanUpTestFile surv (slash :: p) t = (Ok tt, t).
Proof. reflexivity. Qed.
Lemma clean_dot surv p t : CleanUpTestFile surv (B "./" ++ p) t = (Err EIO, t).
Proof. reflexivity. Qed.
Lemma clean_up surv p t : no_faults (tw_w t) -> exists t', CleanUpTestFile surv (B "../" ++ p) t = (Err EIO, t') /\
  let d := removelast (w_cwd (tw_w t)) in same_but (below d) t t' /\ empty_at (below d) t'.
Proof.
  intros Hn. unfold CleanUpTestFile. cbn [split_slash B app Byte.eqb]. change (split_slash (B "../" ++ p)) with (dotdot :: split_slash p). cbv iota beta.
  unfold RemoveAll. change (beqb dotdot []) with false. change (beqb dotdot dot) with false. change (beqb dotdot dotdot) with true. cbv iota.
  unfold tbind. rewrite (embed_fault_nf _ Hn). cbv zeta. eexists. split; [reflexivity|]. change (at_place t dotdot) with (removelast (w_cwd (tw_w t))). set (q := removelast (w_cwd (tw_w t))).
  set (g := fun x => negb (under q x) || true && place_eqb x q || false).
  assert (HL : forall x, g x = true <-> ~ below q x).
  { intros x. unfold g. cbn [andb]. rewrite orb_false_r, orb_true_iff, negb_true_iff, place_eqb_iff. pose proof (under_iff q x) as U. destruct (under q x).
    - split; [intros [?| ->]; [discriminate|apply below_irrefl]|]. intros Hx. destruct (proj1 U eq_refl); [auto|contradiction].
    - split; [|auto]. intros _ Hb. assert (false = true) by (apply U; right; exact Hb). discriminate. }
  match goal with |- same_but _ _ ?t1 /\ _ => change t1 with (keep g t) end. split.
  - split; [reflexivity|]. intros x Hx. apply HL in Hx. rewrite keep_dir, keep_file, keep_content by exact Hx. tauto.
  - intros x Hx. rewrite keep_dir, keep_file, HL. tauto.
Qed.

(** Whatever fails, what is outside stays as it is. *)
Lemma remove_outside surv c t r t' : plain_name c -> RemoveAll surv c t = (r, t') -> same_but (within (w_cwd (tw_w t) ++ [c])) t t' /\ (r = Ok tt -> empty_at (within (w_cwd (tw_w t) ++ [c])) t') /\ idle t' = idle t.
Proof.
  intros Hc H. pose proof Hc as (H1 & H2 & H3 & H4). apply beqb_neq in H1, H2, H3. unfold RemoveAll in H. rewrite H1, H2 in H. unfold tbind in H. destruct (embed fault t) as [x t1] eqn:E.
  assert (Hx : exists f, x = Ok f) by (unfold embed, fault in E; destruct (w_flt (tw_w t)); inversion E; subst; eauto). destruct Hx as [f ->].
  assert (T : w_cwd (tw_w t1) = w_cwd (tw_w t) /\ w_names (tw_w t1) = w_names (tw_w t) /\ w_inos (tw_w t1) = w_inos (tw_w t) /\ tw_dirs t1 = tw_dirs t /\ idle t1 = idle t).
  { unfold embed, fault in E. destruct (w_flt (tw_w t)); inversion E; subst; repeat split. } destruct T as (T1 & T2 & T3 & T4 & T5).
  rewrite H3 in H. cbv zeta in H. rewrite (place_name t1 c Hc), T1 in H. set (q := w_cwd (tw_w t) ++ [c]) in *.
  set (g := fun x => negb (under q x) || false && place_eqb x q || match f with Some _ => surv x | None => false end) in *.
  assert (Et : t' = keep g t1) by (injection H as _ <-; unfold keep; rewrite T1; reflexivity).
  assert (HL : forall x, ~ within q x -> g x = true).
  { intros y Hy. unfold g. rewrite <- under_iff in Hy. destruct (under q y); [contradiction Hy; reflexivity|reflexivity]. }
  assert (S : forall y, (isdir t1 y <-> isdir t y) /\ (isfile t1 y <-> isfile t y) /\ content_at t1 y = content_at t y) by (intros y; unfold isdir, isfile, content_at; rewrite T2, T3, T4; tauto).
  subst t'. split; [|split].
  - split; [exact T1|]. intros y Hy. apply HL in Hy. rewrite keep_dir, keep_file, keep_content by exact Hy. destruct (S y) as (A1 & A2 & A3). tauto.
  - intros Hr y Hy. destruct f; [injection H as <-; discriminate|]. rewrite keep_dir, keep_file. unfold g. apply under_iff in Hy. rewrite Hy. cbn. intuition discriminate.
  - exact T5.
Qed.

(** ** WriteTestFile *)
Lemma fault_ok t x t1 : embed fault t = (x, t1) -> exists f, x = Ok f.
Proof. unfold embed, fault. destruct (w_flt (tw_w t)); intros E; inversion E; subst; eauto. Qed.
Lemma create_went p t r t' : t_create p t = (r, t') -> went r.
Proof.
  unfold t_create, tsyscall. unfold tbind at 1. destruct (embed fault t) as [x t1] eqn:E. apply fault_ok in E. destruct E as [[k|] ->]; [intros H; injection H as <- _; exact I|].
  unfold with_fd, tbind. destruct (collect t1) as [y t2] eqn:E. apply collect_w in E. destruct E as [-> _]. destruct (tw_free t2); [intros H; injection H as <- _; exact I|]. cbv zeta.
  destruct (is_dir _ _); [|destruct (pget _ _); [|destruct (is_dir _ _)]]; intros H; injection H as <- _; exact I.
Qed.
Lemma oswrite_went i off d w r w' : os_write i off d w = (r, w') -> went r.
Proof. unfold os_write, iobind, fault. destruct (w_flt w) as [|[k|] fl]; cbn; intros H; injection H as <- _; exact I. Qed.
Lemma write_eff p data t r t' : tree_wf t -> clean_path p -> WriteTestFile p data t = (r, t') ->
  tree_wf t' /\ grown (at_place t p) t t' /\ (r = Ok tt -> can_put t (at_place t p) /\ isfile t' (at_place t p)) /\ total_fds t' = total_fds t.
Proof.
  intros Hwf Hcl H. unfold WriteTestFile in H. unfold tbind at 1 in H. set (q := at_place t p). pose proof Hwf as (H1 & H2 & H3 & H4 & H5 & H6).
  destruct (t_mkdirall (Dir p) t) as [x t1] eqn:E1.
  assert (Hup : forall y, y = at_place t (Dir p) \/ below y (at_place t (Dir p)) -> below y q \/ isdir t y).
  { destruct (clean_parent t p H2 H3 H4 Hcl) as [[_ Hd]|[nm Hnm]].
    - intros y [->|Hy]; right; [exact Hd|]. exact (H4 _ _ Hd Hy).
    - intros y Hy. left. unfold q. rewrite Hnm. apply below_snoc. exact Hy. }
  assert (TF : forall a b, idle b = idle a -> w_lfps (tw_w b) = w_lfps (tw_w a) -> total_fds b = total_fds a) by (intros a b I L; unfold total_fds, idle, open_count in *; rewrite L; lia).
  assert (GG : forall b, grows q t b -> grown q t b) by (intros b (A1 & A2 & A3 & A4 & A5 & A6); repeat split; assumption).
  assert (I1 : idle t1 = idle t) by exact (t_mkdirall_idle _ _ _ _ E1).
  destruct (t_mkdirall_eff _ _ _ _ q Hwf Hup E1) as (W1 & G1 & _ & _ & _).
  assert (L1 : w_lfps (tw_w t1) = w_lfps (tw_w t)) by apply G1.
  assert (Y : exists u, x = Ok u \/ exists e, x = Err e).
  { unfold t_mkdirall, tbind in E1. destruct (embed fault t) as [y t0] eqn:E0. assert (exists f, y = Ok f) as [f ->] by (unfold embed, fault in E0; destruct (w_flt (tw_w t)); inversion E0; subst; eauto).
    destruct (mk_dirs _ _ _ _ _) as [[|] ds]; injection E1 as <- _; exists tt; eauto. }
  destruct Y as [[] [->|[e ->]]]; [|injection H as <- <-; split; [assumption|]; split; [apply GG, G1|]; split; [discriminate|apply TF; assumption]].
  unfold tbind at 1 in H. destruct (t_create p t1) as [y t2] eqn:E2. pose proof (create_went _ _ _ _ E2) as Wy. pose proof (t_create_costs _ _ _ _ E2) as I2. pose proof (kt_create p _ _ _ E2) as L2.
  apply t_create_eff in E2; [|assumption]. rewrite (grows_at _ _ _ p G1) in E2. fold q in E2. destruct E2 as (W2 & G2 & R2). pose proof (grows_trans _ _ _ _ G1 G2) as G.
  destruct y as [j|e| |].
  2:{ injection H as <- <-. split; [assumption|]. split; [apply GG, G|]. split; [discriminate|]. apply TF; [cbn in I2; lia|congruence]. }
  2,3: contradiction (Wy).
  destruct (R2 j eq_refl) as (R3 & R4 & R5). unfold tbind at 1 in H. destruct (losing (embed (os_write j 0 data)) t2) as [z t3] eqn:E3.
  assert (S3 : same t2 t3) by (eapply same_losing; [|exact E3]; intros; eapply same_embed; [apply still_write|eassumption]).
  assert (I3 := losing_idle _ _ _ _ (fun x0 t0 E => embed_idle _ _ _ _ E) E3). cbn in I2.
  assert (L3 : w_lfps (tw_w t3) = w_lfps (tw_w t2)) by apply S3. pose proof (same_wf _ _ S3 W2) as W3. pose proof (grows_trans _ _ _ _ G (same_grows q _ _ S3)) as G3.
  assert (CF : can_put t q /\ isfile t3 q).
  { split; [split|].
    - intros Hd. apply R3. destruct G1 as (_ & _ & _ & _ & K & _). apply K, Hd.
    - intros d Hd Hf. specialize (R5 d Hd). destruct W2 as (_ & _ & _ & _ & _ & W6). destruct G as (_ & _ & F1 & _). exact (W6 d (F1 d Hf) R5).
    - unfold isfile. destruct S3 as (_ & -> & _). exact R4. }
  assert (Wz : went z). { unfold losing, embed in E3. destruct (os_write j 0 data (tw_w t2)) as [a w3] eqn:Eo. apply oswrite_went in Eo. destruct a; inversion E3; subst; auto. }
  destruct z as [[]|e| |]; [| |contradiction Wz..].
  2:{ injection H as <- <-. split; [assumption|]. split; [apply GG, G3|]. split; [discriminate|]. apply TF; [lia|congruence]. }
  unfold close_fd, tbind in H. destruct (embed fault t3) as [f t4] eqn:E4. pose proof (same_embed _ _ _ _ still_fault E4) as S4. pose proof (embed_idle _ _ _ _ E4) as I4. apply fault_ok in E4. destruct E4 as [k ->].
  injection H as Hr <-. pose proof (same_wf _ _ S4 W3) as W4. pose proof (grows_trans _ _ _ _ G3 (same_grows q _ _ S4)) as G4.
  split; [exact W4|]. split; [apply GG; exact G4|]. split.
  - intros _. split; [apply CF|]. unfold isfile. cbn [tw_w set_fds]. destruct S4 as (_ & -> & _). apply CF.
  - apply TF; [unfold idle in *; cbn [tw_free tw_lost set_fds]; lia|]. cbn [tw_w set_fds]. apply G4.
Qed.
(** Without failures it works whenever the file can be put there. *)
Lemma lupd_eq {A} (l : list A) i x : (i < List.length l)%nat -> nth_error (lupd l i x) i = Some x.
Proof. revert i. induction l as [|a l IH]; intros [|i] H; cbn in *; try lia; [reflexivity|apply IH; lia]. Qed.
Lemma lupd_ne {A} (l : list A) i j x : i <> j -> nth_error (lupd l i x) j = nth_error l j.
Proof. revert i j. induction l as [|a l IH]; intros [|i] [|j] H; cbn; try reflexivity; try congruence. apply IH. congruence. Qed.
Lemma pwrite_empty d : pwrite [] 0 d = d.
Proof. destruct d as [|b d]; [reflexivity|]. unfold pwrite. change (Z.to_nat 0) with 0%nat. change (zeros (0 - zlen (@nil byte))) with (@nil byte). cbn [firstn app Nat.add]. rewrite skipn_nil, app_nil_r. reflexivity. Qed.
Lemma oswrite_nf i d w : no_faults w -> nth_error (w_inos w) i = Some [] -> os_write i 0 d w = (Ok tt, set_inos w (lupd (w_inos w) i d)).
Proof. intros Hn Hi. unfold os_write, iobind. rewrite (fault_nf _ Hn). unfold content, put_content. assert (E : nth i (w_inos w) ([] : bytes) = []) by (apply nth_error_nth; exact Hi). cbv beta iota zeta. cbn [fst snd]. change (@nil byte) with ([] : bytes) in E. rewrite E, pwrite_empty. reflexivity. Qed.
Lemma create_puts p t : tree_wf t -> no_faults (tw_w t) -> (0 < tw_free t)%nat -> ~ isdir t (at_place t p) -> (isfile t (at_place t p) \/ isdir t (removelast (at_place t p))) ->
  exists i t', t_create p t = (Ok i, t') /\ no_faults (tw_w t') /\ w_cwd (tw_w t') = w_cwd (tw_w t) /\ pget (at_place t p) (w_names (tw_w t')) = Some i /\ nth_error (w_inos (tw_w t')) i = Some [] /\
    (forall x, x <> at_place t p -> content_at t' x = content_at t x).
Proof.
  intros Hwf Hn Hf Hd Hr. unfold t_create. rewrite tsyscall_nf by assumption.
  match goal with |- context [with_fd ?b t] => destruct (with_fd_some b t Hf) as (t1 & A1 & A2 & A3 & A4 & ->) end.
  cbv beta zeta. unfold at_place, isdir in *. rewrite A1, A2. apply is_dir_false in Hd. rewrite Hd. set (q := place (w_cwd (tw_w t)) p) in *. destruct Hwf as (Hfs & _).
  destruct (pget q (w_names (tw_w t))) as [i|] eqn:Hp.
  - exists i. eexists. split; [reflexivity|]. cbn [tw_w set_fds set_w set_inos w_flt w_cwd w_names w_inos]. split; [exact Hn|]. split; [reflexivity|]. split; [exact Hp|].
    pose proof (fs_wf_bound _ _ _ Hfs Hp) as Hb. split; [apply lupd_eq, Hb|]. intros x Hx. unfold content_at. cbn [tw_w set_fds set_w set_inos w_names w_inos]. destruct (pget x (w_names (tw_w t))) as [j|] eqn:Ej; [|reflexivity].
    apply lupd_ne. intros <-. apply Hx. exact (fs_wf_inj _ _ _ _ Hfs Ej Hp).
  - destruct Hr as [Hr|Hr]; [apply isfile_pget in Hr; destruct Hr as [i Hi]; congruence|]. apply is_dir_spec in Hr. rewrite Hr. eexists _, _. split; [reflexivity|].
    cbn [tw_w set_fds set_w w_flt w_cwd w_names w_inos]. split; [exact Hn|]. split; [reflexivity|]. split; [now apply pget_app_new|]. split; [rewrite nth_error_app2, Nat.sub_diag by lia; reflexivity|].
    intros x Hx. unfold content_at. cbn [tw_w set_fds set_w w_names w_inos]. rewrite pget_app_other by exact Hx. destruct (pget x (w_names (tw_w t))) as [j|] eqn:Ej; [|reflexivity].
    apply nth_error_app1. exact (fs_wf_bound _ _ _ Hfs Ej).
Qed.
Lemma write_ok p data t : tree_wf t -> clean_path p -> no_faults (tw_w t) -> (0 < tw_free t)%nat -> can_put t (at_place t p) ->
  exists t', WriteTestFile p data t = (Ok tt, t') /\ content_at t' (at_place t p) = Some data /\ (forall x, x <> at_place t p -> content_at t' x = content_at t x) /\ no_faults (tw_w t').
Proof.
  intros Hwf Hcl Hn Hf [Hd Hup]. pose proof Hwf as (H1 & H2 & H3 & H4 & H5 & H6). unfold WriteTestFile. unfold tbind at 1.
  destruct (t_mkdirall (Dir p) t) as [x t1] eqn:Em.
  destruct (clean_parent t p H2 H3 H4 Hcl) as [[Hc _]|[nm Ep]]; [contradiction|].
  destruct (t_mkdirall_eff _ _ _ _ (at_place t p) Hwf ltac:(intros y Hy; left; rewrite Ep; apply below_snoc; exact Hy) Em) as (W2 & G2 & D2 & K2 & N2).
  assert (Hx : x = Ok tt). { apply K2; [exact Hn|]. intros y Hy. apply Hup. rewrite Ep. apply below_snoc. exact Hy. }
  subst x. specialize (D2 eq_refl).
  assert (Ew : tw_w t1 = tw_w t /\ tw_free t1 = tw_free t).
  { unfold t_mkdirall, tbind in Em. rewrite (embed_fault_nf _ Hn) in Em. destruct (mk_dirs _ _ _ _ _) as [ok ds]. injection Em as _ <-. auto. } destruct Ew as (Ew & Ef).
  pose proof (grows_at _ _ _ p G2) as Ea.
  destruct (create_puts p t1 W2) as (i & t2 & C1 & C2 & C3 & C4 & C5 & C6); rewrite ?Ea.
  { rewrite Ew. exact Hn. } { lia. }
  { intros Hdd. destruct G2 as (_ & _ & _ & _ & _ & G). destruct (G _ Hdd) as [Hdd'|Hb]; [contradiction|exact (below_irrefl _ Hb)]. }
  { right. rewrite Ep, removelast_last. exact D2. }
  rewrite Ea in *. unfold tbind at 1. rewrite C1. unfold tbind at 1. unfold losing. unfold embed at 1. rewrite (oswrite_nf _ _ _ C2 C5). cbv iota beta. unfold close_fd, tbind. rewrite embed_fault_nf by exact C2. eexists. split; [reflexivity|]. cbn [tw_w set_fds set_w set_inos w_flt].
  assert (Hb : (i < List.length (w_inos (tw_w t2)))%nat) by (apply nth_error_Some; congruence).
  split; [|split; [|exact C2]].
  - unfold content_at. cbn [tw_w set_fds set_w set_inos w_names w_inos]. rewrite C4. apply lupd_eq, Hb.
  - intros y Hy. transitivity (content_at t2 y).
    + unfold content_at. cbn [tw_w set_fds set_w set_inos w_names w_inos]. destruct (pget y (w_names (tw_w t2))) as [j|] eqn:Ej; [|reflexivity]. apply lupd_ne. intros <-. apply Hy.
      assert (Wf2 : tree_wf t2) by exact (proj1 (t_create_eff _ _ _ _ W2 C1)). exact (fs_wf_inj _ _ _ _ (proj1 Wf2) Ej C4).
    + rewrite C6 by exact Hy. unfold content_at. now rewrite Ew.
Qed.

(** ** Writing and cleaning up *)
Lemma content_isfile t x : content_at t x <> None -> isfile t x.
Proof. unfold content_at. intros H. apply isfile_pget. destruct (pget x _); [eauto|contradiction]. Qed.
Lemma round_top surv c ns p data t : tree_wf t -> names_path c ns p -> no_faults (tw_w t) -> (0 < tw_free t)%nat -> empty_at (within (w_cwd (tw_w t) ++ [c])) t ->
  exists t1 t2, WriteTestFile p data t = (Ok tt, t1) /\ content_at t1 (at_place t p) = Some data /\ CleanUpTestFile surv p t1 = (Ok tt, t2) /\ tree_wf t2 /\ same_but (fun _ => False) t t2 /\ total_fds t2 = total_fds t.
Proof.
  intros Hwf Hp Hn Hf He. pose proof (names_clean _ _ _ Hp) as Hcl. set (q := w_cwd (tw_w t) ++ [c]) in *.
  assert (Eq : at_place t p = q ++ ns) by (unfold at_place, q; rewrite (names_place _ _ _ _ Hp), <- app_assoc; reflexivity).
  assert (Hin : within q (at_place t p)) by (rewrite Eq; destruct ns as [|n ns]; [left; apply app_nil_r|right; exists (n :: ns); split; [discriminate|reflexivity]]).
  pose proof Hwf as (H1 & H2 & H3 & H4 & H5 & H6).
  assert (Hab : forall d, below d (at_place t p) -> within q d \/ d = w_cwd (tw_w t) \/ below d (w_cwd (tw_w t))).
  { rewrite Eq. intros d (k & Hk & E). destruct (Nat.le_gt_cases (List.length q) (List.length d)) as [L|L].
    - left. apply under_iff. unfold under. apply place_eqb_iff. assert (E' := f_equal (firstn (List.length q)) E). rewrite !firstn_app in E'. rewrite firstn_all, Nat.sub_diag in E'. cbn [firstn] in E'. rewrite app_nil_r in E'. replace (List.length q - List.length d)%nat with 0%nat in E' by lia. cbn in E'. rewrite app_nil_r in E'. auto.
    - right. assert (E' := f_equal (firstn (List.length d)) E). rewrite firstn_app, firstn_app, firstn_all, Nat.sub_diag in E'. cbn [firstn] in E'. rewrite app_nil_r in E'. replace (List.length d - List.length q)%nat with 0%nat in E' by lia. cbn [firstn] in E'. rewrite app_nil_r in E'.
      unfold q in E', L. rewrite app_length in L. cbn in L. rewrite firstn_app in E'. replace (List.length d - List.length (w_cwd (tw_w t)))%nat with 0%nat in E' by lia. cbn [firstn] in E'. rewrite app_nil_r in E'.
      destruct (firstn_above (w_cwd (tw_w t)) (List.length d)) as [A|(m & Hm & A)]; rewrite E' in A; [left; exact A|right; exists m; auto]. }
  assert (Hc : can_put t (at_place t p)).
  { split; [apply He, Hin|]. intros d Hd. destruct (Hab d Hd) as [Hw|[->|Hw]]; [apply He, Hw| |]; intros F; apply (H6 d F) || apply (H6 _ F); [exact H3|exact (H4 _ _ H3 Hw)]. }
  destruct (write_ok p data t Hwf Hcl Hn Hf Hc) as (t1 & E1 & C1 & C2 & N1). pose proof (write_eff _ _ _ _ _ Hwf Hcl E1) as (W1 & G1 & _ & F1).
  assert (Ec : w_cwd (tw_w t1) = w_cwd (tw_w t)) by apply G1.
  assert (Pc : plain_name c) by (destruct Hp as [Hp _]; exact (Forall_inv Hp)).
  destruct (remove_plain surv c t1 N1 Pc) as (t2 & E2 & S2 & Z2 & Fr & Lo). rewrite Ec in S2, Z2. fold q in S2, Z2. exists t1, t2. split; [exact E1|]. split; [exact C1|].
  split; [unfold CleanUpTestFile; rewrite (names_split _ _ _ Hp); exact E2|]. split; [exact (remove_tree _ _ _ _ W1 N1 Pc E2)|]. destruct S2 as [S2c S2]. split.
  - split; [congruence|]. intros x _. destruct G1 as (_ & A3 & A4 & A5 & A6).
    destruct (under q x) eqn:U.
    + apply under_iff in U. destruct (Z2 x U) as [Z3 Z4]. destruct (He x U) as [Z5 Z6]. split; [tauto|]. split; [tauto|]. unfold content_at. apply not_isfile in Z4, Z6. now rewrite Z4, Z6.
    + assert (Nx : ~ within q x) by (intros X; apply under_iff in X; congruence). destruct (S2 x Nx) as (B1 & B2 & B3). split; [|split].
      * rewrite B1. split; [|apply A5]. intros X. destruct (A6 x X) as [X'|X']; [exact X'|]. destruct (Hab x X') as [Y|[->|Y]]; [contradiction|exact H3|exact (H4 _ _ H3 Y)].
      * rewrite B2. split; [|apply A3]. intros X. destruct (A4 x X) as [X'| ->]; [exact X'|contradiction].
      * rewrite B3. apply C2. intros ->. contradiction.
  - rewrite <- F1. unfold total_fds. rewrite Fr, Lo. rewrite (remove_is surv c t1 N1 Pc) in E2. injection E2 as <-. reflexivity.
Qed.

(** ** DummyHashes *)
Lemma mul20 n : 0 <= n -> 20 * n <= max64 -> mul64 20 n = 20 * n.
Proof. intros H1 H2. unfold mul64, i64. unfold max64, min64 in *. rewrite Z.mod_small by lia. lia. Qed.
Lemma zeros_firstn k n : 0 <= k <= n -> firstn (Z.to_nat k) (zeros n) = zeros k.
Proof. intros H. unfold zeros. replace (Z.to_nat n) with (Z.to_nat k + (Z.to_nat n - Z.to_nat k))%nat by lia. rewrite repeat_app, firstn_app, firstn_all2 by (rewrite repeat_length; lia). rewrite repeat_length, Nat.sub_diag. apply app_nil_r. Qed.
Lemma zlen_zeros n : 0 <= n -> zlen (zeros n) = n.
Proof. intros H. unfold zlen, zeros. rewrite repeat_length. lia. Qed.
Lemma dummy_one room m n : 0 <= m -> 0 <= n -> 20 * n <= max64 -> 20 * n <= room -> exists k, 0 <= k /\ DummyHashes room (zeros m) n = Ok (zeros k, zeros (20 * n)).
Proof.
  intros Hm Hn Hx Hr. unfold DummyHashes. rewrite mul20 by assumption. cbv zeta. rewrite zlen_zeros by assumption. replace (20 * n <? 0) with false by lia. destruct (Z.ltb_spec m (20 * n)).
  - replace (room <? 20 * n) with false by lia. cbn [bind]. exists (20 * n). split; [lia|]. rewrite zeros_firstn by lia. reflexivity.
  - cbn [bind]. exists m. split; [assumption|]. rewrite zeros_firstn by lia. reflexivity.
Qed.
Lemma dummies_from room ns : Forall (fun n => 0 <= n /\ 20 * n <= max64 /\ 20 * n <= room) ns -> forall m, 0 <= m -> dummies room (zeros m) ns = map (fun n => Ok (zeros (20 * n))) ns.
Proof.
  induction ns as [|n ns IH]; intros H m Hm; [reflexivity|]. pose proof (Forall_inv H) as (A1 & A2 & A3). apply Forall_inv_tail in H.
  cbn [dummies map]. destruct (dummy_one room m n Hm A1 A2 A3) as (k & Hk & ->). f_equal. apply IH; assumption.
Qed.
Lemma dummies_top room ns : Forall (fun n => 0 <= n /\ 20 * n <= max64 /\ 20 * n <= room) ns -> dummies room [] ns = map (fun n => Ok (zeros (20 * n))) ns.
Proof. intros H. exact (dummies_from room ns H 0 ltac:(lia)). Qed.
Lemma dummy_negative room d n : - 2 ^ 58 <= n < 0 -> DummyHashes room d n = Panic.
Proof.
  intros H. unfold DummyHashes. assert (E : mul64 20 n = 20 * n) by (unfold mul64, i64, min64; rewrite Z.mod_small by lia; lia). rewrite E. cbv zeta.
  replace (zlen d <? 20 * n) with false by (unfold zlen; lia). cbn [bind]. replace (20 * n <? 0) with true by lia. reflexivity.
Qed.

(** ** Other files, whatever fails *)
Definition same_files (t t' : tworld) : Prop := w_names (tw_w t') = w_names (tw_w t) /\ w_inos (tw_w t') = w_inos (tw_w t) /\ w_cwd (tw_w t') = w_cwd (tw_w t).
Lemma fault_files t x t1 : embed fault t = (x, t1) -> same_files t t1 /\ exists f, x = Ok f.
Proof. intros E. split; [|exact (fault_ok _ _ _ E)]. unfold embed, fault in E. destruct (w_flt (tw_w t)); inversion E; repeat split. Qed.
Lemma same_files_content t t' x : same_files t t' -> content_at t' x = content_at t x.
Proof. intros (A & C & _). unfold content_at. now rewrite A, C. Qed.
Lemma create_others p t r t' : fs_wf (tw_w t) -> t_create p t = (r, t') -> (forall x, x <> at_place t p -> content_at t' x = content_at t x) /\
  (forall i, r = Ok i -> pget (at_place t p) (w_names (tw_w t')) = Some i).
Proof.
  intros Hfs. unfold t_create, tsyscall. unfold tbind at 1. destruct (embed fault t) as [y t1] eqn:E. apply fault_files in E. destruct E as [S1 [[k|] ->]].
  { intros H. injection H as <- <-. split; [|discriminate]. intros x _. now apply same_files_content. }
  unfold with_fd, tbind. destruct (collect t1) as [y t2] eqn:E. apply collect_w in E. destruct E as (-> & A1 & A2).
  assert (S2 : same_files t t2) by (destruct S1 as (? & ? & ?); repeat split; congruence). clear S1 A1.
  destruct (tw_free t2); [intros H; injection H as <- <-; split; [|discriminate]; intros x _; now apply same_files_content|]. cbv zeta.
  pose proof S2 as (B1 & B2 & B3). unfold at_place. rewrite B3. set (q := place (w_cwd (tw_w t)) p).
  destruct (is_dir _ _); [intros H; injection H as <- <-; split; [|discriminate]; intros x _; now apply same_files_content|].
  rewrite B1. destruct (pget q (w_names (tw_w t))) as [i|] eqn:Hp.
  - intros H. injection H as <- <-. split.
    + intros x Hx. unfold content_at. cbn [tw_w set_fds set_w set_inos w_names w_inos]. rewrite B1, B2. destruct (pget x (w_names (tw_w t))) as [j|] eqn:Ej; [|reflexivity]. apply lupd_ne. intros <-. apply Hx. exact (fs_wf_inj _ _ _ _ Hfs Ej Hp).
    + intros j Hj. injection Hj as <-. cbn [tw_w set_fds set_w set_inos w_names]. now rewrite B1.
  - destruct (is_dir _ _); intros H; injection H as <- <-; [|split; [|discriminate]; intros x _; now apply same_files_content]. split.
    + intros x Hx. unfold content_at. cbn [tw_w set_fds set_w w_names w_inos]. rewrite ?B1, ?B2, pget_app_other by exact Hx. destruct (pget x (w_names (tw_w t))) as [j|] eqn:Ej; [|reflexivity]. apply nth_error_app1. exact (fs_wf_bound _ _ _ Hfs Ej).
    + intros j Hj. injection Hj as <-. cbn [tw_w set_fds set_w w_names]. rewrite ?B1, ?B2. now apply pget_app_new.
Qed.
Lemma oswrite_names i off d w r w' : os_write i off d w = (r, w') -> w_names w' = w_names w /\ w_cwd w' = w_cwd w /\ forall j, i <> j -> nth_error (w_inos w') j = nth_error (w_inos w) j.
Proof. unfold os_write, iobind, fault. destruct (w_flt w) as [|[k|] fl]; cbn; intros H; injection H as _ <-; cbn; (split; [reflexivity|]); (split; [reflexivity|]); intros j Hj; now apply lupd_ne. Qed.
Lemma write_others p data t r t' x : tree_wf t -> clean_path p -> WriteTestFile p data t = (r, t') -> x <> at_place t p -> content_at t' x = content_at t x.
Proof.
  intros Hwf Hcl H Hx. unfold WriteTestFile in H. unfold tbind at 1 in H. pose proof Hwf as (H1 & H2 & H3 & H4 & H5 & H6).
  destruct (t_mkdirall (Dir p) t) as [y t1] eqn:E1.
  assert (S1 : same_files t t1).
  { revert E1. unfold t_mkdirall, tbind. destruct (embed fault t) as [f t0] eqn:E. apply fault_files in E. destruct E as [S [k ->]]. destruct k; [destruct (mk_dirs _ _ _ _ _) as [ok ds]|destruct (mk_dirs _ _ _ _ _) as [ok ds]]; intros E; inversion E; subst; exact S. }
  destruct y as [[]|e| |]; [|inversion H; subst; now apply same_files_content..].
  unfold tbind at 1 in H. destruct (t_create p t1) as [y t2] eqn:E2.
  assert (F1 : fs_wf (tw_w t1)) by (destruct S1 as (A & C & _); unfold fs_wf; rewrite A, C; exact H1).
  pose proof (create_others _ _ _ _ F1 E2) as [C2 C3]. assert (Ea : at_place t1 p = at_place t p) by (unfold at_place; destruct S1 as (_ & _ & ->); reflexivity). rewrite Ea in *.
  assert (C4 : content_at t2 x = content_at t x) by (rewrite C2 by exact Hx; now apply same_files_content).
  assert (W2 : fs_wf (tw_w t2)).
  { assert (T1 : tree_wf t1).
    { refine (proj1 (t_mkdirall_eff _ _ _ _ (at_place t p) Hwf _ E1)). destruct (clean_parent t p H2 H3 H4 Hcl) as [[_ Hd]|[nm Hnm]].
      - intros y0 [->|Hy]; right; [exact Hd|exact (H4 _ _ Hd Hy)].
      - intros y0 Hy. left. rewrite Hnm. apply below_snoc. exact Hy. }
    exact (proj1 (proj1 (t_create_eff _ _ _ _ T1 E2))). }
  destruct y as [i|e| |]; [|inversion H; subst; exact C4..]. specialize (C3 i eq_refl).
  unfold tbind at 1 in H. destruct (losing (embed (os_write i 0 data)) t2) as [z t3] eqn:E3.
  assert (C5 : content_at t3 x = content_at t x).
  { rewrite <- C4. unfold losing, embed in E3. destruct (os_write i 0 data (tw_w t2)) as [a w3] eqn:Eo. apply oswrite_names in Eo. destruct Eo as (N1 & _ & N2).
    assert (Ew : tw_w t3 = w3) by (destruct a; inversion E3; reflexivity). unfold content_at. rewrite Ew, N1. destruct (pget x (w_names (tw_w t2))) as [j|] eqn:Ej; [|reflexivity]. apply N2. intros ->. apply Hx. exact (fs_wf_inj _ _ _ _ W2 Ej C3). }
  destruct z as [[]|e| |]; [|inversion H; subst; exact C5..].
  unfold close_fd, tbind in H. destruct (embed fault t3) as [f t4] eqn:E4. apply fault_files in E4. destruct E4 as [S4 [k ->]]. injection H as _ <-. rewrite <- C5. exact (same_files_content _ _ x S4).
Qed.

Lemma write_iff p data t : tree_wf t -> clean_path p -> no_faults (tw_w t) -> (0 < tw_free t)%nat ->
  (can_put t (at_place t p) <-> exists t', WriteTestFile p data t = (Ok tt, t')).
Proof.
  intros Hwf Hcl Hn Hf. split.
  - intros Hc. destruct (write_ok p data t Hwf Hcl Hn Hf Hc) as (t' & E & _). eauto.
  - intros [t' E]. apply (write_eff _ _ _ _ _ Hwf Hcl E). reflexivity.
Qed.
(** ** CloseAndClean *)
Lemma close_clean surv p t : no_faults (tw_w t) -> CloseAndClean surv true p t = CleanUpTestFile surv p (set_fds t (S (tw_free t)) (tw_lost t)).
Proof. intros Hn. unfold CloseAndClean, close_fd, tbind. rewrite (embed_fault_nf _ Hn). reflexivity. Qed.
Lemma close_clean_top surv c ns p t : no_faults (tw_w t) -> names_path c ns p -> exists t', CloseAndClean surv true p t = (Ok tt, t') /\
  same_but (within (w_cwd (tw_w t) ++ [c])) t t' /\ empty_at (within (w_cwd (tw_w t) ++ [c])) t' /\ tw_free t' = S (tw_free t).
Proof.
  intros Hn Hp. rewrite close_clean by exact Hn. unfold CleanUpTestFile. rewrite (names_split _ _ _ Hp). destruct Hp as [Hp _]. apply Forall_inv in Hp.
  destruct (remove_plain surv c (set_fds t (S (tw_free t)) (tw_lost t)) Hn Hp) as (t' & E & S & Z & F & L). exists t'. split; [exact E|]. split; [exact S|]. split; [exact Z|exact F].
Qed.
Lemma clean_faults surv c ns p t r t' : names_path c ns p -> CleanUpTestFile surv p t = (r, t') ->
  same_but (within (w_cwd (tw_w t) ++ [c])) t t' /\ (r = Ok tt -> empty_at (within (w_cwd (tw_w t) ++ [c])) t').
Proof.
  intros Hp. unfold CleanUpTestFile. rewrite (names_split _ _ _ Hp). destruct Hp as [Hp _]. apply Forall_inv in Hp. intros E. destruct (remove_outside _ _ _ _ _ Hp E) as (A & C & _). auto.
Qed.
(** ** Nil is returned only if no call failed *)
Lemma fault_took t x t1 : embed fault t = (x, t1) -> exists f, x = Ok f /\ same_files t t1 /\ (w_flt (tw_w t) = f :: w_flt (tw_w t1) \/ w_flt (tw_w t) = [] /\ w_flt (tw_w t1) = [] /\ f = None).
Proof. unfold embed, fault. destruct (w_flt (tw_w t)) as [|f fl] eqn:E; intros H; inversion H; subst; eexists; (split; [reflexivity|]); split; try (repeat split; fail); cbn; auto. Qed.
Definition passed (n : nat) (t t' : tworld) : Prop := w_flt (tw_w t') = skipn n (w_flt (tw_w t)) /\ Forall (eq None) (firstn n (w_flt (tw_w t))).
Lemma passed_one t x t1 : embed fault t = (Ok x, t1) -> x = None -> passed 1 t t1.
Proof. intros E ->. apply fault_took in E. destruct E as (f & Ef & _ & E). injection Ef as <-. unfold passed. destruct E as [->|(-> & -> & _)]; cbn; auto. Qed.
Lemma passed_trans n m t1 t2 t3 : passed n t1 t2 -> passed m t2 t3 -> passed (n + m) t1 t3.
Proof.
  intros [A1 A2] [B1 B2]. split; [rewrite B1, A1; generalize (w_flt (tw_w t1)); clear; induction n as [|n IH]; intros [|a l]; cbn; auto; apply skipn_nil|].
  rewrite A1 in B2. revert A2 B2. generalize (w_flt (tw_w t1)). clear. induction n as [|n IH]; intros [|a l]; cbn; intros A B; auto. inversion A; subst. constructor; auto.
Qed.
Lemma create_passed p t i t' : fs_wf (tw_w t) -> t_create p t = (Ok i, t') -> passed 1 t t' /\ nth_error (w_inos (tw_w t')) i = Some [].
Proof.
  intros Hfs. unfold t_create, tsyscall. unfold tbind at 1. destruct (embed fault t) as [y t1] eqn:E. pose proof (fault_files _ _ _ E) as [S1 [k ->]]. destruct k as [k|]; [discriminate|]. apply passed_one in E; [|reflexivity].
  unfold with_fd, tbind. destruct (collect t1) as [y t2] eqn:Ec. apply collect_w in Ec. destruct Ec as (-> & A1 & A2).
  assert (S2 : w_names (tw_w t2) = w_names (tw_w t) /\ w_inos (tw_w t2) = w_inos (tw_w t)) by (destruct S1 as (? & ? & ?); split; congruence). destruct S2 as [B1 B2].
  assert (P2 : passed 1 t t2) by (unfold passed; rewrite A1; exact E).
  destruct (tw_free t2); [discriminate|]. cbv zeta. destruct (is_dir _ _); [discriminate|].
  destruct (pget _ _) as [j|] eqn:Hp; [|destruct (is_dir _ _); [|discriminate]]; intros H; injection H as <- <-; (split; [exact P2|]); cbn [tw_w set_fds set_w set_inos w_inos].
  - apply lupd_eq. rewrite B2. rewrite B1 in Hp. exact (fs_wf_bound _ _ _ Hfs Hp).
  - rewrite nth_error_app2, Nat.sub_diag by lia. reflexivity.
Qed.
Lemma write_told p data t t' : tree_wf t -> clean_path p -> WriteTestFile p data t = (Ok tt, t') -> (w_flt (tw_w t') = skipn 4 (w_flt (tw_w t)) /\ Forall (eq None) (firstn 3 (skipn 1 (w_flt (tw_w t))))) /\ content_at t' (at_place t p) = Some data.
Proof.
  intros Hwf Hcl H. unfold WriteTestFile in H. unfold tbind at 1 in H. pose proof Hwf as (H1 & H2 & H3 & H4 & H5 & H6).
  destruct (t_mkdirall (Dir p) t) as [y t1] eqn:E1. destruct y as [[]| | |]; [|discriminate..].
  assert (S1 : same_files t t1 /\ w_flt (tw_w t1) = skipn 1 (w_flt (tw_w t))).
  { revert E1. unfold t_mkdirall, tbind. destruct (embed fault t) as [f t0] eqn:E. pose proof (fault_took _ _ _ E) as (k & -> & S & D). destruct (mk_dirs _ _ _ _ _) as [ok ds]. intros X. destruct ok; [|discriminate X]. injection X as <-. split; [exact S|].
    change (w_flt (tw_w t0) = skipn 1 (w_flt (tw_w t))). destruct D as [->|(-> & -> & _)]; reflexivity. }
  destruct S1 as [S1 P1].
  unfold tbind at 1 in H. destruct (t_create p t1) as [y t2] eqn:E2. destruct y as [i| | |]; [|discriminate..].
  assert (F1 : fs_wf (tw_w t1)) by (destruct S1 as (A & C & _); unfold fs_wf; rewrite A, C; exact H1).
  destruct (create_passed _ _ _ _ F1 E2) as [P2 N2]. pose proof (proj2 (create_others _ _ _ _ F1 E2) i eq_refl) as C3.
  assert (Ea : at_place t1 p = at_place t p) by (unfold at_place; destruct S1 as (_ & _ & ->); reflexivity). rewrite Ea in C3.
  unfold tbind at 1 in H. destruct (losing (embed (os_write i 0 data)) t2) as [z t3] eqn:E3. destruct z as [[]| | |]; [|discriminate..].
  assert (P3 : passed 1 t2 t3 /\ w_names (tw_w t3) = w_names (tw_w t2) /\ w_inos (tw_w t3) = lupd (w_inos (tw_w t2)) i data).
  { revert E3. unfold losing, embed, os_write, iobind, fault. assert (En : nth i (w_inos (tw_w t2)) ([] : bytes) = []) by (apply nth_error_nth; exact N2).
    destruct (w_flt (tw_w t2)) as [|[k|] fl] eqn:Ef; unfold content, put_content, lift; cbn [fst snd w_inos]; try discriminate; intros X; injection X as <-; unfold passed; cbn [tw_w set_w w_flt w_names w_inos set_inos]; rewrite ?Ef; cbn [skipn firstn];
      (split; [split; [try reflexivity; assumption|auto]|]); (split; [reflexivity|]); f_equal; (etransitivity; [|apply pwrite_empty]); f_equal; exact En. }
  destruct P3 as (P3 & N3 & I3). unfold close_fd, tbind in H. destruct (embed fault t3) as [f t4] eqn:E4. pose proof (fault_files _ _ _ E4) as [S4 [k ->]]. destruct k as [k|]; [discriminate|]. injection H as <-. apply passed_one in E4; [|reflexivity]. split.
  - pose proof (passed_trans _ _ _ _ _ (passed_trans _ _ _ _ _ P2 P3) E4) as [Q1 Q2]. rewrite P1 in Q1, Q2. split; [|exact Q2]. cbn [tw_w set_fds]. rewrite Q1. destruct (w_flt (tw_w t)); reflexivity.
  - change (content_at t4 (at_place t p) = Some data). rewrite (same_files_content _ _ _ S4). unfold content_at. rewrite N3, C3, I3. apply lupd_eq. apply nth_error_Some. congruence.
Qed.
(** Without the memory it panics. *)
Lemma dummies_over room n ns : 0 <= n -> 20 * n <= max64 -> room < 20 * n -> Forall (fun n => 0 <= n /\ 20 * n <= max64 /\ 20 * n <= room) ns -> forall m, 0 <= m <= room ->
  dummies room (zeros m) (ns ++ [n]) = map (fun n => Ok (zeros (20 * n))) ns ++ [Panic].
Proof.
  intros Hn Hx Hr. induction ns as [|k ns IH]; intros H m Hm; cbn [app map dummies].
  - unfold DummyHashes. rewrite mul20 by assumption. cbv zeta. rewrite zlen_zeros by lia. destruct (Z.ltb_spec m (20 * n)).
    + replace (room <? 20 * n) with true by lia. reflexivity.
    + exfalso. lia.
  - pose proof (Forall_inv H) as (A1 & A2 & A3). apply Forall_inv_tail in H. unfold DummyHashes. rewrite mul20 by assumption. cbv zeta. rewrite zlen_zeros by lia. replace (20 * k <? 0) with false by lia. destruct (Z.ltb_spec m (20 * k)).
    + replace (room <? 20 * k) with false by lia. cbn [bind]. rewrite zeros_firstn by lia. f_equal. apply IH; [exact H|lia].
    + cbn [bind]. rewrite zeros_firstn by lia. f_equal. apply IH; [exact H|lia].
Qed.
Lemma dummies_over_top room n ns : 0 <= room -> 0 <= n -> 20 * n <= max64 -> room < 20 * n -> Forall (fun n => 0 <= n /\ 20 * n <= max64 /\ 20 * n <= room) ns ->
  dummies room [] (ns ++ [n]) = map (fun n => Ok (zeros (20 * n))) ns ++ [Panic].
Proof. intros H0 Hn Hx Hr H. exact (dummies_over room n ns Hn Hx Hr H 0 ltac:(lia)). Qed.

(** ** The helpers that give an error never panic *)
Definition settles {A} (r : res A) : Prop := match r with Ok _ | Err _ => True | Panic | NoFuel => False end.
Definition calm {A} (m : tio A) : Prop := forall t, settles (fst (m t)).
Lemma calm_bind {A C} (m : tio A) (f : A -> tio C) : calm m -> (forall a, calm (f a)) -> calm (tbind m f).
Proof. intros H1 H2 t. unfold tbind. specialize (H1 t). destruct (m t) as [[a|e| |] t']; [apply H2|exact I|exact H1|exact H1]. Qed.
Lemma calm_fault : calm (embed fault).
Proof. intros t. unfold embed, fault. destruct (w_flt (tw_w t)); exact I. Qed.
Lemma calm_losing {A} (m : tio A) : calm m -> calm (losing m).
Proof. intros H t. unfold losing. specialize (H t). destruct (m t) as [[a|e| |] t']; exact H. Qed.
Lemma calm_mkdirall p : calm (t_mkdirall p).
Proof. apply calm_bind; [apply calm_fault|]. intros f t. destruct (mk_dirs _ _ _ _ _) as [[] d]; exact I. Qed.
Lemma calm_create p : calm (t_create p).
Proof.
  apply calm_bind; [apply calm_fault|]. intros [k|]; [intros t; exact I|]. apply calm_bind.
  - intros t. unfold collect. destruct (tw_gc t); exact I.
  - intros u t. destruct (tw_free t); [exact I|]. cbv zeta. destruct (is_dir (tw_dirs t) (at_place t p)); [exact I|].
    destruct (pget (at_place t p) (w_names (tw_w t))); [exact I|]. destruct (is_dir (tw_dirs t) (removelast (at_place t p))); exact I.
Qed.
Lemma calm_write i off data : calm (embed (os_write i off data)).
Proof.
  intros t. unfold embed, os_write, iobind, content, put_content, lift. unfold fault. destruct (w_flt (tw_w t)) as [|[k|] r]; exact I.
Qed.
Lemma calm_close : calm close_fd.
Proof. apply calm_bind; [apply calm_fault|]. intros [k|] t; exact I. Qed.
Lemma calm_write_file p data : calm (WriteTestFile p data).
Proof.
  apply calm_bind; [apply calm_mkdirall|intros _]. apply calm_bind; [apply calm_create|intros i].
  apply calm_bind; [apply calm_losing, calm_write|intros _]. apply calm_close.
Qed.
Lemma calm_remove surv p : calm (RemoveAll surv p).
Proof.
  unfold RemoveAll. destruct (beqb p []); [intros t; exact I|]. destruct (beqb p dot); [intros t; exact I|].
  apply calm_bind; [apply calm_fault|]. intros [k|] t; cbn [fst]; [exact I|]. destruct (beqb p dotdot); exact I.
Qed.
Lemma calm_clean surv p : calm (CleanUpTestFile surv p).
Proof. unfold CleanUpTestFile. destruct (split_slash p); [intros t; exact I|apply calm_remove]. Qed.
Lemma calm_close_clean surv opened p : calm (CloseAndClean surv opened p).
Proof. apply calm_bind; [destruct opened; [apply calm_close|intros t; exact I]|intros _; apply calm_clean]. Qed.
Lemma settles_iff {A} (r : res A) : settles r -> (exists a, r = Ok a) \/ exists e, r = Err e.
Proof. destruct r; intros []; eauto. Qed.
Lemma helpers_settle surv opened p data t :
  (forall r t', WriteTestFile p data t = (r, t') -> r = Ok tt \/ exists e, r = Err e) /\
  (forall r t', CleanUpTestFile surv p t = (r, t') -> r = Ok tt \/ exists e, r = Err e) /\
  (forall r t', CloseAndClean surv opened p t = (r, t') -> r = Ok tt \/ exists e, r = Err e).
Proof.
  assert (H : forall (m : tio unit), calm m -> forall r t', m t = (r, t') -> r = Ok tt \/ exists e, r = Err e).
  { intros m Hm r t' E. specialize (Hm t). rewrite E in Hm. cbn [fst] in Hm. destruct (settles_iff _ Hm) as [(u & Er)|X]; [left; destruct u; exact Er|right; exact X]. }
  split; [|split]; apply H; [apply calm_write_file|apply calm_clean|apply calm_close_clean].
Qed.

(** ** CheckError and CheckFatal *)
Definition log_more (t : testing) (es : list (option goerr)) (ended : bool) : testing :=
  mktesting (tg_failed t || negb (match some_errors es with [] => true | _ => false end)) (tg_log t ++ some_errors es) ended.
Lemma some_cons e es : some_errors (e :: es) = match e with Some x => x :: some_errors es | None => some_errors es end.
Proof. unfold some_errors. destruct e; reflexivity. Qed.
Lemma testing_eta t : mktesting (tg_failed t) (tg_log t) (tg_ended t) = t.
Proof. now destruct t. Qed.
Lemma run_ended {A} (cs : list (bool * (A -> option goerr * A))) a t : tg_ended t = true -> run_test cs a t = (a, t).
Proof. intros H. destruct cs as [|[f c] r]; cbn [run_test]; [reflexivity|now rewrite H]. Qed.
Lemma run_errors {A} (cs : list (A -> option goerr * A)) : forall a t, tg_ended t = false ->
  run_test (map (pair false) cs) a t = (snd (errors_of cs a), log_more t (fst (errors_of cs a)) false).
Proof.
  induction cs as [|c r IH]; intros a t Ht; cbn [map run_test errors_of fst snd].
  - unfold log_more, some_errors. cbn. rewrite orb_false_r, app_nil_r, <- Ht, testing_eta. reflexivity.
  - rewrite Ht. destruct (c a) as [e a1]. destruct (errors_of r a1) as [es a2] eqn:E. cbn [fst snd].
    rewrite IH by (destruct e; exact Ht). rewrite E. cbn [fst snd]. f_equal. unfold log_more. rewrite some_cons.
    destruct e as [x|]; cbn [CheckError tg_failed tg_log]; [|reflexivity]. rewrite <- app_assoc, orb_true_r. reflexivity.
Qed.
Lemma run_fatal {A} (pre : list (A -> option goerr * A)) : forall a t rest, tg_ended t = false -> Forall (fun e => e = None) (fst (errors_of pre a)) ->
  run_test (map (pair true) pre ++ rest) a t = run_test rest (snd (errors_of pre a)) t.
Proof.
  induction pre as [|c r IH]; intros a t rest Ht H; cbn [map app run_test errors_of fst snd] in *; [reflexivity|].
  rewrite Ht. destruct (c a) as [e a1]. destruct (errors_of r a1) as [es a2] eqn:E. cbn [fst snd] in *. inversion H as [|? ? He Hes]; subst. cbn [CheckFatal].
  rewrite IH; rewrite ?E; auto.
Qed.
Lemma fatal_stops {A} (pre post : list (A -> option goerr * A)) c a x a' : Forall (fun e => e = None) (fst (errors_of pre a)) ->
  c (snd (errors_of pre a)) = (Some x, a') -> run_test (map (pair true) (pre ++ c :: post)) a (mktesting false [] false) = (a', mktesting true [x] true).
Proof.
  intros H Hc. rewrite map_app. rewrite run_fatal by (assumption || reflexivity). cbn [map run_test tg_ended]. rewrite Hc. cbn [CheckFatal tg_log app]. now apply run_ended.
Qed.
Lemma fatal_passes {A} (cs : list (A -> option goerr * A)) a : Forall (fun e => e = None) (fst (errors_of cs a)) ->
  run_test (map (pair true) cs) a (mktesting false [] false) = (snd (errors_of cs a), mktesting false [] false).
Proof. intros H. rewrite <- (app_nil_r (map (pair true) cs)). rewrite run_fatal by (assumption || reflexivity). reflexivity. Qed.
Lemma checks_top {A} (cs : list (A -> option goerr * A)) a :
  exists t, run_test (map (pair false) cs) a (mktesting false [] false) = (snd (errors_of cs a), t) /\ tg_log t = some_errors (fst (errors_of cs a)) /\
  (tg_failed t = false <-> Forall (fun e => e = None) (fst (errors_of cs a))).
Proof.
  eexists. split; [apply run_errors; reflexivity|]. cbn [log_more tg_log tg_failed]. split; [reflexivity|].
  induction (fst (errors_of cs a)) as [|e es IH]; [split; [constructor|reflexivity]|]. cbn [log_more tg_failed]. rewrite some_cons. destruct e as [x|].
  - split; [discriminate|]. intros H. inversion H as [|? ? He _]. discriminate He.
  - rewrite IH. split; [now constructor|]. now inversion 1.
Qed.
