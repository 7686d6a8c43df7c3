(** LinkProofs.v: resolution through symbolic links; opening the files of a torrent among links. *)
From Coq Require Import ZifyBool ZifyNat ZifyN.
From Verif Require Import Base BencodeModel PathModel PathSpec PathProofs LayoutModel LayoutSpec FsModel FsSpec FsProofs OcatProofs LifeProofs StartProofs SafeProofs InfoSpec InfoProofs LinkModel LinkSpec.

Lemma walk_nil n L d : walk n L d [] = Some d.
Proof. destruct n; reflexivity. Qed.
Lemma walk_cons n L d t r : walk n L d (t :: r) =
  (if beqb t [] || beqb t dot then walk n L d r
   else if beqb t dotdot then walk n L (removelast d) r
   else match pget (d ++ [t]) L with
        | None => walk n L (d ++ [t]) r
        | Some text => match n with O => None | S n' => walk n' L (if rooted text then [] else d) (split_slash text ++ r) end
        end).
Proof. destruct n; reflexivity. Qed.
Lemma walk_empty n L d r : walk n L d ([] :: r) = walk n L d r.
Proof. rewrite walk_cons. reflexivity. Qed.
Lemma walk_dot n L d r : walk n L d (dot :: r) = walk n L d r.
Proof. rewrite walk_cons. reflexivity. Qed.
Lemma walk_dd n L d r : walk n L d (dotdot :: r) = walk n L (removelast d) r.
Proof. rewrite walk_cons. reflexivity. Qed.
Lemma plain_tests t : t <> [] -> t <> dot -> t <> dotdot -> (beqb t [] || beqb t dot) = false /\ beqb t dotdot = false.
Proof. intros H1 H2 H3. apply beqb_neq in H1, H2, H3. rewrite H1, H2, H3. split; reflexivity. Qed.
Lemma walk_name n L d t r : t <> [] -> t <> dot -> t <> dotdot -> walk n L d (t :: r) =
  match pget (d ++ [t]) L with
  | None => walk n L (d ++ [t]) r
  | Some text => match n with O => None | S n' => walk n' L (if rooted text then [] else d) (split_slash text ++ r) end
  end.
Proof. intros H1 H2 H3. destruct (plain_tests t H1 H2 H3) as [A B]. rewrite walk_cons, A, B. reflexivity. Qed.

Lemma tests_cases t : (beqb t [] || beqb t dot = true /\ (t = [] \/ t = dot)) \/ (beqb t [] || beqb t dot = false /\ t = dotdot) \/ (t <> [] /\ t <> dot /\ t <> dotdot).
Proof.
  destruct (beqb t [] || beqb t dot) eqn:E.
  - left. split; [reflexivity|]. apply Bool.orb_true_iff in E. destruct E as [E|E]; apply beqb_eq in E; auto.
  - right. destruct (beqb t dotdot) eqn:E2; [left; split; [reflexivity|now apply beqb_eq]|right].
    apply Bool.orb_false_iff in E. destruct E as [A B]. apply beqb_neq in A, B, E2. auto.
Qed.

(** Case on the link met next. *)
Ltac link_in H text E := match type of H with context [@pget ?A ?a ?b] => destruct (@pget A a b) as [text|] eqn:E end.
Ltac link_here text E := match goal with |- context [@pget ?A ?a ?b] => destruct (@pget A a b) as [text|] eqn:E end.
(** ** Resolution is what the specification says *)
Lemma pget_In {A} q (m : list (list bytes * A)) v : NoDup (map fst m) -> (pget q m = Some v <-> In (q, v) m).
Proof.
  intros Hn. split; [apply pget_in|]. induction m as [|[k u] m IH]; intros H; [destruct H|]. cbn [map fst] in Hn. inversion Hn as [|? ? Hk Hm]; subst.
  cbn [pget]. unfold place_eqb. destruct H as [H|H].
  - injection H as -> ->. destruct (list_eq_dec bytes_dec q q); [reflexivity|contradiction].
  - destruct (list_eq_dec bytes_dec q k) as [->|]; [|now apply IH]. exfalso. apply Hk. apply in_map_iff. exists (k, v). auto.
Qed.
Lemma pget_no {A} q (m : list (list bytes * A)) : NoDup (map fst m) -> (pget q m = None <-> forall v, ~ In (q, v) m).
Proof.
  intros Hn. destruct (pget q m) as [u|] eqn:E; split; try congruence; try discriminate.
  - intros H. apply (pget_In q m u Hn) in E. destruct (H u E).
  - intros _ v Hv. apply (pget_In q m v Hn) in Hv. congruence.
Qed.
Lemma walk_leads L : one_each L -> forall n d ts q, walk n L d ts = Some q -> exists k, (k <= n)%nat /\ leads L k d ts q.
Proof.
  intros HL. induction n as [n IHn] using lt_wf_ind. intros d ts; revert d. induction ts as [|t r IH]; intros d q H.
  - rewrite walk_nil in H. injection H as <-. exists 0%nat. split; [lia|constructor].
  - destruct (tests_cases t) as [[E Ht]|[[E ->]|(H1 & H2 & H3)]].
    + rewrite walk_cons, E in H. destruct (IH _ _ H) as (k & Hk & Hl). exists k. split; [assumption|]. now constructor.
    + rewrite walk_dd in H. destruct (IH _ _ H) as (k & Hk & Hl). exists k. split; [assumption|]. now constructor.
    + rewrite walk_name in H by assumption. link_in H text Ep.
      * destruct n as [|n]; [discriminate H|]. destruct (IHn n (Nat.lt_succ_diag_r n) _ _ _ H) as (k & Hk & Hl). exists (S k). split; [lia|].
        apply (pget_In _ L text HL) in Ep. eapply leads_link; eauto.
      * destruct (IH _ _ H) as (k & Hk & Hl). exists k. split; [assumption|]. apply leads_down; auto. now apply pget_no.
Qed.
Lemma leads_walk L k d ts q : one_each L -> leads L k d ts q -> forall n, (k <= n)%nat -> walk n L d ts = Some q.
Proof.
  intros HL H. induction H as [d|k d t r q Ht H IH|k d r q H IH|k d t r q H1 H2 H3 Hn H IH|k d t r q text H1 H2 H3 Hi H IH]; intros n Hk.
  - apply walk_nil.
  - destruct Ht as [-> | ->]; [rewrite walk_empty|rewrite walk_dot]; auto.
  - rewrite walk_dd. auto.
  - rewrite walk_name by assumption. rewrite (proj2 (pget_no _ L HL)) by assumption. auto.
  - rewrite walk_name by assumption. rewrite (proj2 (pget_In _ L text HL)) by assumption. destruct n as [|n]; [lia|]. apply IH. lia.
Qed.
Lemma real_top L cwd p q : one_each L ->
  (real L cwd p = Some q <-> exists k, (k <= 40)%nat /\ leads L k (if rooted p then [] else cwd) (split_slash p) q).
Proof.
  intros HL. unfold real. split; [apply walk_leads; assumption|]. intros (k & Hk & H). exact (leads_walk _ _ _ _ _ HL H _ Hk).
Qed.

(** ** Without links *)
Lemma walk_none n d ts : walk n [] d ts = Some (follow d ts).
Proof.
  revert d. induction ts as [|t r IH]; intros d; [apply walk_nil|]. rewrite walk_cons, follow_cons. unfold step. cbn [pget].
  destruct (beqb t [] || beqb t dot); [apply IH|]. destruct (beqb t dotdot); apply IH.
Qed.
Lemma real_none cwd p : real [] cwd p = Some (place cwd p).
Proof. apply walk_none. Qed.

(** ** Cleaned paths *)
Definition comps (s : bytes) : list bytes := clean_loop (rooted s) (split_slash s) [].
Definition start (cwd : list bytes) (p : bytes) : list bytes := if rooted p then [] else cwd.
Lemma comps_ok s : exists out, comps s = rev out /\ out_ok (rooted s) out.
Proof. destruct (clean_loop_ok (rooted s) (split_slash s) [] (split_noslash s) (ok_nil _)) as (out & E & Ho & _). exists out. auto. Qed.
Lemma Clean_eq s : Clean s = if rooted s then slash :: join_slash (comps s) else match comps s with [] => dot | _ => join_slash (comps s) end.
Proof. reflexivity. Qed.
Lemma rooted_slash x : rooted (slash :: x) = true.
Proof. cbn [rooted]. apply (proj2 (eqb_slash slash) eq_refl). Qed.
Lemma split_slash_slash x : split_slash (slash :: x) = [] :: split_slash x.
Proof. cbn [split_slash]. now rewrite (proj2 (eqb_slash slash) eq_refl). Qed.
Lemma rooted_Clean s : rooted (Clean s) = rooted s.
Proof.
  rewrite Clean_eq. destruct (rooted s) eqn:Er; [apply rooted_slash|]. destruct (comps_ok s) as (out & E & Ho). rewrite E.
  pose proof (Forall_rev (out_ok_noslash _ _ Ho)) as Hns. pose proof (Forall_rev (out_ok_nonempty _ _ Ho)) as Hne.
  destruct (rev out) as [|t ts]; [reflexivity|]. now apply rooted_join.
Qed.
(** The components of a cleaned path: those of [comps], apart from empty ones and a single dot. *)
Lemma split_Clean s : exists pre, split_slash (Clean s) = pre ++ comps s /\ (pre = [] \/ pre = [[]] \/ pre = [[]; []] \/ pre = [dot]).
Proof.
  rewrite Clean_eq. destruct (comps_ok s) as (out & E & Ho). rewrite E.
  pose proof (Forall_rev (out_ok_noslash _ _ Ho)) as Hns.
  destruct (rooted s).
  - rewrite split_slash_slash. destruct (rev out) as [|t ts]; [exists [[]; []]; cbn; auto|].
    rewrite split_join; [|discriminate|assumption]. exists [[]]. split; [reflexivity|auto].
  - destruct (rev out) as [|t ts]; [exists [dot]; cbn; auto|]. rewrite split_join; [|discriminate|assumption]. exists []. auto.
Qed.
Lemma real_Clean L cwd s : real L cwd (Clean s) = walk max_links L (start cwd s) (comps s).
Proof.
  unfold real. rewrite rooted_Clean. fold (start cwd s). destruct (split_Clean s) as (pre & -> & [-> |[-> |[-> | ->]]]); cbn [app];
    rewrite ?walk_empty, ?walk_dot; reflexivity.
Qed.
Lemma clean_loop_app root xs ys : forall o, clean_loop root (xs ++ ys) o = clean_loop root ys (rev (clean_loop root xs o)).
Proof.
  induction xs as [|t xs IH]; intros o; cbn [app clean_loop]; [now rewrite rev_involutive|].
  destruct (beqb t [] || beqb t dot); [apply IH|]. destruct (beqb t dotdot); [|apply IH].
  destruct o as [|x o]; [destruct root; apply IH|]. destruct (beqb x dotdot); apply IH.
Qed.
Lemma clean_loop_id root out : out_ok root out -> clean_loop root (rev out) [] = rev out.
Proof.
  induction out as [|t out IH]; intros Ho; [reflexivity|]. cbn [rev]. rewrite clean_loop_app.
  assert (Ho' : out_ok root out) by (inversion Ho as [|? ? HF|]; subst; [|assumption]; destruct out as [|o out']; [constructor|inversion HF; subst; now constructor]).
  rewrite IH, rev_involutive by assumption. cbn [clean_loop].
  inversion Ho as [|? Hr HF|? ? (H1 & H2 & H3 & _) _]; subst.
  - change (beqb dotdot [] || beqb dotdot dot) with false. change (beqb dotdot dotdot) with true. cbn iota.
    destruct out as [|o out']; [reflexivity|]. inversion HF; subst. change (beqb dotdot dotdot) with true. reflexivity.
  - destruct (plain_tests t H1 H2 H3) as [A B]. rewrite A, B. reflexivity.
Qed.
Lemma comps_Clean s : comps (Clean s) = comps s.
Proof.
  unfold comps at 1. rewrite rooted_Clean. destruct (comps_ok s) as (out & E & Ho).
  assert (H : clean_loop (rooted s) (comps s) [] = comps s) by (rewrite E; now apply clean_loop_id).
  destruct (split_Clean s) as (pre & -> & [-> |[-> |[-> | ->]]]); exact H.
Qed.
Lemma clean_loop_names root ts : Forall plain_name ts -> forall o, clean_loop root ts o = rev o ++ ts.
Proof.
  induction 1 as [|t ts (H1 & H2 & H3 & _) _ IH]; intros o; cbn [clean_loop]; [now rewrite app_nil_r|].
  destruct (plain_tests t H1 H2 H3) as [A B]. rewrite A, B, IH. cbn [rev]. now rewrite <- app_assoc.
Qed.
Lemma Join_names dir ts : ts <> [] -> Forall plain_name ts ->
  rooted (Join [dir; join_slash ts]) = rooted dir /\ comps (Join [dir; join_slash ts]) = comps dir ++ ts /\
  Clean (Join [dir; join_slash ts]) = Join [dir; join_slash ts].
Proof.
  intros Hne HF. pose proof (join_slash_nonempty ts Hne HF) as Hj. pose proof (plain_noslash _ HF) as Hns.
  assert (Hs : forall s, comps (Clean s) = comps s) by apply comps_Clean.
  assert (Hid : forall s, Clean (Clean s) = Clean s) by (intros s; rewrite (Clean_eq (Clean s)), rooted_Clean, comps_Clean; reflexivity).
  destruct dir as [|x dir].
  - destruct (join_slash ts) as [|y u] eqn:Ej; [contradiction|]. cbn [Join join_slash]. rewrite Hid, rooted_Clean, comps_Clean, <- Ej.
    assert (Hr : rooted (join_slash ts) = false).
    { apply rooted_join; [assumption|]. eapply Forall_impl; [|exact HF]. intros a (H & _). exact H. }
    split; [assumption|]. split; [|now rewrite Ej].
    unfold comps at 1. rewrite Hr, split_join by assumption. rewrite clean_loop_names by assumption. reflexivity.
  - cbn [Join]. rewrite Hid, rooted_Clean, comps_Clean. split; [reflexivity|]. split; [|reflexivity].
    cbn [join_slash]. unfold comps. rewrite split_app, clean_loop_app. rewrite split_join by assumption. rewrite clean_loop_names by assumption.
    rewrite rev_involutive. reflexivity.
Qed.

(** ** A directory without links inside *)
Lemma walk_after n L W ys : none_inside L W -> Forall plain_name ys -> forall zs, walk n L (W ++ zs) ys = Some (W ++ zs ++ ys).
Proof.
  intros Hn. induction 1 as [|t ys (H1 & H2 & H3 & _) _ IH]; intros zs; [rewrite walk_nil; now rewrite app_nil_r|].
  rewrite walk_name by assumption. link_here text E.
  - apply pget_in in E. exfalso. apply (Hn _ _ E). exists (zs ++ [t]). split; [destruct zs; discriminate|]. now rewrite <- app_assoc.
  - rewrite <- app_assoc, IH. now rewrite <- app_assoc.
Qed.
Lemma walk_app L W ys : none_inside L W -> Forall plain_name ys ->
  forall n d xs, walk n L d xs = Some W -> walk n L d (xs ++ ys) = Some (W ++ ys).
Proof.
  intros Hn Hy. induction n as [n IHn] using lt_wf_ind. intros d xs; revert d. induction xs as [|t r IH]; intros d H.
  - rewrite walk_nil in H. injection H as ->. pose proof (walk_after n L W ys Hn Hy []) as A. rewrite app_nil_r in A. exact A.
  - cbn [app]. destruct (tests_cases t) as [[E _]|[[E ->]|(H1 & H2 & H3)]].
    + rewrite walk_cons, E in *. auto.
    + rewrite walk_dd in *. auto.
    + rewrite walk_name in * by assumption. link_in H text El; [|auto].
      destruct n as [|n]; [discriminate|]. rewrite app_assoc. apply IHn; [lia|assumption].
Qed.
Lemma real_inside L cwd wd W ts : real L cwd (Clean wd) = Some W -> none_inside L W -> ts <> [] -> Forall plain_name ts ->
  real L cwd (Join [wd; join_slash ts]) = Some (W ++ ts).
Proof.
  intros HW Hn Hne HF. destruct (Join_names wd ts Hne HF) as (A & B & C). rewrite <- C, real_Clean. unfold start. rewrite A, B.
  apply walk_app; [assumption|assumption|]. rewrite real_Clean in HW. exact HW.
Qed.
(** Every file of an accepted torrent with ordinary names. *)
Lemma local_inside info wd name L cwd W ti e :
  FromDict info wd = Ok ti -> GetString info (B "name") = Ok name -> plain_name name -> plain_paths info ->
  real L cwd (Clean wd) = Some W -> none_inside L W -> In e (ti_files ti) ->
  exists q, real L cwd (eb_local (en_base e)) = Some q /\ below W q.
Proof.
  intros HF Hname Hpn Hpp HW HL He. unfold FromDict in HF. rewrite Hname in HF. cbn [bind] in HF.
  destruct (GetInt info (B "piece length")) as [P| | |]; cbn [bind] in HF; try discriminate.
  destruct (GetString info (B "pieces")) as [hashes| | |]; cbn [bind] in HF; try discriminate.
  destruct (dict_entries info wd name) as [fes| | |] eqn:Ed; cbn [bind] in HF; try discriminate.
  destruct (NewTorInfo_fields _ _ _ _ _ HF) as (_ & _ & _ & _ & Hb & _).
  assert (Hin : In (en_base e) fes) by (rewrite <- Hb; apply in_map; assumption).
  assert (Hone : [name] <> [] /\ Forall plain_name [name]) by (split; [discriminate|constructor; [assumption|constructor]]).
  destruct Hone as [Hn1 Hn2].
  unfold dict_entries in Ed. destruct (GetInt info (B "length")) as [len|er| |]; try discriminate.
  - apply Ok_inj in Ed; subst fes. destruct Hin as [Hin|[]]. rewrite <- Hin. cbn [SetLocalPath eb_local MakeFileEntry eb_tor].
    exists (W ++ [name]). split; [|exists [name]; split; [discriminate|reflexivity]].
    exact (real_inside _ _ _ _ _ HW HL Hn1 Hn2).
  - destruct (GetList info (B "files")) as [files| | |] eqn:Efl; try discriminate.
    destruct (FromBenList files) as [es| | |] eqn:Eb; cbn [bind] in Ed; try discriminate. apply Ok_inj in Ed; subst fes.
    apply in_map_iff in Hin. destruct Hin as (f & <- & Hf). destruct (FromBenList_in _ _ _ Eb Hf) as (_ & d & pl & Hd & Hp & Hpl).
    destruct (Hpp files d pl Efl Hd Hp) as (ts & -> & Hts).
    assert (Hne : ts <> []) by (intros ->; discriminate).
    rewrite path_of_strs in Hpl by assumption. injection Hpl as Hpl. cbn [SetLocalPath eb_local]. rewrite <- Hpl.
    exists (W ++ name :: ts). split; [|exists (name :: ts); split; [discriminate|reflexivity]].
    destruct (Join_names wd [name] Hn1 Hn2) as (A & C & _). change (join_slash [name]) with name in A, C.
    destruct (Join_names (Join [wd; name]) ts Hne Hts) as (A' & C' & I'). rewrite <- I', real_Clean. unfold start. rewrite A', A, C', C.
    rewrite <- app_assoc. apply walk_app; [assumption|constructor; assumption|]. rewrite real_Clean in HW. exact HW.
Qed.
(** Cleaning a path without ".." leaves the place. *)
Lemma walk_ext L a b : (forall n d, walk n L d a = walk n L d b) -> forall n pre d, walk n L d (pre ++ a) = walk n L d (pre ++ b).
Proof.
  intros H. induction n as [n IHn] using lt_wf_ind. induction pre as [|t r IH]; intros d; [apply H|]. cbn [app]. rewrite !walk_cons.
  destruct (beqb t [] || beqb t dot); [apply IH|]. destruct (beqb t dotdot); [apply IH|]. link_here text El; [|apply IH].
  destruct n as [|n]; [reflexivity|]. rewrite !app_assoc. apply IHn. lia.
Qed.
Lemma walk_clean L root : forall ts o, ~ In dotdot ts -> exists ts', clean_loop root ts o = rev o ++ ts' /\ forall n d, walk n L d ts' = walk n L d ts.
Proof.
  induction ts as [|t ts IH]; intros o H; [exists []; split; [cbn [clean_loop]; now rewrite app_nil_r|reflexivity]|].
  assert (H' : ~ In dotdot ts) by (intros X; apply H; now right).
  assert (Ht : t <> dotdot) by (intros ->; apply H; now left).
  cbn [clean_loop]. destruct (tests_cases t) as [[E _]|[[_ E]|(H1 & H2 & H3)]]; [|contradiction|].
  - rewrite E. destruct (IH o H') as (ts' & A & C). exists ts'. split; [assumption|]. intros n d. rewrite (walk_cons n L d t ts), E. apply C.
  - destruct (plain_tests t H1 H2 H3) as [E1 E2]. rewrite E1, E2.
    destruct (IH (t :: o) H') as (ts' & A & C). exists (t :: ts'). split; [rewrite A; cbn [rev]; now rewrite <- app_assoc|].
    intros n d. exact (walk_ext L ts' ts C n [t] d).
Qed.
Lemma real_never_up L cwd wd : never_up wd -> real L cwd (Clean wd) = real L cwd wd.
Proof.
  intros H. rewrite real_Clean. destruct (walk_clean L (rooted wd) (split_slash wd) [] H) as (ts' & A & C). unfold comps. rewrite A. cbn [rev app]. apply C.
Qed.

(** ** Links elsewhere *)
Lemma walk_ups n L k : forall d r, walk n L d (repeat dotdot k ++ r) = walk n L (follow d (repeat dotdot k)) r.
Proof. induction k as [|k IH]; intros d r; [reflexivity|]. cbn [repeat app]. rewrite walk_dd, IH. reflexivity. Qed.
Lemma walk_clear n L ts : Forall plain_name ts -> forall d, clear_way L (d ++ ts) -> walk n L d ts = Some (d ++ ts).
Proof.
  induction 1 as [|t ts (H1 & H2 & H3 & _) _ IH]; intros d Hc; [rewrite walk_nil; now rewrite app_nil_r|].
  rewrite walk_name by assumption. link_here text E.
  - apply pget_in in E. exfalso. refine (Hc (d ++ [t]) ts text _ E). now rewrite <- app_assoc.
  - rewrite IH; [now rewrite <- app_assoc|]. now rewrite <- app_assoc.
Qed.
Lemma out_shape root out : out_ok root out -> exists k ts, rev out = repeat dotdot k ++ ts /\ Forall plain_name ts.
Proof.
  induction 1 as [|out Hr HF|t out Hp Ho (k & ts & E & Hts)].
  - exists 0%nat, []. split; [reflexivity|constructor].
  - assert (HA : forall l : list bytes, Forall (fun t => t = dotdot) l -> l = repeat dotdot (List.length l)).
    { induction 1 as [|? ? -> _ IH]; cbn [List.length repeat]; [reflexivity|now rewrite <- IH]. }
    exists (List.length (rev (dotdot :: out))), []. split; [|constructor]. rewrite app_nil_r. apply HA. apply Forall_rev. constructor; [reflexivity|assumption].
  - exists k, (ts ++ [t]). cbn [rev]. rewrite E, app_assoc. split; [reflexivity|]. apply Forall_app. split; [assumption|constructor; [assumption|constructor]].
Qed.
Lemma real_clear L cwd s : clear_way L (place cwd s) -> real L cwd (Clean s) = Some (place cwd s).
Proof.
  intros H. rewrite <- place_Clean in H |- *. rewrite real_Clean.
  assert (Hp : place cwd (Clean s) = follow (start cwd s) (comps s)).
  { unfold place. rewrite rooted_Clean. fold (start cwd s). destruct (split_Clean s) as (pre & -> & [-> |[-> |[-> | ->]]]); reflexivity. }
  rewrite Hp in *. destruct (comps_ok s) as (out & E & Ho). rewrite E in *. destruct (out_shape _ _ Ho) as (k & ts & Es & Hts). rewrite Es in *.
  rewrite walk_ups. rewrite follow_app in *. rewrite (follow_names _ ts Hts) in *. now apply walk_clear.
Qed.

(** ** The calls *)
Lemma l_open_as L p p' w : real L (w_cwd w) p = Some (place (w_cwd w) p') -> l_open L p w = os_open p' w.
Proof.
  intros H. unfold l_open, os_open, syscall, iobind. rewrite fault_eq. destruct (hd None (w_flt w)); [reflexivity|].
  rewrite (proj1 (disk_same_drop w)), H. reflexivity.
Qed.
Lemma l_create_as L p p' w : real L (w_cwd w) p = Some (place (w_cwd w) p') -> l_create L p w = os_create p' w.
Proof.
  intros H. unfold l_create, os_create, syscall, iobind. rewrite fault_eq. destruct (hd None (w_flt w)); [reflexivity|].
  rewrite (proj1 (disk_same_drop w)), H. reflexivity.
Qed.
Lemma l_fresh_as L p p' n w : real L (w_cwd w) p = Some (place (w_cwd w) p') -> l_CreateZeroFilledFile L p n w = CreateZeroFilledFile p' n w.
Proof.
  intros H. unfold l_CreateZeroFilledFile, CreateZeroFilledFile, iobind. change (os_mkdirall p w) with (os_mkdirall p' w).
  destruct (os_mkdirall p' w) as [[u|er| |] w1] eqn:E; try reflexivity. rewrite (l_create_as L p p' w1); [reflexivity|].
  assert (Hc : w_cwd w1 = w_cwd w); [|rewrite Hc; exact H].
  unfold os_mkdirall, syscall, iobind in E. rewrite fault_eq in E. destruct (hd None (w_flt w)); [discriminate E|]. injection E as <- <-. apply disk_same_drop.
Qed.
Lemma l_utils_as L p p' n w : real L (w_cwd w) p = Some (place (w_cwd w) p') -> l_utils_OCAT L p n w = utils_OCAT p' n w.
Proof.
  intros H. unfold l_utils_OCAT, utils_OCAT. rewrite (l_open_as L p p' w H). destruct (os_open p' w) as [[i|er| |] w1] eqn:E; try reflexivity.
  assert (Hc : w_cwd w1 = w_cwd w).
  { unfold os_open, syscall, iobind in E. rewrite fault_eq in E. pose proof (disk_same_drop w) as (A1 & _). destruct (hd None (w_flt w)); [injection E as <- <-; exact A1|].
    destruct (pget _ _); injection E as; try discriminate; subst; exact A1. }
  rewrite (l_fresh_as L p p' n w1) by (rewrite Hc; exact H). reflexivity.
Qed.
(** Every place reached has an ordinary path. *)
Lemma split_names_ok s : Forall noslash (split_slash s).
Proof. apply split_noslash. Qed.
Lemma removelast_Forall {A} (Q : A -> Prop) l : Forall Q l -> Forall Q (removelast l).
Proof. induction 1 as [|a l Ha Hl IH]; [constructor|]. cbn [removelast]. destruct l; [constructor|]. constructor; assumption. Qed.
Lemma walk_plain L : forall n ts d q, Forall noslash ts -> Forall plain_name d -> walk n L d ts = Some q -> Forall plain_name q.
Proof.
  induction n as [n IHn] using lt_wf_ind. induction ts as [|t r IH]; intros d q Ht Hd H; [rewrite walk_nil in H; injection H as <-; assumption|].
  inversion Ht as [|? ? Ht1 Ht2]; subst. destruct (tests_cases t) as [[E _]|[[E ->]|(H1 & H2 & H3)]].
  - rewrite walk_cons, E in H. eauto.
  - rewrite walk_dd in H. eapply IH; [assumption| |exact H]. now apply removelast_Forall.
  - rewrite walk_name in H by assumption. link_in H text El.
    + destruct n as [|n]; [discriminate H|]. eapply (IHn n); [lia| | |exact H]; [apply Forall_app; split; [apply split_noslash|assumption]|].
      destruct (rooted text); [constructor|assumption].
    + eapply IH; [assumption| |exact H]. apply Forall_app. split; [assumption|]. constructor; [|constructor]. repeat split; assumption.
Qed.
Lemma real_plain L cwd p q : Forall plain_name cwd -> real L cwd p = Some q -> Forall plain_name q.
Proof. intros Hc H. eapply walk_plain; [apply split_noslash| |exact H]. destruct (rooted p); [constructor|assumption]. Qed.
Definition abs (q : list bytes) : bytes := slash :: join_slash q.
Lemma place_abs cwd q : Forall plain_name q -> place cwd (abs q) = q.
Proof.
  intros H. unfold place, abs. rewrite rooted_slash, split_slash_slash, follow_cons. change (step [] []) with (@nil bytes).
  destruct q as [|t q]; [reflexivity|]. rewrite split_join; [|discriminate|now apply plain_noslash]. now rewrite follow_names.
Qed.
(** One file: only the place the path leads to can change. *)
Lemma l_utils_at L p n w r w' q : Forall plain_name (w_cwd w) -> fs_wf w -> real L (w_cwd w) p = Some q -> l_utils_OCAT L p n w = (r, w') ->
  fs_wf w' /\ frame [q] w w'.
Proof.
  intros Hc Hwf Hq E. pose proof (place_abs (w_cwd w) q (real_plain _ _ _ _ Hc Hq)) as Ha.
  rewrite (l_utils_as L p (abs q)) in E by (rewrite Ha; exact Hq). destruct (utils_at _ _ _ _ _ Hwf E) as (A & C & _). rewrite Ha in C. auto.
Qed.
Lemma l_OCATAll_at L W : forall es w r w', Forall plain_name (w_cwd w) -> fs_wf w ->
  (forall e, In e es -> exists q, real L (w_cwd w) (eb_local (en_base e)) = Some q /\ below W q) ->
  l_OCATAll L es w = (r, w') -> exists qs, Forall (below W) qs /\ fs_wf w' /\ frame qs w w'.
Proof.
  induction es as [|e es IH]; intros w r w' Hc Hwf Hr E; cbn [l_OCATAll] in E.
  - injection E as <- <-. exists []. split; [constructor|]. split; [assumption|apply frame_refl].
  - unfold iobind at 1 in E. unfold l_OCAT, iobind at 1 in E. destruct (Hr e (or_introl eq_refl)) as (q & Hq & Hb).
    destruct (l_utils_OCAT L (eb_local (en_base e)) (en_len e) w) as [r1 w1] eqn:E1.
    destruct (l_utils_at _ _ _ _ _ _ _ Hc Hwf Hq E1) as (A1 & A2).
    assert (Hone : Forall (below W) [q]) by (constructor; [assumption|constructor]).
    destruct r1 as [i| | |]; try (injection E as <- <-; exists [q]; auto).
    cbn [fst snd] in E. set (w2 := set_lfps w1 _) in E. assert (Hc2 : w_cwd w2 = w_cwd w) by apply A2.
    destruct (IH w2 r w') as (qs & B1 & B2 & B3); [now rewrite Hc2|exact A1|intros e' He'; rewrite Hc2; apply Hr; now right|exact E|].
    exists (q :: qs). split; [constructor; assumption|]. split; [assumption|]. eapply frame_trans; [eapply frame_weaken; [|exact A2]|].
    + intros x [<-|[]]. now left.
    + change (frame (q :: qs) w2 w'). eapply frame_weaken; [|exact B3]. intros x Hx. now right.
Qed.
Lemma frame_outside W qs w w' : Forall (below W) qs -> frame qs w w' -> outside_same W w w'.
Proof.
  intros HF (_ & H) q Hq. destruct (H q) as [A C]; [intros X; rewrite Forall_forall in HF; auto|].
  unfold file_in. rewrite A. destruct (pget q (w_names w)) as [i|] eqn:E; [auto|reflexivity].
Qed.
Lemma files_inside info wd name L W ti w r w' :
  FromDict info wd = Ok ti -> GetString info (B "name") = Ok name -> plain_name name -> plain_paths info ->
  real L (w_cwd w) (Clean wd) = Some W -> none_inside L W -> Forall plain_name (w_cwd w) -> fs_wf w ->
  l_OCATAll L (ti_files ti) w = (r, w') -> outside_same W w w'.
Proof.
  intros HF Hname Hpn Hpp HW HL Hc Hwf E.
  destruct (l_OCATAll_at L W (ti_files ti) w r w' Hc Hwf) as (qs & A & _ & C); [|exact E|exact (frame_outside _ _ _ _ A C)].
  intros e He. exact (local_inside _ _ _ _ _ _ _ _ HF Hname Hpn Hpp HW HL He).
Qed.
(** The same calls as without links. *)
Lemma l_OCATAll_same L : forall es w, (forall e, In e es -> real L (w_cwd w) (eb_local (en_base e)) = Some (place (w_cwd w) (eb_local (en_base e)))) -> fs_wf w ->
  l_OCATAll L es w = OCATAll es w.
Proof.
  induction es as [|e es IH]; intros w Hr Hwf; [reflexivity|]. cbn [l_OCATAll OCATAll]. unfold iobind, l_OCAT, OCAT, iobind.
  rewrite (l_utils_as L _ (eb_local (en_base e))) by (apply Hr; now left).
  destruct (utils_OCAT (eb_local (en_base e)) (en_len e) w) as [[i| | |] w1] eqn:E1; try reflexivity.
  destruct (utils_at _ _ _ _ _ Hwf E1) as (A & C & _). apply IH; [|exact A]. intros e' He'. cbn [set_lfps w_cwd]. rewrite (proj1 C). apply Hr. now right.
Qed.
(** A path that leads nowhere. *)
Lemma l_utils_loop L p n w : real L (w_cwd w) p = None -> exists er w', l_utils_OCAT L p n w = (Err er, w') /\ disk_same w w'.
Proof.
  intros H. pose proof (disk_same_drop w) as D1. set (w1 := drop_fault w) in *.
  assert (Ho : exists er, l_open L p w = (Err er, w1)).
  { unfold l_open, syscall, iobind. rewrite fault_eq. fold w1. destruct (hd None (w_flt w)); [exists EIO; reflexivity|]. rewrite (proj1 D1), H. exists EPath. reflexivity. }
  assert (Hn : exists er w', l_CreateZeroFilledFile L p n w1 = (Err er, w') /\ disk_same w1 w').
  { unfold l_CreateZeroFilledFile, os_mkdirall, l_create, syscall. unfold iobind at 1 2. rewrite fault_eq. pose proof (disk_same_drop w1) as D2.
    destruct (hd None (w_flt w1)); [cbn [lift]; eauto|]. cbn [ret]. set (w2 := drop_fault w1) in *. unfold iobind at 1 2. rewrite fault_eq. pose proof (disk_same_drop w2) as D3.
    set (w3 := drop_fault w2) in *. assert (D : disk_same w1 w3) by exact (disk_same_trans _ _ _ D2 D3).
    destruct (hd None (w_flt w2)); [cbn [lift]; eauto|]. assert (Hc : w_cwd w3 = w_cwd w) by (rewrite (proj1 D); exact (proj1 D1)). rewrite Hc, H. eauto. }
  destruct Hn as (er & w' & E & D). assert (D' : disk_same w w') by exact (disk_same_trans _ _ _ D1 D).
  destruct Ho as (er0 & Ho). unfold l_utils_OCAT. rewrite Ho, E. eauto.
Qed.
(** Local paths are results of Join. *)
Lemma real_Join_clear L cwd a b : clear_way L (place cwd (Join [a; b])) -> real L cwd (Join [a; b]) = Some (place cwd (Join [a; b])).
Proof.
  assert (Hc : forall s, clear_way L (place cwd (Clean s)) -> real L cwd (Clean s) = Some (place cwd (Clean s))) by (intros s H; rewrite place_Clean in *; now apply real_clear).
  assert (Hn : real L cwd [] = Some (place cwd [])) by (unfold real, place; cbn [rooted split_slash]; rewrite walk_empty, walk_nil; reflexivity).
  destruct a as [|x a]; [destruct b as [|y b]|]; cbn [Join]; auto.
Qed.
Lemma local_Join info wd ti e : FromDict info wd = Ok ti -> In e (ti_files ti) -> exists a b, eb_local (en_base e) = Join [a; b].
Proof.
  intros HF He. unfold FromDict in HF. destruct (GetString info (B "name")) as [name| | |]; cbn [bind] in HF; try discriminate.
  destruct (GetInt info (B "piece length")) as [P| | |]; cbn [bind] in HF; try discriminate.
  destruct (GetString info (B "pieces")) as [hashes| | |]; cbn [bind] in HF; try discriminate.
  destruct (dict_entries info wd name) as [fes| | |] eqn:Ed; cbn [bind] in HF; try discriminate.
  destruct (NewTorInfo_fields _ _ _ _ _ HF) as (_ & _ & _ & _ & Hb & _).
  assert (Hin : In (en_base e) fes) by (rewrite <- Hb; apply in_map; assumption).
  unfold dict_entries in Ed. destruct (GetInt info (B "length")) as [len|er| |]; try discriminate.
  - apply Ok_inj in Ed; subst fes. destruct Hin as [Hin|[]]. rewrite <- Hin. cbn [SetLocalPath eb_local]. eauto.
  - destruct (GetList info (B "files")) as [files| | |]; try discriminate.
    destruct (FromBenList files) as [es| | |]; cbn [bind] in Ed; try discriminate. apply Ok_inj in Ed; subst fes.
    apply in_map_iff in Hin. destruct Hin as (f & <- & Hf). cbn [SetLocalPath eb_local]. eauto.
Qed.
Lemma links_elsewhere info wd ti L w : FromDict info wd = Ok ti -> fs_wf w ->
  (forall e, In e (ti_files ti) -> clear_way L (place (w_cwd w) (eb_local (en_base e)))) ->
  l_OCATAll L (ti_files ti) w = OCATAll (ti_files ti) w.
Proof.
  intros HF Hwf H. apply l_OCATAll_same; [|assumption]. intros e He. specialize (H e He). destruct (local_Join _ _ _ _ HF He) as (a & b & E).
  rewrite E in *. now apply real_Join_clear.
Qed.
