(** TreeProofs.v: what opening files does to the tree, and when it can. *)
From Coq Require Import ZifyBool ZifyNat ZifyN.
From Verif Require Import Base PathModel PathSpec PathProofs LayoutModel FsModel FsSpec OcatProofs TreeModel TreeSpec TreeSimProofs.

Lemma is_dir_spec ds q : is_dir ds q = true <-> In q ds.
Proof.
  unfold is_dir. rewrite existsb_exists. unfold place_eqb. split.
  - intros (x & Hx & E). destruct (list_eq_dec _ _ _); [now subst|discriminate].
  - intros H. exists q. split; [assumption|]. destruct (list_eq_dec _ _ _); [reflexivity|contradiction].
Qed.
Lemma is_dir_false ds q : is_dir ds q = false <-> ~ In q ds.
Proof. rewrite <- is_dir_spec. destruct (is_dir ds q); intuition discriminate. Qed.
Lemma pget_some_in {A} q (m : list (list bytes * A)) v : pget q m = Some v -> In q (map fst m).
Proof. intros H. apply pget_in in H. apply (in_map fst) in H. exact H. Qed.
Lemma pget_not_in {A} q (m : list (list bytes * A)) : ~ In q (map fst m) -> pget q m = None.
Proof. intros H. destruct (pget q m) eqn:E; [|reflexivity]. apply pget_some_in in E. contradiction. Qed.
Lemma pget_is_in {A} q (m : list (list bytes * A)) : In q (map fst m) -> exists v, pget q m = Some v.
Proof. intros H. destruct (pget q m) eqn:E; [eauto|]. apply pget_none in E. contradiction. Qed.

(** ** Above and below *)
Lemma below_snoc d q x : below d (q ++ [x]) <-> d = q \/ below d q.
Proof.
  split.
  - intros (ns & Hn & E). destruct (exists_last Hn) as (ns' & y & ->). rewrite app_assoc in E. apply app_inj_tail in E. destruct E as [-> ->].
    destruct ns' as [|a ns']; [left; now rewrite app_nil_r|right; exists (a :: ns'); split; [discriminate|reflexivity]].
  - intros [->|(ns & Hn & ->)]; [exists [x]; split; [discriminate|reflexivity]|exists (ns ++ [x]); rewrite app_assoc; split; [|reflexivity]].
    destruct ns; discriminate.
Qed.
Lemma below_trans a b c : below a b -> below b c -> below a c.
Proof. intros (n1 & H1 & ->) (n2 & H2 & ->). exists (n1 ++ n2). rewrite app_assoc. split; [destruct n1; [contradiction|discriminate]|reflexivity]. Qed.
Lemma below_irrefl a : ~ below a a.
Proof. intros (n & Hn & E). apply (f_equal (@List.length _)) in E. rewrite app_length in E. destruct n; [contradiction|cbn in E; lia]. Qed.
Lemma below_nil d : ~ below d [].
Proof. intros (n & Hn & E). destruct d, n; try discriminate. contradiction. Qed.

Definition closed (D : list (list bytes)) : Prop := forall q d, In q D -> below d q -> In d D.
Lemma closed_snoc D q x : closed D -> In q D -> closed (D ++ [q ++ [x]]).
Proof.
  intros Hc Hq y d Hy Hb. apply in_app_iff in Hy. apply in_app_iff. left. destruct Hy as [Hy|[<-|[]]]; [eapply Hc; eassumption|].
  apply below_snoc in Hb. destruct Hb as [->|Hb]; [assumption|eapply Hc; eassumption].
Qed.

(** ** MkdirAll *)
Lemma mk_dirs_spec names : forall todo pre ds lim ok ds', In pre ds -> closed ds -> (forall q, In q ds -> pget q names = None) ->
  mk_dirs lim names pre todo ds = (ok, ds') ->
  incl ds ds' /\ closed ds' /\ (forall q, In q ds' -> pget q names = None) /\
  (forall q, In q ds' -> In q ds \/ exists a b, a <> [] /\ todo = a ++ b /\ q = pre ++ a) /\
  (ok = true -> lim = None /\ forall a b, todo = a ++ b -> In (pre ++ a) ds') /\
  (lim = None -> (forall a b, todo = a ++ b -> a <> [] -> pget (pre ++ a) names = None) -> ok = true).
Proof.
  induction todo as [|c todo IH]; intros pre ds lim ok ds' Hp Hc Hn H; cbn [mk_dirs] in H.
  { inversion H; subst. split; [apply incl_refl|]. split; [assumption|]. split; [assumption|]. split; [auto|]. split.
    - destruct lim; [discriminate|]. intros _. split; [reflexivity|]. intros a b E. symmetry in E. apply app_eq_nil in E. destruct E as [-> _]. now rewrite app_nil_r.
    - intros -> _. reflexivity. }
  assert (Hsub : forall X, (forall a b, todo = a ++ b -> In ((pre ++ [c]) ++ a) X) -> In pre X -> forall a b, c :: todo = a ++ b -> In (pre ++ a) X).
  { intros X HX HpX [|y a] b E; [now rewrite app_nil_r|]. cbn in E. inversion E; subst. specialize (HX a b eq_refl). now rewrite <- app_assoc in HX. }
  assert (Hup : forall q, (exists a b, a <> [] /\ todo = a ++ b /\ q = (pre ++ [c]) ++ a) -> exists a b, a <> [] /\ c :: todo = a ++ b /\ q = pre ++ a).
  { intros q (a & b & Ha & -> & ->). exists (c :: a), b. split; [discriminate|]. split; [reflexivity|]. now rewrite <- app_assoc. }
  assert (Hfile : (forall a b, c :: todo = a ++ b -> a <> [] -> pget (pre ++ a) names = None) ->
                  forall a b, todo = a ++ b -> a <> [] -> pget ((pre ++ [c]) ++ a) names = None).
  { intros HX a b -> Ha. rewrite <- app_assoc. apply (HX ([c] ++ a) b); [reflexivity|discriminate]. }
  destruct (is_dir ds (pre ++ [c])) eqn:E1.
  { apply is_dir_spec in E1. destruct (IH _ _ _ _ _ E1 Hc Hn H) as (A1 & A2 & A3 & A4 & A5 & A6).
    split; [assumption|]. split; [assumption|]. split; [assumption|]. split; [|split].
    - intros q Hq. destruct (A4 q Hq) as [?|?]; auto.
    - intros Hok. destruct (A5 Hok) as [? HX]. split; [assumption|]. apply Hsub; [assumption|]. now apply A1.
    - intros Hl HX. apply A6; [assumption|exact (Hfile HX)]. }
  destruct (pget (pre ++ [c]) names) as [i|] eqn:E2.
  { inversion H; subst. split; [apply incl_refl|]. split; [assumption|]. split; [assumption|]. split; [auto|]. split; [discriminate|].
    intros _ HX. specialize (HX [c] todo eq_refl ltac:(discriminate)). congruence. }
  assert (stop : (false, ds) = (ok, ds') -> lim = Some O -> incl ds ds' /\ closed ds' /\ (forall q, In q ds' -> pget q names = None) /\
    (forall q, In q ds' -> In q ds \/ exists a b, a <> [] /\ c :: todo = a ++ b /\ q = pre ++ a) /\
    (ok = true -> lim = None /\ forall a b, c :: todo = a ++ b -> In (pre ++ a) ds') /\
    (lim = None -> (forall a b, c :: todo = a ++ b -> a <> [] -> pget (pre ++ a) names = None) -> ok = true)).
  { intros Hs Hl. inversion Hs; subst. split; [apply incl_refl|]. split; [assumption|]. split; [assumption|]. split; [auto|]. split; [discriminate|]. discriminate. }
  assert (mkone : mk_dirs (option_map pred lim) names (pre ++ [c]) todo (ds ++ [pre ++ [c]]) = (ok, ds') -> incl ds ds' /\ closed ds' /\ (forall q, In q ds' -> pget q names = None) /\
    (forall q, In q ds' -> In q ds \/ exists a b, a <> [] /\ c :: todo = a ++ b /\ q = pre ++ a) /\
    (ok = true -> lim = None /\ forall a b, c :: todo = a ++ b -> In (pre ++ a) ds') /\
    (lim = None -> (forall a b, c :: todo = a ++ b -> a <> [] -> pget (pre ++ a) names = None) -> ok = true)).
  { intros Hm. apply IH in Hm; [|apply in_app_iff; right; left; reflexivity|now apply closed_snoc|].
    2:{ intros q Hq. apply in_app_iff in Hq. destruct Hq as [Hq|[<-|[]]]; auto. }
    destruct Hm as (A1 & A2 & A3 & A4 & A5 & A6).
    split; [intros x Hx; apply A1, in_app_iff; auto|]. split; [assumption|]. split; [assumption|]. split; [|split].
    - intros q Hq. destruct (A4 q Hq) as [Hq'|?]; [|auto]. apply in_app_iff in Hq'. destruct Hq' as [?|[<-|[]]]; [auto|].
      right. exists [c], todo. split; [discriminate|]. split; reflexivity.
    - intros Hok. destruct (A5 Hok) as [Hl HX]. split; [destruct lim; [discriminate|reflexivity]|]. apply Hsub; [assumption|].
      apply A1, in_app_iff. auto.
    - intros -> HX. apply A6; [reflexivity|exact (Hfile HX)]. }
  destruct lim as [[|k]|]; [apply stop; auto|apply mkone; exact H|apply mkone; exact H].
Qed.

(** ** The directory of a path *)
Lemma existsb_slash p : existsb (Byte.eqb slash) p = false <-> noslash p.
Proof.
  split.
  - intros H Hin. assert (existsb (Byte.eqb slash) p = true); [|congruence]. apply existsb_exists. exists slash. split; [assumption|now apply eqb_slash].
  - intros H. destruct (existsb _ _) eqn:E; [|reflexivity]. apply existsb_exists in E. destruct E as (x & Hx & E). apply Byte.byte_dec_bl in E. subst. contradiction.
Qed.
Lemma removelast_cons {A} (x : A) l : l <> [] -> removelast (x :: l) = x :: removelast l.
Proof. destruct l; [contradiction|reflexivity]. Qed.
Lemma split_upto p : split_slash (upto_slash p) = removelast (split_slash p) ++ [[]].
Proof.
  induction p as [|b r IH]; [reflexivity|]. cbn [upto_slash]. destruct (existsb (Byte.eqb slash) (b :: r)) eqn:E.
  - cbn [split_slash]. destruct (Byte.eqb b slash) eqn:Eb.
    + rewrite removelast_cons by apply split_nonempty. cbn [app]. now rewrite IH.
    + cbn [existsb] in E. assert (Eb' : Byte.eqb slash b = false) by (apply Bool.not_true_is_false; intros Hx; apply Byte.byte_dec_bl in Hx; subst b; rewrite (proj2 (eqb_slash slash) eq_refl) in Eb; discriminate).
      rewrite Eb' in E. cbn [orb] in E. rewrite IH. pose proof (split_nonempty r) as Hne. destruct (split_slash r) as [|t ts] eqn:Es; [contradiction|].
      destruct ts as [|t2 ts].
      { exfalso. assert (Hj := join_split r). rewrite Es in Hj. cbn in Hj. assert (Hns := split_noslash r). rewrite Es in Hns. inversion Hns as [|? ? Ht _]; subst.
        apply existsb_slash in Ht. congruence. }
      rewrite (removelast_cons t) by discriminate. cbn [app]. now rewrite (removelast_cons (b :: t)) by discriminate.
  - apply existsb_slash in E. rewrite (split_single _ E). reflexivity.
Qed.
Lemma rooted_upto p : rooted (upto_slash p) = rooted p.
Proof.
  destruct p as [|b r]; [reflexivity|]. cbn [upto_slash]. destruct (existsb _ _) eqn:E; [reflexivity|]. apply existsb_slash in E. cbn [rooted].
  symmetry. apply eqb_slash_f. intros ->. apply E. left. reflexivity.
Qed.
Lemma place_Dir cwd p : place cwd p = step (place cwd (Dir p)) (last (split_slash p) []).
Proof.
  unfold Dir. rewrite place_Clean. unfold place. rewrite split_upto, rooted_upto, follow_app.
  rewrite (app_removelast_last [] (split_nonempty p)) at 1. rewrite follow_app. reflexivity.
Qed.
Lemma follow_dd d n : exists k, follow d (repeat dotdot n) = firstn k d.
Proof.
  revert d. induction n as [|n IH]; intros d; cbn [repeat]; [exists (List.length d); cbn; now rewrite firstn_all|].
  rewrite follow_cons. change (step d dotdot) with (removelast d). destruct (IH (removelast d)) as [k E]. rewrite E.
  rewrite removelast_firstn_len, firstn_firstn. eauto.
Qed.
Lemma Forall_repeat {A} (x : A) l : Forall (fun t => t = x) l -> l = repeat x (List.length l).
Proof. induction 1; cbn; congruence. Qed.
Lemma firstn_above {A} (d : list A) k : firstn k d = d \/ exists ns, ns <> [] /\ d = firstn k d ++ ns.
Proof.
  destruct (skipn k d) as [|x r] eqn:E; [left|right; exists (x :: r); split; [discriminate|]].
  - rewrite <- (firstn_skipn k d) at 2. now rewrite E, app_nil_r.
  - rewrite <- E. symmetry. apply firstn_skipn.
Qed.
Lemma place_Dir_follow cwd p : place cwd (Dir p) = follow (if rooted p then [] else cwd) (removelast (split_slash p)).
Proof. unfold Dir. rewrite place_Clean. unfold place. rewrite split_upto, rooted_upto, follow_app. reflexivity. Qed.
(** A clean path names a directory that is there (and so is Dir(p)), or something in the directory Dir(p). *)
Lemma clean_parent t p : isdir t [] -> isdir t (w_cwd (tw_w t)) -> closed (tw_dirs t) -> clean_path p ->
  isdir t (at_place t p) /\ isdir t (at_place t (Dir p)) \/ exists nm, at_place t p = at_place t (Dir p) ++ [nm].
Proof.
  intros H0 Hcwd Hc [->|[s ->]]; [left; split; exact Hcwd|]. unfold at_place.
  assert (Hup : forall n, isdir t (follow (w_cwd (tw_w t)) (repeat dotdot n))).
  { intros n. destruct (follow_dd (w_cwd (tw_w t)) n) as [k ->]. destruct (firstn_above (w_cwd (tw_w t)) k) as [->|Hb]; [assumption|]. eapply Hc; [exact Hcwd|exact Hb]. }
  assert (Hl : (exists nm, plain_name nm /\ last (split_slash (Clean s)) [] = nm) \/
               isdir t (place (w_cwd (tw_w t)) (Clean s)) /\ isdir t (place (w_cwd (tw_w t)) (Dir (Clean s)))).
  { rewrite place_Dir_follow. unfold Clean. destruct (clean_loop_ok (rooted s) (split_slash s) [] (split_noslash s) (ok_nil _)) as (out & E & Ho & _). rewrite E.
    pose proof (Forall_rev (out_ok_noslash _ _ Ho)) as Hns. pose proof (Forall_rev (out_ok_nonempty _ _ Ho)) as Hne.
    destruct (rooted s) eqn:Er.
    - inversion Ho as [Eo|o Hr _ Eo|nm o Hnm Ho' Eo]; subst out; cbn [rev] in *.
      + right. split; exact H0.
      + discriminate.
      + left. exists nm. split; [assumption|]. cbn [split_slash]. rewrite (proj2 (eqb_slash slash) eq_refl).
        rewrite split_join by (first [assumption|destruct (rev o); discriminate]). rewrite app_comm_cons. apply last_last.
    - inversion Ho as [Eo|o _ Hdd Eo|nm o Hnm Ho' Eo]; subst out; cbn [rev] in *.
      + right. split; exact Hcwd.
      + right. destruct (rev o ++ [dotdot]) as [|x r] eqn:Ex; [destruct (rev o); discriminate|]. rewrite <- Ex in *. clear Ex x r.
        unfold place. rewrite rooted_join by assumption. rewrite split_join by (first [assumption|destruct (rev o); discriminate]).
        assert (Ef : rev o ++ [dotdot] = repeat dotdot (List.length (rev o ++ [dotdot]))).
        { apply Forall_repeat. apply Forall_app. split; [now apply Forall_rev|repeat constructor]. }
        assert (Eg : removelast (rev o ++ [dotdot]) = repeat dotdot (List.length (rev o))).
        { rewrite removelast_last. apply Forall_repeat. now apply Forall_rev. }
        rewrite Eg, Ef. split; apply Hup.
      + left. exists nm. split; [assumption|]. destruct (rev o ++ [nm]) as [|x r] eqn:Ex; [destruct (rev o); discriminate|]. rewrite <- Ex in *. clear Ex x r.
        rewrite split_join by (first [assumption|destruct (rev o); discriminate]). apply last_last. }
  destruct Hl as [(nm & Hnm & E)|H]; [|left; exact H].
  right. exists nm. rewrite (place_Dir _ (Clean s)), E. now apply step_name.
Qed.

(** ** What the calls leave alone *)
Definition still {A} (m : io A) : Prop := forall w r w', m w = (r, w') ->
  w_cwd w' = w_cwd w /\ w_names w' = w_names w /\ w_lfps w' = w_lfps w /\ List.length (w_inos w') = List.length (w_inos w).
Lemma still_ret {A} (a : A) : still (ret a).
Proof. intros w r w' H. inversion H; subst. auto. Qed.
Lemma still_lift {A} (a : res A) : still (lift a).
Proof. intros w r w' H. inversion H; subst. auto. Qed.
Lemma still_fault : still fault.
Proof. intros w r w' H. unfold fault in H. destruct (w_flt w); inversion H; subst; auto. Qed.
Lemma still_content i : still (content i).
Proof. intros w r w' H. inversion H; subst. auto. Qed.
Lemma still_put i c : still (put_content i c).
Proof. intros w r w' H. inversion H; subst. cbn. rewrite lupd_length. auto. Qed.
Lemma still_bind {A C} (m : io A) (f : A -> io C) : still m -> (forall a, still (f a)) -> still (iobind m f).
Proof.
  intros Hm Hf w r w' H. unfold iobind in H. destruct (m w) as [x w1] eqn:E. destruct (Hm _ _ _ E) as (A1 & A2 & A3 & A4).
  destruct x as [a|e| |]; [|inversion H; subst; auto..]. destruct (Hf a _ _ _ H) as (B1 & B2 & B3 & B4). repeat split; congruence.
Qed.
Lemma still_syscall {A} (b : io A) : still b -> still (syscall b).
Proof. intros Hb. apply still_bind; [apply still_fault|]. intros [k|]; [apply still_lift|exact Hb]. Qed.
Lemma still_size i : still (os_size i).
Proof. apply still_syscall, still_bind; [apply still_content|]. intros. apply still_ret. Qed.
Lemma still_truncate i n : still (os_truncate i n).
Proof. apply still_syscall. destruct (n <? 0); [apply still_lift|]. apply still_bind; [apply still_content|]. intros. apply still_put. Qed.
Lemma still_write i off d : still (os_write i off d).
Proof.
  apply still_bind; [apply still_fault|]. intros f. apply still_bind; [apply still_content|]. intros c.
  destruct f; [apply still_bind; [apply still_put|intros; apply still_lift]|apply still_put].
Qed.
Lemma still_zeros fuel i : forall pos left, still (zeros_loop fuel i pos left).
Proof.
  induction fuel as [|f IH]; intros pos left; cbn [zeros_loop]; [apply still_lift|].
  destruct (left =? 0); [apply still_ret|]. destruct (writeSize <? left); [apply still_bind; [apply still_write|intros; apply IH]|].
  destruct (left <? 0); [apply still_lift|]. apply still_bind; [apply still_write|intros; apply IH].
Qed.
Lemma still_append i n : still (AppendZeros i n).
Proof. apply still_bind; [apply still_size|]. intros. apply still_zeros. Qed.
Lemma still_fit i n : still (fit i n).
Proof.
  apply still_bind; [apply still_size|]. intros k. destruct (k =? n); [apply still_ret|].
  destruct (n <? k); apply still_bind; first [apply still_truncate|apply still_append|intros; apply still_ret].
Qed.
Lemma fit_result i L w j w' : fit i L w = (Ok j, w') -> j = i /\ 0 <= L.
Proof.
  unfold fit, iobind. unfold os_size, syscall, iobind, content, ret. destruct (fault w) as [[[k|]|e| |] w1]; try discriminate.
  pose proof (zlen_nonneg (nth i (w_inos w1) [])) as Hz. destruct (Z.eqb_spec (zlen (nth i (w_inos w1) [])) L) as [E|E].
  { intros H. inversion H; subst. split; [reflexivity|lia]. }
  destruct (Z.ltb_spec L (zlen (nth i (w_inos w1) []))) as [Hlt|Hge].
  - unfold os_truncate, syscall, iobind. destruct (fault w1) as [[[k|]|e| |] w2]; try discriminate. destruct (Z.ltb_spec L 0); [discriminate|].
    intros H1. inversion H1; subst. split; [reflexivity|lia].
  - destruct (AppendZeros _ _ _) as [[u|e| |] w2]; try discriminate. intros H. inversion H; subst. split; [reflexivity|lia].
Qed.

(** Same tree. *)
Definition same (t t' : tworld) : Prop :=
  w_cwd (tw_w t') = w_cwd (tw_w t) /\ w_names (tw_w t') = w_names (tw_w t) /\ w_lfps (tw_w t') = w_lfps (tw_w t) /\
  List.length (w_inos (tw_w t')) = List.length (w_inos (tw_w t)) /\ tw_dirs t' = tw_dirs t.
Lemma same_refl t : same t t.
Proof. repeat split. Qed.
Lemma same_trans a b c : same a b -> same b c -> same a c.
Proof. intros (A1 & A2 & A3 & A4 & A5) (B1 & B2 & B3 & B4 & B5). repeat split; congruence. Qed.
Lemma same_embed {A} (m : io A) t r t' : still m -> embed m t = (r, t') -> same t t'.
Proof. intros Hm H. unfold embed in H. destruct (m (tw_w t)) as [x w1] eqn:E. inversion H; subst. destruct (Hm _ _ _ E) as (A1 & A2 & A3 & A4). repeat split; assumption. Qed.
Lemma same_losing {A} (tm : tio A) t r t' : (forall x t1, tm t = (x, t1) -> same t t1) -> losing tm t = (r, t') -> same t t'.
Proof. intros Hm H. unfold losing in H. destruct (tm t) as [x t1] eqn:E. specialize (Hm _ _ eq_refl). destruct x; inversion H; subst; exact Hm. Qed.
Lemma same_collect t r t' : collect t = (r, t') -> same t t'.
Proof. unfold collect. destruct (tw_gc t); intros H; inversion H; subst; repeat split. Qed.
Lemma same_wf t t' : same t t' -> tree_wf t -> tree_wf t'.
Proof.
  intros (A1 & A2 & A3 & A4 & A5) (H1 & H2 & H3 & H4 & H5 & H6). unfold tree_wf, isdir, isfile in *. rewrite A1, A2, A5.
  split; [now apply (fs_wf_same_names (tw_w t))|]. auto.
Qed.

(** The tree grows by a file at q and the directories above it, or by some of that. *)
Definition grows (q : list bytes) (t t' : tworld) : Prop :=
  w_cwd (tw_w t') = w_cwd (tw_w t) /\ w_lfps (tw_w t') = w_lfps (tw_w t) /\
  (forall x, isfile t x -> isfile t' x) /\ (forall x, isfile t' x -> isfile t x \/ x = q) /\
  (forall x, isdir t x -> isdir t' x) /\ (forall x, isdir t' x -> isdir t x \/ below x q).
Lemma same_grows q t t' : same t t' -> grows q t t'.
Proof. intros (A1 & A2 & A3 & A4 & A5). unfold grows, isfile, isdir. rewrite A1, A2, A3, A5. repeat split; auto. Qed.
Lemma grows_trans q a b c : grows q a b -> grows q b c -> grows q a c.
Proof.
  intros (A1 & A2 & A3 & A4 & A5 & A6) (B1 & B2 & B3 & B4 & B5 & B6). split; [congruence|]. split; [congruence|]. split; [auto|]. split; [|split; [auto|]].
  - intros x Hx. destruct (B4 x Hx) as [?|?]; auto.
  - intros x Hx. destruct (B6 x Hx) as [?|?]; auto.
Qed.
Lemma wf_closed t : tree_wf t -> closed (tw_dirs t).
Proof. intros (_ & _ & _ & H & _). exact H. Qed.

Lemma tsyscall_cases {A} (b : tio A) t r t' : tsyscall b t = (r, t') -> exists t1, same t t1 /\ (r = Err EIO /\ t' = t1 \/ b t1 = (r, t')).
Proof.
  unfold tsyscall, tbind. intros H. destruct (embed fault t) as [x t1] eqn:E. pose proof (same_embed _ _ _ _ still_fault E) as Hs. exists t1. split; [assumption|].
  assert (Hx : exists f, x = Ok f) by (unfold embed, fault in E; destruct (w_flt (tw_w t)); inversion E; subst; eauto). destruct Hx as [f ->].
  destruct f; [inversion H; subst; left; auto|right; exact H].
Qed.
Lemma with_fd_cases {A} (b : tio A) t r t' : with_fd b t = (r, t') ->
  exists t1, same t t1 /\ (r = Err EIO /\ t' = t1 \/ exists t2, b t1 = (r, t2) /\ tw_w t' = tw_w t2 /\ tw_dirs t' = tw_dirs t2).
Proof.
  unfold with_fd, tbind. intros H. destruct (collect t) as [x t1] eqn:E. pose proof (same_collect _ _ _ E) as Hs. destruct (collect_w _ _ _ E) as (-> & _ & _).
  exists t1. split; [assumption|]. destruct (tw_free t1); [inversion H; subst; left; auto|]. destruct (b t1) as [y t2] eqn:Eb.
  right. exists t2. destruct y; inversion H; subst; auto.
Qed.
Lemma isfile_pget t q : isfile t q <-> exists i, pget q (w_names (tw_w t)) = Some i.
Proof. split; [apply pget_is_in|intros [i H]; eapply pget_some_in; exact H]. Qed.
Lemma not_isfile t q : ~ isfile t q <-> pget q (w_names (tw_w t)) = None.
Proof. split; [apply pget_not_in|apply pget_none]. Qed.
Lemma same_at t t' p : w_cwd (tw_w t') = w_cwd (tw_w t) -> at_place t' p = at_place t p.
Proof. unfold at_place. now intros ->. Qed.

Lemma t_open_eff p t r t' : t_open p t = (r, t') -> same t t' /\ (forall i, r = Ok i -> ~ isdir t (at_place t p) /\ isfile t (at_place t p)).
Proof.
  intros H. apply tsyscall_cases in H. destruct H as (t1 & S1 & [[-> ->]|H]); [split; [assumption|discriminate]|].
  apply with_fd_cases in H. destruct H as (t2 & S2 & [[-> ->]|(t3 & H & Ew & Ed)]); [split; [now apply same_trans with t1|discriminate]|].
  pose proof (same_trans _ _ _ S1 S2) as S. assert (S3 : same t2 t3 /\ forall i, r = Ok i -> ~ isdir t2 (at_place t2 p) /\ isfile t2 (at_place t2 p)).
  { destruct (is_dir _ _) eqn:E1; [inversion H; subst; split; [apply same_refl|discriminate]|]. apply is_dir_false in E1.
    destruct (pget _ _) as [j|] eqn:E2; inversion H; subst; (split; [apply same_refl|]); [|discriminate]. intros i _. split; [exact E1|]. apply isfile_pget. eauto. }
  destruct S3 as [S3 Hr]. split.
  - apply same_trans with t2; [assumption|]. unfold same in *. rewrite Ew, Ed. exact S3.
  - intros i Hi. specialize (Hr i Hi). destruct S as (A1 & A2 & _ & _ & A5). rewrite (same_at t t2 p A1) in Hr. unfold isdir, isfile in *. rewrite A2, A5 in Hr. exact Hr.
Qed.
Lemma prefix_below {A} (l a b : list A) : l = a ++ b -> b <> [] -> exists ns, ns <> [] /\ l = a ++ ns.
Proof. intros -> H. eauto. Qed.
Lemma t_mkdirall_eff d t r t' q : tree_wf t -> (forall x, x = at_place t d \/ below x (at_place t d) -> below x q \/ isdir t x) -> t_mkdirall d t = (r, t') ->
  tree_wf t' /\ grows q t t' /\ (r = Ok tt -> isdir t' (at_place t d)) /\
  (w_flt (tw_w t) = [] -> (forall x, x = at_place t d \/ below x (at_place t d) -> ~ isfile t x) -> r = Ok tt) /\
  (w_names (tw_w t') = w_names (tw_w t)).
Proof.
  intros Hwf Hq H. pose proof Hwf as (H1 & H2 & H3 & H4 & H5 & H6). unfold t_mkdirall, tbind in H. destruct (embed fault t) as [x t1] eqn:E.
  pose proof (same_embed _ _ _ _ still_fault E) as S.
  assert (Hx : exists f, x = Ok f /\ (w_flt (tw_w t) = [] -> f = None)) by (unfold embed, fault in E; destruct (w_flt (tw_w t)); inversion E; subst; eexists; split; [reflexivity|reflexivity|reflexivity|discriminate]). destruct Hx as (f & -> & Hf).
  destruct S as (A1 & A2 & A3 & A4 & A5). rewrite (same_at t t1 d A1), A2, A5 in H.
  destruct (mk_dirs _ _ _ _ _) as [ok ds] eqn:Em. inversion H; subst r t'. clear H.
  apply mk_dirs_spec in Em; [|exact H2|exact H4|].
  2:{ intros y Hy. apply pget_not_in. intros Hf'. exact (H6 y Hf' Hy). }
  destruct Em as (B1 & B2 & B3 & B4 & B5 & B6). cbn [app] in *.
  assert (G : grows q t (set_dirs t1 ds)).
  { unfold grows, isfile, isdir. cbn [tw_w tw_dirs set_dirs]. rewrite A1, A2, A3. split; [reflexivity|]. split; [reflexivity|]. split; [auto|]. split; [auto|]. split; [apply B1|].
    intros y Hy. destruct (B4 y Hy) as [?|(a & b & Ha & Eab & ->)]; [auto|]. destruct (Hq a) as [?|?]; auto.
    destruct b as [|z b]; [left; now rewrite app_nil_r in Eab|right; exists (z :: b); split; [discriminate|assumption]]. }
  split; [|split; [exact G|split; [|split; [|exact A2]]]].
  - unfold tree_wf, isdir, isfile. cbn [tw_w tw_dirs set_dirs]. rewrite A1, A2. split; [now apply (fs_wf_same_names (tw_w t))|].
    split; [apply B1; exact H2|]. split; [apply B1; exact H3|]. split; [exact B2|]. split.
    + intros y z Hy Hb. apply B1. exact (H5 y z Hy Hb).
    + intros y Hy Hd. apply pget_is_in in Hy. destruct Hy as [i Hi]. specialize (B3 y Hd). congruence.
  - intros Hr. destruct ok; [|discriminate]. destruct (B5 eq_refl) as [_ B]. specialize (B (at_place t d) [] (eq_sym (app_nil_r _))). exact B.
  - intros Hnf Hnofile. rewrite B6; [reflexivity|now rewrite (Hf Hnf)|]. intros a b Eab Ha. apply not_isfile, Hnofile.
    destruct b as [|z b]; [left; now rewrite app_nil_r in Eab|right; exists (z :: b); split; [discriminate|assumption]].
Qed.
Lemma removelast_split {A} (q : list A) : q <> [] -> exists x, q = removelast q ++ [x].
Proof. intros H. destruct (exists_last H) as (l & x & ->). exists x. now rewrite removelast_last. Qed.
Lemma t_create_eff p t r t' : tree_wf t -> t_create p t = (r, t') ->
  tree_wf t' /\ grows (at_place t p) t t' /\ (forall i, r = Ok i -> ~ isdir t (at_place t p) /\ isfile t' (at_place t p) /\ forall d, below d (at_place t p) -> isdir t' d).
Proof.
  intros Hwf H. apply tsyscall_cases in H. destruct H as (t1 & S1 & [[-> ->]|H]).
  { split; [now apply (same_wf t)|]. split; [now apply same_grows|discriminate]. }
  apply with_fd_cases in H. destruct H as (t2 & S2 & [[-> ->]|(t3 & H & Ew & Ed)]).
  { pose proof (same_trans _ _ _ S1 S2) as S. split; [now apply (same_wf t)|]. split; [now apply same_grows|discriminate]. }
  pose proof (same_trans _ _ _ S1 S2) as S. clear S1 S2 t1. pose proof (same_wf _ _ S Hwf) as Hwf2. pose proof S as (A1 & A2 & A3 & A4 & A5).
  rewrite <- (same_at t t2 p A1). set (q := at_place t2 p) in *.
  assert (R : tree_wf t3 /\ grows q t2 t3 /\ (forall i, r = Ok i -> ~ isdir t2 q /\ isfile t3 q /\ forall d, below d q -> isdir t3 d)).
  { cbv beta zeta in H. fold q in H. destruct (is_dir (tw_dirs t2) q) eqn:E1; [inversion H; subst; split; [assumption|split; [apply same_grows, same_refl|discriminate]]|]. apply is_dir_false in E1.
    destruct (pget q (w_names (tw_w t2))) as [j|] eqn:E2.
    - inversion H; subst r t3. clear S. assert (S : same t2 (set_w t2 (set_inos (tw_w t2) (lupd (w_inos (tw_w t2)) j [])))) by (repeat split; cbn; apply lupd_length).
      split; [now apply (same_wf t2)|]. split; [now apply same_grows|]. intros i _. split; [assumption|]. assert (F : isfile t2 q) by (apply isfile_pget; eauto).
      split; [exact F|]. intros d Hd. destruct Hwf2 as (_ & _ & _ & _ & W & _). exact (W q d F Hd).
    - destruct (is_dir (tw_dirs t2) (removelast q)) eqn:E3; [|inversion H; subst; split; [assumption|split; [apply same_grows, same_refl|discriminate]]].
      apply is_dir_spec in E3. inversion H; subst r t3. clear H. pose proof Hwf2 as (H1 & H2 & H3 & H4 & H5 & H6).
      assert (Hq : q <> []) by (intros Hq; apply E1; rewrite Hq; exact H2). destruct (removelast_split q Hq) as [x Ex].
      assert (Hup : forall d, below d q -> isdir t2 d).
      { intros d Hd. rewrite Ex in Hd. apply below_snoc in Hd. destruct Hd as [->|Hd]; [exact E3|eapply H4; [exact E3|exact Hd]]. }
      split; [|split].
      + unfold tree_wf, isdir, isfile. cbn [tw_w tw_dirs set_w w_cwd w_names w_inos]. split; [|split; [assumption|split; [assumption|split; [exact H4|split]]]].
        * destruct H1 as (F1 & F2 & F3). unfold fs_wf. cbn [w_names w_inos]. rewrite !map_app, app_length. cbn [map fst snd List.length]. split; [|split].
          -- apply nodup_snoc; [assumption|]. now apply pget_none.
          -- apply nodup_snoc; [assumption|]. intros Hin. apply in_map_iff in Hin. destruct Hin as (n & E & Hin). rewrite Forall_forall in F3. specialize (F3 _ Hin). cbn in F3. lia.
          -- apply Forall_app. split; [eapply Forall_impl; [|exact F3]; cbn; intros; lia|]. repeat constructor. cbn. lia.
        * intros y d Hy Hb. rewrite map_app in Hy. apply in_app_iff in Hy. destruct Hy as [Hy|[<-|[]]]; [exact (H5 y d Hy Hb)|apply Hup, Hb].
        * intros y Hy. rewrite map_app in Hy. apply in_app_iff in Hy. destruct Hy as [Hy|[<-|[]]]; [exact (H6 y Hy)|exact E1].
      + unfold grows, isfile, isdir. cbn [tw_w tw_dirs set_w w_cwd w_names w_lfps]. split; [reflexivity|]. split; [reflexivity|]. rewrite map_app. split; [intros y Hy; apply in_app_iff; auto|].
        split; [intros y Hy; apply in_app_iff in Hy; destruct Hy as [Hy|[<-|[]]]; auto|]. split; auto.
      + intros i _. split; [assumption|]. split; [unfold isfile; cbn [tw_w set_w w_names]; rewrite map_app; apply in_app_iff; right; left; reflexivity|exact Hup]. }
  destruct R as (R1 & R2 & R3). unfold tree_wf, grows, isdir, isfile in *. rewrite Ew, Ed. split; [exact R1|]. rewrite A1, A2, A3, A5 in R2. rewrite A5 in R3. split; [exact R2|exact R3].
Qed.

(** ** Opening one file *)
Definition can_put (t : tworld) (q : list bytes) : Prop := ~ isdir t q /\ forall d, below d q -> ~ isfile t d.
Lemma can_put_file t q : tree_wf t -> isfile t q -> can_put t q.
Proof.
  intros (H1 & H2 & H3 & H4 & H5 & H6) Hq. split; [now apply H6|]. intros d Hd Hf. apply (H6 d Hf). exact (H5 q d Hq Hd).
Qed.
Lemma grows_at q t t' p : grows q t t' -> at_place t' p = at_place t p.
Proof. intros (A & _). now apply same_at. Qed.

Lemma tCZF_eff p L t r t' : tree_wf t -> clean_path p -> tCreateZeroFilledFile p L t = (r, t') ->
  tree_wf t' /\ grows (at_place t p) t t' /\ (forall i, r = Ok i -> can_put t (at_place t p) /\ isfile t' (at_place t p)).
Proof.
  intros Hwf Hcl H. unfold tCreateZeroFilledFile, tbind at 1 in H. set (q := at_place t p). pose proof Hwf as (H1 & H2 & H3 & H4 & H5 & H6).
  destruct (t_mkdirall (Dir p) t) as [x t1] eqn:E1.
  assert (Hup : forall y, y = at_place t (Dir p) \/ below y (at_place t (Dir p)) -> below y q \/ isdir t y).
  { destruct (clean_parent t p H2 H3 H4 Hcl) as [[_ Hd]|[nm Hn]].
    - intros y [->|Hy]; right; [exact Hd|]. exact (H4 _ _ Hd Hy).
    - intros y Hy. left. unfold q. rewrite Hn. apply below_snoc. exact Hy. }
  destruct (t_mkdirall_eff _ _ _ _ q Hwf Hup E1) as (W1 & G1 & D1 & _ & N1).
  destruct x as [[]|e| |]; [|inversion H; subst; split; [assumption|split; [assumption|discriminate]]..].
  specialize (D1 eq_refl). unfold tbind at 1 in H. destruct (t_create p t1) as [y t2] eqn:E2.
  apply t_create_eff in E2; [|assumption]. rewrite (grows_at _ _ _ p G1) in E2. fold q in E2. destruct E2 as (W2 & G2 & R2).
  pose proof (grows_trans _ _ _ _ G1 G2) as G. destruct y as [j|e| |]; [|inversion H; subst; split; [assumption|split; [assumption|discriminate]]..].
  destruct (R2 j eq_refl) as (R3 & R4 & R5).
  assert (S : same t2 t').
  { eapply same_losing; [|exact H]. intros z t3 Hz. unfold tbind in Hz. destruct (embed (AppendZeros j L) t2) as [u t4] eqn:E4.
    apply same_embed in E4; [|apply still_append]. destruct u; inversion Hz; subst; exact E4. }
  split; [now apply (same_wf t2)|]. split; [eapply grows_trans; [exact G|now apply same_grows]|]. intros i _. destruct G as (_ & _ & F1 & F2 & F3 & F4). split; [split|].
  - intros Hd. apply R3. destruct G1 as (_ & _ & _ & _ & K & _). apply K, Hd.
  - intros d Hd Hf. specialize (R5 d Hd). destruct W2 as (_ & _ & _ & _ & _ & W6). exact (W6 d (F1 d Hf) R5).
  - unfold isfile. destruct S as (_ & -> & _). exact R4.
Qed.

Lemma tutils_eff p L t r t' : tree_wf t -> clean_path p -> tutils_OCAT p L t = (r, t') ->
  tree_wf t' /\ grows (at_place t p) t t' /\ (forall i, r = Ok i -> can_put t (at_place t p) /\ isfile t' (at_place t p) /\ 0 <= L).
Proof.
  intros Hwf Hcl H. unfold tutils_OCAT in H. destruct (t_open p t) as [x t1] eqn:E1. apply t_open_eff in E1. destruct E1 as [S1 R1].
  assert (Hfit : forall j t2, losing (embed (fit j L)) t2 = (r, t') -> same t2 t' /\ forall i, r = Ok i -> 0 <= L).
  { intros j t2 Hf. split; [eapply same_losing; [|exact Hf]; intros z t3; apply same_embed, still_fit|]. unfold losing, embed in Hf.
    destruct (fit j L (tw_w t2)) as [[a|e| |] w1] eqn:Ef; inversion Hf; subst; try discriminate. intros _ _. apply fit_result in Ef. apply Ef. }
  destruct x as [j|e| |]; [| |inversion H; subst; split; [now apply (same_wf t)|split; [now apply same_grows|discriminate]]..].
  - destruct (Hfit _ _ H) as [S2 R2]. pose proof (same_trans _ _ _ S1 S2) as S. split; [now apply (same_wf t)|]. split; [now apply same_grows|]. intros i Hi.
    destruct (R1 j eq_refl) as [_ Hf]. split; [now apply can_put_file|]. split; [|exact (R2 i Hi)]. unfold isfile. destruct S as (_ & -> & _). exact Hf.
  - destruct (tCreateZeroFilledFile p L t1) as [y t2] eqn:E2. apply tCZF_eff in E2; [|now apply (same_wf t)|assumption].
    rewrite (same_at t t1 p) in E2 by apply S1. destruct E2 as (W2 & G2 & R2). pose proof (grows_trans _ _ _ _ (same_grows (at_place t p) _ _ S1) G2) as G.
    destruct y as [j|e2| |]; [|inversion H; subst; split; [assumption|split; [assumption|discriminate]]..].
    destruct (Hfit _ _ H) as [S2 R3]. split; [now apply (same_wf t2)|]. split; [eapply grows_trans; [exact G|now apply same_grows]|]. intros i Hi.
    destruct (R2 j eq_refl) as [R4 R5]. split; [|split; [|exact (R3 i Hi)]].
    + destruct S1 as (A1 & A2 & _ & _ & A5). unfold can_put, isdir, isfile in *. now rewrite A2, A5 in R4.
    + unfold isfile. destruct S2 as (_ & -> & _). exact R5.
Qed.

(** The same without the table of open files. *)
Definition grown (q : list bytes) (t t' : tworld) : Prop :=
  w_cwd (tw_w t') = w_cwd (tw_w t) /\
  (forall x, isfile t x -> isfile t' x) /\ (forall x, isfile t' x -> isfile t x \/ x = q) /\
  (forall x, isdir t x -> isdir t' x) /\ (forall x, isdir t' x -> isdir t x \/ below x q).
Lemma tOCAT_eff p L t r t' : tree_wf t -> clean_path p -> tOCAT p L t = (r, t') ->
  tree_wf t' /\ grown (at_place t p) t t' /\ (r = Ok tt -> can_put t (at_place t p) /\ isfile t' (at_place t p) /\ 0 <= L).
Proof.
  intros Hwf Hcl H. unfold tOCAT, tbind in H. destruct (tutils_OCAT p L t) as [x t1] eqn:E. destruct (tutils_eff _ _ _ _ _ Hwf Hcl E) as (W & (G1 & G2 & G3 & G4 & G5 & G6) & R).
  destruct x as [i|e| |]; inversion H; subst; [|split; [assumption|split; [repeat split; assumption|discriminate]]..].
  split; [exact W|]. split; [repeat split; assumption|]. intros _. exact (R i eq_refl).
Qed.

(** ** Opening all of them *)
Lemma fits_cons D F q qs : fits D F (q :: qs) <->
  (~ D q /\ (forall d, below d q -> ~ F d)) /\ fits (fun x => D x \/ below x q) (fun x => F x \/ x = q) qs.
Proof.
  unfold fits. split.
  - intros (A & C & E). split; [split; [apply A; left; reflexivity|intros d; apply C; left; reflexivity]|]. split; [|split].
    + intros x Hx [Hd|Hb]; [exact (A x (or_intror Hx) Hd)|]. exact (E q x (or_introl eq_refl) (or_intror Hx) Hb).
    + intros x d Hx Hb [Hf| ->]; [exact (C x d (or_intror Hx) Hb Hf)|]. exact (E x q (or_intror Hx) (or_introl eq_refl) Hb).
    + intros x d Hx Hd. apply E; right; assumption.
  - intros ([A0 C0] & A & C & E). split; [|split].
    + intros x [<-|Hx]; [exact A0|]. intros Hd. exact (A x Hx (or_introl Hd)).
    + intros x d [<-|Hx] Hb Hf; [exact (C0 d Hb Hf)|]. exact (C x d Hx Hb (or_introl Hf)).
    + intros x d [<-|Hx] [<-|Hd] Hb; [exact (below_irrefl _ Hb)|exact (A d Hd (or_intror Hb))|exact (C x q Hx Hb (or_intror eq_refl))|exact (E x d Hx Hd Hb)].
Qed.
Lemma fits_mono (D D' F F' : list bytes -> Prop) qs : (forall x, D' x -> D x) -> (forall x, F' x -> F x) -> fits D F qs -> fits D' F' qs.
Proof. intros HD HF (A & C & E). split; [|split]; [intros q Hq Hd; exact (A q Hq (HD _ Hd))|intros q d Hq Hb Hf; exact (C q d Hq Hb (HF _ Hf))|exact E]. Qed.

Lemma grown_all_refl qs t : grown_all qs t t.
Proof. repeat split; auto. Qed.
Lemma places_cons t t' e r : w_cwd (tw_w t') = w_cwd (tw_w t) -> places t (e :: r) = at_place t (eb_local (en_base e)) :: places t' r.
Proof. intros H. unfold places, at_place. rewrite H. reflexivity. Qed.
Lemma grown_all_cons q qs a b c : grown q a b -> grown_all qs b c -> grown_all (q :: qs) a c.
Proof.
  intros (A1 & A2 & A3 & A4 & A5) (B1 & B2 & B3 & B4 & B5). split; [congruence|]. split; [auto|]. split; [|split; [auto|]].
  - intros x Hx. destruct (B3 x Hx) as [H|H]; [destruct (A3 x H) as [?|<-]|]; cbn; auto.
  - intros x Hx. destruct (B5 x Hx) as [H|(y & Hy & Hb)]; [destruct (A5 x H) as [?|?]; [auto|right; exists q; cbn; auto]|right; exists y; cbn; auto].
Qed.
Lemma grown_start q qs a b : grown q a b -> grown_all (q :: qs) a b.
Proof. intros G. apply grown_all_cons with b; [exact G|apply grown_all_refl]. Qed.

Lemma wf_up t q d : tree_wf t -> isfile t q -> below d q -> isdir t d.
Proof. intros (_ & _ & _ & _ & H & _). apply H. Qed.
(** Whatever fails: the tree stays one, nothing goes away, and what is new is a file of the torrent or above one. If all were opened, they fit. *)
Lemma tOCATAll_eff files : forall t r t', tree_wf t -> clean_entries files -> tOCATAll files t = (r, t') ->
  tree_wf t' /\ grown_all (places t files) t t' /\
  (r = Ok tt -> fits (isdir t) (isfile t) (places t files) /\ (forall q, In q (places t files) -> isfile t' q) /\ Forall (fun e => 0 <= en_len e) files).
Proof.
  induction files as [|e files IH]; intros t r t' Hwf Hcl H; cbn [tOCATAll] in H.
  { inversion H; subst. split; [assumption|]. split; [apply grown_all_refl|]. intros _. split; [|split; [intros q []|constructor]]. split; [intros q []|split; [intros q d []|intros q d []]]. }
  inversion Hcl as [|? ? Hc1 Hc2]; subst. unfold tbind in H. destruct (tOCAT (eb_local (en_base e)) (en_len e) t) as [x t1] eqn:E.
  destruct (tOCAT_eff _ _ _ _ _ Hwf Hc1 E) as (W1 & G1 & R1). pose proof G1 as (A1 & A2 & A3 & A4 & A5).
  rewrite (places_cons t t1 e files A1).
  destruct x as [[]|er| |]; [|inversion H; subst; split; [assumption|split; [now apply grown_start|discriminate]]..].
  destruct (IH _ _ _ W1 Hc2 H) as (W2 & G2 & R2). split; [assumption|]. split; [eapply grown_all_cons; eassumption|]. intros Hr.
  destruct (R1 eq_refl) as ([P1 P2] & P3 & P4). destruct (R2 Hr) as (Q1 & Q2 & Q3). split; [|split].
  - apply fits_cons. split; [split; assumption|]. eapply fits_mono; [| |exact Q1].
    + intros y [Hy|Hy]; [now apply A4|]. eapply wf_up; eassumption.
    + intros y [Hy| ->]; [now apply A2|exact P3].
  - intros q [<-|Hq]; [apply G2; exact P3|now apply Q2].
  - constructor; assumption.
Qed.
