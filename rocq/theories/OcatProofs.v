(** OcatProofs.v: opening, creating, truncating and growing files (src/utils/futils.go OCAT, fileio.go OCATAll). *)
From Coq Require Import ZifyBool ZifyNat ZifyN.
From Verif Require Import Base BencodeModel PathModel PathSpec LayoutModel LayoutSpec LayoutProofs PieceMapProofs FsModel FsSpec FsProofs.

Lemma zlen_zeros n : 0 <= n -> zlen (zeros n) = n.
Proof. intros. unfold zeros, zlen. rewrite repeat_length. lia. Qed.
Lemma zeros_add a b : 0 <= a -> 0 <= b -> zeros (a + b) = zeros a ++ zeros b.
Proof. intros. unfold zeros. rewrite Z2Nat.inj_add by lia. apply repeat_app. Qed.
Lemma firstn_zeros k n : 0 <= n -> exists m, 0 <= m <= n /\ firstn k (zeros n) = zeros m.
Proof.
  intros Hn. exists (Z.min (Z.of_nat k) n). split; [lia|]. unfold zeros.
  assert (H : forall a b, firstn a (repeat x00 b) = repeat x00 (Nat.min a b)).
  { induction a; intros [|b]; cbn; [reflexivity..|]. now rewrite IHa. }
  rewrite H. f_equal. lia.
Qed.
Lemma pwrite_end c d : pwrite c (zlen c) d = c ++ d.
Proof.
  unfold pwrite. destruct d as [|x d]; [now rewrite app_nil_r|]. rewrite Z.sub_diag. change (zeros 0) with (@nil byte). cbn [app].
  unfold zlen. rewrite Nat2Z.id, firstn_all. rewrite skipn_all2 by lia. now rewrite app_nil_r.
Qed.
Lemma nth_error_zeros n x : (x < Z.to_nat n)%nat -> nth_error (zeros n) x = Some x00.
Proof. unfold zeros. generalize (Z.to_nat n) as m. intros m. revert x. induction m; intros [|x] H; cbn; [lia|lia|reflexivity|apply IHm; lia]. Qed.

Lemma lupd_length {A} (l : list A) i v : List.length (lupd l i v) = List.length l.
Proof. revert i. induction l as [|x l IH]; intros [|i]; cbn; congruence. Qed.
Lemma lupd_nth_same {A} (l : list A) i v : (i < List.length l)%nat -> nth_error (lupd l i v) i = Some v.
Proof. revert i. induction l as [|x l IH]; intros [|i] H; cbn in *; [lia|lia|reflexivity|apply IH; lia]. Qed.
Lemma lupd_nth_other {A} (l : list A) i j v : i <> j -> nth_error (lupd l i v) j = nth_error l j.
Proof. revert i j. induction l as [|x l IH]; intros [|i] [|j] H; cbn; [reflexivity..|congruence|reflexivity|reflexivity|apply IH; congruence]. Qed.
Lemma lupd_twice {A} (l : list A) i u v : lupd (lupd l i u) i v = lupd l i v.
Proof. revert i. induction l as [|x l IH]; intros [|i]; cbn; [reflexivity..|now rewrite IH]. Qed.

Lemma nodup_snoc {A} (l : list A) x : NoDup l -> ~ In x l -> NoDup (l ++ [x]).
Proof.
  induction l as [|a l IH]; cbn; intros HN Hx; [constructor; [intros []|constructor]|]. inversion HN; subst. constructor.
  - intros Hin. apply in_app_or in Hin. destruct Hin as [Hin|[Hin|[]]]; [contradiction|]. apply Hx. left. congruence.
  - apply IH; [assumption|]. intros H. apply Hx. right. assumption.
Qed.

Lemma nth_error_firstn_lt {A} (l : list A) n x : (x < n)%nat -> nth_error (firstn n l) x = nth_error l x.
Proof. revert n x. induction l as [|a l IH]; intros [|n] [|x] H; cbn; try lia; try reflexivity. apply IH. lia. Qed.

Lemma set_inos_same w : set_inos w (w_inos w) = w.
Proof. destruct w; reflexivity. Qed.
Lemma nth_of_error (l : list bytes) i c : nth_error l i = Some c -> nth i l [] = c.
Proof. intros H. now apply nth_error_nth. Qed.

(** os_write at the end of the file, with or without fault. *)
Lemma os_write_end i c n w : nth_error (w_inos w) i = Some c -> 0 <= n ->
  exists m w' r, os_write i (zlen c) (zeros n) w = (r, w') /\ 0 <= m <= n /\
    w_cwd w' = w_cwd w /\ w_names w' = w_names w /\ w_lfps w' = w_lfps w /\ w_inos w' = lupd (w_inos w) i (c ++ zeros m) /\
    ((r = Ok tt /\ m = n) \/ (r = Err EIO /\ ~ no_faults w)) /\ (no_faults w -> no_faults w').
Proof.
  intros Hc Hn. unfold os_write, iobind, fault, content, put_content, lift. destruct (w_flt w) as [|[k|] fl] eqn:E; cbn [w_inos w_cwd w_names w_lfps w_flt set_inos].
  - rewrite (nth_of_error _ _ _ Hc), pwrite_end. exists n, (set_inos w (lupd (w_inos w) i (c ++ zeros n))), (Ok tt).
    split; [reflexivity|]. split; [lia|]. repeat (split; [reflexivity|]). split; [left; auto|]. intros H. exact H.
  - rewrite (nth_of_error _ _ _ Hc), pwrite_end. destruct (firstn_zeros (Z.to_nat k) n Hn) as (m & Hm & ->).
    eexists m, _, (Err EIO). split; [reflexivity|]. split; [lia|]. repeat (split; [reflexivity|]). unfold no_faults. rewrite E.
    split; [right; split; [reflexivity|discriminate]|discriminate].
  - rewrite (nth_of_error _ _ _ Hc), pwrite_end. eexists n, _, (Ok tt). split; [reflexivity|]. split; [lia|]. repeat (split; [reflexivity|]).
    unfold no_faults. rewrite E. split; [left; auto|discriminate].
Qed.

Lemma writeSize_pos : 0 < writeSize. Proof. reflexivity. Qed.

Lemma zeros_loop_spec fuel : forall i c left w, nth_error (w_inos w) i = Some c -> 0 <= left -> left < Z.of_nat fuel * writeSize - writeSize ->
  exists m w' r, zeros_loop fuel i (zlen c) left w = (r, w') /\ 0 <= m <= left /\
    w_cwd w' = w_cwd w /\ w_names w' = w_names w /\ w_lfps w' = w_lfps w /\ w_inos w' = lupd (w_inos w) i (c ++ zeros m) /\
    ((r = Ok tt /\ m = left) \/ (r = Err EIO /\ ~ no_faults w)) /\ (no_faults w -> no_faults w').
Proof.
  pose proof writeSize_pos as HW. Opaque writeSize.
  induction fuel as [|fuel IH]; intros i c left w Hc H0 Hf; [lia|].
  cbn [zeros_loop]. destruct (Z.eqb_spec left 0) as [->|Hl].
  { exists 0, w, (Ok tt). split; [reflexivity|]. split; [lia|]. repeat (split; [reflexivity|]). split; [|auto].
    change (zeros 0) with (@nil byte). rewrite app_nil_r. symmetry. now apply lupd_same. }
  destruct (Z.ltb_spec writeSize left) as [Hlt|Hge].
  - destruct (os_write_end i c writeSize w Hc ltac:(lia)) as (m1 & w1 & r1 & E1 & Hm1 & A1 & A2 & A3 & A4 & A5 & A6).
    unfold iobind. rewrite E1. destruct A5 as [[-> ->]|[-> Hnf]].
    + assert (Hc1 : nth_error (w_inos w1) i = Some (c ++ zeros writeSize)).
      { rewrite A4. apply lupd_nth_same. apply nth_error_Some. congruence. }
      destruct (IH i _ (left - writeSize) w1 Hc1) as (m2 & w2 & r2 & E2 & Hm2 & B1 & B2 & B3 & B4 & B5 & B6); [lia|nia|].
      rewrite zlen_app, zlen_zeros in E2 by lia. rewrite E2. exists (writeSize + m2), w2, r2.
      split; [reflexivity|]. split; [lia|]. split; [congruence|]. split; [congruence|]. split; [congruence|].
      split. { rewrite B4, A4, lupd_twice, zeros_add, app_assoc by lia. reflexivity. }
      split; [|auto]. destruct B5 as [[-> ->]|[-> ?]]; [left; split; [reflexivity|lia]|right; split; [reflexivity|]]. auto.
    + exists m1, w1, (Err EIO). split; [reflexivity|]. split; [lia|]. auto 10.
  - replace (left <? 0) with false by lia.
    destruct (os_write_end i c left w Hc H0) as (m1 & w1 & r1 & E1 & Hm1 & A1 & A2 & A3 & A4 & A5 & A6).
    unfold iobind. rewrite E1. destruct A5 as [[-> ->]|[-> Hnf]].
    + destruct fuel as [|fuel']; [lia|]. cbn [zeros_loop]. change (0 =? 0) with true. cbn iota. exists left, w1, (Ok tt).
      split; [reflexivity|]. split; [lia|]. auto 10.
    + exists m1, w1, (Err EIO). split; [reflexivity|]. split; [lia|]. auto 10.
Qed.

Definition no_flt (w : world) : world := mkw (w_cwd w) (w_names w) (w_inos w) (tl (w_flt w)) (w_lfps w).
Lemma syscall_ok {A} (b : io A) w : match w_flt w with Some _ :: _ => False | _ => True end -> syscall b w = b (no_flt w).
Proof. unfold syscall, iobind, fault, no_flt. destruct w as [c nm ino [|[k|] fl] lf]; cbn; intros H; [reflexivity|contradiction|reflexivity]. Qed.
Lemma syscall_bad {A} (b : io A) w k fl : w_flt w = Some k :: fl -> syscall b w = (Err EIO, no_flt w).
Proof. intros H. unfold syscall, iobind, fault, no_flt. rewrite H. reflexivity. Qed.
Lemma no_flt_id w : no_faults w -> no_flt w = w.
Proof. destruct w as [c nm ino fl lf]. unfold no_faults, no_flt. cbn. now intros ->. Qed.

Lemma AppendZeros_spec i c n w : nth_error (w_inos w) i = Some c -> 0 <= n ->
  exists m w' r, AppendZeros i n w = (r, w') /\ 0 <= m <= n /\
    w_cwd w' = w_cwd w /\ w_names w' = w_names w /\ w_lfps w' = w_lfps w /\ w_inos w' = lupd (w_inos w) i (c ++ zeros m) /\
    ((r = Ok tt /\ m = n) \/ (r = Err EIO /\ ~ no_faults w)) /\ (no_faults w -> no_faults w').
Proof.
  intros Hc Hn. unfold AppendZeros, os_size, iobind.
  assert (Hcase : match w_flt w with Some _ :: _ => False | _ => True end \/ exists k fl, w_flt w = Some k :: fl)
    by (destruct (w_flt w) as [|[k|] fl]; [auto|right; eauto|auto]).
  destruct Hcase as [Hok|(k & fl & Hbad)].
  - rewrite syscall_ok by assumption. cbn [content ret iobind]. unfold content, ret.
    assert (Hc1 : nth_error (w_inos (no_flt w)) i = Some c) by exact Hc. rewrite (nth_of_error _ _ _ Hc1).
    destruct (zeros_loop_spec (Z.to_nat (n / writeSize) + 2) i c n (no_flt w) Hc1 Hn) as (m & w' & r & E & A1 & A2 & A3 & A4 & A5 & A6 & A7).
    { pose proof writeSize_pos. pose proof (Z.mod_pos_bound n writeSize ltac:(lia)). pose proof (Z.div_mod n writeSize ltac:(lia)). pose proof (Z.div_pos n writeSize Hn ltac:(lia)). nia. }
    exists m, w', r. split; [exact E|]. cbn [no_flt w_cwd w_names w_lfps w_inos] in *.
    assert (Hnf : no_faults w -> no_faults (no_flt w)) by (intros H; now rewrite no_flt_id).
    split; [lia|]. repeat (split; [assumption|]). split; [|auto]. destruct A6 as [?|[? ?]]; [left; assumption|right; split; [assumption|tauto]].
  - rewrite (syscall_bad _ w k fl Hbad). exists 0, (no_flt w), (Err EIO). split; [reflexivity|]. split; [lia|]. repeat (split; [reflexivity|]).
    unfold no_faults. rewrite Hbad. split; [|split; [right; split; [reflexivity|discriminate]|discriminate]].
    change (zeros 0) with (@nil byte). rewrite app_nil_r. symmetry. now apply lupd_same.
Qed.

Lemma zeros_loop_negative f i pos left w : left < 0 -> zeros_loop (S f) i pos left w = (Panic, w).
Proof.
  pose proof writeSize_pos. intros. cbn [zeros_loop]. replace (left =? 0) with false by lia. replace (writeSize <? left) with false by lia.
  replace (left <? 0) with true by lia. reflexivity.
Qed.

(** Sizing an open file. *)
Definition size_to (i : nat) (length : Z) : io nat :=
  run chkLen <- os_size i;
  if chkLen =? length then ret i
  else if length <? chkLen then run u <- os_truncate i length; ret i
  else run u <- AppendZeros i (sub64 length chkLen); ret i.

Lemma resized_same c : resized c (zlen c) c.
Proof. split; [reflexivity|]. intros x Hx. replace (x <? zlen c) with true by lia. reflexivity. Qed.
Lemma resized_app c n : 0 <= n -> resized c (zlen c + n) (c ++ zeros n).
Proof.
  intros Hn. split; [rewrite zlen_app, zlen_zeros; lia|]. intros x Hx. destruct (Z.ltb_spec x (zlen c)) as [H|H].
  - apply nth_error_app1. unfold zlen in H. lia.
  - rewrite nth_error_app2 by (unfold zlen in *; lia). apply nth_error_zeros. unfold zlen in *. lia.
Qed.
Lemma resized_trunc c L : 0 <= L < zlen c -> resized c L (ftruncate c L).
Proof.
  intros HL. unfold ftruncate. replace (zeros (L - zlen c)) with (@nil byte) by (unfold zeros; replace (Z.to_nat (L - zlen c)) with 0%nat by lia; reflexivity).
  rewrite app_nil_r. split; [unfold zlen in *; rewrite firstn_length; lia|]. intros x Hx. replace (x <? zlen c) with true by lia.
  apply nth_error_firstn_lt. lia.
Qed.

Lemma keeps_same c L : keeps c L c. Proof. intros x _. reflexivity. Qed.
Lemma keeps_app c L d : keeps c L (c ++ d).
Proof. intros x Hx. apply nth_error_app1. unfold zlen in Hx. lia. Qed.

Lemma size_to_spec i c L w : nth_error (w_inos w) i = Some c -> 0 <= L <= max64 ->
  exists c' w' r, size_to i L w = (r, w') /\ w_cwd w' = w_cwd w /\ w_names w' = w_names w /\ w_lfps w' = w_lfps w /\
    w_inos w' = lupd (w_inos w) i c' /\ keeps c L c' /\
    ((r = Ok i /\ resized c L c') \/ (r = Err EIO /\ ~ no_faults w)) /\ (no_faults w -> no_faults w').
Proof.
  intros Hc HL. unfold size_to, iobind.
  assert (Hcase : forall w : world, match w_flt w with Some _ :: _ => False | _ => True end \/ exists k fl, w_flt w = Some k :: fl)
    by (intros ?; destruct (w_flt _) as [|[k|] fl]; [auto|right; eauto|auto]).
  destruct (Hcase w) as [Hok|(k & fl & Hbad)].
  2:{ unfold os_size. rewrite (syscall_bad _ w k fl Hbad). exists c, (no_flt w), (Err EIO). split; [reflexivity|]. repeat (split; [reflexivity|]).
      split; [symmetry; now apply lupd_same|]. split; [apply keeps_same|]. unfold no_faults. rewrite Hbad. split; [right; split; [reflexivity|]|]; discriminate. }
  unfold os_size. rewrite syscall_ok by assumption. unfold iobind at 1, content, ret at 1.
  change (w_inos (no_flt w)) with (w_inos w). rewrite (nth_of_error _ _ _ Hc).
  assert (Hnf : no_faults w -> no_faults (no_flt w)) by (intros H; now rewrite no_flt_id).
  assert (Hnf' : ~ no_faults (no_flt w) -> ~ no_faults w) by auto.
  pose proof (zlen_nonneg c) as Hz.
  destruct (Z.eqb_spec (zlen c) L) as [E|E].
  { exists c, (no_flt w), (Ok i). split; [reflexivity|]. repeat (split; [reflexivity|]). split; [symmetry; now apply lupd_same|]. split; [apply keeps_same|].
    split; [left; split; [reflexivity|rewrite <- E; apply resized_same]|auto]. }
  destruct (Z.ltb_spec L (zlen c)) as [Hlt|Hge].
  - unfold os_truncate. replace (L <? 0) with false by lia. destruct (Hcase (no_flt w)) as [Hok2|(k & fl & Hbad)].
    + rewrite syscall_ok by assumption. unfold iobind, content, put_content, ret. change (w_inos (no_flt (no_flt w))) with (w_inos w). rewrite (nth_of_error _ _ _ Hc).
      exists (ftruncate c L), (set_inos (no_flt (no_flt w)) (lupd (w_inos w) i (ftruncate c L))), (Ok i). split; [reflexivity|]. repeat (split; [reflexivity|]).
      pose proof (resized_trunc c L ltac:(lia)) as Hr. split.
      { intros x Hx. destruct Hr as [_ Hr]. rewrite Hr by lia. replace (x <? zlen c) with true by lia. reflexivity. }
      split; [left; auto|]. intros H. unfold no_faults in *. cbn. rewrite H. reflexivity.
    + rewrite (syscall_bad _ _ k fl Hbad). exists c, (no_flt (no_flt w)), (Err EIO). split; [reflexivity|]. repeat (split; [reflexivity|]).
      split; [symmetry; now apply lupd_same|]. split; [apply keeps_same|]. split; [right; split; [reflexivity|]|].
      * apply Hnf'. unfold no_faults. rewrite Hbad. discriminate.
      * intros H. exfalso. apply Hnf in H. unfold no_faults in H. congruence.
  - unfold sub64. rewrite i64_id by (unfold min64, max64 in *; lia).
    destruct (AppendZeros_spec i c (L - zlen c) (no_flt w) Hc ltac:(lia)) as (m & w' & r & E1 & Hm & A1 & A2 & A3 & A4 & A5 & A6).
    rewrite E1. exists (c ++ zeros m), w'. destruct A5 as [[-> ->]|[-> Hn]].
    + exists (Ok i). split; [reflexivity|]. repeat (split; [assumption|]). split; [apply keeps_app|]. split; [|auto]. left. split; [reflexivity|].
      pose proof (resized_app c (L - zlen c) ltac:(lia)) as Hr. replace (zlen c + (L - zlen c)) with L in Hr by lia. exact Hr.
    + exists (Err EIO). split; [reflexivity|]. repeat (split; [assumption|]). split; [apply keeps_app|]. split; [|auto]. right. auto.
Qed.

Lemma utils_OCAT_eq p L w : utils_OCAT p L w =
  match (match os_open p w with (Err _, w') => CreateZeroFilledFile p L w' | r => r end) with
  | (Ok i, w') => size_to i L w' | r => r end.
Proof. unfold utils_OCAT, size_to. destruct (os_open p w) as [[a|e| |] w1]; [reflexivity| |reflexivity..]. destruct (CreateZeroFilledFile p L w1) as [[a|e2| |] w2]; reflexivity. Qed.

(** ** Names *)
Lemma place_eqb_spec a b : place_eqb a b = true <-> a = b.
Proof. unfold place_eqb. destruct (list_eq_dec bytes_dec a b); split; congruence. Qed.
Lemma pget_in {A} q (m : list (list bytes * A)) v : pget q m = Some v -> In (q, v) m.
Proof.
  induction m as [|[k x] m IH]; cbn; [discriminate|]. destruct (place_eqb q k) eqn:E.
  - apply place_eqb_spec in E. subst. intros H. injection H as ->. auto.
  - auto.
Qed.
Lemma pget_none {A} q (m : list (list bytes * A)) : pget q m = None -> ~ In q (map fst m).
Proof.
  induction m as [|[k x] m IH]; cbn; [auto|]. destruct (place_eqb q k) eqn:E; [discriminate|].
  intros H [H1|H1]; [subst|exact (IH H H1)]. assert (place_eqb q q = true) by now apply place_eqb_spec. congruence.
Qed.
Lemma pget_app_other {A} q k (m : list (list bytes * A)) v : q <> k -> pget q (m ++ [(k, v)]) = pget q m.
Proof.
  intros H. induction m as [|[k' x] m IH]; cbn.
  - destruct (place_eqb q k) eqn:E; [apply place_eqb_spec in E; contradiction|reflexivity].
  - now rewrite IH.
Qed.
Lemma pget_app_new {A} k (m : list (list bytes * A)) v : pget k m = None -> pget k (m ++ [(k, v)]) = Some v.
Proof.
  induction m as [|[k' x] m IH]; cbn.
  - assert (place_eqb k k = true) as -> by now apply place_eqb_spec. reflexivity.
  - destruct (place_eqb k k'); [discriminate|]. exact IH.
Qed.
Lemma nodup_snd {A} (m : list (A * nat)) a b i : NoDup (map snd m) -> In (a, i) m -> In (b, i) m -> a = b.
Proof.
  induction m as [|[k x] m IH]; cbn; [intros _ []|]. intros HN. inversion HN as [|? ? Hn HN']; subst. intros [Ha|Ha] [Hb|Hb].
  - congruence.
  - injection Ha as -> ->. exfalso. apply Hn. apply in_map_iff. exists (b, i). auto.
  - injection Hb as -> ->. exfalso. apply Hn. apply in_map_iff. exists (a, i). auto.
  - auto.
Qed.
Lemma fs_wf_inj w q1 q2 i : fs_wf w -> pget q1 (w_names w) = Some i -> pget q2 (w_names w) = Some i -> q1 = q2.
Proof. intros (_ & H & _) A C. apply pget_in in A, C. eapply nodup_snd; eauto. Qed.
Lemma fs_wf_bound w q i : fs_wf w -> pget q (w_names w) = Some i -> (i < List.length (w_inos w))%nat.
Proof. intros (_ & _ & H) A. apply pget_in in A. rewrite Forall_forall in H. exact (H _ A). Qed.
Lemma fs_wf_same_names w w' : w_names w' = w_names w -> List.length (w_inos w') = List.length (w_inos w) -> fs_wf w -> fs_wf w'.
Proof. unfold fs_wf. intros -> ->. auto. Qed.

(** What OCAT does: the place holds an inode with the resized content, all else is kept. *)
Definition frame (places : list (list bytes)) (w w' : world) : Prop :=
  w_cwd w' = w_cwd w /\
  forall q, ~ In q places -> pget q (w_names w') = pget q (w_names w) /\
    forall i, pget q (w_names w) = Some i -> nth_error (w_inos w') i = nth_error (w_inos w) i.


Lemma OCAT_existing p L w i c : fs_wf w -> 0 <= L <= max64 -> pget (place (w_cwd w) p) (w_names w) = Some i -> nth_error (w_inos w) i = Some c ->
  match w_flt w with Some _ :: _ => False | _ => True end ->
  exists c' w' r, utils_OCAT p L w = (r, w') /\ fs_wf w' /\ frame [place (w_cwd w) p] w w' /\ w_lfps w' = w_lfps w /\ w_names w' = w_names w /\
    nth_error (w_inos w') i = Some c' /\ keeps c L c' /\
    ((r = Ok i /\ resized c L c') \/ (r = Err EIO /\ ~ no_faults w)) /\ (no_faults w -> no_faults w').
Proof.
  intros Hwf HL Hp Hc Hok. rewrite utils_OCAT_eq. unfold os_open. rewrite syscall_ok by assumption.
  change (w_cwd (no_flt w)) with (w_cwd w). change (w_names (no_flt w)) with (w_names w). rewrite Hp.
  destruct (size_to_spec i c L (no_flt w) Hc HL) as (c' & w' & r & E & A1 & A2 & A3 & A4 & A5 & A6 & A7).
  cbn [no_flt w_cwd w_names w_lfps w_inos] in A1, A2, A3, A4.
  assert (Hnf : no_faults w -> no_faults (no_flt w)) by (intros H; now rewrite no_flt_id).
  exists c', w', r. split; [exact E|]. split. { apply (fs_wf_same_names w); [assumption|rewrite A4; apply lupd_length|assumption]. }
  split.
  { split; [assumption|]. intros q Hq. rewrite A2. split; [reflexivity|]. intros j Hj. rewrite A4. apply lupd_nth_other. intros ->.
    apply Hq. left. eapply fs_wf_inj; eauto. }
  split; [assumption|]. split; [assumption|]. split. { rewrite A4. apply lupd_nth_same. apply nth_error_Some. congruence. }
  split; [assumption|]. split; [|auto]. destruct A6 as [?|[? ?]]; [left; assumption|right; split; [assumption|tauto]].
Qed.

Lemma resized_nil L : 0 <= L -> resized [] L (zeros L).
Proof. intros H. pose proof (resized_app [] L H) as R. cbn [app] in R. change (zlen (@nil byte)) with 0 in R. now rewrite Z.add_0_l in R. Qed.

Lemma OCAT_missing p L w : fs_wf w -> 0 <= L <= max64 -> pget (place (w_cwd w) p) (w_names w) = None -> no_faults w ->
  let i := List.length (w_inos w) in
  exists w', utils_OCAT p L w = (Ok i, w') /\ fs_wf w' /\ frame [place (w_cwd w) p] w w' /\ w_lfps w' = w_lfps w /\
    pget (place (w_cwd w) p) (w_names w') = Some i /\ nth_error (w_inos w') i = Some (zeros L) /\ no_faults w'.
Proof.
  intros Hwf HL Hp Hnf i. rewrite utils_OCAT_eq. unfold os_open.
  rewrite syscall_ok by (rewrite Hnf; exact I). rewrite no_flt_id by assumption. rewrite Hp.
  unfold CreateZeroFilledFile, os_mkdirall, os_create, iobind.
  rewrite syscall_ok by (rewrite Hnf; exact I). rewrite no_flt_id by assumption. unfold ret at 1.
  rewrite syscall_ok by (rewrite Hnf; exact I). rewrite no_flt_id by assumption. rewrite Hp.
  set (w1 := mkw (w_cwd w) (w_names w ++ [(place (w_cwd w) p, List.length (w_inos w))]) (w_inos w ++ [[]]) (w_flt w) (w_lfps w)).
  assert (Hc1 : nth_error (w_inos w1) i = Some []).
  { cbn. rewrite nth_error_app2 by (subst i; lia). subst i. now rewrite Nat.sub_diag. }
  destruct (AppendZeros_spec i [] L w1 Hc1 ltac:(lia)) as (m & w2 & r & E & Hm & A1 & A2 & A3 & A4 & A5 & A6).
  destruct A5 as [[-> ->]|[_ Hx]]; [|exfalso; apply Hx; exact Hnf]. fold i. rewrite E. unfold ret. cbn [app] in A4.
  assert (Hc2 : nth_error (w_inos w2) i = Some (zeros L)).
  { rewrite A4. apply lupd_nth_same. apply nth_error_Some. congruence. }
  assert (Hnf2 : no_faults w2) by (apply A6; exact Hnf).
  destruct (size_to_spec i (zeros L) L w2 Hc2 HL) as (c' & w3 & r & E3 & B1 & B2 & B3 & B4 & B5 & B6 & B7).
  destruct B6 as [[-> Hr]|[_ Hx]]; [|contradiction]. rewrite E3. exists w3. split; [reflexivity|].
  assert (Hlen : List.length (w_inos w3) = S (List.length (w_inos w))).
  { rewrite B4, lupd_length, A4, lupd_length. cbn. rewrite app_length. cbn. lia. }
  assert (Hnames : w_names w3 = w_names w ++ [(place (w_cwd w) p, i)]) by (rewrite B2, A2; reflexivity).
  split.
  { destruct Hwf as (H1 & H2 & H3). unfold fs_wf. rewrite Hnames, Hlen, !map_app. cbn [map]. split; [|split].
    - apply nodup_snoc; [assumption|]. apply pget_none. exact Hp.
    - apply nodup_snoc; [assumption|]. intros Hin. apply in_map_iff in Hin. destruct Hin as ((q & j) & Hj & Hin). cbn [snd] in *. rewrite Forall_forall in H3. specialize (H3 _ Hin). cbn [snd] in H3. subst i j. lia.
    - apply Forall_app. split; [|constructor; [cbn [snd]; subst i; lia|constructor]]. eapply Forall_impl; [|exact H3]. cbn. intros; lia. }
  split.
  { split; [rewrite B1, A1; reflexivity|]. intros q Hq. rewrite Hnames. split.
    - apply pget_app_other. intros ->. apply Hq. left. reflexivity.
    - intros j Hj. assert (Hj' : (j < List.length (w_inos w))%nat) by (eapply fs_wf_bound; eauto).
      rewrite B4, A4, !lupd_nth_other by (subst i; lia). apply nth_error_app1. assumption. }
  split; [rewrite B3, A3; reflexivity|]. split; [rewrite Hnames; apply pget_app_new; assumption|]. split.
  - rewrite B4. rewrite lupd_nth_same by (apply nth_error_Some; congruence). f_equal.
    destruct Hr as [Hz Hr]. destruct Hm. apply (nth_ext _ _ x00 x00).
    + apply Nat2Z.inj. change (zlen c' = zlen (zeros L)). rewrite Hz, zlen_zeros; lia.
    + intros n Hn. assert (Hn2 : Z.of_nat n < L) by (unfold zlen in Hz; lia). specialize (Hr (Z.of_nat n) ltac:(lia)).
      rewrite zlen_zeros in Hr by lia. replace (Z.of_nat n <? L) with true in Hr by lia. rewrite Nat2Z.id in Hr.
      rewrite (nth_error_nth' c' x00 Hn) in Hr. symmetry in Hr. apply nth_error_nth with (d := x00) in Hr. congruence.
  - auto.
Qed.

Lemma OCAT_spec p L w : fs_wf w -> 0 <= L <= max64 -> no_faults w ->
  exists i c w', utils_OCAT p L w = (Ok i, w') /\ fs_wf w' /\ frame [place (w_cwd w) p] w w' /\ w_lfps w' = w_lfps w /\
    pget (place (w_cwd w) p) (w_names w') = Some i /\ nth_error (w_inos w') i = Some c /\ resized (old_at w p) L c /\ no_faults w'.
Proof.
  intros Hwf HL Hnf. unfold old_at, file_at. destruct (pget (place (w_cwd w) p) (w_names w)) as [i|] eqn:Hp.
  - pose proof (fs_wf_bound _ _ _ Hwf Hp) as Hb. destruct (nth_error (w_inos w) i) as [c|] eqn:Hc; [|apply nth_error_None in Hc; lia].
    destruct (OCAT_existing p L w i c Hwf HL Hp Hc) as (c' & w' & r & E & A1 & A2 & A3 & A4 & A5 & A6 & A7 & A8); [rewrite Hnf; exact I|].
    destruct A7 as [[-> Hr]|[_ Hx]]; [|contradiction]. exists i, c', w'. split; [exact E|]. rewrite A4. auto 10.
  - destruct (OCAT_missing p L w Hwf HL Hp Hnf) as (w' & E & A1 & A2 & A3 & A4 & A5 & A6).
    exists (List.length (w_inos w)), (zeros L), w'. split; [exact E|]. repeat (split; [assumption|]). split; [apply resized_nil; lia|assumption].
Qed.

(** A negative length on a missing file. *)
Lemma OCAT_negative p L w : L < 0 -> pget (place (w_cwd w) p) (w_names w) = None -> no_faults w -> exists w', utils_OCAT p L w = (Panic, w').
Proof.
  intros HL Hp Hnf. rewrite utils_OCAT_eq. unfold os_open. rewrite syscall_ok by (rewrite Hnf; exact I). rewrite no_flt_id by assumption. rewrite Hp.
  unfold CreateZeroFilledFile, os_mkdirall, os_create, iobind.
  rewrite syscall_ok by (rewrite Hnf; exact I). rewrite no_flt_id by assumption. unfold ret at 1.
  rewrite syscall_ok by (rewrite Hnf; exact I). rewrite no_flt_id by assumption. rewrite Hp.
  unfold AppendZeros, os_size, iobind. rewrite syscall_ok by (cbn; rewrite Hnf; exact I). rewrite no_flt_id by exact Hnf. unfold content, ret.
  replace (Z.to_nat (L / writeSize) + 2)%nat with (S (Z.to_nat (L / writeSize) + 1))%nat by lia. rewrite zeros_loop_negative by assumption. eexists. reflexivity.
Qed.

(** ** OCATAll *)
Lemma aget_aput_same {A} k v (m : list (bytes * A)) : aget k (aput k v m) = Some v.
Proof. induction m as [|[k' x] m IH]; cbn; [now rewrite beqb_refl|]. destruct (beqb k k') eqn:E; cbn; [now rewrite beqb_refl|now rewrite E]. Qed.
Lemma aget_aput_other {A} k k' v (m : list (bytes * A)) : k <> k' -> aget k (aput k' v m) = aget k m.
Proof.
  intros H. assert (Hb : beqb k k' = false) by (destruct (beqb k k') eqn:E; [apply beqb_eq in E; contradiction|reflexivity]).
  induction m as [|[k2 x] m IH]; cbn; [now rewrite Hb|]. destruct (beqb k' k2) eqn:E; cbn.
  - apply beqb_eq in E. subst k2. now rewrite Hb.
  - now rewrite IH.
Qed.

Definition eplace (cwd : list bytes) (e : entry) : list bytes := place cwd (eb_local (en_base e)).

Lemma OCATAll_spec es : forall w, fs_wf w -> no_faults w -> NoDup (map (eplace (w_cwd w)) es) -> Forall (fun e => 0 <= en_len e <= max64) es ->
  exists inos contents w', OCATAll es w = (Ok tt, w') /\ fs_wf w' /\ no_faults w' /\ frame (map (eplace (w_cwd w)) es) w w' /\ NoDup inos /\
    Forall2 (fun e i => pget (eplace (w_cwd w) e) (w_names w') = Some i) es inos /\
    Forall2 (fun e i => aget (eb_local (en_base e)) (w_lfps w') = Some (mkh i true)) es inos /\
    Forall2 (fun i c => nth_error (w_inos w') i = Some c) inos contents /\
    Forall2 (fun e c => resized (old_at w (eb_local (en_base e))) (en_len e) c) es contents /\
    (forall k, ~ In k (map (fun e => eb_local (en_base e)) es) -> aget k (w_lfps w') = aget k (w_lfps w)).
Proof.
  induction es as [|e es IH]; intros w Hwf Hnf HND HL.
  { exists [], [], w. split; [reflexivity|]. split; [assumption|]. split; [assumption|]. split; [split; [reflexivity|auto]|]. repeat (split; [constructor|]). auto. }
  inversion HL as [|? ? HLe HL']; subst. cbn [map] in HND. inversion HND as [|? ? Hnin HND']; subst.
  cbn [OCATAll]. unfold OCAT.
  destruct (OCAT_spec (eb_local (en_base e)) (en_len e) w Hwf HLe Hnf) as (i & c & w1 & E & A1 & A2 & A3 & A4 & A5 & A6 & A7).
  set (w2 := set_lfps w1 (aput (eb_local (en_base e)) (mkh i true) (w_lfps w1))).
  assert (Hcwd : w_cwd w2 = w_cwd w) by (destruct A2; assumption).
  destruct (IH w2) as (inos & contents & w' & E' & B1 & B2 & B3 & B4 & B5 & B6 & B7 & B8 & B9).
  { exact A1. } { exact A7. } { rewrite Hcwd. assumption. } { assumption. }
  rewrite Hcwd in B3, B5. fold (eplace (w_cwd w) e) in A4, A2.
  assert (Hi : pget (eplace (w_cwd w) e) (w_names w') = Some i) by (rewrite (proj1 (proj2 B3 _ Hnin)); exact A4).
  assert (Hci : nth_error (w_inos w') i = Some c) by (rewrite (proj2 (proj2 B3 _ Hnin) i A4); exact A5).
  assert (Hinos : ~ In i inos).
  { intros Hin. apply In_nth_error in Hin. destruct Hin as [k Hk].
    assert (Hx : exists e', nth_error es k = Some e' /\ pget (eplace (w_cwd w) e') (w_names w') = Some i).
    { clear - B5 Hk. revert k Hk. induction B5 as [|a x l l' Ha Hf IH]; intros [|k] Hk; cbn in *; [discriminate..| |].
      - injection Hk as ->. exists a. auto.
      - apply IH. assumption. }
    destruct Hx as (e' & He' & Hp'). apply Hnin. rewrite <- (fs_wf_inj _ _ _ _ B1 Hp' Hi). apply in_map. eapply nth_error_In. exact He'. }
  exists (i :: inos), (c :: contents), w'. unfold iobind at 1 2. rewrite E. cbn [fst snd]. fold w2. split; [exact E'|]. split; [assumption|]. split; [assumption|].
  split.
  { destruct A2 as [Ac A2]. destruct B3 as [Bc B3]. split; [congruence|]. intros q Hq. cbn [map] in Hq.
    assert (Hq1 : ~ In q [eplace (w_cwd w) e]) by (intros [H|[]]; apply Hq; left; assumption).
    assert (Hq2 : ~ In q (map (eplace (w_cwd w)) es)) by (intros H; apply Hq; right; assumption).
    destruct (A2 q Hq1) as [P1 P2]. destruct (B3 q Hq2) as [Q1 Q2]. split; [rewrite Q1; exact P1|]. intros j Hj. rewrite Q2; [apply P2; assumption|].
    etransitivity; [exact P1|exact Hj]. }
  split; [constructor; assumption|]. split; [constructor; assumption|].
  assert (Hkey : ~ In (eb_local (en_base e)) (map (fun e => eb_local (en_base e)) es)).
  { intros Hin. apply Hnin. apply in_map_iff in Hin. destruct Hin as (e' & He' & Hin). apply in_map_iff. exists e'. split; [|assumption]. unfold eplace. congruence. }
  split. { constructor; [|assumption]. rewrite (B9 _ Hkey). cbn. apply aget_aput_same. }
  split; [constructor; assumption|]. split.
  - constructor; [assumption|]. clear - B8 A2 A4 Hnin Hcwd. destruct A2 as [_ A2].
    assert (Hold : forall e', In e' es -> old_at w2 (eb_local (en_base e')) = old_at w (eb_local (en_base e'))).
    { intros e' He'. unfold old_at, file_at. rewrite Hcwd. fold (eplace (w_cwd w) e').
      assert (Hq : ~ In (eplace (w_cwd w) e') [eplace (w_cwd w) e]).
      { intros [H|[]]. apply Hnin. rewrite H. now apply in_map. }
      destruct (A2 _ Hq) as [P1 P2]. change (w_names w2) with (w_names w1). change (w_inos w2) with (w_inos w1). rewrite P1.
      destruct (pget _ (w_names w)) eqn:E; [|reflexivity]. now rewrite (P2 _ eq_refl). }
    clear - B8 Hold. induction B8 as [|a x l l' Ha Hf IH]; constructor.
    + rewrite <- Hold by (left; reflexivity). assumption.
    + apply IH. intros. apply Hold. right. assumption.
  - intros k Hk. cbn [map] in Hk. rewrite B9 by (intros H; apply Hk; right; assumption). cbn. rewrite aget_aput_other by (intros ->; apply Hk; left; reflexivity). now rewrite A3.
Qed.
Transparent writeSize.

Lemma frame_elsewhere ps w w' : frame ps w w' -> elsewhere_same ps w w'.
Proof.
  intros [Hc H]. split; [assumption|]. intros q Hq. unfold file_at. rewrite Hc. destruct (H _ Hq) as [-> H2].
  destruct (pget (place (w_cwd w) q) (w_names w)) as [i|]; [|reflexivity]. auto.
Qed.

Lemma OCATAll_opens P hashes files ti w : made P hashes files ti -> fs_wf w -> no_faults w ->
  NoDup (map (fun f => place (w_cwd w) (eb_local f)) files) ->
  exists contents w', OCATAll (ti_files ti) w = (Ok tt, w') /\ opened w' ti contents /\ fs_wf w' /\ no_faults w' /\
    elsewhere_same (map (fun f => place (w_cwd w) (eb_local f)) files) w w' /\
    Forall2 (fun f c => resized (old_at w (eb_local f)) (eb_len f) c /\ file_at w' (eb_local f) = Some c) files contents.
Proof.
  intros Hm Hwf Hnf HND. destruct (made_facts _ _ _ _ Hm) as (HP & HT & _ & _ & _ & _ & Hf & _).
  assert (Hpl : map (eplace (w_cwd w)) (ti_files ti) = map (fun f => place (w_cwd w) (eb_local f)) files).
  { rewrite <- Hf, map_map. reflexivity. }
  assert (HL : Forall (fun e => 0 <= en_len e <= max64) (ti_files ti)).
  { destruct Hm as ((_ & Hnn & Hs) & _). rewrite <- Hf in Hnn, Hs. clear - Hnn Hs. unfold lens_of in *. rewrite map_map in *. unfold big in Hs.
    revert Hnn Hs. generalize (ti_files ti) as l. induction l as [|e l IH]; cbn [map]; intros Hnn Hs; [constructor|constructor];
      (inversion Hnn as [|? ? H1 H2]; subst; pose proof (zsum_nonneg _ H2); change (zsum (?a :: ?b)) with (a + zsum b) in Hs).
    - unfold en_len, max64. lia.
    - apply IH; [assumption|lia]. }
  destruct (OCATAll_spec (ti_files ti) w Hwf Hnf) as (inos & cs & w' & E & A1 & A2 & A3 & A4 & A5 & A6 & A7 & A8 & _); [rewrite Hpl; assumption|assumption|].
  exists cs, w'. split; [exact E|]. split.
  { exists inos. split; [assumption|]. split; [assumption|]. split; [assumption|]. rewrite Hf. clear - A8 Hf. rewrite <- Hf. clear Hf.
    unfold lens_of. rewrite map_map. induction A8 as [|e c l l' H _ IH]; [reflexivity|]. cbn [map]. rewrite IH. f_equal. apply H. }
  split; [assumption|]. split; [assumption|]. rewrite <- Hpl. split; [apply frame_elsewhere; assumption|].
  rewrite <- Hf. assert (Hcwd : w_cwd w' = w_cwd w) by apply A3.
  assert (Hat : Forall2 (fun e c => file_at w' (eb_local (en_base e)) = Some c) (ti_files ti) cs).
  { clear - A5 A7 Hcwd. revert cs A7. induction A5 as [|e i l l' He _ IH]; intros cs A7; inversion A7; subst; constructor.
    - unfold file_at. rewrite Hcwd. fold (eplace (w_cwd w) e). now rewrite He.
    - apply IH. assumption. }
  clear - A8 Hat. induction A8 as [|e c l l' H _ IH]; inversion Hat; subst; cbn [map]; constructor; auto.
Qed.

Lemma OCAT_top p L w : fs_wf w -> 0 <= L <= max64 -> no_faults w ->
  exists i c w', utils_OCAT p L w = (Ok i, w') /\ fs_wf w' /\ file_at w' p = Some c /\ resized (old_at w p) L c /\
    elsewhere_same [place (w_cwd w) p] w w' /\ no_faults w'.
Proof.
  intros Hwf HL Hnf. destruct (OCAT_spec p L w Hwf HL Hnf) as (i & c & w' & E & A1 & A2 & A3 & A4 & A5 & A6 & A7).
  exists i, c, w'. split; [exact E|]. split; [assumption|]. split. { unfold file_at. rewrite (proj1 A2), A4. assumption. }
  split; [assumption|]. split; [apply frame_elsewhere; assumption|assumption].
Qed.

Lemma OCAT_kept p L w c : fs_wf w -> 0 <= L <= max64 -> file_at w p = Some c ->
  hd None (w_flt w) = None ->
  exists c' w' r, utils_OCAT p L w = (r, w') /\ file_at w' p = Some c' /\ keeps c L c' /\ elsewhere_same [place (w_cwd w) p] w w' /\
    ((exists i, r = Ok i) /\ resized c L c' \/ r = Err EIO /\ ~ no_faults w).
Proof.
  intros Hwf HL Hc Hf. unfold file_at in Hc. destruct (pget (place (w_cwd w) p) (w_names w)) as [i|] eqn:Hp; [|discriminate].
  destruct (OCAT_existing p L w i c Hwf HL Hp Hc) as (c' & w' & r & E & A1 & A2 & A3 & A4 & A5 & A6 & A7 & A8).
  { destruct (w_flt w) as [|[k|] fl]; [exact I|discriminate|exact I]. }
  exists c', w', r. split; [exact E|]. split. { unfold file_at. rewrite (proj1 A2), A4, Hp. assumption. }
  split; [assumption|]. split; [apply frame_elsewhere; assumption|]. destruct A7 as [[-> ?]|?]; [left; eauto|right; assumption].
Qed.

Lemma OCAT_negative_top p L w : L < 0 -> file_at w p = None -> fs_wf w -> no_faults w -> exists w', utils_OCAT p L w = (Panic, w').
Proof.
  intros HL Hf Hwf Hnf. apply OCAT_negative; [assumption| |assumption]. unfold file_at in Hf.
  destruct (pget (place (w_cwd w) p) (w_names w)) as [i|] eqn:Hp; [|reflexivity].
  pose proof (fs_wf_bound _ _ _ Hwf Hp). apply nth_error_None in Hf. lia.
Qed.

(** A negative length on a file that exists. *)
Lemma OCAT_negative_kept p L w c : L < 0 -> file_at w p = Some c -> fs_wf w -> no_faults w -> utils_OCAT p L w = (Err EIO, w).
Proof.
  intros HL Hf Hwf Hnf. unfold file_at in Hf. destruct (pget (place (w_cwd w) p) (w_names w)) as [i|] eqn:Hp; [|discriminate].
  rewrite utils_OCAT_eq. unfold os_open. rewrite syscall_ok by (rewrite Hnf; exact I). rewrite no_flt_id by assumption. rewrite Hp.
  unfold size_to, os_size, iobind. rewrite syscall_ok by (rewrite Hnf; exact I). rewrite no_flt_id by assumption. unfold content, ret at 1.
  pose proof (zlen_nonneg (nth i (w_inos w) [])). replace (zlen (nth i (w_inos w) []) =? L) with false by lia. replace (L <? zlen (nth i (w_inos w) [])) with true by lia.
  unfold os_truncate. rewrite syscall_ok by (rewrite Hnf; exact I). rewrite no_flt_id by assumption. replace (L <? 0) with true by lia. reflexivity.
Qed.
