(** ConcProofs.v: piece accesses under any interleaving. *)
From Coq Require Import ZifyBool ZifyNat ZifyN.
From Verif Require Import Base LayoutModel LayoutSpec LayoutProofs PieceMapProofs FsModel FsSpec FsProofs ConcModel ConcSpec.

Definition bat (c : bytes) (x : Z) : option byte := nth_error c (Z.to_nat x).

Lemma nth_sub_vis (l : bytes) a m y : 0 <= a -> 0 <= y < m -> nth_error (sub l (Z.to_nat a) (Z.to_nat m)) (Z.to_nat y) = nth_error l (Z.to_nat (a + y)).
Proof.
  intros Ha Hy. unfold sub. replace (Z.to_nat (a + y)) with (Z.to_nat a + Z.to_nat y)%nat by lia.
  rewrite <- (firstn_skipn (Z.to_nat a) l) at 2.
  destruct (Nat.le_gt_cases (Z.to_nat a) (List.length l)) as [E|E].
  - rewrite nth_error_app2 by (rewrite firstn_length; lia). rewrite firstn_length. replace (Z.to_nat a + Z.to_nat y - Nat.min (Z.to_nat a) (Datatypes.length l))%nat with (Z.to_nat y) by lia.
    assert (H : (Z.to_nat y < Z.to_nat m)%nat) by lia. revert H. generalize (Z.to_nat m) (Z.to_nat y) (skipn (Z.to_nat a) l). clear.
    intros n; induction n as [|n IH]; intros y l Hy; [lia|]. destruct l as [|x l]; destruct y as [|y]; cbn; try reflexivity. apply IH. lia.
  - rewrite skipn_all2 by lia. rewrite firstn_nil, app_nil_r. rewrite firstn_all2 by lia. destruct (Z.to_nat y); symmetry; apply nth_error_None; lia.
Qed.
Lemma nth_back_vis s y : 0 <= y < zlen (vis s) -> bat (back s) y = bat (vis s) y.
Proof. intros H. unfold bat, back. apply nth_error_app1. unfold zlen in H. lia. Qed.
Lemma zlen_sub_in (l : bytes) a m : 0 <= a -> 0 <= m -> a + m <= zlen l -> zlen (sub l (Z.to_nat a) (Z.to_nat m)) = m.
Proof. intros. unfold sub, zlen in *. rewrite firstn_length, skipn_length. lia. Qed.
Lemma nth_ext_bytes (a b : bytes) : (forall k, nth_error a k = nth_error b k) -> a = b.
Proof.
  revert b; induction a as [|x a IH]; intros [|y b] H; [reflexivity|specialize (H 0%nat); discriminate|specialize (H 0%nat); discriminate|].
  f_equal; [specialize (H 0%nat); cbn in H; congruence|]. apply IH. intros k. apply (H (S k)).
Qed.
Lemma bytes_ext (a b : bytes) : zlen a = zlen b -> (forall y, 0 <= y < zlen a -> bat a y = bat b y) -> a = b.
Proof.
  intros Hl H. apply nth_ext_bytes. intros k. destruct (Nat.lt_ge_cases k (List.length a)) as [E|E].
  - specialize (H (Z.of_nat k)). unfold bat in H. rewrite Nat2Z.id in H. apply H. unfold zlen. lia.
  - unfold zlen in Hl. rewrite (proj2 (nth_error_None a k)) by assumption. symmetry. apply nth_error_None. lia.
Qed.

Section Conc.
Variables (sha1 : bytes -> bytes) (P : Z) (hashes : bytes) (files : list ebase) (ti : torinfo) (jobs : nat -> job) (inos : list nat).
Let T := zsum (lens_of files).
Let ps := pstart P T.
Let sz := psize P T.
Hypothesis Hmade : made P hashes files ti.
Hypothesis Hfit : forall t, fitting sha1 P hashes files (jobs t).

Definition inside (i : Z) : Prop := 0 <= i < zlen hashes / 20.
(** The writers of piece i agree. *)
Definition agreed (i : Z) (d : bytes) : Prop := only_writes sha1 hashes jobs i d.

Definition thread_ok (nf : Prop) (A : Z -> option byte -> Prop) (R : nat -> Prop) (C : bytes) (t : nat) (p : fpc) : Prop :=
  match p with
  | FStart => True
  | FLoop locs buf off =>
    match jobs t with
    | JWrite i d => buf = d /\ accepted_write sha1 hashes i d /\ 0 <= off /\ tiles (lens_of files) locs (ps i + off) (ps (i + 1)) /\
        (agreed i (vis d) -> forall y, 0 <= y < off -> bat C (ps i + y) = bat (vis d) y)
    | JRead i b0 => inside i /\ 0 <= off /\ tiles (lens_of files) locs (ps i + off) (ps (i + 1)) /\
        zlen (vis buf) = zlen (vis b0) /\ scap buf = scap b0 /\
        (R t -> forall y, 0 <= y < off -> A (ps i + y) (bat (vis buf) y)) /\
        (forall y, off <= y < scap b0 -> bat (back buf) y = bat (back b0) y)
    end
  | FDone r buf =>
    match jobs t with
    | JWrite i d => buf = d /\
        ((accepted_write sha1 hashes i d /\ r = Ok (sz i) /\ (agreed i (vis d) -> forall y, 0 <= y < sz i -> bat C (ps i + y) = bat (vis d) y)) \/
         (accepted_write sha1 hashes i d /\ r = Err EIO /\ ~ nf) \/
         (~ inside i /\ r = Err EBounds) \/ (inside i /\ sha1 (vis d) <> hash_at hashes i /\ r = Err EBadHash))
    | JRead i b0 =>
        (inside i /\ r = Ok (sz i) /\ zlen (vis buf) = zlen (vis b0) /\ scap buf = scap b0 /\
         (R t -> forall y, 0 <= y < sz i -> A (ps i + y) (bat (vis buf) y)) /\ (forall y, sz i <= y < scap b0 -> bat (back buf) y = bat (back b0) y)) \/
        (inside i /\ (exists e, r = Err e) /\ ~ nf) \/
        (~ inside i /\ r = Err EBounds /\ buf = b0)
    end
  end.

Definition Inv (nf : Prop) (A : Z -> option byte -> Prop) (R : nat -> Prop) (w0 : world) (s : fstate) : Prop :=
  exists contents, opened_at inos (f_world s) ti contents /\ others_same inos w0 (f_world s) /\ (nf -> no_faults (f_world s)) /\
    (forall x, 0 <= x < T -> A x (bat (List.concat contents) x)) /\
    forall t, thread_ok nf A R (List.concat contents) t (f_at s t).

(** What the calls write is allowed. *)
Definition allows (A : Z -> option byte -> Prop) : Prop :=
  forall t i d, jobs t = JWrite i d -> accepted_write sha1 hashes i d -> forall y, 0 <= y < sz i -> A (ps i + y) (bat (vis d) y).

Lemma basics : 1 <= P < big /\ 0 <= T < big /\
  (forall i, inside i -> exists locs, PieceLookup ti i = Ok locs /\ tiles (lens_of files) locs (ps i) (ps (i + 1))) /\
  (forall i, ~ inside i -> PieceLookup ti i = Err EBounds) /\ (forall i, inside i -> PieceHash ti i = Ok (hash_at hashes i)).
Proof. destruct (made_facts _ _ _ _ Hmade) as (H1 & H2 & _ & _ & _ & _ & _ & _ & _ & _ & H3 & H4 & H5). auto. Qed.
Lemma inside_dec i : inside i \/ ~ inside i.
Proof. unfold inside. lia. Qed.
Lemma ps_bounds i : inside i -> 0 <= ps i /\ ps i <= ps (i + 1) <= T.
Proof. intros [H _]. destruct basics as (HP & HT & _). split; [apply pstart_nonneg; lia|]. split; [apply pstart_mono; lia|unfold ps, pstart; lia]. Qed.
Lemma ps_sz i : ps (i + 1) = ps i + sz i.
Proof. unfold sz, psize. fold ps. change (pstart P T) with ps. lia. Qed.
(** Pieces do not overlap. *)
Lemma disjoint i j x y : inside i -> inside j -> 0 <= x < sz i -> 0 <= y < sz j -> ps i + x = ps j + y -> i = j /\ x = y.
Proof.
  intros [Hi _] [Hj _] Hx Hy E. destruct basics as (HP & HT & _). assert (i = j); [|subst; lia].
  unfold sz, ps, psize, pstart in *. destruct (Z_lt_ge_dec i j) as [L|L]; [|destruct (Z_lt_ge_dec j i) as [L'|L']; [|lia]]; exfalso; nia.
Qed.

Lemma begin_ok nf A R C t : (thread_ok nf A R C t (begin_job sha1 ti (jobs t))).
Proof.
  destruct basics as (HP & HT & Hin & Hout & Hh). destruct (jobs t) as [i d|i b0] eqn:Ej; cbn [begin_job]; destruct (inside_dec i) as [Hi|Hi].
  - destruct (Hin i Hi) as (l & -> & Ht). rewrite (Hh i Hi). cbn [bind]. destruct (beqb (sha1 (vis d)) (hash_at hashes i)) eqn:E; cbn [thread_ok]; rewrite Ej.
    + apply beqb_eq in E. split; [reflexivity|]. split; [split; assumption|]. split; [lia|]. split; [rewrite Z.add_0_r; exact Ht|]. intros _ y Hy. lia.
    + split; [reflexivity|]. right; right; right. split; [exact Hi|]. split; [|reflexivity]. intros E'. rewrite E', beqb_refl in E. discriminate.
  - rewrite (Hout i Hi). cbn [bind thread_ok]. rewrite Ej. split; [reflexivity|]. right; right; left. auto.
  - destruct (Hin i Hi) as (l & -> & Ht). cbn [thread_ok]. rewrite Ej. split; [exact Hi|]. split; [lia|]. split; [rewrite Z.add_0_r; exact Ht|]. split; [reflexivity|]. split; [reflexivity|]. split; [intros _ y Hy; lia|]. reflexivity.
  - rewrite (Hout i Hi). cbn [thread_ok]. rewrite Ej. right; right. auto.
Qed.

Lemma done_ok nf A R C t buf off : thread_ok nf A R C t (FLoop [] buf off) -> thread_ok nf A R C t (FDone (Ok off) buf).
Proof.
  cbn [thread_ok]. destruct (jobs t) as [i d|i b0] eqn:Ej.
  - intros (-> & Hv & Ho & Ht & Hu). cbn [tiles] in Ht. rewrite ps_sz in Ht. assert (off = sz i) as -> by lia. split; [reflexivity|]. left. auto.
  - intros (Hi & Ho & Ht & Hz & Hc & HR & Hk). cbn [tiles] in Ht. rewrite ps_sz in Ht. assert (off = sz i) as -> by lia. left. auto 10.
Qed.

(** A write of part of piece i leaves what other calls have established. *)
Lemma thread_kept nf A R C C' t p i d lo m : thread_ok nf A R C t p -> zlen C = T -> accepted_write sha1 hashes i d ->
  (exists t', jobs t' = JWrite i d) -> 0 <= lo -> lo + m <= sz i ->
  (forall x, 0 <= x < T -> bat C' x = if (ps i + lo <=? x) && (x <? ps i + lo + m) then bat (vis d) (x - ps i) else bat C x) ->
  thread_ok nf A R C' t p.
Proof.
  intros H HC [Hi Hs] (t' & Ht') Hlo Hm Hx.
  assert (Hkeep : forall j e y, inside j -> agreed j (vis e) -> 0 <= y < sz j -> bat C (ps j + y) = bat (vis e) y -> bat C' (ps j + y) = bat (vis e) y).
  { intros j e y Hj Hag Hy Hb. pose proof (ps_bounds j Hj) as Hpj. pose proof (ps_sz j). rewrite Hx by lia.
    destruct ((ps i + lo <=? ps j + y) && (ps j + y <? ps i + lo + m)) eqn:E; [|exact Hb].
    destruct (disjoint i j (ps j + y - ps i) y) as [-> E']; [assumption|assumption|lia|assumption|lia|].
    rewrite E'. unfold agreed, only_writes in Hag. rewrite (Hag t' d Ht'); [reflexivity|split; assumption]. }
  destruct p as [|locs buf off|r buf]; cbn [thread_ok] in *; [exact I| |]; destruct (jobs t) as [j e|j b0] eqn:Ej; try exact H.
  - destruct H as (Hb & Hv & Ho & Ht & Hu). split; [exact Hb|]. split; [exact Hv|]. split; [exact Ho|]. split; [exact Ht|].
    intros Hag y Hy. pose proof (tiles_le _ _ _ _ Ht). pose proof (ps_sz j). apply Hkeep; [apply Hv|exact Hag|lia|auto].
  - destruct H as [Hb [(Hv & Hr & Hu)|H]]; [|auto]. split; [exact Hb|]. left. split; [exact Hv|]. split; [exact Hr|].
    intros Hag y Hy. apply Hkeep; [apply Hv|exact Hag|lia|auto].
Qed.

Lemma bump s t p u : fgoto s t p u = if Nat.eqb u t then p else f_at s u.
Proof. reflexivity. Qed.
Lemma sub_back d off m : 0 <= off -> 0 <= m -> off + m <= zlen (vis d) -> sub (vis d ++ spare d) (Z.to_nat off) (Z.to_nat m) = sub (vis d) (Z.to_nat off) (Z.to_nat m).
Proof. intros. apply sub_app_l. unfold zlen in *. lia. Qed.
Lemma nth_range c a b y : 0 <= a -> 0 <= y < b - a -> bat (range c a b) y = bat c (a + y).
Proof. intros. unfold bat, range. apply nth_sub_vis; lia. Qed.

Lemma step_inv nf A R w0 s t s' : allows A -> Inv nf A R w0 s -> fstep sha1 ti jobs s t = Some s' -> Inv nf A R w0 s'.
Proof.
  intros HA (cs & Ho & Hsm & Hnf & Hby & Hth) Hst. destruct basics as (HP & HT & _). unfold fstep in Hst.
  destruct (opened_total _ _ _ _ _ _ _ Hmade Ho) as [Hz Hzt]. fold T in Hzt.
  pose proof (Hth t) as Ht. destruct (f_at s t) as [|[|l locs] buf off|r buf] eqn:Ep; [| | |discriminate].
  - injection Hst as <-. exists cs. cbn [f_world f_at]. split; [exact Ho|]. split; [exact Hsm|]. split; [exact Hnf|]. split; [exact Hby|].
    intros u. cbn [f_at]. rewrite bump. destruct (Nat.eqb u t) eqn:E; [apply Nat.eqb_eq in E; subst u; apply begin_ok|apply Hth].
  - injection Hst as <-. exists cs. cbn [f_world f_at]. split; [exact Ho|]. split; [exact Hsm|]. split; [exact Hnf|]. split; [exact Hby|].
    intros u. cbn [f_at]. rewrite bump. destruct (Nat.eqb u t) eqn:E; [apply Nat.eqb_eq in E; subst u; apply done_ok; exact Ht|apply Hth].
  - destruct (access ti (jobs t) l locs buf off (f_world s)) as [p w'] eqn:Ea. injection Hst as <-. cbn [f_world f_at].
    cbn [thread_ok] in Ht. destruct (jobs t) as [i d|i b0] eqn:Ej; cbn [access] in Ea.
    + destruct Ht as (-> & Hv & Hoff & Htl & Hu). pose proof Hv as [Hi Hsh]. pose proof (ps_bounds i Hi) as Hpb. pose proof (ps_sz i) as Hpz.
      assert (Hd : zlen (vis d) = sz i) by (specialize (Hfit t); rewrite Ej in Hfit; apply Hfit; exact Hv).
      pose proof Htl as Htl0. cbn [tiles] in Htl. destruct Htl as (Hk & Hs & Hn & Hfl & Hst & Htl). pose proof (tiles_le _ _ _ _ Htl) as Hle.
      set (n := ReadAmnt (pl_info l)) in *.
      assert (H1 : tiles (map zlen cs) [l] (ps i + off) (ps i + off + n)).
      { rewrite Hz. cbn [tiles]. fold n. auto 10. }
      destruct (write_locs_spec ti d inos [l] (f_world s) cs _ _ off Ho H1) as (m & cs' & w1 & r & Hw & Hm & _ & Ho' & Hos & Hz' & Hcc & Hr & Hf);
        [lia|lia|lia|unfold max64, big in *; lia|].
      rewrite Hw in Ea. assert (Hsc : sz i <= scap d) by (unfold scap; pose proof (zlen_nonneg (spare d)); lia).
      rewrite sub_back in Hcc by lia.
      assert (Hx : forall x, 0 <= x < T -> bat (List.concat cs') x = if (ps i + off <=? x) && (x <? ps i + off + m) then bat (vis d) (x - ps i) else bat (List.concat cs) x).
      { intros x Hx. unfold bat. rewrite Hcc. assert (Hzs : zlen (sub (vis d) (Z.to_nat off) (Z.to_nat m)) = m) by (apply zlen_sub_in; lia).
        rewrite over_nth by lia. rewrite Hzs. destruct ((ps i + off <=? x) && (x <? ps i + off + m)) eqn:E; [|reflexivity].
        rewrite nth_sub_vis by lia. f_equal. lia. }
      assert (Hw' : w' = w1 /\ p = match r with Ok o => FLoop locs d o | _ => FDone r d end) by (destruct r; injection Ea as <- <-; auto).
      destruct Hw' as [-> ->]. exists cs'. split; [exact Ho'|]. split; [eapply others_same_trans; eassumption|]. split; [intros; apply Hf; auto|]. split.
      { intros x Hx0. rewrite Hx by assumption. destruct ((ps i + off <=? x) && (x <? ps i + off + m)) eqn:E; [|auto].
        replace x with (ps i + (x - ps i)) at 1 by lia. apply (HA t i d Ej Hv). lia. }
      intros u. cbn [f_at]. rewrite bump. destruct (Nat.eqb u t) eqn:E.
      * apply Nat.eqb_eq in E. subst u. destruct Hr as [[-> ->]|[[-> Hnn]|[-> Hbad]]].
        -- cbn [thread_ok]. rewrite Ej. split; [reflexivity|]. split; [exact Hv|]. split; [lia|].
           split; [replace (ps i + (off + (ps i + off + n - (ps i + off)))) with (ps i + off + n) by lia; exact Htl|].
           intros Hag y Hy. rewrite Hx by lia. destruct ((ps i + off <=? ps i + y) && (ps i + y <? ps i + off + (ps i + off + n - (ps i + off)))) eqn:E; [f_equal; lia|].
           apply Hu; [exact Hag|lia].
        -- cbn [thread_ok]. rewrite Ej. split; [reflexivity|]. right; left. split; [exact Hv|]. split; [reflexivity|]. intros H. apply Hnn. auto.
        -- exfalso. lia.
      * eapply thread_kept; [apply Hth|exact Hzt|exact Hv|exists t; exact Ej|exact Hoff| |exact Hx]. lia.
    + destruct Ht as (Hi & Hoff & Htl & Hzb & Hcap & HR & Hk0). pose proof (ps_bounds i Hi) as Hpb. pose proof (ps_sz i) as Hpz.
      assert (Hd : sz i <= zlen (vis buf)) by (specialize (Hfit t); rewrite Ej in Hfit; cbn [fitting] in Hfit; pose proof (psize_le P T i ltac:(lia)) as Hsl; change (psize P T i) with (sz i) in Hsl; lia).
      assert (Hsc : zlen (vis buf) <= scap buf) by (unfold scap; pose proof (zlen_nonneg (spare buf)); lia).
      cbn [tiles] in Htl. destruct Htl as (Hk & Hs & Hn & Hfl & Hst & Htl). pose proof (tiles_le _ _ _ _ Htl) as Hle.
      set (n := ReadAmnt (pl_info l)) in *.
      assert (H1 : tiles (map zlen cs) [l] (ps i + off) (ps i + off + n)).
      { rewrite Hz. cbn [tiles]. fold n. auto 10. }
      destruct (read_locs_spec ti inos [l] (f_world s) cs buf _ _ off Ho H1) as (r & buf' & w1 & Hw & Hds & Hcap' & Hvz & Hr);
        [lia|lia|lia|unfold max64, big in *; lia|].
      rewrite Hw in Ea. replace (off + (ps i + off + n - (ps i + off))) with (off + n) in Hr by lia.
      assert (Hw' : w' = w1 /\ p = match r with Ok o => FLoop locs buf' o | _ => FDone r buf' end) by (destruct r; injection Ea as <- <-; auto).
      destruct Hw' as [-> ->]. exists cs. split; [eapply disk_same_opened; eassumption|].
      split; [eapply others_same_trans; [exact Hsm|]; destruct Hds as (A1 & A2 & A3 & A4); unfold others_same; cbn [f_world]; rewrite A4; auto 10|].
      split.
      { intros H. specialize (Hnf H). destruct Hr as [(_ & _ & _ & Hr)|[[_ Hr]|[_ Hr]]]; [rewrite Hr; assumption|contradiction|lia]. }
      split; [exact Hby|]. intros u. cbn [f_at]. rewrite bump. destruct (Nat.eqb u t) eqn:E; [|apply Hth].
      apply Nat.eqb_eq in E. subst u. destruct Hr as [(-> & -> & _ & _)|[[[e ->] Hnn]|[_ Hr]]].
      * cbn [thread_ok]. rewrite Ej. set (b := range (List.concat cs) (ps i + off) (ps i + off + n)) in *.
        assert (Hzl : zlen b = n) by (unfold b, range; rewrite zlen_sub_in by lia; lia).
        destruct (splice_over buf off b ltac:(lia) ltac:(lia)) as (Hb & Hv1 & Hc1).
        assert (Hbb : zlen (back buf) = scap buf) by (unfold back, scap; apply zlen_app).
        assert (Hbn : forall y, 0 <= y < scap buf -> bat (back (splice buf off b)) y = if (off <=? y) && (y <? off + n) then bat (List.concat cs) (ps i + y) else bat (back buf) y).
        { intros y Hy. unfold bat at 1. rewrite Hb, over_nth by lia. rewrite Hzl. destruct ((off <=? y) && (y <? off + n)) eqn:E; [|reflexivity].
          change (bat b (y - off) = bat (List.concat cs) (ps i + y)). unfold b. rewrite nth_range by lia. f_equal. lia. }
        split; [exact Hi|]. split; [lia|]. split; [replace (ps i + (off + n)) with (ps i + off + n) by lia; exact Htl|]. split; [lia|]. split; [lia|]. split.
        -- intros HRt y Hy. rewrite <- nth_back_vis by lia. rewrite Hbn by lia. destruct ((off <=? y) && (y <? off + n)) eqn:E.
           ++ apply Hby. lia.
           ++ rewrite nth_back_vis by lia. apply HR; [exact HRt|lia].
        -- intros y Hy. rewrite Hbn by lia. replace ((off <=? y) && (y <? off + n)) with false by lia. apply Hk0. lia.
      * cbn [thread_ok]. rewrite Ej. right; left. split; [exact Hi|]. split; [eauto|]. intros H. apply Hnn. auto.
      * exfalso. lia.
Qed.

Lemma run_inv nf A R w0 : allows A -> forall ts s s', Inv nf A R w0 s -> frun sha1 ti jobs s ts = Some s' -> Inv nf A R w0 s'.
Proof.
  intros HA. induction ts as [|t ts IH]; intros s s' H Hr; cbn [frun] in Hr; [injection Hr as <-; exact H|].
  destruct (fstep sha1 ti jobs s t) as [s1|] eqn:E; [|discriminate]. eapply IH; [|exact Hr]. eapply step_inv; eassumption.
Qed.
Lemma init_inv (A : Z -> option byte -> Prop) (R : nat -> Prop) w cs : opened_at inos w ti cs -> (forall x, 0 <= x < T -> A x (bat (List.concat cs) x)) -> Inv (no_faults w) A R w (finit w).
Proof. intros Ho H. exists cs. cbn [finit f_world f_at]. split; [exact Ho|]. split; [apply others_same_refl|]. split; [auto|]. split; [exact H|]. intros t. exact I. Qed.
(** Take up the invariant again, for calls not yet begun. *)
Lemma restart_inv nf A R w0 (A' : Z -> option byte -> Prop) (R' : nat -> Prop) s : Inv nf A R w0 s ->
  (forall cs x, opened_at inos (f_world s) ti cs -> 0 <= x < T -> A' x (bat (List.concat cs) x)) -> (forall t, R' t -> f_at s t = FStart) -> Inv nf A' R' w0 s.
Proof.
  intros (cs & Ho & Hsm & Hnf & Hby & Hth) HA HR. exists cs. split; [exact Ho|]. split; [exact Hsm|]. split; [exact Hnf|]. split; [auto|].
  intros t. specialize (Hth t). specialize (HR t). destruct (f_at s t) as [|locs buf off|r buf]; cbn [thread_ok] in *; [exact I| |]; destruct (jobs t) as [i d|i b0]; try exact Hth.
  - destruct Hth as (H1 & H2 & H3 & H4 & H5 & _ & H6). repeat (split; [assumption|]). split; [|assumption]. intros H. specialize (HR H). discriminate.
  - destruct Hth as [(H1 & H2 & H3 & H4 & _ & H6)|H]; [left|right; exact H]. repeat (split; [assumption|]). split; [|assumption]. intros H. specialize (HR H). discriminate.
Qed.

(** Old or written, by position in the whole content. *)
Definition oldw (C : bytes) (x : Z) (b : option byte) : Prop :=
  b = bat C x \/ exists t i d y, jobs t = JWrite i d /\ accepted_write sha1 hashes i d /\ 0 <= y < sz i /\ x = ps i + y /\ b = bat (vis d) y.
Lemma oldw_allows C : allows (oldw C).
Proof. intros t i d Hj Hv y Hy. right. exists t, i, d, y. auto 10. Qed.
Lemma bat_piece cs i y : zlen (List.concat cs) = T -> inside i -> 0 <= y < sz i -> bat (piece_bytes P cs i) y = bat (List.concat cs) (ps i + y).
Proof.
  intros Hz Hi Hy. pose proof (ps_bounds i Hi). pose proof (ps_sz i). unfold piece_bytes. rewrite Hz. apply (nth_range _ (ps i) (ps (i + 1))); lia.
Qed.
Lemma zlen_piece cs i : zlen (List.concat cs) = T -> inside i -> zlen (piece_bytes P cs i) = sz i.
Proof. intros Hz [Hi _]. destruct basics as (HP & _). rewrite zlen_piece_bytes by lia. now rewrite Hz. Qed.
Lemma oldw_piece cs i y b : zlen (List.concat cs) = T -> inside i -> 0 <= y < sz i -> oldw (List.concat cs) (ps i + y) b ->
  old_or_written sha1 hashes jobs i (piece_bytes P cs i) (Z.to_nat y) b.
Proof.
  intros Hz Hi Hy [->|(t & j & d & y' & Hj & Hv & Hy' & E & ->)]; [left; symmetry; apply bat_piece; assumption|].
  destruct (disjoint i j y y') as [<- <-]; [assumption|apply Hv|assumption|assumption|assumption|]. right. exists t, d. auto.
Qed.

Lemma reach_inv w cs ts s : opened_at inos w ti cs -> frun sha1 ti jobs (finit w) ts = Some s ->
  Inv (no_faults w) (oldw (List.concat cs)) (fun _ => True) w s.
Proof. intros Ho Hr. eapply run_inv; [apply oldw_allows| |exact Hr]. apply init_inv with cs; [exact Ho|]. intros x _. left. reflexivity. Qed.

Lemma piece_eq cs i d : zlen (List.concat cs) = T -> inside i -> zlen d = sz i -> (forall y, 0 <= y < sz i -> bat (List.concat cs) (ps i + y) = bat d y) -> piece_bytes P cs i = d.
Proof.
  intros Hz Hi Hd H. apply bytes_ext; rewrite zlen_piece by assumption; [lia|]. intros y Hy. rewrite bat_piece by assumption. auto.
Qed.

Lemma conc_bytes w cs ts s : opened_at inos w ti cs -> frun sha1 ti jobs (finit w) ts = Some s ->
  exists cs', opened_at inos (f_world s) ti cs' /\ others_same inos w (f_world s) /\
    (forall i, inside i -> forall y, 0 <= y < sz i -> old_or_written sha1 hashes jobs i (piece_bytes P cs i) (Z.to_nat y) (nth_error (piece_bytes P cs' i) (Z.to_nat y))) /\
    (forall i, inside i -> nobody_writes sha1 hashes jobs i -> piece_bytes P cs' i = piece_bytes P cs i) /\
    (forall t i d n buf, jobs t = JWrite i d -> f_at s t = FDone (Ok n) buf -> agreed i (vis d) -> piece_bytes P cs' i = vis d).
Proof.
  intros Ho Hr. destruct (reach_inv _ _ _ _ Ho Hr) as (cs' & Ho' & Hsm & _ & Hby & Hth). exists cs'. split; [exact Ho'|]. split; [exact Hsm|].
  destruct (opened_total _ _ _ _ _ _ _ Hmade Ho) as [_ Hz]. destruct (opened_total _ _ _ _ _ _ _ Hmade Ho') as [_ Hz']. fold T in Hz, Hz'.
  assert (H1 : forall i, inside i -> forall y, 0 <= y < sz i -> old_or_written sha1 hashes jobs i (piece_bytes P cs i) (Z.to_nat y) (nth_error (piece_bytes P cs' i) (Z.to_nat y))).
  { intros i Hi y Hy. pose proof (ps_bounds i Hi). pose proof (ps_sz i). change (nth_error (piece_bytes P cs' i) (Z.to_nat y)) with (bat (piece_bytes P cs' i) y).
    rewrite bat_piece by assumption. apply oldw_piece; [assumption|assumption|assumption|]. apply Hby. lia. }
  split; [exact H1|]. split.
  - intros i Hi Hno. apply bytes_ext; rewrite !zlen_piece by assumption; [reflexivity|]. intros y Hy.
    destruct (H1 i Hi y Hy) as [E|(t & d & Hj & Hv & _)]; [exact E|]. exfalso. exact (Hno t d Hj Hv).
  - intros t i d n buf Hj Hd Hag. specialize (Hth t). rewrite Hd in Hth. cbn [thread_ok] in Hth. rewrite Hj in Hth.
    destruct Hth as [_ [(Hv & _ & Hu)|[(_ & H & _)|[(_ & H)|(_ & _ & H)]]]]; try discriminate.
    apply piece_eq; [assumption|apply Hv| |exact (Hu Hag)]. specialize (Hfit t). rewrite Hj in Hfit. apply Hfit. exact Hv.
Qed.

Lemma conc_results w cs ts s t : opened_at inos w ti cs -> no_faults w -> frun sha1 ti jobs (finit w) ts = Some s ->
  forall r buf, f_at s t = FDone r buf ->
  match jobs t with
  | JWrite i d => buf = d /\ ((accepted_write sha1 hashes i d /\ r = Ok (sz i)) \/ (~ inside i /\ r = Err EBounds) \/ (inside i /\ sha1 (vis d) <> hash_at hashes i /\ r = Err EBadHash))
  | JRead i b0 => (inside i /\ r = Ok (sz i)) \/ (~ inside i /\ r = Err EBounds /\ buf = b0)
  end.
Proof.
  intros Ho Hnf Hr r buf Hd. destruct (reach_inv _ _ _ _ Ho Hr) as (cs' & _ & _ & _ & _ & Hth). specialize (Hth t). rewrite Hd in Hth. cbn [thread_ok] in Hth.
  destruct (jobs t) as [i d|i b0]; intuition.
Qed.

Lemma conc_done_accepted w cs ts s : opened_at inos w ti cs -> frun sha1 ti jobs (finit w) ts = Some s -> forall t i d n buf,
  jobs t = JWrite i d -> f_at s t = FDone (Ok n) buf -> accepted_write sha1 hashes i d /\ zlen (vis d) = sz i.
Proof.
  intros Ho Hr t i d n buf Hj Hd. destruct (reach_inv _ _ _ _ Ho Hr) as (cs' & _ & _ & _ & _ & Hth). specialize (Hth t). rewrite Hd in Hth. cbn [thread_ok] in Hth. rewrite Hj in Hth.
  destruct Hth as [_ [(Hv & _ & Hu)|[(_ & H & _)|[(_ & H)|(_ & _ & H)]]]]; try discriminate.
  split; [exact Hv|]. specialize (Hfit t). rewrite Hj in Hfit. apply Hfit. exact Hv.
Qed.

Lemma conc_read w cs ts s t i b0 n buf : opened_at inos w ti cs -> frun sha1 ti jobs (finit w) ts = Some s ->
  jobs t = JRead i b0 -> f_at s t = FDone (Ok n) buf ->
  inside i /\ n = sz i /\ zlen (vis buf) = zlen (vis b0) /\
  (forall y, 0 <= y < sz i -> old_or_written sha1 hashes jobs i (piece_bytes P cs i) (Z.to_nat y) (nth_error (vis buf) (Z.to_nat y))) /\
  (forall y, sz i <= y < zlen (vis b0) -> nth_error (vis buf) (Z.to_nat y) = nth_error (vis b0) (Z.to_nat y)).
Proof.
  intros Ho Hr Hj Hd. destruct (reach_inv _ _ _ _ Ho Hr) as (cs' & _ & _ & _ & _ & Hth). specialize (Hth t). rewrite Hd in Hth. cbn [thread_ok] in Hth. rewrite Hj in Hth.
  destruct (opened_total _ _ _ _ _ _ _ Hmade Ho) as [_ Hz]. fold T in Hz.
  destruct Hth as [(Hi & Hn & Hv & Hc & HA & Hk)|[(_ & (e & H) & _)|(_ & H & _)]]; [|discriminate|discriminate].
  assert (n = sz i) by congruence. split; [exact Hi|]. split; [assumption|]. split; [assumption|]. split.
  - intros y Hy. apply oldw_piece; [assumption|assumption|assumption|]. apply HA; [exact I|assumption].
  - intros y Hy. change (bat (vis buf) y = bat (vis b0) y). pose proof (ps_bounds i Hi). pose proof (ps_sz i). rewrite <- !nth_back_vis by lia. apply Hk.
    unfold scap. pose proof (zlen_nonneg (spare b0)). lia.
Qed.

Lemma opened_det w cs cs' : opened_at inos w ti cs -> opened_at inos w ti cs' -> cs = cs'.
Proof.
  intros (_ & _ & H & _) (_ & _ & H' & _). revert cs' H'. induction H as [|k c ks cs Hk _ IH]; intros cs' H'; inversion H'; subst; [reflexivity|]. f_equal; [congruence|auto].
Qed.

(** Piece i holds d from state s1 on. *)
Lemma conc_fixed w cs ts1 s1 ts2 s2 i d cs1 : opened_at inos w ti cs -> frun sha1 ti jobs (finit w) ts1 = Some s1 -> frun sha1 ti jobs s1 ts2 = Some s2 ->
  inside i -> zlen d = sz i -> agreed i d -> opened_at inos (f_world s1) ti cs1 -> piece_bytes P cs1 i = d ->
  (exists cs2, opened_at inos (f_world s2) ti cs2 /\ piece_bytes P cs2 i = d) /\
  forall t b0 n buf, jobs t = JRead i b0 -> f_at s1 t = FStart -> f_at s2 t = FDone (Ok n) buf -> firstn (Z.to_nat n) (vis buf) = d.
Proof.
  intros Ho Hr1 Hr2 Hi Hd Hag Ho1 Hp1. pose proof (reach_inv _ _ _ _ Ho Hr1) as Hinv.
  destruct (opened_total _ _ _ _ _ _ _ Hmade Ho1) as [_ Hz1]. fold T in Hz1. pose proof (ps_bounds i Hi). pose proof (ps_sz i).
  set (A := fun (x : Z) (b : option byte) => ps i <= x < ps i + sz i -> b = bat d (x - ps i)).
  assert (HA : allows A).
  { intros t j e Hj Hv y Hy. unfold A. intros Hx. destruct (disjoint i j (ps j + y - ps i) y) as [<- E]; [assumption|apply Hv|lia|assumption|lia|].
    rewrite E. unfold agreed, only_writes in Hag. rewrite (Hag t e Hj Hv). reflexivity. }
  assert (Hinv1 : Inv (no_faults w) A (fun t => f_at s1 t = FStart) w s1).
  { eapply restart_inv; [exact Hinv| |auto]. intros c x Hc Hx. rewrite (opened_det _ _ _ Hc Ho1). unfold A. intros Hx'.
    rewrite <- Hp1. rewrite bat_piece by (assumption || lia). f_equal. lia. }
  destruct (run_inv _ _ _ _ HA _ _ _ Hinv1 Hr2) as (cs2 & Ho2 & _ & _ & Hby & Hth). split.
  - exists cs2. split; [exact Ho2|]. destruct (opened_total _ _ _ _ _ _ _ Hmade Ho2) as [_ Hz2]. fold T in Hz2. apply piece_eq; [assumption|assumption|assumption|].
    intros y Hy. specialize (Hby (ps i + y) ltac:(lia)). unfold A in Hby. rewrite Hby by lia. f_equal. lia.
  - intros t b0 n buf Hj Hs Hdn. specialize (Hth t). rewrite Hdn in Hth. cbn [thread_ok] in Hth. rewrite Hj in Hth.
    destruct Hth as [(_ & Hn & Hv & _ & HAy & _)|[(_ & (e & H') & _)|(_ & H' & _)]]; [|discriminate|discriminate].
    assert (n = sz i) as -> by congruence. specialize (HAy Hs).
    assert (Hlen : sz i <= zlen (vis buf)).
    { specialize (Hfit t); rewrite Hj in Hfit; cbn [fitting] in Hfit. destruct basics as (HP & _). pose proof (psize_le P T i ltac:(lia)) as Hsl. change (psize P T i) with (sz i) in Hsl. lia. }
    apply bytes_ext. { rewrite Hd. unfold zlen in *. rewrite firstn_length. lia. }
    assert (Hfl : zlen (firstn (Z.to_nat (sz i)) (vis buf)) = sz i) by (unfold zlen in *; rewrite firstn_length; lia). intros y Hy. rewrite Hfl in Hy.
    change (firstn (Z.to_nat (sz i)) (vis buf)) with (sub (vis buf) (Z.to_nat 0) (Z.to_nat (sz i))). unfold bat at 1. rewrite nth_sub_vis by lia.
    change (bat (vis buf) (0 + y) = bat d y). rewrite Z.add_0_l. rewrite (HAy y Hy ltac:(lia)). f_equal. lia.
Qed.
End Conc.

(** ** One call run alone is the sequential call *)
Lemma write_locs_cons ti l r d off w : write_locs ti (l :: r) d off w =
  match write_locs ti [l] d off w with (Ok o, w') => write_locs ti r d o w' | (e, w') => (e, w') end.
Proof.
  cbn [write_locs]. unfold iobind, lift, ret. destruct (sslice d off _); [|reflexivity..]. destruct (loc_path ti l); [|reflexivity..].
  destruct (fio_write _ _ _ w) as [[n| | |] w']; reflexivity.
Qed.
Lemma read_locs_cons ti l r buf off w : read_locs_io ti (l :: r) buf off w =
  match read_locs_io ti [l] buf off w with (Ok o, buf', w') => read_locs_io ti r buf' o w' | (e, buf', w') => (e, buf', w') end.
Proof.
  cbn [read_locs_io]. destruct (sslice buf off _); [|reflexivity..]. destruct (loc_path ti l); [|reflexivity..].
  destruct (fio_read _ _ _ w) as [[[b [e|]]| | |] w']; reflexivity.
Qed.

Lemma alone_loop sha1 ti jobs t : forall locs s buf off, f_at s t = FLoop locs buf off -> (forall i d, jobs t = JWrite i d -> buf = d) ->
  exists k s' r buf', frun sha1 ti jobs s (repeat t k) = Some s' /\ f_at s' t = FDone r buf' /\ (forall u, u <> t -> f_at s' u = f_at s u) /\
    match jobs t with
    | JWrite _ _ => buf' = buf /\ write_locs ti locs buf off (f_world s) = (r, f_world s')
    | JRead _ _ => read_locs_io ti locs buf off (f_world s) = (r, buf', f_world s')
    end.
Proof.
  induction locs as [|l locs IH]; intros s buf off Hs Hb.
  - exists 1%nat, (mkfst (f_world s) (fgoto s t (FDone (Ok off) buf))), (Ok off), buf. cbn [repeat frun]. unfold fstep. rewrite Hs. split; [reflexivity|].
    cbn [f_at f_world]. rewrite bump, Nat.eqb_refl. split; [reflexivity|]. split; [intros u Hu; rewrite bump; now apply Nat.eqb_neq in Hu; rewrite Hu|].
    destruct (jobs t); [split|]; reflexivity.
  - destruct (access ti (jobs t) l locs buf off (f_world s)) as [p w'] eqn:Ea. set (s1 := mkfst w' (fgoto s t p)).
    assert (H1 : fstep sha1 ti jobs s t = Some s1) by (unfold fstep; rewrite Hs, Ea; reflexivity).
    assert (Hp : f_at s1 t = p) by (unfold s1; cbn [f_at]; rewrite bump, Nat.eqb_refl; reflexivity).
    assert (Hu : forall u, u <> t -> f_at s1 u = f_at s u) by (intros u Hu; unfold s1; cbn [f_at]; rewrite bump; apply Nat.eqb_neq in Hu; now rewrite Hu).
    assert (Hstop : forall r b, p = FDone r b -> exists k s' r' buf', frun sha1 ti jobs s (repeat t k) = Some s' /\ f_at s' t = FDone r' buf' /\ (forall u, u <> t -> f_at s' u = f_at s u) /\
        r' = r /\ buf' = b /\ f_world s' = w').
    { intros r b ->. exists 1%nat, s1, r, b. cbn [repeat frun]. rewrite H1. auto 10. }
    destruct (jobs t) as [i d|i b0] eqn:Ej; cbn [access] in Ea.
    + rewrite write_locs_cons. destruct (write_locs ti [l] buf off (f_world s)) as [[o|e| |] w1] eqn:Ew; injection Ea as <- <-.
      * destruct (IH s1 buf o Hp) as (k & s' & r & buf' & Hr & Hd & Hu' & Hx); [intros i' d' H; now apply (Hb i')|].
        exists (S k), s', r, buf'. cbn [repeat frun]. rewrite H1. split; [exact Hr|]. split; [exact Hd|]. split; [intros u Hne; rewrite Hu' by assumption; auto|]. rewrite ?Ej in Hx. exact Hx.
      * destruct (Hstop _ _ eq_refl) as (k & s' & r' & buf' & A & B & C & -> & -> & <-). exists k, s', (Err e), buf. auto 10.
      * destruct (Hstop _ _ eq_refl) as (k & s' & r' & buf' & A & B & C & -> & -> & <-). exists k, s', Panic, buf. auto 10.
      * destruct (Hstop _ _ eq_refl) as (k & s' & r' & buf' & A & B & C & -> & -> & <-). exists k, s', NoFuel, buf. auto 10.
    + rewrite read_locs_cons. destruct (read_locs_io ti [l] buf off (f_world s)) as [[[o|e| |] bu] w1] eqn:Ew; injection Ea as <- <-.
      * destruct (IH s1 bu o Hp) as (k & s' & r & buf' & Hr & Hd & Hu' & Hx); [intros i' d' H; discriminate|].
        exists (S k), s', r, buf'. cbn [repeat frun]. rewrite H1. split; [exact Hr|]. split; [exact Hd|]. split; [intros u Hne; rewrite Hu' by assumption; auto|]. rewrite ?Ej in Hx. exact Hx.
      * destruct (Hstop _ _ eq_refl) as (k & s' & r' & buf' & A & B & C & -> & -> & <-). exists k, s', (Err e), bu. auto 10.
      * destruct (Hstop _ _ eq_refl) as (k & s' & r' & buf' & A & B & C & -> & -> & <-). exists k, s', Panic, bu. auto 10.
      * destruct (Hstop _ _ eq_refl) as (k & s' & r' & buf' & A & B & C & -> & -> & <-). exists k, s', NoFuel, bu. auto 10.
Qed.

Lemma alone sha1 ti jobs s t : f_at s t = FStart ->
  exists k s' r buf, frun sha1 ti jobs s (repeat t k) = Some s' /\ f_at s' t = FDone r buf /\ (forall u, u <> t -> f_at s' u = f_at s u) /\
    call sha1 ti (jobs t) (f_world s) = (r, buf, f_world s').
Proof.
  intros Hs. set (p := begin_job sha1 ti (jobs t)). set (s1 := mkfst (f_world s) (fgoto s t p)).
  assert (H1 : fstep sha1 ti jobs s t = Some s1) by (unfold fstep; rewrite Hs; reflexivity).
  assert (Hp : f_at s1 t = p) by (unfold s1; cbn [f_at]; rewrite bump, Nat.eqb_refl; reflexivity).
  assert (Hu : forall u, u <> t -> f_at s1 u = f_at s u) by (intros u Hu; unfold s1; cbn [f_at]; rewrite bump; apply Nat.eqb_neq in Hu; now rewrite Hu).
  assert (Hstop : forall r b, p = FDone r b -> call sha1 ti (jobs t) (f_world s) = (r, b, f_world s) ->
    exists k s' r buf, frun sha1 ti jobs s (repeat t k) = Some s' /\ f_at s' t = FDone r buf /\ (forall u, u <> t -> f_at s' u = f_at s u) /\
    call sha1 ti (jobs t) (f_world s) = (r, buf, f_world s')).
  { intros r b E Hc. exists 1%nat, s1, r, b. cbn [repeat frun]. rewrite H1. rewrite Hp. auto 10. }
  assert (Hgo : forall locs b, p = FLoop locs b 0 -> (forall i d, jobs t = JWrite i d -> b = d) -> exists k s' r buf', frun sha1 ti jobs s (repeat t k) = Some s' /\ f_at s' t = FDone r buf' /\ (forall u, u <> t -> f_at s' u = f_at s u) /\
    match jobs t with
    | JWrite _ _ => buf' = b /\ write_locs ti locs b 0 (f_world s) = (r, f_world s')
    | JRead _ _ => read_locs_io ti locs b 0 (f_world s) = (r, buf', f_world s')
    end).
  { intros locs b E Hb. destruct (alone_loop sha1 ti jobs t locs s1 b 0) as (k & s' & r & buf' & Hr & Hd & Hu' & Hx); [rewrite Hp; exact E|exact Hb|].
    exists (S k), s', r, buf'. cbn [repeat frun]. rewrite H1. split; [exact Hr|]. split; [exact Hd|]. split; [intros u Hne; rewrite Hu' by assumption; auto|exact Hx]. }
  clear H1 Hp Hu. subst s1. revert Hstop Hgo. unfold p. clear p. unfold call. destruct (jobs t) as [i d|i b0]; cbn [begin_job]; unfold WritePiece, ReadPiece, iobind, lift.
  - destruct (PieceLookup ti i) as [locs|e| |]; cbn [bind]; intros Hstop Hgo; [|eapply Hstop; reflexivity..].
    destruct (PieceHash ti i) as [h|e| |]; cbn [bind] in *; [|eapply Hstop; reflexivity..].
    destruct (beqb (sha1 (vis d)) h); cbn [negb] in *; [|eapply Hstop; reflexivity].
    destruct (Hgo _ _ eq_refl) as (k & s' & r & buf' & A & B & C & -> & Hw); [congruence|]. exists k, s', r, d. rewrite Hw. auto.
  - destruct (PieceLookup ti i) as [locs|e| |]; intros Hstop Hgo; [|eapply Hstop; reflexivity..].
    destruct (Hgo _ _ eq_refl) as (k & s' & r & buf' & A & B & C & Hw); [congruence|]. exists k, s', r, buf'. auto.
Qed.
