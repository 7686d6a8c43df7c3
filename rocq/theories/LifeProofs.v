(** LifeProofs.v: moving, closing and creating files. *)
From Coq Require Import ZifyBool ZifyNat ZifyN.
From Verif Require Import Base PathModel PathSpec LayoutModel LayoutSpec LayoutProofs PieceMapProofs FsModel FsSpec FsProofs OcatProofs LifeSpec.

(** ** Move *)
Lemma pget_filter {A} q (f : list bytes -> bool) (m : list (list bytes * A)) : pget q (filter (fun n => f (fst n)) m) = if f q then pget q m else None.
Proof.
  induction m as [|[k v] m IH]; cbn; [now destruct (f q)|]. destruct (place_eqb q k) eqn:E.
  - apply place_eqb_spec in E. subst k. destruct (f q) eqn:F; cbn; [assert (place_eqb q q = true) as -> by (now apply place_eqb_spec); reflexivity|]. exact IH.
  - destruct (f k); cbn; [rewrite E|]; exact IH.
Qed.
Lemma syscall_next {A} (b : io A) w : next_works w -> syscall b w = b (no_flt w).
Proof. intros H. apply syscall_ok. unfold next_works in H. destruct (w_flt w) as [|[k|] fl]; cbn in *; auto. discriminate. Qed.
Lemma no_flt_fields w : w_cwd (no_flt w) = w_cwd w /\ w_names (no_flt w) = w_names w /\ w_inos (no_flt w) = w_inos w /\ w_lfps (no_flt w) = w_lfps w.
Proof. unfold no_flt. destruct (w_flt w); auto. Qed.
Lemma no_flt_faults w : no_faults w -> no_faults (no_flt w).
Proof. intros H. now rewrite no_flt_id. Qed.

Lemma NoDup_filter_map {A C} (g : A -> C) (f : A -> bool) (l : list A) : NoDup (map g l) -> NoDup (map g (filter f l)).
Proof.
  induction l as [|x l IH]; cbn; intros H; [constructor|]. inversion H as [|? ? Hn Hd]; subst. destruct (f x); cbn; [|auto]. constructor; [|auto].
  intros Hin. apply Hn. apply in_map_iff in Hin. destruct Hin as (y & <- & Hy). apply in_map. apply filter_In in Hy. apply Hy.
Qed.

Lemma Move_ok a b w h c : fs_wf w -> next_works w -> aget a (w_lfps w) = Some h -> file_at w a = Some c ->
  exists w', Move a b w = (Ok tt, w') /\ fs_wf w' /\ file_at w' b = Some c /\ (place (w_cwd w) a <> place (w_cwd w) b -> file_at w' a = None) /\
    elsewhere_same [place (w_cwd w) a; place (w_cwd w) b] w w' /\ w_lfps w' = w_lfps w /\ w_inos w' = w_inos w /\ (no_faults w -> no_faults w') /\
    pget (place (w_cwd w) b) (w_names w') = pget (place (w_cwd w) a) (w_names w).
Proof.
  intros Hwf Hn Hh Hc. unfold Move. rewrite Hh, syscall_next by assumption. destruct (no_flt_fields w) as (E1 & E2 & E3 & E4). rewrite E1, E2, E3, E4.
  unfold file_at in Hc. destruct (pget (place (w_cwd w) a) (w_names w)) as [i|] eqn:Ei; [|discriminate].
  set (pa := place (w_cwd w) a) in *. set (pb := place (w_cwd w) b) in *.
  set (f := fun q => negb (place_eqb q pa) && negb (place_eqb q pb)).
  change (filter _ (w_names w)) with (filter (fun n : list bytes * nat => f (fst n)) (w_names w)).
  set (keep := filter (fun n : list bytes * nat => f (fst n)) (w_names w)).
  assert (Hfb : f pb = false) by (unfold f; assert (place_eqb pb pb = true) as -> by (now apply place_eqb_spec); cbn; apply andb_false_r).
  assert (Hfa : f pa = false) by (unfold f; assert (place_eqb pa pa = true) as -> by (now apply place_eqb_spec); reflexivity).
  assert (Hkb : pget pb keep = None) by (unfold keep; rewrite pget_filter, Hfb; reflexivity).
  assert (Hka : pget pa keep = None) by (unfold keep; rewrite pget_filter, Hfa; reflexivity).
  eexists. split; [reflexivity|]. unfold fs_wf, elsewhere_same, file_at, no_faults. cbn [w_cwd w_names w_inos w_lfps w_flt]. fold pa pb.
  rewrite (pget_app_new pb keep i Hkb).
  destruct Hwf as (W1 & W2 & W3).
  assert (Hin : In (pa, i) (w_names w)) by (now apply pget_in).
  split; [split; [|split]|split; [exact Hc|split; [|split; [split; [reflexivity|]|split; [reflexivity|split; [reflexivity|split; [|reflexivity]]]]]]].
  - rewrite map_app. cbn [map fst]. apply nodup_snoc; [apply NoDup_filter_map; exact W1|]. apply pget_none. exact Hkb.
  - rewrite map_app. cbn [map snd]. apply nodup_snoc; [apply NoDup_filter_map; exact W2|]. intros H. apply in_map_iff in H. destruct H as ([q i'] & Heq & Hq). cbn in Heq. subst i'.
    unfold keep in Hq. apply filter_In in Hq. destruct Hq as [Hq Hf]. cbn [fst] in Hf. rewrite (nodup_snd _ _ _ _ W2 Hq Hin) in Hf. congruence.
  - apply Forall_app. split.
    + rewrite Forall_forall in W3 |- *. intros x Hx. apply filter_In in Hx. apply W3. apply Hx.
    + constructor; [|constructor]. cbn. rewrite Forall_forall in W3. exact (W3 _ Hin).
  - intros Hne. rewrite pget_app_other by assumption. rewrite Hka. reflexivity.
  - intros q Hq. cbn [In] in Hq. rewrite pget_app_other by (intros E; apply Hq; auto). unfold keep. rewrite pget_filter.
    assert (Hfq : f (place (w_cwd w) q) = true).
    { unfold f. destruct (place_eqb (place (w_cwd w) q) pa) eqn:A; [apply place_eqb_spec in A; exfalso; apply Hq; auto|].
      destruct (place_eqb (place (w_cwd w) q) pb) eqn:B; [apply place_eqb_spec in B; exfalso; apply Hq; auto|reflexivity]. }
    rewrite Hfq. reflexivity.
  - intros H. apply no_flt_faults. exact H.
Qed.

Lemma Move_fails a b w :
  (aget a (w_lfps w) = None -> Move a b w = (Err EPath, w)) /\
  (file_at w a = None -> fs_wf w -> exists e w', Move a b w = (Err e, w') /\ (next_works w -> e = EPath)) /\
  (forall e w', Move a b w = (Err e, w') -> disk_same w w') /\
  (exists r w', Move a b w = (r, w') /\ (r = Ok tt \/ exists e, r = Err e)).
Proof.
  unfold Move. destruct (no_flt_fields w) as (E1 & E2 & E3 & E4).
  assert (Hcase : next_works w \/ exists k fl, w_flt w = Some k :: fl) by (unfold next_works; destruct (w_flt w) as [|[k|] fl]; cbn; eauto).
  assert (Hsame : disk_same w (no_flt w)) by (unfold disk_same; auto).
  split; [now intros ->|]. destruct (aget a (w_lfps w)) as [h|].
  2: { split; [intros _ _; exists EPath, w; auto|]. split; [intros e w' H; injection H as <- <-; apply disk_same_refl|]. exists (Err EPath), w. split; [reflexivity|]. right. eauto. }
  destruct Hcase as [Hn|(k & fl & Hf)].
  - rewrite syscall_next by assumption. rewrite E1, E2, E3, E4. split; [|split].
    + unfold file_at. intros Hx Hwf. destruct (pget (place (w_cwd w) a) (w_names w)) as [i|] eqn:Ei; [|eauto].
      exfalso. pose proof (fs_wf_bound _ _ _ Hwf Ei). apply nth_error_None in Hx. lia.
    + intros e w' H. destruct (pget (place (w_cwd w) a) (w_names w)); [discriminate|]. injection H as <- <-. exact Hsame.
    + destruct (pget (place (w_cwd w) a) (w_names w)); eexists _, _; (split; [reflexivity|]); [left; reflexivity|right; eauto].
  - rewrite (syscall_bad _ _ _ _ Hf). split; [|split].
    + intros _ _. exists EIO, (no_flt w). split; [reflexivity|]. unfold next_works. rewrite Hf. discriminate.
    + intros e w' H. injection H as <- <-. exact Hsame.
    + eexists _, _. split; [reflexivity|]. right; eauto.
Qed.

Lemma opened_lfps_inos inos w w' ti cs : w_lfps w' = w_lfps w -> w_inos w' = w_inos w -> opened_at inos w ti cs -> opened_at inos w' ti cs.
Proof. unfold opened_at. intros -> ->. auto. Qed.

(** After Move, what is written through the FileIO lands in the file's new place. *)
Lemma Move_then_write sha1 P hashes files ti i d w inos contents k e a b : made P hashes files ti -> fs_wf w -> opened_at inos w ti contents -> no_faults w ->
  nth_error (ti_files ti) k = Some e -> a = eb_local (en_base e) -> still_there w a ->
  0 <= i < zlen hashes / 20 -> sha1 (vis d) = hash_at hashes i -> zlen (vis d) = psize P (zsum (lens_of files)) i ->
  exists w1 w2 contents', Move a b w = (Ok tt, w1) /\ WritePiece sha1 ti i d w1 = (Ok (zlen (vis d)), w2) /\
    opened_at inos w2 ti contents' /\ List.concat contents' = over (List.concat contents) (pstart P (zsum (lens_of files)) i) (vis d) /\
    file_at w1 b = nth_error contents k /\ file_at w2 b = nth_error contents' k.
Proof.
  intros Hm Hwf Ho Hnf Hk Ha (j & o & Hh & Hp) Hi Hs Hd.
  pose proof Ho as (_ & F1 & F2 & _). destruct (Forall2_nth _ _ _ F1 _ _ Hk) as (j' & Hj' & Hl). rewrite <- Ha, Hh in Hl. assert (j' = j) by congruence. subst j'.
  destruct (Forall2_nth _ _ _ F2 _ _ Hj') as (c & Hc & Hcc).
  assert (Hfa : file_at w a = Some c) by (unfold file_at; rewrite Hp; exact Hcc).
  destruct (Move_ok a b w (mkh j o) c Hwf) as (w1 & Hmv & Hwf1 & Hfb & _ & (Hcw & _) & Hlf & Hin & Hnf1 & Hpb); [unfold next_works; rewrite Hnf; reflexivity|exact Hh|exact Hfa|].
  pose proof (opened_lfps_inos _ _ _ _ _ Hlf Hin Ho) as Ho1.
  destruct (WritePiece_ok sha1 P hashes files ti i d w1 inos contents Hm Ho1 Hi Hs (Hnf1 Hnf) Hd) as (cs' & w2 & Hw & Ho2 & Hos & _ & Hcat).
  exists w1, w2, cs'. split; [exact Hmv|]. split; [exact Hw|]. split; [exact Ho2|]. split; [exact Hcat|]. split; [rewrite Hc; exact Hfb|].
  destruct Hos as (O1 & O2 & _). unfold file_at. rewrite O1, O2, Hcw, Hpb, Hp.
  destruct Ho2 as (_ & _ & G2 & _). destruct (Forall2_nth _ _ _ G2 _ _ Hj') as (c2 & Hc2 & Hcc2). rewrite Hc2. exact Hcc2.
Qed.

(** ** Close *)
Lemma Close_open p w i : aget p (w_lfps w) = Some (mkh i true) ->
  exists r w', Close p w = (r, w') /\ files_same w w' /\ aget p (w_lfps w') = Some (mkh i false) /\ (forall q, q <> p -> aget q (w_lfps w') = aget q (w_lfps w)) /\
    ((r = Ok tt /\ next_works w) \/ (r = Err EIO /\ ~ next_works w)) /\ (no_faults w -> no_faults w').
Proof.
  intros H. unfold Close. rewrite H. cbn [h_open h_ino]. unfold iobind, fault, set_lfps, files_same, next_works, no_faults.
  destruct (w_flt w) as [|[k|] fl] eqn:E; cbn [w_cwd w_names w_inos w_lfps w_flt hd];
    (eexists _, _; split; [reflexivity|]; cbn [w_cwd w_names w_inos w_lfps w_flt]; split; [auto|]; split; [apply aget_aput_same|];
     split; [intros q Hq; now apply aget_aput_other|]; split; [|congruence]); [left; auto|right; split; [reflexivity|discriminate]|left; auto].
Qed.
Lemma Close_other p w : (is_closed w p -> Close p w = (Err EClosed, w)) /\ (aget p (w_lfps w) = None -> Close p w = (Err EPath, w)).
Proof. unfold Close, is_closed. split; [intros (i & ->); reflexivity|now intros ->]. Qed.

Lemma closed_access p w : is_closed w p -> forall seek, 0 <= seek ->
  (forall d, d <> [] -> fio_write p seek d w = (Err EClosed, w)) /\ (forall n, 0 < n -> fio_read p seek n w = (Ok ([], Some EClosed), w)).
Proof.
  intros (i & Hi) seek Hs. unfold fio_write, fio_read, WriteAt, ReadAt. rewrite Hi. replace (seek <? 0) with false by lia. cbn [h_open negb]. split.
  - intros [|x d] Hd; [contradiction|reflexivity].
  - intros n Hn. replace (n <=? 0) with false by lia. reflexivity.
Qed.
Lemma closed_empty p w : is_closed w p -> forall seek, 0 <= seek -> fio_write p seek [] w = (Ok 0, w) /\ fio_read p seek 0 w = (Ok ([], None), w).
Proof. intros (i & Hi) seek Hs. unfold fio_write, fio_read, WriteAt, ReadAt. rewrite Hi. replace (seek <? 0) with false by lia. split; reflexivity. Qed.

Lemma loc_closed ti w l : all_closed w ti -> (pl_file l < List.length (ti_files ti))%nat -> exists p, loc_path ti l = Ok p /\ is_closed w p.
Proof.
  intros H Hl. unfold loc_path. destruct (nth_error (ti_files ti) (pl_file l)) as [e|] eqn:E; [|apply nth_error_None in E; lia].
  eexists. split; [reflexivity|]. unfold all_closed in H. rewrite Forall_forall in H. apply H. eapply nth_error_In. exact E.
Qed.

Lemma read_closed ti w : all_closed w ti -> forall locs a b buf off, tiles (lens_of (map en_base (ti_files ti))) locs a b -> 0 <= off -> off + (b - a) <= scap buf -> off + (b - a) <= max64 ->
  read_locs_io ti locs buf off w = (if b =? a then Ok off else Err EClosed, buf, w).
Proof.
  intros Hcl. induction locs as [|l locs IH]; intros a b buf off Ht Ho Hcap Hmx; cbn [tiles] in Ht.
  - subst b. rewrite Z.eqb_refl. reflexivity.
  - destruct Ht as (Hk & Hs & Hn & _ & _ & Ht). unfold lens_of in Hk. rewrite !map_length in Hk. destruct (loc_closed _ _ _ Hcl Hk) as (p & Hp & Hpc).
    pose proof (tiles_le _ _ _ _ Ht) as Hle. set (n := ReadAmnt (pl_info l)) in *.
    cbn [read_locs_io]. fold n. unfold add64. rewrite i64_id by (unfold min64, max64 in *; lia).
    destruct (sslice_ok buf off (off + n)) as (sb & -> & _ & Hlen); [lia|lia|lia|]. rewrite Hp, Hlen. replace (off + n - off) with n by lia.
    destruct (Z.eq_dec n 0) as [E|E].
    + rewrite E in *. rewrite (proj2 (closed_empty _ _ Hpc _ Hs)). rewrite splice_nil. change (zlen []) with 0. rewrite Z.add_0_r, i64_id by (unfold min64, max64 in *; lia).
      rewrite Z.add_0_r in Ht. apply IH; assumption.
    + rewrite (proj2 (closed_access _ _ Hpc _ Hs)) by lia. rewrite splice_nil. replace (b =? a) with false by lia. reflexivity.
Qed.
Lemma write_closed ti w : all_closed w ti -> forall locs a b d off, tiles (lens_of (map en_base (ti_files ti))) locs a b -> 0 <= off -> off + (b - a) <= scap d -> off + (b - a) <= max64 ->
  write_locs ti locs d off w = (if b =? a then Ok off else Err EClosed, w).
Proof.
  intros Hcl. induction locs as [|l locs IH]; intros a b buf off Ht Ho Hcap Hmx; cbn [tiles] in Ht.
  - subst b. rewrite Z.eqb_refl. reflexivity.
  - destruct Ht as (Hk & Hs & Hn & _ & _ & Ht). unfold lens_of in Hk. rewrite !map_length in Hk. destruct (loc_closed _ _ _ Hcl Hk) as (p & Hp & Hpc).
    pose proof (tiles_le _ _ _ _ Ht) as Hle. set (n := ReadAmnt (pl_info l)) in *.
    cbn [write_locs]. fold n. unfold add64. rewrite (i64_id (off + n)) by (unfold min64, max64 in *; lia). unfold iobind, lift.
    destruct (sslice_ok buf off (off + n)) as (sb & -> & _ & Hlen); [lia|lia|lia|]. rewrite Hp. replace (off + n - off) with n in Hlen by lia.
    destruct (Z.eq_dec n 0) as [E|E].
    + rewrite E in *. assert (vis sb = []) as -> by (apply length_zero_iff_nil; unfold zlen in Hlen; lia). rewrite (proj1 (closed_empty _ _ Hpc _ Hs)).
      rewrite !Z.add_0_r in *. rewrite i64_id by (unfold min64, max64 in *; lia). apply IH; assumption.
    + rewrite (proj1 (closed_access _ _ Hpc _ Hs)); [replace (b =? a) with false by lia; reflexivity|]. intros E'. rewrite E' in Hlen. change (zlen []) with 0 in Hlen. lia.
Qed.

Lemma closed_pieces sha1 P hashes files ti w i buf : made P hashes files ti -> all_closed w ti -> 0 <= i < zlen hashes / 20 ->
  let n := psize P (zsum (lens_of files)) i in n <= scap buf ->
  ReadPiece ti i buf w = (if n =? 0 then Ok 0 else Err EClosed, buf, w) /\
  (sha1 (vis buf) = hash_at hashes i -> WritePiece sha1 ti i buf w = (if n =? 0 then Ok 0 else Err EClosed, w)).
Proof.
  intros Hm Hcl Hi n Hn. destruct (made_facts _ _ _ _ Hm) as (HP & HT & _ & _ & _ & _ & Hfl & _ & _ & _ & Hin & _ & Hh).
  destruct (Hin i Hi) as (l & Hl & Ht). rewrite <- Hfl in Ht at 1. set (T := zsum (lens_of files)) in *.
  assert (Hb : psize P T i <= max64) by (pose proof (psize_le P T i ltac:(lia)); unfold big, max64 in *; lia).
  unfold n in *. unfold psize in *. replace (pstart P T (i + 1) - pstart P T i =? 0) with (pstart P T (i + 1) =? pstart P T i) by lia. split.
  - unfold ReadPiece. rewrite Hl. apply read_closed; [assumption|assumption|lia|lia|lia].
  - intros Hs. unfold WritePiece, iobind, lift. rewrite Hl, (Hh i Hi), Hs, beqb_refl. cbn [negb]. apply write_closed; [assumption|assumption|lia|lia|lia].
Qed.

Lemma unopened_pieces sha1 P hashes files ti w i buf : made P hashes files ti -> none_opened w ti -> 0 <= i < zlen hashes / 20 ->
  0 < psize P (zsum (lens_of files)) i <= scap buf ->
  ReadPiece ti i buf w = (Err EPath, buf, w) /\ (sha1 (vis buf) = hash_at hashes i -> WritePiece sha1 ti i buf w = (Err EPath, w)).
Proof.
  intros Hm Hno Hi Hn. destruct (made_facts _ _ _ _ Hm) as (HP & HT & _ & _ & _ & _ & Hfl & _ & _ & _ & Hin & _ & Hh).
  destruct (Hin i Hi) as (locs & Hl & Ht). rewrite <- Hfl in Ht at 1. set (T := zsum (lens_of files)) in *.
  assert (Hb : psize P T i <= max64) by (pose proof (psize_le P T i ltac:(lia)); unfold big, max64 in *; lia).
  unfold psize in *. destruct locs as [|l locs]; cbn [tiles] in Ht; [exfalso; lia|]. destruct Ht as (Hk & Hs & Hn0 & _ & _ & Ht). unfold lens_of in Hk. rewrite !map_length in Hk.
  pose proof (tiles_le _ _ _ _ Ht) as Hle. set (n := ReadAmnt (pl_info l)) in *.
  assert (Hp : exists p, loc_path ti l = Ok p /\ aget p (w_lfps w) = None).
  { unfold loc_path. destruct (nth_error (ti_files ti) (pl_file l)) as [e|] eqn:E; [|apply nth_error_None in E; lia].
    eexists. split; [reflexivity|]. unfold none_opened in Hno. rewrite Forall_forall in Hno. apply Hno. eapply nth_error_In. exact E. }
  destruct Hp as (p & Hp & Hnone). destruct (sslice_ok buf 0 (0 + n)) as (sb & Hsb & _ & _); [lia|lia|lia|]. split.
  - unfold ReadPiece. rewrite Hl. cbn [read_locs_io]. fold n. unfold add64. rewrite i64_id by (unfold min64, max64 in *; lia). rewrite Hsb, Hp. unfold fio_read. rewrite Hnone. now rewrite splice_nil.
  - intros Hs'. unfold WritePiece, iobind, lift. rewrite Hl, (Hh i Hi), Hs', beqb_refl. cbn [negb write_locs]. fold n. unfold add64. rewrite i64_id by (unfold min64, max64 in *; lia).
    unfold iobind, lift. rewrite Hsb, Hp. unfold fio_write. now rewrite Hnone.
Qed.

(** ** CloseAll *)
Lemma CloseAll_spec : forall order w, NoDup order -> (forall p, In p order -> is_open w p \/ is_closed w p) ->
  exists pre post r w', order = pre ++ post /\ CloseAll order w = (r, w') /\ files_same w w' /\
    (forall p, In p pre -> is_open w p /\ is_closed w' p) /\ (forall p, ~ In p pre -> aget p (w_lfps w') = aget p (w_lfps w)) /\
    ((r = Ok tt /\ post = []) \/ (r = Err EIO /\ ~ no_faults w) \/ (exists p post', r = Err EClosed /\ post = p :: post' /\ is_closed w p)).
Proof.
  induction order as [|p order IH]; intros w HN Hk.
  - exists [], [], (Ok tt), w. cbn [CloseAll]. split; [reflexivity|]. split; [reflexivity|]. split; [unfold files_same; auto|]. split; [intros q []|]. split; [auto|]. left. auto.
  - inversion HN as [|? ? Hp HN']; subst. cbn [CloseAll]. unfold iobind. destruct (Hk p (or_introl eq_refl)) as [Hop|Hcl].
    + destruct Hop as (i & Hi). destruct (Close_open p w i Hi) as (r & w1 & Hc & Hfs & Hi1 & Hoth & Hr & Hnf). rewrite Hc. destruct Hr as [[-> _]|[-> Hbad]].
      * destruct (IH w1 HN') as (pre & post & r & w' & Ho & Hca & Hfs' & Hpre & Hout & Hr).
        { intros q Hq. assert (q <> p) by (intros ->; contradiction). destruct (Hk q (or_intror Hq)) as [(j & Hj)|(j & Hj)]; [left|right]; exists j; rewrite Hoth; assumption. }
        rewrite Hca. exists (p :: pre), post, r, w'. split; [cbn; now rewrite Ho|]. split; [reflexivity|].
        assert (Hnp : ~ In p pre) by (intros H; apply Hp; rewrite Ho; apply in_or_app; auto).
        assert (Hinn : forall q, In q order -> q <> p) by (intros q Hq ->; contradiction).
        split; [unfold files_same in *; intuition congruence|]. split.
        { intros q [<-|Hq]; [split; [exists i; exact Hi|exists i; rewrite Hout by assumption; exact Hi1]|].
          destruct (Hpre q Hq) as [(j & Hj) Hc']. split; [|assumption]. exists j. rewrite <- Hoth; [assumption|]. apply Hinn. rewrite Ho. apply in_or_app. auto. }
        split. { intros q Hq. cbn [In] in Hq. rewrite Hout by tauto. apply Hoth. intros ->. tauto. }
        destruct Hr as [[-> ->]|[[-> Hx]|(q & post' & -> & -> & (j & Hj))]]; [left; auto|right; left; split; [reflexivity|]; intros H; apply Hx; auto|].
        right; right. exists q, post'. split; [reflexivity|]. split; [reflexivity|]. exists j. rewrite <- Hoth; [assumption|]. apply Hinn. rewrite Ho. apply in_or_app. right. left. reflexivity.
      * exists [p], order, (Err EIO), w1. split; [reflexivity|]. split; [reflexivity|]. split; [assumption|]. split; [intros q [<-|[]]; split; [exists i|exists i]; assumption|].
        split; [intros q Hq; apply Hoth; intros ->; apply Hq; left; reflexivity|]. right; left. split; [reflexivity|]. intros H. apply Hbad. unfold next_works. rewrite H. reflexivity.
    + rewrite (proj1 (Close_other p w) Hcl). exists [], (p :: order), (Err EClosed), w. split; [reflexivity|]. split; [reflexivity|]. split; [unfold files_same; auto|]. split; [intros q []|].
      split; [auto|]. right; right. exists p, order. auto.
Qed.

(** ** Creating files *)
Lemma create_frame p w : fs_wf w -> exists i w', os_create p (no_flt w) = (fst (os_create p (no_flt w)), snd (os_create p (no_flt w))) /\
  (next_works (no_flt w) -> os_create p (no_flt w) = (Ok i, w') /\ fs_wf w' /\ frame [place (w_cwd w) p] w w' /\
     pget (place (w_cwd w) p) (w_names w') = Some i /\ nth_error (w_inos w') i = Some [] /\ (no_faults w -> no_faults w')).
Proof.
  intros Hwf. set (w1 := no_flt (no_flt w)).
  assert (F : w_cwd w1 = w_cwd w /\ w_names w1 = w_names w /\ w_inos w1 = w_inos w /\ w_lfps w1 = w_lfps w).
  { destruct (no_flt_fields w) as (A1 & A2 & A3 & A4). destruct (no_flt_fields (no_flt w)) as (B1 & B2 & B3 & B4). unfold w1. repeat split; congruence. }
  destruct F as (F1 & F2 & F3 & F4).
  assert (Hnf1 : no_faults w -> no_faults w1) by (intros H; unfold w1; rewrite !no_flt_id; [assumption|assumption|rewrite no_flt_id; assumption]).
  destruct (pget (place (w_cwd w) p) (w_names w)) as [i|] eqn:Hp.
  - exists i, (set_inos w1 (lupd (w_inos w) i [])). split; [apply surjective_pairing|]. intros Hn. unfold os_create. rewrite syscall_next by assumption. fold w1. rewrite F1, F2, F3, Hp.
    split; [reflexivity|]. pose proof (fs_wf_bound _ _ _ Hwf Hp) as Hb. unfold set_inos. cbn [w_cwd w_names w_inos w_lfps]. split.
    { apply (fs_wf_same_names w); [cbn; exact F2|cbn; apply lupd_length|assumption]. }
    split. { split; [cbn; exact F1|]. intros q Hq. cbn [w_names w_inos]. rewrite F2. split; [reflexivity|]. intros j Hj. apply lupd_nth_other. intros ->. apply Hq. left. eapply fs_wf_inj; eauto. }
    split; [now rewrite F2|]. split; [apply lupd_nth_same; assumption|]. exact Hnf1.
  - set (i := List.length (w_inos w)). exists i, (mkw (w_cwd w) (w_names w ++ [(place (w_cwd w) p, i)]) (w_inos w ++ [[]]) (w_flt w1) (w_lfps w1)).
    split; [apply surjective_pairing|]. intros Hn. unfold os_create. rewrite syscall_next by assumption. fold w1. rewrite F1, F2, F3, Hp. fold i.
    split; [reflexivity|]. cbn [w_cwd w_names w_inos w_lfps]. split; [|split; [|split; [|split]]].
    + destruct Hwf as (H1 & H2 & H3). unfold fs_wf. cbn [w_names w_inos]. rewrite !map_app, app_length. cbn [map]. split; [|split].
      * apply nodup_snoc; [assumption|]. apply pget_none. exact Hp.
      * apply nodup_snoc; [assumption|]. intros Hin. apply in_map_iff in Hin. destruct Hin as ((q & j) & Hj & Hin). cbn [snd] in *. rewrite Forall_forall in H3. specialize (H3 _ Hin). cbn [snd] in H3. subst i j. lia.
      * apply Forall_app. split; [|constructor; [cbn; subst i; lia|constructor]]. eapply Forall_impl; [|exact H3]. cbn. intros; lia.
    + split; [reflexivity|]. intros q Hq. cbn [w_names w_inos]. split.
      * apply pget_app_other. intros ->. apply Hq. left. reflexivity.
      * intros j Hj. apply nth_error_app1. eapply fs_wf_bound; eauto.
    + apply pget_app_new. assumption.
    + subst i. rewrite nth_error_app2 by lia. now rewrite Nat.sub_diag.
    + exact Hnf1.
Qed.
Lemma frame_trans ps a b c : frame ps a b -> frame ps b c -> frame ps a c.
Proof.
  intros [H1 H2] [H3 H4]. split; [congruence|]. intros q Hq. destruct (H2 q Hq) as [A1 A2]. destruct (H4 q Hq) as [B1 B2]. split; [congruence|].
  intros i Hi. rewrite B2 by congruence. auto.
Qed.
Lemma frame_refl ps w : frame ps w w.
Proof. split; [reflexivity|]. auto. Qed.
Lemma frame_no_flt ps w : frame ps w (no_flt w).
Proof. destruct (no_flt_fields w) as (A1 & A2 & A3 & A4). split; [assumption|]. rewrite A2, A3. auto. Qed.
Lemma fs_wf_no_flt w : fs_wf w -> fs_wf (no_flt w).
Proof. destruct (no_flt_fields w) as (A1 & A2 & A3 & A4). apply fs_wf_same_names; congruence. Qed.
Lemma next_case w : next_works w \/ (exists k fl, w_flt w = Some k :: fl) /\ ~ no_faults w.
Proof. unfold next_works, no_faults. destruct (w_flt w) as [|[k|] fl]; cbn; [auto|right; split; [eauto|discriminate]|auto]. Qed.
Lemma no_flt_bad w : ~ no_faults (no_flt w) -> ~ no_faults w.
Proof. intros H H'. apply H. now apply no_flt_faults. Qed.

(** Growing the file at a bound place. *)
Lemma grow_frame p i c m w w' : fs_wf w -> pget (place (w_cwd w) p) (w_names w) = Some i -> nth_error (w_inos w) i = Some c ->
  w_cwd w' = w_cwd w -> w_names w' = w_names w -> w_inos w' = lupd (w_inos w) i (c ++ zeros m) ->
  fs_wf w' /\ frame [place (w_cwd w) p] w w' /\ file_at w' p = Some (c ++ zeros m).
Proof.
  intros Hwf Hp Hc E1 E2 E3. split; [|split].
  - apply (fs_wf_same_names w); [assumption|rewrite E3; apply lupd_length|assumption].
  - split; [assumption|]. intros q Hq. rewrite E2. split; [reflexivity|]. intros j Hj. rewrite E3. apply lupd_nth_other. intros ->. apply Hq. left. eapply fs_wf_inj; eauto.
  - unfold file_at. rewrite E1, E2, Hp, E3. apply lupd_nth_same. apply nth_error_Some. congruence.
Qed.

Lemma AppendZeros_top p i c n w : fs_wf w -> pget (place (w_cwd w) p) (w_names w) = Some i -> nth_error (w_inos w) i = Some c -> 0 <= n ->
  exists m w' r, AppendZeros i n w = (r, w') /\ 0 <= m <= n /\ file_at w' p = Some (c ++ zeros m) /\ elsewhere_same [place (w_cwd w) p] w w' /\
    ((r = Ok tt /\ m = n) \/ (r = Err EIO /\ ~ no_faults w)).
Proof.
  intros Hwf Hp Hc Hn. destruct (AppendZeros_spec i c n w Hc Hn) as (m & w' & r & E & Hm & A1 & A2 & A3 & A4 & A5 & A6).
  destruct (grow_frame p i c m w w' Hwf Hp Hc A1 A2 A4) as (_ & Hf & Hfa). exists m, w', r. split; [exact E|]. split; [exact Hm|]. split; [exact Hfa|]. split; [apply frame_elsewhere; exact Hf|exact A5].
Qed.

Lemma Create_top p n w : fs_wf w -> 0 <= n ->
  exists r w', CreateZeroFilledFile p n w = (r, w') /\ fs_wf w' /\ elsewhere_same [place (w_cwd w) p] w w' /\
    ((exists i, r = Ok i /\ pget (place (w_cwd w) p) (w_names w') = Some i /\ file_at w' p = Some (zeros n)) \/
     (r = Err EIO /\ ~ no_faults w /\ (file_at w' p = file_at w p \/ exists m, 0 <= m <= n /\ file_at w' p = Some (zeros m)))).
Proof.
  intros Hwf Hn. unfold CreateZeroFilledFile, os_mkdirall, iobind at 1.
  destruct (next_case w) as [H1|[(k & fl & H1) Hbad]].
  2: { rewrite (syscall_bad _ _ _ _ H1). exists (Err EIO), (no_flt w). split; [reflexivity|]. split; [apply fs_wf_no_flt; assumption|].
       split; [apply frame_elsewhere, frame_no_flt|]. right. split; [reflexivity|]. split; [assumption|]. left. unfold file_at. destruct (no_flt_fields w) as (-> & -> & -> & _). reflexivity. }
  rewrite syscall_next by assumption. unfold ret at 1. unfold iobind at 1.
  destruct (next_case (no_flt w)) as [H2|[(k & fl & H2) Hbad]].
  2: { unfold os_create. rewrite (syscall_bad _ _ _ _ H2). exists (Err EIO), (no_flt (no_flt w)). split; [reflexivity|]. split; [apply fs_wf_no_flt, fs_wf_no_flt; assumption|].
       split; [apply frame_elsewhere; eapply frame_trans; apply frame_no_flt|]. right. split; [reflexivity|]. split; [apply no_flt_bad; assumption|]. left. unfold file_at.
       destruct (no_flt_fields (no_flt w)) as (-> & -> & -> & _). destruct (no_flt_fields w) as (-> & -> & -> & _). reflexivity. }
  destruct (create_frame p w Hwf) as (i & w1 & _ & Hcr). destruct (Hcr H2) as (-> & Hwf1 & Hf1 & Hp1 & Hc1 & Hnf1). unfold iobind.
  pose proof (proj1 Hf1) as Hcw. rewrite <- Hcw in Hp1.
  destruct (AppendZeros_spec i [] n w1 Hc1 Hn) as (m & w2 & r & E & Hm & A1 & A2 & A3 & A4 & A5 & A6).
  destruct (grow_frame p i [] m w1 w2 Hwf1 Hp1 Hc1 A1 A2 A4) as (Hwf2 & Hf2 & Hfa). rewrite Hcw in Hf2. cbn [app] in Hfa.
  rewrite E. destruct A5 as [[-> ->]|[-> Hx]].
  - exists (Ok i), w2. split; [reflexivity|]. split; [exact Hwf2|]. split; [apply frame_elsewhere; eapply frame_trans; eassumption|]. left. exists i. split; [reflexivity|].
    split; [rewrite A2, <- Hcw; exact Hp1|exact Hfa].
  - exists (Err EIO), w2. split; [reflexivity|]. split; [exact Hwf2|]. split; [apply frame_elsewhere; eapply frame_trans; eassumption|]. right. split; [reflexivity|].
    split; [intros H; apply Hx; auto|]. right. exists m. auto.
Qed.

Lemma Create_negative p n w : fs_wf w -> n < 0 -> no_faults w ->
  exists w', CreateZeroFilledFile p n w = (Panic, w') /\ file_at w' p = Some [] /\ elsewhere_same [place (w_cwd w) p] w w'.
Proof.
  intros Hwf Hn Hnf. unfold CreateZeroFilledFile, os_mkdirall, iobind at 1.
  assert (H1 : next_works w) by (unfold next_works; now rewrite Hnf). assert (H2 : next_works (no_flt w)) by (rewrite no_flt_id; assumption).
  rewrite syscall_next by assumption. unfold ret at 1. unfold iobind at 1.
  destruct (create_frame p w Hwf) as (i & w1 & _ & Hcr). destruct (Hcr H2) as (-> & Hwf1 & Hf1 & Hp1 & Hc1 & Hnf1). specialize (Hnf1 Hnf).
  unfold iobind, AppendZeros, os_size, iobind. rewrite syscall_next by (unfold next_works; now rewrite Hnf1). rewrite no_flt_id by assumption. unfold content, ret.
  replace (Z.to_nat (n / writeSize) + 2)%nat with (S (Z.to_nat (n / writeSize) + 1))%nat by lia. rewrite zeros_loop_negative by assumption.
  exists w1. split; [reflexivity|]. split; [unfold file_at; rewrite (proj1 Hf1), Hp1; exact Hc1|]. apply frame_elsewhere. exact Hf1.
Qed.
