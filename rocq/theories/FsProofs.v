(** FsProofs.v: lemmas about OCAT, WritePiece and ReadPiece. *)
From Verif Require Import Base BencodeModel PathModel PathSpec LayoutModel LayoutSpec LayoutProofs PieceMapProofs FsModel FsSpec.
From Coq Require Import ZifyBool ZifyNat ZifyN.

(** ** Overwriting *)
Lemma over_length c off d : 0 <= off -> off + zlen d <= zlen c -> zlen (over c off d) = zlen c.
Proof. intros H1 H2. unfold over, zlen in *. rewrite !app_length, firstn_length, skipn_length. lia. Qed.

Lemma over_nil c off : over c off [] = c.
Proof. unfold over. cbn [app List.length]. rewrite Nat.add_0_r. apply firstn_skipn. Qed.

Lemma over_app c off d1 d2 : 0 <= off -> off + zlen d1 + zlen d2 <= zlen c ->
  over (over c off d1) (off + zlen d1) d2 = over c off (d1 ++ d2).
Proof.
  intros H1 H2. unfold over, zlen in *. rewrite app_length.
  set (o := Z.to_nat off) in *. replace (Z.to_nat (off + Z.of_nat (List.length d1))) with (o + List.length d1)%nat by lia.
  assert (Hl : List.length (firstn o c) = o) by (rewrite firstn_length; lia).
  rewrite !app_assoc. rewrite firstn_app. rewrite app_length, Hl.
  rewrite firstn_all2 by (rewrite app_length, Hl; lia).
  replace (o + List.length d1 - (o + List.length d1))%nat with 0%nat by lia. rewrite firstn_O, app_nil_r. f_equal.
  rewrite skipn_app. rewrite app_length, Hl. rewrite skipn_all2 by (rewrite app_length, Hl; lia). cbn [app].
  rewrite skipn_add. f_equal. lia.
Qed.

Lemma pwrite_over c off d : 0 <= off -> off <= zlen c -> pwrite c off d = over c off d.
Proof.
  intros H1 H2. unfold pwrite. destruct d as [|x d]; [symmetry; apply over_nil|].
  unfold zeros. replace (Z.to_nat (off - zlen c)) with 0%nat by lia. reflexivity.
Qed.

Lemma over_nth c off d x : 0 <= off -> off + zlen d <= zlen c -> 0 <= x < zlen c ->
  nth_error (over c off d) (Z.to_nat x) =
    if (off <=? x) && (x <? off + zlen d) then nth_error d (Z.to_nat (x - off)) else nth_error c (Z.to_nat x).
Proof.
  intros H1 H2 Hx. unfold over, zlen in *.
  assert (Hl : List.length (firstn (Z.to_nat off) c) = Z.to_nat off) by (rewrite firstn_length; lia).
  destruct (Z.leb_spec off x) as [A|A]; cbn [andb].
  - rewrite nth_error_app2 by lia. rewrite Hl. destruct (Z.ltb_spec x (off + Z.of_nat (List.length d))) as [C|C].
    + rewrite nth_error_app1 by lia. f_equal. lia.
    + rewrite nth_error_app2 by lia. rewrite <- (firstn_skipn (Z.to_nat off + List.length d) c) at 2.
      rewrite nth_error_app2 by (rewrite firstn_length; lia). f_equal. rewrite firstn_length. lia.
  - rewrite nth_error_app1 by lia. rewrite <- (firstn_skipn (Z.to_nat off) c) at 2. rewrite nth_error_app1 by lia. reflexivity.
Qed.

Lemma over_range c off d : 0 <= off -> off + zlen d <= zlen c -> range (over c off d) off (off + zlen d) = d.
Proof.
  intros H1 H2. unfold range, sub, over, zlen in *. rewrite skipn_app.
  assert (Hl : List.length (firstn (Z.to_nat off) c) = Z.to_nat off) by (rewrite firstn_length; lia).
  rewrite skipn_all2 by lia. rewrite Hl, Nat.sub_diag. cbn [app skipn]. rewrite firstn_app.
  replace (Z.to_nat (off + Z.of_nat (List.length d) - off) - List.length d)%nat with 0%nat by lia.
  rewrite firstn_O, app_nil_r. apply firstn_all2. lia.
Qed.

Lemma over_range_before c off d a b : 0 <= a -> b <= off -> off + zlen d <= zlen c -> range (over c off d) a b = range c a b.
Proof.
  intros H1 H2 H3. destruct (Z_le_gt_dec b a) as [E|E].
  { unfold range, sub. replace (Z.to_nat (b - a)) with 0%nat by lia. reflexivity. }
  unfold over, range, zlen in *. rewrite sub_app_l.
  2: { rewrite firstn_length. lia. }
  rewrite <- (firstn_skipn (Z.to_nat off) c) at 2. rewrite sub_app_l; [reflexivity|]. rewrite firstn_length. lia.
Qed.

Lemma over_range_after c off d a b : 0 <= off -> off + zlen d <= zlen c -> off + zlen d <= a -> range (over c off d) a b = range c a b.
Proof.
  intros H1 H2 H3. unfold over, range, sub, zlen in *. f_equal. rewrite app_assoc, skipn_app.
  assert (Hl : List.length (firstn (Z.to_nat off) c ++ d) = (Z.to_nat off + List.length d)%nat) by (rewrite app_length, firstn_length; lia).
  rewrite skipn_all2 by lia. rewrite Hl. cbn [app]. rewrite skipn_add. f_equal. lia.
Qed.

(** ** One file inside the concatenation *)
Lemma nth_split_bytes (cs : list bytes) k : (k < List.length cs)%nat -> cs = firstn k cs ++ nth k cs [] :: skipn (S k) cs.
Proof.
  revert k; induction cs as [|c cs IH]; intros [|k] H; cbn [List.length] in H; try lia; cbn [firstn nth skipn app]; [reflexivity|].
  f_equal. apply IH. lia.
Qed.
Lemma lupd_split {A} (pre : list A) x post y : lupd (pre ++ x :: post) (List.length pre) y = pre ++ y :: post.
Proof. induction pre as [|z pre IH]; cbn; [reflexivity|]. now f_equal. Qed.

Lemma over_middle p c q off d : 0 <= off -> off + zlen d <= zlen c -> over (p ++ c ++ q) (zlen p + off) d = p ++ over c off d ++ q.
Proof.
  intros H1 H2. unfold over, zlen in *.
  replace (Z.to_nat (Z.of_nat (List.length p) + off)) with (List.length p + Z.to_nat off)%nat by lia.
  rewrite firstn_app_2. rewrite <- !app_assoc. f_equal. rewrite firstn_app.
  replace (Z.to_nat off - List.length c)%nat with 0%nat by lia. rewrite firstn_O, app_nil_r. f_equal. f_equal.
  rewrite <- Nat.add_assoc, <- skipn_add. rewrite (skipn_app (List.length p)), skipn_all, Nat.sub_diag. cbn [app skipn].
  rewrite skipn_app. replace (Z.to_nat off + List.length d - List.length c)%nat with 0%nat by lia. reflexivity.
Qed.

Lemma concat_lupd (cs : list bytes) k off d : (k < List.length cs)%nat -> 0 <= off -> off + zlen d <= zlen (nth k cs []) ->
  List.concat (lupd cs k (over (nth k cs []) off d)) = over (List.concat cs) (fstart (map zlen cs) k + off) d.
Proof.
  intros Hk H1 H2. pose proof (nth_split_bytes cs k Hk) as E. set (c := nth k cs []) in *. set (pre := firstn k cs) in *. set (post := skipn (S k) cs) in *.
  assert (Hp : List.length pre = k) by (unfold pre; rewrite firstn_length; lia).
  unfold fstart. rewrite concat_start. fold pre. rewrite E at 1 2. rewrite <- Hp at 1. rewrite lupd_split.
  rewrite !concat_app. cbn [List.concat]. symmetry. apply over_middle; assumption.
Qed.

Lemma map_lupd {A C} (f : A -> C) l k x : nth_error l k <> None -> f x = f (nth k l x) -> map f (lupd l k x) = map f l.
Proof.
  revert k; induction l as [|y l IH]; intros [|k] H E; cbn [nth_error lupd map nth] in *; try congruence.
  f_equal. apply IH; assumption.
Qed.

Lemma lupd_same {A} (l : list A) k x : nth_error l k = Some x -> lupd l k x = l.
Proof. revert k; induction l as [|y l IH]; intros [|k] H; cbn in *; try discriminate; [congruence|]. f_equal. auto. Qed.

Lemma nth_error_nth_bytes (cs : list bytes) k c : nth_error cs k = Some c -> nth k cs [] = c.
Proof. apply nth_error_nth. Qed.

(** ** Opened files *)
Lemma Forall2_nth {A C} (R : A -> C -> Prop) l m : Forall2 R l m -> forall k x, nth_error l k = Some x -> exists y, nth_error m k = Some y /\ R x y.
Proof.
  induction 1 as [|x y l m H _ IH]; intros [|k] z Hz; try discriminate; cbn [nth_error] in *; [|eauto].
  injection Hz as <-. eauto.
Qed.
Lemma Forall2_len {A C} (R : A -> C -> Prop) l m : Forall2 R l m -> List.length l = List.length m.
Proof. induction 1; cbn; congruence. Qed.
Lemma Forall2_build {A C} (R : A -> C -> Prop) l m : List.length l = List.length m ->
  (forall k x y, nth_error l k = Some x -> nth_error m k = Some y -> R x y) -> Forall2 R l m.
Proof.
  revert m; induction l as [|x l IH]; intros [|y m] Hl H; cbn in Hl; try discriminate; [constructor|].
  constructor; [apply (H O); reflexivity|]. apply IH; [congruence|]. intros k. apply (H (S k)).
Qed.

Lemma nodup_nth (l : list nat) i j x : NoDup l -> nth_error l i = Some x -> nth_error l j = Some x -> i = j.
Proof.
  intros Hn Hi Hj. rewrite NoDup_nth_error in Hn. apply Hn; [|congruence]. apply nth_error_Some. congruence.
Qed.

(** Writing into file k of the torrent. *)
Lemma opened_write inos w ti contents k i c : opened_at inos w ti contents -> nth_error inos k = Some i ->
  zlen c = zlen (nth k contents []) ->
  opened_at inos (set_inos w (lupd (w_inos w) i c)) ti (lupd contents k c) /\
  others_same inos w (set_inos w (lupd (w_inos w) i c)).
Proof.
  intros (Hnd & Hh & Hc & Hl) Hk Hlen.
  destruct (Forall2_nth _ _ _ Hc k i Hk) as (c0 & Hc0 & Hi).
  split.
  - split; [assumption|]. split; [exact Hh|]. split.
    + apply Forall2_build; [rewrite lupd_length; eapply Forall2_len; exact Hc|].
      intros j i' c' Hj Hc'. cbn [set_inos w_inos]. rewrite nth_error_lupd in Hc' |- *.
      assert (Hkl : (k < List.length contents)%nat) by (apply nth_error_Some; congruence).
      assert (Hil : (i < List.length (w_inos w))%nat) by (apply nth_error_Some; congruence).
      replace (Nat.ltb k (List.length contents)) with true in Hc' by (symmetry; now apply Nat.ltb_lt).
      replace (Nat.ltb i (List.length (w_inos w))) with true by (symmetry; now apply Nat.ltb_lt).
      rewrite !Bool.andb_true_r in *. destruct (Nat.eqb_spec j k) as [->|Hne].
      * rewrite Hk in Hj. injection Hj as <-. rewrite Nat.eqb_refl. congruence.
      * destruct (Nat.eqb_spec i' i) as [->|]; [exfalso; apply Hne; eapply nodup_nth; eassumption|].
        destruct (Forall2_nth _ _ _ Hc j i' Hj) as (c1 & Hc1 & Hi1). cbv beta in Hi1. rewrite Hi1. rewrite Hc1 in Hc'. assumption.
    + rewrite <- Hl. apply map_lupd; [intros E; change (@nth_error bytes contents k = None) in E; congruence|]. rewrite Hlen. f_equal. rewrite (nth_error_nth _ _ _ Hc0). symmetry. apply nth_error_nth. assumption.
  - unfold others_same. cbn [set_inos w_cwd w_names w_lfps w_inos]. rewrite lupd_length. repeat (split; [reflexivity|]).
    intros j Hj. rewrite nth_error_lupd. destruct (Nat.eqb_spec j i) as [->|]; [|reflexivity].
    exfalso. apply Hj. eapply nth_error_In. exact Hk.
Qed.

Lemma others_same_refl inos w : others_same inos w w.
Proof. unfold others_same. auto 10. Qed.
Lemma others_same_trans inos a b c : others_same inos a b -> others_same inos b c -> others_same inos a c.
Proof.
  intros (A1 & A2 & A3 & A4 & A5) (B1 & B2 & B3 & B4 & B5). unfold others_same. repeat (split; [congruence|]).
  intros i Hi. rewrite B5, A5 by assumption. reflexivity.
Qed.

(** The world with faults consumed. *)
Definition drop_fault (w : world) : world := mkw (w_cwd w) (w_names w) (w_inos w) (tl (w_flt w)) (w_lfps w).
Lemma opened_drop inos w ti cs : opened_at inos (drop_fault w) ti cs <-> opened_at inos w ti cs.
Proof. reflexivity. Qed.
Lemma fault_eq w : fault w = (Ok (hd None (w_flt w)), drop_fault w).
Proof. unfold fault, drop_fault. destruct w as [cwd nm ins [|f r] lf]; reflexivity. Qed.

Lemma write_step inos w ti contents k i e seek d : opened_at inos w ti contents ->
  nth_error (ti_files ti) k = Some e -> nth_error inos k = Some i ->
  0 <= seek -> seek + zlen d <= zlen (nth k contents []) ->
  exists m w', (m <= List.length d)%nat /\
    opened_at inos w' ti (lupd contents k (over (nth k contents []) seek (firstn m d))) /\ others_same inos w w' /\
    ((fio_write (eb_local (en_base e)) seek d w = (Ok (zlen d), w') /\ m = List.length d) \/
     (fio_write (eb_local (en_base e)) seek d w = (Err EIO, w') /\ ~ no_faults w)) /\
    (no_faults w -> no_faults w').
Proof.
  intros Ho He Hi Hs Hb. pose proof Ho as (Hnd & Hh & Hc & Hl).
  destruct (Forall2_nth _ _ _ Hh k e He) as (i' & Hi' & Hg). rewrite Hi in Hi'. injection Hi' as <-.
  destruct (Forall2_nth _ _ _ Hc k i Hi) as (c & Hck & Hci). pose proof (nth_error_nth_bytes _ _ _ Hck) as Hn. rewrite Hn in *.
  assert (Hlu : lupd contents k c = contents).
  { apply lupd_same. assumption. }
  unfold fio_write. rewrite Hg. unfold WriteAt. replace (seek <? 0) with false by lia. cbn [h_open h_ino].
  destruct d as [|x d'] eqn:Ed.
  - exists 0%nat, w. split; [cbn; lia|]. cbn [firstn]. rewrite over_nil, Hlu. split; [assumption|]. split; [apply others_same_refl|].
    split; [left; split; reflexivity|auto].
  - rewrite <- Ed in *. assert (Hd : d <> []) by (subst d; discriminate). clear x d' Ed.
    unfold os_write, iobind. rewrite fault_eq. unfold content, put_content, lift, ret.
    cbn [drop_fault w_inos]. rewrite (nth_error_nth_bytes _ _ _ Hci).
    destruct (hd None (w_flt w)) as [z|] eqn:Ef.
    + set (m := Nat.min (Z.to_nat z) (List.length d)).
      exists m, (set_inos (drop_fault w) (lupd (w_inos w) i (over c seek (firstn m d)))).
      assert (Hmz : firstn (Z.to_nat z) d = firstn m d).
      { unfold m. destruct (Nat.le_ge_cases (Z.to_nat z) (List.length d)) as [A|A].
        - now rewrite Nat.min_l by assumption.
        - rewrite Nat.min_r by assumption. rewrite firstn_all. now apply firstn_all2. }
      assert (Hfl : zlen (firstn m d) <= zlen d) by (unfold zlen; rewrite firstn_length; lia).
      rewrite Hmz, pwrite_over by (try assumption; pose proof (zlen_nonneg d); lia).
      split; [unfold m; lia|].
      assert (Hlen : zlen (over c seek (firstn m d)) = zlen (nth k contents [])) by (rewrite Hn; apply over_length; [assumption|]; pose proof (zlen_nonneg d); lia).
      pose proof (opened_write inos (drop_fault w) ti contents k i _ (proj2 (opened_drop _ _ _ _) Ho) Hi Hlen) as [Ho' Hs'].
      cbn [drop_fault w_inos] in Ho', Hs'. split; [exact Ho'|].
      split; [exact Hs'|]. split; [right|].
      * split; [reflexivity|]. unfold no_faults. intros E. rewrite E in Ef. discriminate.
      * unfold no_faults. intros E. rewrite E in Ef. discriminate.
    + exists (List.length d), (set_inos (drop_fault w) (lupd (w_inos w) i (over c seek d))).
      rewrite firstn_all. rewrite pwrite_over by (try assumption; pose proof (zlen_nonneg d); lia).
      split; [lia|].
      assert (Hlen : zlen (over c seek d) = zlen (nth k contents [])) by (rewrite Hn; apply over_length; assumption).
      pose proof (opened_write inos (drop_fault w) ti contents k i _ (proj2 (opened_drop _ _ _ _) Ho) Hi Hlen) as [Ho' Hs'].
      cbn [drop_fault w_inos] in Ho', Hs'. split; [exact Ho'|].
      split; [exact Hs'|]. split; [left; split; reflexivity|].
      unfold no_faults. cbn [set_inos drop_fault w_flt]. intros ->. reflexivity.
Qed.

Lemma sslice_ok s lo hi : 0 <= lo -> lo <= hi -> hi <= scap s ->
  exists sb, sslice s lo hi = Ok sb /\ vis sb = sub (vis s ++ spare s) (Z.to_nat lo) (Z.to_nat (hi - lo)) /\ zlen (vis sb) = hi - lo.
Proof.
  intros H1 H2 H3. unfold sslice. replace ((0 <=? lo) && (lo <=? hi) && (hi <=? scap s)) with true by lia.
  eexists. split; [reflexivity|]. split; [reflexivity|]. cbn [vis]. unfold scap, zlen in *. rewrite sub_length, app_length. lia.
Qed.
Lemma sslice_panic s lo hi : scap s < hi -> sslice s lo hi = Panic.
Proof. intros H. unfold sslice. replace ((0 <=? lo) && (lo <=? hi) && (hi <=? scap s)) with false by lia. reflexivity. Qed.

Lemma opened_lens inos w ti cs : opened_at inos w ti cs -> List.length (ti_files ti) = List.length cs /\ List.length inos = List.length cs.
Proof. intros (_ & H1 & H2 & _). apply Forall2_len in H1. apply Forall2_len in H2. split; congruence. Qed.

Lemma flen_zlen (cs : list bytes) k : flen (map zlen cs) k = zlen (nth k cs []).
Proof. unfold flen. change 0 with (@zlen byte []). apply (map_nth (fun c : bytes => zlen c)). Qed.

Lemma sub_firstn {A} (l : list A) a n m : (m <= n)%nat -> firstn m (sub l a n) = sub l a m.
Proof. intros H. unfold sub. rewrite firstn_firstn. now rewrite Nat.min_l by assumption. Qed.

Lemma write_locs_spec ti data inos : forall locs w contents a b offset,
  opened_at inos w ti contents -> tiles (map zlen contents) locs a b -> 0 <= a -> b <= zlen (List.concat contents) ->
  0 <= offset -> offset + (b - a) <= max64 ->
  exists m contents' w' r, write_locs ti locs data offset w = (r, w') /\
    0 <= m <= b - a /\ (0 < m -> offset + m <= scap data) /\ opened_at inos w' ti contents' /\ others_same inos w w' /\
    map zlen contents' = map zlen contents /\
    List.concat contents' = over (List.concat contents) a (sub (vis data ++ spare data) (Z.to_nat offset) (Z.to_nat m)) /\
    ((r = Ok (offset + (b - a)) /\ m = b - a) \/ (r = Err EIO /\ ~ no_faults w) \/ (r = Panic /\ scap data < offset + (b - a))) /\
    (no_faults w -> no_faults w').
Proof.
  induction locs as [|l locs IH]; intros w contents a b offset Ho Ht Ha Hb Hof Hmx.
  - cbn [tiles] in Ht. subst b. exists 0, contents, w, (Ok offset). cbn [write_locs]. split; [reflexivity|].
    split; [lia|]. split; [lia|]. split; [assumption|]. split; [apply others_same_refl|]. split; [reflexivity|].
    split; [cbn [Z.to_nat sub firstn]; symmetry; apply over_nil|]. split; [left; split; [f_equal; lia|lia]|auto].
  - cbn [tiles] in Ht. destruct Ht as (Hk & Hs & Hn & Hfl & Hst & Ht). pose proof (tiles_le _ _ _ _ Ht) as Hle.
    set (n := ReadAmnt (pl_info l)) in *. set (seek := SeekAmnt (pl_info l)) in *. set (k := pl_file l) in *.
    pose proof (opened_lens _ _ _ _ Ho) as [Hlf Hli]. rewrite map_length in Hk. change (k < @List.length bytes contents)%nat in Hk. rewrite flen_zlen in Hfl.
    cbn [write_locs]. fold n seek. unfold iobind at 1, lift at 1.
    assert (Hadd : add64 offset n = offset + n) by (unfold add64; apply i64_id; unfold min64; lia). rewrite Hadd.
    destruct (Z_le_gt_dec (offset + n) (scap data)) as [Hc|Hc].
    2: { rewrite sslice_panic by lia. exists 0, contents, w, Panic. split; [reflexivity|]. split; [lia|]. split; [lia|]. split; [assumption|].
         split; [apply others_same_refl|]. split; [reflexivity|]. split; [cbn [Z.to_nat sub firstn]; symmetry; apply over_nil|]. split; [right; right; split; [reflexivity|lia]|auto]. }
    destruct (sslice_ok data offset (offset + n)) as (sb & -> & Hv & Hvl); [lia..|].
    destruct (nth_error (ti_files ti) k) as [e|] eqn:He; [|apply nth_error_None in He; lia].
    destruct (nth_error inos k) as [i|] eqn:Hi; [|apply nth_error_None in Hi; lia].
    unfold iobind at 1, lift at 1. unfold loc_path. fold k. rewrite He.
    destruct (write_step inos w ti contents k i e seek (vis sb) Ho He Hi) as (m0 & w1 & Hm0 & Ho1 & Hs1 & Hr & Hf1); [lia|lia|].
    rewrite Hv in Ho1. replace (offset + n - offset) with n in * by lia.
    assert (Hm0n : (m0 <= Z.to_nat n)%nat) by (unfold zlen in Hvl; lia).
    rewrite sub_firstn in Ho1 by assumption.
    assert (Hgl : zlen (sub (vis data ++ spare data) (Z.to_nat offset) m0) = Z.of_nat m0).
    { unfold zlen, scap in *. rewrite sub_length, app_length. unfold zlen in *. lia. }
    pose proof (concat_lupd contents k seek (sub (vis data ++ spare data) (Z.to_nat offset) m0) Hk Hs ltac:(lia)) as Hcat.
    rewrite Hst in Hcat.
    set (contents1 := lupd contents k (over (nth k contents []) seek (sub (vis data ++ spare data) (Z.to_nat offset) m0))) in *.
    assert (Hz1 : map zlen contents1 = map zlen contents).
    { unfold contents1. apply map_lupd.
      - intros E. change (@nth_error bytes contents k = None) in E. apply nth_error_None in E. lia.
      - rewrite over_length by lia. f_equal. apply nth_indep. assumption. }
    destruct Hr as [[Hr Hm0e]|[Hr Hnf]].
    + unfold iobind at 1. rewrite Hr. rewrite Hvl. rewrite Hadd.
      assert (Hm0e' : m0 = Z.to_nat n) by (unfold zlen in Hvl; lia). clear Hm0e.
      assert (Hb1 : b <= zlen (List.concat contents1)) by (rewrite Hcat, over_length; lia).
      rewrite <- Hz1 in Ht.
      destruct (IH w1 contents1 (a + n) b (offset + n) Ho1 Ht ltac:(lia) Hb1 ltac:(lia) ltac:(lia)) as (m & c' & w' & r & Hw & Hm & Hmc & Ho' & Hs' & Hz & Hcc & Hres & Hf).
      exists (n + m), c', w', r. split; [exact Hw|]. split; [lia|]. split; [lia|]. split; [assumption|].
      split; [eapply others_same_trans; eassumption|]. split; [congruence|]. split; [|split; [|auto]].
      * rewrite Hcc, Hcat. replace (a + n) with (a + zlen (sub (vis data ++ spare data) (Z.to_nat offset) m0)) by lia.
        assert (Hsl : zlen (sub (vis data ++ spare data) (Z.to_nat (offset + n)) (Z.to_nat m)) = m).
        { unfold zlen, scap in *. rewrite sub_length, app_length. unfold zlen in *. lia. }
        rewrite over_app by lia. f_equal. rewrite Hm0e'. replace (Z.to_nat (n + m)) with (Z.to_nat n + Z.to_nat m)%nat by lia.
        rewrite sub_split. do 2 f_equal. lia.
      * destruct Hres as [[-> ->]|[[-> Hn']|[-> Hp]]].
        -- left. split; [f_equal; lia|lia].
        -- right; left. split; [reflexivity|]. auto.
        -- right; right. split; [reflexivity|lia].
    + unfold iobind at 1. rewrite Hr. exists (Z.of_nat m0), contents1, w1, (Err EIO).
      split; [reflexivity|]. split; [lia|]. split; [lia|]. split; [assumption|]. split; [assumption|]. split; [assumption|].
      split; [rewrite Nat2Z.id; exact Hcat|]. split; [right; left; auto|auto].
Qed.

(** ** Reading *)
Definition back (s : gslice) : bytes := vis s ++ spare s.
Lemma splice_over s off b : 0 <= off -> off + zlen b <= scap s -> back (splice s off b) = over (back s) off b /\
  zlen (vis (splice s off b)) = zlen (vis s) /\ scap (splice s off b) = scap s.
Proof.
  intros H1 H2. unfold splice. cbv zeta. fold (back s). fold (over (back s) off b).
  assert (Hl : zlen (over (back s) off b) = zlen (back s)) by (apply over_length; [assumption|unfold back, scap in *; rewrite zlen_app; assumption]).
  unfold back, scap in *. cbn [vis spare]. rewrite firstn_skipn. split; [reflexivity|].
  rewrite zlen_app in Hl. unfold zlen in *. rewrite firstn_length, skipn_length. lia.
Qed.
Lemma gslice_eq a b : zlen (vis a) = zlen (vis b) -> back a = back b -> a = b.
Proof.
  destruct a as [v s], b as [v' s']. unfold back, zlen. cbn [vis spare]. intros Hl He.
  assert (v = v') by (apply (f_equal (firstn (List.length v))) in He; rewrite firstn_app, firstn_all, Nat.sub_diag, firstn_O, app_nil_r in He;
    replace (List.length v) with (List.length v') in He by lia; rewrite firstn_app, firstn_all, Nat.sub_diag, firstn_O, app_nil_r in He; assumption).
  subst. apply app_inv_head in He. now subst.
Qed.
Lemma splice_nil s off : splice s off [] = s.
Proof.
  unfold splice. cbv zeta. fold (back s). fold (over (back s) off []). rewrite over_nil. unfold back. rewrite firstn_app, firstn_all, Nat.sub_diag, firstn_O, app_nil_r.
  rewrite skipn_app, skipn_all, Nat.sub_diag. cbn. destruct s; reflexivity.
Qed.
Lemma splice_app s off b1 b2 : 0 <= off -> off + zlen b1 + zlen b2 <= scap s ->
  splice (splice s off b1) (off + zlen b1) b2 = splice s off (b1 ++ b2).
Proof.
  intros H1 H2. pose proof (zlen_nonneg b1). pose proof (zlen_nonneg b2).
  destruct (splice_over s off b1) as (A1 & A2 & A3); [lia|lia|].
  destruct (splice_over (splice s off b1) (off + zlen b1) b2) as (B1 & B2 & B3); [lia|lia|].
  destruct (splice_over s off (b1 ++ b2)) as (C1 & C2 & C3); [lia|rewrite zlen_app; lia|].
  apply gslice_eq; [lia|]. rewrite B1, A1, C1. apply over_app; [assumption|]. unfold back. rewrite zlen_app. unfold scap in *. lia.
Qed.

Lemma disk_same_refl w : disk_same w w.
Proof. unfold disk_same. auto. Qed.
Lemma disk_same_trans a b c : disk_same a b -> disk_same b c -> disk_same a c.
Proof. intros (A1 & A2 & A3 & A4) (B1 & B2 & B3 & B4). unfold disk_same. repeat split; congruence. Qed.
Lemma disk_same_drop w : disk_same w (drop_fault w).
Proof. unfold disk_same. auto. Qed.
Lemma disk_same_opened inos w w' ti cs : disk_same w w' -> opened_at inos w ti cs -> opened_at inos w' ti cs.
Proof. intros (A1 & A2 & A3 & A4) (H1 & H2 & H3 & H4). unfold opened_at. rewrite A3, A4. auto. Qed.

Lemma drop_no_faults w : no_faults w -> drop_fault w = w.
Proof. destruct w as [a b c d e]. unfold no_faults, drop_fault. cbn. intros ->. reflexivity. Qed.

Lemma read_step inos w ti contents k i e seek n : opened_at inos w ti contents ->
  nth_error (ti_files ti) k = Some e -> nth_error inos k = Some i ->
  0 <= seek -> 0 <= n -> seek + n <= zlen (nth k contents []) ->
  exists w', disk_same w w' /\
    ((fio_read (eb_local (en_base e)) seek n w = (Ok (sub (nth k contents []) (Z.to_nat seek) (Z.to_nat n), None), w') /\ (no_faults w -> w' = w)) \/
     (~ no_faults w /\ exists b er, zlen b <= n /\ fio_read (eb_local (en_base e)) seek n w = (Ok (b, Some er), w'))).
Proof.
  intros Ho He Hi Hs Hn Hb. pose proof Ho as (Hnd & Hh & Hc & Hl).
  destruct (Forall2_nth _ _ _ Hh k e He) as (i' & Hi' & Hg). rewrite Hi in Hi'. injection Hi' as <-.
  destruct (Forall2_nth _ _ _ Hc k i Hi) as (c & Hck & Hci). rewrite (nth_error_nth_bytes _ _ _ Hck) in *.
  unfold fio_read. rewrite Hg. unfold ReadAt. replace (seek <? 0) with false by lia. cbn [h_open negb h_ino].
  destruct (Z.leb_spec n 0) as [E|E].
  - exists w. split; [apply disk_same_refl|]. left. replace (Z.to_nat n) with 0%nat by lia. split; [reflexivity|auto].
  - unfold iobind. rewrite fault_eq. unfold content, ret. cbn [drop_fault w_inos]. rewrite (nth_error_nth_bytes _ _ _ Hci).
    exists (drop_fault w). split; [apply disk_same_drop|]. destruct (hd None (w_flt w)) as [z|] eqn:Ef.
    + right. split; [unfold no_faults; intros F; rewrite F in Ef; discriminate|]. eexists _, _. split; [|reflexivity].
      unfold zlen. rewrite firstn_length, sub_length. lia.
    + left. replace (zlen (sub c (Z.to_nat seek) (Z.to_nat n)) <? n) with false.
      * split; [reflexivity|apply drop_no_faults].
      * unfold zlen in *. rewrite sub_length. lia.
Qed.

Lemma read_locs_spec ti inos : forall locs w contents buf a b offset,
  opened_at inos w ti contents -> tiles (map zlen contents) locs a b -> 0 <= a -> b <= zlen (List.concat contents) ->
  0 <= offset <= scap buf -> offset + (b - a) <= max64 ->
  exists r buf' w', read_locs_io ti locs buf offset w = (r, buf', w') /\ disk_same w w' /\ scap buf' = scap buf /\ zlen (vis buf') = zlen (vis buf) /\
    ((r = Ok (offset + (b - a)) /\ buf' = splice buf offset (range (List.concat contents) a b) /\ offset + (b - a) <= scap buf /\ (no_faults w -> w' = w)) \/
     ((exists er, r = Err er) /\ ~ no_faults w) \/ (r = Panic /\ scap buf < offset + (b - a))).
Proof.
  induction locs as [|l locs IH]; intros w contents buf a b offset Ho Ht Ha Hb Hof Hmx.
  - cbn [tiles] in Ht. subst b. cbn [read_locs_io]. exists (Ok offset), buf, w. split; [reflexivity|]. split; [apply disk_same_refl|]. split; [reflexivity|].
    split; [reflexivity|]. left. split; [f_equal; lia|]. split; [unfold range, sub; rewrite Z.sub_diag; symmetry; apply splice_nil|]. split; [lia|auto].
  - cbn [tiles] in Ht. destruct Ht as (Hk & Hs & Hn & Hfl & Hst & Ht). pose proof (tiles_le _ _ _ _ Ht) as Hle.
    set (n := ReadAmnt (pl_info l)) in *. set (seek := SeekAmnt (pl_info l)) in *. set (k := pl_file l) in *.
    pose proof (opened_lens _ _ _ _ Ho) as [Hlf Hli]. rewrite map_length in Hk. change (k < @List.length bytes contents)%nat in Hk. rewrite flen_zlen in Hfl.
    cbn [read_locs_io]. fold n seek.
    assert (Hadd : add64 offset n = offset + n) by (unfold add64; apply i64_id; unfold min64; lia). rewrite Hadd.
    destruct (Z_le_gt_dec (offset + n) (scap buf)) as [Hc|Hc].
    2: { rewrite sslice_panic by lia. exists Panic, buf, w. split; [reflexivity|]. split; [apply disk_same_refl|]. split; [reflexivity|]. split; [reflexivity|].
         right; right. split; [reflexivity|lia]. }
    destruct (sslice_ok buf offset (offset + n)) as (sb & -> & Hv & Hvl); [lia..|].
    destruct (nth_error (ti_files ti) k) as [e|] eqn:He; [|apply nth_error_None in He; lia].
    destruct (nth_error inos k) as [i|] eqn:Hi; [|apply nth_error_None in Hi; lia].
    unfold loc_path. fold k. rewrite He. replace (offset + n - offset) with n in * by lia. rewrite Hvl.
    destruct (read_step inos w ti contents k i e seek n Ho He Hi Hs Hn Hfl) as (w1 & Hd1 & [[Hr Hnf]|(Hnf & bb & er & Hbb & Hr)]); rewrite Hr.
    + set (d := sub (nth k contents []) (Z.to_nat seek) (Z.to_nat n)) in *.
      assert (Hdl : zlen d = n) by (unfold d, zlen in *; rewrite sub_length; lia). rewrite Hdl, Hadd.
      destruct (splice_over buf offset d) as (S1 & S2 & S3); [lia|lia|].
      destruct (IH w1 contents (splice buf offset d) (a + n) b (offset + n)) as (r & buf' & w' & Hw & Hd' & Hcap & Hvz & Hres);
        [eapply disk_same_opened; eassumption|assumption|lia|lia|lia|lia|].
      exists r, buf', w'. split; [exact Hw|]. split; [eapply disk_same_trans; eassumption|]. split; [lia|]. split; [lia|].
      assert (Hdr : d = range (List.concat contents) a (a + n)).
      { unfold d, range. rewrite sub_concat by (try assumption; lia). rewrite Hst. do 2 f_equal. lia. }
      destruct Hres as [(-> & -> & Hcc & Hw')|[[Her Hnf']|[-> Hp]]].
      * left. split; [f_equal; lia|]. split; [|split; [lia|]].
        -- rewrite Hdr. replace (offset + n) with (offset + zlen (range (List.concat contents) a (a + n))) by (rewrite <- Hdr; lia).
           assert (Hrl : zlen (range (List.concat contents) (a + n) b) = b - (a + n)).
           { unfold range, zlen in *. rewrite sub_length. lia. }
           rewrite splice_app; [|lia|rewrite <- Hdr, Hdl, Hrl; lia]. f_equal. apply range_app; lia.
        -- intros Hf. specialize (Hnf Hf). subst w1. auto.
      * right; left. split; [assumption|]. intros Hf. apply Hnf'. rewrite Hnf by assumption. assumption.
      * right; right. split; [reflexivity|lia].
    + destruct (splice_over buf offset bb) as (S1 & S2 & S3); [lia|lia|].
      exists (Err er), (splice buf offset bb), w1. split; [reflexivity|]. split; [assumption|]. split; [lia|]. split; [lia|]. right; left. split; [eauto|assumption].
Qed.

(** ** Metadata accepted by NewTorInfo *)
Lemma made_facts P hashes files ti : made P hashes files ti ->
  let T := zsum (lens_of files) in let n := zlen hashes / 20 in
  1 <= P < big /\ 0 <= T < big /\ ti_npieces ti = n /\ ti_plen ti = P /\ ti_hashes ti = hashes /\ ti_length ti = T /\
  map en_base (ti_files ti) = files /\ zlen hashes = 20 * n /\ 0 <= n /\ T <= n * P /\
  (forall i, 0 <= i < n -> exists locs, PieceLookup ti i = Ok locs /\ tiles (lens_of files) locs (pstart P T i) (pstart P T (i + 1))) /\
  (forall i, ~ (0 <= i < n) -> PieceLookup ti i = Err EBounds) /\
  (forall i, 0 <= i < n -> PieceHash ti i = Ok (hash_at hashes i)).
Proof.
  intros (HS & Hhb & name & HN) T n. pose proof HS as (HP & HF & HB).
  assert (H20 : zlen hashes mod 20 = 0).
  { destruct (Z.eq_dec (zlen hashes mod 20) 0) as [E|E]; [assumption|]. unfold NewTorInfo in HN.
    replace (zlen hashes mod 20 =? 0) with false in HN by lia. discriminate. }
  destruct (NewTorInfo_spec name P hashes files HS H20) as [H1 H2]. fold T n in H1, H2.
  pose proof (zsum_nonneg _ HF) as HT0. fold T in HT0.
  assert (Hn : zlen hashes = 20 * n) by (unfold n; rewrite (Z.div_mod (zlen hashes) 20) at 1 by lia; lia).
  assert (Hn0 : 0 <= n) by (pose proof (zlen_nonneg hashes); lia).
  assert (HT : T <= n * P).
  { destruct (Z_le_gt_dec T (n * P)) as [E|E]; [assumption|]. destruct (H2 ltac:(lia)) as [A C].
    assert (D : file_boundary (lens_of files) (n * P) \/ ~ file_boundary (lens_of files) (n * P)).
    { unfold file_boundary. assert (Hdec : forall m, (exists k, (k <= m)%nat /\ fstart (lens_of files) k = n * P) \/ ~ (exists k, (k <= m)%nat /\ fstart (lens_of files) k = n * P)).
      { induction m as [|m IH].
        - destruct (Z.eq_dec (fstart (lens_of files) 0) (n * P)) as [E0|E0]; [left; exists 0%nat; auto|right]. intros (k & Hk & Hk'). assert (k = 0%nat) by lia. subst. auto.
        - destruct IH as [(k & Hk & Hk')|IH]; [left; exists k; split; [lia|assumption]|].
          destruct (Z.eq_dec (fstart (lens_of files) (S m)) (n * P)) as [E0|E0]; [left; exists (S m); auto|right]. intros (k & Hk & Hk').
          destruct (Nat.eq_dec k (S m)) as [->|]; [auto|]. apply IH. exists k. split; [lia|assumption]. }
      apply Hdec. }
    destruct D as [D|D]; [rewrite (A D) in HN|rewrite (C D) in HN]; discriminate. }
  destruct (H1 HT) as (pm & HN' & Hpm). rewrite HN in HN'. injection HN' as ->.
  split; [assumption|]. split; [lia|]. cbn [built ti_npieces ti_plen ti_hashes ti_length ti_files]. repeat (split; [reflexivity|]).
  split. { clear. generalize 0 as S0. induction files as [|f fs IH]; intros S0; [reflexivity|]. cbn [span_list map]. rewrite IH. f_equal. unfold span_entry. repeat match goal with |- context [if ?b then _ else _] => destruct b end; reflexivity. }
  split; [assumption|]. split; [assumption|]. split; [assumption|].
  assert (HL : forall i l, (0 <= i < n <-> exists l, PieceLookup (built name P hashes files pm) i = Ok l) /\
    (~ (0 <= i < n) -> PieceLookup (built name P hashes files pm) i = Err EBounds) /\
    (PieceLookup (built name P hashes files pm) i = Ok l -> increasing 0 l /\ tiles (lens_of files) l (Z.min (i * P) (zsum (lens_of files))) (Z.min ((i + 1) * P) (zsum (lens_of files))))).
  { intros i l. apply PieceLookup_built; assumption. }
  split; [|split].
  - intros i Hi. destruct (proj1 (proj1 (HL i []))  Hi) as (l & Hl). exists l. split; [exact Hl|]. apply (HL i l). exact Hl.
  - intros i Hi. apply (HL i []). assumption.
  - intros i Hi. unfold PieceHash, mul64, add64. cbn [built ti_hashes]. unfold big in Hhb.
    rewrite (i64_id (i * 20)) by (unfold min64, max64; lia). rewrite (i64_id (i * 20 + 20)) by (unfold min64, max64; lia).
    replace ((0 <=? i * 20) && (i * 20 <=? i * 20 + 20) && (i * 20 + 20 <=? zlen hashes)) with true by lia.
    unfold hash_at, range. do 2 f_equal; lia.
Qed.

Lemma zlen_concat (cs : list bytes) : zlen (List.concat cs) = zsum (map zlen cs).
Proof. induction cs as [|c cs IH]; [reflexivity|]. cbn [List.concat map]. rewrite zlen_app, IH. reflexivity. Qed.

Lemma opened_total inos w ti cs P hashes files : made P hashes files ti -> opened_at inos w ti cs ->
  map zlen cs = lens_of files /\ zlen (List.concat cs) = zsum (lens_of files).
Proof.
  intros Hm (_ & _ & _ & Hl). destruct (made_facts _ _ _ _ Hm) as (_ & _ & _ & _ & _ & _ & Hf & _). rewrite Hf in Hl.
  split; [assumption|]. rewrite zlen_concat. now rewrite Hl.
Qed.

Lemma pstart_mono P T i : 1 <= P -> pstart P T i <= pstart P T (i + 1).
Proof. unfold pstart. lia. Qed.
Lemma pstart_nonneg P T i : 0 <= P -> 0 <= T -> 0 <= i -> 0 <= pstart P T i.
Proof. unfold pstart. nia. Qed.
Lemma psize_le P T i : 1 <= P -> psize P T i <= P.
Proof. unfold psize, pstart. lia. Qed.

(** ** WritePiece *)
Lemma WritePiece_rejects sha1 P hashes files ti i d w : made P hashes files ti ->
  (~ (0 <= i < zlen hashes / 20) -> WritePiece sha1 ti i d w = (Err EBounds, w)) /\
  (0 <= i < zlen hashes / 20 -> sha1 (vis d) <> hash_at hashes i -> WritePiece sha1 ti i d w = (Err EBadHash, w)).
Proof.
  intros Hm. destruct (made_facts _ _ _ _ Hm) as (_ & _ & _ & _ & _ & _ & _ & _ & _ & _ & Hin & Hout & Hh). split.
  - intros Hi. unfold WritePiece, iobind, lift. rewrite (Hout i Hi). reflexivity.
  - intros Hi Hs. unfold WritePiece, iobind, lift. destruct (Hin i Hi) as (l & -> & _). rewrite (Hh i Hi).
    destruct (beqb (sha1 (vis d)) (hash_at hashes i)) eqn:E; [apply beqb_eq in E; contradiction|]. reflexivity.
Qed.

Lemma WritePiece_prefix sha1 P hashes files ti i d w inos contents : made P hashes files ti -> opened_at inos w ti contents ->
  0 <= i < zlen hashes / 20 -> sha1 (vis d) = hash_at hashes i ->
  let T := zsum (lens_of files) in
  exists m contents' w' r, WritePiece sha1 ti i d w = (r, w') /\ 0 <= m <= psize P T i /\ (0 < m -> m <= scap d) /\
    opened_at inos w' ti contents' /\ others_same inos w w' /\ map zlen contents' = map zlen contents /\
    List.concat contents' = over (List.concat contents) (pstart P T i) (firstn (Z.to_nat m) (back d)) /\
    ((r = Ok (psize P T i) /\ m = psize P T i) \/ (r = Err EIO /\ ~ no_faults w) \/ (r = Panic /\ scap d < psize P T i)) /\
    (no_faults w -> no_faults w').
Proof.
  intros Hm Ho Hi Hs T. destruct (made_facts _ _ _ _ Hm) as (HP & HT & _ & _ & _ & _ & _ & _ & _ & _ & Hin & _ & Hh).
  destruct (Hin i Hi) as (l & Hl & Ht). fold T in Ht, HT. destruct (opened_total _ _ _ _ _ _ _ Hm Ho) as [Hz Hzt]. fold T in Hzt.
  unfold WritePiece, iobind, lift. rewrite Hl, (Hh i Hi), Hs, beqb_refl. cbn [negb].
  rewrite <- Hz in Ht.
  destruct (write_locs_spec ti d inos l w contents _ _ 0 Ho Ht) as (m & c' & w' & r & Hw & Hmm & Hmc & Ho' & Hs' & Hz' & Hcc & Hr & Hf);
    [apply pstart_nonneg; lia|unfold pstart; lia|lia|unfold psize, big, max64, pstart in *; lia|].
  rewrite !Z.add_0_l in *. fold (psize P T i) in *.
  exists m, c', w', r. split; [exact Hw|]. split; [exact Hmm|]. split; [exact Hmc|]. auto 10.
Qed.

Lemma WritePiece_ok sha1 P hashes files ti i d w inos contents : made P hashes files ti -> opened_at inos w ti contents ->
  0 <= i < zlen hashes / 20 -> sha1 (vis d) = hash_at hashes i -> no_faults w ->
  let T := zsum (lens_of files) in zlen (vis d) = psize P T i ->
  exists contents' w', WritePiece sha1 ti i d w = (Ok (zlen (vis d)), w') /\
    opened_at inos w' ti contents' /\ others_same inos w w' /\ no_faults w' /\
    List.concat contents' = over (List.concat contents) (pstart P T i) (vis d).
Proof.
  intros Hm Ho Hi Hs Hnf T Hd. destruct (WritePiece_prefix sha1 P hashes files ti i d w inos contents Hm Ho Hi Hs) as (m & c' & w' & r & Hw & Hmm & Hmc & Ho' & Hs' & Hz' & Hcc & Hr & Hf).
  fold T in Hmm, Hmc, Hcc, Hr. exists c', w'.
  assert (Hcap : zlen (vis d) <= scap d) by (unfold scap; pose proof (zlen_nonneg (spare d)); lia).
  destruct Hr as [[-> ->]|[[_ Hx]|[_ Hx]]]; [|contradiction|lia].
  rewrite Hd. split; [exact Hw|]. split; [exact Ho'|]. split; [exact Hs'|]. split; [auto|]. rewrite Hcc. f_equal.
  unfold back. rewrite <- Hd. rewrite firstn_app. unfold zlen. rewrite Nat2Z.id, firstn_all, Nat.sub_diag, firstn_O, app_nil_r. reflexivity.
Qed.

Lemma ReadPiece_spec P hashes files ti i buf w inos contents : made P hashes files ti -> opened_at inos w ti contents ->
  let T := zsum (lens_of files) in
  (~ (0 <= i < zlen hashes / 20) -> ReadPiece ti i buf w = (Err EBounds, buf, w)) /\
  (0 <= i < zlen hashes / 20 ->
   exists r buf' w', ReadPiece ti i buf w = (r, buf', w') /\ disk_same w w' /\ scap buf' = scap buf /\ zlen (vis buf') = zlen (vis buf) /\
    ((r = Ok (psize P T i) /\ buf' = splice buf 0 (piece_bytes P contents i) /\ psize P T i <= scap buf /\ (no_faults w -> w' = w)) \/
     ((exists er, r = Err er) /\ ~ no_faults w) \/ (r = Panic /\ scap buf < psize P T i))).
Proof.
  intros Hm Ho T. destruct (made_facts _ _ _ _ Hm) as (HP & HT & _ & _ & _ & _ & _ & _ & _ & _ & Hin & Hout & _).
  split; [intros Hi; unfold ReadPiece; now rewrite (Hout i Hi)|]. intros Hi.
  destruct (Hin i Hi) as (l & Hl & Ht). fold T in Ht, HT. destruct (opened_total _ _ _ _ _ _ _ Hm Ho) as [Hz Hzt]. fold T in Hzt.
  unfold ReadPiece. rewrite Hl. rewrite <- Hz in Ht.
  assert (Hc0 : 0 <= scap buf) by (unfold scap; pose proof (zlen_nonneg (vis buf)); pose proof (zlen_nonneg (spare buf)); lia).
  destruct (read_locs_spec ti inos l w contents buf _ _ 0 Ho Ht) as (r & buf' & w' & Hw & Hds & Hcap & Hvz & Hr);
    [apply pstart_nonneg; lia|unfold pstart; lia|lia|unfold pstart, big, max64 in *; lia|].
  rewrite !Z.add_0_l in Hr. fold (psize P T i) in Hr. exists r, buf', w'. split; [exact Hw|]. split; [exact Hds|]. split; [exact Hcap|]. split; [exact Hvz|].
  assert (Hpb : range (List.concat contents) (pstart P T i) (pstart P T (i + 1)) = piece_bytes P contents i).
  { unfold piece_bytes. rewrite Hzt. reflexivity. }
  rewrite Hpb in Hr. exact Hr.
Qed.

Lemma piece_bytes_over P cs i d : 1 <= P -> 0 <= i -> zlen d = psize P (zlen (List.concat cs)) i ->
  forall cs', List.concat cs' = over (List.concat cs) (pstart P (zlen (List.concat cs)) i) d ->
  piece_bytes P cs' i = d /\ forall j, 0 <= j -> j <> i -> piece_bytes P cs' j = piece_bytes P cs j.
Proof.
  intros HP Hi Hd cs' Hc. set (T := zlen (List.concat cs)) in *. pose proof (zlen_nonneg (List.concat cs)) as HT0. fold T in HT0.
  pose proof (pstart_nonneg P T i ltac:(lia) HT0 Hi) as Hp0.
  assert (Hb : pstart P T i + zlen d <= T) by (rewrite Hd; unfold psize, pstart; lia).
  assert (HT : zlen (List.concat cs') = T) by (rewrite Hc; apply over_length; assumption).
  split.
  - unfold piece_bytes. rewrite HT, Hc. fold (pstart P T i) (pstart P T (i + 1)). replace (pstart P T (i + 1)) with (pstart P T i + zlen d) by (rewrite Hd; unfold psize; lia).
    apply over_range; assumption.
  - intros j Hj Hne. unfold piece_bytes. rewrite HT, Hc. fold T. fold (pstart P T j) (pstart P T (j + 1)).
    pose proof (pstart_nonneg P T j ltac:(lia) HT0 Hj) as Hpj. destruct (Z_lt_ge_dec j i) as [A|A].
    + apply over_range_before; [assumption| |assumption]. unfold pstart. nia.
    + apply over_range_after; [assumption|assumption|]. rewrite Hd. unfold psize. replace (pstart P T i + (pstart P T (i + 1) - pstart P T i)) with (pstart P T (i + 1)) by lia. unfold pstart. nia.
Qed.

Lemma Write_Read sha1 P hashes files ti i d w contents : made P hashes files ti -> opened w ti contents ->
  0 <= i < zlen hashes / 20 -> sha1 (vis d) = hash_at hashes i -> no_faults w ->
  zlen (vis d) = psize P (zsum (lens_of files)) i ->
  exists contents' w', WritePiece sha1 ti i d w = (Ok (zlen (vis d)), w') /\ opened w' ti contents' /\ no_faults w' /\
    List.concat contents' = over (List.concat contents) (pstart P (zsum (lens_of files)) i) (vis d) /\
    (forall j, 0 <= j -> piece_bytes P contents' j = if j =? i then vis d else piece_bytes P contents j) /\
    (forall j buf, 0 <= j < zlen hashes / 20 -> P <= scap buf ->
       ReadPiece ti j buf w' = (Ok (psize P (zsum (lens_of files)) j), splice buf 0 (piece_bytes P contents' j), w')).
Proof.
  intros Hm [inos Ho] Hi Hs Hnf Hd. destruct (made_facts _ _ _ _ Hm) as (HP & HT & _).
  destruct (WritePiece_ok sha1 P hashes files ti i d w inos contents Hm Ho Hi Hs Hnf Hd) as (c' & w' & Hw & Ho' & Hs' & Hnf' & Hcc).
  destruct (opened_total _ _ _ _ _ _ _ Hm Ho) as [Hz Hzt].
  destruct (piece_bytes_over P contents i (vis d)) with (cs' := c') as [Hpi Hpj]; [lia|lia|rewrite Hzt; assumption|rewrite Hzt; assumption|].
  exists c', w'. split; [exact Hw|]. split; [exists inos; exact Ho'|]. split; [exact Hnf'|]. split; [exact Hcc|]. split.
  - intros j Hj. destruct (Z.eqb_spec j i) as [->|]; auto.
  - intros j buf Hj Hb. destruct (proj2 (ReadPiece_spec P hashes files ti j buf w' inos c' Hm Ho') Hj) as (r & buf' & w2 & Hr & Hds & _ & _ & [(-> & -> & _ & Hw2)|[[_ Hx]|[_ Hx]]]).
    + rewrite Hr. rewrite Hw2 by assumption. reflexivity.
    + contradiction.
    + pose proof (psize_le P (zsum (lens_of files)) j). lia.
Qed.

Lemma write_all_spec sha1 P hashes files ti ws : made P hashes files ti -> forall w contents, opened w ti contents -> no_faults w ->
  Forall (fun x => 0 <= fst x < zlen hashes / 20 /\ sha1 (vis (snd x)) = hash_at hashes (fst x) /\ zlen (vis (snd x)) = psize P (zsum (lens_of files)) (fst x)) ws ->
  exists contents' w', write_all sha1 ti ws w = (Ok tt, w') /\ opened w' ti contents' /\ no_faults w' /\
    forall j, 0 <= j -> piece_bytes P contents' j = after_writes ws j (piece_bytes P contents j).
Proof.
  intros Hm. induction ws as [|[i d] ws IH]; intros w cs Ho Hnf HF.
  { exists cs, w. split; [reflexivity|]. auto. }
  inversion HF as [|? ? (H1 & H2 & H3) HF']; subst. cbn [fst snd] in *.
  destruct (Write_Read sha1 P hashes files ti i d w cs Hm Ho H1 H2 Hnf H3) as (c1 & w1 & E & Ho1 & Hnf1 & _ & Hp & _).
  destruct (IH w1 c1 Ho1 Hnf1 HF') as (c2 & w2 & E2 & Ho2 & Hnf2 & Hp2).
  exists c2, w2. cbn [write_all after_writes]. unfold iobind. rewrite E. split; [exact E2|]. split; [assumption|]. split; [assumption|].
  intros j Hj. rewrite Hp2 by assumption. now rewrite Hp by assumption.
Qed.

Lemma zlen_piece_bytes P cs i : 1 <= P -> 0 <= i -> zlen (piece_bytes P cs i) = psize P (zlen (List.concat cs)) i.
Proof.
  intros HP Hi. unfold piece_bytes, range, sub. pose proof (zlen_nonneg (List.concat cs)). unfold psize, pstart. unfold zlen at 1.
  rewrite firstn_length, skipn_length. unfold zlen in *. nia.
Qed.

Lemma splice_front buf d : zlen d <= zlen (vis buf) -> zlen (vis (splice buf 0 d)) = zlen (vis buf) /\ sub (vis (splice buf 0 d)) 0 (List.length d) = d.
Proof.
  intros H. unfold splice, sub. change (Z.to_nat 0) with 0%nat. cbn [firstn app vis]. cbn [skipn Nat.add]. unfold zlen in *. split.
  - rewrite firstn_length, !app_length, skipn_length, app_length. lia.
  - rewrite firstn_firstn, Nat.min_l by lia. rewrite firstn_app, Nat.sub_diag, firstn_O, app_nil_r. apply firstn_all.
Qed.

Lemma Write_Read_top sha1 P hashes files ti i d w contents : made P hashes files ti -> opened w ti contents ->
  0 <= i < zlen hashes / 20 -> sha1 (vis d) = hash_at hashes i -> no_faults w ->
  zlen (vis d) = psize P (zsum (lens_of files)) i ->
  exists contents' w', WritePiece sha1 ti i d w = (Ok (zlen (vis d)), w') /\ opened w' ti contents' /\ no_faults w' /\
    List.concat contents' = over (List.concat contents) (pstart P (zsum (lens_of files)) i) (vis d) /\
    (forall j, 0 <= j -> piece_bytes P contents' j = if j =? i then vis d else piece_bytes P contents j) /\
    (forall j buf, 0 <= j < zlen hashes / 20 -> zlen (vis buf) = P -> exists buf',
       ReadPiece ti j buf w' = (Ok (zlen (piece_bytes P contents' j)), buf', w') /\ zlen (vis buf') = P /\
       sub (vis buf') 0 (List.length (piece_bytes P contents' j)) = piece_bytes P contents' j).
Proof.
  intros Hm Ho Hi Hs Hnf Hd. destruct (Write_Read sha1 P hashes files ti i d w contents Hm Ho Hi Hs Hnf Hd) as (c' & w' & E & Ho' & Hnf' & Hc & Hp & Hr).
  exists c', w'. repeat (split; [assumption|]). intros j buf Hj Hb. destruct (made_facts _ _ _ _ Hm) as (HP & HT & _).
  assert (Hz : zlen (List.concat c') = zsum (lens_of files)) by (destruct Ho' as [inos Ho']; apply (opened_total _ _ _ _ _ _ _ Hm Ho')).
  assert (Hl : zlen (piece_bytes P c' j) = psize P (zsum (lens_of files)) j) by (rewrite zlen_piece_bytes by lia; now rewrite Hz).
  assert (Hcap : P <= scap buf) by (unfold scap; pose proof (zlen_nonneg (spare buf)); lia).
  exists (splice buf 0 (piece_bytes P c' j)). rewrite Hl. split; [apply Hr; assumption|].
  pose proof (psize_le P (zsum (lens_of files)) j ltac:(lia)). destruct (splice_front buf (piece_bytes P c' j) ltac:(lia)) as [H1 H2]. split; [congruence|assumption].
Qed.

Lemma WritePiece_confined sha1 P hashes files ti i d w inos contents : made P hashes files ti -> opened_at inos w ti contents ->
  0 <= i < zlen hashes / 20 -> zlen (vis d) = psize P (zsum (lens_of files)) i ->
  exists contents' r w', WritePiece sha1 ti i d w = (r, w') /\ opened_at inos w' ti contents' /\ others_same inos w w' /\ r <> Panic /\ r <> NoFuel /\
    map zlen contents' = map zlen contents /\
    (forall x, 0 <= x < zlen (List.concat contents) ->
       let new := nth_error (List.concat contents') (Z.to_nat x) in let old := nth_error (List.concat contents) (Z.to_nat x) in
       let a := pstart P (zsum (lens_of files)) i in
       if (a <=? x) && (x <? a + zlen (vis d)) then new = old \/ new = nth_error (vis d) (Z.to_nat (x - a)) else new = old).
Proof.
  intros Hm Ho Hi Hd. destruct (made_facts _ _ _ _ Hm) as (HP & HT & _).
  destruct (list_eq_dec Byte.byte_eq_dec (sha1 (vis d)) (hash_at hashes i)) as [Hs|Hs].
  2:{ exists contents, (Err EBadHash), w. split; [apply (WritePiece_rejects sha1 P hashes files ti i d w Hm); assumption|]. split; [assumption|]. split; [apply others_same_refl|].
      split; [discriminate|]. split; [discriminate|]. split; [reflexivity|]. intros x Hx new old a. destruct (_ && _); [left|]; reflexivity. }
  destruct (WritePiece_prefix sha1 P hashes files ti i d w inos contents Hm Ho Hi Hs) as (m & c' & w' & r & E & Hmm & Hmc & Ho' & Hs' & Hz & Hc & Hr & _).
  set (T := zsum (lens_of files)) in *. destruct (opened_total _ _ _ _ _ _ _ Hm Ho) as [_ Hzt]. fold T in Hzt, HT.
  assert (Hcap : zlen (vis d) <= scap d) by (unfold scap; pose proof (zlen_nonneg (spare d)); lia).
  exists c', r, w'. split; [exact E|]. split; [assumption|]. split; [assumption|].
  split. { destruct Hr as [[-> _]|[[-> _]|[_ Hx]]]; [discriminate..|lia]. }
  split. { destruct Hr as [[-> _]|[[-> _]|[-> _]]]; discriminate. }
  split; [assumption|]. intros x Hx. cbv zeta. set (a := pstart P T i) in *.
  assert (Ha : 0 <= a) by (apply pstart_nonneg; lia). assert (HaT : a + psize P T i <= T) by (unfold a, psize, pstart; lia).
  set (f := firstn (Z.to_nat m) (back d)) in *.
  assert (Hf : zlen f = m) by (unfold f, zlen; rewrite firstn_length; unfold back; rewrite app_length; unfold scap, zlen in *; lia).
  rewrite Hc. rewrite over_nth by lia. rewrite Hf.
  destruct (Z.leb_spec a x) as [H1|H1]; cbn [andb]; [|reflexivity].
  destruct (Z.ltb_spec x (a + zlen (vis d))) as [H2|H2].
  - destruct (Z.ltb_spec x (a + m)) as [H3|H3]; [right|left; reflexivity].
    unfold f. assert (Hn : (Z.to_nat (x - a) < Z.to_nat m)%nat) by lia.
    transitivity (nth_error (back d) (Z.to_nat (x - a))).
    + rewrite <- (firstn_skipn (Z.to_nat m) (back d)) at 2. rewrite nth_error_app1; [reflexivity|]. fold f. unfold zlen in Hf. lia.
    + unfold back. apply nth_error_app1. unfold zlen in *. lia.
  - replace (x <? a + m) with false by lia. reflexivity.
Qed.
