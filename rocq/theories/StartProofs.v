(** StartProofs.v: starting a swarm. *)
From Coq Require Import ZifyBool ZifyNat ZifyN.
From Verif Require RateModel.
From Verif Require Import Base BencodeModel BitfieldModel BitfieldSpec BitfieldProofs PathModel PathSpec LayoutModel LayoutSpec LayoutProofs PieceMapProofs
  PptModel PptSpec PptProofs PeerModel UtilsModel UtilsSpec UtilsProofs FsModel FsSpec FsProofs OcatProofs LifeSpec LifeProofs SwarmModel SwarmProofs TrackerModel TrackerSpec TrackerProofs
  StartModel StartSpec.

(** ** Creating and opening under faults *)
Lemma Create_full p n w : fs_wf w -> 0 <= n ->
  exists r w', CreateZeroFilledFile p n w = (r, w') /\ fs_wf w' /\ frame [place (w_cwd w) p] w w' /\ w_lfps w' = w_lfps w /\ (no_faults w -> no_faults w') /\
    ((exists i, r = Ok i /\ pget (place (w_cwd w) p) (w_names w') = Some i /\ nth_error (w_inos w') i = Some (zeros n)) \/ (r = Err EIO /\ ~ no_faults w)).
Proof.
  intros Hwf Hn. unfold CreateZeroFilledFile, os_mkdirall, iobind at 1.
  destruct (next_case w) as [H1|[(k & fl & H1) Hbad]].
  2: { rewrite (syscall_bad _ _ _ _ H1). exists (Err EIO), (no_flt w). split; [reflexivity|]. split; [apply fs_wf_no_flt; assumption|].
       split; [apply frame_no_flt|]. split; [apply no_flt_fields|]. split; [apply no_flt_faults|]. right. auto. }
  rewrite syscall_next by assumption. unfold ret at 1. unfold iobind at 1.
  destruct (next_case (no_flt w)) as [H2|[(k & fl & H2) Hbad]].
  2: { unfold os_create. rewrite (syscall_bad _ _ _ _ H2). exists (Err EIO), (no_flt (no_flt w)). split; [reflexivity|]. split; [apply fs_wf_no_flt, fs_wf_no_flt; assumption|].
       split; [eapply frame_trans; apply frame_no_flt|]. split; [destruct (no_flt_fields (no_flt w)) as (_ & _ & _ & ->); apply no_flt_fields|].
       split; [intros H; now apply no_flt_faults, no_flt_faults|]. right. split; [reflexivity|]. apply no_flt_bad; assumption. }
  destruct (create_frame p w Hwf) as (i & w1 & _ & Hcr). destruct (Hcr H2) as (Ecr & Hwf1 & Hf1 & Hp1 & Hc1 & Hnf1).
  assert (Hl1 : w_lfps w1 = w_lfps w).
  { unfold os_create in Ecr. rewrite syscall_next in Ecr by assumption. destruct (no_flt_fields (no_flt w)) as (_ & _ & _ & F4). destruct (no_flt_fields w) as (_ & _ & _ & G4).
    destruct (pget _ _) in Ecr; assert (Hw := f_equal snd Ecr); cbn [snd] in Hw; subst w1; cbn [set_inos w_lfps]; congruence. }
  rewrite Ecr. unfold iobind.
  pose proof (proj1 Hf1) as Hcw. rewrite <- Hcw in Hp1.
  destruct (AppendZeros_spec i [] n w1 Hc1 Hn) as (m & w2 & r & E & Hm & A1 & A2 & A3 & A4 & A5 & A6).
  destruct (grow_frame p i [] m w1 w2 Hwf1 Hp1 Hc1 A1 A2 A4) as (Hwf2 & Hf2 & Hfa). rewrite Hcw in Hf2. cbn [app] in *.
  assert (Hp2 : pget (place (w_cwd w) p) (w_names w2) = Some i) by (rewrite A2, <- Hcw; exact Hp1).
  rewrite E. destruct A5 as [[-> ->]|[-> Hx]].
  - exists (Ok i), w2. split; [reflexivity|]. split; [exact Hwf2|]. split; [eapply frame_trans; eassumption|]. split; [congruence|]. split; [auto|]. left. exists i. split; [reflexivity|].
    split; [exact Hp2|]. rewrite A4. apply lupd_nth_same. apply nth_error_Some. congruence.
  - exists (Err EIO), w2. split; [reflexivity|]. split; [exact Hwf2|]. split; [eapply frame_trans; eassumption|]. split; [congruence|]. split; [auto|]. right. split; [reflexivity|]. auto.
Qed.

Lemma size_frame p i c L w : fs_wf w -> 0 <= L <= max64 -> pget (place (w_cwd w) p) (w_names w) = Some i -> nth_error (w_inos w) i = Some c ->
  exists r c' w', size_to i L w = (r, w') /\ fs_wf w' /\ frame [place (w_cwd w) p] w w' /\ w_lfps w' = w_lfps w /\ (no_faults w -> no_faults w') /\
    pget (place (w_cwd w) p) (w_names w') = Some i /\ nth_error (w_inos w') i = Some c' /\
    ((r = Ok i /\ resized c L c') \/ (r = Err EIO /\ ~ no_faults w)).
Proof.
  intros Hwf HL Hp Hc. destruct (size_to_spec i c L w Hc HL) as (c' & w' & r & E & A1 & A2 & A3 & A4 & A5 & A6 & A7).
  exists r, c', w'. split; [exact E|]. split; [apply (fs_wf_same_names w); [assumption|rewrite A4; apply lupd_length|assumption]|]. split.
  { split; [assumption|]. intros q Hq. rewrite A2. split; [reflexivity|]. intros j Hj. rewrite A4. apply lupd_nth_other. intros ->. apply Hq. left. eapply fs_wf_inj; eauto. }
  split; [assumption|]. split; [assumption|]. split; [congruence|]. split; [|assumption]. rewrite A4. apply lupd_nth_same. apply nth_error_Some. congruence.
Qed.

Lemma resized_zeros L c : 0 <= L -> resized (zeros L) L c -> c = zeros L.
Proof.
  intros HL [Hz Hr]. apply (nth_ext _ _ x00 x00).
  - apply Nat2Z.inj. change (zlen c = zlen (zeros L)). rewrite Hz, zlen_zeros; lia.
  - intros n Hn. assert (Hn2 : Z.of_nat n < L) by (unfold zlen in Hz; lia). specialize (Hr (Z.of_nat n) ltac:(lia)).
    rewrite zlen_zeros in Hr by lia. replace (Z.of_nat n <? L) with true in Hr by lia. rewrite Nat2Z.id in Hr.
    rewrite (nth_error_nth' c x00 Hn) in Hr. symmetry in Hr. apply nth_error_nth with (d := x00) in Hr. congruence.
Qed.

Lemma OCAT_any p L w : fs_wf w -> 0 <= L <= max64 ->
  exists r w', utils_OCAT p L w = (r, w') /\ fs_wf w' /\ frame [place (w_cwd w) p] w w' /\ w_lfps w' = w_lfps w /\ (no_faults w -> no_faults w') /\
    ((exists i c, r = Ok i /\ pget (place (w_cwd w) p) (w_names w') = Some i /\ nth_error (w_inos w') i = Some c /\ zlen c = L /\
        (resized (old_at w p) L c \/ (c = zeros L /\ ~ no_faults w))) \/ (r = Err EIO /\ ~ no_faults w)).
Proof.
  intros Hwf HL. rewrite utils_OCAT_eq. unfold os_open.
  assert (Hcreate : forall w0 : world, w_cwd w0 = w_cwd w -> w_lfps w0 = w_lfps w -> fs_wf w0 -> frame [place (w_cwd w) p] w w0 -> (no_faults w -> no_faults w0) -> (~ no_faults w0 -> ~ no_faults w) ->
    exists r w', match CreateZeroFilledFile p L w0 with (Ok i, w') => size_to i L w' | r => r end = (r, w') /\ fs_wf w' /\ frame [place (w_cwd w) p] w w' /\ w_lfps w' = w_lfps w /\ (no_faults w -> no_faults w') /\
    ((exists i, r = Ok i /\ pget (place (w_cwd w) p) (w_names w') = Some i /\ nth_error (w_inos w') i = Some (zeros L)) \/ (r = Err EIO /\ ~ no_faults w))).
  { intros w0 Hc0 Hl0 Hwf0 Hf0 Hn0 Hn0'. destruct (Create_full p L w0 Hwf0 ltac:(lia)) as (r & w1 & E & Hwf1 & Hf1 & Hl1 & Hn1 & Hr). rewrite Hc0 in Hf1, Hr. rewrite E.
    assert (Hfr : frame [place (w_cwd w) p] w w1) by (eapply frame_trans; eassumption).
    destruct Hr as [(i & -> & Hp & Hc)|[-> Hx]].
    - pose proof (proj1 Hf1) as Hcw. rewrite Hc0 in Hcw. rewrite <- Hcw in Hp.
      destruct (size_frame p i (zeros L) L w1 Hwf1 HL Hp Hc) as (r & c' & w2 & E2 & Hwf2 & Hf2 & Hl2 & Hn2 & Hp2 & Hc2 & Hr). rewrite Hcw in Hf2, Hp2.
      exists r, w2. split; [exact E2|]. split; [assumption|]. split; [eapply frame_trans; eassumption|]. split; [congruence|]. split; [auto|].
      destruct Hr as [[-> Hr]|[-> Hx]]; [left|right; split; [reflexivity|auto]]. exists i. split; [reflexivity|]. split; [exact Hp2|]. rewrite Hc2. f_equal. apply resized_zeros; [lia|assumption].
    - exists (Err EIO), w1. split; [reflexivity|]. split; [assumption|]. split; [assumption|]. split; [congruence|]. split; [auto|]. right. auto. }
  destruct (no_flt_fields w) as (F1 & F2 & F3 & F4).
  destruct (next_case w) as [H1|[(k & fl & H1) Hbad]].
  - rewrite syscall_next by assumption. rewrite F1, F2. destruct (pget (place (w_cwd w) p) (w_names w)) as [i|] eqn:Hp.
    + pose proof (fs_wf_bound _ _ _ Hwf Hp) as Hb. destruct (nth_error (w_inos w) i) as [c|] eqn:Hc; [|apply nth_error_None in Hc; lia].
      destruct (size_frame p i c L (no_flt w) (fs_wf_no_flt _ Hwf) HL) as (r & c' & w2 & E2 & Hwf2 & Hf2 & Hl2 & Hn2 & Hp2 & Hc2 & Hr); [rewrite F1, F2; exact Hp|rewrite F3; exact Hc|]. rewrite F1 in Hf2, Hp2.
      exists r, w2. split; [exact E2|]. split; [assumption|]. split; [eapply frame_trans; [apply frame_no_flt|eassumption]|]. split; [congruence|]. split; [intros H; now apply Hn2, no_flt_faults|].
      destruct Hr as [[-> Hr]|[-> Hx]]; [left|right; split; [reflexivity|now apply no_flt_bad]]. exists i, c'. split; [reflexivity|]. split; [exact Hp2|]. split; [exact Hc2|]. split; [apply Hr|].
      left. unfold old_at, file_at. rewrite Hp, Hc. exact Hr.
    + destruct (Hcreate (no_flt w)) as (r & w' & E & A1 & A2 & A3 & A4 & A5); [assumption|assumption|apply fs_wf_no_flt; assumption|apply frame_no_flt|apply no_flt_faults|apply no_flt_bad|].
      exists r, w'. split; [exact E|]. repeat (split; [assumption|]). destruct A5 as [(i & -> & Hpi & Hc)|Hx]; [left|right; exact Hx]. exists i, (zeros L). split; [reflexivity|].
      split; [exact Hpi|]. split; [exact Hc|]. split; [apply zlen_zeros; lia|]. left. unfold old_at, file_at. rewrite Hp. apply resized_nil. lia.
  - rewrite (syscall_bad _ _ _ _ H1). destruct (Hcreate (no_flt w)) as (r & w' & E & A1 & A2 & A3 & A4 & A5); [assumption|assumption|apply fs_wf_no_flt; assumption|apply frame_no_flt|apply no_flt_faults|apply no_flt_bad|].
    exists r, w'. split; [exact E|]. repeat (split; [assumption|]). destruct A5 as [(i & -> & Hpi & Hc)|Hx]; [left|right; exact Hx]. exists i, (zeros L). split; [reflexivity|].
    split; [exact Hpi|]. split; [exact Hc|]. split; [apply zlen_zeros; lia|]. right. auto.
Qed.

Lemma frame_weaken ps qs w w' : (forall q, In q ps -> In q qs) -> frame ps w w' -> frame qs w w'.
Proof. intros H [A1 A2]. split; [assumption|]. intros q Hq. apply A2. auto. Qed.

Lemma OCATAll_any es : forall w, fs_wf w -> NoDup (map (eplace (w_cwd w)) es) -> Forall (fun e => 0 <= en_len e <= max64) es ->
  exists r w', OCATAll es w = (r, w') /\ fs_wf w' /\ frame (map (eplace (w_cwd w)) es) w w' /\ (no_faults w -> no_faults w') /\
   (forall k, ~ In k (map (fun e => eb_local (en_base e)) es) -> aget k (w_lfps w') = aget k (w_lfps w)) /\
   ((exists inos contents, r = Ok tt /\ NoDup inos /\
    Forall2 (fun e i => pget (eplace (w_cwd w) e) (w_names w') = Some i) es inos /\
    Forall2 (fun e i => aget (eb_local (en_base e)) (w_lfps w') = Some (mkh i true)) es inos /\
    Forall2 (fun i c => nth_error (w_inos w') i = Some c) inos contents /\
    Forall2 (fun e c => zlen c = en_len e /\ (resized (old_at w (eb_local (en_base e))) (en_len e) c \/ (c = zeros (en_len e) /\ ~ no_faults w))) es contents) \/
    (r = Err EIO /\ ~ no_faults w)).
Proof.
  induction es as [|e es IH]; intros w Hwf HND HL.
  { exists (Ok tt), w. split; [reflexivity|]. split; [assumption|]. split; [split; [reflexivity|auto]|]. split; [auto|]. split; [auto|]. left. exists [], []. split; [reflexivity|]. repeat (split; [constructor|]). constructor. }
  inversion HL as [|? ? HLe HL']; subst. cbn [map] in HND. inversion HND as [|? ? Hnin HND']; subst.
  cbn [OCATAll]. unfold OCAT, iobind at 1 2.
  destruct (OCAT_any (eb_local (en_base e)) (en_len e) w Hwf HLe) as (r & w1 & E & A1 & A2 & A3 & A7 & Hr). rewrite E. fold (eplace (w_cwd w) e) in A2, Hr.
  destruct Hr as [(i & c & -> & A4 & A5 & A6 & A8)|[-> Hx]].
  2:{ exists (Err EIO), w1. split; [reflexivity|]. split; [assumption|]. split; [eapply frame_weaken; [|exact A2]; intros q [<-|[]]; left; reflexivity|]. split; [assumption|].
      split; [intros k _; now rewrite A3|]. right. auto. }
  set (w2 := set_lfps w1 (aput (eb_local (en_base e)) (mkh i true) (w_lfps w1))).
  assert (Hcwd : w_cwd w2 = w_cwd w) by (destruct A2; assumption).
  destruct (IH w2) as (r & w' & E' & B1 & B3 & B2 & B9 & Hr). { exact A1. } { rewrite Hcwd. assumption. } { assumption. }
  rewrite Hcwd in B3, Hr. rewrite E'.
  assert (Hfr : frame (map (eplace (w_cwd w)) (e :: es)) w w').
  { cbn [map]. eapply frame_trans; [eapply frame_weaken; [|exact A2]; intros q [<-|[]]; left; reflexivity|]. eapply frame_weaken; [|exact B3]. intros q Hq. right. exact Hq. }
  assert (Hnf : no_faults w -> no_faults w') by (intros H; apply B2; apply A7; exact H).
  assert (Hkeys : forall k, ~ In k (map (fun e => eb_local (en_base e)) (e :: es)) -> aget k (w_lfps w') = aget k (w_lfps w)).
  { intros k Hk. cbn [map] in Hk. rewrite B9 by (intros H; apply Hk; right; assumption). cbn. rewrite aget_aput_other by (intros ->; apply Hk; left; reflexivity). now rewrite A3. }
  exists r, w'. split; [reflexivity|]. split; [assumption|]. split; [exact Hfr|]. split; [assumption|]. split; [assumption|].
  destruct Hr as [(inos & contents & -> & B4 & B5 & B6 & B7 & B8)|[-> Hx]]; [left|right; split; [reflexivity|intros H; apply Hx; apply A7; exact H]].
  assert (Hi : pget (eplace (w_cwd w) e) (w_names w') = Some i) by (rewrite (proj1 (proj2 B3 _ Hnin)); exact A4).
  assert (Hci : nth_error (w_inos w') i = Some c) by (rewrite (proj2 (proj2 B3 _ Hnin) i A4); exact A5).
  assert (Hinos : ~ In i inos).
  { intros Hin. apply In_nth_error in Hin. destruct Hin as [k Hk].
    assert (Hx : exists e', nth_error es k = Some e' /\ pget (eplace (w_cwd w) e') (w_names w') = Some i).
    { clear - B5 Hk. revert k Hk. induction B5 as [|a x l l' Ha Hf IH]; intros [|k] Hk; cbn in *; [discriminate..| |].
      - injection Hk as ->. exists a. auto.
      - apply IH. assumption. }
    destruct Hx as (e' & He' & Hp'). apply Hnin. rewrite <- (fs_wf_inj _ _ _ _ B1 Hp' Hi). apply in_map. eapply nth_error_In. exact He'. }
  exists (i :: inos), (c :: contents). split; [reflexivity|]. split; [constructor; assumption|]. split; [constructor; assumption|].
  assert (Hkey : ~ In (eb_local (en_base e)) (map (fun e => eb_local (en_base e)) es)).
  { intros Hin. apply Hnin. apply in_map_iff in Hin. destruct Hin as (e' & He' & Hin). apply in_map_iff. exists e'. split; [|assumption]. unfold eplace. congruence. }
  split. { constructor; [|assumption]. rewrite (B9 _ Hkey). cbn. apply aget_aput_same. }
  split; [constructor; assumption|].
  constructor; [auto|]. clear - B8 A2 A4 A7 Hnin Hcwd. destruct A2 as [_ A2].
  assert (Hold : forall e', In e' es -> old_at w2 (eb_local (en_base e')) = old_at w (eb_local (en_base e'))).
  { intros e' He'. unfold old_at, file_at. rewrite Hcwd. fold (eplace (w_cwd w) e').
    assert (Hq : ~ In (eplace (w_cwd w) e') [eplace (w_cwd w) e]).
    { intros [H|[]]. apply Hnin. rewrite H. now apply in_map. }
    destruct (A2 _ Hq) as [P1 P2]. change (w_names w2) with (w_names w1). change (w_inos w2) with (w_inos w1). rewrite P1.
    destruct (pget _ (w_names w)) eqn:E; [|reflexivity]. now rewrite (P2 _ eq_refl). }
  assert (Hn2 : ~ no_faults w2 -> ~ no_faults w) by (intros H H'; apply H; apply A7; exact H').
  clear - B8 Hold Hn2. induction B8 as [|a x l l' Ha Hf IH]; constructor.
  - rewrite <- Hold by (left; reflexivity). destruct Ha as [H1 [H2|[H2 H3]]]; auto.
  - apply IH. intros. apply Hold. right. assumption.
Qed.

(** A torrent's files: opened with the right sizes, or an error. *)
Lemma OCATAll_opens_any P hashes files ti w : made P hashes files ti -> fs_wf w -> NoDup (places w files) ->
  exists r w', OCATAll (ti_files ti) w = (r, w') /\ fs_wf w' /\ elsewhere_same (places w files) w w' /\ (no_faults w -> no_faults w') /\
    ((exists inos contents, r = Ok tt /\ opened_at inos w' ti contents /\ Forall2 (sized w w') files contents /\
       (no_faults w -> Forall2 (fun f c => resized (old_at w (eb_local f)) (eb_len f) c) files contents)) \/ (r = Err EIO /\ ~ no_faults w)).
Proof.
  intros Hm Hwf HND. destruct (made_facts _ _ _ _ Hm) as (HP & HT & _ & _ & _ & _ & Hf & _).
  assert (Hpl : map (eplace (w_cwd w)) (ti_files ti) = places w files).
  { unfold places. rewrite <- Hf, map_map. reflexivity. }
  assert (HL : Forall (fun e => 0 <= en_len e <= max64) (ti_files ti)).
  { destruct Hm as ((_ & Hnn & Hs) & _). rewrite <- Hf in Hnn, Hs. clear - Hnn Hs. unfold lens_of in *. rewrite map_map in *. unfold big in Hs.
    revert Hnn Hs. generalize (ti_files ti) as l. induction l as [|e l IH]; cbn [map]; intros Hnn Hs; [constructor|constructor];
      (inversion Hnn as [|? ? H1 H2]; subst; pose proof (zsum_nonneg _ H2); change (zsum (?a :: ?b)) with (a + zsum b) in Hs).
    - unfold en_len, max64. lia.
    - apply IH; [assumption|lia]. }
  destruct (OCATAll_any (ti_files ti) w Hwf) as (r & w' & E & A1 & A3 & A2 & _ & Hr); [rewrite Hpl; assumption|assumption|].
  exists r, w'. split; [exact E|]. split; [exact A1|]. split; [rewrite <- Hpl; apply frame_elsewhere; assumption|]. split; [exact A2|].
  destruct Hr as [(inos & cs & -> & A4 & A5 & A6 & A7 & A8)|Hx]; [left|right; exact Hx]. exists inos, cs. split; [reflexivity|]. split.
  { split; [assumption|]. split; [assumption|]. split; [assumption|].
    unfold lens_of. rewrite map_map. clear - A8. induction A8 as [|e c l l' H _ IH]; [reflexivity|]. cbn [map]. rewrite IH. f_equal. apply H. }
  assert (Hcwd : w_cwd w' = w_cwd w) by apply A3.
  assert (Hat : Forall2 (fun e c => file_at w' (eb_local (en_base e)) = Some c) (ti_files ti) cs).
  { clear - A5 A7 Hcwd. revert cs A7. induction A5 as [|e i l l' He _ IH]; intros cs A7; inversion A7; subst; constructor.
    - unfold file_at. rewrite Hcwd. fold (eplace (w_cwd w) e). now rewrite He.
    - apply IH. assumption. }
  rewrite <- Hf. split.
  - clear - A8 Hat. induction A8 as [|e c l l' [H1 H2] _ IH]; inversion Hat; subst; cbn [map]; constructor; auto. split; [assumption|]. split; [exact H1|]. destruct H2 as [H2|[H2 _]]; [left|right]; exact H2.
  - intros Hnf. clear - A8 Hnf. induction A8 as [|e c l l' [_ H2] _ IH]; cbn [map]; constructor; auto. destruct H2 as [H2|[_ H2]]; [exact H2|contradiction].
Qed.

(** ** NewSwarm *)
Lemma Forall2_weaken {A C} (R S : A -> C -> Prop) l m : (forall a c, R a c -> S a c) -> Forall2 R l m -> Forall2 S l m.
Proof. intros H F. induction F; constructor; auto. Qed.
Lemma readfile_spec p sp w : fs_wf w -> exists r w', os_readfile p sp w = (r, w') /\ disk_same w w' /\ (no_faults w -> no_faults w') /\
  ((exists c, r = Ok (mkslice c sp) /\ file_at w p = Some c) \/ ((exists e, r = Err e) /\ (file_at w p = None \/ ~ no_faults w))).
Proof.
  intros Hwf. unfold os_readfile, os_open, iobind at 1.
  assert (Hds : forall w, disk_same w (no_flt w)) by (intros w0; destruct (no_flt_fields w0) as (A1 & A2 & A3 & A4); unfold disk_same; auto).
  destruct (no_flt_fields w) as (F1 & F2 & F3 & F4).
  destruct (next_case w) as [H1|[(k & fl & H1) Hbad]].
  2:{ rewrite (syscall_bad _ _ _ _ H1). exists (Err EIO), (no_flt w). split; [reflexivity|]. split; [apply Hds|]. split; [apply no_flt_faults|]. right. eauto. }
  rewrite syscall_next by assumption. rewrite F1, F2. unfold file_at. destruct (pget (place (w_cwd w) p) (w_names w)) as [i|] eqn:Hp.
  2:{ exists (Err EPath), (no_flt w). split; [reflexivity|]. split; [apply Hds|]. split; [apply no_flt_faults|]. right. eauto. }
  pose proof (fs_wf_bound _ _ _ Hwf Hp) as Hb. destruct (nth_error (w_inos w) i) as [c|] eqn:Hc; [|apply nth_error_None in Hc; lia].
  destruct (next_case (no_flt w)) as [H2|[(k & fl & H2) Hbad]].
  2:{ rewrite (syscall_bad _ _ _ _ H2). exists (Err EIO), (no_flt (no_flt w)). split; [reflexivity|]. split; [eapply disk_same_trans; apply Hds|]. split; [intros H; now apply no_flt_faults, no_flt_faults|].
      right. split; [eauto|]. right. now apply no_flt_bad. }
  rewrite syscall_next by assumption. unfold iobind, content, ret. destruct (no_flt_fields (no_flt w)) as (_ & _ & G3 & _). rewrite G3, F3, (nth_of_error _ _ _ Hc).
  exists (Ok (mkslice c sp)), (no_flt (no_flt w)). split; [reflexivity|]. split; [eapply disk_same_trans; apply Hds|]. split; [intros H; now apply no_flt_faults, no_flt_faults|]. left. eauto.
Qed.

Lemma disk_same_wf w w' : disk_same w w' -> fs_wf w -> fs_wf w'.
Proof. intros (A1 & A2 & A3 & A4). apply fs_wf_same_names; congruence. Qed.
Lemma disk_same_file w w' p : disk_same w w' -> file_at w' p = file_at w p.
Proof. intros (A1 & A2 & A3 & A4). unfold file_at. now rewrite A1, A2, A4. Qed.

Lemma tracker_Get_cases n tor st port id :
  (n_query n (t_announce tor) = None /\ tracker_Get n tor st port id = Panic) \/
  (exists raw, n_query n (t_announce tor) = Some raw /\ ((exists r, tracker_Get n tor st port id = Ok r) \/ exists e, tracker_Get n tor st port id = Err e)).
Proof.
  unfold tracker_Get. destruct (n_query n (t_announce tor)) as [raw|]; [right; exists raw; split; [reflexivity|]|left; split; reflexivity].
  unfold newRequest. cbn [bind]. destruct (n_answer _ _ _) as [body|]; [apply handle_body_kind|eauto].
Qed.

Lemma NewSwarm_any sha1 n src fuel sp o w id c tor P hashes files :
  NewPeerId src fuel = Ok id -> fs_wf w -> file_at w (o_input o) = Some c -> FromTorrentFile sha1 (mkslice c sp) (o_wd o) = Ok tor ->
  made P hashes files (t_info tor) -> NoDup (places w files) -> zlen hashes / 20 < 4294967296 ->
  let told := tracker_Get n tor (NewStats 0 0 0) (OptPort o) id in
  exists r w', NewSwarm sha1 n src fuel sp o w = (r, w') /\ fs_wf w' /\ elsewhere_same (places w files) w w' /\ (no_faults w -> no_faults w') /\
   ((exists s contents resp, r = Ok s /\ told = Ok resp /\ opened w' (t_info tor) contents /\ Forall2 (sized w w') files contents /\
       (no_faults w -> Forall2 (fun f c => resized (old_at w (eb_local f)) (eb_len f) c) files contents) /\ right_bits sha1 P hashes contents (sw_bf s) /\
       sw_id s = id /\ sw_port s = OptPort o /\ sw_tor s = tor /\ sw_stats s = NewStats 0 0 0 /\ sw_state s = r_state resp /\ sw_peers s = r_peers resp /\
       sw_wrate s = Z.max (-1) (o_uplim o) /\ sw_rrate s = Z.max (-1) (o_dnlim o) /\ NewPeerPieceTracker (zlen hashes / 20) = Ok (sw_ppt s)) \/
    ((exists e, r = Err e) /\ ~ no_faults w) \/
    ((exists contents, opened w' (t_info tor) contents /\ Forall2 (sized w w') files contents) /\ ((exists e, told = Err e /\ r = Err e) \/ (told = Panic /\ r = Panic)))).
Proof.
  intros Hid Hwf Hc Htor Hm HND HN told. destruct (made_facts _ _ _ _ Hm) as (HP & HT & Hnp & Hpl & _ & _ & _ & _ & HN0 & _).
  unfold NewSwarm. rewrite Hid. unfold lift at 1, iobind at 1. unfold iobind at 1.
  destruct (readfile_spec (o_input o) sp w Hwf) as (r & w1 & E1 & Hds & Hn1 & Hr). rewrite E1.
  assert (Hcw1 : w_cwd w1 = w_cwd w) by apply Hds.
  destruct Hr as [(c' & -> & Hc')|[(e & ->) Hx]].
  2:{ exists (Err e), w1. split; [reflexivity|]. split; [eapply disk_same_wf; eassumption|]. split; [split; [exact Hcw1|]; intros q _; now apply disk_same_file|]. split; [exact Hn1|].
      right. left. split; [eauto|]. destruct Hx as [Hx|Hx]; [congruence|exact Hx]. }
  assert (c' = c) by congruence. subst c'. unfold iobind at 1, lift at 1. rewrite Htor. unfold iobind at 1, NewFileIO. set (w2 := set_lfps w1 []).
  assert (Hwf2 : fs_wf w2) by (eapply disk_same_wf in Hwf; [|eassumption]; exact Hwf).
  assert (Hfile2 : forall p, file_at w2 p = file_at w p) by (intros p; etransitivity; [|apply (disk_same_file w w1 p Hds)]; reflexivity).
  assert (Hpls : places w2 files = places w files) by (unfold places; change (w_cwd w2) with (w_cwd w1); now rewrite Hcw1).
  assert (Hold : forall p, old_at w2 p = old_at w p) by (intros p; unfold old_at; now rewrite Hfile2).
  assert (Hnf2 : no_faults w -> no_faults w2) by (intros H; exact (Hn1 H)).
  assert (Hels : forall w', elsewhere_same (places w files) w2 w' -> elsewhere_same (places w files) w w').
  { intros w' [H1 H2]. change (w_cwd w2) with (w_cwd w1) in H1, H2. rewrite Hcw1 in H1, H2. split; [exact H1|]. intros q Hq. rewrite H2 by exact Hq. apply Hfile2. }
  destruct (OCATAll_opens_any P hashes files (t_info tor) w2 Hm Hwf2) as (r & w3 & E3 & Hwf3 & He3 & Hn3 & Hr); [rewrite Hpls; exact HND|]. rewrite Hpls in He3.
  unfold iobind at 1. rewrite E3. destruct Hr as [(inos & cs & -> & Ho & Hsz & Hrs)|[-> Hx]].
  2:{ exists (Err EIO), w3. split; [reflexivity|]. split; [exact Hwf3|]. split; [apply Hels; exact He3|]. split; [auto|]. right. left. split; [eauto|auto]. }
  unfold iobind at 1, lift at 1.
  destruct (Validate_faults_bits sha1 P hashes files (t_info tor) w3 inos cs [] Hm Ho I eq_refl) as (bf & r & w4 & Eb & Ev & Hds4 & Hr).
  destruct (NewBitfield_inv _ HN0) as (b0 & Eb0 & Hb0). rewrite Hnp, Eb0. rewrite Eb0 in Eb. cbn [bind brun] in Eb. assert (b0 = bf) by congruence. subst b0.
  unfold iobind at 1. rewrite Ev.
  assert (Hwf4 : fs_wf w4) by (eapply disk_same_wf; eassumption).
  assert (He4 : elsewhere_same (places w files) w w4).
  { destruct (Hels _ He3) as [H1 H2]. destruct Hds4 as (D1 & D2 & D3 & D4). split; [congruence|]. intros q Hq. rewrite <- (H2 q Hq). apply disk_same_file. repeat split; assumption. }
  destruct Hr as [(bf' & -> & Hnb & Hdl & Hnby & Hhd & Hbits & Hcompl)|[(e & ->) Hx]].
  2:{ exists (Err e), w4. split; [reflexivity|]. split; [exact Hwf4|]. split; [exact He4|]. split; [|right; left; split; [eauto|auto]].
      intros H. exfalso. apply Hx. auto. }
  assert (Hnf4 : no_faults w -> no_faults w4).
  { intros H. pose proof (Hn3 (Hnf2 H)) as H3.
    destruct (Validate_spec sha1 P hashes files (t_info tor) w3 cs bf (zero_vec (zlen hashes / 20)) Hm (ex_intro _ inos Ho) H3 Hb0 eq_refl) as (bf2 & Ev2 & _).
    rewrite Ev in Ev2. assert (w4 = w3) by congruence. congruence. }
  assert (Ho4 : opened w4 (t_info tor) cs) by (exists inos; eapply disk_same_opened; eassumption).
  assert (Hsz4 : Forall2 (sized w w4) files cs).
  { eapply Forall2_weaken; [|exact Hsz]. intros f x (S1 & S2 & S3). split; [rewrite (disk_same_file w3 w4 _ Hds4); exact S1|]. split; [exact S2|]. rewrite Hold in S3. exact S3. }
  unfold iobind at 1, lift at 1. fold told.
  destruct (tracker_Get_cases n tor (NewStats 0 0 0) (OptPort o) id) as [[_ Hg]|(raw & _ & [(resp & Hg)|(e & Hg)])]; fold told in Hg; rewrite Hg.
  - exists Panic, w4. split; [reflexivity|]. split; [exact Hwf4|]. split; [exact He4|]. split; [exact Hnf4|]. right. right. split; [exists cs; auto|]. right. auto.
  - unfold iobind, lift. unfold u32. rewrite Z.mod_small by lia. destruct (New_pinv (zlen hashes / 20) HN0) as (t & Et & _). rewrite Et. unfold ret.
    eexists _, w4. split; [reflexivity|]. split; [exact Hwf4|]. split; [exact He4|]. split; [exact Hnf4|]. left. eexists _, cs, resp. split; [reflexivity|]. split; [reflexivity|].
    split; [exact Ho4|]. split; [exact Hsz4|]. split.
    { intros H. specialize (Hrs (Hnf2 H)). eapply Forall2_weaken; [|exact Hrs]. intros f x Hfx. cbv beta in Hfx |- *. rewrite Hold in Hfx. exact Hfx. }
    cbn [sw_bf sw_id sw_port sw_tor sw_stats sw_state sw_peers sw_wrate sw_rrate sw_ppt]. split; [|repeat (split; [reflexivity|])].
    { assert (Hbl : zlen (Data bf') = bytes_for (zlen hashes / 20)).
      { rewrite Hdl. destruct (binv_agrees _ _ Hb0) as (_ & _ & A3 & _). cbn [zero_vec vbits] in A3. apply (f_equal (@List.length bool)) in A3. rewrite bits_of_length, repeat_length in A3.
        unfold zlen, bytes_for in *. assert (0 <= (Z.of_nat (List.length hashes) / 20 + 7) / 8) by (apply Z.div_pos; lia). lia. }
      split; [exact Hnb|]. split; [congruence|]. split; [exact Hbl|]. split; [exact Hhd|]. split; assumption. }
    unfold SetRate, RateModel.clamp, RateModel.NoLimit. split; [destruct (Z.ltb_spec (o_uplim o) (-1)); lia|]. split; [destruct (Z.ltb_spec (o_dnlim o) (-1)); lia|]. reflexivity.
  - exists (Err e), w4. split; [reflexivity|]. split; [exact Hwf4|]. split; [exact He4|]. split; [exact Hnf4|]. right. right. split; [exists cs; auto|]. left. eauto.
Qed.

Lemma NewSwarm_no_torrent sha1 n src fuel sp o w id : NewPeerId src fuel = Ok id -> fs_wf w ->
  (forall c, file_at w (o_input o) = Some c -> exists e, FromTorrentFile sha1 (mkslice c sp) (o_wd o) = Err e) ->
  exists e w', NewSwarm sha1 n src fuel sp o w = (Err e, w') /\ disk_same w w'.
Proof.
  intros Hid Hwf Hbad. unfold NewSwarm. rewrite Hid. unfold lift at 1, iobind at 1. unfold iobind at 1.
  destruct (readfile_spec (o_input o) sp w Hwf) as (r & w1 & E1 & Hds & _ & Hr). rewrite E1. destruct Hr as [(c & -> & Hc)|[(e & ->) _]].
  - destruct (Hbad c Hc) as (e & He). unfold iobind at 1, lift at 1. rewrite He. eauto.
  - eauto.
Qed.

Lemma announce_top n tor port src fuel id raw : NewPeerId src fuel = Ok id -> n_query n (t_announce tor) = Some raw -> clean_query raw ->
  exists q, (forall k, form_values q k = form_values raw k ++ values_of (announce_params (t_infohash tor) (NewStats 0 0 0) port id) k) /\
    tracker_Get n tor (NewStats 0 0 0) port id = match n_answer n (t_announce tor) q with None => Err EIO | Some body => handle_body (n_parseIP n) body end.
Proof.
  intros Hid Hq Hc. destruct (request_clean raw (t_infohash tor) (NewStats 0 0 0) port id Hc) as (q & E & H). exists q. rewrite (NewPeerId_plain _ _ _ Hid) in H. split; [exact H|].
  unfold tracker_Get. rewrite Hq, E. reflexivity.
Qed.

Lemma listener_top {C} (events : list (option C)) l b : accepted events l b <-> runListener true events = (l, if b then Panic else Ok tt).
Proof.
  unfold runListener. split.
  - induction 1 as [| |c r l b H IH]; cbn [accept_loop]; [reflexivity..|]. now rewrite IH.
  - revert l b. induction events as [|[c|] r IH]; intros l b; cbn [accept_loop].
    + destruct b; intros H; [discriminate|]. assert (l = []) by congruence. subst l. constructor.
    + destruct (accept_loop r) as [l' e]. intros H. assert (c :: l' = l /\ e = if b then Panic else Ok tt) as [<- ->] by (split; congruence). constructor. apply IH. reflexivity.
    + destruct b; intros H; [|discriminate]. assert (l = []) by congruence. subst l. constructor.
Qed.

Lemma launch_peers_map l : launch_peers l = map GPeer l.
Proof. induction l as [|p l IH]; [reflexivity|]. cbn. now rewrite IH. Qed.

(** ** main *)
Lemma initOpts_fields uni o o' : initOpts uni o = Ok o' -> o_cmd o' = o_cmd o /\ o_input o' = o_input o /\ o_wd o' = o_wd o /\ o_port o' = o_port o /\
  o_input o <> [] /\ (o_cmd o = B "swarm" \/ o_cmd o = B "info") /\ parseSizeUnits uni (o_upstr o) = Ok (o_uplim o') /\ parseSizeUnits uni (o_dnstr o) = Ok (o_dnlim o').
Proof.
  unfold initOpts, ValidateOpts. cbn [set_dnlim set_uplim o_input o_cmd o_upstr o_dnstr o_wd o_port o_uplim o_dnlim].
  destruct (beqb (o_input o) []) eqn:E1; [discriminate|]. destruct (beqb (o_cmd o) (B "swarm") || beqb (o_cmd o) (B "info")) eqn:E2; cbn [negb]; [|discriminate].
  destruct (parseSizeUnits uni (o_upstr o)) as [u| | |] eqn:E3; try discriminate. cbn [set_dnlim set_uplim o_dnstr].
  destruct (parseSizeUnits uni (o_dnstr o)) as [d| | |] eqn:E4; try discriminate. intros H. apply (f_equal (fun r => match r with Ok x => x | _ => o end)) in H. subst o'.
  cbn. repeat (split; [reflexivity|]). split; [intros H0; rewrite H0 in E1; discriminate|]. split; [|auto].
  apply orb_prop in E2. destruct E2 as [E2|E2]; apply beqb_eq in E2; auto.
Qed.

Lemma parse_not_nofuel uni s : parseSizeUnits uni s <> NoFuel.
Proof.
  unfold parseSizeUnits. destruct (ToUpper uni s) as [|c r]; [discriminate|]. destruct (span_digits _) as [ds tail].
  assert (Ha : atoi ds <> NoFuel).
  { unfold atoi. repeat match goal with |- context [if ?x then _ else _] => destruct x | |- context [match ?x with _ => _ end] => destruct x end; discriminate. }
  destruct (atoi ds); cbn [bind]; try congruence. destruct tail as [|u [|v t]]; [discriminate| |discriminate].
  repeat match goal with |- context [if ?x then _ else _] => destruct x end; discriminate.
Qed.
Lemma initOpts_cases uni o : (exists o', initOpts uni o = Ok o') \/ initOpts uni o = Panic.
Proof.
  unfold initOpts, ValidateOpts. cbn [set_dnlim set_uplim o_input o_cmd o_upstr o_dnstr o_wd o_port o_uplim o_dnlim].
  destruct (beqb (o_input o) []); [right; reflexivity|]. destruct (beqb (o_cmd o) (B "swarm") || beqb (o_cmd o) (B "info")); cbn [negb]; [|right; reflexivity].
  pose proof (parse_not_nofuel uni (o_upstr o)). destruct (parseSizeUnits uni (o_upstr o)) as [u| | |] eqn:E3; [|right; reflexivity|right; reflexivity|congruence]. cbn [set_dnlim set_uplim o_dnstr].
  pose proof (parse_not_nofuel uni (o_dnstr o)). destruct (parseSizeUnits uni (o_dnstr o)) as [d| | |] eqn:E4; [left; eauto|right; reflexivity|right; reflexivity|congruence].
Qed.

Lemma main_info uni sha1 n src fuel sp o w : fs_wf w -> o_cmd o <> B "swarm" -> exists f w', main uni sha1 n src fuel sp o w = (f, w') /\ disk_same w w' /\
  (f = Exit 0 -> o_cmd o = B "info" /\ exists c tor, file_at w (o_input o) = Some c /\ FromTorrentFile sha1 (mkslice c sp) (o_wd o) = Ok tor) /\ forall s l, f <> Running s l.
Proof.
  intros Hwf Hcmd. unfold main. destruct (initOpts_cases uni o) as [(o' & E)|E]; rewrite E.
  2:{ exists Crash, w. split; [reflexivity|]. split; [apply disk_same_refl|]. split; discriminate. }
  destruct (initOpts_fields _ _ _ E) as (F1 & F2 & F3 & F4 & F5 & [F6|F6] & _); [contradiction|]. rewrite F1, F6. cbn [beqb].
  change (beqb (B "info") (B "swarm")) with false. change (beqb (B "info") (B "info")) with true. cbn iota. unfold CmdTorInfo, iobind, lift. rewrite F2, F3.
  destruct (readfile_spec (o_input o) sp w Hwf) as (r & w1 & E1 & Hds & _ & Hr). rewrite E1. destruct Hr as [(c & -> & Hc)|[(e & ->) _]].
  - destruct (FromTorrentFile sha1 (mkslice c sp) (o_wd o)) as [tor| | |] eqn:Et; eexists _, w1; (split; [reflexivity|]); (split; [exact Hds|]); (split; [|discriminate]); try discriminate.
    intros _. split; [reflexivity|]. exists c, tor. auto.
  - exists (Exit 1), w1. split; [reflexivity|]. split; [exact Hds|]. split; discriminate.
Qed.

Lemma main_swarm uni sha1 n src fuel sp o w s l w' : main uni sha1 n src fuel sp o w = (Running s l, w') <->
  (exists u d, o_input o <> [] /\ o_cmd o = B "swarm" /\ parseSizeUnits uni (o_upstr o) = Ok u /\ parseSizeUnits uni (o_dnstr o) = Ok d /\
    NewSwarm sha1 n src fuel sp (set_dnlim (set_uplim o u) d) w = (Ok s, w') /\ l = GListener :: GLimiter :: map GPeer (sw_peers s)).
Proof.
  unfold main. split.
  - destruct (initOpts_cases uni o) as [(o' & E)|E]; rewrite E; [|discriminate]. destruct (initOpts_fields _ _ _ E) as (F1 & F2 & F3 & F4 & F5 & F6 & F7 & F8).
    destruct F6 as [F6|F6]; rewrite F1, F6.
    + change (beqb (B "swarm") (B "swarm")) with true. cbn iota. unfold CmdSwarm. intros H. exists (o_uplim o'), (o_dnlim o').
      assert (Ho : o' = set_dnlim (set_uplim o (o_uplim o')) (o_dnlim o')).
      { clear - E. revert E. unfold initOpts, ValidateOpts. cbn [set_dnlim set_uplim o_input o_cmd o_upstr o_dnstr o_wd o_port o_uplim o_dnlim].
        destruct (beqb (o_input o) []); [discriminate|]. destruct (negb _); [discriminate|]. destruct (parseSizeUnits uni (o_upstr o)) as [u| | |]; try discriminate. cbn [set_dnlim set_uplim o_dnstr].
        destruct (parseSizeUnits uni (o_dnstr o)) as [d| | |]; try discriminate. intros H. apply (f_equal (fun r => match r with Ok x => x | _ => o end)) in H. subst o'. destruct o; reflexivity. }
      rewrite <- Ho. destruct (NewSwarm sha1 n src fuel sp o' w) as [[s'| | |] w1]; try discriminate.
      assert (s' = s /\ w1 = w' /\ Start s' = l) as (-> & -> & <-) by (split; [congruence|split; congruence]). unfold Start. rewrite launch_peers_map. auto 10.
    + change (beqb (B "info") (B "swarm")) with false. change (beqb (B "info") (B "info")) with true. cbn iota. unfold CmdTorInfo. destruct (iobind _ _ w) as [[?| | |] ?]; discriminate.
  - intros (u & d & H1 & H2 & H3 & H4 & H5 & ->).
    assert (E : initOpts uni o = Ok (set_dnlim (set_uplim o u) d)).
    { unfold initOpts, ValidateOpts. cbn [set_dnlim set_uplim o_input o_cmd o_upstr o_dnstr o_wd o_port o_uplim o_dnlim].
      destruct (beqb (o_input o) []) eqn:E1; [apply beqb_eq in E1; contradiction|]. rewrite H2. change (beqb (B "swarm") (B "swarm") || beqb (B "swarm") (B "info")) with true. cbn [negb]. rewrite H3. cbn [set_dnlim set_uplim o_dnstr]. rewrite H4. reflexivity. }
    rewrite E. change (o_cmd (set_dnlim (set_uplim o u) d)) with (o_cmd o). rewrite H2. change (beqb (B "swarm") (B "swarm")) with true. cbn iota. unfold CmdSwarm. rewrite H5. unfold Start. now rewrite launch_peers_map.
Qed.

Lemma main_swarm_fails uni sha1 n src fuel sp o w u d r w' : o_input o <> [] -> o_cmd o = B "swarm" -> parseSizeUnits uni (o_upstr o) = Ok u -> parseSizeUnits uni (o_dnstr o) = Ok d ->
  NewSwarm sha1 n src fuel sp (set_dnlim (set_uplim o u) d) w = (r, w') ->
  ((exists e, r = Err e) -> main uni sha1 n src fuel sp o w = (Exit 1, w')) /\ (r = Panic -> main uni sha1 n src fuel sp o w = (Crash, w')).
Proof.
  intros H1 H2 H3 H4 H5. assert (E : initOpts uni o = Ok (set_dnlim (set_uplim o u) d)).
  { unfold initOpts, ValidateOpts. cbn [set_dnlim set_uplim o_input o_cmd o_upstr o_dnstr o_wd o_port o_uplim o_dnlim].
    destruct (beqb (o_input o) []) eqn:E1; [apply beqb_eq in E1; contradiction|]. rewrite H2. change (beqb (B "swarm") (B "swarm") || beqb (B "swarm") (B "info")) with true. cbn [negb]. rewrite H3. cbn [set_dnlim set_uplim o_dnstr]. rewrite H4. reflexivity. }
  unfold main. rewrite E. change (o_cmd (set_dnlim (set_uplim o u) d)) with (o_cmd o). rewrite H2. change (beqb (B "swarm") (B "swarm")) with true. cbn iota. unfold CmdSwarm. rewrite H5.
  split; [intros [e ->]|intros ->]; reflexivity.
Qed.
Lemma main_info_status uni sha1 n src fuel sp o w u d : fs_wf w -> no_faults w -> o_input o <> [] -> o_cmd o = B "info" -> parseSizeUnits uni (o_upstr o) = Ok u -> parseSizeUnits uni (o_dnstr o) = Ok d ->
  fst (main uni sha1 n src fuel sp o w) =
    match file_at w (o_input o) with
    | None => Exit 1
    | Some c => match FromTorrentFile sha1 (mkslice c sp) (o_wd o) with Ok _ => Exit 0 | Err _ => Exit 1 | Panic => Crash | NoFuel => Hang end
    end.
Proof.
  intros Hwf Hnf H1 H2 H3 H4. assert (E : initOpts uni o = Ok (set_dnlim (set_uplim o u) d)).
  { unfold initOpts, ValidateOpts. cbn [set_dnlim set_uplim o_input o_cmd o_upstr o_dnstr o_wd o_port o_uplim o_dnlim].
    destruct (beqb (o_input o) []) eqn:E1; [apply beqb_eq in E1; contradiction|]. rewrite H2. change (beqb (B "info") (B "swarm") || beqb (B "info") (B "info")) with true. cbn [negb]. rewrite H3. cbn [set_dnlim set_uplim o_dnstr]. rewrite H4. reflexivity. }
  unfold main. rewrite E. change (o_cmd (set_dnlim (set_uplim o u) d)) with (o_cmd o). rewrite H2. change (beqb (B "info") (B "swarm")) with false. change (beqb (B "info") (B "info")) with true. cbn iota.
  unfold CmdTorInfo, iobind, lift. change (o_input (set_dnlim (set_uplim o u) d)) with (o_input o). change (o_wd (set_dnlim (set_uplim o u) d)) with (o_wd o).
  destruct (readfile_spec (o_input o) sp w Hwf) as (r & w1 & E1 & _ & _ & Hr). rewrite E1. destruct Hr as [(c & -> & Hc)|[(e & ->) Hx]].
  - rewrite Hc. destruct (FromTorrentFile _ _ _); reflexivity.
  - destruct (file_at w (o_input o)) as [c|]; [exfalso|reflexivity]. destruct Hx as [Hx|Hx]; [discriminate|contradiction].
Qed.
Lemma no_listen {C} (events : list (option C)) : runListener false events = ([], Panic).
Proof. reflexivity. Qed.
