(** SafeProofs.v: no torrent reaches files it does not name. *)
From Coq Require Import ZifyBool ZifyNat ZifyN.
From Verif Require Import Base BencodeModel BencodeProofs BitfieldModel BitfieldSpec BitfieldProofs PathModel PathSpec LayoutModel LayoutSpec LayoutProofs InfoSpec InfoProofs
  PptModel PptSpec PptProofs PeerModel UtilsModel UtilsSpec UtilsProofs FsModel FsSpec FsProofs OcatProofs LifeSpec LifeProofs SwarmModel SwarmProofs TrackerModel TrackerSpec TrackerProofs
  StartModel StartSpec StartProofs HandshakeModel WireModel SessionModel RunModel RunSpec SafeSpec.

(** ** One file *)
(** From w to w' only the file at q changed, which is inode i. *)
Definition stays (q : list bytes) (i : nat) (w w' : world) : Prop := fs_wf w' /\ frame [q] w w' /\ pget q (w_names w') = Some i.
Lemma same_frame ps w w' : disk_same w w' -> frame ps w w'.
Proof. intros (A1 & A2 & A3 & A4). split; [assumption|]. intros q _. rewrite A2, A4. auto. Qed.
Lemma stays_same q i w w' : fs_wf w -> pget q (w_names w) = Some i -> disk_same w w' -> stays q i w w'.
Proof. intros Hwf Hq Hd. split; [eapply disk_same_wf; eassumption|]. split; [now apply same_frame|]. destruct Hd as (_ & E & _). now rewrite E. Qed.
Lemma stays_trans q i a b c : stays q i a b -> stays q i b c -> stays q i a c.
Proof. intros (A1 & A2 & A3) (B1 & B2 & B3). split; [assumption|]. split; [eapply frame_trans; eassumption|assumption]. Qed.
Lemma stays_put q i w c : fs_wf w -> pget q (w_names w) = Some i -> stays q i w (set_inos w (lupd (w_inos w) i c)).
Proof.
  intros Hwf Hq. split; [|split].
  - apply (fs_wf_same_names w); [reflexivity|cbn; apply lupd_length|assumption].
  - split; [reflexivity|]. intros q' Hq'. cbn [set_inos w_names w_inos]. split; [reflexivity|]. intros j Hj. apply lupd_nth_other. intros ->. apply Hq'. left. eapply fs_wf_inj; eauto.
  - exact Hq.
Qed.
Lemma fault_same w r w' : fault w = (r, w') -> disk_same w w' /\ exists f, r = Ok f.
Proof. rewrite fault_eq. intros E. inversion E; subst. split; [apply disk_same_drop|eauto]. Qed.

(** What a computation on inode i does: only to the file at q. *)
Definition tame {A} (q : list bytes) (i : nat) (m : io A) : Prop := forall w r w', fs_wf w -> pget q (w_names w) = Some i -> m w = (r, w') -> stays q i w w'.
Lemma tame_bind {A C} q i (m : io A) (f : A -> io C) : tame q i m -> (forall a, tame q i (f a)) -> tame q i (iobind m f).
Proof.
  intros Hm Hf w r w' Hwf Hq E. unfold iobind in E. destruct (m w) as [r1 w1] eqn:E1. pose proof (Hm _ _ _ Hwf Hq E1) as H1. destruct r1 as [a| | |]; try (inversion E; subst; exact H1).
  eapply stays_trans; [exact H1|]. destruct H1 as (B1 & B2 & B3). eapply Hf; eassumption.
Qed.
Lemma tame_lift {A} q i (r : res A) : tame q i (lift r).
Proof. intros w r' w' Hwf Hq E. inversion E; subst. apply stays_same; auto. apply disk_same_refl. Qed.
Lemma tame_ret {A} q i (a : A) : tame q i (ret a).
Proof. apply (tame_lift q i (Ok a)). Qed.
Lemma tame_fault q i : tame q i fault.
Proof. intros w r w' Hwf Hq E. apply stays_same; auto. now apply fault_same in E. Qed.
Lemma tame_syscall {A} q i (b : io A) : tame q i b -> tame q i (syscall b).
Proof. intros H. apply tame_bind; [apply tame_fault|]. intros [k|]; [apply tame_lift|exact H]. Qed.
Lemma tame_content q i j : tame q i (content j).
Proof. intros w r w' Hwf Hq E. inversion E; subst. apply stays_same; auto. apply disk_same_refl. Qed.
Lemma tame_put q i c : tame q i (put_content i c).
Proof. intros w r w' Hwf Hq E. inversion E; subst. now apply stays_put. Qed.
Ltac tame := repeat first [apply tame_syscall | apply tame_fault | apply tame_lift | apply tame_ret | apply tame_content | apply tame_put
  | match goal with |- tame _ _ (iobind _ _) => apply tame_bind; [|intros ?] | |- tame _ _ (match ?x with _ => _ end) => destruct x end ].
Lemma tame_write q i off d : tame q i (os_write i off d).
Proof. unfold os_write. tame. Qed.
Lemma tame_size q i : tame q i (os_size i).
Proof. unfold os_size. tame. Qed.
Lemma tame_truncate q i n : tame q i (os_truncate i n).
Proof. unfold os_truncate. tame. Qed.
Lemma tame_zeros q i : forall fuel pos n, tame q i (zeros_loop fuel i pos n).
Proof.
  induction fuel as [|f IH]; intros pos n; cbn [zeros_loop]; [apply tame_lift|]. destruct (n =? 0); [apply tame_ret|].
  destruct (writeSize <? n); [apply tame_bind; [apply tame_write|intros; apply IH]|]. destruct (n <? 0); [apply tame_lift|]. apply tame_bind; [apply tame_write|intros; apply IH].
Qed.
Lemma tame_append q i n : tame q i (AppendZeros i n).
Proof. unfold AppendZeros. apply tame_bind; [apply tame_size|]. intros. apply tame_zeros. Qed.

(** ** Opening by path *)
(** From w to w' at most the file at q changed; if an inode was returned it is the one at q. *)
Definition at_most (q : list bytes) (r : res nat) (w w' : world) : Prop := fs_wf w' /\ frame [q] w w' /\ forall i, r = Ok i -> pget q (w_names w') = Some i.
Lemma open_at p w r w' : fs_wf w -> os_open p w = (r, w') -> at_most (place (w_cwd w) p) r w w' /\ disk_same w w'.
Proof.
  intros Hwf E. unfold os_open, syscall, iobind in E. rewrite fault_eq in E. pose proof (disk_same_drop w) as Hd. pose proof (disk_same_wf _ _ Hd Hwf) as Hwf'.
  destruct (hd None (w_flt w)) as [k|].
  - inversion E; subst. split; [split; [assumption|split; [now apply same_frame|discriminate]]|assumption].
  - destruct Hd as (A1 & A2 & A3 & A4). destruct (pget (place (w_cwd (drop_fault w)) p) (w_names (drop_fault w))) as [i|] eqn:Ep; inversion E; subst.
    + split; [split; [assumption|split; [apply same_frame; repeat split; assumption|]]|repeat split; assumption]. intros j Hj. inversion Hj; subst. rewrite <- A1. exact Ep.
    + split; [split; [assumption|split; [apply same_frame; repeat split; assumption|discriminate]]|repeat split; assumption].
Qed.
Lemma create_at p w r w' : fs_wf w -> os_create p w = (r, w') -> at_most (place (w_cwd w) p) r w w'.
Proof.
  intros Hwf E. unfold os_create, syscall, iobind in E. rewrite fault_eq in E. pose proof (disk_same_drop w) as Hd. pose proof (disk_same_wf _ _ Hd Hwf) as Hwf'.
  pose proof (same_frame [place (w_cwd w) p] _ _ Hd) as Hfr. destruct Hd as (A1 & A2 & A3 & A4). set (w0 := drop_fault w) in *.
  destruct (hd None (w_flt w)) as [k|]; [inversion E; subst; split; [assumption|split; [assumption|discriminate]]|].
  destruct (pget (place (w_cwd w0) p) (w_names w0)) as [i|] eqn:Ep.
  - assert (Er : r = Ok i /\ w' = set_inos w0 (lupd (w_inos w0) i [])) by (inversion E; split; reflexivity). destruct Er as [-> ->]. rewrite A1 in Ep.
    destruct (stays_put _ i w0 [] Hwf' Ep) as (B1 & B2 & B3). split; [assumption|]. split; [exact (frame_trans _ _ _ _ Hfr B2)|]. intros j Hj. inversion Hj; subst. exact B3.
  - set (i := List.length (w_inos w0)) in *.
    assert (Er : r = Ok i /\ w' = FsModel.mkw (w_cwd w0) (w_names w0 ++ [(place (w_cwd w0) p, i)]) (w_inos w0 ++ [[]]) (w_flt w0) (w_lfps w0)) by (inversion E; split; reflexivity).
    destruct Er as [-> ->]. clear E. rewrite A1 in *. split; [|split].
    + destruct Hwf' as (H1 & H2 & H3). unfold fs_wf. cbn [w_names w_inos]. rewrite !map_app, app_length. cbn [map]. split; [|split].
      * apply nodup_snoc; [assumption|]. apply pget_none. exact Ep.
      * apply nodup_snoc; [assumption|]. intros Hin. apply in_map_iff in Hin. destruct Hin as ((q & j) & Hj & Hin). cbn [snd] in *. rewrite Forall_forall in H3. specialize (H3 _ Hin). cbn [snd] in H3. subst i j. lia.
      * apply Forall_app. split; [|constructor; [cbn; subst i; lia|constructor]]. eapply Forall_impl; [|exact H3]. cbn. intros; lia.
    + eapply frame_trans; [exact Hfr|]. split; [cbn [w_cwd]; congruence|]. intros q Hq. cbn [w_names w_inos]. split.
      * apply pget_app_other. intros ->. apply Hq. left. reflexivity.
      * intros j Hj. apply nth_error_app1. eapply fs_wf_bound; eauto.
    + intros j Hj. inversion Hj; subst. apply pget_app_new. assumption.
Qed.
Lemma at_most_then {A} q i w w1 (m : io A) r w2 : at_most q (Ok i) w w1 -> tame q i m -> m w1 = (r, w2) -> stays q i w w2.
Proof. intros (A1 & A2 & A3) Hm E. destruct (Hm _ _ _ A1 (A3 i eq_refl) E) as (B1 & B2 & B3). split; [assumption|]. split; [eapply frame_trans; eassumption|assumption]. Qed.
Lemma stays_at_most q i w w' r : stays q i w w' -> (forall j, r = Ok j -> j = i) -> at_most q r w w'.
Proof. intros (A1 & A2 & A3) H. split; [assumption|]. split; [assumption|]. intros j Hj. rewrite (H j Hj). exact A3. Qed.
Lemma at_most_bad q r r' w w' : at_most q r w w' -> (forall i, r' <> Ok i) -> at_most q r' w w'.
Proof. intros (A1 & A2 & A3) H. split; [assumption|]. split; [assumption|]. intros i Hi. now apply H in Hi. Qed.
Lemma at_most_after q r w0 w w' : frame [q] w0 w -> at_most q r w w' -> at_most q r w0 w'.
Proof. intros H (A1 & A2 & A3). split; [assumption|]. split; [eapply frame_trans; eassumption|assumption]. Qed.
Lemma fresh_at p n w r w' : fs_wf w -> CreateZeroFilledFile p n w = (r, w') -> at_most (place (w_cwd w) p) r w w'.
Proof.
  intros Hwf E. unfold CreateZeroFilledFile, iobind at 1 in E. unfold os_mkdirall, syscall, iobind at 1 in E. rewrite fault_eq in E.
  pose proof (disk_same_drop w) as Hd. pose proof (disk_same_wf _ _ Hd Hwf) as Hwf'. pose proof (same_frame [place (w_cwd w) p] _ _ Hd) as Hfr. destruct Hd as (A1 & _).
  destruct (hd None (w_flt w)) as [k|]; cbn [lift ret] in E; [inversion E; subst; split; [assumption|split; [assumption|discriminate]]|].
  apply (at_most_after _ _ _ _ _ Hfr). rewrite <- A1. set (w0 := drop_fault w) in *. unfold iobind at 1 in E. destruct (os_create p w0) as [r1 w1] eqn:E1. pose proof (create_at _ _ _ _ Hwf' E1) as H1.
  destruct r1 as [i| | |]; try (inversion E; subst; apply (at_most_bad _ _ _ _ _ H1); discriminate).
  unfold iobind in E. destruct (AppendZeros i n w1) as [r2 w2] eqn:E2. pose proof (at_most_then _ _ _ _ _ _ _ H1 (tame_append _ _ _) E2) as H2.
  apply (stays_at_most _ i); destruct r2; inversion E; subst; try exact H2; try discriminate. intros j Hj. now inversion Hj.
Qed.
Lemma utils_at p n w r w' : fs_wf w -> utils_OCAT p n w = (r, w') -> at_most (place (w_cwd w) p) r w w'.
Proof.
  intros Hwf E. unfold utils_OCAT in E. destruct (os_open p w) as [r0 w0] eqn:E0. destruct (open_at _ _ _ _ Hwf E0) as [H0 Hd].
  set (op := match r0 with Err _ => CreateZeroFilledFile p n w0 | _ => (r0, w0) end).
  assert (Hop : at_most (place (w_cwd w) p) (fst op) w (snd op)).
  { unfold op. destruct r0; try exact H0. destruct (CreateZeroFilledFile p n w0) as [r1 w1] eqn:E1. cbn [fst snd]. pose proof (disk_same_wf _ _ Hd Hwf) as Hwf0. pose proof (fresh_at _ _ _ _ _ Hwf0 E1) as H1.
    rewrite (proj1 Hd) in H1. eapply at_most_after; [|exact H1]. apply same_frame. assumption. }
  assert (E' : (match op with
           | (Ok i, w') => (run chkLen <- os_size i; if chkLen =? n then ret i else if n <? chkLen then run u <- os_truncate i n; ret i else run u <- AppendZeros i (sub64 n chkLen); ret i) w'
           | r => r end) = (r, w')) by (unfold op; destruct r0; exact E). clear E.
  destruct op as [[i| | |] w1]; cbn [fst snd] in Hop; try (inversion E'; subst; exact Hop).
  assert (Ht : tame (place (w_cwd w) p) i (run chkLen <- os_size i; if chkLen =? n then ret i else if n <? chkLen then run u <- os_truncate i n; ret i else run u <- AppendZeros i (sub64 n chkLen); ret i)).
  { apply tame_bind; [apply tame_size|]. intros len. destruct (len =? n); [apply tame_ret|]. destruct (n <? len); (apply tame_bind; [first [apply tame_truncate|apply tame_append]|intros; apply tame_ret]). }
  apply (stays_at_most _ i); [exact (at_most_then _ _ _ _ _ _ _ Hop Ht E')|]. intros j Hj. subst r. unfold iobind in E'. destruct (os_size i w1) as [[len| | |] w2]; try discriminate.
  destruct (len =? n); [now inversion E'|]. destruct (n <? len).
  - destruct (os_truncate i n w2) as [[?| | |] w3]; try discriminate. now inversion E'.
  - destruct (AppendZeros i (sub64 n len) w2) as [[?| | |] w3]; try discriminate. now inversion E'.
Qed.
Lemma OCATAll_at es : forall w r w', fs_wf w -> OCATAll es w = (r, w') -> fs_wf w' /\ frame (places w (map en_base es)) w w'.
Proof.
  induction es as [|e es IH]; intros w r w' Hwf E; cbn [OCATAll] in E; [inversion E; subst; split; [assumption|apply frame_refl]|].
  unfold iobind at 1 in E. unfold OCAT, iobind at 1 in E. destruct (utils_OCAT (eb_local (en_base e)) (en_len e) w) as [r1 w1] eqn:E1. pose proof (utils_at _ _ _ _ _ Hwf E1) as (A1 & A2 & _).
  assert (Hw : forall w2, frame [place (w_cwd w) (eb_local (en_base e))] w w2 -> frame (places w (map en_base (e :: es))) w w2).
  { intros w2. apply frame_weaken. intros q [<- |[]]. left. reflexivity. }
  destruct r1 as [i| | |]; try (inversion E; subst; split; [assumption|now apply Hw]).
  cbn [fst snd] in E. set (w2 := set_lfps w1 _) in E. assert (Hwf2 : fs_wf w2) by exact A1. destruct (IH w2 r w' Hwf2 E) as [B1 B2]. split; [assumption|].
  assert (Hc : w_cwd w2 = w_cwd w) by apply A2. eapply frame_trans; [apply Hw; exact A2|]. change (frame (places w (map en_base (e :: es))) w2 w').
  eapply frame_weaken; [|exact B2]. unfold places. rewrite Hc. intros q Hq. right. exact Hq.
Qed.

(** ** Reading changes nothing *)
Lemma ReadAt_same h n off w r w' : ReadAt h n off w = (r, w') -> disk_same w w'.
Proof.
  unfold ReadAt. destruct (off <? 0); [intros E; inversion E; subst; apply disk_same_refl|]. destruct (n <=? 0); [intros E; inversion E; subst; apply disk_same_refl|].
  destruct (negb (h_open h)); [intros E; inversion E; subst; apply disk_same_refl|]. unfold iobind. rewrite fault_eq. unfold content.
  destruct (hd None (w_flt w)); [intros E; inversion E; subst; apply disk_same_drop|]. destruct (_ <? n); intros E; inversion E; subst; apply disk_same_drop.
Qed.
Lemma read_same ti : forall locs buf off w r b w', read_locs_io ti locs buf off w = (r, b, w') -> disk_same w w'.
Proof.
  induction locs as [|l locs IH]; intros buf off w r b w' E; cbn [read_locs_io] in E; [inversion E; subst; apply disk_same_refl|].
  destruct (sslice buf off _); try (inversion E; subst; apply disk_same_refl). destruct (loc_path ti l) as [p| | |]; try (inversion E; subst; apply disk_same_refl).
  destruct (fio_read p _ _ w) as [r1 w1] eqn:E1. assert (H1 : disk_same w w1).
  { unfold fio_read in E1. destruct (aget p (w_lfps w)) as [h|]; [eapply ReadAt_same; exact E1|inversion E1; subst; apply disk_same_refl]. }
  destruct r1 as [[d [e|]]| | |]; try (inversion E; subst; exact H1). eapply disk_same_trans; [exact H1|]. eapply IH. exact E.
Qed.
Lemma ReadPiece_same ti i buf w r b w' : ReadPiece ti i buf w = (r, b, w') -> disk_same w w'.
Proof. unfold ReadPiece. destruct (PieceLookup ti i); intros E; try (inversion E; subst; apply disk_same_refl). eapply read_same. exact E. Qed.
Lemma validate_same sha1 ti : forall n i buf bf w r w', validate_loop sha1 ti n i buf bf w = (r, w') -> disk_same w w'.
Proof.
  induction n as [|n IH]; intros i buf bf w r w' E; cbn [validate_loop] in E; [inversion E; subst; apply disk_same_refl|].
  destruct (ReadPiece ti i buf w) as [[r1 b1] w1] eqn:E1. pose proof (ReadPiece_same _ _ _ _ _ _ _ E1) as H1. destruct r1; try (inversion E; subst; exact H1).
  match type of E with match ?m with _ => _ end = _ => destruct m end; try (inversion E; subst; exact H1). eapply disk_same_trans; [exact H1|]. eapply IH. exact E.
Qed.
Lemma Validate_same sha1 ti bf w r w' : Validate sha1 ti bf w = (r, w') -> disk_same w w'.
Proof. unfold Validate. destruct (ti_plen ti <? 0); [intros E; inversion E; subst; apply disk_same_refl|]. apply validate_same. Qed.

(** ** Starting *)
Lemma frame_same_after ps a b c : frame ps a b -> disk_same b c -> frame ps a c.
Proof. intros H1 H2. eapply frame_trans; [exact H1|]. now apply same_frame. Qed.
Lemma start_at sha1 n src fuel sp o w r w' : fs_wf w -> NewSwarm sha1 n src fuel sp o w = (r, w') -> fs_wf w' /\ elsewhere_same (named sha1 sp o w) w w'.
Proof.
  intros Hwf E. assert (H0 : forall ps w1, disk_same w w1 -> fs_wf w1 /\ elsewhere_same ps w w1) by (intros ps w1 Hd; split; [eapply disk_same_wf; eassumption|apply frame_elsewhere, same_frame, Hd]).
  unfold NewSwarm in E. unfold iobind at 1 in E. unfold lift at 1 in E. destruct (NewPeerId src fuel) as [id| | |]; try (inversion E; subst; apply H0, disk_same_refl).
  unfold iobind at 1 in E. destruct (readfile_spec (UtilsModel.o_input o) sp w Hwf) as (r1 & w1 & E1 & Hd1 & _ & Hr1). rewrite E1 in E.
  destruct Hr1 as [(c & -> & Hc)|[(e & ->) _]]; [|inversion E; subst; now apply H0].
  unfold iobind at 1 in E. unfold lift at 1 in E. unfold named. rewrite Hc. destruct (FromTorrentFile sha1 (mkslice c sp) (o_wd o)) as [tor| | |]; try (inversion E; subst; now apply H0).
  unfold iobind at 1, NewFileIO at 1 in E. set (w2 := set_lfps w1 []) in E. assert (Hwf2 : fs_wf w2) by exact (disk_same_wf _ _ Hd1 Hwf).
  unfold iobind at 1 in E. destruct (OCATAll (ti_files (t_info tor)) w2) as [r3 w3] eqn:E3. destruct (OCATAll_at _ _ _ _ Hwf2 E3) as [Hwf3 Hf3].
  assert (Hf : frame (places w (map en_base (ti_files (t_info tor)))) w w3).
  { assert (Hc2 : w_cwd w2 = w_cwd w) by apply Hd1. unfold places in *. rewrite Hc2 in Hf3. eapply frame_trans; [apply same_frame; exact Hd1|]. exact Hf3. }
  assert (Hend : forall w4, disk_same w3 w4 -> fs_wf w4 /\ elsewhere_same (places w (map en_base (ti_files (t_info tor)))) w w4).
  { intros w4 Hd4. split; [eapply disk_same_wf; eassumption|]. apply frame_elsewhere. eapply frame_same_after; eassumption. }
  destruct r3; try (inversion E; subst; apply Hend, disk_same_refl). unfold iobind at 1 in E. unfold lift at 1 in E. destruct (NewBitfield _) as [b0| | |]; try (inversion E; subst; apply Hend, disk_same_refl).
  unfold iobind at 1 in E. destruct (Validate sha1 (t_info tor) b0 w3) as [r4 w4] eqn:E4. pose proof (Validate_same _ _ _ _ _ _ E4) as Hd4. destruct r4; try (inversion E; subst; now apply Hend).
  cbv zeta in E. unfold iobind at 1 in E. unfold lift at 1 in E. destruct (tracker_Get _ _ _ _ _); try (inversion E; subst; now apply Hend).
  unfold iobind at 1 in E. unfold lift at 1 in E. destruct (NewPeerPieceTracker _); inversion E; subst; now apply Hend.
Qed.
(** ** The whole program *)
Lemma initOpts_named uni o o' sha1 sp w : initOpts uni o = Ok o' -> named sha1 sp o' w = named sha1 sp o w.
Proof. intros E. destruct (initOpts_fields _ _ _ E) as (F1 & F2 & F3 & _). unfold named. now rewrite F2, F3. Qed.
Lemma main_at uni sha1 n src fuel sp o w f w' : fs_wf w -> main uni sha1 n src fuel sp o w = (f, w') -> fs_wf w' /\ elsewhere_same (named sha1 sp o w) w w'.
Proof.
  intros Hwf E. unfold main in E. destruct (initOpts uni o) as [o'| | |] eqn:Eo; try (inversion E; subst; split; [assumption|apply frame_elsewhere, frame_refl]).
  rewrite <- (initOpts_named _ _ _ sha1 sp w Eo). destruct (beqb (o_cmd o') (B "swarm")).
  - unfold CmdSwarm in E. destruct (NewSwarm sha1 n src fuel sp o' w) as [r1 w1] eqn:E1. pose proof (start_at _ _ _ _ _ _ _ _ _ Hwf E1) as H. destruct r1; inversion E; subst; exact H.
  - assert (Hs : forall w1, disk_same w w1 -> fs_wf w1 /\ elsewhere_same (named sha1 sp o' w) w w1) by (intros w1 Hd; split; [eapply disk_same_wf; eassumption|apply frame_elsewhere, same_frame, Hd]).
    destruct (beqb (o_cmd o') (B "info")); [|inversion E; subst; apply Hs, disk_same_refl]. unfold CmdTorInfo, iobind, lift in E.
    destruct (readfile_spec (UtilsModel.o_input o') sp w Hwf) as (r1 & w1 & E1 & Hd1 & _ & Hr1). rewrite E1 in E.
    destruct Hr1 as [(c & -> & _)|[(e & ->) _]]; [|inversion E; subst; now apply Hs]. destruct (FromTorrentFile _ _ _); inversion E; subst; now apply Hs.
Qed.

(** ** Running *)
Lemma handleRequest_same ti bf i b l buf w r buf' w' : handleRequest ti bf i b l buf w = (r, buf', w') -> disk_same w w'.
Proof.
  unfold handleRequest. destruct (if Complete bf then Ok true else Get bf i) as [[]| | |]; try (intros E; inversion E; subst; apply disk_same_refl).
  destruct (ReadPiece ti i buf w) as [[r1 b1] w1] eqn:E1. pose proof (ReadPiece_same _ _ _ _ _ _ _ E1) as H. destruct r1; intros E; try (inversion E; subst; exact H).
  destruct (sslice _ _ _); inversion E; subst; exact H.
Qed.
Lemma handle_same c m s r out s' : handle_msg c m s = (r, out, s') -> disk_same (hs_world s) (hs_world s').
Proof.
  destruct m; cbn [handle_msg]; intros E; try (inversion E; subst; apply disk_same_refl).
  - destruct (handleBitfield _ _ _ _ _ _) as [[r1 t1] b1]. inversion E; subst. apply disk_same_refl.
  - match type of E with match ?h with _ => _ end = _ => destruct h as [[r1 b1] w1] eqn:E1 end. pose proof (handleRequest_same _ _ _ _ _ _ _ _ _ _ E1) as H. destruct r1; inversion E; subst; exact H.
Qed.
Lemma step_same c l s s' : sstep c l s = Went s' -> disk_same (ss_world s) (ss_world s').
Proof.
  assert (Hadd : forall r, add_conn s r = Went s' -> disk_same (ss_world s) (ss_world s')) by (intros [x| | |] E; inversion E; subst; apply disk_same_refl).
  destruct l as [p port r wr u|p u|k fuel b|k|k|k n|k|k n|k|k]; cbn [sstep]; intros E.
  - unfold accept_one in E. cbv zeta in E. destruct (in_peer _) as [id| | |]; try discriminate; [eapply Hadd; exact E|inversion E; subst; apply disk_same_refl].
  - eapply Hadd. exact E.
  - destruct (nth_error (ss_conns s) k) as [x|]; [|discriminate]. destruct (k_todo x); [|discriminate]. destruct (k_pend x); [|discriminate]. destruct (k_recv x); [|discriminate].
    unfold decode_one in E. destruct (DecodeAll fuel b) as [[ms rd]| | |]; inversion E; subst; apply disk_same_refl.
  - destruct (nth_error (ss_conns s) k) as [x|]; [|discriminate]. destruct (k_todo x) as [|m r]; [discriminate|]. destruct (k_pend x); [|discriminate]. destruct (k_recv x); [|discriminate].
    unfold handle_one in E. match type of E with match ?h with _ => _ end = _ => destruct h as [[r1 out] h1] eqn:E1 end. pose proof (handle_same _ _ _ _ _ _ E1) as H. cbn [hs_world] in H.
    destruct r1; inversion E; subst; exact H.
  - destruct (nth_error (ss_conns s) k) as [x|]; [|discriminate]. destruct (k_pend x); [discriminate|]. destruct (k_up x); inversion E; subst; apply disk_same_refl.
  - destruct (nth_error (ss_conns s) k) as [x|]; [|discriminate]. destruct (k_pend x); inversion E; subst; apply disk_same_refl.
  - destruct (nth_error (ss_conns s) k) as [x|]; [|discriminate]. destruct (k_up x); inversion E; subst; apply disk_same_refl.
  - destruct (nth_error (ss_conns s) k) as [x|]; inversion E; subst; apply disk_same_refl.
  - destruct (nth_error (ss_conns s) k) as [x|]; [|discriminate]. destruct (k_todo x); [|discriminate]. destruct (k_pend x); inversion E; subst; apply disk_same_refl.
  - destruct (nth_error (ss_conns s) k) as [x|]; [|discriminate]. destruct (Complete (sc_own c)); [discriminate|]. unfold next_one in E. destruct (NextPiece _ _ _) as [[[? ?] ?]| | |]; inversion E; subst; apply disk_same_refl.
Qed.
Lemma run_same c : forall ls s s', srun c ls s = Some s' -> disk_same (ss_world s) (ss_world s').
Proof.
  induction ls as [|l ls IH]; intros s s' E; cbn [srun] in E; [inversion E; subst; apply disk_same_refl|]. destruct (sstep c l s) as [| |s1] eqn:E1; try discriminate.
  eapply disk_same_trans; [eapply step_same; exact E1|]. now apply IH.
Qed.

(** ** Together *)
Lemma program_at uni sha1 n src fuel sp o w f w' c t ls s : fs_wf w -> main uni sha1 n src fuel sp o w = (f, w') -> srun c ls (mkss t w' []) = Some s ->
  forall q, ~ In (place (w_cwd w) q) (named sha1 sp o w) -> file_at (ss_world s) q = file_at w q.
Proof.
  intros Hwf E Er q Hq. rewrite (disk_same_file w' _ q) by exact (run_same _ _ _ _ Er). exact (proj2 (proj2 (main_at _ _ _ _ _ _ _ _ _ _ Hwf E)) q Hq).
Qed.
Lemma named_below sha1 sp o w q : benign sp o w -> In q (named sha1 sp o w) -> below (place (w_cwd w) (o_wd o)) q.
Proof.
  intros Hb Hin. unfold named in Hin. destruct (file_at w (UtilsModel.o_input o)) as [c|] eqn:Ec; [|destruct Hin]. specialize (Hb c).
  destruct (FromTorrentFile sha1 (mkslice c sp) (o_wd o)) as [tor| | |] eqn:Et; try destruct Hin. unfold FromTorrentFile in Et.
  destruct (Decode (mkslice c sp)) as [v| | |] eqn:Ed; try discriminate. cbn [bind] in Et. destruct v as [| |d| |]; try discriminate.
  destruct (GetString d (B "announce")) as [an| | |]; try discriminate. cbn [bind] in Et. destruct (GetDict d (B "info")) as [info| | |] eqn:Ei; try discriminate. cbn [bind] in Et.
  destruct (FromDict info (o_wd o)) as [ti| | |] eqn:Ef; try discriminate. cbn [bind] in Et. inversion Et; subst tor. cbn [t_info] in Hin. destruct (Hb d info Ec eq_refl Ei) as [Hp Hn].
  unfold places in Hin. rewrite map_map in Hin. apply in_map_iff in Hin. destruct Hin as (e & <- & Hin).
  assert (En : exists name, GetString info (B "name") = Ok name). { unfold FromDict in Ef. destruct (GetString info (B "name")) as [nm| | |]; try discriminate. eauto. }
  destruct En as [name En]. eapply files_contained; eauto.
Qed.
Lemma contained_at uni sha1 n src fuel sp o w f w' c t ls s : fs_wf w -> benign sp o w -> main uni sha1 n src fuel sp o w = (f, w') -> srun c ls (mkss t w' []) = Some s ->
  forall q, ~ below (place (w_cwd w) (o_wd o)) (place (w_cwd w) q) -> file_at (ss_world s) q = file_at w q.
Proof. intros Hwf Hb E Er q Hq. eapply program_at; try eassumption. intros Hin. apply Hq. eapply named_below; eassumption. Qed.

(** ** It does not hang *)
Definition ends_ok {A} (m : io A) : Prop := forall w w', m w <> (NoFuel, w').
Lemma ends_bind {A C} (m : io A) (f : A -> io C) : ends_ok m -> (forall a, ends_ok (f a)) -> ends_ok (iobind m f).
Proof. intros Hm Hf w w' E. unfold iobind in E. destruct (m w) as [[a| | |] w1] eqn:E1; try discriminate; [eapply Hf; exact E|eapply Hm; exact E1]. Qed.
Lemma ends_ret {A} (a : A) : ends_ok (ret a).
Proof. intros w w' E. discriminate. Qed.
Lemma ends_lift {A} (r : res A) : r <> NoFuel -> ends_ok (lift r).
Proof. intros H w w' E. apply H. now inversion E. Qed.
Lemma ends_fault : ends_ok fault.
Proof. intros w w' E. apply fault_same in E. destruct E as [_ [? ?]]. discriminate. Qed.
Lemma ends_syscall {A} (b : io A) : ends_ok b -> ends_ok (syscall b).
Proof. intros H. apply ends_bind; [apply ends_fault|]. intros [k|]; [apply ends_lift; discriminate|exact H]. Qed.
Lemma ends_content j : ends_ok (content j).
Proof. intros w w' E. discriminate. Qed.
Lemma ends_put i c : ends_ok (put_content i c).
Proof. intros w w' E. discriminate. Qed.
Lemma ends_write i off d : ends_ok (os_write i off d).
Proof. unfold os_write. apply ends_bind; [apply ends_fault|]. intros f. apply ends_bind; [apply ends_content|]. intros c. destruct f; [apply ends_bind; [apply ends_put|]; intros; apply ends_lift; discriminate|apply ends_put]. Qed.
Lemma ends_size i : ends_ok (os_size i).
Proof. apply ends_syscall, ends_bind; [apply ends_content|]. intros. apply ends_ret. Qed.
Lemma ends_truncate i n : ends_ok (os_truncate i n).
Proof. apply ends_syscall. destruct (n <? 0); [apply ends_lift; discriminate|]. apply ends_bind; [apply ends_content|]. intros. apply ends_put. Qed.
Lemma ends_zeros i : forall fuel pos n, (n <= 0 \/ (Z.to_nat (n / writeSize) + 2 <= fuel)%nat) -> (fuel <> 0)%nat -> ends_ok (zeros_loop fuel i pos n).
Proof.
  induction fuel as [|f IH]; intros pos n Hn Hf; [congruence|]. cbn [zeros_loop]. destruct (n =? 0) eqn:E0; [apply ends_ret|]. destruct (writeSize <? n) eqn:E1.
  - apply ends_bind; [apply ends_write|]. intros _. assert (Hd : n / writeSize = (n - writeSize) / writeSize + 1).
    { replace n with ((n - writeSize) + 1 * writeSize) at 1 by lia. apply Z.div_add. unfold writeSize. lia. }
    assert (0 <= (n - writeSize) / writeSize) by (apply Z.div_pos; unfold writeSize in *; lia).
    apply IH; [right; unfold writeSize in *; lia|unfold writeSize in *; lia].
  - destruct (n <? 0) eqn:E2; [apply ends_lift; discriminate|]. apply ends_bind; [apply ends_write|]. intros _. apply IH; [left; lia|].
    assert (0 <= n / writeSize) by (apply Z.div_pos; unfold writeSize in *; lia). lia.
Qed.
Lemma ends_append i n : ends_ok (AppendZeros i n).
Proof. unfold AppendZeros. apply ends_bind; [apply ends_size|]. intros pos. apply ends_zeros; [right; lia|lia]. Qed.
Lemma ends_open p : ends_ok (os_open p).
Proof. apply ends_syscall. intros w w' E. destruct (pget _ _); discriminate. Qed.
Lemma ends_create p : ends_ok (os_create p).
Proof. apply ends_syscall. intros w w' E. destruct (pget _ _); discriminate. Qed.
Lemma ends_fresh p n : ends_ok (CreateZeroFilledFile p n).
Proof. unfold CreateZeroFilledFile. apply ends_bind; [apply ends_syscall, ends_ret|]. intros _. apply ends_bind; [apply ends_create|]. intros i. apply ends_bind; [apply ends_append|]. intros. apply ends_ret. Qed.
Lemma ends_utils p n : ends_ok (utils_OCAT p n).
Proof.
  intros w w' E. unfold utils_OCAT in E. destruct (os_open p w) as [r0 w0] eqn:E0.
  assert (Hrest : forall i w1, (run chkLen <- os_size i; if chkLen =? n then ret i else if n <? chkLen then run u <- os_truncate i n; ret i else run u <- AppendZeros i (sub64 n chkLen); ret i) w1 <> (NoFuel, w')).
  { intros i w1. apply (ends_bind (os_size i)); [apply ends_size|]. intros len. destruct (len =? n); [apply ends_ret|]. destruct (n <? len); (apply ends_bind; [first [apply ends_truncate|apply ends_append]|intros; apply ends_ret]). }
  destruct r0 as [i|e| |]; try discriminate.
  - now apply Hrest in E.
  - destruct (CreateZeroFilledFile p n w0) as [[i| | |] w1] eqn:E1; try discriminate; [now apply Hrest in E|now apply ends_fresh in E1].
  - now apply ends_open in E0.
Qed.
Lemma ends_OCATAll es : ends_ok (OCATAll es).
Proof.
  induction es as [|e es IH]; cbn [OCATAll]; [apply ends_ret|]. apply ends_bind; [|intros; exact IH]. unfold OCAT. apply ends_bind; [apply ends_utils|]. intros i w w' E. discriminate.
Qed.
Lemma ends_read ti : forall locs buf off w b w', read_locs_io ti locs buf off w <> (NoFuel, b, w').
Proof.
  induction locs as [|l locs IH]; intros buf off w b w' E; cbn [read_locs_io] in E; [discriminate|].
  destruct (sslice buf off _); try discriminate. destruct (loc_path ti l) as [p| | |]; try discriminate.
  destruct (fio_read p _ _ w) as [r1 w1] eqn:E1. destruct r1 as [[d [e|]]| | |]; try discriminate; [eapply IH; exact E|].
  unfold fio_read in E1. destruct (aget p (w_lfps w)) as [h|]; [|discriminate]. unfold ReadAt in E1. destruct (_ <? 0); [discriminate|]. destruct (_ <=? 0); [discriminate|]. destruct (negb _); [discriminate|].
  unfold iobind in E1. rewrite fault_eq in E1. unfold content in E1. destruct (hd None (w_flt w)); [discriminate|]. destruct (_ <? _); discriminate.
Qed.
Lemma ends_validate sha1 ti : forall n i buf bf w w', validate_loop sha1 ti n i buf bf w <> (NoFuel, w').
Proof.
  induction n as [|n IH]; intros i buf bf w w' E; cbn [validate_loop] in E; [discriminate|].
  destruct (ReadPiece ti i buf w) as [[r1 b1] w1] eqn:E1. destruct r1; try discriminate.
  - unfold PieceHash in E. cbv zeta in E. destruct (_ && _ && _); [|discriminate]. cbn [bind] in E. unfold sslice in E. destruct (_ && _ && _); [|discriminate]. cbn [bind] in E.
    unfold SetBit in E. destruct (i <? 0); [discriminate|]. cbv zeta in E. destruct (nth_error _ _); [|discriminate].
    repeat match type of E with context [if ?c then _ else _] => destruct c end; try discriminate; eapply IH; exact E.
  - unfold ReadPiece in E1. unfold PieceLookup in E1. destruct (i <? 0); [discriminate|]. destruct (_ <=? i); [discriminate|]. destruct (nth_error _ _); [|discriminate]. now apply ends_read in E1.
Qed.
Lemma FromTorrentFile_ends sha1 d wd : FromTorrentFile sha1 d wd <> NoFuel.
Proof.
  unfold FromTorrentFile. destruct (Decode_total_wf d) as [(v & -> & _)|(e & ->)]; cbn [bind]; [|discriminate]. destruct v as [| |dict| |]; try discriminate.
  destruct (get_nofuel dict (B "announce")) as (H1 & _). destruct (GetString dict (B "announce")); cbn [bind]; try discriminate; try congruence.
  assert (H2 : GetDict dict (B "info") <> NoFuel) by (unfold GetDict, dict_get; destruct (dget (B "info") dict) as [[| [] | | |]|]; discriminate).
  destruct (GetDict dict (B "info")) as [i| | |]; cbn [bind]; try discriminate; try congruence. cbv zeta. pose proof (FromDict_terminates i wd) as H3. destruct (FromDict i wd); cbn [bind]; try discriminate; congruence.
Qed.
Lemma NewSwarm_ends sha1 n src fuel sp o : NewPeerId src fuel <> NoFuel -> ends_ok (NewSwarm sha1 n src fuel sp o).
Proof.
  intros H. unfold NewSwarm. apply ends_bind; [now apply ends_lift|]. intros id. apply ends_bind.
  { unfold os_readfile. apply ends_bind; [apply ends_open|]. intros i. apply ends_syscall, ends_bind; [apply ends_content|]. intros. apply ends_ret. }
  intros fd. apply ends_bind; [apply ends_lift, FromTorrentFile_ends|]. intros tor. apply ends_bind; [intros w w' E; discriminate|]. intros _. apply ends_bind; [apply ends_OCATAll|]. intros _.
  apply ends_bind; [apply ends_lift; unfold NewBitfield; cbv zeta; destruct (_ <? 0); discriminate|]. intros b0. apply ends_bind.
  { intros w w' E. unfold Validate in E. destruct (_ <? 0); [discriminate|]. now apply ends_validate in E. }
  intros b. cbv zeta. apply ends_bind. { apply ends_lift. destruct (tracker_Get_cases n tor (NewStats 0 0 0) (OptPort o) id) as [[_ ->]|(raw & _ & [(r & ->)|(e & ->)])]; discriminate. }
  intros resp. apply ends_bind; [|intros; apply ends_ret]. apply ends_lift. destruct (New_pinv (u32 (ti_npieces (t_info tor)))) as (t & -> & _); [|discriminate]. unfold u32. apply Z.mod_pos_bound. lia.
Qed.
Lemma main_ends uni sha1 n src fuel sp o w w' : NewPeerId src fuel <> NoFuel -> main uni sha1 n src fuel sp o w <> (Hang, w').
Proof.
  intros H E. unfold main in E. destruct (initOpts_cases uni o) as [(o' & E1)|E1]; rewrite E1 in E; [|discriminate]. destruct (beqb _ _).
  - unfold CmdSwarm in E. destruct (NewSwarm sha1 n src fuel sp o' w) as [[?| | |] w1] eqn:E2; try discriminate. eapply NewSwarm_ends; eassumption.
  - destruct (beqb _ _); [|discriminate]. unfold CmdTorInfo in E. destruct ((run fdata <- os_readfile _ sp; lift (FromTorrentFile sha1 fdata _)) w) as [[?| | |] w1] eqn:E2; try discriminate.
    revert E2. apply ends_bind; [|intros; apply ends_lift, FromTorrentFile_ends]. unfold os_readfile. apply ends_bind; [apply ends_open|]. intros i. apply ends_syscall, ends_bind; [apply ends_content|]. intros. apply ends_ret.
Qed.
