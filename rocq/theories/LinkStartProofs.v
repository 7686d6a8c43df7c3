(** LinkStartProofs.v: starting and running with symbolic links. *)
From Coq Require Import ZifyBool ZifyNat ZifyN.
From Verif Require Import Base BencodeModel BitfieldModel PathModel PathSpec PathProofs LayoutModel LayoutSpec FsModel FsSpec FsProofs OcatProofs PptModel UtilsModel SwarmModel TrackerModel
  StartModel StartSpec SessionModel RunModel SafeSpec LifeProofs StartProofs SafeProofs InfoSpec InfoProofs LinkModel LinkSpec LinkProofs LinkStartModel LinkStartSpec.

Lemma outside_refl W w : outside_same W w w.
Proof. intros q _. reflexivity. Qed.
Lemma outside_trans W a b c : outside_same W a b -> outside_same W b c -> outside_same W a c.
Proof. intros H1 H2 q Hq. rewrite H2, H1 by assumption. reflexivity. Qed.
Lemma disk_outside W w w' : disk_same w w' -> outside_same W w w'.
Proof. intros (A & C & D & G) q _. unfold file_in. rewrite ?C, ?D, ?G. reflexivity. Qed.

Lemma l_readfile_as L p p' sp w : real L (w_cwd w) p = Some (place (w_cwd w) p') -> l_readfile L p sp w = os_readfile p' sp w.
Proof. intros H. unfold l_readfile, os_readfile, iobind. now rewrite (l_open_as L p p' w H). Qed.
Lemma l_readfile_spec L p sp w : fs_wf w -> Forall plain_name (w_cwd w) -> exists r w', l_readfile L p sp w = (r, w') /\ disk_same w w' /\
  ((exists c, r = Ok (mkslice c sp) /\ l_file L w p = Some c) \/ exists e, r = Err e).
Proof.
  intros Hwf Hc. unfold l_file. destruct (real L (w_cwd w) p) as [q|] eqn:Hq.
  - pose proof (place_abs (w_cwd w) q (real_plain _ _ _ _ Hc Hq)) as Ha. rewrite (l_readfile_as L p (abs q)) by (rewrite Ha; exact Hq).
    destruct (readfile_spec (abs q) sp w Hwf) as (r & w' & E & D & _ & H). exists r, w'. split; [assumption|]. split; [assumption|].
    destruct H as [(c & -> & Hf)|[He _]]; [left; exists c|right; exact He]. split; [reflexivity|]. unfold file_at in Hf. rewrite Ha in Hf. exact Hf.
  - unfold l_readfile, l_open, syscall, iobind. rewrite fault_eq. pose proof (disk_same_drop w) as D.
    destruct (hd None (w_flt w)); [exists (Err EIO), (drop_fault w); split; [reflexivity|]; eauto|].
    rewrite (proj1 D), Hq. exists (Err EPath), (drop_fault w). split; [reflexivity|]. eauto.
Qed.

Lemma l_start_at L W sha1 n src fuel sp o w r w' : fs_wf w -> Forall plain_name (w_cwd w) -> l_benign L sp o w ->
  real L (w_cwd w) (Clean (o_wd o)) = Some W -> none_inside L W ->
  l_NewSwarm L sha1 n src fuel sp o w = (r, w') -> fs_wf w' /\ outside_same W w w'.
Proof.
  intros Hwf Hc Hb HW HL E. assert (H0 : forall w1, disk_same w w1 -> fs_wf w1 /\ outside_same W w w1) by (intros w1 Hd; split; [eapply disk_same_wf; eassumption|now apply disk_outside]).
  unfold l_NewSwarm in E. unfold iobind at 1 in E. unfold lift at 1 in E. destruct (NewPeerId src fuel) as [id| | |]; try (inversion E; subst; apply H0, disk_same_refl).
  unfold iobind at 1 in E. destruct (l_readfile_spec L (UtilsModel.o_input o) sp w Hwf Hc) as (r1 & w1 & E1 & Hd1 & Hr1). rewrite E1 in E.
  destruct Hr1 as [(c & -> & Hcc)|(e & ->)]; [|inversion E; subst; now apply H0].
  unfold iobind at 1 in E. unfold lift at 1 in E. destruct (FromTorrentFile sha1 (mkslice c sp) (o_wd o)) as [tor| | |] eqn:Et; try (inversion E; subst; now apply H0).
  unfold iobind at 1, NewFileIO at 1 in E. set (w2 := set_lfps w1 []) in E. assert (Hwf2 : fs_wf w2) by exact (disk_same_wf _ _ Hd1 Hwf).
  assert (Hc2 : w_cwd w2 = w_cwd w) by apply Hd1.
  unfold iobind at 1 in E. destruct (l_OCATAll L (ti_files (t_info tor)) w2) as [r3 w3] eqn:E3.
  assert (H3 : fs_wf w3 /\ outside_same W w2 w3).
  { unfold FromTorrentFile in Et. destruct (Decode (mkslice c sp)) as [v| | |] eqn:Ed; try discriminate. cbn [bind] in Et. destruct v as [| |d| |]; try discriminate.
    destruct (GetString d (B "announce")) as [an| | |]; try discriminate. cbn [bind] in Et. destruct (GetDict d (B "info")) as [info| | |] eqn:Ei; try discriminate. cbn [bind] in Et.
    destruct (FromDict info (o_wd o)) as [ti| | |] eqn:Ef; try discriminate. cbn [bind] in Et. inversion Et; subst tor. cbn [t_info] in E3. destruct (Hb c d info Hcc Ed Ei) as [Hp Hn].
    assert (En : exists name, GetString info (B "name") = Ok name) by (unfold FromDict in Ef; destruct (GetString info (B "name")) as [nm| | |]; try discriminate; eauto).
    destruct En as [name En].
    destruct (l_OCATAll_at L W (ti_files ti) w2 r3 w3) as (qs & A1 & A2 & A3); [now rewrite Hc2|assumption| |assumption|split; [assumption|exact (frame_outside _ _ _ _ A1 A3)]].
    intros e He. rewrite Hc2. eapply local_inside; eauto. }
  destruct H3 as [Hwf3 Ho3]. assert (Ho : outside_same W w w3) by (eapply outside_trans; [apply disk_outside; exact Hd1|exact Ho3]).
  assert (Hend : forall w4, disk_same w3 w4 -> fs_wf w4 /\ outside_same W w w4).
  { intros w4 Hd4. split; [eapply disk_same_wf; eassumption|]. eapply outside_trans; [exact Ho|now apply disk_outside]. }
  destruct r3; try (inversion E; subst; apply Hend, disk_same_refl). unfold iobind at 1 in E. unfold lift at 1 in E. destruct (NewBitfield _) as [b0| | |]; try (inversion E; subst; apply Hend, disk_same_refl).
  unfold iobind at 1 in E. destruct (Validate sha1 (t_info tor) b0 w3) as [r4 w4] eqn:E4. pose proof (Validate_same _ _ _ _ _ _ E4) as Hd4. destruct r4; try (inversion E; subst; now apply Hend).
  cbv zeta in E. unfold iobind at 1 in E. unfold lift at 1 in E. destruct (tracker_Get _ _ _ _ _); try (inversion E; subst; now apply Hend).
  unfold iobind at 1 in E. unfold lift at 1 in E. destruct (NewPeerPieceTracker _); inversion E; subst; now apply Hend.
Qed.
Lemma l_main_at L W uni sha1 n src fuel sp o w f w' : fs_wf w -> Forall plain_name (w_cwd w) -> l_benign L sp o w ->
  real L (w_cwd w) (Clean (o_wd o)) = Some W -> none_inside L W ->
  l_main L uni sha1 n src fuel sp o w = (f, w') -> fs_wf w' /\ outside_same W w w'.
Proof.
  intros Hwf Hc Hb HW HL E. unfold l_main in E. destruct (initOpts uni o) as [o'| | |] eqn:Eo; try (inversion E; subst; split; [assumption|apply outside_refl]).
  destruct (initOpts_fields _ _ _ Eo) as (_ & F2 & F3 & _).
  assert (Hb' : l_benign L sp o' w) by (unfold l_benign in *; rewrite F2; exact Hb). rewrite <- F3 in HW.
  assert (Hs : forall w1, disk_same w w1 -> fs_wf w1 /\ outside_same W w w1) by (intros w1 Hd; split; [eapply disk_same_wf; eassumption|now apply disk_outside]).
  destruct (beqb (o_cmd o') (B "swarm")).
  - unfold l_CmdSwarm in E. destruct (l_NewSwarm L sha1 n src fuel sp o' w) as [r1 w1] eqn:E1.
    pose proof (l_start_at _ _ _ _ _ _ _ _ _ _ _ Hwf Hc Hb' HW HL E1) as H. destruct r1; inversion E; subst; exact H.
  - destruct (beqb (o_cmd o') (B "info")); [|inversion E; subst; apply Hs, disk_same_refl]. unfold l_CmdTorInfo, iobind, lift in E.
    destruct (l_readfile_spec L (UtilsModel.o_input o') sp w Hwf Hc) as (r1 & w1 & E1 & Hd1 & Hr1). rewrite E1 in E.
    destruct Hr1 as [(c & -> & _)|(e & ->)]; [|inversion E; subst; now apply Hs]. destruct (FromTorrentFile _ _ _); inversion E; subst; now apply Hs.
Qed.
Lemma l_program_at L W uni sha1 n src fuel sp o w f w' c t ls s : fs_wf w -> Forall plain_name (w_cwd w) -> l_benign L sp o w ->
  real L (w_cwd w) (Clean (o_wd o)) = Some W -> none_inside L W ->
  l_main L uni sha1 n src fuel sp o w = (f, w') -> srun c ls (mkss t w' []) = Some s -> outside_same W w (ss_world s).
Proof.
  intros Hwf Hc Hb HW HL E Er. eapply outside_trans; [exact (proj2 (l_main_at _ _ _ _ _ _ _ _ _ _ _ _ Hwf Hc Hb HW HL E))|].
  apply disk_outside. exact (run_same _ _ _ _ Er).
Qed.

(** ** No link on the way *)
Lemma bind_same {A C} (m m' : io A) (f g : A -> io C) w : m w = m' w -> (forall a w1, m' w = (Ok a, w1) -> f a w1 = g a w1) -> iobind m f w = iobind m' g w.
Proof. intros H1 H2. unfold iobind. rewrite H1. destruct (m' w) as [[a| | |] w1]; [now apply H2|reflexivity..]. Qed.
Lemma l_start_same L sha1 n src fuel sp o w : fs_wf w -> real L (w_cwd w) (UtilsModel.o_input o) = Some (place (w_cwd w) (UtilsModel.o_input o)) ->
  (forall q, In q (named sha1 sp o w) -> clear_way L q) -> l_NewSwarm L sha1 n src fuel sp o w = NewSwarm sha1 n src fuel sp o w.
Proof.
  intros Hwf Hi Hq. unfold l_NewSwarm, NewSwarm. apply bind_same; [reflexivity|]. intros id w0 E0. injection E0 as E0 <-. 
  apply bind_same; [now apply l_readfile_as|]. intros fd w1 E1.
  destruct (readfile_spec (UtilsModel.o_input o) sp w Hwf) as (r1 & w1' & E1' & Hd1 & _ & Hr1). rewrite E1 in E1'. injection E1' as <- <-.
  destruct Hr1 as [(c & Ec & Hcc)|[(e & Ec) _]]; [|discriminate Ec]. apply Ok_inj in Ec. subst fd. unfold named in Hq. rewrite Hcc in Hq.
  apply bind_same; [reflexivity|]. intros tor w1' Et. injection Et as Et <-. rewrite Et in Hq.
  apply bind_same; [reflexivity|]. intros u w2 E2. injection E2 as _ <-. assert (Hwf2 : fs_wf (set_lfps w1 [])) by exact (disk_same_wf _ _ Hd1 Hwf).
  assert (Hc2 : w_cwd (set_lfps w1 []) = w_cwd w) by apply Hd1. apply bind_same; [|reflexivity].
  unfold FromTorrentFile in Et. destruct (Decode (mkslice c sp)) as [v| | |] eqn:Ed; try discriminate. cbn [bind] in Et. destruct v as [| |d| |]; try discriminate.
  destruct (GetString d (B "announce")) as [an| | |]; try discriminate. cbn [bind] in Et. destruct (GetDict d (B "info")) as [info| | |] eqn:Ei; try discriminate. cbn [bind] in Et.
  destruct (FromDict info (o_wd o)) as [ti| | |] eqn:Ef; try discriminate. cbn [bind] in Et. inversion Et; subst tor. cbn [t_info] in *.
  eapply links_elsewhere; [exact Ef|exact Hwf2|]. intros e He. apply Hq. unfold places. rewrite map_map. rewrite Hc2. apply in_map_iff. exists e. auto.
Qed.
Lemma l_main_same L uni sha1 n src fuel sp o w : fs_wf w -> real L (w_cwd w) (UtilsModel.o_input o) = Some (place (w_cwd w) (UtilsModel.o_input o)) ->
  (forall q, In q (named sha1 sp o w) -> clear_way L q) -> l_main L uni sha1 n src fuel sp o w = main uni sha1 n src fuel sp o w.
Proof.
  intros Hwf Hi Hq. unfold l_main, main. destruct (initOpts uni o) as [o'| | |] eqn:Eo; try reflexivity.
  destruct (initOpts_fields _ _ _ Eo) as (_ & F2 & F3 & _). rewrite <- F2 in Hi. rewrite <- (initOpts_named _ _ _ sha1 sp w Eo) in Hq.
  unfold l_CmdSwarm, CmdSwarm, l_CmdTorInfo, CmdTorInfo, iobind. rewrite l_start_same by assumption. rewrite (l_readfile_as L _ (UtilsModel.o_input o')) by exact Hi. reflexivity.
Qed.
