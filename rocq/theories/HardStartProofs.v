(** HardStartProofs.v: the program on a file system where files may have several names. *)
From Coq Require Import ZifyBool ZifyNat ZifyN.
From Verif Require Import Base BencodeModel BitfieldModel PathModel PathSpec PathProofs LayoutModel LayoutSpec FsModel FsSpec FsProofs OcatProofs PptModel UtilsModel SwarmModel TrackerModel
  StartModel StartSpec SessionModel RunModel SafeSpec LifeProofs StartProofs SafeProofs InfoSpec InfoProofs LinkModel LinkSpec LinkProofs LinkStartModel LinkStartSpec LinkStartProofs HardSpec HardProofs.

Lemma h_readfile_spec L p sp w : names_there w -> exists r w', l_readfile L p sp w = (r, w') /\ disk_same w w' /\
  ((exists c, r = Ok (mkslice c sp) /\ l_file L w p = Some c) \/ exists e, r = Err e).
Proof.
  intros Hw. destruct (l_readfile L p sp w) as [r w'] eqn:E. exists r, w'. split; [reflexivity|]. unfold l_readfile in E. unfold iobind at 1 in E.
  assert (F : forall f, disk_same w (mkw (w_cwd w) (w_names w) (w_inos w) f (w_lfps w))) by (intros f; repeat split).
  destruct (l_open L p w) as [r1 w1] eqn:E1. unfold l_open in E1. destruct (syscall_cases _ _ _ _ E1) as (f & [[-> ->]|K]); [injection E as <- <-; split; [apply F|eauto]|].
  cbn beta iota zeta delta [w_cwd w_names w_inos w_flt w_lfps] in K. unfold l_file. destruct (real L (w_cwd w) p) as [q|]; [|injection K as <- <-; injection E as <- <-; split; [apply F|eauto]].
  unfold file_in. match type of K with context [@pget ?A ?a ?b] => destruct (@pget A a b) as [i|] eqn:Ei end; injection K as <- <-; [|injection E as <- <-; split; [apply F|eauto]].
  destruct (syscall_cases _ _ _ _ E) as (f' & [[-> ->]|K]); cbn [w_cwd w_names w_inos w_flt w_lfps] in *; [split; [apply F|eauto]|].
  unfold iobind, content, ret in K. injection K as <- <-. split; [apply F|]. left. exists (nth i (w_inos w) []). split; [reflexivity|].
  apply nth_error_nth'. exact (Hw q i Ei).
Qed.
Lemma h_start_at L W sha1 n src fuel sp o w r w' : names_there w -> not_shared W w -> l_benign L sp o w ->
  real L (w_cwd w) (Clean (o_wd o)) = Some W -> none_inside L W ->
  l_NewSwarm L sha1 n src fuel sp o w = (r, w') -> outside_same W w w'.
Proof.
  intros Hwf Hc Hb HW HL E. assert (H0 : forall w1, disk_same w w1 -> outside_same W w w1) by (intros w1 Hd; now apply disk_outside).
  unfold l_NewSwarm in E. unfold iobind at 1 in E. unfold lift at 1 in E. destruct (NewPeerId src fuel) as [id| | |]; try (inversion E; subst; apply H0, disk_same_refl).
  unfold iobind at 1 in E. destruct (h_readfile_spec L (UtilsModel.o_input o) sp w Hwf) as (r1 & w1 & E1 & Hd1 & Hr1). rewrite E1 in E.
  destruct Hr1 as [(c & -> & Hcc)|(e & ->)]; [|inversion E; subst; now apply H0].
  unfold iobind at 1 in E. unfold lift at 1 in E. destruct (FromTorrentFile sha1 (mkslice c sp) (o_wd o)) as [tor| | |] eqn:Et; try (inversion E; subst; now apply H0).
  unfold iobind at 1, NewFileIO at 1 in E. set (w2 := set_lfps w1 []) in E. assert (Hwf2 : names_there w2) by (unfold names_there; cbn; destruct Hd1 as (_ & -> & _ & ->); exact Hwf).
  assert (Hs2 : not_shared W w2) by (unfold not_shared, names in *; cbn; destruct Hd1 as (_ & -> & _); exact Hc).
  assert (Hc2 : w_cwd w2 = w_cwd w) by apply Hd1.
  unfold iobind at 1 in E. destruct (l_OCATAll L (ti_files (t_info tor)) w2) as [r3 w3] eqn:E3.
  assert (Ho3 : outside_same W w2 w3).
  { unfold FromTorrentFile in Et. destruct (Decode (mkslice c sp)) as [v| | |] eqn:Ed; try discriminate. cbn [bind] in Et. destruct v as [| |d| |]; try discriminate.
    destruct (GetString d (B "announce")) as [an| | |]; try discriminate. cbn [bind] in Et. destruct (GetDict d (B "info")) as [info| | |] eqn:Ei; try discriminate. cbn [bind] in Et.
    destruct (FromDict info (o_wd o)) as [ti| | |] eqn:Ef; try discriminate. cbn [bind] in Et. inversion Et; subst tor. cbn [t_info] in E3. destruct (Hb c d info Hcc Ed Ei) as [Hp Hn].
    assert (En : exists name, GetString info (B "name") = Ok name) by (unfold FromDict in Ef; destruct (GetString info (B "name")) as [nm| | |]; try discriminate; eauto).
    destruct En as [name En].
    refine (hard_outside info (o_wd o) name L W ti w2 r3 w3 Ef En (Hn name En) Hp _ HL Hwf2 Hs2 E3). rewrite Hc2. exact HW. }
  assert (Ho : outside_same W w w3) by (eapply outside_trans; [apply disk_outside; exact Hd1|exact Ho3]).
  assert (Hend : forall w4, disk_same w3 w4 -> outside_same W w w4).
  { intros w4 Hd4. eapply outside_trans; [exact Ho|now apply disk_outside]. }
  destruct r3; try (inversion E; subst; apply Hend, disk_same_refl). unfold iobind at 1 in E. unfold lift at 1 in E. destruct (NewBitfield _) as [b0| | |]; try (inversion E; subst; apply Hend, disk_same_refl).
  unfold iobind at 1 in E. destruct (Validate sha1 (t_info tor) b0 w3) as [r4 w4] eqn:E4. pose proof (Validate_same _ _ _ _ _ _ E4) as Hd4. destruct r4; try (inversion E; subst; now apply Hend).
  cbv zeta in E. unfold iobind at 1 in E. unfold lift at 1 in E. destruct (tracker_Get _ _ _ _ _); try (inversion E; subst; now apply Hend).
  unfold iobind at 1 in E. unfold lift at 1 in E. destruct (NewPeerPieceTracker _); inversion E; subst; now apply Hend.
Qed.
Lemma h_main_at L W uni sha1 n src fuel sp o w f w' : names_there w -> not_shared W w -> l_benign L sp o w ->
  real L (w_cwd w) (Clean (o_wd o)) = Some W -> none_inside L W ->
  l_main L uni sha1 n src fuel sp o w = (f, w') -> outside_same W w w'.
Proof.
  intros Hwf Hc Hb HW HL E. unfold l_main in E. destruct (initOpts uni o) as [o'| | |] eqn:Eo; try (inversion E; subst; apply outside_refl).
  destruct (initOpts_fields _ _ _ Eo) as (_ & F2 & F3 & _).
  assert (Hb' : l_benign L sp o' w) by (unfold l_benign in *; rewrite F2; exact Hb). rewrite <- F3 in HW.
  assert (Hs : forall w1, disk_same w w1 -> outside_same W w w1) by (intros w1 Hd; now apply disk_outside).
  destruct (beqb (o_cmd o') (B "swarm")).
  - unfold l_CmdSwarm in E. destruct (l_NewSwarm L sha1 n src fuel sp o' w) as [r1 w1] eqn:E1.
    pose proof (h_start_at _ _ _ _ _ _ _ _ _ _ _ Hwf Hc Hb' HW HL E1) as H. destruct r1; inversion E; subst; exact H.
  - destruct (beqb (o_cmd o') (B "info")); [|inversion E; subst; apply Hs, disk_same_refl]. unfold l_CmdTorInfo, iobind, lift in E.
    destruct (h_readfile_spec L (UtilsModel.o_input o') sp w Hwf) as (r1 & w1 & E1 & Hd1 & Hr1). rewrite E1 in E.
    destruct Hr1 as [(c & -> & _)|(e & ->)]; [|inversion E; subst; now apply Hs]. destruct (FromTorrentFile _ _ _); inversion E; subst; now apply Hs.
Qed.
Lemma h_program_at L W uni sha1 n src fuel sp o w f w' c t ls s : names_there w -> not_shared W w -> l_benign L sp o w ->
  real L (w_cwd w) (Clean (o_wd o)) = Some W -> none_inside L W ->
  l_main L uni sha1 n src fuel sp o w = (f, w') -> srun c ls (mkss t w' []) = Some s -> outside_same W w (ss_world s).
Proof.
  intros Hwf Hc Hb HW HL E Er. eapply outside_trans; [exact (h_main_at _ _ _ _ _ _ _ _ _ _ _ _ Hwf Hc Hb HW HL E)|].
  apply disk_outside. exact (run_same _ _ _ _ Er).
Qed.

