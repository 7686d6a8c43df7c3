(** HostileStart.v: proofs for C104: starting a torrent with numbers below zero. *)
From Coq Require Import ZifyBool ZifyNat ZifyN.
From Verif Require Import Base BencodeModel BitfieldModel BitfieldSpec BitfieldProofs PathModel PathSpec LayoutModel LayoutSpec PieceMapProofs InfoSpec InfoProofs
  PptModel PeerModel UtilsModel UtilsSpec FsModel FsSpec FsProofs OcatProofs SwarmModel TrackerModel TrackerSpec StartModel StartSpec StartProofs PrintSpec PrintProofs.

Lemma iobind_ok {A C} (m : io A) (f : A -> io C) w c w' : iobind m f w = (Ok c, w') -> exists a w1, m w = (Ok a, w1) /\ f a w1 = (Ok c, w').
Proof. unfold iobind. destruct (m w) as [[a| | |] w1]; intros H; try discriminate. eauto. Qed.
Lemma syscall_inv {A} (b : io A) w a w' : syscall b w = (Ok a, w') -> exists w1, b w1 = (Ok a, w').
Proof. unfold syscall. intros H. destruct (iobind_ok _ _ _ _ _ H) as ([k|] & w1 & _ & E); [discriminate|]. eauto. Qed.
Lemma size_to_nonneg i L w j w' : size_to i L w = (Ok j, w') -> 0 <= L.
Proof.
  unfold size_to. intros H. destruct (iobind_ok _ _ _ _ _ H) as (c & w1 & E & H1). unfold os_size in E. destruct (syscall_inv _ _ _ _ E) as (w0 & E0).
  destruct (iobind_ok _ _ _ _ _ E0) as (x & w2 & _ & E1). unfold ret in E1. apply (f_equal fst) in E1. cbn [fst] in E1. apply Ok_inj in E1. pose proof (zlen_nonneg x).
  destruct (c =? L) eqn:Ea; [lia|]. destruct (L <? c) eqn:Eb; [|lia].
  destruct (iobind_ok _ _ _ _ _ H1) as (u & w3 & E2 & _). unfold os_truncate in E2. destruct (syscall_inv _ _ _ _ E2) as (w4 & E3). destruct (L <? 0) eqn:Ec; [discriminate|lia].
Qed.
Lemma create_nonneg p L w j w' : CreateZeroFilledFile p L w = (Ok j, w') -> 0 <= L.
Proof.
  unfold CreateZeroFilledFile. intros H. destruct (iobind_ok _ _ _ _ _ H) as (u & w1 & _ & H1). destruct (iobind_ok _ _ _ _ _ H1) as (i & w2 & _ & H2).
  destruct (iobind_ok _ _ _ _ _ H2) as (u2 & w3 & E & _). unfold AppendZeros in E. destruct (iobind_ok _ _ _ _ _ E) as (pos & w4 & _ & E1).
  destruct (Z_lt_dec L 0) as [Hn|]; [|lia]. replace (Z.to_nat (L / writeSize) + 2)%nat with (S (Z.to_nat (L / writeSize) + 1)) in E1 by lia.
  rewrite zeros_loop_negative in E1 by assumption. discriminate.
Qed.
Lemma OCAT_nonneg p L w w' : OCAT p L w = (Ok tt, w') -> 0 <= L.
Proof.
  unfold OCAT. intros H. destruct (iobind_ok _ _ _ _ _ H) as (i & w1 & E & _). rewrite utils_OCAT_eq in E.
  destruct (os_open p w) as [[a|e| |] w2]; try discriminate.
  - exact (size_to_nonneg _ _ _ _ _ E).
  - destruct (CreateZeroFilledFile p L w2) as [[a|e2| |] w3] eqn:E2; try discriminate. exact (create_nonneg _ _ _ _ _ E2).
Qed.
Lemma OCATAll_nonneg es : forall w w', OCATAll es w = (Ok tt, w') -> Forall (fun e => 0 <= en_len e) es.
Proof.
  induction es as [|e es IH]; intros w w' H; [constructor|]. cbn [OCATAll] in H. destruct (iobind_ok _ _ _ _ _ H) as ([] & w1 & E & H1). constructor; [exact (OCAT_nonneg _ _ _ _ E)|exact (IH _ _ H1)].
Qed.

Lemma started_nonneg sha1 n src fuel sp o w s w' : NewSwarm sha1 n src fuel sp o w = (Ok s, w') ->
  0 <= ti_plen (t_info (sw_tor s)) /\ Forall (fun e => 0 <= en_len e) (ti_files (t_info (sw_tor s))).
Proof.
  unfold NewSwarm. intros H. destruct (iobind_ok _ _ _ _ _ H) as (id & w1 & _ & H1). clear H. destruct (iobind_ok _ _ _ _ _ H1) as (fd & w2 & _ & H2). clear H1.
  destruct (iobind_ok _ _ _ _ _ H2) as (tor & w3 & _ & H3). clear H2. destruct (iobind_ok _ _ _ _ _ H3) as (u & w4 & _ & H4). clear H3.
  destruct (iobind_ok _ _ _ _ _ H4) as ([] & w5 & EO & H5). clear H4. destruct (iobind_ok _ _ _ _ _ H5) as (b0 & w6 & _ & H6). clear H5.
  destruct (iobind_ok _ _ _ _ _ H6) as (b & w7 & EV & H7). clear H6. destruct (iobind_ok _ _ _ _ _ H7) as (rs & w8 & _ & H8). clear H7.
  destruct (iobind_ok _ _ _ _ _ H8) as (t & w9 & _ & H9). clear H8. unfold ret in H9. apply (f_equal fst) in H9. cbn [fst] in H9. apply Ok_inj in H9. subst s. cbn [sw_tor]. split.
  - unfold Validate in EV. destruct (ti_plen (t_info tor) <? 0) eqn:E; [discriminate|lia].
  - exact (OCATAll_nonneg _ _ _ EO).
Qed.

(** A loaded torrent: its number of pieces is not negative. *)
Lemma loaded_npieces sha1 fd wd tor : FromTorrentFile sha1 fd wd = Ok tor -> 0 <= ti_npieces (t_info tor).
Proof.
  unfold FromTorrentFile. intros H. destruct (Decode fd) as [[| |d| |]| | |]; cbn [bind] in H; try discriminate. destruct (GetString d (B "announce")); cbn [bind] in H; try discriminate.
  destruct (GetDict d (B "info")) as [i| | |]; cbn [bind] in H; try discriminate. destruct (FromDict i wd) as [ti| | |] eqn:E; cbn [bind] in H; try discriminate. apply Ok_inj in H. subst tor. cbn [t_info].
  unfold FromDict in E. destruct (GetString i (B "name")); cbn [bind] in E; try discriminate. destruct (GetInt i (B "piece length")); cbn [bind] in E; try discriminate.
  destruct (GetString i (B "pieces")) as [hs| | |]; cbn [bind] in E; try discriminate. destruct (dict_entries i wd a0); cbn [bind] in E; try discriminate.
  unfold NewTorInfo in E. destruct (negb _); [discriminate|]. destruct (MakeFileList _ _); cbn [bind] in E; try discriminate. destruct (MakePieceMap _ _ _ _); cbn [bind] in E; try discriminate.
  apply Ok_inj in E. subst ti. cbn [ti_npieces]. unfold zlen. apply Z.div_pos; lia.
Qed.

Lemma below_zero_crashes sha1 n src fuel sp o w id c tor : NewPeerId src fuel = Ok id -> fs_wf w -> no_faults w -> file_at w (o_input o) = Some c ->
  FromTorrentFile sha1 (mkslice c sp) (o_wd o) = Ok tor -> ti_plen (t_info tor) < 0 -> NoDup (places w (map en_base (ti_files (t_info tor)))) ->
  Forall (fun e => 0 <= en_len e <= max64) (ti_files (t_info tor)) ->
  exists w' contents, NewSwarm sha1 n src fuel sp o w = (Panic, w') /\ 
    Forall2 (fun e c => file_at w' (eb_local (en_base e)) = Some c /\ resized (old_at w (eb_local (en_base e))) (en_len e) c) (ti_files (t_info tor)) contents.
Proof.
  intros Hid Hwf Hnf Hc Htor HP HND HL. unfold NewSwarm. rewrite Hid. unfold lift at 1, iobind at 1. unfold iobind at 1.
  destruct (readfile_spec (o_input o) sp w Hwf) as (r & w1 & E1 & Hds & Hn1 & Hr). rewrite E1. assert (Hcw1 : w_cwd w1 = w_cwd w) by apply Hds.
  destruct Hr as [(c' & -> & Hc')|[(e & ->) Hx]]; [|exfalso; destruct Hx; congruence]. assert (c' = c) by congruence. subst c'.
  unfold iobind at 1, lift at 1. rewrite Htor. unfold iobind at 1, NewFileIO. set (w2 := set_lfps w1 []).
  assert (Hwf2 : fs_wf w2) by (eapply disk_same_wf in Hwf; [|eassumption]; exact Hwf).
  assert (Hfile2 : forall p, file_at w2 p = file_at w p) by (intros p; etransitivity; [|apply (disk_same_file w w1 p Hds)]; reflexivity).
  destruct (OCATAll_spec (ti_files (t_info tor)) w2 Hwf2 (Hn1 Hnf)) as (inos & contents & w3 & E3 & Hwf3 & Hnf3 & Hfr & _ & Hpl & _ & Hct & Hrs & _).
  { change (w_cwd w2) with (w_cwd w1). rewrite Hcw1. unfold places in HND. rewrite map_map in HND. exact HND. }
  { exact HL. }
  unfold iobind at 1. rewrite E3. destruct (NewBitfield_inv _ (loaded_npieces _ _ _ _ Htor)) as (b0 & Hb0 & _). unfold iobind at 1, lift at 1. rewrite Hb0.
  unfold iobind at 1, Validate. replace (ti_plen (t_info tor) <? 0) with true by lia. exists w3, contents. split; [reflexivity|].
  destruct Hfr as [Hcw3 _]. revert Hpl Hct Hrs Hcw3 Hfile2. generalize w2, w3. clear. intros w2 w3 Hpl. revert contents.
  induction Hpl as [|e i es inos Hp Hpl IH]; intros contents Hct Hrs Hcw Hf; inversion Hct; subst; inversion Hrs; subst; constructor.
  - split; [unfold file_at; rewrite Hcw; unfold eplace in Hp; now rewrite Hp|]. unfold old_at in *. now rewrite <- Hf.
  - apply IH; assumption.
Qed.
Lemma below_zero_top sha1 n src fuel sp o w id c tor : NewPeerId src fuel = Ok id -> fs_wf w -> no_faults w -> file_at w (o_input o) = Some c ->
  FromTorrentFile sha1 (mkslice c sp) (o_wd o) = Ok tor -> ti_plen (t_info tor) < 0 -> NoDup (places w (map en_base (ti_files (t_info tor)))) ->
  Forall (fun e => 0 <= en_len e) (ti_files (t_info tor)) ->
  exists w' contents, NewSwarm sha1 n src fuel sp o w = (Panic, w') /\ 
    Forall2 (fun e c => file_at w' (eb_local (en_base e)) = Some c /\ resized (old_at w (eb_local (en_base e))) (en_len e) c) (ti_files (t_info tor)) contents.
Proof.
  intros Hid Hwf Hnf Hc Htor HP HND HL. apply (below_zero_crashes sha1 n src fuel sp o w id c tor); try assumption.
  destruct (loaded_int64 _ _ _ _ Htor) as (_ & _ & HI). revert HL HI. generalize (ti_files (t_info tor)). clear. intros es HL HI. apply Forall_forall. intros e He.
  rewrite Forall_forall in HL, HI. specialize (HL e He). specialize (HI e He). unfold in_i64, en_len in *. lia.
Qed.
