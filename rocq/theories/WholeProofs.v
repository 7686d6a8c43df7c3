(** WholeProofs.v: from the command line to the wire. *)
From Coq Require Import ZifyBool ZifyNat ZifyN.
From Verif Require TrackerProofs.
From Verif Require Import Base TrackerModel BencodeModel BitfieldModel BitfieldSpec WireModel WireSpec HandshakeModel HandshakeSpec HandshakeProofs LayoutModel LayoutSpec LayoutProofs InfoSpec InfoProofs PptModel PeerModel UtilsModel UtilsSpec UtilsProofs FlagModel FlagSpec FlagProofs.
From Verif Require Import PathModel PathSpec FsModel FsSpec SwarmModel StartModel StartSpec StartProofs SessionModel SessionSpec RunModel RunSpec RunProofs RunStartProofs ProcModel ProcSpec ProcLiveProofs ProcSockProofs LoadSpec LoadProofs WholeSpec NewcomerProofs.

Lemma comes_live sw socks w1 s n : NewPeerPieceTracker n = Ok (sw_ppt sw) -> comes_to sw socks w1 s -> live n (process_of sw socks) w1 (sw_peers sw) s.
Proof. intros Ht (ls & Hf & Hr). exists (sw_ppt sw), ls. auto. Qed.
Lemma lies_unique wd info name f q q' : lies wd info name f q -> lies wd info name f q' -> q = q'.
Proof. intros [[(n & H) ->]|[H ->]] [[(n' & H') ->]|[H' ->]]; try reflexivity; exfalso; [exact (H' _ H)|exact (H _ H')]. Qed.
Lemma lies_all wd info name fs qs qs' : Forall2 (lies wd info name) fs qs -> Forall2 (lies wd info name) fs qs' -> qs = qs'.
Proof. intros H. revert qs'. induction H as [|f q fs qs Hq _ IH]; intros qs' H'; inversion H'; subst; [reflexivity|]. f_equal; [eapply lies_unique; eassumption|auto]. Qed.

(** What the loaded torrent is made of. *)
Definition bases (tor : torrent) : list ebase := map en_base (ti_files (t_info tor)).
Lemma loaded_made sha1 data sp wd tor announce ih name P hashes fs qs :
  describes sha1 data wd announce ih name P hashes fs qs -> sane P (map snd fs) -> zlen hashes < big -> FromTorrentFile sha1 (mkslice data sp) wd = Ok tor ->
  made P hashes (bases tor) (t_info tor) /\ lens_of (bases tor) = map snd fs /\ map eb_local (bases tor) = qs /\ t_infohash tor = ih /\ t_announce tor = announce.
Proof.
  intros (info & Hh & HL & Hq & ->) HS HB HT.
  destruct (load_described sha1 data sp wd announce info name P hashes fs Hh HL HS) as (D1 & D2 & D3 & D4).
  assert (HW : whole_hashes hashes). { destruct (Z.eq_dec (zlen hashes mod 20) 0) as [E|E]; [exact E|]. destruct (D2 E) as [e He]. congruence. }
  assert (HE : enough P hashes fs).
  { destruct (Z_le_dec (zsum (map snd fs)) (zlen hashes / 20 * P)) as [E|E]; [exact E|]. exfalso. assert (HN : ~ ends_with_file P hashes fs) by (intros X; destruct (D3 HW E X) as [e He]; congruence).
    rewrite (D4 HW E HN) in HT. discriminate. }
  destruct (D1 HW HE) as (tor' & HT' & (S1 & S2 & S3 & S4 & S5) & K1 & K2). rewrite HT in HT'. injection HT' as <-.
  assert (EL : lens_of (bases tor) = map snd fs) by (unfold lens_of, bases; rewrite map_map, <- S5, map_map; reflexivity).
  split; [|split; [exact EL|split; [|split; [exact K2|exact S1]]]].
  - split; [now rewrite EL|]. split; [exact HB|]. exists name.
    destruct (header_found data sp _ _ _ _ _ Hh) as (w & info' & HD & Hg & Hf). rewrite (found_Load sha1 _ _ _ _ _ _ _ _ wd HD Hf) in HT.
    destruct (dict_entries info' wd name) as [fes| | |] eqn:Ed; cbn [bind] in HT; try discriminate. destruct (NewTorInfo name P hashes fes) as [ti| | |] eqn:Et; cbn [bind] in HT; try discriminate. injection HT as <-.
    cbn [t_info bases]. unfold bases. cbn [t_info]. destruct (NewTorInfo_fields _ _ _ _ _ Et) as (_ & _ & _ & _ & D & _). rewrite D. exact Et.
  - unfold bases. rewrite map_map. exact (lies_all _ _ _ _ _ _ K1 Hq).
Qed.
Lemma NewSwarm_id sha1 n src fuel sp o w s w' : NewSwarm sha1 n src fuel sp o w = (Ok s, w') -> exists id, NewPeerId src fuel = Ok id.
Proof. intros H. unfold NewSwarm, iobind at 1, lift at 1 in H. destruct (NewPeerId src fuel); try discriminate. eauto. Qed.
Lemma NewSwarm_tor sha1 n src fuel sp o w s w' data : NewSwarm sha1 n src fuel sp o w = (Ok s, w') -> fs_wf w -> file_at w (o_input o) = Some data -> exists tor, FromTorrentFile sha1 (mkslice data sp) (o_wd o) = Ok tor.
Proof.
  intros H Hwf Hd. unfold NewSwarm in H. unfold iobind at 1, lift at 1 in H. destruct (NewPeerId src fuel); try discriminate. unfold iobind at 1 in H.
  destruct (readfile_spec (o_input o) sp w Hwf) as (r & w1 & E1 & _ & _ & Hr). rewrite E1 in H. destruct Hr as [(c & -> & Hc)|[(e & ->) _]]; [|discriminate].
  assert (c = data) by congruence. subst c. unfold iobind at 1, lift at 1 in H. destruct (FromTorrentFile sha1 (mkslice data sp) (o_wd o)) as [tor| | |]; try discriminate. eauto.
Qed.
Lemma id_20 src fuel id : NewPeerId src fuel = Ok id -> List.length id = 20%nat.
Proof. intros H. destruct (NewPeerId_sound _ _ _ H) as (_ & _ & _ & _ & E & _). unfold zlen in E. lia. Qed.
Lemma sized_disk w w' files contents : Forall2 (sized w w') files contents -> on_disk w' (map eb_local files) contents /\ map zlen contents = lens_of files.
Proof. induction 1 as [|f c files contents (H1 & H2 & _) _ [I1 I2]]; [split; [constructor|reflexivity]|]. split; [constructor; assumption|]. cbn [map]. unfold lens_of in *. cbn [map]. congruence. Qed.

Lemma on_disk_unique w qs c c' : on_disk w qs c -> on_disk w qs c' -> c = c'.
Proof. intros H. revert c'. induction H as [|q x qs c Hq _ IH]; intros c' H'; inversion H'; subst; [reflexivity|]. f_equal; [congruence|auto]. Qed.
Lemma ordinary_big P hashes fs : ordinary P hashes fs -> zlen hashes < big.
Proof. intros (_ & _ & H). unfold big. Z.div_mod_to_equations. lia. Qed.
Lemma places_place w files : places w files = map (PathSpec.place (w_cwd w)) (map eb_local files).
Proof. unfold places. now rewrite map_map. Qed.

(** A swarm made from the described torrent. *)
Lemma whole_core sha1 n src fuel sp o w data announce ih name P hashes fs qs sw w1 :
  fs_wf w -> file_at w (o_input o) = Some data -> describes sha1 data (o_wd o) announce ih name P hashes fs qs -> ordinary P hashes fs ->
  NoDup (map (PathSpec.place (w_cwd w)) qs) -> NewSwarm sha1 n src fuel sp o w = (Ok sw, w1) ->
  exists files contents, lens_of files = map snd fs /\ map eb_local files = qs /\ t_infohash (sw_tor sw) = ih /\ List.length (sw_id sw) = 20%nat /\
    swarm_up P hashes files (pc_c (process_of sw 0)) contents w1 /\ NewPeerPieceTracker (zlen hashes / 20) = Ok (sw_ppt sw) /\
    right_bits sha1 P hashes contents (sw_bf sw) /\ Forall2 (sized w w1) files contents /\ (no_faults w -> no_faults w1) /\ sw_wrate sw = Z.max (-1) (o_uplim o).
Proof.
  intros Hwf Hd Hdesc Hord HND E. destruct (NewSwarm_id _ _ _ _ _ _ _ _ _ E) as (id & Hid). destruct (NewSwarm_tor _ _ _ _ _ _ _ _ _ _ E Hwf Hd) as (tor & HT).
  pose proof Hord as (HS & HP & HN). destruct (loaded_made _ _ _ _ _ _ _ _ _ _ _ _ Hdesc HS (ordinary_big _ _ _ Hord) HT) as (Hm & H1 & H2 & H3 & _).
  rewrite <- H2, <- places_place in HND.
  destruct (NewSwarm_any sha1 n src fuel sp o w id data tor P hashes (bases tor) Hid Hwf Hd HT Hm HND ltac:(lia)) as (r & w' & E1 & _ & _ & Hnf & Hr).
  rewrite E in E1. injection E1 as <- <-.
  destruct Hr as [(s & contents & resp & Es & _ & Ho & Hsz & _ & Hb & Hi & _ & Ht & _ & _ & _ & Hwr & _ & Hppt)|[[(e & He) _]|(_ & [(e & _ & He)|[_ He]])]]; try discriminate.
  injection Es as <-. exists (bases tor), contents. split; [exact H1|]. split; [exact H2|]. split; [congruence|]. split; [rewrite Hi; eapply id_20; eassumption|].
  split; [|auto 10]. apply (right_bits_up sha1); cbn [process_of pc_c sc_ti sc_own]; rewrite ?Ht; assumption.
Qed.
Lemma Forall2_weak {A B} (R R' : A -> B -> Prop) l l' : (forall a b, R a b -> R' a b) -> Forall2 R l l' -> Forall2 R' l l'.
Proof. induction 2; constructor; auto. Qed.
Lemma sizes_kept w w1 files contents : Forall2 (sized w w1) files contents -> forall w', disk_same w1 w' -> on_disk w' (map eb_local files) contents.
Proof. intros H w' Hs. apply sized_disk in H. destruct H as [H _]. unfold on_disk in *. eapply Forall2_weak; [|exact H]. cbn. intros q c Hq. rewrite <- Hq. now apply disk_same_file. Qed.
Lemma core_disk P hashes files sw contents w1 socks s : swarm_up P hashes files (pc_c (process_of sw 0)) contents w1 -> NewPeerPieceTracker (zlen hashes / 20) = Ok (sw_ppt sw) -> comes_to sw socks w1 s ->
  disk_same w1 (sh_world (p_sh s)).
Proof.
  intros Hu Ht Hc. destruct (live_view _ _ _ _ _ (comes_live _ _ _ _ _ Ht Hc)) as (ls & Hr & _). exact (proj1 (reach_world P hashes files _ contents w1 ls _ Hu Hr)).
Qed.
Lemma core_said sha1 P hashes files sw contents w1 socks s g : (forall b, List.length (sha1 b) = 20%nat) -> List.length (t_infohash (sw_tor sw)) = 20%nat -> List.length (sw_id sw) = 20%nat -> swarm_up P hashes files (pc_c (process_of sw 0)) contents w1 ->
  NewPeerPieceTracker (zlen hashes / 20) = Ok (sw_ppt sw) -> right_bits sha1 P hashes contents (sw_bf sw) -> comes_to sw socks w1 s -> In g (p_conns s) ->
  exists ms, Forall (proven sha1 P (zsum (lens_of files)) hashes contents) ms /\ begins (m_out (g_m g)) (greeting sw (t_infohash (sw_tor sw)) (m_in (g_m g)) ++ stream ms).
Proof.
  intros Hsha Hih Hid Hu Ht Hb Hc Hin. destruct (live_lawful P hashes files (process_of sw socks) contents w1 (sw_peers sw) s g Hu (comes_live _ _ _ _ _ Ht Hc) Hin) as (ms & ps & reqs & late & H1 & H2 & _).
  exists ms. cbn [process_of pc_c sc_ti sc_own sc_ih sc_id] in *. split.
  - apply Forall_app in H1. eapply Forall_impl; [|apply H1].
    intros m [->|(i & b & blk & -> & G1 & G2 & _ & _ & G3)]; [left; reflexivity|right]. exists i, b, blk. split; [reflexivity|]. split; [exact G1|]. split; [|exact G3].
    destruct Hb as (_ & _ & _ & _ & Hbits & Hcomp). destruct G2 as [G2|G2]; [apply (proj1 Hcomp G2); exact G1|].
    destruct (Hbits i G1) as (v & Hv & Hiff). apply Hiff. congruence.
  - rewrite MakeHandshake_fields in H2 by assumption. unfold greeting. unfold opening in H2. cbn [conn_view k_out k_in] in H2.
    rewrite stream_app in H2. rewrite <- app_assoc. exact H2.
Qed.

Lemma commanded_runs uni sha1 n src fuel sp args o w sw gl w1 : commanded args o -> gotor uni sha1 n src fuel sp args w = (Running sw gl, w1) ->
  exists u d, NewSwarm sha1 n src fuel sp (set_dnlim (set_uplim o u) d) w = (Ok sw, w1) /\ parseSizeUnits uni (o_upstr o) = Ok u /\ gl = GListener :: GLimiter :: map GPeer (sw_peers sw).
Proof.
  intros (a & ss & rest & -> & H1 & H2 & H3 & H4) H. rewrite (gotor_means _ _ _ _ _ _ _ _ _ _ _ H1 H2 H3 H4) in H. apply main_swarm in H.
  destruct H as (u & d & _ & _ & Hu & _ & H & Hl). exists u, d. auto.
Qed.

Lemma whole_served uni sha1 n src fuel sp args o w data announce ih name P hashes fs qs sw gl w1 :
  (forall b, List.length (sha1 b) = 20%nat) -> commanded args o -> fs_wf w -> file_at w (o_input o) = Some data -> describes sha1 data (o_wd o) announce ih name P hashes fs qs -> ordinary P hashes fs ->
  NoDup (map (PathSpec.place (w_cwd w)) qs) -> gotor uni sha1 n src fuel sp args w = (Running sw gl, w1) ->
  exists contents, on_disk w1 qs contents /\ map zlen contents = map snd fs /\ right_bits sha1 P hashes contents (sw_bf sw) /\
    forall socks s, comes_to sw socks w1 s -> on_disk (sh_world (p_sh s)) qs contents /\
      forall g, In g (p_conns s) -> exists ms, Forall (proven sha1 P (zsum (map snd fs)) hashes contents) ms /\ begins (m_out (g_m g)) (greeting sw ih (m_in (g_m g)) ++ stream ms).
Proof.
  intros Hsha Hc Hwf Hd Hdesc Hord HND HG. destruct (commanded_runs _ _ _ _ _ _ _ _ _ _ _ _ Hc HG) as (u & d & E & _ & _).
  destruct (whole_core sha1 n src fuel sp (set_dnlim (set_uplim o u) d) w data announce ih name P hashes fs qs sw w1 Hwf Hd Hdesc Hord HND E) as (files & contents & H1 & H2 & H3 & H4 & H5 & H6 & H7 & H8 & _ & _).
  exists contents. destruct (sized_disk _ _ _ _ H8) as [D1 D2]. rewrite H2 in D1. split; [exact D1|]. split; [congruence|]. split; [exact H7|]. intros socks s Hs. split.
  - rewrite <- H2. apply (sizes_kept w w1 files contents H8). exact (core_disk _ _ _ _ _ _ _ _ H5 H6 Hs).
  - intros g Hg. rewrite <- H1, <- H3. destruct Hdesc as (info & _ & _ & _ & Hih). apply (core_said sha1 P hashes files sw contents w1 socks s g); try assumption. rewrite H3, Hih. apply Hsha.
Qed.

Lemma whole_newcomer uni sha1 n src fuel sp args o w data announce ih name P hashes fs qs sw gl w1 :
  (forall b, List.length (sha1 b) = 20%nat) -> commanded args o -> fs_wf w -> no_faults w -> file_at w (o_input o) = Some data -> describes sha1 data (o_wd o) announce ih name P hashes fs qs -> ordinary P hashes fs ->
  NoDup (map (PathSpec.place (w_cwd w)) qs) -> parseSizeUnits uni (o_upstr o) <> Ok 0 -> gotor uni sha1 n src fuel sp args w = (Running sw gl, w1) ->
  exists contents, on_disk w1 qs contents /\ right_bits sha1 P hashes contents (sw_bf sw) /\
    forall socks s p port rsv id groups, comes_to sw socks w1 s -> (sockets s < socks)%nat -> List.length rsv = 8%nat -> List.length id = 20%nat ->
      Forall (readable P (zsum (map snd fs)) (zlen hashes / 20)) groups ->
      newcomer_gets sw ih socks s p port rsv id groups (List.concat (flat_map (reply P contents (sw_bf sw)) (List.concat groups))).
Proof.
  intros Hsha Hc Hwf Hnf Hd Hdesc Hord HND Hu0 HG. destruct (commanded_runs _ _ _ _ _ _ _ _ _ _ _ _ Hc HG) as (u & d & E & Hu & _).
  destruct (whole_core sha1 n src fuel sp (set_dnlim (set_uplim o u) d) w data announce ih name P hashes fs qs sw w1 Hwf Hd Hdesc Hord HND E) as (files & contents & H1 & H2 & H3 & H4 & H5 & H6 & H7 & H8 & H9 & H10).
  exists contents. destruct (sized_disk _ _ _ _ H8) as [D1 D2]. rewrite H2 in D1. split; [exact D1|]. split; [exact H7|].
  intros socks s p port rsv id groups Hs Hso Hr Hi HF. destruct Hdesc as (info & _ & _ & _ & Hih).
  assert (Hl : List.length (t_infohash (sw_tor sw)) = 20%nat) by (rewrite H3, Hih; apply Hsha).
  assert (Hrate : sw_wrate sw = -1 \/ 0 < sw_wrate sw). { rewrite H10. cbn [set_dnlim set_uplim o_uplim]. assert (u <> 0) by (intros ->; contradiction). lia. }
  rewrite <- H1 in HF.
  destruct (newcomer_served P hashes files (process_of sw socks) contents w1 (sw_peers sw) s p port rsv id groups H5 (H9 Hnf) Hrate (comes_live _ _ _ _ _ H6 Hs) Hso Hl Hr Hi HF) as (rest & s' & g & R1 & R2 & R3 & R4 & R5).
  cbn [process_of pc_c sc_ti sc_own sc_ih sc_id] in *. rewrite MakeHandshake_fields in R5 by assumption. rewrite H3 in *.
  exists rest, s', g. split; [exact R1|]. split; [exact R2|]. split; [exact R3|]. split; [exact R4|]. rewrite R5. unfold greeting. rewrite <- app_assoc. reflexivity.
Qed.

Lemma tracker_told n tor st port id resp : tracker_says n (t_announce tor) resp -> tracker_Get n tor st port id = Ok resp.
Proof.
  intros [Hq Ha]. unfold tracker_Get. destruct (n_query n (t_announce tor)) as [raw|]; [|congruence]. unfold newRequest. cbn [bind].
  match goal with |- context [n_answer n _ ?q] => destruct (Ha q) as (body & -> & Hb) end. exact Hb.
Qed.
Lemma fitted_all w files contents : Forall2 (fun f c => resized (old_at w (eb_local f)) (eb_len f) c) files contents -> forall fs, lens_of files = map snd fs -> fitted w (map eb_local files) fs contents.
Proof.
  unfold lens_of, fitted. induction 1 as [|f c files contents H _ IH]; intros fs E; [constructor|]. destruct fs as [|x fs]; [discriminate|]. cbn [map] in E. injection E as E1 E2.
  cbn [map combine]. constructor; [cbn [fst snd]; now rewrite <- E1|auto].
Qed.
Lemma whole_starts uni sha1 n src fuel sp args o w data announce ih name P hashes fs qs id u d resp :
  commanded args o -> o_input o <> [] -> o_cmd o = B "swarm" -> parseSizeUnits uni (o_upstr o) = Ok u -> parseSizeUnits uni (o_dnstr o) = Ok d -> NewPeerId src fuel = Ok id ->
  fs_wf w -> no_faults w -> file_at w (o_input o) = Some data -> describes sha1 data (o_wd o) announce ih name P hashes fs qs -> ordinary P hashes fs -> whole_hashes hashes -> enough P hashes fs ->
  NoDup (map (PathSpec.place (w_cwd w)) qs) -> tracker_says n announce resp ->
  exists sw w1 contents, gotor uni sha1 n src fuel sp args w = (Running sw (GListener :: GLimiter :: map GPeer (r_peers resp)), w1) /\ sw_id sw = id /\ no_faults w1 /\
    on_disk w1 qs contents /\ fitted w qs fs contents /\ right_bits sha1 P hashes contents (sw_bf sw).
Proof.
  intros Hc Hin Hcmd Hu Hdn Hid Hwf Hnf Hd Hdesc Hord HW HE HND Htr. pose proof Hord as (HS & HP & HN).
  assert (exists tor, FromTorrentFile sha1 (mkslice data sp) (o_wd o) = Ok tor) as (tor & HT).
  { destruct Hdesc as (info & Hh & HL & _). destruct (load_described sha1 data sp (o_wd o) announce info name P hashes fs Hh HL HS) as (D1 & _). destruct (D1 HW HE) as (tor & HT & _). eauto. }
  destruct (loaded_made _ _ _ _ _ _ _ _ _ _ _ _ Hdesc HS (ordinary_big _ _ _ Hord) HT) as (Hm & H1 & H2 & H3 & H4).
  rewrite <- H2, <- places_place in HND. rewrite <- H4 in Htr.
  destruct (NewSwarm_any sha1 n src fuel sp (set_dnlim (set_uplim o u) d) w id data tor P hashes (bases tor) Hid Hwf Hd HT Hm HND ltac:(lia)) as (r & w1 & E1 & _ & _ & Hnf' & Hr).
  rewrite (tracker_told _ _ _ _ _ _ Htr) in Hr.
  destruct Hr as [(sw & contents & resp' & -> & Er & Ho & Hsz & Hrs & Hb & Hi & _ & _ & _ & _ & Hp & _)|[[_ Hx]|(_ & [(e & He & _)|[He _]])]]; [|contradiction|discriminate..].
  injection Er as <-. exists sw, w1, contents. split.
  { destruct Hc as (a & ss & rest & -> & C1 & C2 & C3 & C4). rewrite (gotor_means _ _ _ _ _ _ _ _ _ _ _ C1 C2 C3 C4). apply main_swarm. exists u, d. rewrite <- Hp. repeat (split; [assumption|]). reflexivity. }
  split; [exact Hi|]. split; [auto|]. destruct (sized_disk _ _ _ _ Hsz) as [D1 D2]. rewrite H2 in D1. split; [exact D1|]. split; [|exact Hb].
  rewrite <- H2. apply fitted_all; auto.
Qed.


Lemma resized_same c L c' : zlen c = L -> resized c L c' -> c' = c.
Proof.
  intros <- [H1 H2]. apply TrackerProofs.ext_nth. intros k. destruct (Nat.ltb_spec k (List.length c)) as [Hk|Hk].
  - specialize (H2 (Z.of_nat k)). rewrite Nat2Z.id in H2. unfold zlen in *. rewrite H2 by lia. destruct (Z.ltb_spec (Z.of_nat k) (Z.of_nat (List.length c))); [reflexivity|lia].
  - unfold zlen in H1. rewrite (proj2 (nth_error_None c' k)), (proj2 (nth_error_None c k)) by lia. reflexivity.
Qed.
Lemma fitted_same w qs fs contents old : on_disk w qs old -> map zlen old = map snd fs -> fitted w qs fs contents -> contents = old.
Proof.
  intros H. revert fs contents. unfold on_disk, fitted. induction H as [|q c qs old Hq _ IH]; intros fs contents E HF; destruct fs as [|f fs]; try discriminate; cbn [combine] in HF; inversion HF; subst; [reflexivity|].
  cbn [map] in E. injection E as E1 E2. cbn [fst snd] in *. unfold old_at in *. rewrite Hq in *. f_equal; [eapply resized_same; eassumption|eapply IH; eassumption].
Qed.
Lemma delivered_all P contents own n ms : (forall i, 0 <= i < n -> haveb own i = true) -> forall T, Forall (polite P T n) ms -> List.concat (flat_map (reply P contents own) ms) = List.concat (map (delivery P contents) ms).
Proof.
  intros Hh T. induction 1 as [|m ms [_ Hm] _ IH]; [reflexivity|]. cbn [flat_map map List.concat]. rewrite concat_app, IH. f_equal.
  destruct m; cbn [reply delivery List.concat]; try reflexivity. rewrite Hh by (apply Hm). cbn [List.concat]. apply app_nil_r.
Qed.

Lemma whole_seeds uni sha1 n src fuel sp args o w data announce ih name P hashes fs qs id u d resp contents :
  (forall b, List.length (sha1 b) = 20%nat) ->
  commanded args o -> o_input o <> [] -> o_cmd o = B "swarm" -> parseSizeUnits uni (o_upstr o) = Ok u -> u <> 0 -> parseSizeUnits uni (o_dnstr o) = Ok d -> NewPeerId src fuel = Ok id ->
  fs_wf w -> no_faults w -> file_at w (o_input o) = Some data -> describes sha1 data (o_wd o) announce ih name P hashes fs qs -> ordinary P hashes fs -> whole_hashes hashes -> enough P hashes fs ->
  NoDup (map (PathSpec.place (w_cwd w)) qs) -> tracker_says n announce resp ->
  on_disk w qs contents -> map zlen contents = map snd fs -> all_right sha1 P hashes contents ->
  exists sw w1, gotor uni sha1 n src fuel sp args w = (Running sw (GListener :: GLimiter :: map GPeer (r_peers resp)), w1) /\ sw_id sw = id /\
    (forall i, 0 <= i < zlen hashes / 20 -> Get (sw_bf sw) i = Ok true) /\
    forall socks s, comes_to sw socks w1 s -> on_disk (sh_world (p_sh s)) qs contents /\
      forall p port rsv pid groups, (sockets s < socks)%nat -> List.length rsv = 8%nat -> List.length pid = 20%nat -> Forall (readable P (zsum (map snd fs)) (zlen hashes / 20)) groups ->
        newcomer_gets sw ih socks s p port rsv pid groups (List.concat (map (delivery P contents) (List.concat groups))).
Proof.
  intros Hsha Hc Hin Hcmd Hu Hu0 Hdn Hid Hwf Hnf Hd Hdesc Hord HW HE HND Htr Hold Hlen Har.
  destruct (whole_starts uni sha1 n src fuel sp args o w data announce ih name P hashes fs qs id u d resp Hc Hin Hcmd Hu Hdn Hid Hwf Hnf Hd Hdesc Hord HW HE HND Htr) as (sw & w1 & c1 & HG & Hsi & _ & D1 & HF & Hb).
  assert (c1 = contents) by (eapply fitted_same; eassumption). subst c1.
  assert (Hget : forall i, 0 <= i < zlen hashes / 20 -> Get (sw_bf sw) i = Ok true).
  { intros i Hi. destruct Hb as (_ & _ & _ & _ & Hbits & _). destruct (Hbits i Hi) as (v & Hv & Hiff). rewrite Hv. f_equal. apply Hiff. exact (Har i Hi). }
  exists sw, w1. split; [exact HG|]. split; [exact Hsi|]. split; [exact Hget|]. intros socks s Hs.
  destruct (whole_served uni sha1 n src fuel sp args o w data announce ih name P hashes fs qs sw _ w1 Hsha Hc Hwf Hd Hdesc Hord HND HG) as (c2 & D2 & _ & _ & Hall). 
  assert (c2 = contents) by (eapply on_disk_unique; eassumption). subst c2. split; [apply (Hall socks s Hs)|].
  intros p port rsv pid groups Hso Hr Hp HFr.
  assert (Hup0 : parseSizeUnits uni (o_upstr o) <> Ok 0) by congruence.
  destruct (whole_newcomer uni sha1 n src fuel sp args o w data announce ih name P hashes fs qs sw _ w1 Hsha Hc Hwf Hnf Hd Hdesc Hord HND Hup0 HG) as (c3 & D3 & _ & Hnew).
  assert (c3 = contents) by (eapply on_disk_unique; eassumption). subst c3.
  pose proof (Hnew socks s p port rsv pid groups Hs Hso Hr Hp HFr) as HN.
  rewrite (delivered_all P contents (sw_bf sw) (zlen hashes / 20) (List.concat groups)) with (T := zsum (map snd fs)) in HN; [exact HN| |].
  - intros i Hi. unfold haveb. rewrite (Hget i Hi). apply orb_true_r.
  - apply Forall_concat. eapply Forall_impl; [|exact HFr]. intros ms (_ & H & _). exact H.
Qed.
