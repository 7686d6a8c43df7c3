(** RoundProofs.v: create a torrent, write it in a torrent file, load it elsewhere, seed it. *)
From Coq Require Import ZifyBool ZifyNat ZifyN.
From Verif Require Import Base BencodeModel BencodeSpec BencodeProofs BitfieldModel BitfieldSpec WireModel WireSpec HandshakeModel HandshakeSpec PathModel PathSpec PathProofs LayoutModel LayoutSpec PieceMapProofs
  PptModel PeerModel UtilsModel FsModel FsSpec FsProofs InfoSpec InfoProofs CreateModel CreateSpec CreateProofs SwarmModel TrackerModel StartModel StartSpec StartProofs SessionModel SessionSpec RunModel RunSpec
  LeechSpec LeechProofs LeechStartProofs RoundSpec.

(** ** The info dictionary as a Go value *)
Lemma join_member ts t : In t ts -> (List.length t <= List.length (join_slash ts))%nat.
Proof.
  induction ts as [|u ts IH]; [contradiction|]. intros [-> |H]; cbn [join_slash]; destruct ts as [|v ts]; try contradiction; [lia|rewrite app_length; lia|].
  rewrite app_length. cbn [List.length]. specialize (IH H). lia.
Qed.
Lemma split_member p t : In t (split_slash p) -> zlen t <= zlen p.
Proof. intros H. apply join_member in H. rewrite join_split in H. unfold zlen. lia. Qed.

Lemma InfoBencode_wf name P hs es ti : NewTorInfo name P hs es = Ok ti -> go_string name -> 0 <= P <= max64 -> zlen hs <= max64 -> 0 <= sum64 es <= max64 ->
  Forall (fun f => 0 <= eb_len f <= max64 /\ go_string (eb_tor f)) es ->
  go_wf (VDict (InfoBencode ti)) /\ no_min64 (VDict (InfoBencode ti)).
Proof.
  intros HN Hn HP Hh HL HF. destruct (NewTorInfo_fields _ _ _ _ _ HN) as (H1 & H2 & H3 & H4 & H5 & H6). unfold InfoBencode. rewrite H1, H2, H3, H4.
  rewrite <- (map_map en_base entry_Bencode), H5. assert (Hm : min64 < 0) by (vm_compute; reflexivity). unfold go_string in *.
  assert (HE : Forall (fun v => go_wf v /\ no_min64 v) (map entry_Bencode es)).
  { apply Forall_map. rewrite Forall_forall in *. intros f Hf. destruct (HF f Hf) as [Hl Ht]. unfold entry_Bencode. split; constructor.
    - cbn [map fst]. repeat constructor; cbn; intuition discriminate.
    - repeat constructor; vm_compute; discriminate.
    - constructor; [cbn [snd]; constructor; cbn; lia|]. constructor; [|constructor]. cbn [snd]. constructor. apply Forall_map. apply Forall_forall. intros t Hi. constructor. apply split_member in Hi. lia.
    - constructor; [cbn [snd]; constructor; lia|]. constructor; [|constructor]. cbn [snd]. constructor. apply Forall_map. apply Forall_forall. intros t Hi. constructor. }
  split; constructor.
  - destruct (ti_single ti); cbn [map fst]; repeat constructor; cbn; intuition discriminate.
  - do 4 (constructor; [vm_compute; discriminate|]). constructor; [|constructor]. destruct (ti_single ti); cbn [fst]; vm_compute; discriminate.
  - constructor; [constructor; exact Hn|]. constructor; [constructor; cbn; lia|]. constructor; [constructor; exact Hh|]. constructor; [constructor; cbn; unfold min64, max64; lia|]. constructor; [|constructor].
    destruct (ti_single ti); cbn [snd]; constructor; [cbn; lia|]. eapply Forall_impl; [|exact HE]. intros v [Hv _]. exact Hv.
  - constructor; [constructor|]. constructor; [constructor; cbn; lia|]. constructor; [constructor|]. constructor; [constructor; cbn; lia|]. constructor; [|constructor].
    destruct (ti_single ti); cbn [snd]; constructor; [cbn; lia|]. eapply Forall_impl; [|exact HE]. intros v [_ Hv]. exact Hv.
Qed.

(** ** Reading it back *)
Lemma loaded_dict name P hs es ti a t0 ct tb junk sp wd sha1 : NewTorInfo name P hs es = Ok ti -> go_wf (VDict (InfoBencode ti)) -> no_min64 (VDict (InfoBencode ti)) ->
  NewTorrent sha1 ti a = Ok t0 -> fst (BencodeModel.Encode (VDict (InfoBencode ti))) = tb -> torrent_text ct a tb ->
  FromTorrentFile sha1 (mkslice (ct ++ junk) sp) wd = do ti' <- FromDict (InfoBencode ti) wd; Ok (mktor (t_infohash t0) a ti').
Proof.
  intros HN Hw Hnm Ht Htb (m & im & (Hc & Hr & Hi & Hci) & Ha). unfold NewTorrent in Ht. destruct (BencodeModel.Encode (VDict (InfoBencode ti))) as [enc [e|]] eqn:He; [discriminate|]. cbn [fst] in Htb. subst enc.
  inversion Ht; subst t0; clear Ht. cbn [t_infohash].
  assert (Hen : encodable (VDict (InfoBencode ti))) by (apply encode_none_iff; unfold BencodeModel.Encode in He; now rewrite He).
  destruct (encode_canonical _ Hw Hen) as (m' & Hd & Hc'). change (encode (VDict (InfoBencode ti))) with (BencodeModel.Encode (VDict (InfoBencode ti))) in Hc'. rewrite He in Hc'. cbn [fst] in Hc'.
  pose proof (denotes_representable _ Hw Hnm _ Hd) as Hr'. pose proof (denotes_gperm _ _ Hd (InfoBencode_int64 ti)) as Hg.
  inversion Hr as [| | |? HF]; subst. pose proof (proj1 (Forall_forall _ _) HF _ Hi) as [_ Hri]. cbn [snd] in Hri.
  pose proof (Decode_canonical _ _ [] [] Hci Hri) as D1. pose proof (Decode_canonical _ _ [] [] Hc' Hr') as D2. rewrite D1 in D2. apply Ok_inj in D2. rewrite <- D2 in Hg. clear D1 D2.
  cbn [ofb] in Hg. change (map (fun kv => (fst kv, ofb (snd kv))) im) with (map (onsnd ofb) im) in Hg.
  unfold FromTorrentFile. rewrite (Decode_canonical _ _ junk sp Hc Hr). cbn [bind ofb]. change (map (fun kv => (fst kv, ofb (snd kv))) m) with (map (onsnd ofb) m).
  inversion Hc as [| | | |? ? Hss Hcm]; subst. unfold GetString at 1, GetDict, dict_get. rewrite (dget_ofb _ _ _ Hss Ha), (dget_ofb _ _ _ Hss Hi). cbn [bind ofb].
  change (map (fun kv => (fst kv, ofb (snd kv))) im) with (map (onsnd ofb) im).
  rewrite <- (FromDict_gperm _ _ wd Hw Hg). unfold BencodeModel.Encode in He |- *. rewrite <- (encode_gperm _ _ Hg Hw), He. reflexivity.
Qed.

Lemma made_entries_len bd paths cs : List.length paths = List.length cs -> List.length (made_entries bd paths cs) = List.length paths.
Proof. intros H. unfold made_entries. rewrite map_length, combine_length. lia. Qed.
Lemma made_entries_move bd bd' paths cs :
  map (fun fe => SetLocalPath fe (Join [bd'; eb_tor fe])) (map (fun f => MakeFileEntry (eb_tor f) (eb_len f)) (made_entries bd paths cs)) = made_entries bd' paths cs.
Proof. unfold made_entries. rewrite !map_map. reflexivity. Qed.

(** The dictionary of a torrent created anywhere gives the same torrent for the directory it is loaded in. *)
Lemma loaded_entries name P hs paths cs ti wd1 wd : List.length paths = List.length cs -> (forall p, paths = [p] -> p = name) -> Forall (fun c : bytes => zlen c <= max64) cs ->
  NewTorInfo name P hs (made_entries (base_dir paths wd1 name) paths cs) = Ok ti ->
  FromDict (InfoBencode ti) wd = NewTorInfo name P hs (made_entries (base_dir paths wd name) paths cs).
Proof.
  intros Hlen Hs HL HN. destruct (NewTorInfo_fields _ _ _ _ _ HN) as (H1 & H2 & H3 & H4 & H5 & H6). unfold FromDict.
  assert (G1 : GetString (InfoBencode ti) (B "name") = Ok name) by (unfold InfoBencode; rewrite H1; reflexivity).
  assert (G2 : GetInt (InfoBencode ti) (B "piece length") = Ok P) by (unfold InfoBencode; rewrite H2; reflexivity).
  assert (G3 : GetString (InfoBencode ti) (B "pieces") = Ok hs) by (unfold InfoBencode; rewrite H3; reflexivity).
  rewrite G1, G2, G3. cbn [bind].
  assert (HE : dict_entries (InfoBencode ti) wd name = Ok (made_entries (base_dir paths wd name) paths cs)); [|rewrite HE; reflexivity].
  unfold dict_entries. rewrite made_entries_len in H6 by exact Hlen. destruct (Nat.eqb_spec (List.length paths) 1) as [Es|Es].
  - destruct paths as [|p [|]]; try discriminate. destruct cs as [|c [|]]; try discriminate.
    assert (G4 : GetInt (InfoBencode ti) (B "length") = Ok (zlen c)).
    { unfold InfoBencode. rewrite H6, H4. inversion HL as [|? ? Hc _]; subst. unfold sum64, made_entries. cbn [combine map fold_left eb_len snd]. unfold add64. rewrite Z.add_0_l, i64_id; [reflexivity|].
      pose proof (zlen_nonneg c). unfold min64, max64 in *. lia. }
    rewrite G4. unfold made_entries, base_dir. cbn [combine map fst snd]. rewrite (Hs p eq_refl). reflexivity.
  - assert (G4 : GetInt (InfoBencode ti) (B "length") = Err EMissingKey) by (unfold InfoBencode; rewrite H6; reflexivity).
    assert (G5 : GetList (InfoBencode ti) (B "files") = Ok (map entry_Bencode (made_entries (base_dir paths wd1 name) paths cs))).
    { unfold InfoBencode. rewrite H6. rewrite <- H5, map_map. reflexivity. }
    rewrite G4, G5, FromBenList_entries. cbn [bind]. rewrite made_entries_move. f_equal. unfold base_dir. destruct paths as [|p [|q ps]]; [reflexivity|contradiction Es; reflexivity|].
    replace (1 <? zlen (p :: q :: ps)) with true by (unfold zlen; cbn [List.length]; lia). reflexivity.
Qed.

(** ** Creating, and loading in another directory *)
Lemma created_info sha1 fuel sched w paths wd name P cs ti : 1 <= P <= maxBuf -> (forall b, zlen (sha1 b) = 20) ->
  on_disk w (base_dir paths wd name) paths cs -> Forall (fun c : bytes => (List.length c < fuel)%nat) cs ->
  let T := zlen (List.concat cs) in 20 * pieces_needed P T < big -> T < big ->
  CreateTorInfo sha1 fuel sched w paths wd name P = Ok ti ->
  let hs := HashSlices sha1 (pieces_of P (List.concat cs)) in
  NewTorInfo name P hs (made_entries (base_dir paths wd name) paths cs) = Ok ti /\ made P hs (made_entries (base_dir paths wd name) paths cs) ti.
Proof.
  intros HP Hsha HF HL T HB HT E hs. apply CreateTorInfo_scrub in E.
  destruct (CreateTorInfo_spec sha1 fuel (scrub sched) w paths wd name P cs HP (scrub_data sched) Hsha HF HL HB HT) as (ti' & E' & Hm & _).
  rewrite E in E'. apply Ok_inj in E'. subst ti'. split; [|exact Hm]. rewrite <- E. symmetry. unfold hs. apply CreateTorInfo_hashes; try assumption. apply scrub_data.
Qed.

Lemma concat_member (cs : list bytes) c : In c cs -> zlen c <= zlen (List.concat cs).
Proof.
  induction cs as [|d cs IH]; [contradiction|]. cbn [List.concat]. rewrite zlen_app. intros [-> |H]; [pose proof (zlen_nonneg (List.concat cs)); lia|]. specialize (IH H). pose proof (zlen_nonneg d). lia.
Qed.
Lemma made_entries_ok bd paths cs N : Forall go_string paths -> Forall (fun c : bytes => zlen c <= N) cs ->
  Forall (fun f => 0 <= eb_len f <= N /\ go_string (eb_tor f)) (made_entries bd paths cs).
Proof.
  intros Hp Hc. unfold made_entries. apply Forall_map. rewrite Forall_forall in *. intros [p c] Hin. cbn [eb_len eb_tor fst snd].
  split; [split; [apply zlen_nonneg|apply Hc; eapply in_combine_r; exact Hin]|apply Hp; eapply in_combine_l; exact Hin].
Qed.

Lemma loaded sha1 fuel sched w1 paths wd1 name P cs ti a t0 ct junk sp wd : 1 <= P <= maxBuf -> (forall b, zlen (sha1 b) = 20) ->
  on_disk w1 (base_dir paths wd1 name) paths cs -> Forall (fun c : bytes => (List.length c < fuel)%nat) cs ->
  let T := zlen (List.concat cs) in 20 * pieces_needed P T < big -> T < big -> Forall go_string (name :: paths) -> (forall p, paths = [p] -> p = name) ->
  CreateTorInfo sha1 fuel sched w1 paths wd1 name P = Ok ti -> NewTorrent sha1 ti a = Ok t0 -> torrent_text ct a (fst (BencodeModel.Encode (VDict (InfoBencode ti)))) ->
  exists tor, FromTorrentFile sha1 (mkslice (ct ++ junk) sp) wd = Ok tor /\ t_infohash tor = t_infohash t0 /\ t_announce tor = a /\ (wd = wd1 -> tor = t0) /\
    made P (HashSlices sha1 (pieces_of P (List.concat cs))) (made_entries (base_dir paths wd name) paths cs) (t_info tor).
Proof.
  intros HP Hsha HF HL T HB HT Hgo Hs E Ht Htx. destruct (created_info sha1 fuel sched w1 paths wd1 name P cs ti HP Hsha HF HL HB HT E) as [HN Hm]. set (hs := HashSlices sha1 (pieces_of P (List.concat cs))) in *.
  assert (Hlen : List.length paths = List.length cs) by (eapply Forall2_len; exact HF). assert (Hb : big <= max64) by (vm_compute; discriminate).
  assert (Hc : Forall (fun c : bytes => zlen c <= max64) cs) by (apply Forall_forall; intros c Hi; apply concat_member in Hi; fold T in Hi; lia).
  inversion Hgo as [|? ? Hgn Hgp]; subst. pose proof (made_entries_ok (base_dir paths wd1 name) paths cs max64 Hgp Hc) as Hok.
  pose proof Hm as (HS & Hh & _).
  assert (Hlens : forall bd, lens_of (made_entries bd paths cs) = map zlen cs) by (intros bd; now apply made_entries_lens).
  assert (Hsum : sum64 (made_entries (base_dir paths wd1 name) paths cs) = T).
  { rewrite sum64_spec by apply HS. unfold T. rewrite Hlens. symmetry. apply zlen_concat. }
  destruct (InfoBencode_wf name P hs _ ti HN Hgn ltac:(unfold maxBuf, max64 in *; lia) ltac:(lia) ltac:(rewrite Hsum; unfold T; pose proof (zlen_nonneg (List.concat cs)); lia) Hok) as [Hwf Hnm].
  rewrite (loaded_dict name P hs _ ti a t0 ct _ junk sp wd sha1 HN Hwf Hnm Ht eq_refl Htx).
  rewrite (loaded_entries name P hs paths cs ti wd1 wd Hlen Hs Hc HN).
  destruct (NewTorInfo_same name P hs (made_entries (base_dir paths wd1 name) paths cs) (made_entries (base_dir paths wd name) paths cs) ti) as (ti2 & E2 & _).
  { unfold made_entries. rewrite !map_map. reflexivity. }
  { exact HN. }
  rewrite E2. cbn [bind]. eexists. split; [reflexivity|]. cbn [t_infohash t_announce t_info]. split; [reflexivity|]. split; [reflexivity|]. split.
  - intros ->. rewrite HN in E2. apply Ok_inj in E2. subst ti2. unfold NewTorrent in Ht. destruct (BencodeModel.Encode _) as [enc [e|]]; [discriminate|]. apply Ok_inj in Ht. subst t0. reflexivity.
  - split; [|split; [exact Hh|exists name; exact E2]]. rewrite Hlens. rewrite Hlens in HS. exact HS.
Qed.

(** ** Seeding it *)
Lemma made_entries_places w bd paths cs : List.length paths = List.length cs -> places w (made_entries bd paths cs) = spots w bd paths.
Proof.
  unfold places, spots, made_entries. rewrite map_map. cbn [eb_local]. revert cs. induction paths as [|p paths IH]; intros [|c cs] H; try discriminate; [reflexivity|]. injection H as H.
  cbn [combine map fst]. f_equal. now apply IH.
Qed.
Lemma made_entries_same w bd : forall paths cs cs', on_disk w bd paths cs ->
  Forall2 (fun f c => resized (old_at w (eb_local f)) (eb_len f) c) (made_entries bd paths cs) cs' -> cs' = cs.
Proof.
  induction paths as [|p paths IH]; intros cs cs' HF H; inversion HF as [|? c ? cs2 Hc HF2]; subst; [inversion H; reflexivity|].
  unfold made_entries in H. cbn [combine map] in H. inversion H as [|? c' ? cs3 H1 H2]; subst. f_equal; [|apply IH; assumption].
  cbn [eb_local eb_len fst snd] in H1. apply (resized_exact c (zlen c)); [|reflexivity]. assert (Hoc : old_at w (Join [bd; p]) = c) by (unfold old_at; now rewrite Hc).
  refine (eq_ind _ (fun z => resized z (zlen c) c') H1 _ Hoc).
Qed.
Lemma made_entries_kept w w' bd : forall paths cs q, on_disk w bd paths cs -> Forall2 (sized w w') (made_entries bd paths cs) cs -> w_cwd w' = w_cwd w ->
  In (place (w_cwd w) q) (spots w bd paths) -> file_at w' q = file_at w q.
Proof.
  induction paths as [|p paths IH]; intros cs q HF H Hc Hin; [contradiction|]. inversion HF as [|? c ? cs2 Hp HF2]; subst.
  unfold made_entries in H. cbn [combine map] in H. inversion H as [|? ? ? ? (H1 & _) H2]; subst. cbn [spots map In] in Hin. destruct Hin as [Hin|Hin]; [|eapply IH; eassumption].
  cbn [eb_local fst snd] in H1. unfold file_at in *. rewrite Hc in *. rewrite <- Hin. transitivity (Some c); [exact H1|symmetry; exact Hp].
Qed.

Lemma seeded sha1 fuel sched w1 paths wd1 name P cs ti a t0 ct junk sp nt src pf o w id : 1 <= P <= maxBuf -> (forall b, List.length (sha1 b) = 20%nat) ->
  on_disk w1 (base_dir paths wd1 name) paths cs -> Forall (fun c : bytes => (List.length c < fuel)%nat) cs ->
  let T := zlen (List.concat cs) in let n := pieces_needed P T in 0 < n < 4294967296 -> T < big -> Forall go_string (name :: paths) -> (forall p, paths = [p] -> p = name) ->
  CreateTorInfo sha1 fuel sched w1 paths wd1 name P = Ok ti -> NewTorrent sha1 ti a = Ok t0 -> torrent_text ct a (fst (BencodeModel.Encode (VDict (InfoBencode ti)))) ->
  NewPeerId src pf = Ok id -> fs_wf w -> no_faults w -> file_at w (UtilsModel.o_input o) = Some (ct ++ junk) ->
  let dir := base_dir paths (o_wd o) name in on_disk w dir paths cs -> NoDup (spots w dir paths) ->
  exists tor, FromTorrentFile sha1 (mkslice (ct ++ junk) sp) (o_wd o) = Ok tor /\ t_infohash tor = t_infohash t0 /\
    forall resp, tracker_Get nt tor (NewStats 0 0 0) (OptPort o) id = Ok resp ->
    exists sw w', NewSwarm sha1 nt src pf sp o w = (Ok sw, w') /\ Complete (sw_bf sw) = true /\ Nbits (sw_bf sw) = n /\ (forall q, file_at w' q = file_at w q) /\
    let c := mksc (t_info (sw_tor sw)) (t_infohash (sw_tor sw)) (sw_bf sw) (sw_id sw) in
    forall ls s p port rsv peer, Forall fair ls -> srun c ls (mkss (sw_ppt sw) w' []) = Some s -> List.length rsv = 8%nat -> List.length peer = 20%nat ->
      let k := List.length (ss_conns s) in
      exists more s' x, Forall (fun l => of_conn k l = true) more /\ delivered k more = map (fun m => (2%nat, mkslice (wire_of m) [])) (ask_all P T n) /\
        srun c (SAccept p port (mkread (handshake_of rsv (t_infohash t0) peer) false) (HandshakeModel.mkw true true) None :: more) s = Some s' /\
        nth_error (ss_conns s') k = Some x /\ k_up x = true /\ forall disk, zlen disk = T -> leech P disk (k_out x) = Some (List.concat cs).
Proof.
  intros HP Hsha HF1 HL T n Hn HT Hgo Hs E Ht Htx Hid Hwf Hnf Hfile dir HF HND.
  assert (Hsha' : forall b, zlen (sha1 b) = 20) by (intros b; unfold zlen; rewrite Hsha; reflexivity).
  assert (HB : 20 * pieces_needed P T < big) by (unfold big, n in *; lia).
  destruct (loaded sha1 fuel sched w1 paths wd1 name P cs ti a t0 ct junk sp (o_wd o) HP Hsha' HF1 HL HB HT Hgo Hs E Ht Htx) as (tor & Htor & Hih & _ & _ & Hm).
  exists tor. split; [exact Htor|]. split; [exact Hih|]. intros resp Htold.
  set (hs := HashSlices sha1 (pieces_of P (List.concat cs))) in *. set (es := made_entries (base_dir paths (o_wd o) name) paths cs) in *. fold dir in es.
  assert (Hlen : List.length paths = List.length cs) by (eapply Forall2_len; exact HF).
  assert (Hz20 : zlen hs / 20 = n) by (unfold hs; rewrite HashSlices_len by exact Hsha'; rewrite pieces_count by lia; rewrite Z.mul_comm; apply Z.div_mul; lia).
  assert (HT' : zsum (lens_of es) = T) by (unfold es; rewrite made_entries_lens by exact Hlen; symmetry; apply zlen_concat).
  assert (HND' : NoDup (places w es)) by (unfold es; rewrite made_entries_places by exact Hlen; exact HND).
  destruct (NewSwarm_any sha1 nt src pf sp o w id _ tor P hs es Hid Hwf Hfile Htor Hm HND' ltac:(lia)) as (r & w' & E1 & _ & He & _ & Hr). cbv zeta in Hr. rewrite Htold in Hr.
  destruct Hr as [(sw & contents & resp' & -> & _ & _ & Hsz & Hres & Hb & _ & _ & Hst & _)|[[_ Hx]|[_ [(e & Hx & _)|[Hx _]]]]]; [|contradiction Hx; exact Hnf|discriminate Hx|discriminate Hx].
  specialize (Hres Hnf). assert (contents = cs) by (eapply made_entries_same; eassumption). subst contents. pose proof Hb as (B1 & _ & _ & _ & _ & B6).
  assert (Hcomp : Complete (sw_bf sw) = true).
  { apply B6. rewrite Hz20. intros i Hi. pose proof (pieces_nth P (List.concat cs) i ltac:(lia) Hi) as Hp.
    pose proof (HashSlices_nth sha1 _ Hsha' _ _ Hp) as Hh. rewrite Z2Nat.id in Hh by lia. fold hs in Hh. rewrite Hh. f_equal. unfold piece_bytes. f_equal.
    apply Z.min_l. unfold n, pieces_needed, T in Hi. pose proof (zlen_nonneg (List.concat cs)). pose proof (Z.div_mod (zlen (List.concat cs) + P - 1) P ltac:(lia)).
    pose proof (Z.mod_pos_bound (zlen (List.concat cs) + P - 1) P ltac:(lia)). nia. }
  exists sw, w'. split; [exact E1|]. split; [exact Hcomp|]. split; [congruence|]. split.
  { intros q. destruct He as [Hcwd He]. unfold es in He. rewrite made_entries_places in He by exact Hlen.
    destruct (in_dec (list_eq_dec bytes_dec) (place (w_cwd w) q) (spots w dir paths)) as [Hin|Hin]; [|apply He; exact Hin]. eapply made_entries_kept; eassumption. }
  destruct (started_download sha1 nt src pf sp o w id _ tor P hs es sw w' Hsha Hid Hwf Hnf Hfile Htor Hm HND' ltac:(lia) ltac:(unfold maxBuf in HP; lia) E1 Hcomp) as (contents & Hres' & _ & Hd).
  assert (contents = cs) by (eapply made_entries_same; eassumption). subst contents. rewrite HT', Hz20 in Hd. rewrite Hih in Hd. exact Hd.
Qed.

(** ** What can be published *)
Lemma publishable sha1 fuel sched w paths wd name P cs ti a : 1 <= P <= maxBuf -> (forall b, zlen (sha1 b) = 20) ->
  on_disk w (base_dir paths wd name) paths cs -> Forall (fun c : bytes => (List.length c < fuel)%nat) cs ->
  let T := zlen (List.concat cs) in 20 * pieces_needed P T < big -> T < big ->
  CreateTorInfo sha1 fuel sched w paths wd name P = Ok ti ->
  ((exists t0, NewTorrent sha1 ti a = Ok t0) <-> name <> [] /\ 0 < T /\ (List.length paths <> 1%nat -> Forall no_empty_name paths)).
Proof.
  intros HP Hsha HF HL T HB HT E. destruct (created_info sha1 fuel sched w paths wd name P cs ti HP Hsha HF HL HB HT E) as [HN _]. set (hs := HashSlices sha1 (pieces_of P (List.concat cs))) in *.
  assert (Hlen : List.length paths = List.length cs) by (eapply Forall2_len; exact HF). destruct (NewTorInfo_fields _ _ _ _ _ HN) as (H1 & H2 & H3 & H4 & H5 & H6).
  assert (Hz : zlen hs = 20 * pieces_needed P T) by (unfold hs; rewrite HashSlices_len by exact Hsha; rewrite pieces_count by lia; reflexivity).
  assert (Hne : hs <> [] <-> 0 < T).
  { assert (HT0 : 0 <= T) by apply zlen_nonneg. assert (HP0 : 0 <= pieces_needed P T) by (unfold pieces_needed; apply Z.div_pos; lia).
    assert (Hpn : 0 < pieces_needed P T <-> 0 < T).
    { unfold pieces_needed. pose proof (Z.div_mod (T + P - 1) P ltac:(lia)). pose proof (Z.mod_pos_bound (T + P - 1) P ltac:(lia)). nia. }
    rewrite <- Hpn. destruct hs; [change (zlen (@nil byte)) with 0 in Hz; split; [contradiction|lia]|]. unfold zlen in Hz. cbn [List.length] in Hz. split; [lia|discriminate]. }
  assert (HE : (exists t0, NewTorrent sha1 ti a = Ok t0) <-> encodable (VDict (InfoBencode ti))).
  { rewrite <- encode_none_iff. unfold NewTorrent, BencodeModel.Encode. destruct (encode _) as [enc [e|]]; cbn [snd]; split; try discriminate; [intros (? & H); discriminate|reflexivity|eauto]. }
  rewrite HE, <- Hne. unfold InfoBencode. rewrite H1, H2, H3, H4, H6, made_entries_len by exact Hlen. rewrite <- (map_map en_base entry_Bencode), H5.
  assert (HS : forall s, encodable (VStr s) <-> s <> []) by (intros s; split; [intros H; now inversion H|now constructor]).
  assert (HM : Forall encodable (map entry_Bencode (made_entries (base_dir paths wd name) paths cs)) <-> Forall no_empty_name paths).
  { rewrite Forall_map. unfold made_entries. rewrite Forall_map. clear - Hlen HS. revert cs Hlen. induction paths as [|p paths IH]; intros [|c cs] H; try discriminate; [cbn; split; constructor|]. injection H as H.
    cbn [combine]. rewrite !Forall_cons_iff, (IH cs H). apply and_iff_compat_r. cbn [entry_Bencode eb_len eb_tor fst snd]. split.
    - intros He. inversion He as [| | |? HF]; subst. inversion HF as [|? ? _ HF2]; subst. inversion HF2 as [|? ? [_ HF3] _]; subst. cbn [snd] in HF3. inversion HF3 as [| |? HF4|]; subst.
      rewrite Forall_map in HF4. unfold no_empty_name. eapply Forall_impl; [|exact HF4]. intros t Ht. now apply HS.
    - intros Hn. constructor. constructor; [cbn [fst snd]; split; [discriminate|constructor]|]. constructor; [|constructor]. cbn [fst snd]. split; [discriminate|]. constructor. rewrite Forall_map.
      eapply Forall_impl; [|exact Hn]. intros t Ht. now apply HS. }
  split.
  - intros H. inversion H as [| | |? HFa]; subst. rewrite !Forall_cons_iff in HFa. cbn [snd] in HFa. destruct HFa as ((_ & A1) & _ & (_ & A2) & _ & (_ & A3) & _). apply HS in A1, A2. split; [exact A1|]. split; [exact A2|].
    intros Hl. apply HM. destruct (Nat.eqb_spec (List.length paths) 1); [contradiction|]. cbn [snd] in A3. inversion A3; assumption.
  - intros (A1 & A2 & A3). constructor. rewrite !Forall_cons_iff. cbn [fst snd]. split; [split; [discriminate|now apply HS]|]. split; [split; [discriminate|constructor]|]. split; [split; [discriminate|now apply HS]|].
    split; [split; [discriminate|constructor]|]. split; [|constructor]. destruct (Nat.eqb_spec (List.length paths) 1) as [El|El]; cbn [fst snd]; (split; [discriminate|]); constructor. apply HM. auto.
Qed.

(** The shortest torrent file for it. *)
Lemma digit_decimal d n : 48 <= b2z d <= 57 -> b2z d - 48 = n -> decimal [d] n.
Proof.
  intros H1 H2. split; [discriminate|]. split; [constructor; [exact H1|constructor]|]. split; [intros e r E _; injection E as _ <-; reflexivity|]. unfold dvalue. cbn [fold_left]. lia.
Qed.
Lemma plain_text sha1 ti a t0 ds tb : go_wf (VDict (InfoBencode ti)) -> no_min64 (VDict (InfoBencode ti)) -> NewTorrent sha1 ti a = Ok t0 -> go_string a -> decimal ds (zlen a) ->
  tb = fst (BencodeModel.Encode (VDict (InfoBencode ti))) -> torrent_text (B "d8:announce" ++ ds ++ B ":" ++ a ++ B "4:info" ++ tb ++ B "e") a tb.
Proof.
  intros Hw Hnm Ht Ha Hds ->. unfold NewTorrent in Ht. destruct (BencodeModel.Encode (VDict (InfoBencode ti))) as [enc [e|]] eqn:He; [discriminate|]. cbn [fst].
  assert (Hen : encodable (VDict (InfoBencode ti))) by (apply encode_none_iff; unfold BencodeModel.Encode in He; now rewrite He).
  destruct (encode_canonical _ Hw Hen) as (m' & Hd & Hc'). change (encode (VDict (InfoBencode ti))) with (BencodeModel.Encode (VDict (InfoBencode ti))) in Hc'. rewrite He in Hc'. cbn [fst] in Hc'.
  pose proof (denotes_representable _ Hw Hnm _ Hd) as Hr'. inversion Hd as [| | |? d' im]; subst m'.
  exists [(B "announce", BStr a); (B "info", BDict im)], im. split; [|left; reflexivity]. split; [|split; [|split; [right; left; reflexivity|exact Hc']]].
  - replace (B "d8:announce" ++ ds ++ B ":" ++ a ++ B "4:info" ++ enc ++ B "e") with (["d"%byte] ++ (B "8:announce" ++ (ds ++ [":"%byte] ++ a) ++ (B "4:info" ++ enc ++ [])) ++ ["e"%byte]).
    2: { rewrite app_nil_r, <- !app_assoc. reflexivity. }
    constructor; [cbn [map fst]; repeat constructor; vm_compute; reflexivity|]. constructor.
    + apply (can_str (B "announce") (B "8")). apply digit_decimal; vm_compute; [split; discriminate|reflexivity].
    + now constructor.
    + constructor; [|exact Hc'|constructor]. apply (can_str (B "info") (B "4")). apply digit_decimal; vm_compute; [split; discriminate|reflexivity].
  - constructor. constructor; [split; [vm_compute; discriminate|constructor; exact Ha]|]. constructor; [split; [vm_compute; discriminate|exact Hr']|constructor].
Qed.
Lemma created_text sha1 fuel sched w paths wd name P cs ti a t0 ds : 1 <= P <= maxBuf -> (forall b, zlen (sha1 b) = 20) ->
  on_disk w (base_dir paths wd name) paths cs -> Forall (fun c : bytes => (List.length c < fuel)%nat) cs ->
  let T := zlen (List.concat cs) in 20 * pieces_needed P T < big -> T < big -> Forall go_string (a :: name :: paths) ->
  CreateTorInfo sha1 fuel sched w paths wd name P = Ok ti -> NewTorrent sha1 ti a = Ok t0 -> decimal ds (zlen a) ->
  let tb := fst (BencodeModel.Encode (VDict (InfoBencode ti))) in t_infohash t0 = sha1 tb /\ torrent_text (B "d8:announce" ++ ds ++ B ":" ++ a ++ B "4:info" ++ tb ++ B "e") a tb.
Proof.
  intros HP Hsha HF HL T HB HT Hgo E Ht Hds tb. destruct (created_info sha1 fuel sched w paths wd name P cs ti HP Hsha HF HL HB HT E) as [HN Hm].
  assert (Hlen : List.length paths = List.length cs) by (eapply Forall2_len; exact HF). assert (Hb : big <= max64) by (vm_compute; discriminate).
  assert (Hc : Forall (fun c : bytes => zlen c <= max64) cs) by (apply Forall_forall; intros c Hi; apply concat_member in Hi; fold T in Hi; lia).
  inversion Hgo as [|? ? Hga Hgo2]; subst. inversion Hgo2 as [|? ? Hgn Hgp]; subst. pose proof (made_entries_ok (base_dir paths wd name) paths cs max64 Hgp Hc) as Hok. pose proof Hm as (HS & Hh & _).
  assert (Hsum : sum64 (made_entries (base_dir paths wd name) paths cs) = T) by (rewrite sum64_spec by apply HS; rewrite made_entries_lens by exact Hlen; symmetry; apply zlen_concat).
  destruct (InfoBencode_wf name P _ _ ti HN Hgn ltac:(unfold maxBuf, max64 in *; lia) ltac:(lia) ltac:(rewrite Hsum; unfold T; pose proof (zlen_nonneg (List.concat cs)); lia) Hok) as [Hwf Hnm].
  split; [|eapply plain_text; try eassumption; reflexivity]. unfold NewTorrent in Ht. unfold tb. destruct (BencodeModel.Encode _) as [enc [e|]]; [discriminate|]. apply Ok_inj in Ht. subst t0. reflexivity.
Qed.
