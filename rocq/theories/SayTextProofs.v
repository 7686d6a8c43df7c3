(** SayTextProofs.v: the texts, and main. *)
From Coq Require Import ZifyBool ZifyNat ZifyN.
From Verif Require Import Base BencodeModel BencodeSpec DecimalProofs BencodeProofs PeerModel PeerProofs PathModel LayoutModel LayoutSpec LoadSpec LoadProofs.
From Verif Require Import BitfieldModel DsModel PptModel FsModel SwarmModel UtilsModel TrackerModel TrackerSpec DiagModel DiagSpec DiagProofs StartModel PrintModel SayModel SaySpec SayProofs SayToldProofs.

Definition keys : list bytes := [B "announce"; B "info"; B "name"; B "piece length"; B "pieces"; B "length"; B "path"].
Definition wants : list bytes := [B "string"; B "int64"; B "dict"; B "list"].
(** What errors of loading look like. *)
Definition proper (w : why) : Prop :=
  match w with
  | WDecode _ c _ => sound c
  | WMissing k => In k keys
  | WType k want have _ => In k keys /\ In want wants /\ exists v, have = type_name v
  | WBody _ | WReason _ | WSix _ | WPeers _ | WSystem _ => False
  | _ => True
  end.
Lemma wrong_proper d k t w : wrong d (k, t) w -> In k keys -> proper w.
Proof.
  intros [(_ & ->)|(v & _ & _ & ->)] Hk; [exact Hk|]. cbn [proper]. split; [exact Hk|]. split; [destruct t; cbn; tauto|eauto].
Qed.
Lemma first_proper d fs w : first_wrong d fs w -> Forall (fun f => In (fst f) keys) fs -> proper w.
Proof. intros (pre & [k t] & post & -> & _ & HW) HF. apply Forall_app in HF. destruct HF as (_ & HF). inversion HF; subst. exact (wrong_proper d k t w HW H1). Qed.
Lemma told_proper v w : told v w -> proper w.
Proof.
  intros [(_ & ->)|(d & _ & [H|(a & info & _ & _ & [H|(name & P & hashes & _ & _ & _ & [H|(fs & _ & H)])])])]; [exact I| | | |].
  - eapply first_proper; [exact H|]. repeat constructor; cbn; tauto.
  - eapply first_proper; [exact H|]. repeat constructor; cbn; tauto.
  - destruct H as (_ & [(_ & ->)|(l & pre & x & post & fs & _ & _ & _ & [(_ & ->)|(e & _ & [H|(n & pl & parts & y & q & _ & _ & _ & _ & ->)])])]); try exact I.
    eapply first_proper; [exact H|]. repeat constructor; cbn; tauto.
  - destruct H as [(_ & ->)|(_ & x & y & -> & _)]; exact I.
Qed.
Lemma torrent_proper w : of_torrent w -> proper w.
Proof.
  intros (sha1 & data & wd & H). apply file_says in H. destruct H as [(c & k & H & ->)|(v & Hv & H)].
  - exact (sound_top data c k H).
  - apply (told_proper v). exact (told_forward sha1 v wd w (proj1 (Decode_wf _ _ Hv)) H).
Qed.

(** ** Which error it is can be seen in the first few letters. *)
Definition look (s : bytes) : nat :=
  match s with
  | "d" :: _ => 0 | "s" :: _ => 0 | "m" :: _ => 2 | "b" :: _ => 3 | "f" :: "a" :: _ => 5 | "f" :: "i" :: _ => 6 | "h" :: _ => 7 | "o" :: _ => 8
  | "t" :: _ => match nth 15 s x00 with "d" => 1 | _ => 4 end
  | _ => 9
  end%byte%nat.
Definition number (w : why) : nat :=
  match w with WDecode _ _ _ => 0 | WNotDict => 1 | WMissing _ => 2 | WType _ _ _ _ => 3 | WNoFiles => 4 | WEntry => 5 | WPath _ => 6 | WHashes => 7 | WCounted _ _ => 8 | _ => 10 end%nat.
Lemma look_text other m w : proper w -> look (why_text other m w) = number w.
Proof. destruct w as [len c k| | | | | | | | | | | | |]; cbn [proper]; intros H; try contradiction; try reflexivity. destruct c; reflexivity. Qed.

Lemma first_sep (c : byte) (a a' : bytes) : ~ In c a -> ~ In c a' -> forall b b', a ++ c :: b = a' ++ c :: b' -> a = a' /\ b = b'.
Proof.
  revert a'. induction a as [|x a IH]; intros [|y a'] H H' b b' E; cbn in E.
  - injection E as ->. auto.
  - injection E as <- _. destruct H'. now left.
  - injection E as -> _. destruct H. now left.
  - injection E as <- E. destruct (IH a' ltac:(intros X; apply H; now right) ltac:(intros X; apply H'; now right) b b' E) as (-> & ->). auto.
Qed.
Lemma key_plain k : In k keys -> ~ In "]"%byte k.
Proof. intros H X. cbn in H. repeat (destruct H as [<-|H]; [cbn in X; repeat (destruct X as [X|X]; [discriminate|]); exact X|]). exact H. Qed.
Lemma want_plain k : In k wants -> ~ In "["%byte k.
Proof. intros H X. cbn in H. repeat (destruct H as [<-|H]; [cbn in X; repeat (destruct X as [X|X]; [discriminate|]); exact X|]). exact H. Qed.
Lemma have_plain v : ~ In "["%byte (type_name v).
Proof. intros X. destruct v as [|[]| | |]; cbn in X; repeat (destruct X as [X|X]; [discriminate|]); exact X. Qed.
Lemma slash_plain z : ~ In "/"%byte (itoa z).
Proof. intros X. apply itoa_chars in X. destruct X as [X|X]; [change (b2z "/") with 47 in X; lia|discriminate]. Qed.
Lemma any_len len len' c k : c <> CPanic -> error_text len c k = error_text len' c k.
Proof. destruct c; try reflexivity. congruence. Qed.
Lemma decode_text len len' c c' k k' : sound c -> sound c' -> error_text len c k = error_text len' c' k' -> c = c'.
Proof.
  intros H H' E. assert (D : forall c, c = CPanic \/ c <> CPanic) by (intros []; auto; right; discriminate).
  destruct (D c) as [->|N]; [destruct (D c') as [->|N']; [reflexivity|]|].
  - rewrite (any_len len' len c' k' N') in E. exact (proj1 (text_top _ _ _ _ _ H H' E)).
  - rewrite (any_len len len' c k N) in E. exact (proj1 (text_top _ _ _ _ _ H H' E)).
Qed.
Lemma type_text m m' k k' want want' have have' d d' : In k keys -> In k' keys -> In want wants -> In want' wants -> (exists v, have = type_name v) -> (exists v, have' = type_name v) ->
  forall other other', why_text other m (WType k want have d) = why_text other' m' (WType k' want' have' d') -> k = k' /\ want = want' /\ have = have'.
Proof.
  intros Hk Hk' Hw Hw' (v & ->) (v' & ->) other other' E. cbn [why_text] in E. apply app_inv_head in E.
  assert (Ek : k = k') by (exact (proj1 (first_sep "]"%byte k k' (key_plain k Hk) (key_plain k' Hk') _ _ E))). subst k'. apply app_inv_head in E. split; [reflexivity|].
  assert (R : forall a w h, B "] in dict [" ++ a ++ B "]" ++ nl ++ B "request [" ++ w ++ B "]" ++ nl ++ B "    got [" ++ h ++ B "]"
     = ((B "] in dict [" ++ a ++ B "]" ++ nl ++ B "request [" ++ w ++ B "]" ++ nl ++ B "    got ") ++ "["%byte :: h) ++ B "]").
  { intros a w h. rewrite <- !app_assoc. cbn [app]. change (B "    got [") with (B "    got " ++ B "["). rewrite <- app_assoc. reflexivity. }
  rewrite (R (map_at m d) want), (R (map_at m' d') want') in E. apply app_inv_tail in E.
  destruct (last_sep "["%byte _ _ (have_plain v) (have_plain v') _ _ E) as (E1 & ->). split; [|reflexivity].
  assert (R2 : forall a w, B "] in dict [" ++ a ++ B "]" ++ nl ++ B "request [" ++ w ++ B "]" ++ nl ++ B "    got "
     = ((B "] in dict [" ++ a ++ B "]" ++ nl ++ B "request ") ++ "["%byte :: w) ++ B "]" ++ nl ++ B "    got ").
  { intros a w. change (B "request [") with (B "request " ++ B "["). rewrite <- !app_assoc. reflexivity. }
  rewrite (R2 (map_at m d)), (R2 (map_at m' d')) in E1. apply app_inv_tail in E1.
  exact (proj2 (last_sep "["%byte _ _ (want_plain _ Hw) (want_plain _ Hw') _ _ E1)).
Qed.
Lemma tells_proper other other' m m' w w' : proper w -> proper w' -> why_text other m w = why_text other' m' w' -> meant w = meant w'.
Proof.
  intros H H' E. assert (N : number w = number w') by (rewrite <- (look_text other m w H), <- (look_text other' m' w' H'), E; reflexivity).
  destruct w as [len c k| |k|k want have d| | |v| |a b| | | | |]; destruct w' as [len' c' k'| |k'|k' want' have' d'| | |v'| |a' b'| | | | |]; cbn [proper] in H, H'; try contradiction; try discriminate N; cbn [meant]; try reflexivity.
  - cbn [why_text] in E. f_equal. exact (decode_text _ _ _ _ _ _ H H' E).
  - cbn [why_text] in E. apply app_inv_head in E. f_equal. exact (proj1 (first_sep "]"%byte k k' (key_plain k H) (key_plain k' H') _ _ E)).
  - destruct H as (A1 & A2 & A3), H' as (B1 & B2 & B3). destruct (type_text m m' k k' want want' have have' d d' A1 B1 A2 B2 A3 B3 other other' E) as (-> & -> & ->). reflexivity.
  - cbn [why_text] in E. apply app_inv_head in E. destruct (first_sep "/"%byte _ _ (slash_plain a) (slash_plain a') _ _ E) as (E1 & E2). apply itoa_inj in E1. apply app_inv_tail in E2. apply itoa_inj in E2. now subst.
Qed.
Lemma tells_top other other' m m' w w' : of_torrent w -> of_torrent w' -> why_text other m w = why_text other' m' w' -> meant w = meant w'.
Proof. intros H H'. apply tells_proper; apply torrent_proper; assumption. Qed.

(** A path without '%' is given as it is. *)
Lemma errorf_plain other s : ~ In "%"%byte s -> errorf other s = s.
Proof.
  induction s as [|b s IH]; intros H; [reflexivity|]. cbn [errorf]. destruct (Byte.eqb b "%"%byte) eqn:E; [apply Byte_eqb_eq in E; destruct H; now left|]. f_equal. apply IH. intros X. apply H. now right.
Qed.
Lemma path_top other m v : ~ In "%"%byte (shown v) -> why_text other m (WPath v) = B "file entry contains invalid path [" ++ shown v ++ B "]".
Proof.
  intros H. cbn [why_text]. apply errorf_plain. rewrite !in_app_iff. intros [X|[X|X]]; [|exact (H X)|]; cbn in X; repeat (destruct X as [X|X]; [discriminate|]); exact X.
Qed.

(** ** main *)
Lemma hput_noerr {T} (h : heap T) a f e : hput h a f <> Err e.
Proof. unfold hput. destruct (nth_error h a); discriminate. Qed.
Lemma noerr_bind {A C} (r : res A) (g : A -> res C) e : (forall x, r <> Err x) -> (forall a, g a <> Err e) -> (do x <- r; g x) <> Err e.
Proof. destruct r as [a|x| |]; cbn [bind]; intros H K; [apply K|destruct (H x eq_refl)|discriminate|discriminate]. Qed.
Lemma front_noerr (h : heap piece) b p e : AddDataFront h b p <> Err e.
Proof.
  unfold AddDataFront. cbv zeta. apply noerr_bind; [|intros [h' l']; discriminate]. intros x. unfold AddNodeFront. destruct (lsize b =? 0).
  - apply noerr_bind; [intros y; apply hput_noerr|intros h1]. apply noerr_bind; [intros y; apply hput_noerr|discriminate].
  - apply noerr_bind; [intros y; apply hput_noerr|intros h1]. apply noerr_bind; [intros y; apply hput_noerr|intros h2]. apply noerr_bind; [intros y; unfold hputo; destruct (lhead b); [apply hput_noerr|discriminate]|discriminate].
Qed.
Lemma new_noerr : forall n i h b l e, new_loop n i h b l <> Err e.
Proof.
  induction n as [|n IH]; intros i h b l e; cbn [new_loop]; [discriminate|]. pose proof (front_noerr h b (mkp i false MakeSet)) as F.
  destruct (AddDataFront h b (mkp i false MakeSet)) as [[[a h'] b']|x| |]; cbn [bind]; try discriminate; [apply IH|destruct (F x eq_refl)].
Qed.
Lemma ppt_noerr n e : NewPeerPieceTracker n <> Err e.
Proof.
  unfold NewPeerPieceTracker. pose proof (new_noerr (Z.to_nat n) 0 [] MakeList []) as F. destruct (new_loop _ _ _ _ _) as [[[h b] l]|x| |]; cbn [bind]; try discriminate. destruct (F x eq_refl).
Qed.
Lemma agree_get http n tor st port id : agree (tracker_GetE http n tor st port id) (tracker_Get n tor st port id).
Proof.
  unfold tracker_GetE, tracker_Get. apply agree_bind.
  - apply agree_of. intros e. unfold newRequest. destruct (n_query n (t_announce tor)); discriminate.
  - intros q _. destruct (n_answer n (t_announce tor) q); [apply agree_body|cbn; eauto].
Qed.
Lemma rand_noerr src : forall f todo c r nx sb e, rand_loop src f todo c r nx sb <> Err e.
Proof.
  induction f as [|f IH]; intros todo c r nx sb e; cbn [rand_loop]; [discriminate|]. destruct todo; [discriminate|]. destruct r; destruct (_ <? _); apply IH.
Qed.
Lemma id_noerr src fuel e : NewPeerId src fuel <> Err e.
Proof.
  unfold NewPeerId, randString. pose proof (rand_noerr src fuel 12 (src 0%nat) 10 1 []) as H. destruct (rand_loop src fuel 12 (src 0%nat) 10 1 []) as [|x| |]; cbn [bind]; try discriminate. destruct (H x eq_refl).
Qed.
Lemma swarm_fatal os http sha1 n src fuel sp o w : fst (CmdSwarm sha1 n src fuel sp o w) = Exit 1 <-> exists e, swarm_why os http sha1 n src fuel sp o w = Some e.
Proof.
  assert (NS : NewSwarm sha1 n src fuel sp o w =
    match NewPeerId src fuel with
    | Ok id => match os_readfile (o_input o) sp w with
      | (Ok fdata, w1) => match FromTorrentFile sha1 fdata (o_wd o) with
        | Ok tor => match open_files sha1 tor w1 with
          | (Ok b, w2) => match tracker_Get n tor (NewStats 0 0 0) (OptPort o) id with
            | Ok resp => match NewPeerPieceTracker (u32 (ti_npieces (t_info tor))) with
              | Ok t => (Ok (mksw id (OptPort o) tor b (NewStats 0 0 0) (r_state resp) (r_peers resp) (SetRate (o_uplim o)) (SetRate (o_dnlim o)) t), w2)
              | Err e => (Err e, w2) | Panic => (Panic, w2) | NoFuel => (NoFuel, w2) end
            | Err e => (Err e, w2) | Panic => (Panic, w2) | NoFuel => (NoFuel, w2) end
          | (Err e, w2) => (Err e, w2) | (Panic, w2) => (Panic, w2) | (NoFuel, w2) => (NoFuel, w2) end
        | Err e => (Err e, w1) | Panic => (Panic, w1) | NoFuel => (NoFuel, w1) end
      | (Err e, w1) => (Err e, w1) | (Panic, w1) => (Panic, w1) | (NoFuel, w1) => (NoFuel, w1) end
    | Err e => (Err e, w) | Panic => (Panic, w) | NoFuel => (NoFuel, w) end).
  { unfold NewSwarm, open_files, iobind, lift, ret. destruct (NewPeerId src fuel) as [id| | |]; try reflexivity. destruct (os_readfile (o_input o) sp w) as [[fdata| | |] w1]; try reflexivity.
    destruct (FromTorrentFile sha1 fdata (o_wd o)) as [tor| | |]; try reflexivity. destruct (NewFileIO w1) as [[u| | |] w2]; try reflexivity. destruct (OCATAll (ti_files (t_info tor)) w2) as [[u'| | |] w3]; try reflexivity.
    destruct (NewBitfield (ti_npieces (t_info tor))) as [b0| | |]; try reflexivity. }
  unfold CmdSwarm. rewrite NS. clear NS. unfold swarm_why, load.
  assert (no : forall x : fate, x <> Exit 1 -> (x = Exit 1 <-> exists e, @None why = Some e)) by (intros x Hx; split; [intros X; contradiction|intros (e & X); discriminate]).
  assert (yes : forall e, Exit 1 = Exit 1 <-> exists e', Some e = @Some why e') by (intros e; split; [intros _; eauto|reflexivity]).
  pose proof (id_noerr src fuel) as HI. destruct (NewPeerId src fuel) as [id|e| |]; [|destruct (HI e eq_refl)|apply no; discriminate|apply no; discriminate].
  destruct (os_readfile (o_input o) sp w) as [[fdata| | |] w1]; cbn [fst snd]; [|apply yes|apply no; discriminate|apply no; discriminate].
  pose proof (agree_top sha1 fdata (o_wd o)) as HA. destruct (FromTorrentFileE sha1 fdata (o_wd o)) as [tor|e| |]; cbn [agree] in HA; [rewrite HA|destruct HA as (x & ->); apply yes|rewrite HA; apply no; discriminate|rewrite HA; apply no; discriminate].
  destruct (open_files sha1 tor w1) as [[b| | |] w2]; [|apply yes|apply no; discriminate|apply no; discriminate].
  pose proof (agree_get http n tor (NewStats 0 0 0) (OptPort o) id) as HG. destruct (tracker_GetE http n tor (NewStats 0 0 0) (OptPort o) id) as [resp|e| |]; cbn [agree] in HG; [rewrite HG|destruct HG as (x & ->); apply yes|rewrite HG; apply no; discriminate|rewrite HG; apply no; discriminate].
  pose proof (ppt_noerr (u32 (ti_npieces (t_info tor)))) as HP. destruct (NewPeerPieceTracker (u32 (ti_npieces (t_info tor)))) as [t|e| |]; [apply no; discriminate|destruct (HP e eq_refl)|apply no; discriminate|apply no; discriminate].
Qed.
Lemma info_fatal os sha1 sp o w : fst (CmdTorInfo sha1 sp o w) = Exit 1 <-> exists e, fst (load os sha1 sp o w) = Says e.
Proof.
  unfold CmdTorInfo, load, iobind, lift. destruct (os_readfile (o_input o) sp w) as [[fdata| | |] w1]; cbn [fst]; [|split; eauto|split; [discriminate|intros (e & X); discriminate]|split; [discriminate|intros (e & X); discriminate]].
  pose proof (agree_top sha1 fdata (o_wd o)) as HA. destruct (FromTorrentFileE sha1 fdata (o_wd o)) as [tor|e| |]; cbn [agree] in HA; [rewrite HA|destruct HA as (x & ->)|rewrite HA|rewrite HA]; cbn [fst]; split; try discriminate; eauto; intros (y & X); discriminate.
Qed.
Lemma main_fatal os http uni sha1 n src fuel sp o w : fst (main uni sha1 n src fuel sp o w) = Exit 1 <-> exists e, main_why os http uni sha1 n src fuel sp o w = Some e.
Proof.
  unfold main, main_why. destruct (initOpts uni o) as [o'| | |]; cbn [fst]; try (split; [discriminate|intros (? & X); discriminate]).
  destruct (beqb (o_cmd o') (B "swarm")); [apply swarm_fatal|]. destruct (beqb (o_cmd o') (B "info")); [|cbn [fst]; split; [discriminate|intros (e & X); discriminate]].
  rewrite (info_fatal os). destruct (fst (load os sha1 sp o' w)) as [t|y| |]; split; intros (z & X); try discriminate; eexists; reflexivity.
Qed.
Lemma errorf_formatted other s t : formatted s t -> errorf other s = t.
Proof.
  induction 1 as [|b s t Hb H IH|s t H IH|c s t Hc H IH|]; [reflexivity| | | |reflexivity].
  - cbn [errorf]. apply Byte_eqb_neq in Hb. rewrite Hb, IH. reflexivity.
  - change (errorf other (B "%%" ++ s)) with ("%"%byte :: errorf other s). rewrite IH. reflexivity.
  - change (errorf other (B "%" ++ [c] ++ s)) with (if Byte.eqb c "%"%byte then "%"%byte :: errorf other s else if letter c then B "%!" ++ c :: B "(MISSING)" ++ errorf other s else other ("%"%byte :: c :: s)).
    destruct (Byte.eqb c "%"%byte) eqn:E; [apply Byte_eqb_eq in E; subst c; cbn in Hc; lia|]. replace (letter c) with true by (symmetry; unfold letter; cbv zeta; lia). rewrite IH. reflexivity.
Qed.
Lemma errorf_other other p c s : ~ In "%"%byte p -> c <> "%"%byte -> ~ (65 <= b2z c <= 90) -> ~ (97 <= b2z c <= 122) -> errorf other (p ++ "%"%byte :: c :: s) = p ++ other ("%"%byte :: c :: s).
Proof.
  intros Hp Hc H1 H2. induction p as [|b p IH]; cbn [app].
  - cbn [errorf]. change (Byte.eqb "%"%byte "%"%byte) with true. cbv iota. apply Byte_eqb_neq in Hc. rewrite Hc. replace (letter c) with false by (symmetry; unfold letter; cbv zeta; lia). reflexivity.
  - cbn [errorf]. assert (Hb : b <> "%"%byte) by (intros ->; apply Hp; left; reflexivity). apply Byte_eqb_neq in Hb. rewrite Hb, IH by (intros X; apply Hp; right; exact X). reflexivity.
Qed.
Lemma path_formatted other m v t : formatted (B "file entry contains invalid path [" ++ shown v ++ B "]") t -> why_text other m (WPath v) = t.
Proof. exact (errorf_formatted other _ t). Qed.
Lemma kinds_top v v' : type_name v = type_name v' -> forall t, is_a t v <-> is_a t v'.
Proof.
  intros H t. destruct v, v'; repeat match goal with k : ikind |- _ => destruct k end; try discriminate H; destruct t; cbn [is_a]; (split; intros [x X]; try discriminate X; eauto).
Qed.
