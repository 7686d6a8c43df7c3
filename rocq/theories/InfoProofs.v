(** InfoProofs.v: lemmas about FromDict, InfoBencode, FromTorrentFile and NewTorrent. *)
From Verif Require Import Base BencodeModel BencodeSpec DecimalProofs BencodeProofs PathModel PathSpec PathProofs.
From Verif Require Import LayoutModel LayoutSpec InfoSpec.

(** ** Paths in the files list *)
Lemma path_concat_strs ts : path_concat (map VStr ts) = Ok (flat_map (fun t => t ++ [slash]) ts).
Proof.
  induction ts as [|t ts IH]; [reflexivity|]. cbn [map path_concat flat_map]. rewrite IH. cbn [bind]. now rewrite <- app_assoc.
Qed.

Lemma flat_join ts : ts <> [] -> flat_map (fun t => t ++ [slash]) ts = join_slash ts ++ [slash].
Proof.
  induction ts as [|t ts IH]; intros H; [contradiction|]. cbn [flat_map join_slash]. destruct ts as [|u ts].
  - cbn [flat_map]. now rewrite app_nil_r.
  - rewrite IH by discriminate. rewrite <- !app_assoc. reflexivity.
Qed.

Lemma path_of_strs ts : ts <> [] -> path_of_list (map VStr ts) = Ok (join_slash ts).
Proof.
  intros H. unfold path_of_list. rewrite path_concat_strs. cbn [bind]. rewrite flat_join by assumption.
  destruct (join_slash ts ++ [slash]) eqn:E; [destruct (join_slash ts); discriminate|]. rewrite <- E. now rewrite removelast_last.
Qed.

Lemma path_of_split s : path_of_list (map VStr (split_slash s)) = Ok s.
Proof. rewrite path_of_strs by apply split_nonempty. now rewrite join_split. Qed.

Lemma path_of_list_panic l : path_of_list l = Panic <-> l = [].
Proof.
  split; [|intros ->; reflexivity]. unfold path_of_list.
  assert (H : forall l, match path_concat l with Ok s => s = [] -> l = [] | Panic => False | _ => True end).
  { clear. induction l as [|v l IH]; cbn [path_concat]; [auto|]. destruct v; try exact I.
    destruct (path_concat l); cbn [bind]; auto. intros E. destruct s; discriminate. }
  specialize (H l). destruct (path_concat l) as [s| | |]; cbn [bind]; try discriminate; try contradiction.
  destruct s; [auto|discriminate].
Qed.

Lemma FromBenList_panic l : FromBenList l = Panic <->
  exists pre d post n, l = pre ++ VDict d :: post /\ (exists es, FromBenList pre = Ok es) /\
    GetInt d (B "length") = Ok n /\ GetList d (B "path") = Ok [].
Proof.
  split.
  - induction l as [|v l IH]; cbn [FromBenList]; [discriminate|]. destruct v as [| |d| |]; try discriminate.
    assert (HI : forall k, GetInt d k <> Panic) by (intros k; unfold GetInt, dict_get; destruct (dget k d) as [[| [] | | |]|]; discriminate).
    assert (HL : forall k, GetList d k <> Panic) by (intros k; unfold GetList, dict_get; destruct (dget k d) as [[| | | |]|]; discriminate).
    destruct (GetInt d (B "length")) as [n| | |] eqn:En; cbn [bind]; try discriminate; [|exfalso; eapply HI; eassumption].
    destruct (GetList d (B "path")) as [pl| | |] eqn:Ep; cbn [bind]; try discriminate; [|exfalso; eapply HL; eassumption].
    destruct (path_of_list pl) as [p| | |] eqn:Epl; cbn [bind]; try discriminate.
    + destruct (FromBenList l) as [es| | |] eqn:El; cbn [bind]; try discriminate. intros _.
      destruct (IH eq_refl) as (pre & d' & post & n' & -> & (es & Hes) & H1 & H2).
      exists (VDict d :: pre), d', post, n'. split; [reflexivity|]. split; [|auto].
      cbn [FromBenList]. rewrite En, Ep. cbn [bind]. rewrite Epl, Hes. cbn [bind]. eauto.
    + intros _. apply path_of_list_panic in Epl. subst pl. exists [], d, l, n. split; [reflexivity|]. split; [exists []; reflexivity|auto].
  - intros (pre & d & post & n & -> & (es & Hes) & H1 & H2). revert es Hes. induction pre as [|v pre IH]; intros es Hes.
    + cbn [app FromBenList]. rewrite H1, H2. reflexivity.
    + cbn [app FromBenList] in *. destruct v as [| |d'| |]; try discriminate.
      destruct (GetInt d' (B "length")); cbn [bind] in *; try discriminate.
      destruct (GetList d' (B "path")); cbn [bind] in *; try discriminate.
      destruct (path_of_list _); cbn [bind] in *; try discriminate.
      destruct (FromBenList pre) as [es'| | |]; cbn [bind] in *; try discriminate. now rewrite (IH es' eq_refl).
Qed.

(** ** Local paths do not influence the rest of TorInfo *)
Definition stripb (b : ebase) : ebase := mkeb (eb_len b) (eb_tor b) [].
Definition stripe (e : entry) : entry := mken (stripb (en_base e)) (en_sp e) (en_ep e) (en_so e) (en_eo e).
Definition stript (t : torinfo) : torinfo :=
  mkti (ti_name t) (ti_plen t) (ti_hashes t) (ti_npieces t) (ti_length t) (map stripe (ti_files t)) (ti_single t) (ti_pm t) (ti_lastlen t).
Definition rmap {A C} (f : A -> C) (r : res A) : res C :=
  match r with Ok a => Ok (f a) | Err e => Err e | Panic => Panic | NoFuel => NoFuel end.

Lemma file_step_strip b P i o : file_step (stripb b) P i o = rmap (fun '(e, x, y) => (stripe e, x, y)) (file_step b P i o).
Proof.
  unfold file_step. cbn [stripb eb_len]. unfold div64, rem64. destruct (P =? 0); cbn [bind rmap]; [reflexivity|].
  destruct (P <=? _); cbn [bind]; destruct (_ =? P); reflexivity.
Qed.

Lemma MakeFileList_loop_strip P : forall bs i o, MakeFileList_loop (map stripb bs) P i o = rmap (map stripe) (MakeFileList_loop bs P i o).
Proof.
  induction bs as [|b bs IH]; intros i o; [reflexivity|]. cbn [map MakeFileList_loop]. rewrite file_step_strip.
  destruct (file_step b P i o) as [[[e x] y]| | |]; cbn [rmap bind]; try reflexivity.
  rewrite IH. destruct (MakeFileList_loop bs P x y); reflexivity.
Qed.

Lemma pm_inner_strip e k P : forall f s, pm_inner f (stripe e) k P s = pm_inner f e k P s.
Proof.
  induction f as [|f IH]; intros [[[pm pidx] prem] tot]; [reflexivity|]. cbn [pm_inner].
  change (PieceInfo (stripe e) pidx P) with (PieceInfo e pidx P).
  destruct (PieceInfo e pidx P); try reflexivity. destruct (pidx <? 0); [reflexivity|].
  destruct (nth_error pm (Z.to_nat pidx)); [|reflexivity]. destruct (_ <=? 0); [apply IH|reflexivity].
Qed.

Lemma pm_outer_strip n P : forall fl k s, pm_outer (map stripe fl) k n P s = pm_outer fl k n P s.
Proof.
  induction fl as [|e fl IH]; intros k [[[pm pidx] prem] tot]; [reflexivity|]. cbn [map pm_outer].
  destruct (pidx =? n); [reflexivity|]. rewrite pm_inner_strip. change (pm_fuel (stripe e) pidx) with (pm_fuel e pidx).
  destruct (pm_inner _ e k P _); cbn [bind]; try reflexivity. apply IH.
Qed.

Lemma NewTorInfo_strip name P hashes fs : NewTorInfo name P hashes (map stripb fs) = rmap stript (NewTorInfo name P hashes fs).
Proof.
  unfold NewTorInfo. destruct (negb _); [reflexivity|].
  assert (Hs : sum64 (map stripb fs) = sum64 fs).
  { unfold sum64. generalize 0 as a. induction fs as [|f fs IH]; intros a; [reflexivity|]. cbn [map fold_left]. apply IH. }
  rewrite Hs. unfold MakeFileList. rewrite MakeFileList_loop_strip. destruct (MakeFileList_loop fs P 0 0) as [fl| | |]; cbn [rmap bind]; try reflexivity.
  unfold MakePieceMap. rewrite pm_outer_strip. destruct (pm_outer fl 0 _ P _) as [[[[pm pidx] prem] tot]| | |]; cbn [bind]; try reflexivity.
  destruct (tot =? _); cbn [bind]; [|reflexivity]. rewrite map_length. reflexivity.
Qed.

Lemma stript_same a b : stript a = stript b -> same_torinfo a b.
Proof.
  intros H. unfold stript in H. injection H as H1 H2 H3 H4 H5 H6 H7 H8 H9. unfold same_torinfo. repeat (split; [assumption|]).
  split; [|auto]. revert H6. generalize (ti_files b) as y. induction (ti_files a) as [|e l IH]; intros [|e' l'] H; try discriminate; [constructor|].
  cbn [map] in H. injection H as Ha Hb Hc Hd He Hf Hg. constructor; [unfold same_entry; auto 10|]. auto.
Qed.

Lemma NewTorInfo_same name P hashes fs1 fs2 t1 : map stripb fs1 = map stripb fs2 -> NewTorInfo name P hashes fs1 = Ok t1 ->
  exists t2, NewTorInfo name P hashes fs2 = Ok t2 /\ same_torinfo t1 t2.
Proof.
  intros Hs H. pose proof (NewTorInfo_strip name P hashes fs1) as A. pose proof (NewTorInfo_strip name P hashes fs2) as C.
  rewrite Hs, C, H in A. cbn [rmap] in A. destruct (NewTorInfo name P hashes fs2) as [t2| | |]; try discriminate.
  exists t2. split; [reflexivity|]. cbn [rmap] in A. apply stript_same. congruence.
Qed.

(** ** What NewTorInfo keeps *)
Lemma file_step_base b P i o e x y : file_step b P i o = Ok (e, x, y) -> en_base e = b.
Proof.
  unfold file_step, div64, rem64. destruct (P =? 0); [discriminate|]. cbn [bind].
  destruct (P <=? _); cbn [bind]; destruct (_ =? P); intros H; injection H as <- _ _; reflexivity.
Qed.
Lemma MakeFileList_bases P : forall bs i o es, MakeFileList_loop bs P i o = Ok es -> map en_base es = bs.
Proof.
  induction bs as [|b bs IH]; intros i o es; cbn [MakeFileList_loop]; [intros H; injection H as <-; reflexivity|].
  destruct (file_step b P i o) as [[[e x] y]| | |] eqn:E; cbn [bind]; try discriminate.
  destruct (MakeFileList_loop bs P x y) as [es'| | |] eqn:E2; cbn [bind]; try discriminate.
  intros H. injection H as <-. cbn [map]. rewrite (file_step_base _ _ _ _ _ _ _ E), (IH _ _ _ E2). reflexivity.
Qed.

Lemma NewTorInfo_fields name P hashes fs ti : NewTorInfo name P hashes fs = Ok ti ->
  ti_name ti = name /\ ti_plen ti = P /\ ti_hashes ti = hashes /\ ti_length ti = sum64 fs /\
  map en_base (ti_files ti) = fs /\ ti_single ti = Nat.eqb (List.length fs) 1.
Proof.
  unfold NewTorInfo. destruct (negb _); [discriminate|]. destruct (MakeFileList fs P) as [fl| | |] eqn:E; cbn [bind]; try discriminate.
  destruct (MakePieceMap _ _ _ _); cbn [bind]; try discriminate. intros H. injection H as <-. cbn. repeat (split; [reflexivity|]).
  split; [eapply MakeFileList_bases; exact E|reflexivity].
Qed.

(** ** Round trip *)
Lemma FromBenList_entries fs : FromBenList (map entry_Bencode fs) = Ok (map (fun f => MakeFileEntry (eb_tor f) (eb_len f)) fs).
Proof.
  induction fs as [|f fs IH]; [reflexivity|]. cbn [map FromBenList]. unfold entry_Bencode at 1.
  change (GetInt [(B "length", VInt KInt64 (eb_len f)); (B "path", VList (map VStr (split_slash (eb_tor f))))] (B "length")) with (Ok (eb_len f)).
  change (GetList [(B "length", VInt KInt64 (eb_len f)); (B "path", VList (map VStr (split_slash (eb_tor f))))] (B "path")) with (Ok (map VStr (split_slash (eb_tor f)))).
  cbn [bind]. rewrite path_of_split. cbn [bind]. rewrite IH. reflexivity.
Qed.

Lemma round_trip name P hashes fs ti wd : NewTorInfo name P hashes fs = Ok ti -> single_named name fs -> int64_lens fs ->
  exists ti', FromDict (InfoBencode ti) wd = Ok ti' /\ same_torinfo ti ti'.
Proof.
  intros HN Hs HL. destruct (NewTorInfo_fields _ _ _ _ _ HN) as (H1 & H2 & H3 & H4 & H5 & H6).
  unfold FromDict.
  assert (G1 : GetString (InfoBencode ti) (B "name") = Ok name) by (unfold InfoBencode; rewrite H1; reflexivity).
  assert (G2 : GetInt (InfoBencode ti) (B "piece length") = Ok P) by (unfold InfoBencode; rewrite H2; reflexivity).
  assert (G3 : GetString (InfoBencode ti) (B "pieces") = Ok hashes) by (unfold InfoBencode; rewrite H3; reflexivity).
  rewrite G1, G2, G3. cbn [bind].
  assert (HE : exists fes, dict_entries (InfoBencode ti) wd name = Ok fes /\ map stripb fs = map stripb fes).
  { unfold dict_entries. destruct (Nat.eqb_spec (List.length fs) 1) as [Es|Es].
    - destruct fs as [|f [|]]; try discriminate.
      assert (G4 : GetInt (InfoBencode ti) (B "length") = Ok (eb_len f)).
      { unfold InfoBencode. rewrite H6, H4. inversion HL; subst. cbn [sum64 fold_left List.length Nat.eqb].
        unfold sum64. cbn [fold_left]. unfold add64. rewrite Z.add_0_l, i64_id by assumption. reflexivity. }
      rewrite G4. eexists. split; [reflexivity|]. cbn [map]. unfold stripb. cbn. rewrite (Hs f eq_refl). reflexivity.
    - assert (G4 : GetInt (InfoBencode ti) (B "length") = Err EMissingKey) by (unfold InfoBencode; rewrite H6; reflexivity).
      assert (G5 : GetList (InfoBencode ti) (B "files") = Ok (map entry_Bencode fs)).
      { unfold InfoBencode. rewrite H6. rewrite <- H5, map_map. reflexivity. }
      rewrite G4, G5. rewrite FromBenList_entries. cbn [bind]. eexists. split; [reflexivity|]. rewrite !map_map. apply map_ext. reflexivity. }
  destruct HE as (fes & -> & Hf). cbn [bind]. eapply NewTorInfo_same; eassumption.
Qed.

(** ** Map order and lookups *)
Lemma gperm_get d e k : NoDup (map fst d) -> gperm (VDict d) (VDict e) ->
  match dget k d, dget k e with Some v, Some w => gperm v w | None, None => True | _, _ => False end.
Proof.
  intros Hn Hg. inversion Hg as [| | |? d' ? Hp HF|]; subst.
  assert (Hn' : NoDup (map fst d')) by (eapply Permutation_NoDup; [apply Permutation_map; exact Hp|assumption]).
  assert (Hd : dget k d = dget k d').
  { destruct (dget k d) as [v|] eqn:E.
    - symmetry. apply dget_in; [assumption|]. eapply Permutation_in; [exact Hp|]. apply dget_in; assumption.
    - symmetry. apply dget_none. apply dget_none in E. intros Hi. apply E. eapply Permutation_in; [apply Permutation_map; symmetry; exact Hp|assumption]. }
  rewrite Hd. clear - HF. induction HF as [|[k1 v1] [k2 v2] l l' [Hk Hv] _ IH]; cbn [dget]; [exact I|].
  cbn [fst snd] in *. subst k2. destruct (beqb k k1); [assumption|exact IH].
Qed.

Lemma gperm_string d e k : NoDup (map fst d) -> gperm (VDict d) (VDict e) -> GetString d k = GetString e k.
Proof.
  intros Hn Hg. pose proof (gperm_get d e k Hn Hg) as H. unfold GetString, dict_get.
  destruct (dget k d), (dget k e); try contradiction; [|reflexivity]. cbn [bind]. inversion H; reflexivity.
Qed.
Lemma gperm_int d e k : NoDup (map fst d) -> gperm (VDict d) (VDict e) -> GetInt d k = GetInt e k.
Proof.
  intros Hn Hg. pose proof (gperm_get d e k Hn Hg) as H. unfold GetInt, dict_get.
  destruct (dget k d), (dget k e); try contradiction; [|reflexivity]. cbn [bind]. inversion H; reflexivity.
Qed.
Lemma gperm_list d e k : NoDup (map fst d) -> gperm (VDict d) (VDict e) ->
  match GetList d k, GetList e k with
  | Ok l, Ok l' => Forall2 gperm l l' /\ In (k, VList l) d
  | Err a, Err b => a = b
  | _, _ => False
  end.
Proof.
  intros Hn Hg. pose proof (gperm_get d e k Hn Hg) as H. unfold GetList, dict_get.
  destruct (dget k d) as [v|] eqn:E, (dget k e); try contradiction; [|reflexivity]. cbn [bind]. inversion H; subst; try reflexivity.
  split; [assumption|]. apply dget_in; assumption.
Qed.

Lemma gperm_path l l' : Forall2 gperm l l' -> path_of_list l = path_of_list l'.
Proof.
  intros H. unfold path_of_list. assert (E : path_concat l = path_concat l').
  { induction H as [|v w l l' Hv _ IH]; [reflexivity|]. cbn [path_concat]. inversion Hv; subst; try reflexivity. now rewrite IH. }
  now rewrite E.
Qed.

Lemma gperm_benlist l l' : Forall2 gperm l l' -> Forall go_wf l -> FromBenList l = FromBenList l'.
Proof.
  intros H; induction H as [|v w l l' Hv _ IH]; intros Hw; [reflexivity|]. inversion Hw as [|? ? Hwv Hwl]; subst. cbn [FromBenList].
  inversion Hv as [| | |d d' e Hp HF|]; subst; try reflexivity.
  inversion Hwv as [| |? Hnd _ _| |]; subst. assert (Hg : gperm (VDict d) (VDict e)) by (econstructor; eassumption).
  rewrite (gperm_int _ _ _ Hnd Hg). destruct (GetInt e (B "length")); cbn [bind]; try reflexivity.
  pose proof (gperm_list d e (B "path") Hnd Hg) as HL.
  destruct (GetList d (B "path")), (GetList e (B "path")); try contradiction; cbn [bind]; try congruence.
  rewrite (gperm_path _ _ (proj1 HL)). destruct (path_of_list _); cbn [bind]; try reflexivity. now rewrite (IH Hwl).
Qed.

Lemma FromDict_gperm d e wd : go_wf (VDict d) -> gperm (VDict d) (VDict e) -> FromDict d wd = FromDict e wd.
Proof.
  intros Hw Hg. inversion Hw as [| |? Hnd _ HF| |]; subst. unfold FromDict.
  rewrite !(gperm_string _ _ _ Hnd Hg), !(gperm_int _ _ _ Hnd Hg).
  destruct (GetString e (B "name")) as [name| | |]; cbn [bind]; try reflexivity.
  destruct (GetInt e (B "piece length")); cbn [bind]; try reflexivity.
  destruct (GetString e (B "pieces")); cbn [bind]; try reflexivity.
  assert (HE : dict_entries d wd name = dict_entries e wd name); [|now rewrite HE].
  unfold dict_entries. rewrite (gperm_int _ _ _ Hnd Hg). destruct (GetInt e (B "length")); try reflexivity.
  pose proof (gperm_list d e (B "files") Hnd Hg) as HL.
  destruct (GetList d (B "files")), (GetList e (B "files")); try contradiction; try reflexivity.
  destruct HL as [H2 Hin]. rewrite (gperm_benlist _ _ H2); [reflexivity|].
  rewrite Forall_forall in HF. specialize (HF _ Hin). cbn [snd] in HF. inversion HF; assumption.
Qed.

Lemma denotes_gperm v : forall m, denotes v m -> all_int64 v -> gperm v (ofb m).
Proof.
  induction v as [s|k z|d IH|l IH|] using gval_ind'; intros m Hd Ha; inversion Hd; subst; cbn [ofb].
  - constructor.
  - inversion Ha; subst. constructor.
  - inversion Ha as [| | |? HF]; subst. econstructor; [eassumption|].
    assert (IH' : Forall (fun kv => forall m, denotes (snd kv) m -> all_int64 (snd kv) -> gperm (snd kv) (ofb m)) d') by (rewrite Forall_forall in *; intros x Hx; apply IH; eapply Permutation_in; [symmetry|]; eassumption).
    assert (HF' : Forall (fun kv => all_int64 (snd kv)) d') by (rewrite Forall_forall in *; intros x Hx; apply HF; eapply Permutation_in; [symmetry|]; eassumption).
    match goal with H : Forall2 _ d' m0 |- _ => rename H into H3 end.
    clear - H3 IH' HF'. induction H3 as [|kv km l l' [Hk Hv] _ IH]; [constructor|]. inversion IH'; inversion HF'; subst. cbn [map].
    constructor; [cbn [fst snd]; split; [assumption|auto]|auto].
  - inversion Ha as [| |? HF|]; subst. constructor.
    match goal with H : Forall2 _ l _ |- _ => rename H into H1 end.
    clear - H1 IH HF. induction H1 as [|x y l l' Hv _ IH']; [constructor|]. inversion IH; inversion HF; subst. constructor; auto.
Qed.

Lemma InfoBencode_int64 ti : all_int64 (VDict (InfoBencode ti)).
Proof.
  constructor. unfold InfoBencode. repeat (constructor; [constructor|]). constructor; [|constructor].
  destruct (ti_single ti); cbn [snd]; constructor. rewrite Forall_map. apply Forall_forall. intros e _. unfold entry_Bencode.
  constructor. constructor; [constructor|]. constructor; [|constructor]. cbn [snd]. constructor. rewrite Forall_map. apply Forall_forall. constructor.
Qed.

(** ** Through bencoded text *)
Lemma round_trip_text name P hashes fs ti wd enc junk sp :
  NewTorInfo name P hashes fs = Ok ti -> single_named name fs -> int64_lens fs ->
  go_wf (VDict (InfoBencode ti)) -> no_min64 (VDict (InfoBencode ti)) -> Encode (VDict (InfoBencode ti)) = (enc, None) ->
  exists w ti', Decode (mkslice (enc ++ junk) sp) = Ok (VDict w) /\ FromDict w wd = Ok ti' /\ same_torinfo ti ti'.
Proof.
  intros HN Hs HL Hw Hm He. unfold Encode in He.
  assert (Hen : encodable (VDict (InfoBencode ti))) by (apply encode_none_iff; rewrite He; reflexivity).
  destruct (encode_canonical _ Hw Hen) as (m & Hd & Hc). rewrite He in Hc. cbn [fst] in Hc.
  pose proof (denotes_representable _ Hw Hm _ Hd) as Hr.
  pose proof (denotes_gperm _ _ Hd (InfoBencode_int64 ti)) as Hg.
  inversion Hd as [| | |? d' mm Hp Hss HF2]; subst. cbn [ofb] in Hg.
  eexists _. destruct (round_trip _ _ _ _ _ wd HN Hs HL) as (ti' & HF & Hsame).
  exists ti'. split; [apply (Decode_canonical _ _ junk sp Hc Hr)|]. split; [|assumption].
  rewrite <- HF. symmetry. apply FromDict_gperm; assumption.
Qed.

(** ** FromTorrentFile *)
Lemma dget_ofb m k v : StronglySorted key_lt (map fst m) -> In (k, v) m -> dget k (map (onsnd ofb) m) = Some (ofb v).
Proof.
  intros Hs Hi. apply dget_in.
  - rewrite map_map. cbn [onsnd fst]. apply sorted_nodup. assumption.
  - apply in_map_iff. exists (k, v). split; [reflexivity|assumption].
Qed.

Lemma FromTorrentFile_text sha1 m t im tb junk sp wd tor : info_text m t im tb -> no_empty (BDict im) ->
  FromTorrentFile sha1 (mkslice (t ++ junk) sp) wd = Ok tor ->
  t_infohash tor = sha1 tb /\ FromDict (map (onsnd ofb) im) wd = Ok (t_info tor).
Proof.
  intros (Hc & Hr & Hi & Hci) Hne. unfold FromTorrentFile. rewrite (Decode_canonical _ _ junk sp Hc Hr). cbn [bind ofb].
  inversion Hc as [| | | |? ? Hss Hcm]; subst.
  destruct (GetString _ (B "announce")) as [ann| | |]; cbn [bind]; try discriminate.
  unfold GetDict, dict_get. change (map (fun kv => (fst kv, ofb (snd kv))) m) with (map (onsnd ofb) m).
  rewrite (dget_ofb _ _ _ Hss Hi). cbn [bind ofb]. change (map (fun kv => (fst kv, ofb (snd kv))) im) with (map (onsnd ofb) im).
  destruct (proj1 ofb_facts _ _ Hci) as (_ & _ & He). specialize (He Hne). cbn [ofb] in He.
  change (map (fun kv => (fst kv, ofb (snd kv))) im) with (map (onsnd ofb) im) in He. unfold Encode. rewrite He. cbn [fst].
  destruct (FromDict _ wd) as [ti| | |]; cbn [bind]; try discriminate. intros H. injection H as <-. auto.
Qed.

Lemma canonical_functional :
  (forall m t, canonical m t -> forall t', canonical m t' -> t = t') /\
  (forall l t, canonical_seq l t -> forall t', canonical_seq l t' -> t = t') /\
  (forall m t, canonical_map m t -> forall t', canonical_map m t' -> t = t').
Proof.
  apply canonical_mutind.
  - intros s ds Hd t' H. inversion H as [? ds' Hd'| | | |]; subst. now rewrite (decimal_unique _ _ _ Hd Hd').
  - intros n ds Hd t' H. pose proof (decimal_nonneg _ _ Hd). inversion H as [|? ds' Hd'|n' ds' Hd' Hn'| |]; subst.
    + now rewrite (decimal_unique _ _ _ Hd Hd').
    + pose proof (decimal_nonneg _ _ Hd'). lia.
  - intros n ds Hd Hn t' H. pose proof (decimal_nonneg _ _ Hd). inversion H as [|? ds' Hd'|n' ds' Hd' Hn'| |]; subst.
    + pose proof (decimal_nonneg _ _ Hd'). lia.
    + assert (n' = n) by lia. subst n'. now rewrite (decimal_unique _ _ _ Hd Hd').
  - intros l t Hl IH t' H. inversion H as [| | |? t2 Hl2|]; subst. now rewrite (IH _ Hl2).
  - intros m t Hs Hm IH t' H. inversion H as [| | | |? t2 Hs2 Hm2]; subst. now rewrite (IH _ Hm2).
  - intros t' H. now inversion H.
  - intros v l tv tl Hv IHv Hl IHl t' H. inversion H as [|? ? tv' tl' Hv' Hl']; subst. now rewrite (IHv _ Hv'), (IHl _ Hl').
  - intros t' H. now inversion H.
  - intros k v m tk tv tm Hk IHk Hv IHv Hm IHm t' H. inversion H as [|? ? ? tk' tv' tm' Hk' Hv' Hm']; subst.
    now rewrite (IHk _ Hk'), (IHv _ Hv'), (IHm _ Hm').
Qed.
Lemma canonical_fun m t t' : canonical m t -> canonical m t' -> t = t'.
Proof. intros H H'. eapply (proj1 canonical_functional); eassumption. Qed.

Lemma canonical_map_sub m : forall t k v, canonical_map m t -> In (k, v) m ->
  forall tv, canonical v tv -> exists pre post tk, canonical (BStr k) tk /\ t = pre ++ tk ++ tv ++ post.
Proof.
  induction m as [|[k' v'] m IH]; intros t k v Hc Hi tv Hv; [destruct Hi|]. inversion Hc as [|? ? ? tk tv' tm Hk Hv' Hm]; subst.
  destruct Hi as [E|Hi].
  - injection E as -> ->. assert (Htv : tv = tv') by (eapply canonical_fun; eassumption).
    subst tv'. exists [], tm, tk. split; [assumption|reflexivity].
  - destruct (IH _ _ _ Hm Hi _ Hv) as (pre & post & tk' & Hk' & ->). exists (tk ++ tv' ++ pre), post, tk'. split; [assumption|].
    now rewrite <- !app_assoc.
Qed.

Lemma info_hash_range sha1 m t im tb junk sp wd tor : info_text m t im tb -> no_empty (BDict im) ->
  FromTorrentFile sha1 (mkslice (t ++ junk) sp) wd = Ok tor ->
  t_infohash tor = sha1 tb /\ exists pre post, t = pre ++ B "4:info" ++ tb ++ post.
Proof.
  intros Ht Hne Hf. split; [eapply FromTorrentFile_text; eassumption|].
  destruct Ht as (Hc & _ & Hi & Hci). inversion Hc as [| | | |? t' Hss Hcm]; subst.
  destruct (canonical_map_sub _ _ _ _ Hcm Hi _ Hci) as (pre & post & tk & Hk & ->).
  assert (tk = B "4:info").
  { eapply canonical_fun; [exact Hk|]. change (B "4:info") with (B "4" ++ [":"%byte] ++ B "info"). constructor.
    split; [discriminate|]. split; [repeat constructor; vm_compute; discriminate|]. split; [|reflexivity].
    intros d r E Hd. injection E as <- <-. reflexivity. }
  subst tk. exists ("d"%byte :: pre), (post ++ ["e"%byte]). cbn [app]. now rewrite <- !app_assoc.
Qed.

(** ** Recomputing the infohash *)
Lemma plain_single_info name hashes P L wd ti : min64 <= L <= max64 ->
  FromDict (map (onsnd ofb) (plain_single name hashes P L)) wd = Ok ti ->
  gperm (VDict (InfoBencode ti)) (VDict (map (onsnd ofb) (plain_single name hashes P L))).
Proof.
  intros HL. unfold FromDict. set (d := map (onsnd ofb) (plain_single name hashes P L)).
  change (GetString d (B "name")) with (Ok name). change (GetInt d (B "piece length")) with (Ok P). change (GetString d (B "pieces")) with (Ok hashes).
  cbn [bind]. unfold dict_entries. change (GetInt d (B "length")) with (Ok L). cbn [bind].
  intros H. destruct (NewTorInfo_fields _ _ _ _ _ H) as (H1 & H2 & H3 & H4 & H5 & H6).
  unfold InfoBencode. rewrite H1, H2, H3, H4, H6. cbn [List.length Nat.eqb].
  replace (sum64 _) with L.
  2: { unfold sum64. cbn [fold_left SetLocalPath MakeFileEntry eb_len]. unfold add64. rewrite Z.add_0_l, i64_id by assumption. reflexivity. }
  apply gp_dict with (d' := d); unfold d, plain_single; cbn [map onsnd fst snd ofb].
  - apply Permutation_sym. etransitivity; [apply Permutation_cons_append|]. reflexivity.
  - repeat (constructor; [split; [reflexivity|constructor]|]). constructor.
Qed.

Lemma FromBenList_plain fs : Forall (fun f => path_list (snd f)) fs ->
  FromBenList (map ofb (map plain_file fs)) = Ok (map (fun f => MakeFileEntry (join_slash (snd f)) (fst f)) fs).
Proof.
  induction fs as [|f fs IH]; intros H; [reflexivity|]. inversion H as [|? ? [Hn Hs] HF]; subst. cbn [map FromBenList]. unfold plain_file at 1.
  cbn [ofb map fst snd].
  match goal with |- context [GetInt ?d _] => set (dd := d) end.
  change (GetInt dd (B "length")) with (Ok (fst f)). change (GetList dd (B "path")) with (Ok (map ofb (map BStr (snd f)))).
  cbn [bind]. rewrite map_map. change (map (fun x => ofb (BStr x)) (snd f)) with (map VStr (snd f)).
  rewrite path_of_strs by assumption. cbn [bind]. rewrite IH by assumption. reflexivity.
Qed.

Lemma plain_multi_info name hashes P fs wd ti : Forall (fun f => path_list (snd f)) fs -> List.length fs <> 1%nat ->
  FromDict (map (onsnd ofb) (plain_multi name hashes P fs)) wd = Ok ti ->
  gperm (VDict (InfoBencode ti)) (VDict (map (onsnd ofb) (plain_multi name hashes P fs))).
Proof.
  intros Hfs Hn. unfold FromDict. set (d := map (onsnd ofb) (plain_multi name hashes P fs)).
  change (GetString d (B "name")) with (Ok name). change (GetInt d (B "piece length")) with (Ok P). change (GetString d (B "pieces")) with (Ok hashes).
  cbn [bind]. unfold dict_entries. change (GetInt d (B "length")) with (@Err Z EMissingKey).
  change (GetList d (B "files")) with (Ok (map ofb (map plain_file fs))). cbv beta iota. rewrite FromBenList_plain by assumption. cbn [bind].
  intros H. destruct (NewTorInfo_fields _ _ _ _ _ H) as (H1 & H2 & H3 & H4 & H5 & H6).
  unfold InfoBencode. rewrite H1, H2, H3, H6. rewrite !map_length. replace (Nat.eqb (List.length fs) 1) with false by (symmetry; apply Nat.eqb_neq; assumption).
  apply gp_dict with (d' := [(B "files", VList (map (fun e => entry_Bencode (en_base e)) (ti_files ti))); (B "name", VStr name); (B "piece length", VInt KInt64 P);
     (B "pieces", VStr hashes); (B "private", VInt KInt64 0)]).
  - apply Permutation_sym. etransitivity; [apply Permutation_cons_append|]. reflexivity.
  - unfold d, plain_multi; cbn [map onsnd fst snd ofb]. constructor; [split; [reflexivity|]|].
    + cbn [snd]. constructor. rewrite <- (map_map en_base entry_Bencode), H5. rewrite !map_map.
      clear - Hfs. induction Hfs as [|f fs [Hne Hs] _ IH]; [constructor|]. cbn [map]. constructor; [|assumption].
      unfold entry_Bencode, plain_file, SetLocalPath, MakeFileEntry. cbn [eb_tor eb_len ofb map fst snd].
      apply gp_dict with (d' := [(B "length", VInt KInt64 (fst f)); (B "path", VList (map VStr (split_slash (join_slash (snd f)))))]); [reflexivity|].
      constructor; [split; [reflexivity|constructor]|]. constructor; [|constructor]. split; [reflexivity|]. cbn [snd].
      rewrite split_join by assumption. rewrite map_map. constructor. clear. induction (snd f); [constructor|]. cbn [map]. constructor; [constructor|assumption].
    + repeat (constructor; [split; [reflexivity|constructor]|]). constructor.
Qed.

Lemma recompute sha1 m t im tb junk sp wd tor ann : info_text m t im tb -> no_empty (BDict im) ->
  (exists name hashes P L, im = plain_single name hashes P L) \/
  (exists name hashes P fs, im = plain_multi name hashes P fs /\ Forall (fun f => path_list (snd f)) fs /\ List.length fs <> 1%nat) ->
  FromTorrentFile sha1 (mkslice (t ++ junk) sp) wd = Ok tor -> go_wf (VDict (InfoBencode (t_info tor))) ->
  NewTorrent sha1 (t_info tor) ann = Ok (mktor (t_infohash tor) ann (t_info tor)).
Proof.
  intros Ht Hne Hpl Hf Hw. destruct (FromTorrentFile_text _ _ _ _ _ _ _ _ _ Ht Hne Hf) as [Hh Hd].
  destruct Ht as (Hc & Hr & Hi & Hci). destruct (proj1 ofb_facts _ _ Hci) as (_ & _ & He). specialize (He Hne).
  assert (Hg : gperm (VDict (InfoBencode (t_info tor))) (ofb (BDict im))).
  { destruct Hpl as [(name & hashes & P & L & ->)|(name & hashes & P & fs & -> & Hfs & Hn)].
    - apply (plain_single_info name hashes P L wd); [|exact Hd]. inversion Hr as [| | |? HF]; subst. rewrite Forall_forall in HF.
      destruct (HF _ Hi) as [_ Hri]. cbn [snd] in Hri. inversion Hri as [| | |? HF2]; subst. inversion HF2 as [|? ? [_ HrL] _]; subst.
      cbn [snd] in HrL. inversion HrL; subst. lia.
    - apply (plain_multi_info name hashes P fs wd); assumption. }
  unfold NewTorrent, Encode. rewrite (encode_gperm _ _ Hg Hw), He. rewrite Hh. reflexivity.
Qed.

(** If the recomputed hash input is the original one, the original dictionary has the same keys. *)
Lemma recompute_same_text m t im tb ti : info_text m t im tb -> go_wf (VDict (InfoBencode ti)) ->
  Encode (VDict (InfoBencode ti)) = (tb, None) -> denotes (VDict (InfoBencode ti)) (BDict im).
Proof.
  intros (_ & _ & _ & Hc) Hw He. unfold Encode in He.
  assert (Hen : encodable (VDict (InfoBencode ti))) by (apply encode_none_iff; rewrite He; reflexivity).
  destruct (encode_canonical _ Hw Hen) as (m' & Hd & Hc'). rewrite He in Hc'. cbn [fst] in Hc'.
  rewrite (canonical_inj _ _ _ Hc Hc'). exact Hd.
Qed.

Lemma denotes_key d im k v : denotes (VDict d) (BDict im) -> In (k, v) d -> exists b, In (k, b) im /\ denotes v b.
Proof.
  intros Hd Hi. inversion Hd as [| | |? d' ? Hp Hss HF]; subst. pose proof (Permutation_in _ Hp Hi) as Hi'.
  clear - HF Hi'. induction HF as [|kv km l l' [Hk Hv] _ IH]; [destruct Hi'|]. destruct Hi' as [->|Hi'].
  - cbn [fst snd] in *. exists (snd km). split; [left; rewrite Hk; destruct km; reflexivity|assumption].
  - destruct (IH Hi') as (b & Hb & Hd). exists b. split; [right; assumption|assumption].
Qed.
Lemma denotes_key_back d im k b : denotes (VDict d) (BDict im) -> In (k, b) im -> exists v, In (k, v) d /\ denotes v b.
Proof.
  intros Hd Hi. inversion Hd as [| | |? d' ? Hp Hss HF]; subst.
  assert (H : exists v, In (k, v) d' /\ denotes v b).
  { clear - HF Hi. induction HF as [|kv km l l' [Hk Hv] _ IH]; [destruct Hi|]. destruct Hi as [->|Hi].
    - cbn [fst snd] in *. exists (snd kv). split; [left; rewrite <- Hk; destruct kv; reflexivity|assumption].
    - destruct (IH Hi) as (v & Hv' & Hd). exists v. split; [right; assumption|assumption]. }
  destruct H as (v & Hv & Hd'). exists v. split; [|assumption]. eapply Permutation_in; [symmetry; exact Hp|assumption].
Qed.

Lemma recompute_needs_private m t im tb ti : info_text m t im tb -> go_wf (VDict (InfoBencode ti)) ->
  ~ In (B "private", BInt 0) im -> Encode (VDict (InfoBencode ti)) <> (tb, None).
Proof.
  intros Ht Hw Hn He. apply Hn. pose proof (recompute_same_text _ _ _ _ _ Ht Hw He) as Hd.
  destruct (denotes_key _ _ (B "private") (VInt KInt64 0) Hd) as (b & Hb & Hv); [unfold InfoBencode; cbn; tauto|].
  inversion Hv; subst. exact Hb.
Qed.

Lemma recompute_single m t im tb ti : info_text m t im tb -> go_wf (VDict (InfoBencode ti)) -> ti_single ti = true ->
  (exists fs, In (B "files", fs) im) -> Encode (VDict (InfoBencode ti)) <> (tb, None).
Proof.
  intros Ht Hw Hs (fs & Hfs) He. pose proof (recompute_same_text _ _ _ _ _ Ht Hw He) as Hd.
  destruct (denotes_key_back _ _ _ _ Hd Hfs) as (v & Hv & _). unfold InfoBencode in Hv. rewrite Hs in Hv. cbn [In] in Hv.
  repeat (destruct Hv as [Hv|Hv]; [discriminate|]). destruct Hv.
Qed.

(** ** Where files go *)
Lemma dict_entries_single info wd name L : GetInt info (B "length") = Ok L ->
  dict_entries info wd name = Ok [mkeb L name (Join [wd; name])].
Proof. intros H. unfold dict_entries. rewrite H. reflexivity. Qed.

Lemma FromBenList_in l es e : FromBenList l = Ok es -> In e es -> eb_local e = eb_tor e /\
  exists d pl, In (VDict d) l /\ GetList d (B "path") = Ok pl /\ path_of_list pl = Ok (eb_tor e).
Proof.
  revert es; induction l as [|v l IH]; intros es H Hi; cbn [FromBenList] in H; [injection H as <-; destruct Hi|].
  destruct v as [| |d| |]; try discriminate.
  destruct (GetInt d (B "length")); cbn [bind] in H; try discriminate.
  destruct (GetList d (B "path")) as [pl| | |] eqn:Ep; cbn [bind] in H; try discriminate.
  destruct (path_of_list pl) as [p| | |] eqn:Epl; cbn [bind] in H; try discriminate.
  destruct (FromBenList l) as [es'| | |]; cbn [bind] in H; try discriminate. injection H as <-.
  destruct Hi as [<-|Hi].
  - split; [reflexivity|]. exists d, pl. split; [left; reflexivity|auto].
  - destruct (IH es' eq_refl Hi) as (H1 & d' & pl' & H2 & H3). split; [assumption|]. exists d', pl'. split; [right; assumption|assumption].
Qed.

Lemma Ok_inj {A} (a b : A) : Ok a = Ok b -> a = b.
Proof. congruence. Qed.

Lemma files_contained info wd name cwd ti e :
  FromDict info wd = Ok ti -> GetString info (B "name") = Ok name -> plain_name name -> plain_paths info ->
  In e (ti_files ti) -> below (place cwd wd) (place cwd (eb_local (en_base e))).
Proof.
  intros HF Hname Hpn Hpp He. unfold FromDict in HF. rewrite Hname in HF. cbn [bind] in HF.
  destruct (GetInt info (B "piece length")) as [P| | |]; cbn [bind] in HF; try discriminate.
  destruct (GetString info (B "pieces")) as [hashes| | |]; cbn [bind] in HF; try discriminate.
  destruct (dict_entries info wd name) as [fes| | |] eqn:Ed; cbn [bind] in HF; try discriminate.
  destruct (NewTorInfo_fields _ _ _ _ _ HF) as (_ & _ & _ & _ & Hb & _).
  assert (Hin : In (en_base e) fes) by (rewrite <- Hb; apply in_map; assumption).
  unfold dict_entries in Ed. destruct (GetInt info (B "length")) as [L|er| |]; try discriminate.
  - apply Ok_inj in Ed; subst fes. destruct Hin as [Hin|[]]. rewrite <- Hin. cbn [SetLocalPath eb_local MakeFileEntry eb_tor].
    exists [name]. split; [discriminate|]. apply place_Join_plain. assumption.
  - destruct (GetList info (B "files")) as [files| | |] eqn:Efl; try discriminate.
    destruct (FromBenList files) as [es| | |] eqn:Eb; cbn [bind] in Ed; try discriminate. apply Ok_inj in Ed; subst fes.
    apply in_map_iff in Hin. destruct Hin as (f & <- & Hf). destruct (FromBenList_in _ _ _ Eb Hf) as (_ & d & pl & Hd & Hp & Hpl).
    destruct (Hpp files d pl Efl Hd Hp) as (ts & -> & Hts).
    assert (Hne : ts <> []) by (intros ->; discriminate).
    rewrite path_of_strs in Hpl by assumption. injection Hpl as Hpl. cbn [SetLocalPath eb_local]. rewrite <- Hpl.
    rewrite place_Join_names; [|apply Join_nonempty; apply Hpn|assumption|assumption].
    rewrite place_Join_plain by assumption. exists (name :: ts). split; [discriminate|]. now rewrite <- app_assoc.
Qed.

(** In general the local path is found by following the name and the torrent path from the working directory. *)
Lemma local_path_general info wd name cwd ti e : wd <> [] ->
  FromDict info wd = Ok ti -> GetString info (B "name") = Ok name -> name <> [] -> eb_tor (en_base e) <> [] ->
  In e (ti_files ti) ->
  place cwd (eb_local (en_base e)) =
    (if match GetInt info (B "length") with Ok _ => true | _ => false end then follow (place cwd wd) (split_slash name)
     else follow (follow (place cwd wd) (split_slash name)) (split_slash (eb_tor (en_base e)))).
Proof.
  intros Hwd HF Hname Hnn Htor He. unfold FromDict in HF. rewrite Hname in HF. cbn [bind] in HF.
  destruct (GetInt info (B "piece length")) as [P| | |]; cbn [bind] in HF; try discriminate.
  destruct (GetString info (B "pieces")) as [hashes| | |]; cbn [bind] in HF; try discriminate.
  destruct (dict_entries info wd name) as [fes| | |] eqn:Ed; cbn [bind] in HF; try discriminate.
  destruct (NewTorInfo_fields _ _ _ _ _ HF) as (_ & _ & _ & _ & Hb & _).
  assert (Hin : In (en_base e) fes) by (rewrite <- Hb; apply in_map; assumption).
  unfold dict_entries in Ed. destruct (GetInt info (B "length")) as [L|er| |]; try discriminate.
  - apply Ok_inj in Ed; subst fes. destruct Hin as [Hin|[]]. rewrite <- Hin. cbn [SetLocalPath eb_local MakeFileEntry eb_tor].
    apply place_Join2; assumption.
  - destruct (GetList info (B "files")) as [files| | |] eqn:Efl; try discriminate.
    destruct (FromBenList files) as [es| | |] eqn:Eb; cbn [bind] in Ed; try discriminate. apply Ok_inj in Ed; subst fes.
    apply in_map_iff in Hin. destruct Hin as (f & Hef & Hf). rewrite <- Hef in Htor |- *. cbn [SetLocalPath eb_local eb_tor] in *.
    rewrite place_Join2; [|apply Join_nonempty; assumption|assumption]. f_equal. apply place_Join2; assumption.
Qed.

(** ** An empty name: the encoder stops there *)
Lemma encode_no_name h P L :
  fst (Encode (VDict (map (onsnd ofb) (plain_single [] h P L)))) = B "d6:lengthi" ++ itoa L ++ B "e4:name".
Proof.
  unfold plain_single. cbn [map onsnd fst snd ofb].
  remember (itoa L) as s eqn:Es. cbv -[itoa app utoa]. rewrite <- Es.
  change (itoa 6) with ["6"%byte]. change (itoa 4) with ["4"%byte]. cbn [app]. rewrite <- app_assoc. reflexivity.
Qed.

Lemma no_name_hash sha1 m t h P L tb junk sp wd tor : info_text m t (plain_single [] h P L) tb ->
  FromTorrentFile sha1 (mkslice (t ++ junk) sp) wd = Ok tor ->
  t_infohash tor = sha1 (B "d6:lengthi" ++ itoa L ++ B "e4:name").
Proof.
  intros (Hc & Hr & Hi & Hci). unfold FromTorrentFile. rewrite (Decode_canonical _ _ junk sp Hc Hr). cbn [bind ofb].
  inversion Hc as [| | | |? ? Hss Hcm]; subst.
  destruct (GetString _ (B "announce")) as [ann| | |]; cbn [bind]; try discriminate.
  unfold GetDict, dict_get. change (map (fun kv => (fst kv, ofb (snd kv))) m) with (map (onsnd ofb) m).
  rewrite (dget_ofb _ _ _ Hss Hi). cbn [bind ofb].
  change (map (fun kv => (fst kv, ofb (snd kv))) (plain_single [] h P L)) with (map (onsnd ofb) (plain_single [] h P L)).
  rewrite encode_no_name. destruct (FromDict _ wd) as [ti| | |]; cbn [bind]; try discriminate.
  intros H. apply Ok_inj in H. now subst tor.
Qed.

Lemma no_name_collision sha1 m1 t1 m2 t2 h1 h2 P1 P2 L tb1 tb2 wd tor1 tor2 :
  info_text m1 t1 (plain_single [] h1 P1 L) tb1 -> info_text m2 t2 (plain_single [] h2 P2 L) tb2 ->
  FromTorrentFile sha1 (mkslice t1 []) wd = Ok tor1 -> FromTorrentFile sha1 (mkslice t2 []) wd = Ok tor2 ->
  t_infohash tor1 = t_infohash tor2.
Proof.
  intros H1 H2 F1 F2. rewrite <- (app_nil_r t1) in F1. rewrite <- (app_nil_r t2) in F2.
  rewrite (no_name_hash _ _ _ _ _ _ _ _ _ _ _ H1 F1), (no_name_hash _ _ _ _ _ _ _ _ _ _ _ H2 F2). reflexivity.
Qed.

(** ** Termination of the metadata constructors, and panics *)
Lemma i64_range z : min64 <= i64 z <= max64.
Proof. unfold i64, min64, max64. pose proof (Z.mod_pos_bound (z + 9223372036854775808) 18446744073709551616). lia. Qed.

Lemma pm_inner_fuel e k P : en_ep e <= max64 -> forall f s, (S (Z.to_nat (en_ep e - snd (fst (fst s)))) < f)%nat ->
  pm_inner f e k P s <> NoFuel.
Proof.
  intros He. induction f as [|f IH]; intros [[[pm pidx] prem] tot] Hf; [lia|]. cbn [fst snd] in Hf. cbn [pm_inner].
  unfold PieceInfo. destruct ((pidx <? en_sp e) || (en_ep e <? pidx)) eqn:Er; [discriminate|].
  destruct (seek_loop _ P 0 (en_so e)) as [seek off].
  destruct (pidx <? 0) eqn:Ep; [discriminate|]. destruct (nth_error pm (Z.to_nat pidx)); [|discriminate].
  destruct (_ <=? 0); [|discriminate]. apply orb_false_iff in Er.
  destruct (Z.eq_dec pidx (en_ep e)) as [E|E].
  - destruct f as [|f]; [lia|]. cbn [pm_inner]. unfold PieceInfo.
    destruct ((add64 pidx 1 <? en_sp e) || (en_ep e <? add64 pidx 1)) eqn:Er'; [discriminate|].
    destruct (seek_loop _ P 0 (en_so e)) as [seek' off'].
    assert (Hw : add64 pidx 1 < 0 \/ add64 pidx 1 = pidx + 1).
    { unfold add64. destruct (Z_le_gt_dec (pidx + 1) max64); [right; apply i64_id; unfold min64 in *; lia|left].
      assert (pidx = max64) by lia. subst pidx. rewrite H. reflexivity. }
    destruct Hw as [Hw|Hw]; [destruct (Z.ltb_spec (add64 pidx 1) 0); [discriminate|lia]|].
    apply orb_false_iff in Er'. lia.
  - apply IH. cbn [fst snd]. unfold add64. rewrite i64_id by (unfold min64; lia). lia.
Qed.

Lemma pm_outer_fuel n P : forall fl k s, Forall (fun e => en_ep e <= max64) fl -> pm_outer fl k n P s <> NoFuel.
Proof.
  induction fl as [|e fl IH]; intros k [[[pm pidx] prem] tot] HF; cbn [pm_outer]; [discriminate|].
  inversion HF; subst. destruct (pidx =? n); [discriminate|].
  pose proof (pm_inner_fuel e k P H1 (pm_fuel e pidx) (pm, pidx, prem, tot)) as Hi. cbn [fst snd] in Hi. unfold pm_fuel in Hi |- *.
  specialize (Hi ltac:(lia)). destruct (pm_inner _ e k P _); cbn [bind]; try discriminate; [|contradiction]. apply IH. assumption.
Qed.

Lemma file_step_ep b P i o : match file_step b P i o with Ok (e, _, _) => en_ep e <= max64 | NoFuel => False | _ => True end.
Proof.
  unfold file_step, div64, rem64. destruct (P =? 0); cbn [bind]; [exact I|].
  destruct (P <=? _); cbn [bind]; destruct (_ =? P); cbn [en_ep]; unfold add64; apply i64_range.
Qed.
Lemma MakeFileList_ep P : forall bs i o, match MakeFileList_loop bs P i o with Ok es => Forall (fun e => en_ep e <= max64) es | NoFuel => False | _ => True end.
Proof.
  induction bs as [|b bs IH]; intros i o; cbn [MakeFileList_loop]; [constructor|]. pose proof (file_step_ep b P i o) as Hs.
  destruct (file_step b P i o) as [[[e x] y]| | |]; cbn [bind]; auto. specialize (IH x y).
  destruct (MakeFileList_loop bs P x y); cbn [bind]; auto.
Qed.

Lemma NewTorInfo_terminates name P hashes fs : NewTorInfo name P hashes fs <> NoFuel.
Proof.
  unfold NewTorInfo. destruct (negb _); [discriminate|]. pose proof (MakeFileList_ep P fs 0 0) as He. unfold MakeFileList.
  destruct (MakeFileList_loop fs P 0 0) as [fl| | |]; cbn [bind]; try discriminate; [|contradiction].
  unfold MakePieceMap. pose proof (pm_outer_fuel (zlen hashes / 20) P fl 0 (repeat [] (Z.to_nat (zlen hashes / 20)), 0, P, 0) He) as Ho.
  destruct (pm_outer fl 0 _ P _) as [[[[pm pidx] prem] tot]| | |]; cbn [bind]; try discriminate; [|contradiction].
  destruct (tot =? _); cbn [bind]; discriminate.
Qed.

Lemma get_nofuel d k : GetString d k <> NoFuel /\ GetInt d k <> NoFuel /\ GetList d k <> NoFuel.
Proof. unfold GetString, GetInt, GetList, dict_get. destruct (dget k d) as [[| [] | | |]|]; repeat split; discriminate. Qed.

Lemma FromBenList_nofuel l : FromBenList l <> NoFuel.
Proof.
  induction l as [|v l IH]; cbn [FromBenList]; [discriminate|]. destruct v as [| |d| |]; try discriminate.
  destruct (GetInt d (B "length")) eqn:E1; cbn [bind]; try discriminate; [|destruct (get_nofuel d (B "length")); tauto].
  destruct (GetList d (B "path")) as [pl| | |] eqn:E2; cbn [bind]; try discriminate; [|destruct (get_nofuel d (B "path")); tauto].
  assert (Hp : path_of_list pl <> NoFuel).
  { unfold path_of_list. assert (Hc : path_concat pl <> NoFuel).
    { clear. induction pl as [|v pl IH]; cbn [path_concat]; [discriminate|]. destruct v; try discriminate. destruct (path_concat pl); cbn [bind]; try discriminate; contradiction. }
    destruct (path_concat pl) as [s| | |]; cbn [bind]; try discriminate; [destruct s; discriminate|contradiction]. }
  destruct (path_of_list pl); cbn [bind]; try discriminate; [|contradiction].
  destruct (FromBenList l); cbn [bind]; try discriminate; contradiction.
Qed.

Lemma FromDict_terminates d wd : FromDict d wd <> NoFuel.
Proof.
  unfold FromDict. destruct (GetString d (B "name")) as [name| | |] eqn:E1; cbn [bind]; try discriminate; [|destruct (get_nofuel d (B "name")); tauto].
  destruct (GetInt d (B "piece length")) eqn:E2; cbn [bind]; try discriminate; [|destruct (get_nofuel d (B "piece length")); tauto].
  destruct (GetString d (B "pieces")) eqn:E3; cbn [bind]; try discriminate; [|destruct (get_nofuel d (B "pieces")); tauto].
  assert (Hd : dict_entries d wd name <> NoFuel).
  { unfold dict_entries. destruct (GetInt d (B "length")) eqn:E4; try discriminate; [|destruct (get_nofuel d (B "length")); tauto].
    destruct (GetList d (B "files")) as [l| | |] eqn:E5; try discriminate; [|destruct (get_nofuel d (B "files")); tauto].
    pose proof (FromBenList_nofuel l). destruct (FromBenList l); cbn [bind]; try discriminate; contradiction. }
  destruct (dict_entries d wd name); cbn [bind]; try discriminate; [apply NewTorInfo_terminates|contradiction].
Qed.

Lemma NewTorInfo_P0 name hashes fs : fs <> [] -> zlen hashes mod 20 = 0 -> NewTorInfo name 0 hashes fs = Panic.
Proof. intros Hf Hh. unfold NewTorInfo. rewrite Hh. cbn [Z.eqb negb]. destruct fs as [|f fs]; [contradiction|]. reflexivity. Qed.

Lemma FromDict_P0 d wd name hashes : GetString d (B "name") = Ok name -> GetInt d (B "piece length") = Ok 0 ->
  GetString d (B "pieces") = Ok hashes -> zlen hashes mod 20 = 0 ->
  forall fes, dict_entries d wd name = Ok fes -> fes <> [] -> FromDict d wd = Panic.
Proof. intros H1 H2 H3 Hh fes Hd Hn. unfold FromDict. rewrite H1, H2, H3. cbn [bind]. rewrite Hd. cbn [bind]. now apply NewTorInfo_P0. Qed.

Lemma FromDict_path_panic d wd name P hashes files : GetString d (B "name") = Ok name -> GetInt d (B "piece length") = Ok P ->
  GetString d (B "pieces") = Ok hashes -> (forall n, GetInt d (B "length") <> Ok n) -> GetList d (B "files") = Ok files ->
  FromBenList files = Panic -> FromDict d wd = Panic.
Proof.
  intros H1 H2 H3 H4 H5 H6. unfold FromDict. rewrite H1, H2, H3. cbn [bind]. unfold dict_entries.
  assert (exists er, GetInt d (B "length") = Err er) as (er & ->).
  { revert H4. unfold GetInt, dict_get. destruct (dget (B "length") d) as [[| [] | | |]|]; cbn [bind]; intros H4; eauto; exfalso; eapply H4; reflexivity. }
  rewrite H5, H6. reflexivity.
Qed.

(** ** For concrete texts *)
Lemma canonical_as m t t' : canonical m t -> t = t' -> canonical m t'.
Proof. now intros H <-. Qed.
Ltac canon := repeat first
  [ eapply can_dict | eapply can_list | eapply can_str; apply itoa_decimal; vm_compute; discriminate
  | eapply can_pos; apply itoa_decimal; vm_compute; discriminate
  | eapply can_nil | eapply can_cons | eapply can_mnil | eapply can_mcons
  | repeat constructor; fail ].
Ltac rep := repeat first [apply rp_dict | apply rp_list | apply rp_str; vm_compute; discriminate | apply rp_int; unfold min64, max64; lia
  | apply Forall_cons | apply Forall_nil | split; [vm_compute; discriminate|] | cbn [snd fst]].
Ltac info_text_tac := split; [eapply canonical_as; [canon|vm_compute; reflexivity]|split; [rep|split; [cbn [In]; tauto|eapply canonical_as; [canon|vm_compute; reflexivity]]]].
Ltac noempty := repeat first [apply ne_dict | apply ne_list | apply ne_str; discriminate | apply ne_int
  | apply Forall_cons | apply Forall_nil | split; [discriminate|] | cbn [snd fst]].
