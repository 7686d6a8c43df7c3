(** LoadProofs.v: lemmas about which torrent files load. *)
From Coq Require Import ZifyBool ZifyNat ZifyN Permutation.
From Verif Require Import Base BencodeModel BencodeSpec DecimalProofs BencodeProofs LenientSpec LenientProofs PathModel PathSpec PathProofs.
From Verif Require Import LayoutModel LayoutSpec LayoutProofs PieceMapProofs InfoSpec InfoProofs LoadSpec.

Lemma str_iff d k s : NoDup (map fst d) -> (In (k, VStr s) d <-> GetString d k = Ok s).
Proof. intros H. symmetry. apply (GetString_spec d k H). Qed.
Lemma int_iff d k z : NoDup (map fst d) -> (In (k, VInt KInt64 z) d <-> GetInt d k = Ok z).
Proof. intros H. symmetry. apply (GetInt_spec d k H). Qed.
Lemma list_iff d k l : NoDup (map fst d) -> (In (k, VList l) d <-> GetList d k = Ok l).
Proof. intros H. symmetry. apply (GetList_spec d k H). Qed.
Lemma dict_iff d k l : NoDup (map fst d) -> (In (k, VDict l) d <-> GetDict d k = Ok l).
Proof. intros H. symmetry. apply (GetDict_spec d k H). Qed.

Lemma path_text_join parts : path_text parts = join_slash parts.
Proof. induction parts as [|s r IH]; [reflexivity|]. cbn [path_text join_slash]. destruct r; [reflexivity|]. now rewrite IH. Qed.

Lemma path_concat_ok l s : path_concat l = Ok s -> exists parts, l = map VStr parts.
Proof.
  revert s. induction l as [|v l IH]; intros s H; [exists []; reflexivity|]. cbn [path_concat] in H.
  destruct v as [b| | | |]; try discriminate. destruct (path_concat l) as [t| | |]; cbn [bind] in H; try discriminate.
  destruct (IH t eq_refl) as [parts ->]. now exists (b :: parts).
Qed.

Lemma path_of_list_ok l p : path_of_list l = Ok p -> exists parts, l = map VStr parts /\ parts <> [] /\ p = path_text parts.
Proof.
  intros H. destruct (path_concat l) as [s| | |] eqn:E; try (unfold path_of_list in H; rewrite E in H; discriminate).
  destruct (path_concat_ok _ _ E) as [parts ->]. exists parts. split; [reflexivity|].
  destruct parts as [|a r]; [discriminate|]. split; [discriminate|]. rewrite path_of_strs in H by discriminate.
  rewrite path_text_join. injection H as <-. reflexivity.
Qed.

Definition mk (f : bytes * Z) : ebase := MakeFileEntry (fst f) (snd f).

Lemma wf_keys d : go_wf (VDict d) -> NoDup (map fst d).
Proof. intros H. inversion H; assumption. Qed.
Lemma wf_in d k v : go_wf (VDict d) -> In (k, v) d -> go_wf v.
Proof. intros H Hi. inversion H; subst. rewrite Forall_forall in *. match goal with X : forall x, In x d -> go_wf (snd x) |- _ => exact (X _ Hi) end. Qed.
Lemma wf_list_all l : go_wf (VList l) -> Forall go_wf l.
Proof. intros H. inversion H; assumption. Qed.

Lemma entry_reads v f : go_wf v -> file_entry v f -> forall r, FromBenList (v :: r) = do es <- FromBenList r; Ok (mk f :: es).
Proof.
  intros Hw (d & parts & n & -> & Hl & Hp & Hne & ->) r. pose proof (wf_keys _ Hw) as Hn. cbn [FromBenList].
  apply (int_iff d _ _ Hn) in Hl. apply (list_iff d _ _ Hn) in Hp. rewrite Hl, Hp. cbn [bind].
  rewrite path_of_strs by assumption. cbn [bind]. unfold mk. cbn [fst snd]. reflexivity.
Qed.

Lemma entries_read l fs : Forall go_wf l -> Forall2 file_entry l fs -> FromBenList l = Ok (map mk fs).
Proof.
  intros Hw H. induction H as [|v f l fs Hf H IH]; [reflexivity|]. inversion Hw; subst.
  rewrite (entry_reads v f) by assumption. rewrite IH by assumption. reflexivity.
Qed.

Lemma entries_ok l es : Forall go_wf l -> FromBenList l = Ok es -> exists fs, Forall2 file_entry l fs /\ es = map mk fs.
Proof.
  revert es. induction l as [|v l IH]; intros es Hw H; [injection H as <-; exists []; split; [constructor|reflexivity]|].
  inversion Hw as [|? ? Hv Hl]; subst. cbn [FromBenList] in H. destruct v as [| |d| |]; try discriminate.
  destruct (GetInt d (B "length")) as [n| | |] eqn:E1; cbn [bind] in H; try discriminate.
  destruct (GetList d (B "path")) as [pl| | |] eqn:E2; cbn [bind] in H; try discriminate.
  destruct (path_of_list pl) as [p| | |] eqn:E3; cbn [bind] in H; try discriminate.
  destruct (FromBenList l) as [es'| | |] eqn:E4; cbn [bind] in H; try discriminate. injection H as <-.
  destruct (IH es' Hl eq_refl) as (fs & Hf & ->). pose proof (wf_keys _ Hv) as Hn.
  apply (int_iff d _ _ Hn) in E1. apply (list_iff d _ _ Hn) in E2.
  destruct (path_of_list_ok _ _ E3) as (parts & -> & Hne & ->).
  exists ((path_text parts, n) :: fs). split; [|reflexivity]. constructor; [|assumption]. now exists d, parts, n.
Qed.

Definition stated (e : ebase) : bytes * Z := (eb_tor e, eb_len e).

Lemma no_length info : NoDup (map fst info) -> (forall n, ~ In (B "length", VInt KInt64 n) info) <-> exists e, GetInt info (B "length") = Err e.
Proof.
  intros Hn. split.
  - intros H. destruct (GetInt info (B "length")) as [n|e| |] eqn:E; [|eauto| |].
    + apply (int_iff info _ _ Hn) in E. destruct (H _ E).
    + exfalso. unfold GetInt, dict_get in E. destruct (dget _ info) as [[| [] | | |]|]; discriminate.
    + destruct (get_nofuel info (B "length")) as (_ & A & _). contradiction.
  - intros (e & He) n Hi. apply (int_iff info _ _ Hn) in Hi. rewrite Hi in He. discriminate.
Qed.

Lemma lists_entries info wd name fs : go_wf (VDict info) -> lists_files info name fs ->
  exists fes, dict_entries info wd name = Ok fes /\ map stated fes = fs.
Proof.
  intros Hw H. pose proof (wf_keys _ Hw) as Hn. unfold dict_entries. destruct H as [(n & Hi & ->)|(Hno & l & Hi & HF)].
  - apply (int_iff info _ _ Hn) in Hi. rewrite Hi. eexists. split; reflexivity.
  - apply (no_length info Hn) in Hno. destruct Hno as [e ->]. pose proof (wf_list_all _ (wf_in _ _ _ Hw Hi)) as Hl.
    apply (list_iff info _ _ Hn) in Hi. rewrite Hi. rewrite (entries_read l fs) by assumption. cbn [bind]. eexists. split; [reflexivity|].
    rewrite !map_map. clear. induction fs as [|[p n] fs IH]; [reflexivity|]. cbn [map]. now rewrite IH.
Qed.

Lemma entries_lists info wd name fes : go_wf (VDict info) -> dict_entries info wd name = Ok fes -> lists_files info name (map stated fes).
Proof.
  intros Hw H. pose proof (wf_keys _ Hw) as Hn. unfold dict_entries in H.
  destruct (GetInt info (B "length")) as [n|e| |] eqn:E; try discriminate.
  - injection H as <-. apply (int_iff info _ _ Hn) in E. left. exists n. split; [assumption|reflexivity].
  - right. split; [apply (no_length info Hn); eauto|].
    destruct (GetList info (B "files")) as [l| | |] eqn:E2; try discriminate. apply (list_iff info _ _ Hn) in E2.
    destruct (FromBenList l) as [es| | |] eqn:E3; cbn [bind] in H; try discriminate. injection H as <-.
    destruct (entries_ok l es (wf_list_all _ (wf_in _ _ _ Hw E2)) E3) as (fs & HF & ->).
    exists l. split; [assumption|]. rewrite !map_map.
    replace (map _ fs) with fs; [assumption|]. clear. induction fs as [|[p n] fs IH]; [reflexivity|]. cbn [map]. now rewrite <- IH.
Qed.

Lemma entries_lie info wd name fes : go_wf (VDict info) -> dict_entries info wd name = Ok fes -> Forall2 (lies wd info name) (map stated fes) (map eb_local fes).
Proof.
  intros Hw H. pose proof (wf_keys _ Hw) as Hn. unfold dict_entries in H.
  destruct (GetInt info (B "length")) as [n|e| |] eqn:E; try discriminate.
  - injection H as <-. apply (int_iff info _ _ Hn) in E. constructor; [|constructor]. left. split; [eauto|reflexivity].
  - assert (Hno : forall n, ~ In (B "length", VInt KInt64 n) info) by (apply (no_length info Hn); eauto).
    destruct (GetList info (B "files")) as [l| | |] eqn:E2; try discriminate.
    destruct (FromBenList l) as [es| | |] eqn:E3; cbn [bind] in H; try discriminate. injection H as <-. clear E3.
    induction es as [|x es IH]; cbn [map]; constructor; [|exact IH]. right. split; [exact Hno|reflexivity].
Qed.

Lemma pathless_panic info wd name : go_wf (VDict info) -> (pathless info <-> dict_entries info wd name = Panic).
Proof.
  intros Hw. pose proof (wf_keys _ Hw) as Hn. split.
  - intros (Hno & l & pre & d & post & fs & n & Hi & -> & HF & Hl & Hp). unfold dict_entries.
    apply (no_length info Hn) in Hno. destruct Hno as [e ->]. pose proof (wf_list_all _ (wf_in _ _ _ Hw Hi)) as HA.
    apply (list_iff info _ _ Hn) in Hi. rewrite Hi. apply Forall_app in HA. destruct HA as [HA HB]. inversion HB as [|? ? Hd _]; subst.
    pose proof (wf_keys _ Hd) as Hnd.
    replace (FromBenList (pre ++ VDict d :: post)) with (@Panic (list ebase)); [reflexivity|]. symmetry. apply FromBenList_panic.
    exists pre, d, post, n. split; [reflexivity|]. split; [eexists; eapply entries_read; eassumption|].
    split; [now apply (int_iff d _ _ Hnd)|now apply (list_iff d _ _ Hnd)].
  - intros H. unfold dict_entries in H. destruct (GetInt info (B "length")) as [n|e| |] eqn:E; try discriminate.
    + split; [apply (no_length info Hn); eauto|]. destruct (GetList info (B "files")) as [l| | |] eqn:E2; try discriminate.
      * apply (list_iff info _ _ Hn) in E2. destruct (FromBenList l) as [es| | |] eqn:E3; cbn [bind] in H; try discriminate.
        apply FromBenList_panic in E3. destruct E3 as (pre & d & post & n & -> & (es & Hes) & H1 & H2).
        pose proof (wf_list_all _ (wf_in _ _ _ Hw E2)) as HA. apply Forall_app in HA. destruct HA as [HA HB]. inversion HB as [|? ? Hd _]; subst.
        pose proof (wf_keys _ Hd) as Hnd. destruct (entries_ok pre es HA Hes) as (fs & HF & _).
        exists (pre ++ VDict d :: post), pre, d, post, fs, n. split; [assumption|]. split; [reflexivity|]. split; [assumption|].
        split; [now apply (int_iff d _ _ Hnd)|now apply (list_iff d _ _ Hnd)].
      * exfalso. unfold GetList, dict_get in E2. destruct (dget _ info) as [[| | | |]|]; discriminate.
    + exfalso. unfold GetInt, dict_get in E. destruct (dget _ info) as [[| [] | | |]|]; discriminate.
Qed.

(** ** Map order *)
Lemma gperm_in d e k v : gperm (VDict d) (VDict e) -> In (k, v) d -> exists v', In (k, v') e /\ gperm v v'.
Proof.
  intros H Hi. inversion H as [| | |? d' ? Hp HF|]; subst. apply (Permutation_in _ Hp) in Hi. clear - HF Hi.
  induction HF as [|[a b] [a' b'] d' e [E G] HF IH]; [destruct Hi|]. cbn [fst snd] in *. subst a'. destruct Hi as [X|X].
  - injection X as -> ->. exists b'. split; [now left|assumption].
  - destruct (IH X) as (v' & A & B). exists v'. split; [now right|assumption].
Qed.
Lemma gperm_back d e k v' : gperm (VDict d) (VDict e) -> In (k, v') e -> exists v, In (k, v) d /\ gperm v v'.
Proof.
  intros H Hi. inversion H as [| | |? d' ? Hp HF|]; subst.
  assert (HX : exists v, In (k, v) d' /\ gperm v v').
  { clear - HF Hi. induction HF as [|[a b] [a' b'] d' e [E G] HF IH]; [destruct Hi|]. cbn [fst snd] in *. subst a'. destruct Hi as [X|X].
    - injection X as -> ->. exists b. split; [now left|assumption].
    - destruct (IH X) as (v & A & B). exists v. split; [now right|assumption]. }
  destruct HX as (v & A & B). exists v. split; [|assumption]. now apply (Permutation_in _ (Permutation_sym Hp)).
Qed.
Lemma gperm_strs parts l : Forall2 gperm (map VStr parts) l -> l = map VStr parts.
Proof.
  revert l. induction parts as [|s parts IH]; intros l H; inversion H as [|? y ? l' Hy Hl]; subst; [reflexivity|].
  inversion Hy; subst. cbn [map]. f_equal. now apply IH.
Qed.

Lemma entry_gperm v w f : gperm v w -> file_entry v f -> file_entry w f.
Proof.
  intros Hg (d & parts & n & -> & Hl & Hp & Hne & ->). inversion Hg as [| | |? d' e Hpm HF|]; subst.
  destruct (gperm_in _ _ _ _ Hg Hl) as (x & Hx & Gx). inversion Gx; subst.
  destruct (gperm_in _ _ _ _ Hg Hp) as (y & Hy & Gy). inversion Gy as [| |? l' HF2| |]; subst. apply gperm_strs in HF2. subst l'.
  exists e, parts, n. auto.
Qed.
Lemma entries_gperm l l' fs : Forall2 gperm l l' -> Forall2 file_entry l fs -> Forall2 file_entry l' fs.
Proof.
  intros H. revert fs. induction H as [|v w l l' Hg H IH]; intros fs HF; inversion HF; subst; constructor; [|now apply IH].
  eapply entry_gperm; eassumption.
Qed.

Lemma no_length_gperm info e : gperm (VDict info) (VDict e) ->
  (forall n, ~ In (B "length", VInt KInt64 n) info) -> forall n, ~ In (B "length", VInt KInt64 n) e.
Proof. intros Hg H n Hi. destruct (gperm_back _ _ _ _ Hg Hi) as (v & Hv & Gv). inversion Gv; subst. exact (H _ Hv). Qed.

Lemma lists_gperm info e name fs : gperm (VDict info) (VDict e) -> lists_files info name fs -> lists_files e name fs.
Proof.
  intros Hg [(n & Hi & ->)|(Hno & l & Hi & HF)].
  - destruct (gperm_in _ _ _ _ Hg Hi) as (x & Hx & Gx). inversion Gx; subst. left. eauto.
  - right. split; [now apply (no_length_gperm info)|]. destruct (gperm_in _ _ _ _ Hg Hi) as (x & Hx & Gx).
    inversion Gx as [| |? l' HF2| |]; subst. exists l'. split; [assumption|]. eapply entries_gperm; eassumption.
Qed.

Lemma pathless_gperm info e : gperm (VDict info) (VDict e) -> pathless info -> pathless e.
Proof.
  intros Hg (Hno & l & pre & d & post & fs & n & Hi & -> & HF & Hl & Hp). split; [now apply (no_length_gperm info)|].
  destruct (gperm_in _ _ _ _ Hg Hi) as (x & Hx & Gx). inversion Gx as [| |? l' HF2| |]; subst.
  apply Forall2_app_inv_l in HF2. destruct HF2 as (pre' & q & Hpre & Hq & ->). inversion Hq as [|? w ? post' Gw Hpost]; subst.
  inversion Gw as [| | |? d' d2 Hpm HFd|]; subst.
  destruct (gperm_in _ _ _ _ Gw Hl) as (y & Hy & Gy). inversion Gy; subst.
  destruct (gperm_in _ _ _ _ Gw Hp) as (z & Hz & Gz). inversion Gz as [| |? l2 HFl| |]; subst. inversion HFl; subst.
  exists (pre' ++ VDict d2 :: post'), pre', d2, post', fs, n. repeat (split; [first [assumption|reflexivity|eapply entries_gperm; eassumption]|]). assumption.
Qed.

Lemma gperm_refl v : gperm v v.
Proof.
  induction v as [s|k z|d IH|l IH|] using gval_ind'; try (constructor; fail).
  - apply gp_dict with d; [apply Permutation_refl|]. induction IH; constructor; auto.
  - constructor. induction IH; constructor; auto.
Qed.
Lemma gperm_wf v : forall w, gperm v w -> go_wf w -> go_wf v.
Proof.
  induction v as [s|k z|d IH|l IH|] using gval_ind'; intros w Hg Hw; inversion Hg as [| |? l' HF|? d' e Hp HF|]; subst; try assumption.
  - inversion Hw as [| |? Hn Hk Hv| |]; subst. assert (Ek : map fst d' = map fst e) by (clear - HF; induction HF as [|a b la lb [E _] _ I]; [reflexivity|cbn; now rewrite E, I]).
    constructor.
    + apply (Permutation_NoDup (l := map fst d')); [apply Permutation_sym, Permutation_map, Hp|]. now rewrite Ek.
    + apply Forall_forall. intros kv Hi. apply (Permutation_in _ Hp) in Hi. clear - HF Hk Hi. induction HF as [|a b la lb [E _] _ I]; [destruct Hi|]. inversion Hk as [|? ? Hb Hr]; subst. destruct Hi as [Ei|Hi]; [rewrite <- Ei; exact (eq_ind_r (fun x => zlen x <= max64) Hb E)|exact (I Hr Hi)].
    + apply Forall_forall. intros kv Hi. rewrite Forall_forall in IH. specialize (IH kv Hi). apply (Permutation_in _ Hp) in Hi. clear - HF Hv Hi IH.
      induction HF as [|a b la lb [_ E] _ I]; [destruct Hi|]. inversion Hv as [|? ? Hb Hr]; subst. destruct Hi as [Ei|Hi]; [rewrite Ei in E; exact (IH _ E Hb)|exact (I Hr Hi)].
  - inversion Hw as [| | |? Hv|]; subst. constructor. clear Hg Hw. revert l' HF Hv. induction IH as [|x l Hx _ I]; intros l' HF Hv; [constructor|]. inversion HF; subst. inversion Hv; subst. constructor; eauto.
Qed.
Lemma gperm_encoded info info' : gperm (VDict info) (VDict info') -> go_wf (VDict info') -> fst (Encode (VDict info)) = fst (Encode (VDict info')).
Proof. intros Hg Hw. unfold Encode. now rewrite (encode_gperm _ _ Hg (gperm_wf _ _ Hg Hw)). Qed.
Lemma lies_gperm wd info e name f q : gperm (VDict info) (VDict e) -> lies wd e name f q -> lies wd info name f q.
Proof.
  intros Hg [[(n & Hi) ->]|[Hno ->]]; [left|right].
  - destruct (gperm_back _ _ _ _ Hg Hi) as (v & Hv & Gv). inversion Gv; subst. split; [eauto|reflexivity].
  - split; [|reflexivity]. intros n Hi. destruct (gperm_in _ _ _ _ Hg Hi) as (v & Hv & Gv). inversion Gv; subst. exact (Hno _ Hv).
Qed.

(** ** From the text to the dictionaries *)
Definition found (w info : list (bytes * gval)) (announce name : bytes) (P : Z) (hashes : bytes) : Prop :=
  go_wf (VDict w) /\ go_wf (VDict info) /\ In (B "announce", VStr announce) w /\ In (B "info", VDict info) w /\
  In (B "name", VStr name) info /\ In (B "piece length", VInt KInt64 P) info /\ In (B "pieces", VStr hashes) info.

Lemma header_found data sp announce info name P hashes : header data announce info name P hashes ->
  exists w info', Decode (mkslice data sp) = Ok (VDict w) /\ gperm (VDict info) (VDict info') /\ found w info' announce name P hashes.
Proof.
  intros (d & t & junk & -> & Hl & Ha & Hi & Hn & HP & Hh).
  destruct (Decode_complete _ _ junk sp Hl) as (w0 & Hw & Hg).
  destruct (Decode_total_wf (mkslice (t ++ junk) sp)) as [(v & Hv & Hwf & _)|(e & He)]; [|congruence].
  rewrite Hw in Hv. injection Hv as <-. inversion Hg as [| | |? d' w Hpm HF|]; subst.
  destruct (gperm_in _ _ _ _ Hg Ha) as (x & Hx & Gx). inversion Gx; subst.
  destruct (gperm_in _ _ _ _ Hg Hi) as (y & Hy & Gy). inversion Gy as [| | |? i' info' Hpm' HF'|]; subst.
  destruct (gperm_in _ _ _ _ Gy Hn) as (a & Ha1 & Ga). inversion Ga; subst.
  destruct (gperm_in _ _ _ _ Gy HP) as (b & Hb1 & Gb). inversion Gb; subst.
  destruct (gperm_in _ _ _ _ Gy Hh) as (c & Hc1 & Gc). inversion Gc; subst.
  exists w, info'. split; [assumption|]. split; [assumption|]. repeat (split; [first [assumption|eapply wf_in; eassumption]|]). assumption.
Qed.

Lemma found_FromDict w info announce name P hashes wd : found w info announce name P hashes ->
  FromDict info wd = do fes <- dict_entries info wd name; NewTorInfo name P hashes fes.
Proof.
  intros (Hw & Hwi & Ha & Hi & Hn & HP & Hh). pose proof (wf_keys _ Hwi) as Hk. unfold FromDict.
  apply (str_iff info _ _ Hk) in Hn. apply (int_iff info _ _ Hk) in HP. apply (str_iff info _ _ Hk) in Hh.
  rewrite Hn, HP, Hh. reflexivity.
Qed.

Lemma found_Load sha1 data sp w info announce name P hashes wd : Decode (mkslice data sp) = Ok (VDict w) -> found w info announce name P hashes ->
  FromTorrentFile sha1 (mkslice data sp) wd =
    do ti <- (do fes <- dict_entries info wd name; NewTorInfo name P hashes fes); Ok (mktor (sha1 (fst (Encode (VDict info)))) announce ti).
Proof.
  intros HD Hf. pose proof Hf as (Hw & Hwi & Ha & Hi & _). pose proof (wf_keys _ Hw) as Hk. unfold FromTorrentFile. rewrite HD. cbn [bind].
  apply (str_iff w _ _ Hk) in Ha. apply (dict_iff w _ _ Hk) in Hi. rewrite Ha. cbn [bind]. rewrite Hi. cbn [bind].
  now rewrite (found_FromDict _ _ _ _ _ _ wd Hf).
Qed.

Lemma decoded_header sha1 data sp wd : 
  (exists announce info name P hashes w, header data announce info name P hashes /\ Decode (mkslice data sp) = Ok (VDict w) /\ found w info announce name P hashes) \/
  ((forall announce info name P hashes, ~ header data announce info name P hashes) /\ exists e, FromTorrentFile sha1 (mkslice data sp) wd = Err e).
Proof.
  assert (HN : (exists e, FromTorrentFile sha1 (mkslice data sp) wd = Err e) -> (forall w info announce name P hashes, Decode (mkslice data sp) = Ok (VDict w) -> ~ found w info announce name P hashes) ->
    (forall announce info name P hashes, ~ header data announce info name P hashes) /\ exists e, FromTorrentFile sha1 (mkslice data sp) wd = Err e).
  { intros He Hno. split; [|assumption]. intros announce info name P hashes H.
    destruct (header_found data sp _ _ _ _ _ H) as (w & info' & HD & _ & Hf). exact (Hno _ _ _ _ _ _ HD Hf). }
  destruct (Decode_total_wf (mkslice data sp)) as [(v & Hv & Hwf & _)|(e & He)].
  2:{ right. apply HN; [exists e; unfold FromTorrentFile; now rewrite He|]. intros w info a n P h HD. congruence. }
  destruct v as [s|k z|w|l|]; try (right; apply HN; [exists ENotDict; unfold FromTorrentFile; now rewrite Hv|intros w info a n P h HD; congruence]).
  pose proof (wf_keys _ Hwf) as Hk.
  assert (gs : forall (d : list (bytes * gval)) k, (exists s, GetString d k = Ok s) \/ exists e, GetString d k = Err e).
  { intros d k. unfold GetString, dict_get. destruct (dget k d) as [[| | | |]|]; cbn [bind]; eauto. }
  assert (gi : forall (d : list (bytes * gval)) k, (exists s, GetInt d k = Ok s) \/ exists e, GetInt d k = Err e).
  { intros d k. unfold GetInt, dict_get. destruct (dget k d) as [[| [] | | |]|]; cbn [bind]; eauto. }
  assert (gd : forall (d : list (bytes * gval)) k, (exists s, GetDict d k = Ok s) \/ exists e, GetDict d k = Err e).
  { intros d k. unfold GetDict, dict_get. destruct (dget k d) as [[| | | |]|]; cbn [bind]; eauto. }
  assert (HDet : forall w', Decode (mkslice data sp) = Ok (VDict w') -> w' = w) by (intros w' Hw'; congruence).
  destruct (gs w (B "announce")) as [(announce & Ea)|(e & Ea)].
  2:{ right. apply HN; [exists e; unfold FromTorrentFile; rewrite Hv; cbn [bind]; now rewrite Ea|].
      intros w' info a n P h HD (_ & _ & Ha & _). apply HDet in HD. subst w'. apply (str_iff w _ _ Hk) in Ha. congruence. }
  destruct (gd w (B "info")) as [(info & Ei)|(e & Ei)].
  2:{ right. apply HN; [exists e; unfold FromTorrentFile; rewrite Hv; cbn [bind]; rewrite Ea; cbn [bind]; now rewrite Ei|].
      intros w' info a n P h HD (_ & _ & _ & Hi & _). apply HDet in HD. subst w'. apply (dict_iff w _ _ Hk) in Hi. congruence. }
  pose proof Ei as Hi0. apply (dict_iff w _ _ Hk) in Hi0. pose proof (wf_in _ _ _ Hwf Hi0) as Hwi. pose proof (wf_keys _ Hwi) as Hki.
  assert (HInf : forall x, In (B "info", VDict x) w -> x = info) by (intros x Hx; apply (dict_iff w _ _ Hk) in Hx; congruence).
  destruct (gs info (B "name")) as [(name & En)|(e & En)].
  2:{ right. apply HN; [exists e; unfold FromTorrentFile; rewrite Hv; cbn [bind]; rewrite Ea; cbn [bind]; rewrite Ei; cbn [bind]; unfold FromDict; now rewrite En|].
      intros w' info' a n P h HD (_ & _ & _ & Hi & Hn & _). apply HDet in HD. subst w'. apply HInf in Hi. subst info'. apply (str_iff info _ _ Hki) in Hn. congruence. }
  destruct (gi info (B "piece length")) as [(P & EP)|(e & EP)].
  2:{ right. apply HN; [exists e; unfold FromTorrentFile; rewrite Hv; cbn [bind]; rewrite Ea; cbn [bind]; rewrite Ei; cbn [bind]; unfold FromDict; rewrite En; cbn [bind]; now rewrite EP|].
      intros w' info' a n P h HD (_ & _ & _ & Hi & Hn & HP & _). apply HDet in HD. subst w'. apply HInf in Hi. subst info'. apply (int_iff info _ _ Hki) in HP. congruence. }
  destruct (gs info (B "pieces")) as [(hashes & Eh)|(e & Eh)].
  2:{ right. apply HN; [exists e; unfold FromTorrentFile; rewrite Hv; cbn [bind]; rewrite Ea; cbn [bind]; rewrite Ei; cbn [bind]; unfold FromDict; rewrite En; cbn [bind]; rewrite EP; cbn [bind]; now rewrite Eh|].
      intros w' info' a n P' h HD (_ & _ & _ & Hi & Hn & HP & Hh). apply HDet in HD. subst w'. apply HInf in Hi. subst info'. apply (str_iff info _ _ Hki) in Hh. congruence. }
  left. apply (str_iff w _ _ Hk) in Ea. apply (str_iff info _ _ Hki) in En. apply (int_iff info _ _ Hki) in EP. apply (str_iff info _ _ Hki) in Eh.
  exists announce, info, name, P, hashes, w.
  assert (Hf : found w info announce name P hashes) by (repeat (split; [assumption|]); assumption).
  split; [|split; [assumption|exact Hf]].
  destruct (Decode_reads _ _ Hv) as [(t & junk & Hl & Et)|(ds & s1 & s2 & s3 & _ & _ & _ & _ & _ & _ & X)]; [|discriminate].
  exists w, t, junk. cbn [vis] in Et. repeat (split; [assumption|]). assumption.
Qed.

(** ** The numbers *)
Lemma stated_lens fes : lens_of fes = map snd (map stated fes).
Proof. unfold lens_of. rewrite map_map. reflexivity. Qed.

Lemma boundary_ends P hashes fs : file_boundary (map snd fs) (zlen hashes / 20 * P) <-> ends_with_file P hashes fs.
Proof.
  unfold file_boundary, fstart, ends_with_file. split.
  - intros (k & Hk & E). exists (firstn k fs), (skipn k fs). rewrite firstn_skipn. split; [reflexivity|]. now rewrite <- firstn_map.
  - intros (a & b & -> & E). exists (List.length a). rewrite map_app, app_length, map_length. split; [lia|].
    rewrite firstn_app, map_length, Nat.sub_diag. replace (List.length a) with (List.length (map snd a)) by apply map_length.
    rewrite firstn_all. cbn [firstn]. now rewrite app_nil_r.
Qed.

Lemma NewTorInfo_says name P hashes fes ti sum announce : NewTorInfo name P hashes fes = Ok ti ->
  whole_hashes hashes /\ says (mktor sum announce ti) announce name P hashes (map stated fes).
Proof.
  intros H. split.
  - unfold whole_hashes. destruct (Z.eq_dec (zlen hashes mod 20) 0) as [E|E]; [exact E|]. rewrite (NewTorInfo_bad_hashes name P hashes fes E) in H. discriminate.
  - destruct (NewTorInfo_fields _ _ _ _ _ H) as (A & B & C & _ & D & _). unfold says. cbn [t_announce t_info].
    repeat (split; [first [assumption|reflexivity]|]). rewrite <- D, map_map. reflexivity.
Qed.

Lemma NewTorInfo_keeps sha1 wd name P hashes fes ti info info' announce : NewTorInfo name P hashes fes = Ok ti -> gperm (VDict info) (VDict info') -> go_wf (VDict info') ->
  dict_entries info' wd name = Ok fes -> keeps_at sha1 (mktor (sha1 (fst (Encode (VDict info')))) announce ti) wd info name (map stated fes).
Proof.
  intros H Hg Hw Hd. destruct (NewTorInfo_fields _ _ _ _ _ H) as (_ & _ & _ & _ & D & _). split; cbn [t_info t_infohash].
  - rewrite <- (map_map en_base eb_local), D. pose proof (entries_lie _ _ _ _ Hw Hd) as HF. clear - HF Hg. induction HF; constructor; [eapply lies_gperm; eassumption|assumption].
  - f_equal. symmetry. now apply gperm_encoded.
Qed.

Lemma load_means sha1 data sp wd tor : FromTorrentFile sha1 (mkslice data sp) wd = Ok tor ->
  exists announce info name P hashes fs, header data announce info name P hashes /\ lists_files info name fs /\ whole_hashes hashes /\
    says tor announce name P hashes fs /\ keeps_at sha1 tor wd info name fs.
Proof.
  intros H. destruct (decoded_header sha1 data sp wd) as [(announce & info & name & P & hashes & w & Hh & HD & Hf)|(_ & e & He)]; [|congruence].
  rewrite (found_Load sha1 _ _ _ _ _ _ _ _ wd HD Hf) in H. destruct (dict_entries info wd name) as [fes| | |] eqn:E; cbn [bind] in H; try discriminate.
  destruct (NewTorInfo name P hashes fes) as [ti| | |] eqn:E2; cbn [bind] in H; try discriminate. injection H as <-.
  destruct (NewTorInfo_says name P hashes fes ti (sha1 (fst (Encode (VDict info)))) announce E2) as [HW HS].
  pose proof Hf as (_ & Hwi & _). exists announce, info, name, P, hashes, (map stated fes).
  split; [assumption|]. split; [eapply entries_lists; eassumption|]. split; [assumption|]. split; [assumption|].
  exact (NewTorInfo_keeps sha1 wd name P hashes fes ti info info announce E2 (gperm_refl _) Hwi E).
Qed.

Lemma load_described sha1 data sp wd announce info name P hashes fs :
  header data announce info name P hashes -> lists_files info name fs -> sane P (map snd fs) ->
  (whole_hashes hashes -> enough P hashes fs -> exists tor, FromTorrentFile sha1 (mkslice data sp) wd = Ok tor /\ says tor announce name P hashes fs /\ keeps_at sha1 tor wd info name fs) /\
  (~ whole_hashes hashes -> exists e, FromTorrentFile sha1 (mkslice data sp) wd = Err e) /\
  (whole_hashes hashes -> ~ enough P hashes fs -> ends_with_file P hashes fs -> exists e, FromTorrentFile sha1 (mkslice data sp) wd = Err e) /\
  (whole_hashes hashes -> ~ enough P hashes fs -> ~ ends_with_file P hashes fs -> FromTorrentFile sha1 (mkslice data sp) wd = Panic).
Proof.
  intros Hh HL HS. destruct (header_found data sp _ _ _ _ _ Hh) as (w & info' & HD & Hg & Hf). pose proof Hf as (_ & Hwi & _).
  destruct (lists_entries info' wd name fs Hwi (lists_gperm _ _ _ _ Hg HL)) as (fes & Hfe & Es).
  rewrite (found_Load sha1 _ _ _ _ _ _ _ _ wd HD Hf). rewrite Hfe. cbn [bind].
  assert (HS' : sane P (lens_of fes)) by (now rewrite stated_lens, Es).
  pose proof HS' as (HP & HF & HB). pose proof (zsum_nonneg _ HF) as HT.
  assert (HE : enough P hashes fs <-> ~ zlen hashes / 20 < pieces_needed P (zsum (lens_of fes))).
  { rewrite needed_lt by lia. rewrite stated_lens, Es. unfold enough. lia. }
  assert (HBd : file_boundary (lens_of fes) (zlen hashes / 20 * P) <-> ends_with_file P hashes fs) by (rewrite stated_lens, Es; apply boundary_ends).
  split; [|split; [|split]].
  - intros HW He. destruct (NewTorInfo_count name P hashes fes HS' HW) as (A & _ & _). destruct (proj1 A) as (ti & Hti); [apply HE in He; lia|].
    rewrite Hti. cbn [bind]. eexists. split; [reflexivity|]. rewrite <- Es. split; [now apply (NewTorInfo_says name P hashes fes ti)|]. exact (NewTorInfo_keeps sha1 wd name P hashes fes ti info info' announce Hti Hg Hwi Hfe).
  - intros HW. rewrite (NewTorInfo_bad_hashes name P hashes fes HW). cbn [bind]. eauto.
  - intros HW He Hb. destruct (NewTorInfo_count name P hashes fes HS' HW) as (_ & A & _). rewrite A; [cbn [bind]; eauto| |now apply HBd].
    rewrite HE in He. lia.
  - intros HW He Hb. destruct (NewTorInfo_count name P hashes fes HS' HW) as (_ & _ & A). rewrite A; [reflexivity| |now rewrite HBd].
    rewrite HE in He. lia.
Qed.

Lemma load_zero sha1 data sp wd announce info name hashes fs :
  header data announce info name 0 hashes -> lists_files info name fs -> whole_hashes hashes -> fs <> [] -> FromTorrentFile sha1 (mkslice data sp) wd = Panic.
Proof.
  intros Hh HL HW Hne. destruct (header_found data sp _ _ _ _ _ Hh) as (w & info' & HD & Hg & Hf). pose proof Hf as (_ & Hwi & _).
  destruct (lists_entries info' wd name fs Hwi (lists_gperm _ _ _ _ Hg HL)) as (fes & Hfe & Es).
  rewrite (found_Load sha1 _ _ _ _ _ _ _ _ wd HD Hf). rewrite Hfe. cbn [bind]. rewrite zero_piece_length; [reflexivity|exact HW|]. intros ->. now subst fs.
Qed.

Lemma load_none sha1 data sp wd announce info name P hashes :
  header data announce info name P hashes -> lists_files info name [] -> whole_hashes hashes ->
  exists tor, FromTorrentFile sha1 (mkslice data sp) wd = Ok tor /\ says tor announce name P hashes [].
Proof.
  intros Hh HL HW. destruct (header_found data sp _ _ _ _ _ Hh) as (w & info' & HD & Hg & Hf). pose proof Hf as (_ & Hwi & _).
  destruct (lists_entries info' wd name [] Hwi (lists_gperm _ _ _ _ Hg HL)) as (fes & Hfe & Es). destruct fes; [|discriminate].
  rewrite (found_Load sha1 _ _ _ _ _ _ _ _ wd HD Hf). rewrite Hfe. cbn [bind].
  destruct (NewTorInfo name P hashes []) as [ti| | |] eqn:E.
  - cbn [bind]. eexists. split; [reflexivity|]. now apply (NewTorInfo_says name P hashes [] ti).
  - exfalso. unfold NewTorInfo in E. unfold whole_hashes in HW. rewrite HW in E. cbn in E. discriminate.
  - exfalso. unfold NewTorInfo in E. unfold whole_hashes in HW. rewrite HW in E. cbn in E. discriminate.
  - exfalso. unfold NewTorInfo in E. unfold whole_hashes in HW. rewrite HW in E. cbn in E. discriminate.
Qed.

Lemma load_pathless sha1 data sp wd announce info name P hashes :
  header data announce info name P hashes -> pathless info -> FromTorrentFile sha1 (mkslice data sp) wd = Panic.
Proof.
  intros Hh HL. destruct (header_found data sp _ _ _ _ _ Hh) as (w & info' & HD & Hg & Hf). pose proof Hf as (_ & Hwi & _).
  rewrite (found_Load sha1 _ _ _ _ _ _ _ _ wd HD Hf). apply (pathless_gperm _ _ Hg) in HL. apply (pathless_panic info' wd name Hwi) in HL. now rewrite HL.
Qed.

Lemma load_rejects sha1 data sp wd :
  (forall announce info name P hashes fs, header data announce info name P hashes -> ~ lists_files info name fs /\ ~ pathless info) ->
  exists e, FromTorrentFile sha1 (mkslice data sp) wd = Err e.
Proof.
  intros H. destruct (decoded_header sha1 data sp wd) as [(announce & info & name & P & hashes & w & Hh & HD & Hf)|(_ & He)]; [|assumption].
  rewrite (found_Load sha1 _ _ _ _ _ _ _ _ wd HD Hf). pose proof Hf as (_ & Hwi & _).
  destruct (dict_entries info wd name) as [fes|e| |] eqn:E; cbn [bind].
  - exfalso. exact (proj1 (H _ _ _ _ _ _ Hh) (entries_lists _ _ _ _ Hwi E)).
  - eauto.
  - exfalso. apply (pathless_panic info wd name Hwi) in E. exact (proj2 (H _ _ _ _ _ [] Hh) E).
  - exfalso. unfold dict_entries in E. destruct (GetInt info (B "length")) eqn:E1; try discriminate; [|destruct (get_nofuel info (B "length")); tauto].
    destruct (GetList info (B "files")) as [l| | |] eqn:E2; try discriminate; [|destruct (get_nofuel info (B "files")); tauto].
    pose proof (FromBenList_nofuel l). destruct (FromBenList l); cbn [bind] in E; try discriminate; contradiction.
Qed.

Lemma header_unique data a i n P h a' i' n' P' h' fs fs' : header data a i n P h -> header data a' i' n' P' h' -> lists_files i n fs -> lists_files i' n' fs' ->
  a = a' /\ n = n' /\ P = P' /\ h = h' /\ fs = fs'.
Proof.
  intros H H' L L'. destruct (header_found data [] _ _ _ _ _ H) as (w & i1 & HD & Hg & Hf). destruct (header_found data [] _ _ _ _ _ H') as (w' & i2 & HD' & Hg' & Hf').
  rewrite HD in HD'. injection HD' as <-. apply (lists_gperm _ _ _ _ Hg) in L. apply (lists_gperm _ _ _ _ Hg') in L'.
  destruct Hf as (Hw & Hw1 & A1 & A2 & A3 & A4 & A5). destruct Hf' as (_ & Hw2 & B1 & B2 & B3 & B4 & B5).
  pose proof (wf_keys _ Hw) as Hk. apply (str_iff w _ _ Hk) in A1, B1. apply (dict_iff w _ _ Hk) in A2, B2. rewrite A2 in B2. injection B2 as <-.
  pose proof (wf_keys _ Hw1) as Hk1. apply (str_iff i1 _ _ Hk1) in A3, B3, A5, B5. apply (int_iff i1 _ _ Hk1) in A4, B4.
  assert (n = n') by congruence. subst n'. repeat (split; [congruence|]).
  destruct (lists_entries i1 [] n fs Hw1 L) as (f1 & E1 & <-). destruct (lists_entries i1 [] n fs' Hw1 L') as (f2 & E2 & <-). congruence.
Qed.
