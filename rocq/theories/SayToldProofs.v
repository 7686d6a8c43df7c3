(** SayToldProofs.v: which fault is reported. *)
From Coq Require Import ZifyBool ZifyNat ZifyN.
From Verif Require Import Base BencodeModel BencodeSpec BencodeProofs PeerModel PathModel LayoutModel LayoutSpec LayoutProofs PieceMapProofs InfoProofs LoadSpec LoadProofs.
From Verif Require Import TrackerModel TrackerSpec TrackerProofs DiagModel DiagSpec DiagProofs SayModel SaySpec SayProofs.

Lemma bind_says {A C} (m : said A) (f : A -> said C) w : sbind m f = Says w <-> m = Says w \/ exists a, m = Fine a /\ f a = Says w.
Proof.
  destruct m; cbn; split; intros H; try discriminate; eauto; try (destruct H as [H|(a' & X & H)]; try discriminate).
  - injection X as ->. exact H.
  - left. injection H as ->. reflexivity.
  - injection H as ->. reflexivity.
Qed.
Lemma get_says d k w : NoDup (map fst d) -> (getE d k = Says w <-> (forall v, ~ In (k, v) d) /\ w = WMissing k).
Proof.
  intros HN. unfold getE. destruct (dget k d) as [v|] eqn:E.
  - split; [discriminate|]. intros (H & _). apply (dget_in k v d HN) in E. destruct (H _ E).
  - split.
    + intros X. injection X as <-. split; [|reflexivity]. intros v Hi. apply (dget_in k v d HN) in Hi. congruence.
    + intros (_ & ->). reflexivity.
Qed.
Lemma get_fine d k v : NoDup (map fst d) -> (getE d k = Fine v <-> In (k, v) d).
Proof.
  intros HN. rewrite <- (dget_in k v d HN). unfold getE. destruct (dget k d); split; intros X; try discriminate; injection X as ->; reflexivity.
Qed.
Lemma sort_says {A} (t : sort) (g : gval -> said A) d k w : NoDup (map fst d) ->
  (forall v w, g v = Says w <-> ~ is_a t v /\ w = WType k (sort_text t) (type_name v) (match t with ADict => None | _ => Some d end)) ->
  (sbind (getE d k) g = Says w <-> wrong d (k, t) w).
Proof.
  intros HN Hg. rewrite bind_says, (get_says d k w HN). unfold wrong. split; (intros [H|H]; [left; exact H|right]); destruct H as (v & H).
  - rewrite (get_fine d k v HN), Hg in H. exists v. exact H.
  - exists v. rewrite (get_fine d k v HN), Hg. exact H.
Qed.
Lemma sort_fine {A} (g : gval -> said A) d k a : NoDup (map fst d) -> (sbind (getE d k) g = Fine a <-> exists v, In (k, v) d /\ g v = Fine a).
Proof.
  intros HN. destruct (getE d k) as [v|w| |] eqn:E; cbn [sbind].
  - apply (get_fine d k v HN) in E. split; [eauto|]. intros (v' & Hi & H). apply (dget_in _ _ _ HN) in E, Hi. rewrite E in Hi. injection Hi as <-. exact H.
  - split; [discriminate|]. intros (v & Hi & _). apply (get_fine d k v HN) in Hi. congruence.
  - split; [discriminate|]. intros (v & Hi & _). apply (get_fine d k v HN) in Hi. congruence.
  - split; [discriminate|]. intros (v & Hi & _). apply (get_fine d k v HN) in Hi. congruence.
Qed.
Lemma str_says d k w : NoDup (map fst d) -> (GetStringE d k = Says w <-> wrong d (k, AString) w).
Proof. intros HN. apply sort_says; [exact HN|]. intros v w'. destruct v; cbn [is_a sort_text]; split; intros X; try discriminate; try (injection X as <-; split; [intros (y & Y); discriminate|reflexivity]); destruct X as (X & ->); try reflexivity; destruct X; eexists; reflexivity. Qed.
Lemma int_says d k w : NoDup (map fst d) -> (GetIntE d k = Says w <-> wrong d (k, AnInt) w).
Proof. intros HN. apply sort_says; [exact HN|]. intros v w'. destruct v as [|[]| | |]; cbn [is_a sort_text]; split; intros X; try discriminate; try (injection X as <-; split; [intros (y & Y); discriminate|reflexivity]); destruct X as (X & ->); try reflexivity; destruct X; eexists; reflexivity. Qed.
Lemma dict_says d k w : NoDup (map fst d) -> (GetDictE d k = Says w <-> wrong d (k, ADict) w).
Proof. intros HN. apply sort_says; [exact HN|]. intros v w'. destruct v; cbn [is_a sort_text]; split; intros X; try discriminate; try (injection X as <-; split; [intros (y & Y); discriminate|reflexivity]); destruct X as (X & ->); try reflexivity; destruct X; eexists; reflexivity. Qed.
Lemma list_says d k w : NoDup (map fst d) -> (GetListE d k = Says w <-> wrong d (k, AList) w).
Proof. intros HN. apply sort_says; [exact HN|]. intros v w'. destruct v; cbn [is_a sort_text]; split; intros X; try discriminate; try (injection X as <-; split; [intros (y & Y); discriminate|reflexivity]); destruct X as (X & ->); try reflexivity; destruct X; eexists; reflexivity. Qed.
Lemma str_fine d k s : NoDup (map fst d) -> (GetStringE d k = Fine s <-> In (k, VStr s) d).
Proof. intros HN. unfold GetStringE. rewrite (sort_fine _ d k s HN). split; [intros (v & Hi & X); destruct v; try discriminate; injection X as ->; exact Hi|intros H; eexists; split; [exact H|reflexivity]]. Qed.
Lemma int_fine d k s : NoDup (map fst d) -> (GetIntE d k = Fine s <-> In (k, VInt KInt64 s) d).
Proof. intros HN. unfold GetIntE. rewrite (sort_fine _ d k s HN). split; [intros (v & Hi & X); destruct v as [|[]| | |]; try discriminate; injection X as ->; exact Hi|intros H; eexists; split; [exact H|reflexivity]]. Qed.
Lemma dict_fine d k s : NoDup (map fst d) -> (GetDictE d k = Fine s <-> In (k, VDict s) d).
Proof. intros HN. unfold GetDictE. rewrite (sort_fine _ d k s HN). split; [intros (v & Hi & X); destruct v; try discriminate; injection X as ->; exact Hi|intros H; eexists; split; [exact H|reflexivity]]. Qed.
Lemma list_fine d k s : NoDup (map fst d) -> (GetListE d k = Fine s <-> In (k, VList s) d).
Proof. intros HN. unfold GetListE. rewrite (sort_fine _ d k s HN). split; [intros (v & Hi & X); destruct v; try discriminate; injection X as ->; exact Hi|intros H; eexists; split; [exact H|reflexivity]]. Qed.
Lemma uint_says d k w : NoDup (map fst d) -> (GetUintE d k = Says w <-> wrong d (k, AnInt) w).
Proof. intros HN. unfold GetUintE. rewrite bind_says, (int_says d k w HN). split; [intros [H|(a & _ & X)]; [exact H|discriminate]|tauto]. Qed.
Lemma uint_fine d k x : NoDup (map fst d) -> (GetUintE d k = Fine x <-> exists z, In (k, VInt KInt64 z) d /\ x = u64 z).
Proof.
  intros HN. unfold GetUintE. destruct (GetIntE d k) as [z|w| |] eqn:E; cbn [sbind].
  - apply (int_fine d k z HN) in E. split; [intros X; injection X as <-; eauto|]. intros (z' & Hi & ->). apply (dget_in _ _ _ HN) in E, Hi. rewrite E in Hi. injection Hi as <-. reflexivity.
  - split; [discriminate|]. intros (z & Hi & _). apply (int_fine d k z HN) in Hi. congruence.
  - split; [discriminate|]. intros (z & Hi & _). apply (int_fine d k z HN) in Hi. congruence.
  - split; [discriminate|]. intros (z & Hi & _). apply (int_fine d k z HN) in Hi. congruence.
Qed.

Lemma fw_nil d w : first_wrong d [] w <-> False.
Proof. split; [|tauto]. intros (pre & f & post & E & _). destruct pre; discriminate. Qed.
Lemma fw_cons d f fs w : first_wrong d (f :: fs) w <-> wrong d f w \/ (right d f /\ first_wrong d fs w).
Proof.
  split.
  - intros (pre & g & post & E & HF & HW). destruct pre as [|h pre]; injection E as -> ->; [now left|]. right. inversion HF; subst. split; [assumption|]. now exists pre, g, post.
  - intros [H|(R & pre & g & post & -> & HF & HW)]; [exists [], f, fs; repeat split; [constructor|exact H]|]. exists (f :: pre), g, post. repeat split; [constructor; assumption|exact HW].
Qed.
Lemma right_str d k : right d (k, AString) <-> exists s, In (k, VStr s) d.
Proof. unfold right. cbn [fst snd is_a]. split; [intros (v & H & s & ->); eauto|intros (s & H); eauto]. Qed.
Lemma right_int d k : right d (k, AnInt) <-> exists s, In (k, VInt KInt64 s) d.
Proof. unfold right. cbn [fst snd is_a]. split; [intros (v & H & s & ->); eauto|intros (s & H); eauto]. Qed.
Lemma right_dict d k : right d (k, ADict) <-> exists s, In (k, VDict s) d.
Proof. unfold right. cbn [fst snd is_a]. split; [intros (v & H & s & ->); eauto|intros (s & H); eauto]. Qed.
Lemma right_list d k : right d (k, AList) <-> exists s, In (k, VList s) d.
Proof. unfold right. cbn [fst snd is_a]. split; [intros (v & H & s & ->); eauto|intros (s & H); eauto]. Qed.

(** ** Entries *)
Lemma concat_says l w : path_concatE l = Says w <-> exists parts x post, l = map VStr parts ++ x :: post /\ (forall s, x <> VStr s) /\ w = WPath x.
Proof.
  induction l as [|v l IH].
  - split; [discriminate|]. intros (parts & x & post & E & _). destruct parts; discriminate.
  - destruct v as [s| | | |].
    + cbn [path_concatE]. rewrite bind_says, IH. split.
      * intros [(parts & x & post & -> & H)|(a & _ & X)]; [|discriminate]. exists (s :: parts), x, post. split; [reflexivity|exact H].
      * intros (parts & x & post & E & H). left. destruct parts as [|p parts]; [injection E as <- _; destruct (proj1 H s eq_refl)|]. injection E as _ ->. now exists parts, x, post.
    + cbn [path_concatE]. split; [intros X; injection X as <-; eexists [], _, l; repeat split; discriminate|]. intros ([|p parts] & x & post & E & _ & ->); [now injection E as <- _|discriminate].
    + cbn [path_concatE]. split; [intros X; injection X as <-; eexists [], _, l; repeat split; discriminate|]. intros ([|p parts] & x & post & E & _ & ->); [now injection E as <- _|discriminate].
    + cbn [path_concatE]. split; [intros X; injection X as <-; eexists [], _, l; repeat split; discriminate|]. intros ([|p parts] & x & post & E & _ & ->); [now injection E as <- _|discriminate].
    + cbn [path_concatE]. split; [intros X; injection X as <-; eexists [], _, l; repeat split; discriminate|]. intros ([|p parts] & x & post & E & _ & ->); [now injection E as <- _|discriminate].
Qed.
Lemma path_says l w : path_of_listE l = Says w <-> exists parts x post, l = map VStr parts ++ x :: post /\ (forall s, x <> VStr s) /\ w = WPath x.
Proof. unfold path_of_listE. rewrite bind_says, concat_says. split; [intros [H|(s & _ & H)]; [exact H|destruct s; discriminate]|tauto]. Qed.
Lemma path_fine l p : path_of_listE l = Fine p -> exists parts, l = map VStr parts /\ parts <> [] /\ p = path_text parts.
Proof. intros H. pose proof (agree_path l) as A. rewrite H in A. exact (path_of_list_ok l p A). Qed.
Lemma entries_says l w : Forall go_wf l -> (FromBenListE l = Says w <-> exists pre v post fs, l = pre ++ v :: post /\ Forall2 file_entry pre fs /\ bad_entry v w).
Proof.
  induction l as [|v l IH]; intros HW.
  - split; [discriminate|]. intros (pre & v & post & fs & E & _). destruct pre; discriminate.
  - inversion HW as [|? ? Hv Hl]; subst. specialize (IH Hl).
    assert (ND : (forall d, v <> VDict d) -> (Says WEntry = @Says (list ebase) w <-> exists pre x post fs, v :: l = pre ++ x :: post /\ Forall2 file_entry pre fs /\ bad_entry x w)).
    { intros Hd. split.
      - intros X. injection X as <-. exists [], v, l, []. split; [reflexivity|]. split; [constructor|]. left. auto.
      - intros (pre & x & post & fs & E & HF & HB). destruct pre as [|p pre].
        + injection E as <- _. destruct HB as [(_ & ->)|(d & -> & _)]; [reflexivity|destruct (Hd d eq_refl)].
        + injection E as <- _. inversion HF as [|? ? ? ? (d & parts & n & -> & _) _]; subst. destruct (Hd d eq_refl). }
    destruct v as [s|k z|d|ll|]; try (cbn [FromBenListE]; apply ND; discriminate). clear ND.
    pose proof (wf_keys _ Hv) as HN. cbn [FromBenListE].
    assert (HEAD : (GetIntE d (B "length") = Says w \/ exists n, GetIntE d (B "length") = Fine n /\ (GetListE d (B "path") = Says w \/ exists pl, GetListE d (B "path") = Fine pl /\ path_of_listE pl = Says w)) <-> bad_entry (VDict d) w).
    { unfold bad_entry. split.
      - intros H. right. exists d. split; [reflexivity|]. rewrite !fw_cons, fw_nil, right_int. destruct H as [H|(n & H1 & [H|(pl & H2 & H)])].
        + left. left. apply (int_says d _ w HN), H.
        + apply (int_fine d _ n HN) in H1. left. right. split; [eauto|]. left. apply (list_says d _ w HN), H.
        + apply (int_fine d _ n HN) in H1. apply (list_fine d _ pl HN) in H2. apply path_says in H. destruct H as (parts & x & post & H). right. exists n, pl, parts, x, post. tauto.
      - intros [(H & _)|(d' & E & H)]; [destruct (H d eq_refl)|]. injection E as <-. rewrite !fw_cons, fw_nil, right_int in H. destruct H as [[H|((n & Hn) & [H|(_ & [])])]|(n & pl & parts & x & post & H1 & H2 & H)].
        + left. apply (int_says d _ w HN), H.
        + right. exists n. split; [apply (int_fine d _ n HN), Hn|]. left. apply (list_says d _ w HN), H.
        + right. exists n. split; [apply (int_fine d _ n HN), H1|]. right. exists pl. split; [apply (list_fine d _ pl HN), H2|]. apply path_says. exists parts, x, post. exact H. }
    assert (TAIL : (exists n pl p, GetIntE d (B "length") = Fine n /\ GetListE d (B "path") = Fine pl /\ path_of_listE pl = Fine p) <-> exists f, file_entry (VDict d) f).
    { split.
      - intros (n & pl & p & H1 & H2 & H3). apply (int_fine d _ n HN) in H1. apply (list_fine d _ pl HN) in H2. destruct (path_fine _ _ H3) as (parts & -> & Hne & ->). exists (path_text parts, n), d, parts, n. auto.
      - intros (f & d' & parts & n & E & H1 & H2 & Hne & _). injection E as <-. exists n, (map VStr parts), (path_text parts). split; [apply (int_fine d _ n HN), H1|]. split; [apply (list_fine d _ _ HN), H2|].
        pose proof (agree_path (map VStr parts)) as A. rewrite (path_of_strs parts Hne) in A. rewrite path_text_join. destruct (path_of_listE (map VStr parts)); cbn [agree] in A; try discriminate; [injection A as ->; reflexivity|destruct A as (? & ?); discriminate]. }
    rewrite !bind_says. split.
    + intros H.
      assert (K : bad_entry (VDict d) w \/ ((exists f, file_entry (VDict d) f) /\ FromBenListE l = Says w)).
      { rewrite <- HEAD, <- TAIL. destruct H as [H|(n & H1 & H)]; [left; left; exact H|]. apply bind_says in H. destruct H as [H|(pl & H2 & H)]; [left; right; eauto|]. apply bind_says in H. destruct H as [H|(p & H3 & H)]; [left; right; eauto 8|].
        apply bind_says in H. right. split; [exists n, pl, p; auto|]. destruct H as [H|(es & _ & X)]; [exact H|discriminate]. }
      destruct K as [K|((f & Hf) & K)]; [exists [], (VDict d), l, []; repeat split; [constructor|exact K]|].
      apply IH in K. destruct K as (pre & v & post & fs & -> & HF & HB). exists (VDict d :: pre), v, post, (f :: fs). repeat split; [constructor; assumption|exact HB].
    + intros (pre & v & post & fs & E & HF & HB). destruct pre as [|p pre].
      * injection E as <- <-. apply HEAD in HB. destruct HB as [H|(n & H1 & H)]; [left; exact H|right]. exists n. split; [exact H1|]. apply bind_says. destruct H as [H|(pl & H2 & H)]; [left; exact H|right]. exists pl. split; [exact H2|]. apply bind_says. left. exact H.
      * injection E as <- ->. inversion HF as [|? f ? fs' Hf HF']; subst. destruct (proj2 TAIL (ex_intro _ f Hf)) as (n & pl & q & H1 & H2 & H3).
        right. exists n. split; [exact H1|]. apply bind_says. right. exists pl. split; [exact H2|]. apply bind_says. right. exists q. split; [exact H3|]. apply bind_says. left. apply IH. now exists pre, v, post, fs'.
Qed.
Lemma files_says info wd name w : go_wf (VDict info) -> (dict_entriesE info wd name = Says w <-> bad_files info w).
Proof.
  intros Hw. pose proof (wf_keys _ Hw) as HN. unfold dict_entriesE, bad_files.
  destruct (GetIntE info (B "length")) as [n|w1| |] eqn:E1.
  - apply (int_fine info _ n HN) in E1. split; [discriminate|]. intros (H & _). destruct (H _ E1).
  - assert (HNo : forall n, ~ In (B "length", VInt KInt64 n) info) by (intros n Hi; apply (int_fine info _ n HN) in Hi; congruence).
    destruct (GetListE info (B "files")) as [l|w2| |] eqn:E2.
    + apply (list_fine info _ l HN) in E2. rewrite bind_says, (entries_says l w (wf_list_all _ (wf_in _ _ _ Hw E2))). split.
      * intros [H|(fes & _ & X)]; [|discriminate]. split; [exact HNo|]. right. destruct H as (pre & v & post & fs & H). exists l, pre, v, post, fs. tauto.
      * intros (_ & [(H & _)|(l' & pre & v & post & fs & Hi & H)]); [destruct (H _ E2)|]. left. apply (dget_in _ _ _ HN) in E2, Hi. rewrite E2 in Hi. injection Hi as <-. now exists pre, v, post, fs.
    + split.
      * intros X. injection X as <-. split; [exact HNo|]. left. split; [|reflexivity]. intros l Hi. apply (list_fine info _ l HN) in Hi. congruence.
      * intros (_ & [(_ & ->)|(l' & pre & v & post & fs & Hi & _)]); [reflexivity|]. apply (list_fine info _ l' HN) in Hi. congruence.
    + exfalso. revert E2. unfold GetListE, getE. destruct (dget _ info) as [[| [] | | |]|]; discriminate.
    + exfalso. revert E2. unfold GetListE, getE. destruct (dget _ info) as [[| [] | | |]|]; discriminate.
  - exfalso. revert E1. unfold GetIntE, getE. destruct (dget _ info) as [[| [] | | |]|]; discriminate.
  - exfalso. revert E1. unfold GetIntE, getE. destruct (dget _ info) as [[| [] | | |]|]; discriminate.
Qed.

(** ** Numbers *)
Lemma info_says name P hashes fes w : NewTorInfoE name P hashes fes = Says w <->
  (~ whole_hashes hashes /\ w = WHashes) \/ (whole_hashes hashes /\ exists fl pm pidx prem tot, MakeFileList fes P = Ok fl /\
     pm_outer fl 0 (zlen hashes / 20) P (repeat [] (Z.to_nat (zlen hashes / 20)), 0, P, 0) = Ok (pm, pidx, prem, tot) /\ tot <> sum64 fes /\ w = WCounted tot (sum64 fes)).
Proof.
  unfold NewTorInfoE, whole_hashes. destruct (Z.eqb_spec (zlen hashes mod 20) 0) as [E|E]; cbn [negb].
  - rewrite bind_says. split.
    + intros [H|(fl & H1 & H)]; [destruct (MakeFileList fes P); discriminate|]. apply bind_says in H. destruct H as [H|(? & _ & X)]; [|discriminate].
      right. split; [exact E|]. unfold MakePieceMapE in H. apply bind_says in H. destruct H as [H|([[[pm pidx] prem] tot] & H2 & H)]; [destruct (pm_outer _ _ _ _ _); discriminate|].
      destruct (Z.eqb_spec tot (sum64 fes)) as [T|T]; [discriminate|]. injection H as <-. exists fl, pm, pidx, prem, tot.
      split; [destruct (MakeFileList fes P); try discriminate; injection H1 as ->; reflexivity|]. split; [|auto].
      destruct (pm_outer _ _ _ _ _) as [s| | |]; try discriminate. injection H2 as ->. reflexivity.
    + intros [(H & _)|(_ & fl & pm & pidx & prem & tot & H1 & H2 & HT & ->)]; [contradiction|]. right. exists fl. rewrite H1. split; [reflexivity|]. apply bind_says. left.
      unfold MakePieceMapE. rewrite H2. cbn [of_res sbind]. apply Z.eqb_neq in HT. now rewrite HT.
  - split.
    + intros X. injection X as <-. left. auto.
    + intros [(_ & ->)|(H & _)]; [reflexivity|contradiction].
Qed.
Lemma outer_init P fes n : sane P (lens_of fes) -> 0 <= n ->
  let r := pm_outer (span_list fes P 0) 0 n P (repeat [] (Z.to_nat n), 0, P, 0) in
  (zsum (lens_of fes) <= n * P -> exists s, r = Ok s /\ st_tot s = zsum (lens_of fes)) /\
  (n * P < zsum (lens_of fes) -> (file_boundary (lens_of fes) (n * P) -> exists s, r = Ok s /\ st_tot s = n * P) /\ (~ file_boundary (lens_of fes) (n * P) -> r = Panic)).
Proof.
  intros (HP & HF & HB) Hn.
  assert (Hinit : st_at (lens_of fes) n P 0 0 (repeat [] (Z.to_nat n), 0, P, 0)).
  { unfold st_at. rewrite Z.div_0_l, Z.mod_0_l by lia. split; [reflexivity|]. split; [lia|]. split; [reflexivity|].
    split; [unfold zlen; rewrite repeat_length; lia|]. intros j l Hj. apply nth_error_In, repeat_spec in Hj. subst l.
    rewrite Z.div_0_l by lia. cbn [tiles increasing]. split; [exact I|]. split; [lia|]. split; [|reflexivity].
    intros E. split; [lia|constructor]. }
  assert (Hnp : 0 <= n * P) by (apply Z.mul_nonneg_nonneg; lia).
  destruct (pm_outer_spec n P HP Hn fes [] _ HF HB Hnp Hinit) as [H1 H2].
  cbn [app List.length] in H1, H2. change (zsum []) with 0 in H1, H2. cbv zeta. split.
  - intros HT. destruct (H1 HT) as (s & Hs & Ht & _). eauto.
  - exact H2.
Qed.
Lemma boundary_dec lens x : file_boundary lens x \/ ~ file_boundary lens x.
Proof.
  unfold file_boundary. generalize (List.length lens) as m. induction m as [|m [[k [Hk E]]|IH]].
  - destruct (Z.eq_dec (fstart lens 0) x) as [E|E]; [left; exists 0%nat; split; [lia|assumption]|].
    right. intros (k & Hk & Ek). assert (k = 0)%nat by lia. subst k. contradiction.
  - left. exists k. split; [lia|assumption].
  - destruct (Z.eq_dec (fstart lens (S m)) x) as [E|E]; [left; exists (S m); split; [lia|assumption]|].
    right. intros (k & Hk & Ek). destruct (Nat.eq_dec k (S m)) as [->|]; [contradiction|]. apply IH. exists k. split; [lia|assumption].
Qed.
Lemma numbers_sane name P hashes fes w : sane P (map snd (map stated fes)) -> (NewTorInfoE name P hashes fes = Says w <-> bad_numbers P hashes (map stated fes) w).
Proof.
  intros HS. pose proof HS as HS'. rewrite <- stated_lens in HS'. pose proof HS' as (HP & HF & HB). pose proof (zsum_nonneg _ HF) as HT.
  assert (Hn : 0 <= zlen hashes / 20) by (apply Z.div_pos; [apply zlen_nonneg|lia]).
  destruct (outer_init P fes (zlen hashes / 20) HS' Hn) as [H1 H2].
  pose proof (boundary_ends P hashes (map stated fes)) as HE. rewrite <- stated_lens in HE.
  rewrite info_says. unfold bad_numbers, LoadSpec.enough. rewrite (MakeFileList_spec fes P HS'). pose proof (sum64_spec fes HF HB) as HSum.
  split; (intros [H|H]; [left; exact H|right]).
  - destruct H as (HW & fl & pm & pidx & prem & tot & E1 & E2 & HT' & ->). injection E1 as <-. rewrite HSum in *. split; [exact HW|]. exists tot, (zsum (lens_of fes)). split; [reflexivity|]. intros _. rewrite <- stated_lens.
    destruct (Z_le_gt_dec (zsum (lens_of fes)) (zlen hashes / 20 * P)) as [Q|Q].
    + destruct (H1 Q) as (s & Es & Et). rewrite E2 in Es. injection Es as <-. cbn [st_tot snd] in Et. contradiction.
    + destruct (H2 ltac:(lia)) as [H3 H4]. split; [lia|]. destruct (boundary_dec (lens_of fes) (zlen hashes / 20 * P)) as [D|D].
      * split; [exact (proj1 HE D)|]. split; [|reflexivity]. destruct (H3 D) as (s & Es & Et). rewrite E2 in Es. injection Es as <-. exact Et.
      * rewrite (H4 D) in E2. discriminate.
  - destruct H as (HW & a & b & -> & H). specialize (H HS). destruct H as (He & Hb & -> & ->). rewrite <- stated_lens in *. split; [exact HW|]. destruct (H2 ltac:(lia)) as [H3 _].
    destruct (H3 (proj2 HE Hb)) as ([[[pm pidx] prem] tot] & Es & Et). cbn [st_tot snd] in Et. subst tot. exists (span_list fes P 0), pm, pidx, prem, (zlen hashes / 20 * P). rewrite HSum. repeat split; auto. lia.
Qed.
Lemma numbers_any name P hashes fes w : NewTorInfoE name P hashes fes = Says w -> bad_numbers P hashes (map stated fes) w.
Proof.
  intros H. pose proof H as H0. apply info_says in H. destruct H as [H|(HW & fl & pm & pidx & prem & tot & _ & _ & _ & ->)]; [left; exact H|right].
  split; [exact HW|]. exists tot, (sum64 fes). split; [reflexivity|]. intros HS. apply (numbers_sane name P hashes fes _ HS) in H0.
  destruct H0 as [(_ & X)|(_ & a & b & E & K)]; [discriminate|]. injection E as <- <-. exact (K HS).
Qed.

(** ** The file *)
Lemma value_says sha1 v wd w : go_wf v ->
  (load_value sha1 v wd = Says w <->
   ((forall d, v <> VDict d) /\ w = WNotDict) \/
   exists d, v = VDict d /\
    (first_wrong d [(B "announce", AString); (B "info", ADict)] w \/
     exists announce info, In (B "announce", VStr announce) d /\ In (B "info", VDict info) d /\
       (first_wrong info [(B "name", AString); (B "piece length", AnInt); (B "pieces", AString)] w \/
        exists name P hashes, In (B "name", VStr name) info /\ In (B "piece length", VInt KInt64 P) info /\ In (B "pieces", VStr hashes) info /\
          (bad_files info w \/ exists fes, dict_entriesE info wd name = Fine fes /\ NewTorInfoE name P hashes fes = Says w)))).
Proof.
  intros Hw.
  assert (ND : (forall d, v <> VDict d) -> (@Says torrent WNotDict = Says w <-> ((forall d, v <> VDict d) /\ w = WNotDict) \/ exists d, v = VDict d /\
    (first_wrong d [(B "announce", AString); (B "info", ADict)] w \/
     exists announce info, In (B "announce", VStr announce) d /\ In (B "info", VDict info) d /\
       (first_wrong info [(B "name", AString); (B "piece length", AnInt); (B "pieces", AString)] w \/
        exists name P hashes, In (B "name", VStr name) info /\ In (B "piece length", VInt KInt64 P) info /\ In (B "pieces", VStr hashes) info /\
          (bad_files info w \/ exists fes, dict_entriesE info wd name = Fine fes /\ NewTorInfoE name P hashes fes = Says w))))).
  { intros Hd. split; [intros X; injection X as <-; left; auto|]. intros [(_ & ->)|(d & -> & _)]; [reflexivity|destruct (Hd d eq_refl)]. }
  destruct v as [s|k z|d|l|]; try (cbn [load_value]; apply ND; discriminate). clear ND. pose proof (wf_keys _ Hw) as HN. cbn [load_value].
  split.
  - intros H. right. exists d. split; [reflexivity|]. rewrite !fw_cons, fw_nil, right_str, right_dict.
    apply bind_says in H. destruct H as [H|(a & H1 & H)]; [left; left; apply (str_says d _ w HN), H|]. apply (str_fine d _ a HN) in H1.
    apply bind_says in H. destruct H as [H|(info & H2 & H)]; [left; right; split; [eauto|]; left; apply (dict_says d _ w HN), H|]. apply (dict_fine d _ info HN) in H2.
    right. exists a, info. split; [exact H1|]. split; [exact H2|]. pose proof (wf_in _ _ _ Hw H2) as Hwi. pose proof (wf_keys _ Hwi) as HNi.
    apply bind_says in H. destruct H as [H|(ti & _ & X)]; [|discriminate]. unfold FromDictE in H. rewrite !fw_cons, fw_nil, !right_str, right_int.
    apply bind_says in H. destruct H as [H|(name & H3 & H)]; [left; left; apply (str_says info _ w HNi), H|]. apply (str_fine info _ name HNi) in H3.
    apply bind_says in H. destruct H as [H|(P & H4 & H)]; [left; right; split; [eauto|]; left; apply (int_says info _ w HNi), H|]. apply (int_fine info _ P HNi) in H4.
    apply bind_says in H. destruct H as [H|(hashes & H5 & H)]; [left; right; split; [eauto|]; right; split; [eauto|]; left; apply (str_says info _ w HNi), H|]. apply (str_fine info _ hashes HNi) in H5.
    right. exists name, P, hashes. repeat (split; [assumption|]). apply bind_says in H. destruct H as [H|(fes & H6 & H)]; [left; apply (files_says info wd name w Hwi), H|right; eauto].
  - intros [(H & _)|(d' & E & H)]; [destruct (H d eq_refl)|]. injection E as <-. apply bind_says. rewrite !fw_cons, fw_nil, right_str, right_dict in H.
    destruct H as [[H|((a & H1) & [H|(_ & [])])]|(a & info & H1 & H2 & H)]; [left; apply (str_says d _ w HN), H|right|right].
    + exists a. split; [apply (str_fine d _ a HN), H1|]. apply bind_says. left. apply (dict_says d _ w HN), H.
    + exists a. split; [apply (str_fine d _ a HN), H1|]. apply bind_says. right. exists info. split; [apply (dict_fine d _ info HN), H2|]. apply bind_says. left.
      pose proof (wf_in _ _ _ Hw H2) as Hwi. pose proof (wf_keys _ Hwi) as HNi. unfold FromDictE. apply bind_says. rewrite !fw_cons, fw_nil, !right_str, right_int in H.
      destruct H as [[H|((name & H3) & [H|((P & H4) & [H|(_ & [])])])]|(name & P & hashes & H3 & H4 & H5 & H)]; [left; apply (str_says info _ w HNi), H|right|right|right].
      * exists name. split; [apply (str_fine info _ name HNi), H3|]. apply bind_says. left. apply (int_says info _ w HNi), H.
      * exists name. split; [apply (str_fine info _ name HNi), H3|]. apply bind_says. right. exists P. split; [apply (int_fine info _ P HNi), H4|]. apply bind_says. left. apply (str_says info _ w HNi), H.
      * exists name. split; [apply (str_fine info _ name HNi), H3|]. apply bind_says. right. exists P. split; [apply (int_fine info _ P HNi), H4|]. apply bind_says. right.
        exists hashes. split; [apply (str_fine info _ hashes HNi), H5|]. apply bind_says. destruct H as [H|(fes & H6 & H)]; [left; apply (files_says info wd name w Hwi), H|right; eauto].
Qed.
Lemma entries_stated info wd name fes : go_wf (VDict info) -> dict_entriesE info wd name = Fine fes -> lists_files info name (map stated fes).
Proof. intros Hw H. pose proof (agree_files info wd name) as A. rewrite H in A. exact (entries_lists info wd name fes Hw A). Qed.
Lemma stated_entries info wd name fs : go_wf (VDict info) -> lists_files info name fs -> exists fes, dict_entriesE info wd name = Fine fes /\ map stated fes = fs.
Proof.
  intros Hw H. destruct (lists_entries info wd name fs Hw H) as (fes & E & K). pose proof (agree_files info wd name) as A. rewrite E in A.
  destruct (dict_entriesE info wd name); cbn [agree] in A; try discriminate; [injection A as <-; eauto|destruct A; discriminate].
Qed.
Lemma told_forward sha1 v wd w : go_wf v -> load_value sha1 v wd = Says w -> told v w.
Proof.
  intros Hw H. apply (value_says sha1 v wd w Hw) in H. destruct H as [H|(d & -> & H)]; [left; exact H|right]. exists d. split; [reflexivity|].
  destruct H as [H|(a & info & H1 & H2 & H)]; [left; exact H|right]. exists a, info. split; [exact H1|]. split; [exact H2|]. pose proof (wf_in _ _ _ Hw H2) as Hwi.
  destruct H as [H|(name & P & hashes & H3 & H4 & H5 & H)]; [left; exact H|right]. exists name, P, hashes. repeat (split; [assumption|]).
  destruct H as [H|(fes & H6 & H)]; [left; exact H|right]. exists (map stated fes). split; [exact (entries_stated _ _ _ _ Hwi H6)|]. exact (numbers_any _ _ _ _ _ H).
Qed.
Lemma told_iff sha1 v wd w : go_wf v -> sensible v -> (load_value sha1 v wd = Says w <-> told v w).
Proof.
  intros Hw HS. split; [exact (told_forward sha1 v wd w Hw)|]. intros H. apply (value_says sha1 v wd w Hw). destruct H as [H|(d & -> & H)]; [left; exact H|right]. exists d. split; [reflexivity|].
  destruct H as [H|(a & info & H1 & H2 & H)]; [left; exact H|right]. exists a, info. split; [exact H1|]. split; [exact H2|]. pose proof (wf_in _ _ _ Hw H2) as Hwi.
  destruct H as [H|(name & P & hashes & H3 & H4 & H5 & H)]; [left; exact H|right]. exists name, P, hashes. repeat (split; [assumption|]).
  destruct H as [H|(fs & H6 & H)]; [left; exact H|right]. pose proof (HS d info name P hashes fs eq_refl H2 H3 H4 H5 H6) as S.
  destruct (stated_entries info wd name fs Hwi H6) as (fes & E & <-). exists fes. split; [exact E|]. exact (proj2 (numbers_sane name P hashes fes w S) H).
Qed.
Lemma decode_says data w : DecodeE data = Says w <-> exists c k, DecodeD data = Trouble c k /\ w = WDecode (slen data) c k.
Proof.
  unfold DecodeE. destruct (DecodeD data) as [v|c k|]; split; try discriminate.
  - intros (c & k & X & _). discriminate.
  - intros X. injection X as <-. eauto.
  - intros (c' & k' & X & ->). injection X as <- <-. reflexivity.
  - intros (c & k & X & _). discriminate.
Qed.
Lemma decode_fine data v : DecodeE data = Fine v <-> Decode data = Ok v.
Proof.
  pose proof (agree_decode data) as A. destruct (DecodeE data) as [x| | |]; cbn [agree] in A.
  - rewrite A. split; intros X; injection X as ->; reflexivity.
  - destruct A as (e & ->). split; discriminate.
  - rewrite A. split; discriminate.
  - rewrite A. split; discriminate.
Qed.
Lemma file_says sha1 data wd w : FromTorrentFileE sha1 data wd = Says w <-> (exists c k, DecodeD data = Trouble c k /\ w = WDecode (slen data) c k) \/ exists v, Decode data = Ok v /\ load_value sha1 v wd = Says w.
Proof.
  unfold FromTorrentFileE. rewrite bind_says, decode_says. split; (intros [H|(v & H1 & H2)]; [left; exact H|right; exists v; split; [now apply decode_fine|exact H2]]).
Qed.

(** ** Answers *)
Lemma u16_u64 z : u16 (u64 z) = z mod 65536.
Proof.
  unfold u16, u64. pose proof (Z.div_mod z 18446744073709551616 ltac:(lia)) as H. set (q := z / 18446744073709551616) in *. set (r := z mod 18446744073709551616) in *.
  rewrite H. replace (18446744073709551616 * q + r) with (r + 281474976710656 * q * 65536) by lia. now rewrite Z.mod_add by lia.
Qed.
Lemma peers_says parseIP l : Forall go_wf l -> forall acc w, list_GetPeersE parseIP l acc = Says w <-> exists pre v post ps, l = pre ++ v :: post /\ Forall2 (peer_entry parseIP) pre ps /\ bad_peer v (acc ++ ps) w.
Proof.
  induction l as [|v l IH]; intros HW acc w.
  - split; [discriminate|]. intros (pre & v & post & fs & E & _). destruct pre; discriminate.
  - inversion HW as [|? ? Hv Hl]; subst. specialize (IH Hl).
    assert (ND : (forall d, v <> VDict d) -> (Says (WPeers acc) = @Says (list info) w <-> exists pre x post ps, v :: l = pre ++ x :: post /\ Forall2 (peer_entry parseIP) pre ps /\ bad_peer x (acc ++ ps) w)).
    { intros Hd. split.
      - intros X. injection X as <-. exists [], v, l, []. split; [reflexivity|]. split; [constructor|]. left. rewrite app_nil_r. auto.
      - intros (pre & x & post & fs & E & HF & HB). destruct pre as [|p pre].
        + injection E as <- _. inversion HF; subst. rewrite app_nil_r in HB. destruct HB as [(_ & ->)|(d & -> & _)]; [reflexivity|destruct (Hd d eq_refl)].
        + injection E as <- _. inversion HF as [|? ? ? ? (d & ? & ? & ? & -> & _) _]; subst. destruct (Hd d eq_refl). }
    destruct v as [s|k z|d|ll|]; try (cbn [list_GetPeersE]; apply ND; discriminate). clear ND.
    pose proof (wf_keys _ Hv) as HN. cbn [list_GetPeersE]. split.
    + intros H. apply bind_says in H. destruct H as [H|(ip & H1 & H)].
      { exists [], (VDict d), l, []. repeat split; [constructor|]. right. exists d. split; [reflexivity|]. rewrite !fw_cons. left. apply (str_says d _ w HN), H. }
      apply (str_fine d _ ip HN) in H1. apply bind_says in H. destruct H as [H|(port & H2 & H)].
      { exists [], (VDict d), l, []. repeat split; [constructor|]. right. exists d. split; [reflexivity|]. rewrite !fw_cons, right_str. right. split; [eauto|]. left. apply (uint_says d _ w HN), H. }
      apply (uint_fine d _ port HN) in H2. destruct H2 as (z & H2 & ->). apply bind_says in H. destruct H as [H|(id & H3 & H)].
      { exists [], (VDict d), l, []. repeat split; [constructor|]. right. exists d. split; [reflexivity|]. rewrite !fw_cons, right_str, right_int. right. split; [eauto|]. right. split; [eauto|]. left. apply (str_says d _ w HN), H. }
      apply (str_fine d _ id HN) in H3. apply IH in H. destruct H as (pre & v & post & ps & -> & HF & HB). rewrite u16_u64, <- app_assoc in HB.
      exists (VDict d :: pre), v, post, (MakePeer id (parseIP ip) (z mod 65536) :: ps). repeat split; [constructor; [|exact HF]|exact HB]. exists d, ip, z, id. auto.
    + intros (pre & v & post & ps & E & HF & HB). destruct pre as [|p pre].
      * injection E as <- <-. inversion HF; subst. rewrite app_nil_r in HB. destruct HB as [(HB & _)|(d' & X & HB)]; [destruct (HB d eq_refl)|]. injection X as <-. apply bind_says.
        rewrite !fw_cons, fw_nil, right_str, right_int in HB. destruct HB as [H|((ip & H1) & [H|((z & H2) & [H|(_ & [])])])]; [left; apply (str_says d _ w HN), H|right|right].
        -- exists ip. split; [apply (str_fine d _ ip HN), H1|]. apply bind_says. left. apply (uint_says d _ w HN), H.
        -- exists ip. split; [apply (str_fine d _ ip HN), H1|]. apply bind_says. right. exists (u64 z). split; [apply (uint_fine d _ _ HN); eauto|]. apply bind_says. left. apply (str_says d _ w HN), H.
      * injection E as <- ->. inversion HF as [|? i ? ps' (d' & ip & z & id & X & H1 & H2 & H3 & ->) HF']; subst. injection X as <-.
        apply bind_says. right. exists ip. split; [apply (str_fine d _ ip HN), H1|]. apply bind_says. right. exists (u64 z). split; [apply (uint_fine d _ _ HN); exists z; auto|].
        apply bind_says. right. exists id. split; [apply (str_fine d _ id HN), H3|]. apply IH. exists pre, v, post, ps'. repeat split; [exact HF'|]. rewrite u16_u64, <- app_assoc. exact HB.
Qed.
Lemma answer_says parseIP body v w : go_wf v -> (answer_value parseIP body v = Says w <-> replied parseIP body v w).
Proof.
  intros Hw.
  assert (ND : (forall d, v <> VDict d) -> (@Says response (WBody body) = Says w <-> replied parseIP body v w)).
  { intros Hd. unfold replied. split; [intros X; injection X as <-; left; auto|]. intros [(_ & ->)|(d & -> & _)]; [reflexivity|destruct (Hd d eq_refl)]. }
  destruct v as [s|k z|d|l|]; try (cbn [answer_value]; apply ND; discriminate). clear ND. pose proof (wf_keys _ Hw) as HN. cbn [answer_value].
  assert (PE : match GetStringE d (B "peers") with Fine s => string_GetPeersE s | _ => ask l <- GetListE d (B "peers"); list_GetPeersE parseIP l [] end = Says w <-> bad_peers parseIP d w).
  { unfold bad_peers.
    assert (L : (forall s, ~ In (B "peers", VStr s) d) -> ((ask l <- GetListE d (B "peers"); list_GetPeersE parseIP l []) = Says w <->
       (exists s, In (B "peers", VStr s) d /\ zlen s mod 6 <> 0 /\ w = WSix (zlen s)) \/ ((forall s, ~ In (B "peers", VStr s) d) /\ wrong d (B "peers", AList) w) \/
       exists l pre v post ps, In (B "peers", VList l) d /\ l = pre ++ v :: post /\ Forall2 (peer_entry parseIP) pre ps /\ bad_peer v ps w)).
    { intros Hno. rewrite bind_says, (list_says d _ w HN). split.
      - intros [H|(l & H1 & H)]; [right; left; auto|]. apply (list_fine d _ l HN) in H1. apply (peers_says parseIP l (wf_list_all _ (wf_in _ _ _ Hw H1)) [] w) in H.
        destruct H as (pre & v & post & ps & H). right. right. exists l, pre, v, post, ps. tauto.
      - intros [(s & Hs & _)|[(_ & H)|(l & pre & v & post & ps & H1 & H)]]; [destruct (Hno _ Hs)|left; exact H|right]. exists l. split; [apply (list_fine d _ l HN), H1|].
        apply (peers_says parseIP l (wf_list_all _ (wf_in _ _ _ Hw H1)) [] w). exists pre, v, post, ps. exact H. }
    destruct (GetStringE d (B "peers")) as [s|w1| |] eqn:E.
    - apply (str_fine d _ s HN) in E. unfold string_GetPeersE. split.
      + intros H. left. exists s. split; [exact E|]. destruct (Z.eqb_spec (zlen s mod 6) 0) as [M|M]; [destruct (compact_loop s) eqn:C; try discriminate|]. injection H as <-. auto.
      + intros [(s' & Hs & M & ->)|[(Hno & _)|(l & _ & _ & _ & _ & Hi & _)]]; [|destruct (Hno _ E)|apply (dget_in _ _ _ HN) in E, Hi; congruence].
        apply (dget_in _ _ _ HN) in E, Hs. rewrite E in Hs. injection Hs as <-. apply Z.eqb_neq in M. now rewrite M.
    - apply L. intros s Hi. apply (str_fine d _ s HN) in Hi. congruence.
    - apply L. intros s Hi. apply (str_fine d _ s HN) in Hi. congruence.
    - apply L. intros s Hi. apply (str_fine d _ s HN) in Hi. congruence. }
  unfold newResponseE, replied.
  set (REST := ask inter <- GetUintE d (B "interval"); ask seeds <- GetUintE d (B "complete"); ask leeches <- GetUintE d (B "incomplete");
    ask peers <- match GetStringE d (B "peers") with Fine s => string_GetPeersE s | _ => ask l <- GetListE d (B "peers"); list_GetPeersE parseIP l [] end;
    Fine (mkresp (mkts inter (or_else 0 (GetUintE d (B "min interval"))) (or_else [] (GetStringE d (B "warning message"))) [] seeds leeches) peers)).
  assert (K : (forall r, ~ In (B "failure reason", VStr r) d) -> (REST = Says w <->
    ((forall d0, VDict d <> VDict d0) /\ w = WBody body) \/ exists d0, VDict d = VDict d0 /\ ((exists r, In (B "failure reason", VStr r) d0 /\ w = WReason r) \/
     ((forall r, ~ In (B "failure reason", VStr r) d0) /\ (first_wrong d0 counts w \/ (Forall (right d0) counts /\ bad_peers parseIP d0 w)))))).
  { intros Hno. subst REST. rewrite bind_says. split.
    - intros H. right. exists d. split; [reflexivity|]. right. split; [exact Hno|]. unfold counts. rewrite !fw_cons, fw_nil, !right_int.
      destruct H as [H|(i & H1 & H)]; [left; left; apply (uint_says d _ w HN), H|]. apply (uint_fine d _ i HN) in H1. destruct H1 as (z1 & H1 & ->).
      apply bind_says in H. destruct H as [H|(i & H2 & H)]; [left; right; split; [eauto|]; left; apply (uint_says d _ w HN), H|]. apply (uint_fine d _ i HN) in H2. destruct H2 as (z2 & H2 & ->).
      apply bind_says in H. destruct H as [H|(i & H3 & H)]; [left; right; split; [eauto|]; right; split; [eauto|]; left; apply (uint_says d _ w HN), H|]. apply (uint_fine d _ i HN) in H3. destruct H3 as (z3 & H3 & ->).
      apply bind_says in H. destruct H as [H|(? & _ & X)]; [|discriminate]. right. split; [|apply PE, H]. constructor; [apply right_int; eauto|]. constructor; [apply right_int; eauto|]. constructor; [apply right_int; eauto|constructor].
    - intros [(H & _)|(d' & X & H)]; [destruct (H d eq_refl)|]. injection X as <-. destruct H as [(r & Hr & _)|(_ & H)]; [destruct (Hno _ Hr)|]. unfold counts in H. rewrite !fw_cons, fw_nil, !right_int in H.
      destruct H as [[H|((z1 & H1) & [H|((z2 & H2) & [H|(_ & [])])])]|(HF & H)]; [left; apply (uint_says d _ w HN), H|right|right|right].
      + exists (u64 z1). split; [apply (uint_fine d _ _ HN); eauto|]. apply bind_says. left. apply (uint_says d _ w HN), H.
      + exists (u64 z1). split; [apply (uint_fine d _ _ HN); eauto|]. apply bind_says. right. exists (u64 z2). split; [apply (uint_fine d _ _ HN); eauto|]. apply bind_says. left. apply (uint_says d _ w HN), H.
      + inversion HF as [|? ? R1 HF1]; subst. inversion HF1 as [|? ? R2 HF2]; subst. inversion HF2 as [|? ? R3 _]; subst. apply right_int in R1, R2, R3. destruct R1 as (z1 & H1), R2 as (z2 & H2), R3 as (z3 & H3).
        exists (u64 z1). split; [apply (uint_fine d _ _ HN); eauto|]. apply bind_says. right. exists (u64 z2). split; [apply (uint_fine d _ _ HN); eauto|]. apply bind_says. right. exists (u64 z3). split; [apply (uint_fine d _ _ HN); eauto|].
        apply bind_says. left. apply PE, H. }
  destruct (GetStringE d (B "failure reason")) as [f|w1| |] eqn:E; try (apply K; intros r Hi; apply (str_fine d _ r HN) in Hi; congruence).
  apply (str_fine d _ f HN) in E. split.
  - intros X. injection X as <-. right. exists d. split; [reflexivity|]. left. eauto.
  - intros [(H & _)|(d' & X & H)]; [destruct (H d eq_refl)|]. injection X as <-. destruct H as [(r & Hr & ->)|(Hno & _)]; [|destruct (Hno _ E)]. apply (dget_in _ _ _ HN) in E, Hr. rewrite E in Hr. injection Hr as ->. reflexivity.
Qed.
Lemma body_says parseIP body w : handle_bodyE parseIP body = Says w <->
  (exists c k, DecodeD body = Trouble c k /\ w = WDecode (slen body) c k) \/ exists v, Decode body = Ok v /\ replied parseIP (vis body) v w.
Proof.
  unfold handle_bodyE. rewrite bind_says, decode_says. split; (intros [H|(v & H1 & H2)]; [left; exact H|right; exists v]).
  - apply decode_fine in H1. split; [exact H1|]. apply answer_says; [exact (proj1 (Decode_wf _ _ H1))|exact H2].
  - split; [now apply decode_fine|]. apply answer_says; [exact (proj1 (Decode_wf _ _ H1))|exact H2].
Qed.
