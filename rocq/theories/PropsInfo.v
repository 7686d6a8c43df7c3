(** PropsInfo.v: property theorems C08, C09, C32, C33, C34 (metadata and infohash). *)
From Verif Require Import Base BencodeModel BencodeSpec DecimalProofs BencodeProofs PathModel PathSpec PathProofs.
From Verif Require Import LayoutModel LayoutSpec InfoSpec InfoProofs.

(** Sample torrents. *)
Definition im1 : list (bytes * bval) :=
  Eval cbv in plain_single (B "f") (repeat x41 20) 8 5.
Definition tb1 : bytes := B "d6:lengthi5e4:name1:f12:piece lengthi8e6:pieces20:AAAAAAAAAAAAAAAAAAAA7:privatei0ee".
Definition im2 : list (bytes * bval) :=
  Eval cbv in plain_multi (B "dir") (repeat x41 40) 8 [(9, [B "a"; B "b"]); (7, [B "c"])].
Definition tb2 : bytes := B "d5:filesld6:lengthi9e4:pathl1:a1:beed6:lengthi7e4:pathl1:ceee4:name3:dir12:piece lengthi8e6:pieces40:AAAAAAAAAAAAAAAAAAAAAAAAAAAAAAAAAAAAAAAA7:privatei0ee".
(** The same file list with one entry, and without the private key. *)
Definition im3 : list (bytes * bval) :=
  Eval cbv in plain_multi (B "dir") (repeat x41 20) 8 [(5, [B "a"])].
Definition tb3 : bytes := B "d5:filesld6:lengthi5e4:pathl1:aeee4:name3:dir12:piece lengthi8e6:pieces20:AAAAAAAAAAAAAAAAAAAA7:privatei0ee".
Definition im4 : list (bytes * bval) := Eval cbv in firstn 4 im1.
Definition tb4 : bytes := B "d6:lengthi5e4:name1:f12:piece lengthi8e6:pieces20:AAAAAAAAAAAAAAAAAAAAe".
(** Two single-file torrents without a name. *)
Definition im5 : list (bytes * bval) := Eval cbv in plain_single [] (repeat x41 20) 8 5.
Definition tb5 : bytes := B "d6:lengthi5e4:name0:12:piece lengthi8e6:pieces20:AAAAAAAAAAAAAAAAAAAA7:privatei0ee".
Definition im6 : list (bytes * bval) := Eval cbv in plain_single [] (repeat x42 20) 8 5.
Definition tb6 : bytes := B "d6:lengthi5e4:name0:12:piece lengthi8e6:pieces20:BBBBBBBBBBBBBBBBBBBB7:privatei0ee".
Definition whole (im : list (bytes * bval)) : list (bytes * bval) := [(B "announce", BStr (B "http")); (B "info", BDict im)].
Definition text (tb : bytes) : bytes := B "d8:announce4:http4:info" ++ tb ++ B "e".

Example sample1 : info_text (whole im1) (text tb1) im1 tb1. Proof. unfold whole, im1. info_text_tac. Qed.
Example sample2 : info_text (whole im2) (text tb2) im2 tb2. Proof. unfold whole, im2. info_text_tac. Qed.
Example sample3 : info_text (whole im3) (text tb3) im3 tb3. Proof. unfold whole, im3. info_text_tac. Qed.
Example sample4 : info_text (whole im4) (text tb4) im4 tb4. Proof. unfold whole, im4. info_text_tac. Qed.
Example sample5 : info_text (whole im5) (text tb5) im5 tb5. Proof. unfold whole, im5. info_text_tac. Qed.
Example sample6 : info_text (whole im6) (text tb6) im6 tb6. Proof. unfold whole, im6. info_text_tac. Qed.

(** C08 *)
Theorem C08_infohash_raw_bytes : forall sha1 m t im tb junk sp wd tor,
  info_text m t im tb -> no_empty (BDict im) ->
  FromTorrentFile sha1 (mkslice (t ++ junk) sp) wd = Ok tor ->
  t_infohash tor = sha1 tb /\ exists pre post, t = pre ++ B "4:info" ++ tb ++ post.
Proof. exact info_hash_range. Qed.
Print Assumptions C08_infohash_raw_bytes.
Example C08_case : no_empty (BDict im2) /\
  exists ti, FromTorrentFile (fun b => b) (mkslice (text tb2 ++ B "junk") []) (B "dl") = Ok (mktor tb2 (B "http") ti).
Proof. split; [unfold im2; noempty|]. eexists. vm_compute. reflexivity. Qed.

(** An empty name: the hash covers only the file length. *)
Theorem C08_empty_name_collision : forall sha1 m1 t1 m2 t2 h1 h2 P1 P2 L tb1 tb2 wd tor1 tor2,
  info_text m1 t1 (plain_single [] h1 P1 L) tb1 -> info_text m2 t2 (plain_single [] h2 P2 L) tb2 ->
  FromTorrentFile sha1 (mkslice t1 []) wd = Ok tor1 -> FromTorrentFile sha1 (mkslice t2 []) wd = Ok tor2 ->
  t_infohash tor1 = t_infohash tor2.
Proof. exact no_name_collision. Qed.
Print Assumptions C08_empty_name_collision.
(** Two torrents that differ in their piece hashes and have the same infohash for every hash function. *)
Theorem C08_distinct_infohash_refuted : exists t1 t2 ti1 ti2 h,
  ti_hashes ti1 <> ti_hashes ti2 /\ forall sha1 wd,
  exists a1 a2, FromTorrentFile sha1 (mkslice t1 []) wd = Ok (mktor (sha1 h) (B "http") a1) /\ same_torinfo ti1 a1 /\
                FromTorrentFile sha1 (mkslice t2 []) wd = Ok (mktor (sha1 h) (B "http") a2) /\ same_torinfo ti2 a2.
Proof.
  destruct (FromTorrentFile (fun b => b) (mkslice (text tb5) []) []) as [tor5| | |] eqn:E5; [|vm_compute in E5; discriminate..].
  destruct (FromTorrentFile (fun b => b) (mkslice (text tb6) []) []) as [tor6| | |] eqn:E6; [|vm_compute in E6; discriminate..].
  exists (text tb5), (text tb6), (t_info tor5), (t_info tor6), (B "d6:lengthi5e4:name").
  vm_compute in E5. apply Ok_inj in E5. vm_compute in E6. apply Ok_inj in E6. split; [rewrite <- E5, <- E6; discriminate|].
  intros sha1 wd.
  unfold FromTorrentFile.
  replace (Decode (mkslice (text tb5) [])) with (Ok (VDict (map (onsnd ofb) (whole im5)))) by (vm_compute; reflexivity).
  replace (Decode (mkslice (text tb6) [])) with (Ok (VDict (map (onsnd ofb) (whole im6)))) by (vm_compute; reflexivity).
  cbn [bind].
  change (GetString (map (onsnd ofb) (whole im5)) (B "announce")) with (Ok (B "http")).
  change (GetString (map (onsnd ofb) (whole im6)) (B "announce")) with (Ok (B "http")).
  change (GetDict (map (onsnd ofb) (whole im5)) (B "info")) with (Ok (map (onsnd ofb) im5)).
  change (GetDict (map (onsnd ofb) (whole im6)) (B "info")) with (Ok (map (onsnd ofb) im6)). cbn [bind].
  replace (fst (Encode (VDict (map (onsnd ofb) im5)))) with (B "d6:lengthi5e4:name") by (vm_compute; reflexivity).
  replace (fst (Encode (VDict (map (onsnd ofb) im6)))) with (B "d6:lengthi5e4:name") by (vm_compute; reflexivity).
  unfold FromDict.
  change (GetString (map (onsnd ofb) im5) (B "name")) with (@Ok bytes []). change (GetInt (map (onsnd ofb) im5) (B "piece length")) with (Ok 8).
  change (GetString (map (onsnd ofb) im5) (B "pieces")) with (Ok (repeat x41 20)).
  change (GetString (map (onsnd ofb) im6) (B "name")) with (@Ok bytes []). change (GetInt (map (onsnd ofb) im6) (B "piece length")) with (Ok 8).
  change (GetString (map (onsnd ofb) im6) (B "pieces")) with (Ok (repeat x42 20)). cbn [bind].
  rewrite !(dict_entries_single _ _ _ 5) by (vm_compute; reflexivity). cbn [bind].
  destruct (NewTorInfo_same [] 8 (repeat x41 20) [mkeb 5 [] []] [mkeb 5 [] (Join [wd; []])] (t_info tor5) eq_refl) as (a1 & Hn1 & Ha1);
    [rewrite <- E5; vm_compute; reflexivity|].
  destruct (NewTorInfo_same [] 8 (repeat x42 20) [mkeb 5 [] []] [mkeb 5 [] (Join [wd; []])] (t_info tor6) eq_refl) as (a2 & Hn2 & Ha2);
    [rewrite <- E6; vm_compute; reflexivity|].
  exists a1, a2. split; [etransitivity; [apply (f_equal (fun r => bind r _)); exact Hn1|reflexivity]|]. split; [assumption|].
  split; [etransitivity; [apply (f_equal (fun r => bind r _)); exact Hn2|reflexivity]|assumption].
Qed.
Print Assumptions C08_distinct_infohash_refuted.

(** C09 *)
Theorem C09_recomputed_infohash : forall sha1 m t im tb junk sp wd tor ann,
  info_text m t im tb -> no_empty (BDict im) ->
  (exists name hashes P L, im = plain_single name hashes P L) \/
  (exists name hashes P fs, im = plain_multi name hashes P fs /\ Forall (fun f => path_list (snd f)) fs /\ List.length fs <> 1%nat) ->
  FromTorrentFile sha1 (mkslice (t ++ junk) sp) wd = Ok tor -> go_wf (VDict (InfoBencode (t_info tor))) ->
  NewTorrent sha1 (t_info tor) ann = Ok (mktor (t_infohash tor) ann (t_info tor)).
Proof. exact recompute. Qed.
Print Assumptions C09_recomputed_infohash.
(** Otherwise the hash input differs: private must be present, and a one-entry files list becomes a single file. *)
Theorem C09_private_required : forall m t im tb ti,
  info_text m t im tb -> go_wf (VDict (InfoBencode ti)) -> ~ In (B "private", BInt 0) im ->
  Encode (VDict (InfoBencode ti)) <> (tb, None).
Proof. exact recompute_needs_private. Qed.
Print Assumptions C09_private_required.
Theorem C09_one_entry_files_list : forall m t im tb ti,
  info_text m t im tb -> go_wf (VDict (InfoBencode ti)) -> ti_single ti = true ->
  (exists fs, In (B "files", fs) im) -> Encode (VDict (InfoBencode ti)) <> (tb, None).
Proof. exact recompute_single. Qed.
Print Assumptions C09_one_entry_files_list.
Example C09_case : exists tor, FromTorrentFile (fun b => b) (mkslice (text tb2) []) (B "dl") = Ok tor /\
  t_infohash tor = tb2 /\ NewTorrent (fun b => b) (t_info tor) (B "x") = Ok (mktor tb2 (B "x") (t_info tor)).
Proof. eexists. split; [vm_compute; reflexivity|]. split; vm_compute; reflexivity. Qed.
Example C09_one_entry_case : exists tor, FromTorrentFile (fun b => b) (mkslice (text tb3) []) (B "dl") = Ok tor /\
  ti_single (t_info tor) = true /\ t_infohash tor = tb3 /\
  exists tor', NewTorrent (fun b => b) (t_info tor) (B "http") = Ok tor' /\ t_infohash tor' <> tb3.
Proof. eexists. split; [vm_compute; reflexivity|]. split; [reflexivity|]. split; [reflexivity|]. eexists. split; [vm_compute; reflexivity|vm_compute; discriminate]. Qed.
Example C09_private_case : exists tor, FromTorrentFile (fun b => b) (mkslice (text tb4) []) (B "dl") = Ok tor /\
  t_infohash tor = tb4 /\ exists tor', NewTorrent (fun b => b) (t_info tor) (B "http") = Ok tor' /\ t_infohash tor' = tb1.
Proof. eexists. split; [vm_compute; reflexivity|]. split; [reflexivity|]. eexists. split; vm_compute; reflexivity. Qed.

(** C32 *)
Theorem C32_dictionary_round_trip : forall name P hashes fs ti wd,
  NewTorInfo name P hashes fs = Ok ti -> single_named name fs -> int64_lens fs ->
  exists ti', FromDict (InfoBencode ti) wd = Ok ti' /\ same_torinfo ti ti'.
Proof. exact round_trip. Qed.
Print Assumptions C32_dictionary_round_trip.
Theorem C32_text_round_trip : forall name P hashes fs ti wd enc junk sp,
  NewTorInfo name P hashes fs = Ok ti -> single_named name fs -> int64_lens fs ->
  go_wf (VDict (InfoBencode ti)) -> no_min64 (VDict (InfoBencode ti)) -> Encode (VDict (InfoBencode ti)) = (enc, None) ->
  exists w ti', Decode (mkslice (enc ++ junk) sp) = Ok (VDict w) /\ FromDict w wd = Ok ti' /\ same_torinfo ti ti'.
Proof. exact round_trip_text. Qed.
Print Assumptions C32_text_round_trip.
(** The naming hypothesis is needed: one file stored under another name comes back renamed. *)
Theorem C32_single_renamed_refuted : exists name P hashes fs ti ti',
  NewTorInfo name P hashes fs = Ok ti /\ FromDict (InfoBencode ti) (B "dl") = Ok ti' /\ ~ same_torinfo ti ti'.
Proof.
  exists (B "dir"), 8, (repeat x41 20), [MakeFileEntry (B "a") 5]. eexists _, _.
  split; [vm_compute; reflexivity|]. split; [vm_compute; reflexivity|].
  intros (_ & _ & _ & _ & _ & HF & _). inversion HF as [|? ? ? ? (_ & Ht & _) _]; subst. vm_compute in Ht. discriminate.
Qed.
Print Assumptions C32_single_renamed_refuted.
Definition files32 : list ebase := [MakeFileEntry (B "a/b") 9; MakeFileEntry (B "c") 7].
Example C32_case : exists ti enc, NewTorInfo (B "dir") 8 (repeat x41 40) files32 = Ok ti /\ single_named (B "dir") files32 /\ int64_lens files32 /\
  go_wf (VDict (InfoBencode ti)) /\ no_min64 (VDict (InfoBencode ti)) /\ Encode (VDict (InfoBencode ti)) = (enc, None) /\ enc = tb2.
Proof.
  eexists _, _. split; [vm_compute; reflexivity|]. split; [intros f Hf; discriminate|]. split; [repeat constructor; vm_compute; discriminate|].
  split; [|split; [|split; vm_compute; reflexivity]].
  - cbn. repeat first [apply wf_dict | apply wf_list | apply wf_str; vm_compute; discriminate | apply wf_int; split; vm_compute; discriminate
      | apply Forall_cons | apply Forall_nil | apply NoDup_cons | apply NoDup_nil | cbn [snd fst map]; vm_compute; discriminate
      | cbn [map fst In]; intuition discriminate | progress cbn [snd fst map]].
  - cbn. repeat first [apply nm_dict | apply nm_list | apply nm_str | apply nm_int; discriminate | apply Forall_cons | apply Forall_nil | progress cbn [snd fst]].
Qed.

(** C33 *)
Theorem C33_FromDict_terminates : forall d wd, FromDict d wd <> NoFuel.
Proof. exact FromDict_terminates. Qed.
Print Assumptions C33_FromDict_terminates.
(** FromBenList panics exactly when it reaches an entry with an empty path list. *)
Theorem C33_empty_path_panics : forall l, FromBenList l = Panic <->
  exists pre d post n, l = pre ++ VDict d :: post /\ (exists es, FromBenList pre = Ok es) /\
    GetInt d (B "length") = Ok n /\ GetList d (B "path") = Ok [].
Proof. exact FromBenList_panic. Qed.
Print Assumptions C33_empty_path_panics.
Theorem C33_FromDict_path_panic : forall d wd name P hashes files,
  GetString d (B "name") = Ok name -> GetInt d (B "piece length") = Ok P -> GetString d (B "pieces") = Ok hashes ->
  (forall n, GetInt d (B "length") <> Ok n) -> GetList d (B "files") = Ok files -> FromBenList files = Panic ->
  FromDict d wd = Panic.
Proof. exact FromDict_path_panic. Qed.
Print Assumptions C33_FromDict_path_panic.
Theorem C33_piece_length_zero_panics : forall d wd name hashes,
  GetString d (B "name") = Ok name -> GetInt d (B "piece length") = Ok 0 -> GetString d (B "pieces") = Ok hashes ->
  zlen hashes mod 20 = 0 -> forall fes, dict_entries d wd name = Ok fes -> fes <> [] -> FromDict d wd = Panic.
Proof. exact FromDict_P0. Qed.
Print Assumptions C33_piece_length_zero_panics.
Definition hostile (P : Z) (files : list gval) : list (bytes * gval) :=
  [(B "files", VList files); (B "name", VStr (B "d")); (B "piece length", VInt KInt64 P); (B "pieces", VStr (repeat x41 40))].
Definition hfile (n : Z) (p : list gval) : gval := VDict [(B "length", VInt KInt64 n); (B "path", VList p)].
Theorem C33_no_panic_refuted : exists d1 d2, FromDict d1 (B "dl") = Panic /\ FromDict d2 (B "dl") = Panic.
Proof. exists (hostile 8 [hfile 3 []]), (hostile 0 [hfile 3 [VStr (B "a")]]). split; vm_compute; reflexivity. Qed.
Print Assumptions C33_no_panic_refuted.
(** Negative file lengths are accepted. *)
Theorem C33_negative_length_refuted : exists d ti e, FromDict d (B "dl") = Ok ti /\ In e (ti_files ti) /\ eb_len (en_base e) < 0.
Proof.
  exists (hostile 10 [hfile (-5) [VStr (B "a")]; hfile 15 [VStr (B "b")]]). eexists _, _.
  split; [vm_compute; reflexivity|]. split; [cbn [ti_files]; left; reflexivity|]. reflexivity.
Qed.
Print Assumptions C33_negative_length_refuted.

(** C34 *)
Theorem C34_contained : forall info wd name cwd ti e,
  FromDict info wd = Ok ti -> GetString info (B "name") = Ok name -> plain_name name -> plain_paths info ->
  In e (ti_files ti) -> below (place cwd wd) (place cwd (eb_local (en_base e))).
Proof. exact files_contained. Qed.
Print Assumptions C34_contained.
(** Where a file goes for any non-empty name and torrent path: both are followed, '..' included. *)
Theorem C34_local_path : forall info wd name cwd ti e,
  wd <> [] -> FromDict info wd = Ok ti -> GetString info (B "name") = Ok name -> name <> [] -> eb_tor (en_base e) <> [] ->
  In e (ti_files ti) ->
  place cwd (eb_local (en_base e)) =
    (if match GetInt info (B "length") with Ok _ => true | _ => false end then follow (place cwd wd) (split_slash name)
     else follow (follow (place cwd wd) (split_slash name)) (split_slash (eb_tor (en_base e)))).
Proof. exact local_path_general. Qed.
Print Assumptions C34_local_path.
Theorem C34_containment_refuted : exists info ti e, FromDict info (B "/home/u/dl") = Ok ti /\ In e (ti_files ti) /\
  eb_local (en_base e) = B "/home/u/.profile" /\
  forall cwd, ~ below (place cwd (B "/home/u/dl")) (place cwd (eb_local (en_base e))).
Proof.
  exists (hostile 10 [hfile 3 [VStr (B ".."); VStr (B ".."); VStr (B ".profile")]]). eexists _, _.
  split; [vm_compute; reflexivity|]. split; [left; reflexivity|]. split; [reflexivity|].
  intros cwd (names & Hn & He). vm_compute in He. discriminate.
Qed.
Print Assumptions C34_containment_refuted.
Example C34_case : exists ti, FromDict (hostile 10 [hfile 3 [VStr (B "a"); VStr (B "b")]]) (B "dl") = Ok ti /\ plain_name (B "d") /\
  plain_paths (hostile 10 [hfile 3 [VStr (B "a"); VStr (B "b")]]) /\ map (fun e => eb_local (en_base e)) (ti_files ti) = [B "dl/d/a/b"].
Proof.
  assert (P1 : forall c, c <> "."%byte -> c <> slash -> plain_name [c]).
  { intros c H1 H2. split; [discriminate|]. split; [intros H; injection H; auto|]. split; [discriminate|]. intros [H|[]]. auto. }
  eexists. split; [vm_compute; reflexivity|]. split; [apply P1; discriminate|]. split; [|reflexivity].
  intros files d pl H1 H2 H3. vm_compute in H1. injection H1 as <-. destruct H2 as [H2|[]]. injection H2 as <-. vm_compute in H3. injection H3 as <-.
  exists [B "a"; B "b"]. split; [reflexivity|]. repeat constructor; try discriminate; intros [H|[]]; discriminate.
Qed.
