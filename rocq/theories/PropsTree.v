(** PropsTree.v: directories and descriptors (C108). *)
From Coq Require Import ZifyBool ZifyNat ZifyN.
From Verif Require Import Base BencodeModel PathModel PathSpec PathProofs LayoutModel LayoutSpec LayoutProofs FsModel FsSpec FsProofs OcatProofs TreeModel TreeSpec TreeSimProofs TreeProofs TreeTopProofs PropsFs.

(** A home directory with d/a in it and an unrelated file; two descriptors. *)
Definition home (n : nat) (gc : list nat) : tworld := mktw disk0 [[]; [B "h"]; [B "h"; B "d"]] n 0 gc.
Lemma below_dec : forall d q, below d q -> In d (map (fun k => firstn k q) (seq 0 (List.length q))).
Proof.
  intros d q (ns & Hn & ->). apply in_map_iff. exists (List.length d). rewrite firstn_app, Nat.sub_diag, firstn_all. cbn. rewrite app_nil_r. split; [reflexivity|].
  apply in_seq. rewrite app_length. destruct ns; [contradiction|cbn; lia].
Qed.
Example home_wf : forall n gc, tree_wf (home n gc).
Proof.
  intros n gc. split; [apply disk0_wf|]. unfold isdir, isfile. cbn [home tw_dirs tw_w w_cwd disk0 w_names map fst].
  split; [cbn; auto|]. split; [cbn; auto|]. split; [|split].
  - intros q d Hq Hb. apply below_dec in Hb. cbn in Hq. repeat destruct Hq as [<-|Hq]; cbn in *; try contradiction; intuition.
  - intros q d Hq Hb. apply below_dec in Hb. cbn in Hq. repeat destruct Hq as [<-|Hq]; cbn in *; try contradiction; intuition.
  - intros q Hq Hd. cbn in *. repeat destruct Hq as [<-|Hq]; try contradiction; intuition discriminate.
Qed.

(** C108 *)
(** A loaded torrent's paths are clean. *)
Theorem C108_loaded_clean : forall sha1 fdata wd tor, FromTorrentFile sha1 fdata wd = Ok tor -> clean_entries (ti_files (t_info tor)).
Proof. exact loaded_clean. Qed.
Print Assumptions C108_loaded_clean.
(** With room in the tree and enough descriptors, OCATAll does what FsModel's does (so C35 holds of it), and makes exactly the files and the
    directories above them. *)
Theorem C108_opens : forall files t, tree_wf t -> clean_entries files -> no_faults (tw_w t) -> lengths_ok files -> fits (isdir t) (isfile t) (places t files) ->
  (List.length files <= tw_free t)%nat ->
  exists t', tOCATAll files t = (Ok tt, t') /\ OCATAll files (tw_w t) = (Ok tt, tw_w t') /\ tree_wf t' /\
    (forall x, isfile t' x <-> isfile t x \/ In x (places t files)) /\ (forall x, isdir t' x <-> isdir t x \/ exists q, In q (places t files) /\ below x q).
Proof. exact tOCATAll_opens. Qed.
Print Assumptions C108_opens.
Example C108_opens_case : forall gc, clean_entries (ti_files ti2) /\ no_faults (tw_w (home 2 gc)) /\ lengths_ok (ti_files ti2) /\
  fits (isdir (home 2 gc)) (isfile (home 2 gc)) (places (home 2 gc) (ti_files ti2)) /\ (List.length (ti_files ti2) <= tw_free (home 2 gc))%nat /\
  places (home 2 gc) (ti_files ti2) = [[B "h"; B "d"; B "a"]; [B "h"; B "d"; B "b"]].
Proof.
  intros gc. assert (E : places (home 2 gc) (ti_files ti2) = [[B "h"; B "d"; B "a"]; [B "h"; B "d"; B "b"]]) by (vm_compute; reflexivity). split; [|split; [reflexivity|split; [|split; [|split; [vm_compute; lia|exact E]]]]].
  - assert (P : paths (ti_files ti2) = [B "d/a"; B "d/b"]) by (vm_compute; reflexivity). unfold clean_entries. rewrite <- Forall_map with (f := fun e => eb_local (en_base e)) (P := clean_path).
    unfold paths in P. rewrite P. constructor; [|constructor; [|constructor]]; right; [exists (B "d/a")|exists (B "d/b")]; vm_compute; reflexivity.
  - repeat constructor; vm_compute; discriminate.
  - rewrite E. clear E. split; [|split].
    + intros q Hq Hd. cbn in *. repeat destruct Hq as [<-|Hq]; try contradiction; intuition discriminate.
    + intros q d Hq Hb Hf. apply below_dec in Hb. cbn in Hq, Hf. repeat destruct Hq as [<-|Hq]; cbn in Hb; try contradiction; intuition (subst; discriminate).
    + intros q d Hq Hd Hb. apply below_dec in Hb. cbn in Hq, Hd. repeat destruct Hq as [<-|Hq]; cbn in Hb; try contradiction; intuition (subst; discriminate).
Qed.
(** Whatever fails and however the collector runs: the tree stays a tree, nothing is removed from it, what is new belongs to the torrent; and
    if it ends well, the files fitted. *)
Theorem C108_any : forall files t r t', tree_wf t -> clean_entries files -> tOCATAll files t = (r, t') ->
  tree_wf t' /\ grown_all (places t files) t t' /\
  (r = Ok tt -> fits (isdir t) (isfile t) (places t files) /\ (forall q, In q (places t files) -> isfile t' q) /\ Forall (fun e => 0 <= en_len e) files).
Proof. intros files t r t'. apply tOCATAll_eff. Qed.
Print Assumptions C108_any.
(** And the contents are what some faults make of them in FsModel, so that C83_files holds of it. *)
Theorem C108_refines : forall files t r t', tOCATAll files t = (r, t') ->
  exists used, forall rest, OCATAll files (set_flt (tw_w t) (used ++ rest)) = (r, set_flt (tw_w t') rest).
Proof. exact sim_OCATAll. Qed.
Print Assumptions C108_refines.
(** A torrent with a file and another one inside it loads, and cannot be opened anywhere. *)
Definition nested : bytes := B "d8:announce1:x4:infod5:filesld6:lengthi2e4:pathl1:aeed6:lengthi2e4:pathl1:a1:beee4:name1:n12:piece lengthi4e6:pieces20:00000000000000000000ee".
Theorem C108_nested_refuted : exists tor, FromTorrentFile (fun b => b) (mkslice nested []) (B "dl") = Ok tor /\ paths (ti_files (t_info tor)) = [B "dl/n/a"; B "dl/n/a/b"] /\
  forall t r t', tree_wf t -> tOCATAll (ti_files (t_info tor)) t = (r, t') -> r <> Ok tt.
Proof.
  destruct (FromTorrentFile (fun b => b) (mkslice nested []) (B "dl")) as [tor| | |] eqn:E; [|vm_compute in E; discriminate..].
  exists tor. split; [reflexivity|]. pose proof (loaded_clean _ _ _ _ E) as Hc.
  assert (P : paths (ti_files (t_info tor)) = [B "dl/n/a"; B "dl/n/a/b"]).
  { transitivity (match FromTorrentFile (fun b => b) (mkslice nested []) (B "dl") with Ok tor => paths (ti_files (t_info tor)) | _ => [] end); [now rewrite E|vm_compute; reflexivity]. }
  split; [exact P|]. intros t r t' Hwf H ->. destruct (tOCATAll_eff _ _ _ _ Hwf Hc H) as (_ & _ & R). destruct (R eq_refl) as ((_ & _ & F) & _).
  assert (Q : places t (ti_files (t_info tor)) = map (at_place t) (paths (ti_files (t_info tor)))) by (unfold places, paths; now rewrite map_map).
  rewrite P in Q. rewrite Q in F. cbn [map] in F. apply (F (at_place t (B "dl/n/a/b")) (at_place t (B "dl/n/a"))); [right; left; reflexivity|left; reflexivity|].
  exists [B "b"]. split; [discriminate|]. unfold at_place, place.
  change (rooted (B "dl/n/a/b")) with false. change (rooted (B "dl/n/a")) with false. cbv iota.
  change (split_slash (B "dl/n/a/b")) with (split_slash (B "dl/n/a") ++ [B "b"]). rewrite follow_app. cbn [follow fold_left]. apply step_name. clear. vm_compute. intuition discriminate.
Qed.
Print Assumptions C108_nested_refuted.

(** Any calls: the tree stays one, and no directory goes away. *)
Theorem C108_tree : forall cs t rs t', tree_wf t -> Forall clean_call cs -> calls cs t = (rs, t') -> tree_wf t' /\ w_cwd (tw_w t') = w_cwd (tw_w t) /\ (forall x, isdir t x -> isdir t' x).
Proof. exact calls_tree. Qed.
Print Assumptions C108_tree.
(** And they are what some faults make of the same calls in FsModel, answer by answer. *)
Theorem C108_calls_refine : forall cs t rs t', calls cs t = (rs, t') ->
  exists used, forall rest, fs_calls cs (set_flt (tw_w t) (used ++ rest)) = (rs, set_flt (tw_w t') rest).
Proof. exact sim_calls. Qed.
Print Assumptions C108_calls_refine.
(** Move works exactly between files: from where one is to a place in a directory that is not one itself, replacing a file there. *)
Theorem C108_move : forall a b t r t', tree_wf t -> tMove a b t = (r, t') ->
  tree_wf t' /\ tw_dirs t' = tw_dirs t /\ w_cwd (tw_w t') = w_cwd (tw_w t) /\
  (r = Ok tt -> isfile t (at_place t a) /\ ~ isdir t (at_place t b) /\ isdir t (removelast (at_place t b)) /\
    forall x, isfile t' x <-> x = at_place t b \/ isfile t x /\ x <> at_place t a) /\
  (r <> Ok tt -> w_names (tw_w t') = w_names (tw_w t)).
Proof. exact tMove_eff. Qed.
Print Assumptions C108_move.
Theorem C108_move_works : forall a b t h, no_faults (tw_w t) -> aget a (w_lfps (tw_w t)) = Some h -> isfile t (at_place t a) -> ~ isdir t (at_place t b) ->
  isdir t (removelast (at_place t b)) -> exists t', tMove a b t = (Ok tt, t').
Proof. exact tMove_works. Qed.
Print Assumptions C108_move_works.
Theorem C108_move_safe : forall a b t r t', tMove a b t = (r, t') -> r = Ok tt \/ exists e, r = Err e.
Proof. exact tMove_safe. Qed.
Print Assumptions C108_move_safe.

(** Descriptors: each is free, open in the FileIO, or left to the collector, over any calls that come back. *)
Theorem C108_account : forall cs t rs t', calls cs t = (rs, t') -> Forall went rs -> total_fds t' = total_fds t.
Proof. exact calls_total. Qed.
Print Assumptions C108_account.
Theorem C108_all_account : forall files t t', tOCATAll files t = (Ok tt, t') -> NoDup (paths files) -> (forall p, In p (paths files) -> is_open (w_lfps (tw_w t)) p = false) ->
  total_fds t' = total_fds t /\ (open_count (tw_w t') = open_count (tw_w t) + List.length files)%nat /\ (List.length files <= tw_free t + tw_lost t)%nat.
Proof. intros files t t' H HN Hp. split; [now apply (tOCATAll_total files)|]. split; [now apply tOCATAll_opens_count|eapply tOCATAll_needs; eassumption]. Qed.
Print Assumptions C108_all_account.
(** With too few of them the torrent is not opened, but the first files are on disk, at full length. *)
Theorem C108_too_few : forall files t, tree_wf t -> clean_entries files -> no_faults (tw_w t) -> lengths_ok files -> fits (isdir t) (isfile t) (places t files) ->
  NoDup (paths files) -> (forall p, In p (paths files) -> is_open (w_lfps (tw_w t)) p = false) -> tw_lost t = 0%nat -> (tw_free t < List.length files)%nat ->
  exists t' e, tOCATAll files t = (Err e, t') /\ OCATAll (firstn (tw_free t) files) (tw_w t) = (Ok tt, tw_w t').
Proof. exact tOCATAll_short. Qed.
Print Assumptions C108_too_few.
(** CloseAll frees what is open; what was left to the collector stays there. *)
Theorem C108_close : forall order t t', keys_once (tw_w t) -> incl (map fst (w_lfps (tw_w t))) order -> tCloseAll order t = (Ok tt, t') ->
  tw_lost t' = tw_lost t /\ (tw_free t' + tw_lost t = total_fds t)%nat.
Proof. exact tCloseAll_frees. Qed.
Print Assumptions C108_close.
(** A path listed twice loses a descriptor: after OCATAll and CloseAll one is missing. *)
Definition twice : torinfo := match NewTorInfo (B "t") 2 hash2 [mkeb 3 (B "a") (B "d/a"); mkeb 2 (B "a") (B "d/a")] with Ok ti => ti | _ => mkti [] 0 [] 0 0 [] true [] 0 end.
Theorem C108_leak_refuted : exists t t1 t2, tree_wf t /\ no_faults (tw_w t) /\ tw_lost t = 0%nat /\ tOCATAll (ti_files twice) t = (Ok tt, t1) /\ tCloseAll [B "d/a"] t1 = (Ok tt, t2) /\
  map fst (w_lfps (tw_w t1)) = [B "d/a"] /\ open_count (tw_w t2) = 0%nat /\ tw_free t = 2%nat /\ tw_free t2 = 1%nat /\ tw_lost t2 = 1%nat.
Proof. exists (home 2 []). eexists _, _. split; [apply home_wf|]. split; [reflexivity|]. split; [reflexivity|]. split; [vm_compute; reflexivity|]. split; [vm_compute; reflexivity|]. repeat split. Qed.
Print Assumptions C108_leak_refuted.
(** No system call fails but for want of a descriptor, the files fit, have their sizes already, and all are opened - and one is emptied: the
    collector ran between the open that found no descriptor and the create. *)
Definition thrice : torinfo := match NewTorInfo (B "t") 5 (hash2 ++ hash2) [mkeb 5 (B "a") (B "d/a"); mkeb 5 (B "a") (B "d/a"); mkeb 4 (B "other") (B "other")] with Ok ti => ti | _ => mkti [] 0 [] 0 0 [] true [] 0 end.
Theorem C108_emptied_refuted : exists t t', tree_wf t /\ no_faults (tw_w t) /\ tOCATAll (ti_files thrice) t = (Ok tt, t') /\ paths (ti_files thrice) = [B "d/a"; B "d/a"; B "other"] /\
  map en_len (ti_files thrice) = [5; 5; 4] /\ file_at (tw_w t) (B "d/a") = Some (B "ABCDE") /\ file_at (tw_w t) (B "other") = Some (B "keep") /\ file_at (tw_w t') (B "other") = Some (zeros 4).
Proof. exists (home 2 [0; 0; 0; 1]%nat). eexists. split; [apply home_wf|]. split; [reflexivity|]. split; [vm_compute; reflexivity|]. split; [vm_compute; reflexivity|]. split; [vm_compute; reflexivity|]. repeat split. Qed.
Print Assumptions C108_emptied_refuted.
Example C108_too_few_case : let t := home 1 [] in
  (tw_free t < List.length (ti_files ti2))%nat /\ NoDup (paths (ti_files ti2)) /\ (forall p, In p (paths (ti_files ti2)) -> is_open (w_lfps (tw_w t)) p = false) /\
  (let (r, t') := tOCATAll (ti_files ti2) t in r = Err EIO /\ file_at (tw_w t') (B "d/a") = Some (B "ABC") /\ file_at (tw_w t') (B "d/b") = None /\ tw_free t' = 0%nat).
Proof.
  cbv zeta. assert (P : paths (ti_files ti2) = [B "d/a"; B "d/b"]) by (vm_compute; reflexivity). rewrite P. split; [vm_compute; lia|]. split; [repeat constructor; cbn; intuition discriminate|]. split; [intros p _; reflexivity|].
  vm_compute. repeat split.
Qed.
Example C108_account_case : let cs := [KOpen (B "d/a") 5; KMove (B "d/a") (B "d/x"); KOpen (B "e/f/g") 3; KClose (B "d/a"); KOpen (B "e/f/g") 1; KClose (B "e/f/g"); KClose (B "zz")] in
  let (rs, t') := calls cs (home 3 []) in
  rs = [Ok tt; Ok tt; Ok tt; Ok tt; Ok tt; Ok tt; Err EPath] /\ Forall went rs /\ tw_free t' = 2%nat /\ tw_lost t' = 1%nat /\ isdir t' [B "h"; B "e"; B "f"] /\ isfile t' [B "h"; B "d"; B "x"].
Proof.
  vm_compute. split; [reflexivity|]. split; [repeat constructor|]. split; [reflexivity|]. split; [reflexivity|]. split; [do 4 right; left; reflexivity|right; left; reflexivity].
Qed.
Definition moves : list call := [KOpen (B "d/a") 5; KMove (B "d/a") (B "no/x"); KMove (B "d/a") (B "d"); KMove (B "d/a") (B "other"); KMove (B "d/a") (B "y")].
Example C108_move_case : Forall clean_call moves /\
  let (rs, t') := calls moves (home 3 []) in rs = [Ok tt; Err EIO; Err EIO; Ok tt; Err EPath] /\ map fst (w_names (tw_w t')) = [[B "h"; B "other"]] /\ file_at (tw_w t') (B "other") = Some (B "ABCDE").
Proof.
  split; [|vm_compute; repeat split]. constructor; [right; exists (B "d/a"); vm_compute; reflexivity|]. constructor; [exact I|]. constructor; [exact I|]. constructor; [exact I|]. constructor; [exact I|constructor].
Qed.
