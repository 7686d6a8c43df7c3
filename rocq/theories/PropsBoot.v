(** PropsBoot.v: starting in a tree of directories, with so many descriptors (C111). *)
From Coq Require Import ZifyBool ZifyNat ZifyN.
From Verif Require Import Base BencodeModel BitfieldModel BitfieldSpec PathModel PathSpec PathProofs LayoutModel LayoutSpec PieceMapProofs InfoSpec BencodeProofs InfoProofs PropsInfo
  PptModel PeerModel UtilsModel UtilsSpec FsModel FsSpec FsProofs OcatProofs SwarmModel TrackerModel TrackerSpec StartModel StartProofs PropsStart
  TreeModel TreeSpec TreeSimProofs TreeProofs TreeTopProofs PropsTree BootModel BootSpec BootProofs RunModel ProcModel ProcSockProofs.

(* ------------------------------------------------------------------ *)
(** * C111 Starting *)
(** To StartModel, the tree and the descriptors are failing system calls and a tracker that does not answer: C83 and C84 hold of what is started here. *)
Theorem C111_refines : forall sha1 n src fuel sp o t r t', tNewSwarm sha1 n src fuel sp o t = (r, t') ->
  exists used n', (n' = n \/ n' = silent n) /\ forall rest, NewSwarm sha1 n' src fuel sp o (set_flt (tw_w t) (used ++ rest)) = (r, set_flt (tw_w t') rest).
Proof. intros sha1 n src fuel sp o. exact (net_NewSwarm sha1 n src fuel sp o). Qed.
Print Assumptions C111_refines.
Theorem C111_main : forall uni sha1 n src fuel sp o t f t', tmain uni sha1 n src fuel sp o t = (f, t') ->
  exists used n', (n' = n \/ n' = silent n) /\ forall rest, main uni sha1 n' src fuel sp o (set_flt (tw_w t) (used ++ rest)) = (f, set_flt (tw_w t') rest).
Proof. exact main_sim. Qed.
Print Assumptions C111_main.
(** Whatever fails: the tree stays a tree, nothing goes, what is new is the torrent's. A swarm comes out only if its files fitted, and with a descriptor for
    each of them and one more for the tracker. *)
Theorem C111_any : forall sha1 n src fuel sp o t r t', tree_wf t -> tNewSwarm sha1 n src fuel sp o t = (r, t') -> tree_wf t' /\
  ((untouched t t' /\ (forall s, r <> Ok s)) \/
   exists c tor, file_at (tw_w t) (o_input o) = Some c /\ FromTorrentFile sha1 (mkslice c sp) (o_wd o) = Ok tor /\ grown_all (places t (ti_files (t_info tor))) t t' /\
     forall s, r = Ok s -> sw_tor s = tor /\ fits (isdir t) (isfile t) (places t (ti_files (t_info tor))) /\ (forall q, In q (places t (ti_files (t_info tor))) -> isfile t' q) /\
       Forall (fun e => 0 <= en_len e) (ti_files (t_info tor)) /\
       (NoDup (paths (ti_files (t_info tor))) -> (List.length (ti_files (t_info tor)) < tw_free t + tw_lost t)%nat /\ (tw_free t' + tw_lost t' + List.length (ti_files (t_info tor)) = tw_free t + tw_lost t)%nat)).
Proof. intros sha1 n src fuel sp o t r t' Hwf H. exact (NewSwarm_eff sha1 n src fuel sp o t r t' Hwf H). Qed.
Print Assumptions C111_any.
(** Where nothing fails, the files fit, there are more descriptors than files and the tracker answers, it starts; one descriptor is left with the tracker. *)
Theorem C111_starts : forall sha1 n src fuel sp o t id c tor P hashes files resp,
  tree_wf t -> no_faults (tw_w t) -> NewPeerId src fuel = Ok id -> file_at (tw_w t) (o_input o) = Some c -> FromTorrentFile sha1 (mkslice c sp) (o_wd o) = Ok tor ->
  made P hashes files (t_info tor) -> zlen hashes / 20 < 4294967296 -> NoDup (places t (ti_files (t_info tor))) ->
  fits (isdir t) (isfile t) (places t (ti_files (t_info tor))) -> (List.length (ti_files (t_info tor)) < tw_free t)%nat -> tw_lost t = 0%nat ->
  tracker_Get n tor (NewStats 0 0 0) (OptPort o) id = Ok resp ->
  exists s t', tNewSwarm sha1 n src fuel sp o t = (Ok s, t') /\ NewSwarm sha1 n src fuel sp o (tw_w t) = (Ok s, tw_w t') /\ sw_tor s = tor /\ sw_peers s = r_peers resp /\ tree_wf t' /\
    (forall x, isfile t' x <-> isfile t x \/ In x (places t (ti_files (t_info tor)))) /\ (forall x, isdir t' x <-> isdir t x \/ exists q, In q (places t (ti_files (t_info tor))) /\ below x q) /\
    tw_lost t' = 1%nat /\ (tw_free t' + List.length (ti_files (t_info tor)) + 1 = tw_free t)%nat /\ no_faults (tw_w t').
Proof. exact NewSwarm_starts. Qed.
Print Assumptions C111_starts.
(** With as many descriptors as files everything is created and the tracker is not asked; with fewer, the first files are created; with none, nothing. *)
Theorem C111_exactly : forall sha1 n src fuel sp o t id c tor P hashes files,
  tree_wf t -> no_faults (tw_w t) -> NewPeerId src fuel = Ok id -> file_at (tw_w t) (o_input o) = Some c -> FromTorrentFile sha1 (mkslice c sp) (o_wd o) = Ok tor ->
  made P hashes files (t_info tor) -> zlen hashes / 20 < 4294967296 -> NoDup (places t (ti_files (t_info tor))) ->
  fits (isdir t) (isfile t) (places t (ti_files (t_info tor))) -> List.length (ti_files (t_info tor)) = tw_free t -> (0 < tw_free t)%nat -> tw_lost t = 0%nat -> n_query n (t_announce tor) <> None ->
  exists t', tNewSwarm sha1 n src fuel sp o t = (Err EIO, t') /\ (forall x, isfile t' x <-> isfile t x \/ In x (places t (ti_files (t_info tor)))).
Proof. exact NewSwarm_exact. Qed.
Print Assumptions C111_exactly.
Theorem C111_too_few : forall sha1 n src fuel sp o t id c tor, let files := ti_files (t_info tor) in
  tree_wf t -> no_faults (tw_w t) -> NewPeerId src fuel = Ok id -> file_at (tw_w t) (o_input o) = Some c -> FromTorrentFile sha1 (mkslice c sp) (o_wd o) = Ok tor ->
  lengths_ok files -> fits (isdir t) (isfile t) (places t files) -> NoDup (paths files) -> tw_lost t = 0%nat -> (0 < tw_free t < List.length files)%nat ->
  exists e t', tNewSwarm sha1 n src fuel sp o t = (Err e, t') /\ OCATAll (firstn (tw_free t) files) (none_open (tw_w t)) = (Ok tt, tw_w t').
Proof. exact NewSwarm_few. Qed.
Print Assumptions C111_too_few.
Theorem C111_none : forall sha1 n src fuel sp o t id, no_faults (tw_w t) -> NewPeerId src fuel = Ok id -> tw_free t = 0%nat -> tw_lost t = 0%nat ->
  exists t', tNewSwarm sha1 n src fuel sp o t = (Err EIO, t') /\ untouched t t'.
Proof. exact NewSwarm_none. Qed.
Print Assumptions C111_none.

(** The directory of C83's disk; C83's torrent has two files, dl/dir/a/b and dl/dir/c. *)
Definition home_t (n : nat) (gc : list nat) : tworld := mktw disk_t [[]; [B "h"]; [B "h"; B "dl"]; [B "h"; B "dl"; B "dir"]] n 0 gc.
Definition tor_t : torrent := match FromTorrentFile idhash (mkslice (text tb2) []) (B "dl") with Ok tor => tor | _ => mktor [] [] (mkti [] 0 [] 0 0 [] true [] 0) end.
Example home_t_wf : forall n gc, tree_wf (home_t n gc).
Proof.
  intros n gc. split; [repeat split; cbn; repeat constructor; cbn; intuition (try discriminate; try lia)|]. unfold isdir, isfile. cbn [home_t tw_dirs tw_w w_cwd disk_t w_names map fst].
  split; [cbn; auto|]. split; [cbn; auto|]. split; [|split].
  - intros q d Hq Hb. apply below_dec in Hb. cbn in Hq. repeat destruct Hq as [<-|Hq]; cbn in *; try contradiction; intuition.
  - intros q d Hq Hb. apply below_dec in Hb. cbn in Hq. repeat destruct Hq as [<-|Hq]; cbn in *; try contradiction; intuition.
  - intros q Hq Hd. cbn in *. repeat destruct Hq as [<-|Hq]; try contradiction; intuition discriminate.
Qed.
Example C111_case : FromTorrentFile idhash (mkslice (text tb2) []) (B "dl") = Ok tor_t /\ made 8 (repeat x41 40) (map en_base (ti_files (t_info tor_t))) (t_info tor_t) /\
  (forall n gc, places (home_t n gc) (ti_files (t_info tor_t)) = [[B "h"; B "dl"; B "dir"; B "a"; B "b"]; [B "h"; B "dl"; B "dir"; B "c"]] /\
    fits (isdir (home_t n gc)) (isfile (home_t n gc)) (places (home_t n gc) (ti_files (t_info tor_t)))) /\ NoDup (places (home_t 4 []) (ti_files (t_info tor_t))) /\
  (exists resp, tracker_Get net_up tor_t (NewStats 0 0 0) (OptPort opts1) (B "-GT0000-aaaaaaaaaaaa") = Ok resp) /\ n_query net_up (t_announce tor_t) <> None /\
  match tNewSwarm idhash net_up letters0 50 [] opts1 (home_t 4 []) with (Ok s, t') => tw_free t' = 1%nat /\ tw_lost t' = 1%nat /\ file_at (tw_w t') (B "dl/dir/c") = Some (B "AAAAAAA") | _ => False end /\
  match tNewSwarm idhash net_up letters0 50 [] opts1 (home_t 2 []) with (Err EIO, t') => file_at (tw_w t') (B "dl/dir/a/b") = Some (zeros 9) /\ file_at (tw_w t') (B "dl/dir/c") = Some (B "AAAAAAA") | _ => False end /\
  match tNewSwarm idhash net_up letters0 50 [] opts1 (home_t 1 []) with (Err _, t') => file_at (tw_w t') (B "dl/dir/a/b") = Some (zeros 9) /\ file_at (tw_w t') (B "dl/dir/c") = Some (B "AAAAAAAprecious") | _ => False end.
Proof.
  assert (E : FromTorrentFile idhash (mkslice (text tb2) []) (B "dl") = Ok tor_t) by (vm_compute; reflexivity). split; [exact E|].
  split. { destruct C83_case as (tor & E1 & E2 & _). rewrite E in E1. apply Ok_inj in E1. rewrite E1. exact E2. }
  split. { intros n gc. assert (Hp : places (home_t n gc) (ti_files (t_info tor_t)) = [[B "h"; B "dl"; B "dir"; B "a"; B "b"]; [B "h"; B "dl"; B "dir"; B "c"]]) by (vm_compute; reflexivity). split; [exact Hp|]. rewrite Hp.
    split; [|split].
    + intros q Hq Hd. cbn in *. repeat destruct Hq as [<-|Hq]; try contradiction; intuition discriminate.
    + intros q d Hq Hb Hf. apply below_dec in Hb. cbn in Hq, Hf. repeat destruct Hq as [<-|Hq]; cbn in Hb; try contradiction; intuition (subst; discriminate).
    + intros q d Hq Hd Hb. apply below_dec in Hb. cbn in Hq, Hd. repeat destruct Hq as [<-|Hq]; cbn in Hb; try contradiction; intuition (subst; discriminate). }
  split. { replace (places (home_t 4 []) (ti_files (t_info tor_t))) with [[B "h"; B "dl"; B "dir"; B "a"; B "b"]; [B "h"; B "dl"; B "dir"; B "c"]] by (vm_compute; reflexivity). repeat constructor; cbn; intuition discriminate. }
  split; [eexists; vm_compute; reflexivity|]. split; [discriminate|]. split; [vm_compute; repeat split|]. split; vm_compute; repeat split.
Qed.

(** The listener gets its socket if the goroutines before it have left one; if they have not, the process dies, with a message for a peer. *)
Theorem C111_listens : forall k t, no_faults (tw_w t) -> (k < tw_free t)%nat ->
  exists t', t_listen k t = (Ok tt, t') /\ tw_w t' = tw_w t /\ (tw_free t + tw_lost t = S (k + (tw_free t' + tw_lost t')))%nat /\ (tw_free t <= S (k + tw_free t'))%nat.
Proof. exact listen_enough. Qed.
Print Assumptions C111_listens.
Theorem C111_no_listener : forall k t, no_faults (tw_w t) -> tw_lost t = 0%nat -> (tw_free t <= k)%nat -> exists t', t_listen k t = (Panic, t').
Proof. exact listen_short. Qed.
Print Assumptions C111_no_listener.
(** A swarm that has started can die for want of a socket to listen on: the peer the tracker named was dialled first. *)
Theorem C111_started_listens_refuted : exists t s t' t'', tree_wf t /\ no_faults (tw_w t) /\ tw_lost t = 0%nat /\ tNewSwarm idhash net_up letters0 50 [] opts1 t = (Ok s, t') /\
  tw_free t = (List.length (ti_files (t_info (sw_tor s))) + 2)%nat /\ List.length (sw_peers s) = 1%nat /\ t_listen 1 t' = (Panic, t'') /\ fst (t_listen 0 t') = Ok tt.
Proof. exists (home_t 4 []). eexists _, _, _. split; [apply home_t_wf|]. split; [reflexivity|]. split; [reflexivity|]. split; [vm_compute; reflexivity|]. split; [vm_compute; reflexivity|]. split; [vm_compute; reflexivity|]. split; vm_compute; reflexivity. Qed.
Print Assumptions C111_started_listens_refuted.
(** C108's torrent with a file and another one inside it never starts, wherever it is and whatever else there is. *)
Theorem C111_nested_refuted : exists c, (exists tor, FromTorrentFile (fun b => b) (mkslice c []) (B "dl") = Ok tor) /\
  forall n src fuel o t r t', tree_wf t -> o_wd o = B "dl" -> file_at (tw_w t) (o_input o) = Some c -> tNewSwarm (fun b => b) n src fuel [] o t = (r, t') -> forall s, r <> Ok s.
Proof.
  exists nested. destruct C108_nested_refuted as (tor & E & P & Hno). split; [eauto|]. intros n src fuel o t r t' Hwf Hwd Hc H s ->.
  destruct (NewSwarm_eff _ _ _ _ _ _ _ _ _ Hwf H) as (W & [[_ Hs]|(c & tor' & Hc' & E' & _ & Hs)]); [now apply (Hs s)|].
  rewrite Hc in Hc'. inversion Hc'; subst c. rewrite Hwd, E in E'. inversion E'; subst tor'. destruct (Hs s eq_refl) as (_ & (_ & _ & F) & _).
  assert (Hp : places t (ti_files (t_info tor)) = map (at_place t) [B "dl/n/a"; B "dl/n/a/b"]) by (rewrite <- P; unfold places, paths; now rewrite map_map).
  rewrite Hp in F. cbn [map] in F. apply (F (at_place t (B "dl/n/a/b")) (at_place t (B "dl/n/a"))); [right; left; reflexivity|left; reflexivity|].
  exists [B "b"]. split; [discriminate|]. unfold at_place, place.
  change (rooted (B "dl/n/a/b")) with false. change (rooted (B "dl/n/a")) with false. cbv iota.
  change (split_slash (B "dl/n/a/b")) with (split_slash (B "dl/n/a") ++ [B "b"]). rewrite follow_app. cbn [follow fold_left]. apply step_name. clear. vm_compute. intuition discriminate.
Qed.
Print Assumptions C111_nested_refuted.
(** From the descriptors one began with to the end: a process that has started and listens, on a torrent of so many files, has the rest for its peers; that many
    silent connections, and the next one ends it. *)
Theorem C111_life : forall sha1 n src fuel sp o t id c tor P hashes files resp,
  tree_wf t -> no_faults (tw_w t) -> NewPeerId src fuel = Ok id -> file_at (tw_w t) (o_input o) = Some c -> FromTorrentFile sha1 (mkslice c sp) (o_wd o) = Ok tor ->
  made P hashes files (t_info tor) -> zlen hashes / 20 < 4294967296 -> NoDup (places t (ti_files (t_info tor))) ->
  fits (isdir t) (isfile t) (places t (ti_files (t_info tor))) -> (List.length (ti_files (t_info tor)) + 2 <= tw_free t)%nat -> tw_lost t = 0%nat ->
  tracker_Get n tor (NewStats 0 0 0) (OptPort o) id = Ok resp ->
  exists s t' t'', tNewSwarm sha1 n src fuel sp o t = (Ok s, t') /\ t_listen 0 t' = (Ok tt, t'') /\ (tw_free t - List.length (ti_files (t_info tor)) - 2 <= tw_free t'' <= tw_free t - List.length (ti_files (t_info tor)) - 1)%nat /\
    forall pc, pc_socks pc = tw_free t'' -> exists p', prun pc (repeat PAccept (tw_free t'')) (started (sw_ppt s) (tw_w t'') (sw_peers s)) = Some p' /\ pstep pc PAccept p' = PDied.
Proof.
  intros sha1 n src fuel sp o t id c tor P hashes files resp Hwf Hn Hid Hc Et Hm HB HN HF Hlt HL Hg.
  destruct (NewSwarm_starts sha1 n src fuel sp o t id c tor P hashes files resp Hwf Hn Hid Hc Et Hm HB HN HF ltac:(lia) HL Hg) as (s & t' & E & _ & _ & _ & _ & _ & _ & X1 & X2 & X3).
  destruct (listen_enough 0 t' X3 ltac:(lia)) as (t'' & E2 & _ & Y1 & Y2). unfold idle in Y1. exists s, t', t''. split; [exact E|]. split; [exact E2|]. split; [lia|].
  intros pc Hpc. destruct (silent_kill pc (started (sw_ppt s) (tw_w t'') (sw_peers s))) as (p' & E3 & E4). exists p'. split; [|exact E4].
  change (sockets (started (sw_ppt s) (tw_w t'') (sw_peers s))) with 0%nat in E3. rewrite Nat.sub_0_r, Hpc in E3. exact E3.
Qed.
Print Assumptions C111_life.
