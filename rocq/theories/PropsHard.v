(** PropsHard.v: files that have more than one name (C122). *)
From Verif Require Import Base BencodeModel PathModel PathSpec LayoutModel LayoutSpec FsModel FsSpec LifeSpec InfoSpec InfoProofs LinkModel LinkSpec LinkProofs UtilsModel SessionModel RunModel StartModel LinkStartModel LinkStartSpec HardSpec HardProofs HardStartProofs PropsLink InfoSpec PropsInfo PeerModel TrackerModel StartSpec PropsStart SafeSpec PropsSafe PropsLinkStart.

(** Opening the files of a torrent takes no name away and moves none to another file... *)
Theorem C122_names : forall L files w r w', l_OCATAll L files w = (r, w') -> forall q i, names w q i -> names w' q i.
Proof. exact hard_names. Qed.
Print Assumptions C122_names.
(** ...new names are the places of the torrent's files... *)
Theorem C122_new : forall L files w r w', l_OCATAll L files w = (r, w') -> forall q i, names w' q i -> names w q i \/ opens_at L w files q.
Proof. exact hard_new. Qed.
Print Assumptions C122_new.
(** ...and a file changes only if one of its names is the place of a file of the torrent. *)
Theorem C122_kept : forall L files w r w', names_there w -> l_OCATAll L files w = (r, w') -> forall q i, names w q i ->
  (forall q', opens_at L w files q' -> ~ names w q' i) -> file_in w' q = file_in w q.
Proof. exact hard_kept. Qed.
Print Assumptions C122_kept.
Theorem C122_there : forall L files w r w', names_there w -> l_OCATAll L files w = (r, w') -> names_there w'.
Proof. exact hard_there. Qed.
Print Assumptions C122_there.

(** A file that is there gets its size under all its names, and what was there stays, also if a later call fails. *)
Theorem C122_resized : forall L p n w q i c, real L (w_cwd w) p = Some q -> names w q i -> nth_error (w_inos w) i = Some c -> 0 <= n <= max64 -> next_works w ->
  exists c' w' r, l_utils_OCAT L p n w = (r, w') /\ (forall q', names w q' i -> file_in w' q' = Some c') /\ keeps c n c' /\
    ((r = Ok i /\ resized c n c') \/ (r = Err EIO /\ ~ no_faults w)).
Proof. exact hard_resized. Qed.
Print Assumptions C122_resized.

(** The download directory: C121_outside holds with hard links, if none of them leads out. *)
Theorem C122_outside : forall info wd name L W ti w r w',
  FromDict info wd = Ok ti -> GetString info (B "name") = Ok name -> plain_name name -> plain_paths info ->
  real L (w_cwd w) (Clean wd) = Some W -> none_inside L W -> names_there w -> not_shared W w ->
  l_OCATAll L (ti_files ti) w = (r, w') -> outside_same W w w'.
Proof. exact hard_outside. Qed.
Print Assumptions C122_outside.

(** The same of the whole program, and of whatever peers do to it. *)
Theorem C122_program : forall L W uni sha1 n src fuel sp o w f w' c t ls s,
  names_there w -> not_shared W w -> l_benign L sp o w -> real L (w_cwd w) (Clean (o_wd o)) = Some W -> none_inside L W ->
  l_main L uni sha1 n src fuel sp o w = (f, w') -> srun c ls (mkss t w' []) = Some s -> outside_same W w (ss_world s).
Proof. exact h_program_at. Qed.
Print Assumptions C122_program.

(** What is held open is what is at the place the path leads to. *)
Theorem C122_holds : forall L files w r w', l_OCATAll L files w = (r, w') ->
  forall p h, aget p (w_lfps w') = Some h -> aget p (w_lfps w) = Some h \/ exists q, real L (w_cwd w) p = Some q /\ names w' q (h_ino h).
Proof. exact hard_holds. Qed.
Print Assumptions C122_holds.
(** WritePiece changes no file but those held open for the torrent. *)
Theorem C122_write : forall sha1 ti i d w r w', WritePiece sha1 ti i d w = (r, w') -> w_names w' = w_names w /\
  forall q j, names w q j -> (forall e h, In e (ti_files ti) -> aget (eb_local (en_base e)) (w_lfps w) = Some h -> h_ino h <> j) -> file_in w' q = file_in w q.
Proof. exact hard_write. Qed.
Print Assumptions C122_write.

(** A file in the download directory that has a name outside: it is cut short there too. *)
Theorem C122_outside_refuted : exists info ti w w' q,
  FromDict info (B "/u/dl") = Ok ti /\ plain_name (B "d") /\ plain_paths info /\ names_there w /\ NoDup (map fst (w_names w)) /\ no_faults w /\
  real [] (w_cwd w) (B "/u/dl") = Some [B "u"; B "dl"] /\ ~ below [B "u"; B "dl"] q /\
  l_OCATAll [] (ti_files ti) w = (Ok tt, w') /\ file_in w q = Some (B "secret") /\ file_in w' q = Some (B "sec").
Proof.
  exists (ltor 10 [lfile 3 [VStr (B "a")]]). eexists.
  exists (mkw [] [([B "u"; B "doc"], 0%nat); ([B "u"; B "dl"; B "d"; B "a"], 0%nat)] [B "secret"] [] []). eexists. exists [B "u"; B "doc"].
  split; [vm_compute; reflexivity|]. split; [apply plain1; discriminate|]. split; [apply ltor_plain; discriminate|].
  split. { intros q i. cbn. destruct (place_eqb q _); [intros H; injection H as <-; auto|]. destruct (place_eqb q _); [intros H; injection H as <-; auto|discriminate]. }
  split; [repeat constructor; cbn; intuition discriminate|]. split; [vm_compute; auto|].
  split; [vm_compute; reflexivity|]. split; [intros (names & _ & H); discriminate|].
  split; [vm_compute; reflexivity|]. split; vm_compute; reflexivity.
Qed.
Print Assumptions C122_outside_refuted.

Definition htor : list (bytes * gval) :=
  [(B "files", VList [lfile 1 [VStr (B "a")]; lfile 1 [VStr (B "b")]]); (B "name", VStr (B "d")); (B "piece length", VInt KInt64 1); (B "pieces", VStr (repeat x00 40))].
Definition hash0 : bytes -> bytes := fun _ => repeat x00 20.
(** Two files of a torrent that are one file: opening and writing both goes well, and the first piece is lost. *)
Theorem C122_written_refuted : exists ti w0 w1 w2 w3 w4 buf,
  FromDict htor (B "/dl") = Ok ti /\ names_there w0 /\ no_faults w0 /\ l_OCATAll [] (ti_files ti) w0 = (Ok tt, w1) /\
  WritePiece hash0 ti 0 (mkslice (B "x") []) w1 = (Ok 1, w2) /\ WritePiece hash0 ti 1 (mkslice (B "y") []) w2 = (Ok 1, w3) /\
  ReadPiece ti 0 (mkslice [x00] []) w3 = (Ok 1, buf, w4) /\ vis buf = B "y".
Proof.
  eexists. exists (mkw [] [([B "dl"; B "d"; B "a"], 0%nat); ([B "dl"; B "d"; B "b"], 0%nat)] [B "-"] [] []). eexists _, _, _, _, _.
  split; [vm_compute; reflexivity|].
  split. { intros q i. cbn. destruct (place_eqb q _); [intros H; injection H as <-; auto|]. destruct (place_eqb q _); [intros H; injection H as <-; auto|discriminate]. }
  split; [vm_compute; auto|]. split; [vm_compute; reflexivity|]. split; [vm_compute; reflexivity|]. split; [vm_compute; reflexivity|]. split; vm_compute; reflexivity.
Qed.
Print Assumptions C122_written_refuted.

(** The hypotheses are met: a file with two names inside the directory, both of which see the change; another
    with two names outside, which is not touched. *)
Definition hworld : world :=
  mkw [] [([B "dl"; B "d"; B "a"], 0%nat); ([B "dl"; B "old"], 0%nat); ([B "doc"], 1%nat); ([B "bak"], 1%nat)] [B "abcdef"; B "text"] [] [].
Example C122_case : exists ti w', FromDict (ltor 10 [lfile 3 [VStr (B "a")]]) (B "/dl") = Ok ti /\ names_there hworld /\ not_shared [B "dl"] hworld /\ ~ fs_wf hworld /\
  real [] (w_cwd hworld) (Clean (B "/dl")) = Some [B "dl"] /\ none_inside [] [B "dl"] /\
  l_OCATAll [] (ti_files ti) hworld = (Ok tt, w') /\ file_in w' [B "dl"; B "old"] = Some (B "abc") /\ file_in w' [B "bak"] = Some (B "text") /\
  (forall q', opens_at [] hworld (ti_files ti) q' -> ~ names hworld q' 1).
Proof.
  assert (K : forall q i, names hworld q i -> (i = 0%nat /\ (q = [B "dl"; B "d"; B "a"] \/ q = [B "dl"; B "old"])) \/ (i = 1%nat /\ (q = [B "doc"] \/ q = [B "bak"]))).
  { intros q i. unfold names. cbn [hworld w_names pget].
    repeat (match goal with |- context [place_eqb q ?x] => let E := fresh "E" in destruct (place_eqb q x) eqn:E; [apply place_eqb_eq in E as ->; intros H; injection H as <-; auto 6|] end). discriminate. }
  eexists. eexists. split; [vm_compute; reflexivity|].
  split. { intros q i H. cbn. destruct (K q i H) as [[-> _]|[-> _]]; auto. }
  split. { intros q q' i H H' (ns & N & E). destruct (K q i H) as [[-> _]|[-> [-> | ->]]]; [|discriminate|discriminate].
           destruct (K q' 0%nat H') as [[_ [-> | ->]]|[X _]]; [| |discriminate]; [exists [B "d"; B "a"]|exists [B "old"]]; (split; [discriminate|reflexivity]). }
  split. { intros (_ & H & _). apply NoDup_cons_iff in H as [H _]. apply H. left. reflexivity. }
  split; [vm_compute; reflexivity|]. split; [intros q text []|].
  split; [vm_compute; reflexivity|]. split; [vm_compute; reflexivity|]. split; [vm_compute; reflexivity|].
  intros q' (e & X & Y) H. destruct (K q' _ H) as [[Z _]|[_ Z]]; [discriminate|]. cbn in X. destruct X as [<-|[]]. vm_compute in Y. injection Y as <-. destruct Z; discriminate.
Qed.
(** C122_write: a file that is not held. *)
Example C122_write_case : exists ti w1 w2, FromDict (ltor 10 [lfile 3 [VStr (B "a")]]) (B "/dl") = Ok ti /\ l_OCATAll [] (ti_files ti) hworld = (Ok tt, w1) /\
  WritePiece hash0 ti 0 (mkslice (B "xyz") []) w1 = (Ok 3, w2) /\ file_in w2 [B "dl"; B "old"] = Some (B "xyz") /\ file_in w2 [B "bak"] = Some (B "text") /\ names w1 [B "bak"] 1.
Proof. eexists _, _, _. split; [vm_compute; reflexivity|]. split; [vm_compute; reflexivity|]. split; [vm_compute; reflexivity|]. split; [vm_compute; reflexivity|]. split; vm_compute; reflexivity. Qed.
(** C122_program: the torrent file has a second name; so has what a torrent downloaded before. *)
Definition hdisk : world :=
  let w := disk_x (hostile 10 [hfile 3 [VStr (B ".profile")]]) in
  mkw (w_cwd w) (w_names w ++ [([B "t2"], 0%nat); ([B "h"; B "dl"; B "d"; B ".profile"], List.length (w_inos w)); ([B "h"; B "dl"; B "x"], List.length (w_inos w))]) (w_inos w ++ [B "abcd"]) (w_flt w) (w_lfps w).
Example C122_program_case : exists s l w',
  names_there hdisk /\ ~ fs_wf hdisk /\ not_shared [B "h"; B "dl"] hdisk /\ l_benign [] [] opts1 hdisk /\ real [] (w_cwd hdisk) (Clean (o_wd opts1)) = Some [B "h"; B "dl"] /\ none_inside [] [B "h"; B "dl"] /\
  l_main [] (fun b => b) idhash net_up letters0 50 [] opts1 hdisk = (Running s l, w') /\ file_in w' [B "h"; B "dl"; B "x"] = Some (B "abc") /\ file_in w' [B "t2"] = file_in hdisk [B "t2"].
Proof.
  assert (K : forall q i, names hdisk q i -> (i < 2 /\ ~ below [B "h"; B "dl"] q)%nat \/ (i = 2%nat /\ below [B "h"; B "dl"] q)).
  { intros q i. unfold names. cbn [hdisk disk_x w_names w_cwd w_inos app List.length pget].
    repeat (match goal with |- context [place_eqb q ?x] => let E := fresh "E" in destruct (place_eqb q x) eqn:E; [apply place_eqb_eq in E as ->; intros H; injection H as <-|] end); try discriminate.
    all: first [left; split; [lia|intros (ns & _ & X); discriminate X]|right; split; [reflexivity|eexists; split; [|reflexivity]; discriminate]]. }
  eexists _, _, _. split. { intros q i H. destruct (K q i H) as [[X _]|[-> _]]; cbn; lia. }
  split. { intros (_ & H & _). revert H. cbn. rewrite ?NoDup_cons_iff. cbn. intuition. }
  split. { intros q q' i H H' X. destruct (K q i H) as [[_ Y]|[-> _]]; [contradiction|]. destruct (K q' _ H') as [[Y _]|[_ Y]]; [lia|exact Y]. }
  split; [eapply (one_file_benign _ 3 (B ".profile")); [apply profile_plain|vm_compute; reflexivity|vm_compute; reflexivity|vm_compute; reflexivity]|].
  split; [vm_compute; reflexivity|]. split; [intros q text []|]. split; [vm_compute; reflexivity|]. split; vm_compute; reflexivity.
Qed.
