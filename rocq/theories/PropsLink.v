(** PropsLink.v: symbolic links below and above the download directory (C121). *)
From Verif Require Import Base BencodeModel PathModel PathSpec LayoutModel LayoutSpec FsModel FsSpec InfoSpec InfoProofs LinkModel LinkSpec LinkProofs.

(** What a path leads to: the kernel's rules, at most forty links. *)
Theorem C121_leads : forall L cwd p q, one_each L ->
  (real L cwd p = Some q <-> exists k, (k <= 40)%nat /\ leads L k (if rooted p then [] else cwd) (split_slash p) q).
Proof. exact real_top. Qed.
Print Assumptions C121_leads.

(** Without links a path leads where it says, so everything proved of FsModel is the case L = []. *)
Theorem C121_no_links : forall cwd p, real [] cwd p = Some (place cwd p).
Proof. exact real_none. Qed.
Print Assumptions C121_no_links.

(** Opening one file through links is opening it by any path that says where it is. *)
Theorem C121_same_as : forall L p p' n w,
  real L (w_cwd w) p = Some (place (w_cwd w) p') -> l_utils_OCAT L p n w = utils_OCAT p' n w.
Proof. exact l_utils_as. Qed.
Print Assumptions C121_same_as.

(** A path that leads nowhere (a loop of links): an error, nothing is changed. *)
Theorem C121_loop : forall L p n w, real L (w_cwd w) p = None ->
  exists er w', l_utils_OCAT L p n w = (Err er, w') /\ disk_same w w'.
Proof. exact l_utils_loop. Qed.
Print Assumptions C121_loop.

(** Links that are not on the way to any of the files make no difference. *)
Theorem C121_elsewhere : forall info wd ti L w, FromDict info wd = Ok ti -> fs_wf w ->
  (forall e, In e (ti_files ti) -> clear_way L (place (w_cwd w) (eb_local (en_base e)))) ->
  l_OCATAll L (ti_files ti) w = OCATAll (ti_files ti) w.
Proof. exact links_elsewhere. Qed.
Print Assumptions C121_elsewhere.

(** With ordinary names and no link inside the download directory every file is inside it, whatever links lead there. *)
Theorem C121_contained : forall info wd name L cwd W ti e,
  FromDict info wd = Ok ti -> GetString info (B "name") = Ok name -> plain_name name -> plain_paths info ->
  real L cwd (Clean wd) = Some W -> none_inside L W -> In e (ti_files ti) ->
  exists q, real L cwd (eb_local (en_base e)) = Some q /\ below W q.
Proof. exact local_inside. Qed.
Print Assumptions C121_contained.
Theorem C121_outside : forall info wd name L W ti w r w',
  FromDict info wd = Ok ti -> GetString info (B "name") = Ok name -> plain_name name -> plain_paths info ->
  real L (w_cwd w) (Clean wd) = Some W -> none_inside L W -> Forall plain_name (w_cwd w) -> fs_wf w ->
  l_OCATAll L (ti_files ti) w = (r, w') -> outside_same W w w'.
Proof. exact files_inside. Qed.
Print Assumptions C121_outside.
(** The directory is the one the user named if that name has no "..". *)
Theorem C121_directory : forall L cwd wd, never_up wd -> real L cwd (Clean wd) = real L cwd wd.
Proof. exact real_never_up. Qed.
Print Assumptions C121_directory.

Definition lfile (n : Z) (p : list gval) : gval := VDict [(B "length", VInt KInt64 n); (B "path", VList p)].
Definition ltor (P : Z) (files : list gval) : list (bytes * gval) :=
  [(B "files", VList files); (B "name", VStr (B "d")); (B "piece length", VInt KInt64 P); (B "pieces", VStr (repeat x00 20))].
Lemma plain1 c : c <> "."%byte -> c <> slash -> plain_name [c].
Proof. intros H1 H2. split; [discriminate|]. split; [intros H; injection H; auto|]. split; [discriminate|]. intros [H|[]]. auto. Qed.
Lemma ltor_plain n c : c <> "."%byte -> c <> slash -> plain_paths (ltor 10 [lfile n [VStr [c]]]).
Proof.
  intros A C files d pl H1 H2 H3. cbn in H1. injection H1 as <-. destruct H2 as [H2|[]]. injection H2 as <-. cbn in H3. injection H3 as <-.
  exists [[c]]. split; [reflexivity|]. constructor; [now apply plain1|constructor].
Qed.

(** A link inside the download directory: a file outside, of ordinary names, is cut short. *)
Theorem C121_link_inside_refuted : exists info ti L w w' q,
  FromDict info (B "/u/dl") = Ok ti /\ plain_name (B "d") /\ plain_paths info /\ fs_wf w /\ no_faults w /\ one_each L /\
  real L (w_cwd w) (B "/u/dl") = Some [B "u"; B "dl"] /\ ~ below [B "u"; B "dl"] q /\
  l_OCATAll L (ti_files ti) w = (Ok tt, w') /\ file_in w q = Some (B "secret") /\ file_in w' q = Some (B "sec").
Proof.
  exists (ltor 10 [lfile 3 [VStr (B "a")]]). eexists.
  exists [([B "u"; B "dl"; B "d"], B "../doc")], (mkw [] [([B "u"; B "doc"; B "a"], 0%nat)] [B "secret"] [] []). eexists. exists [B "u"; B "doc"; B "a"].
  split; [vm_compute; reflexivity|]. split; [apply plain1; discriminate|]. split; [apply ltor_plain; discriminate|].
  split; [repeat constructor; cbn; auto; intros []|]. split; [vm_compute; auto|]. split; [repeat constructor; intros []|].
  split; [vm_compute; reflexivity|]. split; [intros (names & _ & H); discriminate|].
  split; [vm_compute; reflexivity|]. split; vm_compute; reflexivity.
Qed.
Print Assumptions C121_link_inside_refuted.

(** "..": the directory named by -w is not the one used when the component before ".." is a link. *)
Theorem C121_directory_refuted : exists info ti L e W q,
  FromDict info (B "/s/../dl") = Ok ti /\ plain_paths info /\ one_each L /\ none_inside L W /\ In e (ti_files ti) /\
  real L [] (B "/s/../dl") = Some W /\ real L [] (eb_local (en_base e)) = Some q /\ ~ below W q.
Proof.
  exists (ltor 10 [lfile 3 [VStr (B "a")]]). eexists. exists [([B "s"], B "/m/x")]. eexists. exists [B "m"; B "dl"], [B "dl"; B "d"; B "a"].
  split; [vm_compute; reflexivity|]. split; [apply ltor_plain; discriminate|]. split; [repeat constructor; intros []|].
  split; [intros q text [H|[]] (names & _ & E); injection H as <- <-; discriminate|]. split; [left; reflexivity|].
  split; [vm_compute; reflexivity|]. split; [vm_compute; reflexivity|]. intros (names & _ & H). discriminate.
Qed.
Print Assumptions C121_directory_refuted.

(** Two files of a torrent, with different local paths, are one file on the disk. *)
Theorem C121_two_are_one_refuted : exists info ti L w w' p1 p2 h,
  FromDict info (B "/dl") = Ok ti /\ map (fun e => eb_local (en_base e)) (ti_files ti) = [p1; p2] /\ p1 <> p2 /\ fs_wf w /\ no_faults w /\ one_each L /\
  l_OCATAll L (ti_files ti) w = (Ok tt, w') /\ aget p1 (w_lfps w') = Some h /\ aget p2 (w_lfps w') = Some h.
Proof.
  exists (ltor 10 [lfile 3 [VStr (B "a")]; lfile 5 [VStr (B "b")]]). eexists. exists [([B "dl"; B "d"; B "b"], B "a")], (mkw [] [] [] [] []). eexists. eexists _, _, _.
  split; [vm_compute; reflexivity|]. split; [vm_compute; reflexivity|]. split; [discriminate|]. split; [repeat constructor|]. split; [vm_compute; auto|].
  split; [repeat constructor; intros []|]. split; [vm_compute; reflexivity|]. split; vm_compute; reflexivity.
Qed.
Print Assumptions C121_two_are_one_refuted.

(** The hypotheses of the positive theorems are met: a download directory reached through two links, one above
    it and one that is its last component, other links next to it. *)
Definition llinks : links := [([B "h"], B "/srv/h"); ([B "srv"; B "h"; B "dl"], B "../big/./dl"); ([B "etc"], B "h")].
Example C121_case : exists ti w' e q,
  FromDict (ltor 10 [lfile 3 [VStr (B "a")]]) (B "/h//dl/") = Ok ti /\ plain_paths (ltor 10 [lfile 3 [VStr (B "a")]]) /\ one_each llinks /\
  real llinks [B "t"] (Clean (B "/h//dl/")) = Some [B "srv"; B "big"; B "dl"] /\ none_inside llinks [B "srv"; B "big"; B "dl"] /\
  never_up (B "/h//dl/") /\ l_OCATAll llinks (ti_files ti) (mkw [B "t"] [] [] [] []) = (Ok tt, w') /\
  In e (ti_files ti) /\ real llinks [B "t"] (eb_local (en_base e)) = Some q /\ file_in w' q = Some [x00; x00; x00].
Proof.
  eexists _, _, _, [B "srv"; B "big"; B "dl"; B "d"; B "a"]. split; [vm_compute; reflexivity|]. split; [apply ltor_plain; discriminate|].
  split. { repeat constructor; cbn; intuition discriminate. }
  split; [vm_compute; reflexivity|].
  split. { intros q text H (names & _ & E). cbn in H. destruct H as [H|[H|[H|[]]]]; injection H as <- <-; discriminate. }
  split. { unfold never_up. cbn. intuition discriminate. }
  split; [vm_compute; reflexivity|]. split; [left; reflexivity|]. split; [vm_compute; reflexivity|]. vm_compute. reflexivity.
Qed.
(** A loop; a link to nothing, whose target is made. *)
Example C121_loop_case : real [([B "a"], B "b"); ([B "b"], B "a")] [] (B "/a/x") = None.
Proof. vm_compute. reflexivity. Qed.
Example C121_dangling_case : exists i w', l_utils_OCAT [([B "dl"; B "f"], B "/new")] (B "/dl/f") 2 (mkw [] [] [] [] []) = (Ok i, w') /\
  file_in w' [B "new"] = Some [x00; x00].
Proof. eexists _, _. split; vm_compute; reflexivity. Qed.
(** Links elsewhere: the hypothesis of C121_elsewhere. *)
Example C121_elsewhere_case : clear_way [([B "etc"], B "h"); ([B "dl"; B "d"; B "b"], B "a")] (place [] (B "/dl/d/a")).
Proof.
  intros a b text E [H|[H|[]]]; injection H as <- <-; discriminate.
Qed.
