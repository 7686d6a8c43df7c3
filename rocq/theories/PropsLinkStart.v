(** PropsLinkStart.v: the whole program among symbolic links (C121). *)
From Verif Require Import Base BencodeModel BitfieldModel PathModel PathSpec LayoutModel InfoSpec InfoProofs PropsInfo PptModel PeerModel UtilsModel FsModel FsSpec TrackerModel
  StartModel StartSpec PropsStart SessionModel RunModel SafeSpec PropsSafe LinkModel LinkSpec LinkStartModel LinkStartSpec LinkStartProofs.

(** Ordinary names, no link inside the download directory: the program, and whatever peers do to it, leaves all outside as it was. *)
Theorem C121_program : forall L W uni sha1 n src fuel sp o w f w' c t ls s,
  fs_wf w -> Forall plain_name (w_cwd w) -> l_benign L sp o w -> real L (w_cwd w) (Clean (o_wd o)) = Some W -> none_inside L W ->
  l_main L uni sha1 n src fuel sp o w = (f, w') -> srun c ls (mkss t w' []) = Some s -> outside_same W w (ss_world s).
Proof. exact l_program_at. Qed.
Print Assumptions C121_program.
(** Links that are on the way neither to the torrent file nor to its files: the program does not see them. *)
Theorem C121_same_program : forall L uni sha1 n src fuel sp o w,
  fs_wf w -> real L (w_cwd w) (UtilsModel.o_input o) = Some (place (w_cwd w) (UtilsModel.o_input o)) ->
  (forall q, In q (named sha1 sp o w) -> clear_way L q) -> l_main L uni sha1 n src fuel sp o w = main uni sha1 n src fuel sp o w.
Proof. exact l_main_same. Qed.
Print Assumptions C121_same_program.

Lemma one_file_plain n p : plain_name p -> plain_paths (hostile 10 [hfile n [VStr p]]).
Proof.
  intros Hp files d pl H1 H2 H3. cbn in H1. injection H1 as <-. destruct H2 as [H2|[]]. injection H2 as <-. cbn in H3. injection H3 as <-.
  exists [p]. split; [reflexivity|]. constructor; [assumption|constructor].
Qed.
Lemma one_file_benign L n p w x d0 : plain_name p -> l_file L w (UtilsModel.o_input opts1) = Some x -> Decode (mkslice x []) = Ok (VDict d0) ->
  GetDict d0 (B "info") = Ok (hostile 10 [hfile n [VStr p]]) -> l_benign L [] opts1 w.
Proof.
  intros Hp Hf Hd H0 c d info Hc Hdec Hi. assert (c = x) by congruence. subst c. assert (d = d0) by congruence. subst d. rewrite H0 in Hi. apply Ok_inj in Hi. subst info.
  split; [now apply one_file_plain|]. intros name Hn. cbn in Hn. apply Ok_inj in Hn. subst name. repeat split; try discriminate. intros [H|[]]. discriminate.
Qed.
Lemma profile_plain : plain_name (B ".profile").
Proof. repeat split; try discriminate. cbn. intuition discriminate. Qed.

(** A link inside the download directory, ordinary names: the program cuts a file outside and runs happily. *)
Theorem C121_program_refuted : exists L W uni sha1 n src fuel o w s l w' q,
  fs_wf w /\ no_faults w /\ Forall plain_name (w_cwd w) /\ one_each L /\ l_benign L [] o w /\ real L (w_cwd w) (Clean (o_wd o)) = Some W /\
  l_main L uni sha1 n src fuel [] o w = (Running s l, w') /\ ~ below W q /\ file_in w q = Some (B "precious") /\ file_in w' q = Some (B "pre").
Proof.
  exists [([B "h"; B "dl"; B "d"], B "..")], [B "h"; B "dl"], (fun b => b), idhash, net_up, letters0, 50%nat, opts1, (disk_x (hostile 10 [hfile 3 [VStr (B ".profile")]])). eexists _, _, _, [B "h"; B ".profile"].
  split; [repeat split; cbn; repeat constructor; cbn; intuition (try discriminate; try lia)|]. split; [reflexivity|].
  split; [constructor; [repeat split; try discriminate; cbn; intuition discriminate|constructor]|]. split; [repeat constructor; intros []|].
  split; [eapply (one_file_benign _ 3 (B ".profile")); [apply profile_plain|vm_compute; reflexivity|vm_compute; reflexivity|vm_compute; reflexivity]|].
  split; [vm_compute; reflexivity|]. split; [vm_compute; reflexivity|]. split; [intros (names & _ & H); discriminate|]. split; vm_compute; reflexivity.
Qed.
Print Assumptions C121_program_refuted.
(** The hypotheses of C121_program: the download directory is a link to another disk. *)
Example C121_program_case : exists s l w',
  let L := [([B "h"; B "dl"], B "/big/dl"); ([B "etc"], B "h")] in let w := disk_x (hostile 10 [hfile 3 [VStr (B ".profile")]]) in
  fs_wf w /\ Forall plain_name (w_cwd w) /\ l_benign L [] opts1 w /\ real L (w_cwd w) (Clean (o_wd opts1)) = Some [B "big"; B "dl"] /\ none_inside L [B "big"; B "dl"] /\
  l_main L (fun b => b) idhash net_up letters0 50 [] opts1 w = (Running s l, w') /\ file_in w' [B "big"; B "dl"; B "d"; B ".profile"] = Some (zeros 3).
Proof.
  eexists _, _, _. cbv zeta. split; [repeat split; cbn; repeat constructor; cbn; intuition (try discriminate; try lia)|].
  split; [constructor; [repeat split; try discriminate; cbn; intuition discriminate|constructor]|].
  split; [eapply (one_file_benign _ 3 (B ".profile")); [apply profile_plain|vm_compute; reflexivity|vm_compute; reflexivity|vm_compute; reflexivity]|].
  split; [vm_compute; reflexivity|]. split; [intros q text [H|[H|[]]] (names & _ & E); injection H as <- <-; discriminate|].
  split; vm_compute; reflexivity.
Qed.
