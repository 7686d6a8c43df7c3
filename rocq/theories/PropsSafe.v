(** PropsSafe.v: what a torrent can do to the disk (C97). *)
From Coq Require Import ZifyBool ZifyNat ZifyN.
From Verif Require Import Base BencodeModel BitfieldModel PathModel PathSpec LayoutModel InfoSpec InfoProofs PropsInfo PptModel PeerModel UtilsModel FsModel FsSpec TrackerModel
  StartModel StartSpec PropsStart SessionModel RunModel SafeSpec SafeProofs.

(* ------------------------------------------------------------------ *)
(** * C97 Any torrent, any failing system calls *)
Theorem C97_start : forall sha1 n src fuel sp o w r w', fs_wf w -> NewSwarm sha1 n src fuel sp o w = (r, w') ->
  fs_wf w' /\ elsewhere_same (named sha1 sp o w) w w'.
Proof. exact start_at. Qed.
Print Assumptions C97_start.
Theorem C97_main : forall uni sha1 n src fuel sp o w f w', fs_wf w -> main uni sha1 n src fuel sp o w = (f, w') ->
  fs_wf w' /\ elsewhere_same (named sha1 sp o w) w w'.
Proof. exact main_at. Qed.
Print Assumptions C97_main.
(** From then on the disk stays as it is, whatever peers send. *)
Theorem C97_running : forall c ls s s', srun c ls s = Some s' -> disk_same (ss_world s) (ss_world s').
Proof. exact run_same. Qed.
Print Assumptions C97_running.
Theorem C97_program : forall uni sha1 n src fuel sp o w f w' c t ls s, fs_wf w -> main uni sha1 n src fuel sp o w = (f, w') -> srun c ls (mkss t w' []) = Some s ->
  forall q, ~ In (place (w_cwd w) q) (named sha1 sp o w) -> file_at (ss_world s) q = file_at w q.
Proof. exact program_at. Qed.
Print Assumptions C97_program.
(** With ordinary names, nothing outside the download directory is touched. *)
Theorem C97_contained : forall uni sha1 n src fuel sp o w f w' c t ls s, fs_wf w -> benign sp o w ->
  main uni sha1 n src fuel sp o w = (f, w') -> srun c ls (mkss t w' []) = Some s ->
  forall q, ~ below (place (w_cwd w) (o_wd o)) (place (w_cwd w) q) -> file_at (ss_world s) q = file_at w q.
Proof. exact contained_at. Qed.
Print Assumptions C97_contained.
(** Starting comes to an end. *)
Theorem C97_ends : forall uni sha1 n src fuel sp o w w', NewPeerId src fuel <> NoFuel -> main uni sha1 n src fuel sp o w <> (Hang, w').
Proof. exact main_ends. Qed.
Print Assumptions C97_ends.

(** A torrent of bytes [i] in the home directory, and a file that is none of its business. *)
Definition disk_x (i : list (bytes * gval)) : world :=
  mkw [B "h"] [([B "h"; B "t.torrent"], 0%nat); ([B "h"; B ".profile"], 1%nat)] [fst (BencodeModel.Encode (VDict [(B "announce", VStr (B "http")); (B "info", VDict i)])); B "precious"] [] [].
Definition dots : list gval := [VStr (B ".."); VStr (B ".."); VStr (B ".profile")].
(** '..' is followed: the file is cut, although every name is one the file system allows and the program runs happily. *)
Theorem C97_contained_refuted : exists uni sha1 n src fuel o w s l w' q, fs_wf w /\ no_faults w /\ main uni sha1 n src fuel [] o w = (Running s l, w') /\
  ~ below (place (w_cwd w) (o_wd o)) (place (w_cwd w) q) /\ file_at w q = Some (B "precious") /\ file_at w' q = Some (B "pre").
Proof.
  exists (fun b => b), idhash, net_up, letters0, 50%nat, opts1, (disk_x (hostile 10 [hfile 3 dots])). eexists _, _, _, (B ".profile").
  split; [repeat split; cbn; repeat constructor; cbn; intuition (try discriminate; try lia)|]. split; [reflexivity|]. split; [vm_compute; reflexivity|].
  split; [intros (names & Hn & He); vm_compute in He; discriminate|]. split; vm_compute; reflexivity.
Qed.
Print Assumptions C97_contained_refuted.
(** A torrent that is accepted can still crash the start: a file of negative length. *)
Theorem C97_accepted_starts_refuted : exists uni sha1 n src fuel o w w' tor, fs_wf w /\ no_faults w /\ main uni sha1 n src fuel [] o w = (Crash, w') /\
  (exists c, file_at w (UtilsModel.o_input o) = Some c /\ FromTorrentFile sha1 (mkslice c []) (o_wd o) = Ok tor) /\ n_query n (t_announce tor) <> None.
Proof.
  exists (fun b => b), idhash, net_up, letters0, 50%nat, opts1, (disk_x (hostile 10 [hfile (-5) [VStr (B "a")]; hfile 15 [VStr (B "b")]])). eexists _, _.
  split; [repeat split; cbn; repeat constructor; cbn; intuition (try discriminate; try lia)|]. split; [reflexivity|]. split; [vm_compute; reflexivity|].
  split; [eexists; split; [vm_compute; reflexivity|]; vm_compute; reflexivity|discriminate].
Qed.
Print Assumptions C97_accepted_starts_refuted.
(** Two entries for one file are accepted too; the second decides its size. *)
Example C97_case_twice : match main (fun b => b) idhash net_up letters0 50 [] opts1 (disk_x (hostile 10 [hfile 3 [VStr (B "a")]; hfile 9 [VStr (B "a")]])) with
  | (Running _ _, w') => file_at w' (B "dl/d/a") = Some (zeros 9) | _ => False end.
Proof. vm_compute. reflexivity. Qed.
Example C97_case : exists s l w', main (fun b => b) idhash net_up letters0 50 [] opts1 disk_t = (Running s l, w') /\ fs_wf disk_t /\ benign [] opts1 disk_t /\
  named idhash [] opts1 disk_t = [[B "h"; B "dl"; B "dir"; B "a"; B "b"]; [B "h"; B "dl"; B "dir"; B "c"]] /\ NewPeerId letters0 50 <> NoFuel /\
  ~ below (place (w_cwd disk_t) (o_wd opts1)) (place (w_cwd disk_t) (B "t.torrent")).
Proof.
  eexists _, _, _. split; [vm_compute; reflexivity|]. split; [repeat split; cbn; repeat constructor; cbn; intuition (try discriminate; try lia)|].
  split.
  { intros c d info Hc Hd Hi. vm_compute in Hc. injection Hc as <-. vm_compute in Hd. injection Hd as <-. vm_compute in Hi. injection Hi as <-. split.
    - intros files f pl H1 H2 H3. vm_compute in H1. injection H1 as <-. destruct H2 as [H2|[H2|[]]]; injection H2 as <-; vm_compute in H3; injection H3 as <-.
      + exists [B "a"; B "b"]. split; [reflexivity|]. repeat constructor; try discriminate; intros [H|[]]; discriminate.
      + exists [B "c"]. split; [reflexivity|]. repeat constructor; try discriminate; intros [H|[]]; discriminate.
    - intros name Hn. vm_compute in Hn. injection Hn as <-. repeat split; try discriminate. cbn. intuition discriminate. }
  split; [vm_compute; reflexivity|]. split; [vm_compute; discriminate|]. intros (names & Hn & He); vm_compute in He; discriminate.
Qed.
