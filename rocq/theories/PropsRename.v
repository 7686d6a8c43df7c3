(** PropsRename.v: Move among symbolic links and files of several names (C122). *)
From Verif Require Import Base PathModel PathSpec LayoutModel FsModel FsSpec LifeSpec LinkModel LinkSpec HardSpec RenameModel RenameProofs.

(** The entry that a path names: all components but the last are followed as in C121_leads. *)
Theorem C122_entry : forall L cwd p q, one_each L ->
  (entry_at L cwd p = Some q <-> exists ts t d k, split_slash p = ts ++ [t] /\ t <> [] /\ t <> dot /\ t <> dotdot /\ q = d ++ [t] /\ (k <= 40)%nat /\ leads L k (if rooted p then [] else cwd) ts d).
Proof. exact entry_top. Qed.
Print Assumptions C122_entry.
(** Move of a file gives it the new name instead of the old one and changes no other name, unless the new name is already one of the file's: then nothing happens. *)
Theorem C122_Move_file : forall L a b w h qa qb i, next_works w -> aget a (w_lfps w) = Some h -> entry_at L (w_cwd w) a = Some qa -> entry_at L (w_cwd w) b = Some qb ->
  pget qa L = None -> names w qa i -> exists L' w', l_Move L a b w = (Ok tt, (L', w')) /\
  ((names w qb i /\ pget qb L = None /\ L' = L /\ disk_same w w') \/
   (~ (names w qb i /\ pget qb L = None) /\ names w' qb i /\ (qa <> qb -> forall j, ~ names w' qa j) /\ (forall q j, q <> qa -> q <> qb -> (names w' q j <-> names w q j)) /\
    pget qb L' = None /\ (forall q, q <> qb -> pget q L' = pget q L))).
Proof. exact move_file. Qed.
Print Assumptions C122_Move_file.
(** Move of a link moves the link, as it is. *)
Theorem C122_Move_link : forall L a b w h qa qb text, next_works w -> aget a (w_lfps w) = Some h -> entry_at L (w_cwd w) a = Some qa -> entry_at L (w_cwd w) b = Some qb ->
  pget qa L = Some text -> exists L' w', l_Move L a b w = (Ok tt, (L', w')) /\ pget qb L' = Some text /\ (qa <> qb -> pget qa L' = None) /\
  (forall q, q <> qa -> q <> qb -> pget q L' = pget q L) /\ (forall j, ~ names w' qb j) /\ (forall q, q <> qb -> file_in w' q = file_in w q).
Proof. exact move_link. Qed.
Print Assumptions C122_Move_link.
(** In any case: no content and nothing held changes; it is nil or an error, and with an error nothing has changed. *)
Theorem C122_Move_any : forall L a b w r L' w', l_Move L a b w = (r, (L', w')) ->
  w_cwd w' = w_cwd w /\ w_inos w' = w_inos w /\ w_lfps w' = w_lfps w /\ (r = Ok tt \/ exists e, r = Err e /\ L' = L /\ disk_same w w').
Proof. exact move_any. Qed.
Print Assumptions C122_Move_any.
(** A path that FileIO did not open is refused, and so is every Move when the call fails. *)
Theorem C122_Move_refused : forall L a b w, (aget a (w_lfps w) = None -> l_Move L a b w = (Err EPath, (L, w))) /\
  (forall h, aget a (w_lfps w) = Some h -> ~ next_works w -> exists w', l_Move L a b w = (Err EIO, (L, w')) /\ disk_same w w').
Proof. exact move_refused. Qed.
Print Assumptions C122_Move_refused.
(** Without links and with one name for each file it is the Move of C81. *)
Theorem C122_Move_same : forall a b w, fs_wf w -> entry_at [] (w_cwd w) a <> None -> entry_at [] (w_cwd w) b <> None ->
  exists w', l_Move [] a b w = (fst (Move a b w), ([], w')) /\ w_inos w' = w_inos (snd (Move a b w)) /\ w_lfps w' = w_lfps (snd (Move a b w)) /\
    forall q, pget q (w_names w') = pget q (w_names (snd (Move a b w))).
Proof. exact move_same. Qed.
Print Assumptions C122_Move_same.

Definition rworld : world :=
  mkw [B "h"] [([B "h"; B "a"], 0%nat); ([B "h"; B "b"], 0%nat); ([B "h"; B "d"; B "f"], 1%nat)] [B "one"; B "two"] [] [(B "a", mkh 0 true); (B "d/l", mkh 1 true)].
Definition rlinks : links := [([B "h"; B "d"; B "l"], B "f"); ([B "h"; B "e"], B "d")].
(** After a Move that returned nil the file may still have its old name. *)
Theorem C122_Move_gone_refuted : exists w L' w', next_works w /\ names_there w /\ place (w_cwd w) (B "a") <> place (w_cwd w) (B "b") /\
  l_Move [] (B "a") (B "b") w = (Ok tt, (L', w')) /\ file_in w' (place (w_cwd w) (B "a")) = Some (B "one").
Proof.
  exists rworld. eexists _, _. split; [reflexivity|]. split. { intros q i. cbn. repeat (destruct (place_eqb q _); [intros H; injection H as <-; auto|]). discriminate. }
  split; [vm_compute; discriminate|]. split; vm_compute; reflexivity.
Qed.
Print Assumptions C122_Move_gone_refuted.
(** After a Move that returned nil there may be no file at the new path: the link moved, and what it says is followed from another directory. *)
Theorem C122_Move_there_refuted : exists L w q L' w', next_works w /\ names_there w /\ one_each L /\
  real L (w_cwd w) (B "d/l") = Some q /\ file_in w q = Some (B "two") /\ l_Move L (B "d/l") (B "new") w = (Ok tt, (L', w')) /\
  exists q', real L' (w_cwd w') (B "new") = Some q' /\ file_in w' q' = None.
Proof.
  exists rlinks, rworld. eexists _, _, _. split; [reflexivity|]. split. { intros q i. cbn. repeat (destruct (place_eqb q _); [intros H; injection H as <-; auto|]). discriminate. }
  split; [repeat constructor; cbn; intuition discriminate|]. split; [vm_compute; reflexivity|]. split; [vm_compute; reflexivity|]. split; [vm_compute; reflexivity|].
  eexists. split; vm_compute; reflexivity.
Qed.
Print Assumptions C122_Move_there_refuted.

(** The hypotheses are met: a new name in a directory reached through a link; a name of another file, which goes. *)
Example C122_Move_case : exists w', entry_at rlinks (w_cwd rworld) (B "a") = Some [B "h"; B "a"] /\ entry_at rlinks (w_cwd rworld) (B "e/x") = Some [B "h"; B "d"; B "x"] /\
  l_Move rlinks (B "a") (B "e/x") rworld = (Ok tt, (rlinks, w')) /\ file_in w' [B "h"; B "d"; B "x"] = Some (B "one") /\ file_in w' [B "h"; B "b"] = Some (B "one") /\ file_in w' [B "h"; B "a"] = None.
Proof. eexists. repeat (split; [vm_compute; reflexivity|]). vm_compute. reflexivity. Qed.
Example C122_Move_over_case : exists L' w', l_Move rlinks (B "a") (B "d/l") rworld = (Ok tt, (L', w')) /\ real L' [B "h"] (B "d/l") = Some [B "h"; B "d"; B "l"] /\
  file_in w' [B "h"; B "d"; B "l"] = Some (B "one") /\ file_in w' [B "h"; B "d"; B "f"] = Some (B "two").
Proof. eexists _, _. repeat (split; [vm_compute; reflexivity|]). vm_compute. reflexivity. Qed.
