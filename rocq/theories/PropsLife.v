(** PropsLife.v: moving, closing and creating files (C81, C82). *)
From Coq Require Import ZifyBool ZifyNat ZifyN.
From Verif Require Import Base PathModel PathSpec LayoutModel LayoutSpec FsModel FsSpec FsProofs OcatProofs PropsFs LifeSpec LifeProofs.

(** C81 *)
Theorem C81_Move : forall a b w h c, fs_wf w -> next_works w -> aget a (w_lfps w) = Some h -> file_at w a = Some c ->
  exists w', Move a b w = (Ok tt, w') /\ fs_wf w' /\ file_at w' b = Some c /\ (place (w_cwd w) a <> place (w_cwd w) b -> file_at w' a = None) /\
    elsewhere_same [place (w_cwd w) a; place (w_cwd w) b] w w' /\ w_lfps w' = w_lfps w /\
    (forall inos ti contents, opened_at inos w ti contents -> opened_at inos w' ti contents).
Proof.
  intros a b w h c H1 H2 H3 H4. destruct (Move_ok a b w h c H1 H2 H3 H4) as (w' & A1 & A2 & A3 & A4 & A5 & A6 & A7 & _). exists w'. repeat (split; [assumption|]).
  intros inos ti contents. exact (opened_lfps_inos inos w w' ti contents A6 A7).
Qed.
Print Assumptions C81_Move.
(** Move never panics; when it fails nothing has changed; a path the FileIO did not open - also the new name of a moved file - is refused. *)
Theorem C81_Move_fails : forall a b w,
  (aget a (w_lfps w) = None -> Move a b w = (Err EPath, w)) /\
  (file_at w a = None -> fs_wf w -> exists e w', Move a b w = (Err e, w') /\ (next_works w -> e = EPath)) /\
  (forall e w', Move a b w = (Err e, w') -> disk_same w w') /\
  (exists r w', Move a b w = (r, w') /\ (r = Ok tt \/ exists e, r = Err e)).
Proof. exact Move_fails. Qed.
Print Assumptions C81_Move_fails.
Theorem C81_Move_then_write : forall sha1 P hashes files ti i d w inos contents k e a b, made P hashes files ti -> fs_wf w -> opened_at inos w ti contents -> no_faults w ->
  nth_error (ti_files ti) k = Some e -> a = eb_local (en_base e) -> still_there w a ->
  0 <= i < zlen hashes / 20 -> sha1 (vis d) = hash_at hashes i -> zlen (vis d) = psize P (zsum (lens_of files)) i ->
  exists w1 w2 contents', Move a b w = (Ok tt, w1) /\ WritePiece sha1 ti i d w1 = (Ok (zlen (vis d)), w2) /\
    opened_at inos w2 ti contents' /\ List.concat contents' = over (List.concat contents) (pstart P (zsum (lens_of files)) i) (vis d) /\
    file_at w1 b = nth_error contents k /\ file_at w2 b = nth_error contents' k.
Proof. exact Move_then_write. Qed.
Print Assumptions C81_Move_then_write.
Theorem C81_Close : forall p w,
  (forall i, aget p (w_lfps w) = Some (mkh i true) ->
     exists r w', Close p w = (r, w') /\ files_same w w' /\ aget p (w_lfps w') = Some (mkh i false) /\ (forall q, q <> p -> aget q (w_lfps w') = aget q (w_lfps w)) /\
       ((r = Ok tt /\ next_works w) \/ (r = Err EIO /\ ~ next_works w))) /\
  (is_closed w p -> Close p w = (Err EClosed, w)) /\ (aget p (w_lfps w) = None -> Close p w = (Err EPath, w)).
Proof.
  intros p w. split; [|exact (Close_other p w)]. intros i Hi. destruct (Close_open p w i Hi) as (r & w' & A1 & A2 & A3 & A4 & A5 & _). exists r, w'. auto.
Qed.
Print Assumptions C81_Close.
(** After everything is closed no piece with bytes in it can be read or written, and trying changes nothing. *)
Theorem C81_closed_pieces : forall sha1 P hashes files ti w i buf, made P hashes files ti -> all_closed w ti -> 0 <= i < zlen hashes / 20 ->
  let n := psize P (zsum (lens_of files)) i in n <= scap buf ->
  ReadPiece ti i buf w = (if n =? 0 then Ok 0 else Err EClosed, buf, w) /\
  (sha1 (vis buf) = hash_at hashes i -> WritePiece sha1 ti i buf w = (if n =? 0 then Ok 0 else Err EClosed, w)).
Proof. exact closed_pieces. Qed.
Print Assumptions C81_closed_pieces.
(** Nor before it is opened. *)
Theorem C81_unopened_pieces : forall sha1 P hashes files ti w i buf, made P hashes files ti -> none_opened w ti -> 0 <= i < zlen hashes / 20 ->
  0 < psize P (zsum (lens_of files)) i <= scap buf ->
  ReadPiece ti i buf w = (Err EPath, buf, w) /\ (sha1 (vis buf) = hash_at hashes i -> WritePiece sha1 ti i buf w = (Err EPath, w)).
Proof. exact unopened_pieces. Qed.
Print Assumptions C81_unopened_pieces.
(** Whatever order the map is walked in: a prefix is closed, and the walk stops at the first file already closed or failing to close. *)
Theorem C81_CloseAll : forall order w, NoDup order -> (forall p, In p order -> is_open w p \/ is_closed w p) ->
  exists pre post r w', order = pre ++ post /\ CloseAll order w = (r, w') /\ files_same w w' /\
    (forall p, In p pre -> is_open w p /\ is_closed w' p) /\ (forall p, ~ In p pre -> aget p (w_lfps w') = aget p (w_lfps w)) /\
    ((r = Ok tt /\ post = []) \/ (r = Err EIO /\ ~ no_faults w) \/ (exists p post', r = Err EClosed /\ post = p :: post' /\ is_closed w p)).
Proof. exact CloseAll_spec. Qed.
Print Assumptions C81_CloseAll.
(** So one file closed before makes CloseAll leave others open. *)
Theorem C81_CloseAll_leaves_open_refuted : exists w order p, (forall q, In q order <-> In q (map fst (w_lfps w))) /\ NoDup order /\ no_faults w /\
  (exists w0, opened disk1 ti2 [B "ABC"; [x00; x00]] /\ Close (B "d/a") disk1 = (Ok tt, w0) /\ w = w0) /\
  exists w', CloseAll order w = (Err EClosed, w') /\ is_open w' p.
Proof.
  exists (snd (Close (B "d/a") disk1)), [B "d/a"; B "d/b"], (B "d/b"). split; [intros q; vm_compute; tauto|]. split; [vm_compute; repeat constructor; cbn; intuition discriminate|].
  split; [reflexivity|]. split; [eexists; split; [exact disk1_opened|]; split; [vm_compute; reflexivity|reflexivity]|].
  eexists. split; [vm_compute; reflexivity|]. exists 2%nat. vm_compute. reflexivity.
Qed.
Print Assumptions C81_CloseAll_leaves_open_refuted.
Example C81_case_unopened : none_opened disk0 ti2 /\ ReadPiece ti2 1 (mkslice (B "..") []) disk0 = (Err EPath, mkslice (B "..") [], disk0).
Proof. split; [repeat constructor|vm_compute; reflexivity]. Qed.
Example C81_case : still_there disk1 (B "d/a") /\ fs_wf disk1 /\ no_faults disk1 /\
  (exists w1 w2, Move (B "d/a") (B "new/x") disk1 = (Ok tt, w1) /\ file_at w1 (B "new/x") = Some (B "ABC") /\ file_at w1 (B "d/a") = None /\
     WritePiece toyhash ti2 0 (mkslice (B "xy") []) w1 = (Ok 2, w2) /\ file_at w2 (B "new/x") = Some (B "xyC") /\
     Move (B "new/x") (B "d/a") w2 = (Err EPath, w2)) /\
  (exists w3, CloseAll [B "d/b"; B "d/a"] disk1 = (Ok tt, w3) /\ all_closed w3 ti2 /\
     ReadPiece ti2 1 (mkslice (B "..") []) w3 = (Err EClosed, mkslice (B "..") [], w3)).
Proof.
  split; [exists 0%nat, true; vm_compute; auto|]. split; [repeat split; vm_compute; repeat constructor; cbn; intuition (try discriminate; try lia)|]. split; [reflexivity|]. split.
  - eexists _, _. repeat (split; [vm_compute; reflexivity|]). vm_compute. reflexivity.
  - eexists. split; [vm_compute; reflexivity|]. split; [|vm_compute; reflexivity]. repeat constructor; eexists; vm_compute; reflexivity.
Qed.

(** C82 *)
Theorem C82_CreateZeroFilledFile : forall p n w, fs_wf w -> 0 <= n ->
  exists r w', CreateZeroFilledFile p n w = (r, w') /\ fs_wf w' /\ elsewhere_same [place (w_cwd w) p] w w' /\
    ((exists i, r = Ok i /\ pget (place (w_cwd w) p) (w_names w') = Some i /\ file_at w' p = Some (zeros n)) \/
     (r = Err EIO /\ ~ no_faults w /\ (file_at w' p = file_at w p \/ exists m, 0 <= m <= n /\ file_at w' p = Some (zeros m)))).
Proof. exact Create_top. Qed.
Print Assumptions C82_CreateZeroFilledFile.
(** A negative size panics after the old content is gone. *)
Theorem C82_negative : forall p n w, fs_wf w -> n < 0 -> no_faults w ->
  exists w', CreateZeroFilledFile p n w = (Panic, w') /\ file_at w' p = Some [] /\ elsewhere_same [place (w_cwd w) p] w w'.
Proof. exact Create_negative. Qed.
Print Assumptions C82_negative.
Theorem C82_AppendZeros : forall p i c n w, fs_wf w -> pget (place (w_cwd w) p) (w_names w) = Some i -> nth_error (w_inos w) i = Some c -> 0 <= n ->
  exists m w' r, AppendZeros i n w = (r, w') /\ 0 <= m <= n /\ file_at w' p = Some (c ++ zeros m) /\ elsewhere_same [place (w_cwd w) p] w w' /\
    ((r = Ok tt /\ m = n) \/ (r = Err EIO /\ ~ no_faults w)).
Proof. exact AppendZeros_top. Qed.
Print Assumptions C82_AppendZeros.
Example C82_case : fs_wf disk0 /\
  (exists i w', CreateZeroFilledFile (B "other") 3 disk0 = (Ok i, w') /\ file_at w' (B "other") = Some [x00; x00; x00] /\ file_at w' (B "d/a") = Some (B "ABCDE")) /\
  (exists w', CreateZeroFilledFile (B "other") (-1) disk0 = (Panic, w') /\ file_at disk0 (B "other") = Some (B "keep") /\ file_at w' (B "other") = Some []) /\
  (exists w', AppendZeros 1 2 disk0 = (Ok tt, w') /\ file_at w' (B "other") = Some (B "keep" ++ [x00; x00])).
Proof. split; [apply disk0_wf|]. repeat split; eexists; try eexists; repeat split; vm_compute; reflexivity. Qed.
