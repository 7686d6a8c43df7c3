(** PropsFs.v: files on disk (C35-C38). *)
From Coq Require Import ZifyBool ZifyNat ZifyN.
From Verif Require Import Base BencodeModel PathModel PathSpec LayoutModel LayoutSpec LayoutProofs PieceMapProofs FsModel FsSpec FsProofs OcatProofs.

(** A torrent of two files, 3 and 2 bytes, in pieces of 2; the "hash" keeps the data visible. *)
Definition toyhash (b : bytes) : bytes := firstn 20 (b ++ repeat x00 20).
Definition two : list ebase := [mkeb 3 (B "a") (B "d/a"); mkeb 2 (B "b") (B "d/b")].
Definition hash2 : bytes := toyhash (B "xy") ++ toyhash (B "zu") ++ toyhash (B "v").
Definition ti2 : torinfo := match NewTorInfo (B "t") 2 hash2 two with Ok ti => ti | _ => mkti [] 0 [] 0 0 [] true [] 0 end.
(** A disk with an over-long d/a, an unrelated file, and no d/b. *)
Definition disk0 : world := mkw [B "h"] [([B "h"; B "d"; B "a"], 0%nat); ([B "h"; B "other"], 1%nat)] [B "ABCDE"; B "keep"] [] [].
Definition disk1 : world := snd (OCATAll (ti_files ti2) disk0).
Example two_made : made 2 hash2 two ti2.
Proof. split; [split; [unfold big; lia|split; [repeat constructor; cbn; lia|reflexivity]]|]. split; [reflexivity|]. exists (B "t"). vm_compute. reflexivity. Qed.
Example disk0_wf : fs_wf disk0 /\ no_faults disk0 /\ NoDup (map (fun f => place (w_cwd disk0) (eb_local f)) two).
Proof.
  split; [|split; [reflexivity|]].
  - repeat split; cbn; repeat constructor; cbn; intuition (try discriminate; try lia).
  - vm_compute. repeat constructor; cbn; intuition discriminate.
Qed.
Example disk1_opened : opened disk1 ti2 [B "ABC"; [x00; x00]].
Proof. exists [0%nat; 2%nat]. vm_compute. repeat split; repeat constructor; cbn; intuition (try discriminate). Qed.

(** C35 *)
Theorem C35_OCAT : forall p L w, fs_wf w -> 0 <= L <= max64 -> no_faults w ->
  exists i c w', utils_OCAT p L w = (Ok i, w') /\ fs_wf w' /\ file_at w' p = Some c /\ resized (old_at w p) L c /\
    elsewhere_same [place (w_cwd w) p] w w' /\ no_faults w'.
Proof. exact OCAT_top. Qed.
Print Assumptions C35_OCAT.
(** Opening an existing file never loses its first min(old, L) bytes, whatever fails after the open. *)
Theorem C35_existing_kept : forall p L w c, fs_wf w -> 0 <= L <= max64 -> file_at w p = Some c ->
  hd None (w_flt w) = None ->
  exists c' w' r, utils_OCAT p L w = (r, w') /\ file_at w' p = Some c' /\ keeps c L c' /\ elsewhere_same [place (w_cwd w) p] w w' /\
    ((exists i, r = Ok i) /\ resized c L c' \/ r = Err EIO /\ ~ no_faults w).
Proof. exact OCAT_kept. Qed.
Print Assumptions C35_existing_kept.
(** But a failure of that first open - the file exists, but, say, too many are open - empties it. *)
Theorem C35_transient_open_error_refuted : exists w p c, file_at w p = Some c /\ c <> [] /\ fs_wf w /\
  exists i w', utils_OCAT p (zlen c) w = (Ok i, w') /\ file_at w' p = Some (zeros (zlen c)) /\ zeros (zlen c) <> c.
Proof.
  exists (mkw [B "h"] [([B "h"; B "f"], 0%nat)] [B "data"] [Some 0] []), (B "f"), (B "data").
  split; [reflexivity|]. split; [discriminate|]. split; [repeat split; cbn; repeat constructor; cbn; intuition (try discriminate; try lia)|].
  eexists _, _. split; [vm_compute; reflexivity|]. split; [reflexivity|discriminate].
Qed.
Print Assumptions C35_transient_open_error_refuted.
Theorem C35_negative_length_panics : forall p L w, L < 0 -> file_at w p = None -> fs_wf w -> no_faults w -> exists w', utils_OCAT p L w = (Panic, w').
Proof. exact OCAT_negative_top. Qed.
Print Assumptions C35_negative_length_panics.
(** With the file there, a negative length is an error and changes nothing. *)
Theorem C35_negative_length_refused : forall p L w c, L < 0 -> file_at w p = Some c -> fs_wf w -> no_faults w -> utils_OCAT p L w = (Err EIO, w).
Proof. exact OCAT_negative_kept. Qed.
Print Assumptions C35_negative_length_refused.
Theorem C35_OCATAll : forall P hashes files ti w, made P hashes files ti -> fs_wf w -> no_faults w ->
  NoDup (map (fun f => place (w_cwd w) (eb_local f)) files) ->
  exists contents w', OCATAll (ti_files ti) w = (Ok tt, w') /\ opened w' ti contents /\ fs_wf w' /\ no_faults w' /\
    elsewhere_same (map (fun f => place (w_cwd w) (eb_local f)) files) w w' /\
    Forall2 (fun f c => resized (old_at w (eb_local f)) (eb_len f) c /\ file_at w' (eb_local f) = Some c) files contents.
Proof. exact OCATAll_opens. Qed.
Print Assumptions C35_OCATAll.
Example C35_case : file_at disk0 (B "d/a") = Some (B "ABCDE") /\ file_at disk0 (B "d/b") = None /\
  file_at disk1 (B "d/a") = Some (B "ABC") /\ file_at disk1 (B "d/b") = Some [x00; x00] /\ file_at disk1 (B "other") = Some (B "keep") /\
  made 2 hash2 two ti2 /\ fs_wf disk0.
Proof. repeat (split; [vm_compute; reflexivity|]). split; [exact two_made|]. apply disk0_wf. Qed.

(** C36 *)
Theorem C36_out_of_range : forall sha1 P hashes files ti i d w, made P hashes files ti -> ~ (0 <= i < zlen hashes / 20) ->
  WritePiece sha1 ti i d w = (Err EBounds, w).
Proof. intros sha1 P hashes files ti i d w Hm. exact (proj1 (WritePiece_rejects sha1 P hashes files ti i d w Hm)). Qed.
Print Assumptions C36_out_of_range.
Theorem C36_bad_hash : forall sha1 P hashes files ti i d w, made P hashes files ti -> 0 <= i < zlen hashes / 20 ->
  sha1 (vis d) <> hash_at hashes i -> WritePiece sha1 ti i d w = (Err EBadHash, w).
Proof. intros sha1 P hashes files ti i d w Hm. exact (proj2 (WritePiece_rejects sha1 P hashes files ti i d w Hm)). Qed.
Print Assumptions C36_bad_hash.
Example C36_case : made 2 hash2 two ti2 /\ toyhash (B "no") <> hash_at hash2 1 /\
  WritePiece toyhash ti2 1 (mkslice (B "no") []) disk1 = (Err EBadHash, disk1).
Proof. split; [exact two_made|]. split; [vm_compute; discriminate|vm_compute; reflexivity]. Qed.

(** C37 *)
Theorem C37_write_then_read : forall sha1 P hashes files ti i d w contents, made P hashes files ti -> opened w ti contents ->
  0 <= i < zlen hashes / 20 -> sha1 (vis d) = hash_at hashes i -> no_faults w ->
  zlen (vis d) = psize P (zsum (lens_of files)) i ->
  exists contents' w', WritePiece sha1 ti i d w = (Ok (zlen (vis d)), w') /\ opened w' ti contents' /\ no_faults w' /\
    List.concat contents' = over (List.concat contents) (pstart P (zsum (lens_of files)) i) (vis d) /\
    (forall j, 0 <= j -> piece_bytes P contents' j = if j =? i then vis d else piece_bytes P contents j) /\
    (forall j buf, 0 <= j < zlen hashes / 20 -> zlen (vis buf) = P -> exists buf',
       ReadPiece ti j buf w' = (Ok (zlen (piece_bytes P contents' j)), buf', w') /\ zlen (vis buf') = P /\
       sub (vis buf') 0 (List.length (piece_bytes P contents' j)) = piece_bytes P contents' j).
Proof. exact Write_Read_top. Qed.
Print Assumptions C37_write_then_read.
Theorem C37_any_history : forall sha1 P hashes files ti ws w contents, made P hashes files ti -> opened w ti contents -> no_faults w ->
  Forall (fun x => 0 <= fst x < zlen hashes / 20 /\ sha1 (vis (snd x)) = hash_at hashes (fst x) /\ zlen (vis (snd x)) = psize P (zsum (lens_of files)) (fst x)) ws ->
  exists contents' w', write_all sha1 ti ws w = (Ok tt, w') /\ opened w' ti contents' /\ no_faults w' /\
    forall j, 0 <= j -> piece_bytes P contents' j = after_writes ws j (piece_bytes P contents j).
Proof. intros sha1 P hashes files ti ws w contents Hm. exact (write_all_spec sha1 P hashes files ti ws Hm w contents). Qed.
Print Assumptions C37_any_history.
(** Piece 1 spans both files. *)
Example C37_case : made 2 hash2 two ti2 /\ opened disk1 ti2 [B "ABC"; [x00; x00]] /\ toyhash (B "zu") = hash_at hash2 1 /\ psize 2 5 1 = 2 /\
  (let w' := snd (WritePiece toyhash ti2 1 (mkslice (B "zu") []) disk1) in
   file_at w' (B "d/a") = Some (B "ABz") /\ file_at w' (B "d/b") = Some ["u"%byte; x00]).
Proof. split; [exact two_made|]. split; [exact disk1_opened|]. vm_compute. auto. Qed.

(** C38. The faults in [w] say which system calls fail and after how many bytes; a crash leaves the same
    files as a failure at that point. *)
Theorem C38_confined : forall sha1 P hashes files ti i d w inos contents, made P hashes files ti -> opened_at inos w ti contents ->
  0 <= i < zlen hashes / 20 -> zlen (vis d) = psize P (zsum (lens_of files)) i ->
  exists contents' r w', WritePiece sha1 ti i d w = (r, w') /\ opened_at inos w' ti contents' /\ others_same inos w w' /\ r <> Panic /\ r <> NoFuel /\
    map zlen contents' = map zlen contents /\
    (forall x, 0 <= x < zlen (List.concat contents) ->
       let new := nth_error (List.concat contents') (Z.to_nat x) in let old := nth_error (List.concat contents) (Z.to_nat x) in
       let a := pstart P (zsum (lens_of files)) i in
       if (a <=? x) && (x <? a + zlen (vis d)) then new = old \/ new = nth_error (vis d) (Z.to_nat (x - a)) else new = old).
Proof. exact WritePiece_confined. Qed.
Print Assumptions C38_confined.
(** The second of the two file writes fails: piece 1 is half written, the rest is intact. *)
Definition disk_bad : world := mkw (w_cwd disk1) (w_names disk1) (w_inos disk1) [None; Some 0] (w_lfps disk1).
Example C38_case : made 2 hash2 two ti2 /\ opened disk_bad ti2 [B "ABC"; [x00; x00]] /\ zlen (B "zu") = psize 2 (zsum (lens_of two)) 1 /\
  (let (r, w') := WritePiece toyhash ti2 1 (mkslice (B "zu") []) disk_bad in
   r = Err EIO /\ file_at w' (B "d/a") = Some (B "ABz") /\ file_at w' (B "d/b") = Some [x00; x00]).
Proof.
  split; [exact two_made|]. split; [destruct disk1_opened as [inos H]; exists inos; exact H|]. split; [reflexivity|]. vm_compute. auto.
Qed.
