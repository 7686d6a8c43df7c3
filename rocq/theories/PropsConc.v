(** PropsConc.v: ReadPiece and WritePiece from several goroutines (C80). *)
From Coq Require Import ZifyBool ZifyNat ZifyN.
From Verif Require Import Base LayoutModel LayoutSpec FsModel FsSpec FsProofs PropsFs ConcModel ConcSpec ConcProofs.

(** Two writers of the middle piece, one refused writer, a reader of the middle piece and one of the last. *)
Definition cjobs (t : nat) : job :=
  match t with
  | 0%nat => JWrite 1 (mkslice (B "zu") []) | 1%nat => JWrite 1 (mkslice (B "zu") (B "more")) | 2%nat => JWrite 0 (mkslice (B "no") [])
  | 3%nat => JRead 1 (mkslice (B "....") []) | _ => JRead 2 (mkslice (B "....") [])
  end.
Example cjobs_fit : forall t, fitting toyhash 2 hash2 two (cjobs t).
Proof.
  intros t. destruct t as [|[|[|[|t]]]]; cbn; try (unfold zlen; cbn; lia); intros [_ H]; vm_compute; reflexivity.
Qed.

(** C80 *)
(** A call that runs without interruption is the sequential call, and it always finishes. *)
Theorem C80_alone : forall sha1 ti jobs s t, f_at s t = FStart ->
  exists k s' r buf, frun sha1 ti jobs s (repeat t k) = Some s' /\ f_at s' t = FDone r buf /\ (forall u, u <> t -> f_at s' u = f_at s u) /\
    call sha1 ti (jobs t) (f_world s) = (r, buf, f_world s').
Proof. exact alone. Qed.
Print Assumptions C80_alone.
(** At every moment, whatever fails: each byte is the old one or a writer's of its piece; a piece nobody writes is as it was; where
    all writers agree, the piece is complete once one of them has returned without an error. *)
Theorem C80_bytes : forall sha1 P hashes files ti jobs inos w contents ts s, made P hashes files ti ->
  (forall t, fitting sha1 P hashes files (jobs t)) -> opened_at inos w ti contents -> frun sha1 ti jobs (finit w) ts = Some s ->
  exists contents', opened_at inos (f_world s) ti contents' /\ others_same inos w (f_world s) /\
    (forall i, 0 <= i < zlen hashes / 20 -> forall y, 0 <= y < psize P (zsum (lens_of files)) i ->
       old_or_written sha1 hashes jobs i (piece_bytes P contents i) (Z.to_nat y) (nth_error (piece_bytes P contents' i) (Z.to_nat y))) /\
    (forall i, 0 <= i < zlen hashes / 20 -> nobody_writes sha1 hashes jobs i -> piece_bytes P contents' i = piece_bytes P contents i) /\
    (forall t i d n buf, jobs t = JWrite i d -> f_at s t = FDone (Ok n) buf -> only_writes sha1 hashes jobs i (vis d) -> piece_bytes P contents' i = vis d).
Proof. intros sha1 P hashes files ti jobs inos w contents ts s Hm Hf. exact (conc_bytes sha1 P hashes files ti jobs inos Hm Hf w contents ts s). Qed.
Print Assumptions C80_bytes.
(** No interference: without I/O errors every call returns what it would return alone. *)
Theorem C80_results : forall sha1 P hashes files ti jobs inos w contents ts s t, made P hashes files ti ->
  (forall t, fitting sha1 P hashes files (jobs t)) -> opened_at inos w ti contents -> no_faults w -> frun sha1 ti jobs (finit w) ts = Some s ->
  forall r buf, f_at s t = FDone r buf ->
  match jobs t with
  | JWrite i d => buf = d /\ ((accepted_write sha1 hashes i d /\ r = Ok (psize P (zsum (lens_of files)) i)) \/ (~ (0 <= i < zlen hashes / 20) /\ r = Err EBounds) \/
      (0 <= i < zlen hashes / 20 /\ sha1 (vis d) <> hash_at hashes i /\ r = Err EBadHash))
  | JRead i b0 => (0 <= i < zlen hashes / 20 /\ r = Ok (psize P (zsum (lens_of files)) i)) \/ (~ (0 <= i < zlen hashes / 20) /\ r = Err EBounds /\ buf = b0)
  end.
Proof. intros sha1 P hashes files ti jobs inos w contents ts s t Hm Hf. exact (conc_results sha1 P hashes files ti jobs inos Hm Hf w contents ts s t). Qed.
Print Assumptions C80_results.
(** What a reader may see. *)
Theorem C80_read : forall sha1 P hashes files ti jobs inos w contents ts s t i b0 n buf, made P hashes files ti ->
  (forall t, fitting sha1 P hashes files (jobs t)) -> opened_at inos w ti contents -> frun sha1 ti jobs (finit w) ts = Some s ->
  jobs t = JRead i b0 -> f_at s t = FDone (Ok n) buf ->
  0 <= i < zlen hashes / 20 /\ n = psize P (zsum (lens_of files)) i /\ zlen (vis buf) = zlen (vis b0) /\
  (forall y, 0 <= y < n -> old_or_written sha1 hashes jobs i (piece_bytes P contents i) (Z.to_nat y) (nth_error (vis buf) (Z.to_nat y))) /\
  (forall y, n <= y < zlen (vis b0) -> nth_error (vis buf) (Z.to_nat y) = nth_error (vis b0) (Z.to_nat y)).
Proof.
  intros sha1 P hashes files ti jobs inos w contents ts s t i b0 n buf Hm Hf Ho Hr Hj Hd.
  destruct (conc_read sha1 P hashes files ti jobs inos Hm Hf w contents ts s t i b0 n buf Ho Hr Hj Hd) as (H1 & H2 & H). subst n. auto.
Qed.
Print Assumptions C80_read.
(** Once a writer has returned, and the writers of the piece agree, the piece stays and every reader that begins later gets it. *)
Theorem C80_read_after_write : forall sha1 P hashes files ti jobs inos w contents ts1 s1 ts2 s2 tw i d nw bw, made P hashes files ti ->
  (forall t, fitting sha1 P hashes files (jobs t)) -> opened_at inos w ti contents ->
  frun sha1 ti jobs (finit w) ts1 = Some s1 -> frun sha1 ti jobs s1 ts2 = Some s2 ->
  jobs tw = JWrite i d -> f_at s1 tw = FDone (Ok nw) bw -> only_writes sha1 hashes jobs i (vis d) ->
  (exists contents2, opened_at inos (f_world s2) ti contents2 /\ piece_bytes P contents2 i = vis d) /\
  forall t b0 n buf, jobs t = JRead i b0 -> f_at s1 t = FStart -> f_at s2 t = FDone (Ok n) buf -> firstn (Z.to_nat n) (vis buf) = vis d.
Proof.
  intros sha1 P hashes files ti jobs inos w contents ts1 s1 ts2 s2 tw i d nw bw Hm Hf Ho Hr1 Hr2 Hj Hd Hag.
  destruct (conc_bytes sha1 P hashes files ti jobs inos Hm Hf w contents ts1 s1 Ho Hr1) as (c1 & Ho1 & _ & _ & _ & Hfin).
  destruct (conc_done_accepted sha1 P hashes files ti jobs inos Hm Hf w contents ts1 s1 Ho Hr1 tw i d nw bw Hj Hd) as [Hv Hz].
  exact (conc_fixed sha1 P hashes files ti jobs inos Hm Hf w contents ts1 s1 ts2 s2 i (vis d) c1 Ho Hr1 Hr2 (proj1 Hv) Hz Hag Ho1 (Hfin tw i d nw bw Hj Hd Hag)).
Qed.
Print Assumptions C80_read_after_write.
(** A reader that overlaps a writer of a piece lying in two files can return half of each, with no error. *)
Theorem C80_torn_refuted : exists ts s n buf old new, opened disk1 ti2 old /\ made 2 hash2 two ti2 /\ (forall t, fitting toyhash 2 hash2 two (cjobs t)) /\ no_faults disk1 /\
  frun toyhash ti2 cjobs (finit disk1) ts = Some s /\ opened (f_world s) ti2 new /\
  (exists b0, cjobs 3%nat = JRead 1 b0) /\ f_at s 3%nat = FDone (Ok n) buf /\ n = 2 /\
  firstn 2 (vis buf) <> piece_bytes 2 old 1 /\ firstn 2 (vis buf) <> piece_bytes 2 new 1 /\ toyhash (firstn 2 (vis buf)) <> hash_at hash2 1.
Proof.
  exists [3;3;0;0;0;0;3;3]%nat. eexists _, 2, _, [B "ABC"; [x00; x00]], [B "ABz"; [x75; x00]]. split; [exact disk1_opened|]. split; [exact two_made|]. split; [exact cjobs_fit|].
  split; [reflexivity|]. split; [vm_compute; reflexivity|]. split.
  { exists [0%nat; 2%nat]. vm_compute. repeat split; repeat constructor; cbn; intuition (try discriminate). }
  split; [eexists; reflexivity|]. split; [vm_compute; reflexivity|]. split; [reflexivity|]. repeat split; vm_compute; discriminate.
Qed.
Print Assumptions C80_torn_refuted.
(** All five calls interleaved; the reader of piece 1 begins after the first writer has returned. *)
Example C80_case :
  (exists s, frun toyhash ti2 cjobs (finit disk1) [0;1;2;0;1;4;0;0;3;1;3;4;3;1;4;3]%nat = Some s /\
     f_at s 0%nat = FDone (Ok 2) (mkslice (B "zu") []) /\ f_at s 2%nat = FDone (Err EBadHash) (mkslice (B "no") []) /\
     f_at s 3%nat = FDone (Ok 2) (mkslice (B "zu..") []) /\ f_at s 4%nat = FDone (Ok 1) (mkslice ([x00] ++ B "...") []) /\
     opened (f_world s) ti2 [B "ABz"; [x75; x00]]) /\
  accepted_write toyhash hash2 1 (mkslice (B "zu") []) /\ only_writes toyhash hash2 cjobs 1 (B "zu") /\ nobody_writes toyhash hash2 cjobs 0.
Proof.
  split; [|split; [|split]].
  - eexists. split; [vm_compute; reflexivity|]. repeat (split; [vm_compute; reflexivity|]).
    exists [0%nat; 2%nat]. vm_compute. repeat split; repeat constructor; cbn; intuition (try discriminate).
  - split; [vm_compute; intuition discriminate|vm_compute; reflexivity].
  - intros t d. destruct t as [|[|[|[|t]]]]; cbn; intros H; inversion H; subst; reflexivity.
  - intros t d. destruct t as [|[|[|[|t]]]]; cbn; intros H; inversion H; subst. intros [_ Hx]. vm_compute in Hx. discriminate.
Qed.
