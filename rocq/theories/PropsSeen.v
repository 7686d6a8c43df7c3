(** PropsSeen.v: CreateTorInfo over files that change while it reads them (C109). *)
From Verif Require Import Base PathModel LayoutModel LayoutSpec FsModel FsSpec CreateModel CreateSpec CreateProofs SeenModel SeenSpec SeenProofs.

(** Files that keep still: the same result as in C41. *)
Theorem C109_still : forall sha1 fuel sched w sees paths wd name P,
  Forall2 (fun p s => exists c, file_at w (Join [base_dir paths wd name; p]) = Some c /\ answered s (zlen c) c) paths sees ->
  fst (CreateSeen sha1 fuel sched sees paths wd name P) = CreateTorInfo sha1 fuel sched w paths wd name P.
Proof. exact CreateSeen_still. Qed.
Print Assumptions C109_still.
(** Whatever the sizes said and the bytes delivered: a torrent of those sizes and those hashes, if the hashes are enough for the sizes;
    otherwise an error if they end where a file does, and a crash if not. *)
Theorem C109_exactly : forall sha1 fuel sched sees paths wd name P ns ds, 1 <= P <= maxBuf -> only_data sched -> (forall b, zlen (sha1 b) = 20) ->
  all_answered sees ns ds -> List.length paths = List.length sees -> Forall (fun c : bytes => (List.length c < fuel)%nat) ds ->
  Forall (fun n => 0 <= n) ns -> zsum ns < big -> 20 * pieces_needed P (zlen (List.concat ds)) < big ->
  let got := pieces_needed P (zlen (List.concat ds)) * P in
  (zsum ns <= got -> exists ti, CreateSeen sha1 fuel sched sees paths wd name P = (Ok ti, 0%nat) /\ describes sha1 ti P paths ns (List.concat ds)) /\
  (got < zsum ns -> file_boundary ns got -> exists e, CreateSeen sha1 fuel sched sees paths wd name P = (Err e, 0%nat)) /\
  (got < zsum ns -> ~ file_boundary ns got -> CreateSeen sha1 fuel sched sees paths wd name P = (Panic, 0%nat)).
Proof. exact CreateSeen_exact. Qed.
Print Assumptions C109_exactly.
(** Whatever fails: a torrent is made only if every call succeeded, and it is the one of the sizes said and the bytes delivered. *)
Theorem C109_made : forall sha1 fuel sched sees paths wd name P ti l, 1 <= P <= maxBuf -> (forall b, zlen (sha1 b) = 20) -> List.length sees = List.length paths ->
  CreateSeen sha1 fuel sched sees paths wd name P = (Ok ti, l) ->
  exists ns ds, all_answered sees ns ds /\
    (Forall (fun c : bytes => (List.length c < fuel)%nat) ds -> Forall (fun n => 0 <= n) ns -> zsum ns < big -> 20 * pieces_needed P (zlen (List.concat ds)) < big ->
     describes sha1 ti P paths ns (List.concat ds) /\ zsum ns <= pieces_needed P (zlen (List.concat ds)) * P).
Proof. exact CreateSeen_made. Qed.
Print Assumptions C109_made.
(** The only content of the torrent's length with the torrent's hashes is what was read, unless SHA-1 collides. *)
Theorem C109_fills : forall sha1 fuel sched sees paths wd name P ti l ns ds, 1 <= P <= maxBuf -> (forall b, zlen (sha1 b) = 20) -> List.length sees = List.length paths ->
  all_answered sees ns ds -> Forall (fun c : bytes => (List.length c < fuel)%nat) ds -> Forall (fun n => 0 <= n) ns -> zsum ns < big -> 20 * pieces_needed P (zlen (List.concat ds)) < big ->
  CreateSeen sha1 fuel sched sees paths wd name P = (Ok ti, l) ->
  (zsum ns = zlen (List.concat ds) -> fills sha1 ti (List.concat ds)) /\
  forall c, fills sha1 ti c -> c = List.concat ds \/ exists i, 0 <= i < ti_npieces ti /\ collides sha1 (piece_at P c i) (piece_at P (List.concat ds) i).
Proof. exact made_fills. Qed.
Print Assumptions C109_fills.
(** A failing call after files that were read: Open leaves nothing open, Stat one descriptor, Close nothing. *)
Theorem C109_fails : forall sha1 fuel sched pre p post ks ns ds k more wd name P, 1 <= P <= maxBuf -> only_data sched ->
  all_answered ks ns ds -> List.length pre = List.length ks -> Forall (fun c : bytes => (List.length c < fuel)%nat) ds ->
  CreateSeen sha1 fuel sched (ks ++ None :: more) (pre ++ p :: post) wd name P = (Err EPath, 0%nat) /\
  (sn_size k = None -> CreateSeen sha1 fuel sched (ks ++ Some k :: more) (pre ++ p :: post) wd name P = (Err EIO, 1%nat)) /\
  (forall n, sn_size k = Some n -> (List.length (sn_data k) < fuel)%nat -> sn_close k = false ->
    CreateSeen sha1 fuel sched (ks ++ Some k :: more) (pre ++ p :: post) wd name P = (Err EIO, 0%nat)).
Proof. exact CreateSeen_fails. Qed.
Print Assumptions C109_fails.
(** A failing Read leaves the file open. *)
Theorem C109_read_error : forall sha1 fuel s k more p paths wd name P n, 1 <= P <= maxBuf -> (0 < fuel)%nat -> sn_size k = Some n ->
  CreateSeen sha1 fuel (None :: s) (Some k :: more) (p :: paths) wd name P = (Err EIO, 1%nat).
Proof. exact CreateSeen_read_error. Qed.
Print Assumptions C109_read_error.
(** Never more than one descriptor is left, and none with a torrent. *)
Theorem C109_descriptors : forall sha1 fuel sched sees paths wd name P x l, CreateSeen sha1 fuel sched sees paths wd name P = (x, l) ->
  (l <= 1)%nat /\ (forall ti, x = Ok ti -> l = 0%nat).
Proof. exact CreateSeen_leaks. Qed.
Print Assumptions C109_descriptors.
(** A piece length above 5 MiB reads the first file for ever, empty or not. *)
Theorem C109_large_pieces_diverge : forall sha1 sched k more p paths wd name P n, maxBuf < P <= max64 -> sn_size k = Some n ->
  forall fuel, CreateSeen sha1 fuel sched (Some k :: more) (p :: paths) wd name P = (NoFuel, 1%nat).
Proof. exact CreateSeen_diverges. Qed.
Print Assumptions C109_large_pieces_diverge.
(** A file of one byte that has two when it is read: the torrent made is of no content, unless SHA-1 collides. *)
Theorem C109_grown_refuted : forall sha1, (forall b, zlen (sha1 b) = 20) ->
  exists ti, CreateSeen sha1 5 [] [Some (mkseen (Some 1) (B "ab") true)] [B "f"] (B ".") (B "f") 8 = (Ok ti, 0%nat) /\
    forall c, fills sha1 ti c -> exists a b, collides sha1 a b.
Proof. exact grown_example. Qed.
Print Assumptions C109_grown_refuted.
(** A file of three bytes that has one when it is read: a crash. *)
Theorem C109_shrunk_refuted : exists sha1 sees ns ds, (forall b, zlen (sha1 b) = 20) /\ all_answered sees ns ds /\
  CreateSeen sha1 5 [] sees [B "f"] (B ".") (B "f") 1 = (Panic, 0%nat).
Proof.
  exists (fun _ => repeat x00 20), [Some (mkseen (Some 3) (B "a") true)], [3], [B "a"]. split; [reflexivity|]. split; [constructor; [reflexivity|constructor]|reflexivity].
Qed.
Print Assumptions C109_shrunk_refuted.

(** Hypotheses satisfied: two files, one grown by a byte and one cut by two, read one byte at a time. *)
Definition two_seen : list (option seen) := [Some (mkseen (Some 3) (B "xyzq") true); Some (mkseen (Some 4) (B "uv") true)].
Example C109_case : all_answered two_seen [3; 4] [B "xyzq"; B "uv"] /\ only_data [Some 1; Some 1] /\
  zsum [3; 4] <= pieces_needed 4 (zlen (B "xyzquv")) * 4 /\ pieces_needed 2 (zlen (B "xyzquv")) * 2 < zsum [3; 4] /\ ~ file_boundary [3; 4] 6 /\
  pieces_needed 3 (zlen (B "xyz")) * 3 < zsum [3; 4] /\ file_boundary [3; 4] 3.
Proof.
  split; [repeat (constructor; [reflexivity|]); constructor|]. split; [repeat constructor; discriminate|]. split; [discriminate|]. split; [reflexivity|]. split.
  - intros (k & Hk & E). destruct k as [|[|[|k]]]; cbn in E; try discriminate.
  - split; [reflexivity|]. exists 1%nat. split; [cbn; lia|reflexivity].
Qed.
Example C109_case_run : exists ti, CreateSeen (fun _ => repeat x00 20) 9 [Some 1; Some 1] two_seen [B "a"; B "b"] (B ".") (B "t") 4 = (Ok ti, 0%nat) /\
  ti_length ti = 7 /\ ti_npieces ti = 2.
Proof. eexists. split; [vm_compute; reflexivity|]. split; reflexivity. Qed.
