(** PropsSwarm.v: validating and serving files, creating torrents (C39-C42, C61). *)
From Coq Require Import ZifyBool ZifyNat ZifyN.
From Verif Require Import Base BitfieldModel BitfieldSpec WireModel WireSpec PathModel PathSpec LayoutModel LayoutSpec LayoutProofs PieceMapProofs FsModel FsSpec FsProofs OcatProofs
  SwarmModel SwarmProofs CreateModel CreateSpec CreateProofs CreateNegProofs PropsFs.

(** C39 *)
Theorem C39_Validate : forall sha1 P hashes files ti w contents ops, made P hashes files ti -> opened w ti contents -> no_faults w ->
  vvalid_all (zero_vec (zlen hashes / 20)) ops -> vn (vrun (zero_vec (zlen hashes / 20)) ops) = zlen hashes / 20 ->
  exists bf bf', (do b0 <- NewBitfield (zlen hashes / 20); brun b0 ops) = Ok bf /\ Validate sha1 ti bf w = (Ok bf', w) /\ Nbits bf' = zlen hashes / 20 /\
    (forall i, 0 <= i < zlen hashes / 20 -> exists b, Get bf' i = Ok b /\ (b = true <-> sha1 (piece_bytes P contents i) = hash_at hashes i)) /\
    (Complete bf' = true <-> forall i, 0 <= i < zlen hashes / 20 -> sha1 (piece_bytes P contents i) = hash_at hashes i).
Proof. exact Validate_top. Qed.
Print Assumptions C39_Validate.
(** Also when reads fail: an error, or every bit right. *)
Theorem C39_faults : forall sha1 P hashes files ti w inos contents ops, made P hashes files ti -> opened_at inos w ti contents ->
  vvalid_all (zero_vec (zlen hashes / 20)) ops -> vn (vrun (zero_vec (zlen hashes / 20)) ops) = zlen hashes / 20 ->
  exists bf r w', (do b0 <- NewBitfield (zlen hashes / 20); brun b0 ops) = Ok bf /\ Validate sha1 ti bf w = (r, w') /\ disk_same w w' /\
    ((exists bf', r = Ok bf' /\ Nbits bf' = zlen hashes / 20 /\
       (forall i, 0 <= i < zlen hashes / 20 -> exists b, Get bf' i = Ok b /\ (b = true <-> sha1 (piece_bytes P contents i) = hash_at hashes i)) /\
       (Complete bf' = true <-> forall i, 0 <= i < zlen hashes / 20 -> sha1 (piece_bytes P contents i) = hash_at hashes i)) \/
     ((exists e, r = Err e) /\ ~ no_faults w)).
Proof. exact Validate_faults. Qed.
Print Assumptions C39_faults.
Theorem C39_open_and_validate : forall sha1 P hashes files ti w, made P hashes files ti -> fs_wf w -> no_faults w ->
  NoDup (map (fun f => place (w_cwd w) (eb_local f)) files) ->
  exists bf contents w', open_and_validate sha1 ti w = (Ok bf, w') /\ opened w' ti contents /\
    elsewhere_same (map (fun f => place (w_cwd w) (eb_local f)) files) w w' /\
    Forall2 (fun f c => resized (old_at w (eb_local f)) (eb_len f) c /\ file_at w' (eb_local f) = Some c) files contents /\
    (forall i, 0 <= i < zlen hashes / 20 -> exists b, Get bf i = Ok b /\ (b = true <-> sha1 (piece_bytes P contents i) = hash_at hashes i)).
Proof. exact open_and_validate_top. Qed.
Print Assumptions C39_open_and_validate.
(** Pieces 0 and 2 are on disk, piece 1 is not. *)
Definition disk_part : world := mkw [B "h"] [([B "h"; B "d"; B "a"], 0%nat); ([B "h"; B "d"; B "b"], 1%nat)] [B "xyQ"; B "Qv"] [] [].
Definition bf_part : bitfield := match open_and_validate toyhash ti2 disk_part with (Ok bf, _) => bf | _ => mkbf [] [] 0 0 0 end.
Definition open_part : world := snd (open_and_validate toyhash ti2 disk_part).
Example C39_case : made 2 hash2 two ti2 /\ fst (open_and_validate toyhash ti2 disk_part) = Ok bf_part /\
  map (Get bf_part) [0; 1; 2] = [Ok true; Ok false; Ok true] /\ Complete bf_part = false.
Proof. split; [exact two_made|]. vm_compute. auto. Qed.

(** C40 *)
Theorem C40_served : forall P hashes files ti bf idx b l buf w contents, made P hashes files ti -> opened w ti contents -> no_faults w ->
  0 <= idx < zlen hashes / 20 -> (Complete bf = true \/ Get bf idx = Ok true) -> zlen (vis buf) = P -> spare buf = [] ->
  0 <= b -> 0 <= l -> b + l < 4294967296 -> b + l <= psize P (zsum (lens_of files)) idx ->
  exists buf', zlen (vis buf') = P /\ spare buf' = [] /\
  handleRequest ti bf idx b l buf w =
    (Ok [EncodeMsg (MPiece idx b (range (List.concat contents) (idx * P + b) (idx * P + b + l)))], buf', w).
Proof. exact handle_in_piece. Qed.
Print Assumptions C40_served.
Theorem C40_not_had : forall ti bf idx b l buf w, Complete bf = false -> Get bf idx = Ok false -> handleRequest ti bf idx b l buf w = (Ok [], buf, w).
Proof. exact handle_refuses. Qed.
Print Assumptions C40_not_had.
Theorem C40_panics_iff_past_piece_length : forall P hashes files ti bf idx b l buf w contents, made P hashes files ti -> opened w ti contents -> no_faults w ->
  0 <= idx < zlen hashes / 20 -> (Complete bf = true \/ Get bf idx = Ok true) -> zlen (vis buf) = P -> spare buf = [] -> P < 4294967296 ->
  0 <= b < 4294967296 -> 0 <= l < 4294967296 ->
  exists r buf', handleRequest ti bf idx b l buf w = (r, buf', w) /\ (r = Panic <-> P < b + l) /\ zlen (vis buf') = P /\ spare buf' = [].
Proof. exact handle_panics_iff. Qed.
Print Assumptions C40_panics_iff_past_piece_length.
(** Past the end of a short piece the previous content of the handler's buffer goes out. *)
Theorem C40_stale_tail : forall P hashes files ti bf idx b l buf w contents, made P hashes files ti -> opened w ti contents -> no_faults w ->
  0 <= idx < zlen hashes / 20 -> (Complete bf = true \/ Get bf idx = Ok true) -> zlen (vis buf) = P -> spare buf = [] ->
  0 <= b -> 0 <= l -> b + l < 4294967296 -> b + l <= P ->
  exists buf', handleRequest ti bf idx b l buf w =
    (Ok [EncodeMsg (MPiece idx b (range (piece_bytes P contents idx ++ skipn (List.length (piece_bytes P contents idx)) (vis buf)) b (b + l)))], buf', w).
Proof. exact handle_stale. Qed.
Print Assumptions C40_stale_tail.
Theorem C40_bad_index : forall P hashes files ti bf idx b l buf w, made P hashes files ti -> 0 <= idx -> zlen hashes / 20 <= idx ->
  (Complete bf = true -> handleRequest ti bf idx b l buf w = (Err EBounds, buf, w)) /\
  (Complete bf = false -> 8 * zlen (Data bf) <= idx -> handleRequest ti bf idx b l buf w = (Panic, buf, w)).
Proof. exact handle_bad_index. Qed.
Print Assumptions C40_bad_index.
(** Two requests in a row: piece 0, then two bytes from the one-byte piece 2. The second answer carries a byte of piece 0. *)
Theorem C40_stale_refuted : exists ti bf w buf0 buf1 blk, made 2 hash2 two ti /\ opened w ti [B "xyQ"; B "Qv"] /\
  handleRequest ti bf 0 0 2 buf0 w = (Ok [EncodeMsg (MPiece 0 0 (B "xy"))], buf1, w) /\
  fst (fst (handleRequest ti bf 2 0 2 buf1 w)) = Ok [EncodeMsg (MPiece 2 0 blk)] /\ blk = B "vy".
Proof.
  exists ti2, bf_part, open_part, (mkslice (repeat x00 2) []), (mkslice (B "xy") []), (B "vy").
  split; [exact two_made|]. split; [exists [0%nat; 1%nat]; vm_compute; repeat split; repeat constructor; cbn; intuition (try discriminate)|]. vm_compute. auto.
Qed.
Print Assumptions C40_stale_refuted.
Example C40_case : made 2 hash2 two ti2 /\ Get bf_part 2 = Ok true /\ Get bf_part 1 = Ok false /\ 8 * zlen (Data bf_part) <= 8 /\
  fst (fst (handleRequest ti2 bf_part 0 1 1 (mkslice (repeat x00 2) []) open_part)) = Ok [wire_of (MPiece 0 1 (B "y"))].
Proof. split; [exact two_made|]. vm_compute. repeat split; discriminate. Qed.

(** C61 *)
Theorem C61_SegmentData : forall d P, 1 <= P <= max64 -> slen d <= max64 -> exists ps, SegmentData d P = Ok ps /\
  List.concat ps = vis d /\ zlen ps = pieces_needed P (slen d) /\
  (forall i p, nth_error ps i = Some p -> 1 <= zlen p <= P /\ (Z.of_nat i + 1 < zlen ps -> zlen p = P)).
Proof. exact SegmentData_top. Qed.
Print Assumptions C61_SegmentData.
Theorem C61_positions : forall d P i, 1 <= P <= max64 -> slen d <= max64 -> 0 <= i < pieces_needed P (slen d) -> exists ps, SegmentData d P = Ok ps /\
  nth_error ps (Z.to_nat i) = Some (range (vis d) (i * P) (Z.min ((i + 1) * P) (slen d))).
Proof. exact SegmentData_positions. Qed.
Print Assumptions C61_positions.
Theorem C61_bad_size_panics : forall d P, min64 <= P <= 0 -> (P = 0 \/ vis d <> []) -> SegmentData d P = Panic.
Proof. exact SegmentData_bad. Qed.
Print Assumptions C61_bad_size_panics.
Theorem C61_HashSlices : forall sha1 ps, (forall b, zlen (sha1 b) = 20) -> zlen (HashSlices sha1 ps) = 20 * zlen ps /\
  forall i p, nth_error ps i = Some p -> hash_at (HashSlices sha1 ps) (Z.of_nat i) = sha1 p.
Proof. intros sha1 ps H. exact (conj (HashSlices_len sha1 ps H) (HashSlices_nth sha1 ps H)). Qed.
Print Assumptions C61_HashSlices.
Example C61_case : SegmentData (mkslice (B "abcdefg") (B "h")) 3 = Ok [B "abc"; B "def"; B "g"].
Proof. reflexivity. Qed.

(** C41 *)
Theorem C41_hashes : forall sha1 fuel sched w paths wd name P cs, 1 <= P <= maxBuf -> only_data sched -> (forall b, zlen (sha1 b) = 20) ->
  Forall2 (fun p c => file_at w (Join [base_dir paths wd name; p]) = Some c) paths cs -> Forall (fun c : bytes => (List.length c < fuel)%nat) cs ->
  let T := zlen (List.concat cs) in 20 * pieces_needed P T < big -> T < big ->
  exists ti, CreateTorInfo sha1 fuel sched w paths wd name P = Ok ti /\
    ti_npieces ti = pieces_needed P T /\ ti_plen ti = P /\ ti_length ti = T /\
    zlen (ti_hashes ti) = 20 * pieces_needed P T /\
    (forall i, 0 <= i < pieces_needed P T -> hash_at (ti_hashes ti) i = sha1 (range (List.concat cs) (i * P) (Z.min ((i + 1) * P) T))) /\
    map (fun e => eb_len (en_base e)) (ti_files ti) = map zlen cs /\ map (fun e => eb_tor (en_base e)) (ti_files ti) = paths.
Proof. exact CreateTorInfo_top. Qed.
Print Assumptions C41_hashes.
Theorem C41_large_pieces_diverge : forall sha1 sched w p paths wd name P c, maxBuf < P <= max64 -> file_at w (Join [base_dir (p :: paths) wd name; p]) = Some c ->
  forall fuel, CreateTorInfo sha1 fuel sched w (p :: paths) wd name P = NoFuel.
Proof. exact CreateTorInfo_diverges. Qed.
Print Assumptions C41_large_pieces_diverge.
Theorem C41_zero_piece_length_panics : forall sha1 fuel sched w paths wd name, CreateTorInfo sha1 fuel sched w paths wd name 0 = Panic.
Proof. reflexivity. Qed.
Print Assumptions C41_zero_piece_length_panics.
(** A negative one panics if there is a byte to hash, makes a torrent of nothing otherwise; beyond -5 MiB it loops like a large one. *)
Theorem C41_negative_piece_length : forall sha1 fuel sched w paths wd name P cs, - maxBuf <= P < 0 -> only_data sched ->
  Forall2 (fun p c => file_at w (Join [base_dir paths wd name; p]) = Some c) paths cs -> Forall (fun c : bytes => (List.length c < fuel)%nat) cs ->
  (List.concat cs <> [] -> CreateTorInfo sha1 fuel sched w paths wd name P = Panic) /\
  (List.concat cs = [] -> exists ti, CreateTorInfo sha1 fuel sched w paths wd name P = Ok ti /\ ti_plen ti = P /\ ti_npieces ti = 0 /\ ti_length ti = 0).
Proof. exact Create_negative. Qed.
Print Assumptions C41_negative_piece_length.
Theorem C41_far_below_zero_diverges : forall sha1 sched w p paths wd name P c, min64 <= P < - maxBuf -> file_at w (Join [base_dir (p :: paths) wd name; p]) = Some c ->
  forall fuel, CreateTorInfo sha1 fuel sched w (p :: paths) wd name P = NoFuel.
Proof. exact Create_far. Qed.
Print Assumptions C41_far_below_zero_diverges.
(** Whatever the reads do, errors included: a result, if there is one, is the right one. *)
Theorem C41_any_reads : forall sha1 fuel sched w paths wd name P cs, 1 <= P <= maxBuf -> (forall b, zlen (sha1 b) = 20) ->
  Forall2 (fun p c => file_at w (Join [base_dir paths wd name; p]) = Some c) paths cs -> Forall (fun c : bytes => (List.length c < fuel)%nat) cs ->
  let T := zlen (List.concat cs) in 20 * pieces_needed P T < big -> T < big ->
  forall ti, CreateTorInfo sha1 fuel sched w paths wd name P = Ok ti ->
    ti_npieces ti = pieces_needed P T /\ ti_plen ti = P /\ ti_length ti = T /\
    zlen (ti_hashes ti) = 20 * pieces_needed P T /\
    (forall i, 0 <= i < pieces_needed P T -> hash_at (ti_hashes ti) i = sha1 (range (List.concat cs) (i * P) (Z.min ((i + 1) * P) T))) /\
    map (fun e => eb_len (en_base e)) (ti_files ti) = map zlen cs /\ map (fun e => eb_tor (en_base e)) (ti_files ti) = paths.
Proof. exact CreateTorInfo_any. Qed.
Print Assumptions C41_any_reads.
(** A file that is not there, or a first read that fails: no torrent. *)
Theorem C41_missing : forall sha1 fuel sched w paths wd name P p, In p paths -> file_at w (Join [base_dir paths wd name; p]) = None ->
  forall ti, CreateTorInfo sha1 fuel sched w paths wd name P <> Ok ti.
Proof. exact CreateTorInfo_missing. Qed.
Print Assumptions C41_missing.
Theorem C41_read_error : forall sha1 fuel sched w p paths wd name P c, 1 <= P <= maxBuf -> (0 < fuel)%nat -> file_at w (Join [base_dir (p :: paths) wd name; p]) = Some c ->
  CreateTorInfo sha1 fuel (None :: sched) w (p :: paths) wd name P = Err EIO.
Proof. exact CreateTorInfo_ioerr. Qed.
Print Assumptions C41_read_error.
(** One-byte reads of two files. *)
Definition disk_src : world := mkw [B "h"] [([B "h"; B "t"; B "a"], 0%nat); ([B "h"; B "t"; B "b"], 1%nat)] [B "xyz"; B "uv"] [] [].
Example C41_case : Forall2 (fun p c => file_at disk_src (Join [base_dir [B "a"; B "b"] (B ".") (B "t"); p]) = Some c) [B "a"; B "b"] [B "xyz"; B "uv"] /\
  only_data [Some 1; Some 1; Some 1; Some 1] /\ pieces_of 2 (B "xyzuv") = [B "xy"; B "zu"; B "v"].
Proof. split; [repeat constructor|]. split; [repeat constructor; discriminate|reflexivity]. Qed.
Example C41_negative_case : CreateTorInfo (fun _ => repeat x00 20) 9 [Some 1] disk_src [B "a"; B "b"] (B ".") (B "t") (-2) = Panic /\ exists ti, CreateTorInfo (fun _ => repeat x00 20) 9 [] disk_src [] (B ".") (B "t") (-2) = Ok ti.
Proof. split; [vm_compute; reflexivity|]. eexists. vm_compute. reflexivity. Qed.
Example C41_errors : CreateTorInfo (fun _ => repeat x00 20) 9 [Some 1; None; Some 7] disk_src [B "a"; B "b"] (B ".") (B "t") 2 = Err EIO /\
  file_at disk_src (Join [base_dir [B "a"; B "c"] (B ".") (B "t"); B "c"]) = None /\ CreateTorInfo (fun _ => repeat x00 20) 9 [] disk_src [B "a"; B "c"] (B ".") (B "t") 2 = Err EPath /\
  exists ti, CreateTorInfo (fun _ => repeat x00 20) 9 [Some 1; Some 2; Some 0; Some 1; Some 1; Some 1; None] disk_src [B "a"; B "b"] (B ".") (B "t") 2 = Ok ti.
Proof. split; [vm_compute; reflexivity|]. split; [vm_compute; reflexivity|]. split; [vm_compute; reflexivity|]. eexists. vm_compute. reflexivity. Qed.

(** C42 *)
Theorem C42_create_then_validate : forall sha1 fuel sched w paths wd name P cs, 1 <= P <= maxBuf -> only_data sched -> (forall b, zlen (sha1 b) = 20) ->
  Forall2 (fun p c => file_at w (Join [base_dir paths wd name; p]) = Some c) paths cs -> Forall (fun c : bytes => (List.length c < fuel)%nat) cs ->
  20 * pieces_needed P (zlen (List.concat cs)) < big -> zlen (List.concat cs) < big -> fs_wf w -> no_faults w ->
  NoDup (map (fun p => place (w_cwd w) (Join [base_dir paths wd name; p])) paths) ->
  exists ti bf w', CreateTorInfo sha1 fuel sched w paths wd name P = Ok ti /\ open_and_validate sha1 ti w = (Ok bf, w') /\ Complete bf = true /\
    Nbits bf = pieces_needed P (zlen (List.concat cs)) /\ (forall q, file_at w' q = file_at w q).
Proof. exact create_validate. Qed.
Print Assumptions C42_create_then_validate.
Example C42_case : fs_wf disk_src /\ no_faults disk_src /\
  NoDup (map (fun p => place (w_cwd disk_src) (Join [base_dir [B "a"; B "b"] (B ".") (B "t"); p])) [B "a"; B "b"]).
Proof.
  split; [repeat split; cbn; repeat constructor; cbn; intuition (try discriminate; try lia)|]. split; [reflexivity|].
  vm_compute. repeat constructor; cbn; intuition discriminate.
Qed.
