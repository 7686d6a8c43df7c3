(** PropsHostile.v: torrents with impossible numbers (C104). *)
From Coq Require Import ZifyBool ZifyNat ZifyN.
From Verif Require Import Base BencodeModel LenientSpec LenientProofs BitfieldModel PathModel PathSpec LayoutModel LayoutSpec PptModel PeerModel UtilsModel UtilsSpec FsModel FsSpec SwarmModel TrackerModel StartModel StartSpec
  PrintSpec LoadSpec HostileSpec HostileProofs HostileStart.

(** One file, numbers of any sign: when it loads, when it crashes; otherwise it is refused. *)
Theorem C104_one_file : forall sha1 data sp wd announce info name P hashes p L,
  header data announce info name P hashes -> lists_files info name [(p, L)] -> whole_hashes hashes -> - big < P < big -> - big < L < big ->
  (one_loads P L (zlen hashes / 20) -> exists tor, FromTorrentFile sha1 (mkslice data sp) wd = Ok tor) /\
  (one_crashes P L (zlen hashes / 20) -> FromTorrentFile sha1 (mkslice data sp) wd = Panic) /\
  (~ one_loads P L (zlen hashes / 20) -> ~ one_crashes P L (zlen hashes / 20) -> exists e, FromTorrentFile sha1 (mkslice data sp) wd = Err e).
Proof. exact one_described. Qed.
Print Assumptions C104_one_file.

(** Whatever the torrent file, the disk, the failures and the tracker: a swarm that starts has no number below zero. *)
Theorem C104_started : forall sha1 n src fuel sp o w s w', NewSwarm sha1 n src fuel sp o w = (Ok s, w') ->
  0 <= ti_plen (t_info (sw_tor s)) /\ Forall (fun e => 0 <= en_len e) (ti_files (t_info (sw_tor s))).
Proof. exact started_nonneg. Qed.
Print Assumptions C104_started.

(** A piece length below zero crashes the program after the files were made. *)
Theorem C104_crash : forall sha1 n src fuel sp o w id c tor, NewPeerId src fuel = Ok id -> fs_wf w -> no_faults w -> file_at w (o_input o) = Some c ->
  FromTorrentFile sha1 (mkslice c sp) (o_wd o) = Ok tor -> ti_plen (t_info tor) < 0 -> NoDup (places w (map en_base (ti_files (t_info tor)))) ->
  Forall (fun e => 0 <= en_len e) (ti_files (t_info tor)) ->
  exists w' contents, NewSwarm sha1 n src fuel sp o w = (Panic, w') /\
    Forall2 (fun e c => file_at w' (eb_local (en_base e)) = Some c /\ resized (old_at w (eb_local (en_base e))) (en_len e) c) (ti_files (t_info tor)) contents.
Proof. exact below_zero_top. Qed.
Print Assumptions C104_crash.

(** A torrent file of one file with these numbers, and n hashes. *)
Definition numbers (P L : bytes) (n : nat) : bytes :=
  B "d8:announce1:x4:infod6:lengthi" ++ L ++ B "e4:name1:a12:piece lengthi" ++ P ++ B "e6:pieces" ++ itoa (20 * Z.of_nat n) ++ B ":" ++ repeat "a"%byte (20 * n) ++ B "ee".
(** The total wraps: two files of 2^63-1 bytes, four pieces of 2^62, load with a total length of -2. *)
Definition huge : bytes :=
  B "d8:announce1:x4:infod5:filesld6:lengthi9223372036854775807e4:pathl1:beed6:lengthi9223372036854775807e4:pathl1:ceee4:name1:a12:piece lengthi4611686018427387904e6:pieces80:" ++ repeat "a"%byte 80 ++ B "ee".
Theorem C104_total_wraps_refuted : exists tor, FromTorrentFile (fun b => b) (mkslice huge []) (B "dl") = Ok tor /\ Forall (fun e => en_len e = 9223372036854775807) (ti_files (t_info tor)) /\ ti_length (t_info tor) = -2.
Proof. eexists. split; [vm_compute; reflexivity|]. split; [repeat constructor|reflexivity]. Qed.
Print Assumptions C104_total_wraps_refuted.

(** Hypotheses satisfied, each way of loading and of crashing, and one that is refused; and a start that crashes, its file made. *)
Lemma numbers_header : forall x y n P L, In (x, y, n, P, L) [(B "8", B "-5", 1%nat, 8, -5); (B "-8", B "5", 1%nat, -8, 5); (B "-8", B "-5", 1%nat, -8, -5); (B "-2", B "0", 0%nat, -2, 0); (B "-3", B "-5", 2%nat, -3, -5); (B "8", B "-8", 1%nat, 8, -8)] ->
  exists info, header (numbers x y n) (B "x") info (B "a") P (repeat "a"%byte (20 * n)) /\ lists_files info (B "a") [(B "a", L)].
Proof.
  intros x y n P L [X|[X|[X|[X|[X|[X|[]]]]]]]; injection X as <- <- <- <- <-.
  all: match goal with |- context [header ?d] => destruct (Decode_reads (mkslice d []) _ ltac:(vm_compute; reflexivity)) as [(t & junk & Hl & E)|(ds & s1 & s2 & s3 & _ & _ & _ & _ & _ & _ & X)] end; [|discriminate].
  all: eexists; split; [eexists; exists t, junk; split; [exact E|]; split; [exact Hl|]; repeat (split; [cbn; tauto|]); cbn; tauto|].
  all: left; eexists; split; [cbn; tauto|reflexivity].
Qed.
Definition okb {A} (r : res A) : Z := match r with Ok _ => 0 | Err _ => 1 | Panic => 2 | NoFuel => 3 end.
Example C104_case :
  map (fun x => okb (FromTorrentFile (fun b => b) (mkslice x []) (B "dl"))) [numbers (B "8") (B "-5") 1; numbers (B "-8") (B "5") 1; numbers (B "-8") (B "-5") 1; numbers (B "-2") (B "0") 0; numbers (B "-3") (B "-5") 2; numbers (B "8") (B "-8") 1] = [0; 0; 0; 0; 2; 1] /\
  one_loads 8 (-5) 1 /\ one_loads (-8) 5 1 /\ one_loads (-8) (-5) 1 /\ one_loads (-2) 0 0 /\ one_crashes (-3) (-5) 2 /\ ~ one_loads 8 (-8) 1 /\ ~ one_crashes 8 (-8) 1.
Proof. split; [vm_compute; reflexivity|]. unfold one_loads, one_crashes. lia. Qed.
Definition disk_neg : world := mkw [B "h"] [([B "h"; B "t.torrent"], 0%nat)] [numbers (B "-8") (B "5") 1] [] [].
Definition opts_neg : Opts := mkopts (B "t.torrent") (B "dl") 6881 (B "swarm") (B "0") (B "0") 0 0.
Example C104_crash_case : exists tor id, NewPeerId (fun _ => 0) 50 = Ok id /\ fs_wf disk_neg /\ no_faults disk_neg /\ file_at disk_neg (B "t.torrent") = Some (numbers (B "-8") (B "5") 1) /\
  FromTorrentFile (fun b => b) (mkslice (numbers (B "-8") (B "5") 1) []) (B "dl") = Ok tor /\ ti_plen (t_info tor) = -8 /\ NoDup (places disk_neg (map en_base (ti_files (t_info tor)))) /\
  exists w', NewSwarm (fun b => b) (mknet (fun _ => None) (fun _ _ => None) (fun _ => [])) (fun _ => 0) 50 [] opts_neg disk_neg = (Panic, w') /\ file_at w' (B "dl/a") = Some (zeros 5).
Proof.
  eexists _, _. split; [vm_compute; reflexivity|]. split. { split; [repeat constructor; intros []|]. split; [repeat constructor; intros []|]. repeat constructor. }
  split; [reflexivity|]. split; [reflexivity|]. split; [vm_compute; reflexivity|]. split; [reflexivity|]. split; [repeat constructor; intros []|].
  eexists. split; [vm_compute; reflexivity|]. vm_compute. reflexivity.
Qed.
