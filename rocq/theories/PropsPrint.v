(** PropsPrint.v: what the program prints (C94). *)
From Verif Require Import Base BencodeModel BencodeSpec WireModel PeerModel UtilsModel LayoutModel FsModel FsSpec TrackerModel StartModel PrintModel PrintSpec PrintProofs.

(* ------------------------------------------------------------------ *)
(** * C94 Reports *)
(** The report on any torrent that loads never panics and, when nothing it quotes has a newline, its lines tell the torrent. *)
Theorem C94_report : forall g sha1 fdata wd tor, clean_floats g -> FromTorrentFile sha1 fdata wd = Ok tor ->
  exists text, tor_String g tor = Ok text /\ (printable tor -> reads_as tor (lines text)).
Proof. intros g sha1 fdata wd tor Hg H. exact (report_reads g tor Hg (loaded_int64 _ _ _ _ H)). Qed.
Print Assumptions C94_report.
(** Two torrents with the same report agree on everything it tells. *)
Theorem C94_distinct : forall g tor tor' text, clean_floats g -> int64_torrent tor -> int64_torrent tor' -> printable tor -> printable tor' -> tor_String g tor = Ok text -> tor_String g tor' = Ok text ->
  ti_name (t_info tor) = ti_name (t_info tor') /\ t_announce tor = t_announce tor' /\ t_infohash tor = t_infohash tor' /\ ti_npieces (t_info tor) = ti_npieces (t_info tor') /\
  ti_length (t_info tor) = ti_length (t_info tor') /\ ti_single (t_info tor) = ti_single (t_info tor') /\ (ti_single (t_info tor) = false -> paths_of tor = paths_of tor').
Proof. exact reports_differ. Qed.
Print Assumptions C94_distinct.
(** A name with a newline can put a line with any infohash before the right one. *)
Theorem C94_forged_refuted : exists c, forall g sha1, (forall s, sha1 s <> repeat x00 20) -> exists tor text, FromTorrentFile sha1 (mkslice c []) (B "/d") = Ok tor /\ tor_String g tor = Ok text /\
  exists h, first_after (B " Infohash: [") (lines text) = Some (h ++ B "]") /\ read_hex h = Some (repeat x00 20) /\ t_infohash tor <> repeat x00 20.
Proof. exact forged_shown. Qed.
Print Assumptions C94_forged_refuted.
(** With wrong options the program prints nothing on standard output and panics. *)
Theorem C94_silent : forall g uni sha1 n src fuel sp o w,
  (UtilsModel.o_input o = [] \/ (o_cmd o <> B "swarm" /\ o_cmd o <> B "info") \/ (forall u, parseSizeUnits uni (o_upstr o) <> Ok u) \/ (forall d, parseSizeUnits uni (o_dnstr o) <> Ok d)) ->
  main_shown g uni sha1 n src fuel sp o w = ([], Crash, w).
Proof. exact main_silent. Qed.
Print Assumptions C94_silent.
(** Otherwise it prints the two limits, then the report and DONE if it exits with status 0, the swarm's report if it goes on
    running, and nothing else if it fails; its fate and the disk are those of main. *)
Theorem C94_main : forall g uni sha1 n src fuel sp o w u d, clean_floats g -> fs_wf w ->
  UtilsModel.o_input o <> [] -> o_cmd o = B "swarm" \/ o_cmd o = B "info" -> parseSizeUnits uni (o_upstr o) = Ok u -> parseSizeUnits uni (o_dnstr o) = Ok d ->
  exists rest f w', main uni sha1 n src fuel sp o w = (f, w') /\ main_shown g uni sha1 n src fuel sp o w = (itoa u ++ nl ++ itoa d ++ nl ++ rest, f, w') /\ told g sha1 sp o w f rest.
Proof. exact main_prints. Qed.
Print Assumptions C94_main.
(** The report on a tracker's state tells all of it, and is self-delimiting. *)
Theorem C94_state : forall s s' r r', quiet s -> quiet s' -> state_String s ++ r = state_String s' ++ r' -> s = s' /\ r = r'.
Proof. exact state_inj. Qed.
Print Assumptions C94_state.
(** The report on a list of peers tells exactly their addresses and ports. *)
Theorem C94_peers : forall l l', list_String l = list_String l' <-> addresses l = addresses l'.
Proof. exact list_inj. Qed.
Print Assumptions C94_peers.
(** Five to a line. *)
Theorem C94_five : forall gs last, Forall (fun g : list info => List.length g = 5%nat) gs -> (0 < List.length last <= 5)%nat ->
  list_String (List.concat gs ++ last) = B "Peer List (" ++ BencodeModel.itoa (zlen (List.concat gs ++ last)) ++ B "):" ++ List.concat (map peer_line (gs ++ [last])).
Proof. exact list_lines. Qed.
Print Assumptions C94_five.
Theorem C94_response : forall r r', quiet (r_state r) -> quiet (r_state r') ->
  (response_String r = response_String r' <-> r_state r = r_state r' /\ addresses (r_peers r) = addresses (r_peers r')).
Proof. exact response_inj. Qed.
Print Assumptions C94_response.
(** The text of a message tells all of it, except that all bitfield messages have the same text. *)
Theorem C94_message : forall m m', msg_String m = msg_String m' <-> m = m' \/ (exists b, m = MBitfield b) /\ (exists b, m' = MBitfield b).
Proof. exact msg_inj. Qed.
Print Assumptions C94_message.

(** Concrete cases. *)
Definition whole (n d : Z) : bytes := itoa (n / d).
Example whole_clean : clean_floats whole.
Proof. intros n d. split; apply PeerProofs.itoa_no; try discriminate; cbn; Lia.lia. Qed.
Definition two_files : bytes := B "d8:announce3:u/a4:infod5:filesld6:lengthi1536e4:pathl1:a1:beed6:lengthi2e4:pathl1:ceee4:name1:t12:piece lengthi2048e6:pieces20:aaaaaaaaaaaaaaaaaaaaee".
Definition hash20 (_ : bytes) : bytes := repeat xab 20.
Definition two_tor : torrent := match FromTorrentFile hash20 (mkslice two_files []) (B "/d") with Ok t => t | _ => mktor [] [] (mkti [] 0 [] 0 0 [] true [] 0) end.
Example two_loads : FromTorrentFile hash20 (mkslice two_files []) (B "/d") = Ok two_tor.
Proof. vm_compute. reflexivity. Qed.
Example two_printable : printable two_tor.
Proof. split; [apply plain_ok; reflexivity|]. split; [apply plain_ok; reflexivity|]. intros _. repeat constructor; apply plain_ok; reflexivity. Qed.
Example two_report : tor_String whole two_tor = Ok (B "Torrent Info:
     Name: [t]
 Announce: [u/a]
 Infohash: [abababababababababababababababababababab]
   Pieces: [1 x 2 KiB]
   Length: [1.50 KiB]
   Length: [1538 b]
Files:
    1KiB : a/b
      2B : c
").
Proof. vm_compute. reflexivity. Qed.
Example state_text : state_String (mkts 1800 60 (B "w") (B "id") 1 2) = B "Tracker State:
     Seeders: [1]
    Leechers: [2]
    Interval: [1800]
     Warning: [w]
  Tracker ID: [id]
Min Interval: [60]
".
Proof. vm_compute. reflexivity. Qed.
Example peers_text : list_String [MakePeer [] [x01; x02; x03; x04] 80; MakePeer [] [x7f; x00; x00; x01] 6881] = B "Peer List (2):
" ++ [x09] ++ B "(1.2.3.4:80) (127.0.0.1:6881) ".
Proof. vm_compute. reflexivity. Qed.
Example piece_text : msg_String (MPiece 1 0 [x01; xff]) = B "Message: Piece
Index: 1
Begin: 0
Block: [1 255]".
Proof. vm_compute. reflexivity. Qed.
(** The program asked about that file prints the report and DONE. *)
Definition print_opts : Opts := mkopts (B "x.torrent") (B "/d") 0 (B "info") (B "0") (B "7") 0 0.
Definition print_disk : world := FsModel.mkw [B "h"] [([B "h"; B "x.torrent"], 0%nat)] [two_files] [] [].
Example print_case : fs_wf print_disk /\ exists report, tor_String whole two_tor = Ok report /\
  main_shown whole (fun b => b) hash20 (mknet (fun _ => None) (fun _ _ => None) (fun _ => [])) (fun _ => 0) 0 [] print_opts print_disk = (B "0
7
" ++ report ++ B "


DONE
", Exit 0, print_disk).
Proof. split; [repeat constructor; cbn; intuition discriminate|]. eexists. split; vm_compute; reflexivity. Qed.
