(** PropsWhole.v: from the command line to the wire (C102). *)
From Coq Require Import ZifyBool ZifyNat ZifyN.
From Verif Require Import Base TrackerModel BencodeModel LenientSpec LenientProofs BitfieldModel WireModel WireSpec HandshakeModel HandshakeSpec PptModel PeerModel UtilsModel LayoutModel LayoutSpec InfoSpec InfoProofs LoadSpec FlagModel FlagSpec FlagProofs.
From Verif Require Import PathModel PathSpec FsModel FsSpec StartModel StartSpec SessionModel SessionSpec RunModel RunSpec ProcModel ProcSpec WholeSpec WholeProofs PropsInfo PropsStart.

(** Whatever system calls fail, whatever the tracker answers: once the program runs, its files have the sizes the torrent says, its bitfield
    says which pieces are right, and in every state it comes to - whatever its peers send, however its goroutines are scheduled - the files
    are unchanged, and what a peer was sent begins with the greeting and goes on with keep-alives and with blocks of right pieces. *)
Theorem C102_served : forall uni sha1 n src fuel sp args o w data announce ih name P hashes fs qs sw gl w1,
  (forall b, List.length (sha1 b) = 20%nat) -> commanded args o -> fs_wf w -> file_at w (o_input o) = Some data -> describes sha1 data (o_wd o) announce ih name P hashes fs qs -> ordinary P hashes fs ->
  NoDup (map (PathSpec.place (w_cwd w)) qs) -> gotor uni sha1 n src fuel sp args w = (Running sw gl, w1) ->
  exists contents, on_disk w1 qs contents /\ map zlen contents = map snd fs /\ right_bits sha1 P hashes contents (sw_bf sw) /\
    forall socks s, comes_to sw socks w1 s -> on_disk (sh_world (p_sh s)) qs contents /\
      forall g, In g (p_conns s) -> exists ms, Forall (proven sha1 P (zsum (map snd fs)) hashes contents) ms /\ begins (m_out (g_m g)) (greeting sw ih (m_in (g_m g)) ++ stream ms).
Proof. exact whole_served. Qed.
Print Assumptions C102_served.
(** The program does run: with a usable command line, a well-formed torrent file, no failing system call and a tracker that answers. *)
Theorem C102_starts : forall uni sha1 n src fuel sp args o w data announce ih name P hashes fs qs id u d resp,
  commanded args o -> o_input o <> [] -> o_cmd o = B "swarm" -> parseSizeUnits uni (o_upstr o) = Ok u -> parseSizeUnits uni (o_dnstr o) = Ok d -> NewPeerId src fuel = Ok id ->
  fs_wf w -> no_faults w -> file_at w (o_input o) = Some data -> describes sha1 data (o_wd o) announce ih name P hashes fs qs -> ordinary P hashes fs -> whole_hashes hashes -> enough P hashes fs ->
  NoDup (map (PathSpec.place (w_cwd w)) qs) -> tracker_says n announce resp ->
  exists sw w1 contents, gotor uni sha1 n src fuel sp args w = (Running sw (GListener :: GLimiter :: map GPeer (r_peers resp)), w1) /\ sw_id sw = id /\ no_faults w1 /\
    on_disk w1 qs contents /\ fitted w qs fs contents /\ right_bits sha1 P hashes contents (sw_bf sw).
Proof. exact whole_starts. Qed.
Print Assumptions C102_starts.
(** In every state it comes to, with a socket to spare, whoever connects with the torrent's infohash can be served to the last request,
    without any other peer's doing: requests for pieces we have are answered, each by its block, in order; nothing else is sent. *)
Theorem C102_newcomer : forall uni sha1 n src fuel sp args o w data announce ih name P hashes fs qs sw gl w1,
  (forall b, List.length (sha1 b) = 20%nat) -> commanded args o -> fs_wf w -> no_faults w -> file_at w (o_input o) = Some data -> describes sha1 data (o_wd o) announce ih name P hashes fs qs -> ordinary P hashes fs ->
  NoDup (map (PathSpec.place (w_cwd w)) qs) -> parseSizeUnits uni (o_upstr o) <> Ok 0 -> gotor uni sha1 n src fuel sp args w = (Running sw gl, w1) ->
  exists contents, on_disk w1 qs contents /\ right_bits sha1 P hashes contents (sw_bf sw) /\
    forall socks s p port rsv id groups, comes_to sw socks w1 s -> (sockets s < socks)%nat -> List.length rsv = 8%nat -> List.length id = 20%nat ->
      Forall (readable P (zsum (map snd fs)) (zlen hashes / 20)) groups ->
      newcomer_gets sw ih socks s p port rsv id groups (List.concat (flat_map (reply P contents (sw_bf sw)) (List.concat groups))).
Proof. exact whole_newcomer. Qed.
Print Assumptions C102_newcomer.
(** Seeding, end to end: the files are there and right; the program starts, keeps them, and delivers any of their blocks to any newcomer. *)
Theorem C102_seeds : forall uni sha1 n src fuel sp args o w data announce ih name P hashes fs qs id u d resp contents,
  (forall b, List.length (sha1 b) = 20%nat) ->
  commanded args o -> o_input o <> [] -> o_cmd o = B "swarm" -> parseSizeUnits uni (o_upstr o) = Ok u -> u <> 0 -> parseSizeUnits uni (o_dnstr o) = Ok d -> NewPeerId src fuel = Ok id ->
  fs_wf w -> no_faults w -> file_at w (o_input o) = Some data -> describes sha1 data (o_wd o) announce ih name P hashes fs qs -> ordinary P hashes fs -> whole_hashes hashes -> enough P hashes fs ->
  NoDup (map (PathSpec.place (w_cwd w)) qs) -> tracker_says n announce resp ->
  on_disk w qs contents -> map zlen contents = map snd fs -> all_right sha1 P hashes contents ->
  exists sw w1, gotor uni sha1 n src fuel sp args w = (Running sw (GListener :: GLimiter :: map GPeer (r_peers resp)), w1) /\ sw_id sw = id /\
    (forall i, 0 <= i < zlen hashes / 20 -> Get (sw_bf sw) i = Ok true) /\
    forall socks s, comes_to sw socks w1 s -> on_disk (sh_world (p_sh s)) qs contents /\
      forall p port rsv pid groups, (sockets s < socks)%nat -> List.length rsv = 8%nat -> List.length pid = 20%nat -> Forall (readable P (zsum (map snd fs)) (zlen hashes / 20)) groups ->
        newcomer_gets sw ih socks s p port rsv pid groups (List.concat (map (delivery P contents) (List.concat groups))).
Proof. exact whole_seeds. Qed.
Print Assumptions C102_seeds.

(** The two files of the sample torrent, in place; a hash of 20 bytes. *)
Definition hash20 (b : bytes) : bytes := if zlen b =? 8 then repeat x41 20 else firstn 20 (b ++ repeat x00 20).
Definition line_w : list bytes := [B "-i"; B "t.torrent"; B "-w=dl"; B "--u"; B "5k"].
Definition opts_w : Opts := mkopts (B "t.torrent") (B "dl") 60666 (B "swarm") (B "5k") (B "-1B") 0 0.
Definition disk_w : world := mkw [B "h"] [([B "h"; B "t.torrent"], 0%nat); ([B "h"; B "dl"; B "dir"; B "c"], 1%nat); ([B "h"; B "dl"; B "dir"; B "a"; B "b"], 2%nat)]
  [text tb2; B "content"; B "some file"] [] [].
Definition asked_w : list (list msg) := [[MInterested; MRequest 0 2 6]; [MRequest 1 0 8; MHave 1]].
Lemma hash20_20 b : List.length (hash20 b) = 20%nat.
Proof. unfold hash20. destruct (zlen b =? 8); [reflexivity|]. rewrite firstn_length, app_length, repeat_length. lia. Qed.
Lemma describes_w : exists ih, describes hash20 (text tb2) (B "dl") (B "http") ih (B "dir") 8 (repeat x41 40) [(B "a/b", 9); (B "c", 7)] [B "dl/dir/a/b"; B "dl/dir/c"].
Proof.
  destruct (Decode_reads (mkslice (text tb2) []) _ ltac:(vm_compute; reflexivity)) as [(t & junk & Hl & E)|(ds & s1 & s2 & s3 & _ & _ & _ & _ & _ & _ & X)]; [|discriminate].
  eexists. eexists. split; [eexists; exists t, junk; split; [exact E|]; split; [exact Hl|]; repeat (split; [cbn; tauto|]); cbn; tauto|].
  split; [|split; [|reflexivity]].
  - right; split; [intros n H; cbn in H; repeat (destruct H as [H|H]; [discriminate|]); exact H|]. eexists; split; [cbn; tauto|].
    constructor; [eexists _, [B "a"; B "b"], 9; repeat (split; [first [reflexivity|discriminate|cbn; tauto]|]); reflexivity|].
    constructor; [eexists _, [B "c"], 7; repeat (split; [first [reflexivity|discriminate|cbn; tauto]|]); reflexivity|constructor].
  - constructor; [right; split; [intros n H; cbn in H; repeat (destruct H as [H|H]; [discriminate|]); exact H|reflexivity]|].
    constructor; [right; split; [intros n H; cbn in H; repeat (destruct H as [H|H]; [discriminate|]); exact H|reflexivity]|constructor].
Qed.
Lemma commanded_w : commanded line_w opts_w.
Proof.
  assert (D1 : dashes (B "-")) by now left. assert (D2 : dashes (B "--")) by now right.
  exists line_w, [(B "i", B "t.torrent"); (B "w", B "dl"); (B "u", B "5k")], []. split; [reflexivity|]. split.
  { apply (sp_two (B "-") (B "i") (B "t.torrent")); [exact D1|cbn; tauto|]. apply (sp_one (B "-") (B "w") (B "dl")); [exact D1|cbn; tauto|].
    apply (sp_two (B "--") (B "u") (B "5k")); [exact D2|cbn; tauto|constructor]. }
  split. { intros v Hin. cbn [In] in Hin. repeat (destruct Hin as [Hin|Hin]; [discriminate|]). destruct Hin. }
  split; [exact I|]. repeat (split; [first [reflexivity|apply ParseUint_iff; reflexivity]|]). reflexivity.
Qed.
Example C102_case : exists ih sw gl w1, gotor (fun b => b) hash20 net_up letters0 50 [] line_w disk_w = (Running sw gl, w1) /\ List.length gl = 3%nat /\
  sw_id sw = B "-GT0000-aaaaaaaaaaaa" /\
  newcomer_gets sw ih 100 (started (sw_ppt sw) w1 (sw_peers sw)) (B "10.9.9.9") 4321 (repeat x00 8) (repeat x62 20) asked_w
    (wire_of (MPiece 0 2 (B "me fil")) ++ wire_of (MPiece 1 0 (B "econtent"))).
Proof.
  destruct describes_w as (ih & Hdesc). exists ih.
  assert (HO : ordinary 8 (repeat x41 40) [(B "a/b", 9); (B "c", 7)]).
  { split; [split; [unfold big; lia|split; [repeat constructor; cbn; lia|reflexivity]]|]. split; [lia|]. vm_compute. split; reflexivity. }
  edestruct (C102_seeds (fun b => b) hash20 net_up letters0 50 [] line_w opts_w disk_w (text tb2) (B "http") ih (B "dir") 8 (repeat x41 40) [(B "a/b", 9); (B "c", 7)] [B "dl/dir/a/b"; B "dl/dir/c"]
    (B "-GT0000-aaaaaaaaaaaa") 5120 (-1)) with (contents := [B "some file"; B "content"]) as (sw & w1 & HG & Hid & Hget & HA).
  - exact hash20_20.
  - exact commanded_w.
  - discriminate.
  - reflexivity.
  - vm_compute. reflexivity.
  - discriminate.
  - vm_compute. reflexivity.
  - vm_compute. reflexivity.
  - repeat split; cbn; repeat constructor; cbn; intuition (try discriminate; try lia).
  - reflexivity.
  - vm_compute. reflexivity.
  - exact Hdesc.
  - exact HO.
  - reflexivity.
  - vm_compute. discriminate.
  - vm_compute. repeat constructor; cbn; intuition discriminate.
  - split; [discriminate|]. intros q. eexists. split; [reflexivity|]. vm_compute. reflexivity.
  - repeat constructor.
  - reflexivity.
  - intros i Hi. change (zlen (repeat x41 40) / 20) with 2 in Hi. assert (i = 0 \/ i = 1) as [-> | ->] by lia; vm_compute; reflexivity.
  - eexists sw, _, w1. split; [exact HG|]. split; [reflexivity|]. split; [exact Hid|].
    destruct (HA 100%nat (started (sw_ppt sw) w1 (sw_peers sw))) as (_ & HN); [exists []; split; [constructor|reflexivity]|].
    refine (HN _ _ _ _ asked_w _ _ _ _); [cbn; lia|reflexivity|reflexivity|].
    assert (HL : forall ms, In ms asked_w -> readable 8 (zsum (map snd [(B "a/b", 9); (B "c", 7)])) (zlen (repeat x41 40) / 20) ms).
    { intros ms [<-|[<-|[]]]; (split; [discriminate|]; split; [repeat constructor; vm_compute; intuition discriminate|]; apply Nat.leb_le; vm_compute; reflexivity). }
    apply Forall_forall. exact HL.
Qed.
