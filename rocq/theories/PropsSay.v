(** PropsSay.v: what the user is told when a torrent or the announce fails (C117). *)
From Verif Require Import Base BencodeModel BencodeSpec BencodeProofs PeerModel LayoutModel LayoutSpec LoadSpec FsModel TrackerModel DiagModel DiagSpec UtilsModel StartModel PrintModel SayModel SaySpec SayProofs SayToldProofs SayTextProofs.

(** *** C117 *)
(** The functions with texts are those without: the same torrent, an error, or a crash. *)
Theorem C117_same sha1 data wd : match FromTorrentFileE sha1 data wd with Fine t => FromTorrentFile sha1 data wd = Ok t | Says _ => exists e, FromTorrentFile sha1 data wd = Err e | Dies => FromTorrentFile sha1 data wd = Panic | Endless => FromTorrentFile sha1 data wd = NoFuel end.
Proof. exact (agree_top sha1 data wd). Qed.
Print Assumptions C117_same.
Theorem C117_same_answer parseIP body : match handle_bodyE parseIP body with Fine r => handle_body parseIP body = Ok r | Says _ => exists e, handle_body parseIP body = Err e | Dies => handle_body parseIP body = Panic | Endless => handle_body parseIP body = NoFuel end.
Proof. exact (agree_body parseIP body). Qed.
Print Assumptions C117_same_answer.
(** What a torrent file is told off for: what Decode says, or the first thing wrong with its value. *)
Theorem C117_file sha1 data wd w : FromTorrentFileE sha1 data wd = Says w -> (exists c k, DecodeD data = Trouble c k /\ w = WDecode (slen data) c k) \/ exists v, Decode data = Ok v /\ told v w.
Proof.
  intros H. apply file_says in H. destruct H as [H|(v & Hv & H)]; [left; exact H|right]. exists v. split; [exact Hv|]. exact (told_forward sha1 v wd w (proj1 (Decode_wf _ _ Hv)) H).
Qed.
Print Assumptions C117_file.
(** If its numbers make sense (C101), the first thing wrong is what it is told off for. *)
Theorem C117_first sha1 data wd v w : Decode data = Ok v -> sensible v -> (FromTorrentFileE sha1 data wd = Says w <-> told v w).
Proof.
  intros Hv HS. rewrite <- (told_iff sha1 v wd w (proj1 (Decode_wf _ _ Hv)) HS), file_says. split; [|intros H; right; eauto].
  intros [(c & k & H & _)|(v' & Hv' & H)]; [|congruence]. pose proof (DiagProofs.same_top data) as S. rewrite H in S. destruct S as (e & S & _). congruence.
Qed.
Print Assumptions C117_first.
(** The same for a tracker's answer, without conditions. *)
Theorem C117_answer parseIP body w : handle_bodyE parseIP body = Says w <-> (exists c k, DecodeD body = Trouble c k /\ w = WDecode (slen body) c k) \/ exists v, Decode body = Ok v /\ replied parseIP (vis body) v w.
Proof. exact (body_says parseIP body w). Qed.
Print Assumptions C117_answer.
(** The tracker's own reason is passed on exactly when TrackerModel's error has it. *)
Theorem C117_reason parseIP body r : handle_bodyE parseIP body = Says (WReason r) <-> handle_body parseIP body = Err (EFail r).
Proof. exact (reason_same parseIP body r). Qed.
Print Assumptions C117_reason.
(** What is wrong with a torrent file can be told from the text. *)
Theorem C117_tells other other' m m' w w' : of_torrent w -> of_torrent w' -> why_text other m w = why_text other' m' w' -> meant w = meant w'.
Proof. exact (tells_top other other' m m' w w'). Qed.
Print Assumptions C117_tells.
(** A bad path without '%' is shown. *)
Theorem C117_path other m v : ~ In "%"%byte (shown v) -> why_text other m (WPath v) = B "file entry contains invalid path [" ++ shown v ++ B "]".
Proof. exact (path_top other m v). Qed.
Print Assumptions C117_path.
(** Any other, if it has no flags, widths or indices of fmt behind a '%', as fmt has it. *)
Theorem C117_path_format other m v t : formatted (B "file entry contains invalid path [" ++ shown v ++ B "]") t -> why_text other m (WPath v) = t.
Proof. exact (path_formatted other m v t). Qed.
Print Assumptions C117_path_format.
(** From the first '%' with anything else behind it, it is fmt's business; up to there it is as it is. *)
Theorem C117_path_other : forall other p c s, ~ In "%"%byte p -> c <> "%"%byte -> ~ (65 <= b2z c <= 90) -> ~ (97 <= b2z c <= 122) -> errorf other (p ++ "%"%byte :: c :: s) = p ++ other ("%"%byte :: c :: s).
Proof. exact errorf_other. Qed.
Print Assumptions C117_path_other.
(** The type that is named tells what the value is. *)
Theorem C117_kind v v' : type_name v = type_name v' -> forall t, is_a t v <-> is_a t v'.
Proof. exact (kinds_top v v'). Qed.
Print Assumptions C117_kind.
(** The program ends with status 1 if and only if there is an error, whose text is then the last line on standard error. *)
Theorem C117_fatal os http uni sha1 n src fuel sp o w : fst (main uni sha1 n src fuel sp o w) = Exit 1 <-> exists e, main_why os http uni sha1 n src fuel sp o w = Some e.
Proof. exact (main_fatal os http uni sha1 n src fuel sp o w). Qed.
Print Assumptions C117_fatal.

(** ** Not so *)
Definition tor (info : string) : gslice := mkslice (B "d8:announce1:x4:info" ++ B info ++ B "e") [].
Definition whole_info (rest : string) : gslice := mkslice (B "d8:announce1:x4:infod" ++ B rest ++ B "4:name1:a12:piece lengthi8e6:pieces20:aaaaaaaaaaaaaaaaaaaaee") [].
(** False: "tracker error" means that the tracker has an error. *)
Theorem C117_source_refuted : exists data body w w', (forall sha1 wd, FromTorrentFileE sha1 data wd = Says w) /\ (forall parseIP, handle_bodyE parseIP body = Says w') /\ forall other m other' m', why_text other m w = why_text other' m' w'.
Proof.
  exists (whole_info ""), (mkslice (B "d14:failure reason54:missing keys 'length' and 'files', must have exactly 1e") []), WNoFiles, (WReason (B "missing keys 'length' and 'files', must have exactly 1")).
  split; [intros; vm_compute; reflexivity|]. split; [intros; vm_compute; reflexivity|reflexivity].
Qed.
Print Assumptions C117_source_refuted.
(** False: keys that are said to be missing are missing. *)
Theorem C117_missing_refuted : exists data d info x y, Decode data = Ok (VDict d) /\ In (B "info", VDict info) d /\ In (B "length", x) info /\ In (B "files", y) info /\ forall sha1 wd, FromTorrentFileE sha1 data wd = Says WNoFiles.
Proof.
  exists (whole_info "5:filesi1e6:length1:5"), [(B "announce", VStr (B "x")); (B "info", VDict [(B "files", VInt KInt64 1); (B "length", VStr (B "5")); (B "name", VStr (B "a")); (B "piece length", VInt KInt64 8); (B "pieces", VStr (repeat "a"%byte 20))])].
  eexists _, _, _. split; [vm_compute; reflexivity|]. split; [cbn; right; left; reflexivity|]. split; [cbn; right; left; reflexivity|]. split; [cbn; left; reflexivity|]. intros; vm_compute; reflexivity.
Qed.
Print Assumptions C117_missing_refuted.
(** False: there must be exactly one of the two keys. *)
Theorem C117_both_refuted : exists data d info n l, Decode data = Ok (VDict d) /\ In (B "info", VDict info) d /\ In (B "length", VInt KInt64 n) info /\ In (B "files", VList l) info /\ forall sha1 wd, exists t, FromTorrentFileE sha1 data wd = Fine t.
Proof.
  exists (whole_info "5:filesle6:lengthi5e"), [(B "announce", VStr (B "x")); (B "info", VDict [(B "files", VList []); (B "length", VInt KInt64 5); (B "name", VStr (B "a")); (B "piece length", VInt KInt64 8); (B "pieces", VStr (repeat "a"%byte 20))])].
  eexists _, 5, []. split; [vm_compute; reflexivity|]. split; [cbn; right; left; reflexivity|]. split; [cbn; right; left; reflexivity|]. split; [cbn; left; reflexivity|]. intros sha1 wd.
  unfold FromTorrentFileE. replace (DecodeE _) with (@Fine gval (VDict [(B "announce", VStr (B "x")); (B "info", VDict [(B "files", VList []); (B "length", VInt KInt64 5); (B "name", VStr (B "a")); (B "piece length", VInt KInt64 8); (B "pieces", VStr (repeat "a"%byte 20))])])) by (vm_compute; reflexivity).
  eexists. lazy -[PathModel.Join BencodeModel.Encode]. reflexivity.
Qed.
Print Assumptions C117_both_refuted.
(** False: the dictionary that is named is the one with the fault. If it is the info dictionary that is something else, the place named is 0x0, whatever is where. *)
Theorem C117_nil_refuted : exists data w, (forall sha1 wd, FromTorrentFileE sha1 data wd = Says w) /\ forall other m, why_text other m w = B "bad type for key [info] in dict [0x0]" ++ nl ++ B "request [dict]" ++ nl ++ B "    got [string]".
Proof. exists (tor "1:a"), (WType (B "info") (B "dict") (B "string") None). split; [intros; vm_compute; reflexivity|reflexivity]. Qed.
Print Assumptions C117_nil_refuted.
(** False: a path that is wrong is shown as it is. *)
Theorem C117_percent_refuted : exists data v, (forall sha1 wd, FromTorrentFileE sha1 data wd = Says (WPath v)) /\ shown v = B "[50%s]" /\ forall other m, why_text other m (WPath v) = B "file entry contains invalid path [[50%!s(MISSING)]]".
Proof. exists (whole_info "5:filesld6:lengthi5e4:pathll4:50%seeee"), (VList [VStr (B "50%s")]). split; [intros; vm_compute; reflexivity|]. split; vm_compute; reflexivity. Qed.
Print Assumptions C117_percent_refuted.
(** False: the peers that are shown as invalid are invalid. *)
Theorem C117_peers_refuted : exists body ps, ps <> [] /\ (forall parseIP, handle_bodyE parseIP body = Says (WPeers (map (fun p => MakePeer (B "id") (parseIP p) 80) ps))).
Proof.
  exists (mkslice (B "d8:completei1e10:incompletei1e8:intervali1e5:peersld2:ip7:1.2.3.47:peer id2:id4:porti80eei5eee") []), [B "1.2.3.4"]. split; [discriminate|]. intros parseIP.
  unfold handle_bodyE. match goal with |- context [DecodeE ?x] => let v := eval vm_compute in (DecodeE x) in replace (DecodeE x) with v by (vm_compute; reflexivity) end. cbn -[MakePeer u64 u16]. reflexivity.
Qed.
Print Assumptions C117_peers_refuted.
(** False: what is asked of a value is all that will do. A compact list is a string. *)
Theorem C117_want_refuted : exists body w s body', (forall parseIP, handle_bodyE parseIP body = Says w) /\ meant w = PType (B "peers") (B "list") (B "int64") /\ (exists d, Decode body' = Ok (VDict d) /\ In (B "peers", VStr s) d) /\ forall parseIP, exists r, handle_bodyE parseIP body' = Fine r.
Proof.
  exists (mkslice (B "d8:completei1e10:incompletei1e8:intervali1e5:peersi1ee") []). eexists _, [], (mkslice (B "d8:completei1e10:incompletei1e8:intervali1e5:peers0:e") []). split; [intros; vm_compute; reflexivity|]. split; [reflexivity|].
  split; [eexists; split; [vm_compute; reflexivity|cbn; tauto]|]. intros; eexists; vm_compute; reflexivity.
Qed.
Print Assumptions C117_want_refuted.

(** ** Cases *)
Definition mem0 : memory := mkmem (fun _ => B "0xc000010000") (B "0xc000020008").
Definition said_of (data : gslice) : option bytes := match FromTorrentFileE (fun _ => []) data (B ".") with Says w => Some (why_text (fun s => s) mem0 w) | _ => None end.
Example C117_case :
  map said_of [mkslice (B "5:abc") []; mkslice (B "le") []; mkslice (B "de") []; tor "li1ee"; tor "d4:namei5ee"; tor "d4:name1:ae"; whole_info "5:filesli1ee"; whole_info "5:filesld4:pathleee";
    whole_info "5:filesld6:lengthi5e4:pathl1:ai7eeee"; mkslice (B "d8:announce1:x4:infod6:lengthi5e4:name1:a12:piece lengthi8e6:pieces3:abcee") [];
    whole_info "5:filesld6:lengthi8e4:pathl1:aeed6:lengthi3e4:pathl1:beee"; whole_info "6:lengthi5e"] =
  [Some (B "decoder error: caught panic"); Some (B "tracker error: decoded bencoding is not a dictionary"); Some (B "missing key [announce] in bencode dictionary [0xc000020008]");
   Some (B "bad type for key [info] in dict [0x0]" ++ nl ++ B "request [dict]" ++ nl ++ B "    got [bencode.List]"); Some (B "bad type for key [name] in dict [0xc000010000]" ++ nl ++ B "request [string]" ++ nl ++ B "    got [int64]");
   Some (B "missing key [piece length] in bencode dictionary [0xc000020008]"); Some (B "failed to convert file entry to dictionary"); Some (B "missing key [length] in bencode dictionary [0xc000020008]");
   Some (B "file entry contains invalid path [7]"); Some (B "hashes must be multiple of 20"); Some (B "only accounted for 8/11 bytes"); None].
Proof. vm_compute. reflexivity. Qed.
Definition told_by (body : string) : option bytes := match handle_bodyE (fun p => p) (mkslice (B body) []) with Says w => Some (why_text (fun s => s) mem0 w) | _ => None end.
Example C117_answer_case :
  map told_by ["i5e"; "d14:failure reason4:gonee"; "d8:completei1ee"; "d8:completei1e10:incompletei1e8:intervali1e5:peers5:abcdee"; "d8:completei1e10:incompletei1e8:intervali1ee"; "d8:completei1e10:incompletei1e8:intervali1e5:peersli5eee"]%string =
  [Some (B "response not a bencoded dictionary" ++ nl ++ B "[105 53 101]"); Some (B "tracker error: gone"); Some (B "missing key [interval] in bencode dictionary [0xc000020008]");
   Some (B "tracker error: compact peer list must be divisible by 6, length = [5]"); Some (B "missing key [peers] in bencode dictionary [0xc000020008]"); Some (B "tracker error: invalid peer list" ++ nl ++ B "[Peer List (0):]")].
Proof. vm_compute. reflexivity. Qed.
(** The hypotheses of C117_first and C117_tells. *)
Example C117_hyp_case : exists v w, Decode (whole_info "") = Ok v /\ sensible v /\ told v w /\ of_torrent w.
Proof.
  destruct (Decode (whole_info "")) as [v| | |] eqn:E; [|discriminate E..]. exists v, WNoFiles.
  assert (S : sensible v).
  { vm_compute in E. injection E as <-. intros d info name P hashes fs X Hi _ _ _ HL. injection X as <-. cbn in Hi. destruct Hi as [Hi|[Hi|[]]]; [discriminate|]. injection Hi as <-.
    exfalso. destruct HL as [(n & Hn & _)|(_ & l & Hl & _)]; [cbn in Hn; repeat (destruct Hn as [Hn|Hn]; [discriminate|]); exact Hn|cbn in Hl; repeat (destruct Hl as [Hl|Hl]; [discriminate|]); exact Hl]. }
  assert (R : FromTorrentFileE (fun _ => []) (whole_info "") [] = Says WNoFiles) by (vm_compute; reflexivity).
  split; [reflexivity|]. split; [exact S|]. split; [exact (proj1 (C117_first (fun _ => []) _ [] v WNoFiles E S) R)|]. eexists (fun _ => []), _, []. exact R.
Qed.
