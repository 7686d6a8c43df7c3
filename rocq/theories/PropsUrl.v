(** PropsUrl.v: the announce URL (C106). *)
From Coq Require Import ZifyBool ZifyNat ZifyN.
From Verif Require Import Base BencodeModel BitfieldModel BitfieldSpec PathModel PathSpec LayoutModel LayoutSpec PieceMapProofs InfoSpec BencodeProofs InfoProofs PropsInfo
  PptModel PeerModel UtilsModel UtilsSpec FsModel FsSpec FsProofs OcatProofs SwarmModel TrackerModel TrackerSpec StartModel StartSpec StartProofs UrlModel UrlSpec UrlProofs UrlNetProofs.

(** The texts taken for URLs are those of the grammar. *)
Theorem C106_parses : forall a, (exists u, Parse a = Ok u) <-> url_text a.
Proof. exact Parse_top. Qed.
Print Assumptions C106_parses.
(** Every other text is refused with an error. *)
Theorem C106_refuses : forall a, ~ url_text a -> exists e, Parse a = Err e.
Proof. exact Parse_refuses. Qed.
Print Assumptions C106_refuses.
(** A URL with a host is read as scheme (in small letters), host and path (escapes undone) and query (as it is). *)
Theorem C106_parts : forall a s h path q, url_text a -> parts a s h path q -> Parse a = Ok (mkurl (map small s) [] (meaning h) (meaning path) (tl q)).
Proof. exact parts_top. Qed.
Print Assumptions C106_parts.
(** An http or https URL with a host: the server it names is asked, once, for its path, its own parameters going before the
    client's; what it says is the answer. *)
Theorem C106_asked : forall answer pip tor port src fuel id s h path q, NewPeerId src fuel = Ok id -> http_text (t_announce tor) -> parts (t_announce tor) s h path q -> clean_query (tl q) ->
  exists sent, (forall k, form_values sent k = form_values (tl q) k ++ values_of (announce_params (t_infohash tor) (NewStats 0 0 0) port id) k) /\
    tracker_Get (http_net answer pip) tor (NewStats 0 0 0) port id =
      match answer (mkurl (map small s) [] (meaning h) (meaning path) (tl q)) sent with None => Err EIO | Some body => handle_body pip body end.
Proof. exact asked_top. Qed.
Print Assumptions C106_asked.
(** Any other URL: an error whatever servers there are. *)
Theorem C106_unreachable : forall answer pip tor st port id, url_text (t_announce tor) -> ~ http_text (t_announce tor) -> tracker_Get (http_net answer pip) tor st port id = Err EIO.
Proof. exact unreachable_top. Qed.
Print Assumptions C106_unreachable.
(** Any other text: a panic. *)
Theorem C106_crash : forall answer pip tor st port id, tracker_Get (http_net answer pip) tor st port id = Panic <-> ~ url_text (t_announce tor).
Proof. exact crash_top. Qed.
Print Assumptions C106_crash.
(** No swarm starts without such a URL; the files are made before it is looked at. *)
Theorem C106_needs_http : forall sha1 answer pip src fuel sp o w s w', NewSwarm sha1 (http_net answer pip) src fuel sp o w = (Ok s, w') -> http_text (t_announce (sw_tor s)).
Proof. exact needs_http. Qed.
Print Assumptions C106_needs_http.
Theorem C106_start_fails : forall sha1 answer pip src fuel sp o w id c tor P hashes files,
  NewPeerId src fuel = Ok id -> fs_wf w -> no_faults w -> file_at w (o_input o) = Some c -> FromTorrentFile sha1 (mkslice c sp) (o_wd o) = Ok tor ->
  made P hashes files (t_info tor) -> NoDup (places w files) -> zlen hashes / 20 < 4294967296 -> ~ http_text (t_announce tor) ->
  exists r w' contents, NewSwarm sha1 (http_net answer pip) src fuel sp o w = (r, w') /\ opened w' (t_info tor) contents /\ Forall2 (sized w w') files contents /\
    (url_text (t_announce tor) -> r = Err EIO) /\ (~ url_text (t_announce tor) -> r = Panic).
Proof. exact no_url_top. Qed.
Print Assumptions C106_start_fails.

(** Texts of each kind. *)
Definition plain : bytes := B "HTTP://me:pw@Tracker.example:6969/ann%6funce?key=a%20b&x#top".
Definition kind (a : bytes) : Z := match Parse a with Ok u => if contacted u then 0 else 1 | Err _ => 2 | _ => 3 end.
Example C106_case :
  map kind [plain; B "https://[fe80::1%25en0]:443/x"; B "http://t:/a"; B "http://t"; B "udp://t:80/announce"; B ""; B "t/announce"; B "http:/t/announce"; B "http://:/a"; B "t:80"; B "http:%"] = [0; 0; 0; 0; 1; 1; 1; 1; 1; 1; 1] /\
  map kind [B "http://t:80x/a"; B ":"; B "://t/a"; B "http://[::1/a"; B "http://t/%zz"; B "http://t/a" ++ [x0a]; B "http://a b/"; B "http://t%20x/"; B "10.0.0.1:80/a"; B "http://t/#%"] = repeat 2 10.
Proof. split; vm_compute; reflexivity. Qed.
Example C106_parts_case : url_text plain /\ http_text plain /\ parts plain (B "HTTP") (B "Tracker.example:6969") (B "/ann%6funce") (B "?key=a%20b&x") /\ clean_query (B "key=a%20b&x") /\
  Parse plain = Ok (mkurl (B "http") [] (B "Tracker.example:6969") (B "/announce") (B "key=a%20b&x")).
Proof.
  assert (Hu : url_text plain) by (apply Parse_top; eexists; vm_compute; reflexivity). split; [exact Hu|].
  assert (Hh : http_text plain) by (destruct (proj2 (Parse_top plain) Hu) as [u E]; apply (contacted_iff _ _ E); vm_compute in E; apply Ok_inj in E; subst u; reflexivity). split; [exact Hh|].
  assert (N : forall c l, existsb (Byte.eqb c) l = false -> without c l) by (intros c l H; apply has_spec; exact H).
  split; [exists (B "me:pw@Tracker.example:6969"), (B "me:pw"), (B "#top"); split; [reflexivity|]; split; [exists "H"%byte, (B "TTP"); repeat split|]; split; [right; reflexivity|]; repeat (split; [apply N; reflexivity|]); split; [split; [right; eexists; reflexivity|split; apply N; reflexivity]|]; split; [right; eexists; reflexivity|]; split; [apply N; reflexivity|right; eexists; reflexivity]|].
  split; [|vm_compute; reflexivity]. intros x Hx. assert (E : split_on "&" (B "key=a%20b&x") = [B "key=a%20b"; B "x"]) by reflexivity. rewrite E in Hx. destruct Hx as [<-|[<-|[]]]; split; reflexivity.
Qed.

(** A torrent by its announce URL; the rest is the one of PropsInfo. *)
Definition announced (a : bytes) : bytes := B "d8:announce" ++ itoa (zlen a) ++ B ":" ++ a ++ B "4:info" ++ tb2 ++ B "e".
Definition disk_u (a : bytes) : world := mkw [B "h"] [([B "h"; B "t.torrent"], 0%nat); ([B "h"; B "dl"; B "dir"; B "c"], 1%nat)] [announced a; B "AAAAAAAprecious"] [] [].
Definition opts_u : Opts := mkopts (B "t.torrent") (B "dl") 6881 (B "swarm") (B "0B") (B "0B") 0 0.
Definition everywhere : net := http_net (fun _ _ => Some (mkslice (B "d8:completei1e10:incompletei2e8:intervali60e5:peers0:e") [])) (fun _ => []).
Definition hash_u (b : bytes) : bytes := if zlen b =? 8 then repeat x41 20 else b.
Definition letters_u (k : nat) : Z := 0.
Example C106_start_case : exists tor, FromTorrentFile hash_u (mkslice (announced (B "udp://t:80")) []) (B "dl") = Ok tor /\ made 8 (repeat x41 40) (map en_base (ti_files (t_info tor))) (t_info tor) /\
  NoDup (places (disk_u (B "udp://t:80")) (map en_base (ti_files (t_info tor)))) /\ fs_wf (disk_u (B "udp://t:80")) /\ url_text (t_announce tor) /\ ~ http_text (t_announce tor).
Proof.
  destruct (FromTorrentFile hash_u (mkslice (announced (B "udp://t:80")) []) (B "dl")) as [tor| | |] eqn:E; [|vm_compute in E; discriminate..]. vm_compute in E. apply Ok_inj in E. subst tor. eexists. split; [reflexivity|].
  split. { split; [split; [unfold big; lia|split; [repeat constructor; cbn; lia|reflexivity]]|]. split; [reflexivity|]. exists (B "dir"). vm_compute. reflexivity. }
  split; [vm_compute; repeat constructor; cbn; intuition discriminate|]. split; [repeat split; cbn; repeat constructor; cbn; intuition (try discriminate; try lia)|].
  cbn [t_announce]. split; [apply Parse_top; eexists; vm_compute; reflexivity|]. intros H. destruct (proj2 (Parse_top _) (proj1 H)) as [u E]. apply (contacted_iff _ _ E) in H. vm_compute in E. apply Ok_inj in E. subst u. discriminate.
Qed.
(** The program should report a torrent with a bad announce URL; it dies of a panic, having cut a file short. *)
Theorem C106_bad_announce_reported_refuted : exists uni sha1 n src fuel o w w' a p, fs_wf w /\ no_faults w /\ file_at w (o_input o) = Some (announced a) /\ main uni sha1 n src fuel [] o w = (Crash, w') /\
  file_at w p = Some (B "AAAAAAAprecious") /\ file_at w' p = Some (B "AAAAAAA").
Proof.
  exists (fun b => b), hash_u, everywhere, letters_u, 50%nat, opts_u, (disk_u (B "http://t:80x/a")). eexists _, (B "http://t:80x/a"), (B "dl/dir/c").
  split; [repeat split; cbn; repeat constructor; cbn; intuition (try discriminate; try lia)|]. split; [reflexivity|]. split; [reflexivity|]. split; [vm_compute; reflexivity|]. split; vm_compute; reflexivity.
Qed.
Print Assumptions C106_bad_announce_reported_refuted.
(** A torrent whose tracker speaks UDP cannot be joined, whoever answers; the same one announced over http can. *)
Theorem C106_udp_tracker_refuted : exists uni sha1 n src fuel o a a', fst (main uni sha1 n src fuel [] o (disk_u a)) = Exit 1 /\ a = B "udp://tracker:80/announce" /\
  a' = B "http://tracker:80/announce" /\ exists s l, fst (main uni sha1 n src fuel [] o (disk_u a')) = Running s l.
Proof.
  exists (fun b => b), hash_u, everywhere, letters_u, 50%nat, opts_u, (B "udp://tracker:80/announce"), (B "http://tracker:80/announce"). split; [vm_compute; reflexivity|]. split; [reflexivity|]. split; [reflexivity|]. eexists _, _. vm_compute. reflexivity.
Qed.
Print Assumptions C106_udp_tracker_refuted.
