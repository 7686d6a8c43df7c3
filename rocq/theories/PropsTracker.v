(** PropsTracker.v: tracker requests and responses, statistics and peers (C56-C60, C69, C70, C73, C74). *)
From Verif Require Import Base BencodeModel BencodeSpec BitfieldModel WireModel WireSpec LayoutModel FsModel SwarmModel UtilsModel PeerModel PeerProofs TrackerModel TrackerSpec TrackerProofs AddrSpec AddrProofs
  PropsFs PropsSwarm PropsUtils.

(* ------------------------------------------------------------------ *)
(** * C56 Compact peer lists *)
Theorem C56_compact : forall s, (zlen s mod 6 = 0 -> exists l, string_GetPeers s = Ok l /\ compact_list s l) /\ (zlen s mod 6 <> 0 -> string_GetPeers s = Err EInvalid).
Proof. exact compact_top. Qed.
Print Assumptions C56_compact.
(** The list is determined. *)
Theorem C56_exactly : forall s l, string_GetPeers s = Ok l <-> compact_list s l.
Proof. exact compact_iff. Qed.
Print Assumptions C56_exactly.
Definition two_peers : bytes := [z2b 10; z2b 0; z2b 0; z2b 1; z2b 26; z2b 225; z2b 192; z2b 168; z2b 7; z2b 255; z2b 0; z2b 80].
Example C56_case : match string_GetPeers two_peers with Ok [p; q] => Addr p = B "10.0.0.1:6881" /\ Addr q = B "192.168.7.255:80" | _ => False end.
Proof. vm_compute. auto. Qed.
Example C56_bad : string_GetPeers (B "abcdefg") = Err EInvalid.
Proof. reflexivity. Qed.

(* ------------------------------------------------------------------ *)
(** * C57 Announce requests *)
(** Decoded as form values, the query is that of the announce URL followed by the parameters; the peer id is escaped once too often. *)
Theorem C57_params : forall raw ih st port id, clean_query raw -> exists q, newRequest (Some raw) ih st port id = Ok q /\
  forall k, form_values q k = form_values raw k ++ values_of (announce_params ih st port (QueryEscape id)) k.
Proof. exact request_clean. Qed.
Print Assumptions C57_params.
(** The same with no condition on the announce URL, whose ill-escaped parameters are dropped. *)
Theorem C57_any_url : forall raw ih st port id q k, newRequest (Some raw) ih st port id = Ok q ->
  form_values q k = values_of (map decode_piece (filter kept (split_on "&" raw))) k ++ values_of (announce_params ih st port (QueryEscape id)) k.
Proof. exact request_values. Qed.
Print Assumptions C57_any_url.
(** An announce URL without a query: every parameter arrives exactly once. *)
Theorem C57_bare_url : forall ih st port id, exists q, newRequest (Some []) ih st port id = Ok q /\
  form_values q (B "info_hash") = [ih] /\ form_values q (B "port") = [itoa port] /\ form_values q (B "uploaded") = [itoa (s_up st)] /\
  form_values q (B "downloaded") = [itoa (s_dn st)] /\ form_values q (B "left") = [itoa (s_left st)] /\ form_values q (B "compact") = [B "1"] /\
  form_values q (B "peer_id") = [QueryEscape id].
Proof.
  intros ih st port id. destruct (request_clean [] ih st port id) as (q & E & H); [intros s [<-|[]]; split; reflexivity|]. exists q. split; [exact E|]. rewrite !H. repeat split.
Qed.
Print Assumptions C57_bare_url.
(** The id survives exactly when it needs no escaping, as NewPeerId's never do. *)
Theorem C57_id_iff : forall id, QueryEscape id = id <-> Forall plain id.
Proof. exact QueryEscape_id. Qed.
Print Assumptions C57_id_iff.
Theorem C57_own_id : forall src fuel id, NewPeerId src fuel = Ok id -> forall ih st port, exists q, newRequest (Some []) ih st port id = Ok q /\ form_values q (B "peer_id") = [id].
Proof.
  intros src fuel id H ih st port. destruct (C57_bare_url ih st port id) as (q & E & _ & _ & _ & _ & _ & _ & Hq). exists q. split; [exact E|]. rewrite Hq, (NewPeerId_plain _ _ _ H). reflexivity.
Qed.
Print Assumptions C57_own_id.
Theorem C57_peer_id_refuted : exists id, zlen id = 20 /\ forall ih st port q, newRequest (Some []) ih st port id = Ok q -> form_values q (B "peer_id") <> [id].
Proof.
  exists (B "-GT0000-abcdefghi jk"). split; [reflexivity|]. intros ih st port q E. destruct (C57_bare_url ih st port (B "-GT0000-abcdefghi jk")) as (q' & E' & _ & _ & _ & _ & _ & _ & Hq).
  assert (q = q') by congruence. subst q'. rewrite Hq. discriminate.
Qed.
Print Assumptions C57_peer_id_refuted.
Example C57_case : form_values (match newRequest (Some (B "passkey=a%2Bb&x")) [z2b 0; z2b 38; z2b 255; "%"; "="]%byte (NewStats 5 6 7) 6881 (B "-GT0000-abcdefghijkl") with Ok q => q | _ => [] end) (B "info_hash")
   = [[z2b 0; z2b 38; z2b 255; "%"; "="]%byte] /\
  form_values (match newRequest (Some (B "passkey=a%2Bb&x")) [] (NewStats 5 6 7) 6881 (B "-GT0000-abcdefghijkl") with Ok q => q | _ => [] end) (B "passkey") = [B "a+b"] /\
  form_values (match newRequest (Some []) [] (NewStats 5 6 7) 6881 (B "-GT0000-abcdefghijkl") with Ok q => q | _ => [] end) (B "uploaded") = [B "6"].
Proof. vm_compute. auto. Qed.
Example C57_clean : clean_query (B "passkey=a%2Bb&x").
Proof. intros s [<-|[<-|[]]]; split; reflexivity. Qed.
(** A torrent whose announce URL does not parse crashes the client. *)
Theorem C57_bad_url_panics : forall ih st port id, newRequest None ih st port id = Panic.
Proof. exact request_panics. Qed.
Print Assumptions C57_bad_url_panics.

(* ------------------------------------------------------------------ *)
(** * C58 Responses *)
Theorem C58_response : forall parseIP d r, go_wf (VDict d) -> (newResponse parseIP d = Ok r <-> good_response parseIP d r).
Proof. exact newResponse_iff. Qed.
Print Assumptions C58_response.
Theorem C58_failure_reason : forall parseIP d s, NoDup (map fst d) -> (newResponse parseIP d = Err (EFail s) <-> str_field d (B "failure reason") s).
Proof. exact newResponse_failure. Qed.
Print Assumptions C58_failure_reason.
(** From the bytes of the body. *)
Theorem C58_body : forall parseIP body r, handle_body parseIP body = Ok r <-> exists d, Decode body = Ok (VDict d) /\ good_response parseIP d r.
Proof. exact handle_body_iff. Qed.
Print Assumptions C58_body.
Theorem C58_body_total : forall parseIP body, (exists r, handle_body parseIP body = Ok r) \/ exists e, handle_body parseIP body = Err e.
Proof. exact handle_body_kind. Qed.
Print Assumptions C58_body_total.
Definition noIP (s : bytes) : ip := [].
Definition resp1 : bytes := B "d8:completei3e10:incompletei-1e8:intervali900e5:peersld2:ip9:127.0.0.17:peer id2:ab4:porti65537eeee".
Example C58_case : match handle_body noIP (mkslice resp1 []) with
  | Ok r => r_state r = mkts 900 0 [] [] 3 18446744073709551615 /\ match r_peers r with [p] => pi_port p = 1 /\ pi_id p = B "ab" | _ => False end | _ => False end.
Proof. vm_compute. auto. Qed.
Example C58_compact : match handle_body noIP (mkslice (B "d8:completei3e10:incompletei1e8:intervali900e5:peers6:abcdefe") []) with Ok r => zlen (r_peers r) = 1 | _ => False end.
Proof. vm_compute. auto. Qed.
Example C58_fails : handle_body noIP (mkslice (B "d14:failure reason2:noe") []) = Err (EFail (B "no")) /\ (exists e, handle_body noIP (mkslice (B "d8:intervali1ee") []) = Err e).
Proof. vm_compute. eauto. Qed.
(** A wrapped count: the tracker's -1 became 2^64-1 leechers. *)
Theorem C58_negative_refuted : exists body r, handle_body noIP body = Ok r /\ max64 < t_leechers (r_state r).
Proof. exists (mkslice resp1 []). eexists. split; [vm_compute; reflexivity|]. reflexivity. Qed.
Print Assumptions C58_negative_refuted.

(* ------------------------------------------------------------------ *)
(** * C59 Statistics *)
Theorem C59_stats : forall dn up lft ops, is_u64 dn -> is_u64 up -> is_u64 lft -> Forall (fun o => is_u64 (amount o)) ops ->
  let s := strun (NewStats dn up lft) ops in
  s_up s = (up + sum_up ops) mod 18446744073709551616 /\ s_dn s = (dn + sum_dn ops) mod 18446744073709551616 /\ s_left s = Z.max 0 (lft - sum_left ops).
Proof. exact stats_top. Qed.
Print Assumptions C59_stats.
Definition ops5 : list stop := [OUp 10; OLeft 60; ODn 60; OLeft 50; OUp 18446744073709551615].
Example C59_case : strun (NewStats 1 2 100) ops5 = mkst 11 61 0 /\ Forall (fun o => is_u64 (amount o)) ops5.
Proof. split; [reflexivity|]. unfold is_u64. repeat constructor; cbn; discriminate. Qed.

(* ------------------------------------------------------------------ *)
(** * C60 The first announce *)
Theorem C60_left_is_zero : forall raw ih port id, clean_query raw -> exists q, first_announce (Some raw) ih port id = Ok q /\ form_values q (B "left") = form_values raw (B "left") ++ [B "0"].
Proof.
  intros raw ih port id H. destruct (request_clean raw ih (NewStats 0 0 0) port id H) as (q & E & Hq). exists q. split; [exact E|]. rewrite Hq. reflexivity.
Qed.
Print Assumptions C60_left_is_zero.
(** A two-file torrent with piece 1 missing on disk: two bytes are left, 0 is reported. *)
Theorem C60_left_refuted : exists sha1 ti w bf w', open_and_validate sha1 ti w = (Ok bf, w') /\ Get bf 1 = Ok false /\ 1 < ti_npieces ti /\
  forall ih port id, exists q, first_announce (Some []) ih port id = Ok q /\ form_values q (B "left") = [B "0"].
Proof.
  exists toyhash, ti2, disk_part, bf_part, open_part. split; [vm_compute; reflexivity|]. split; [vm_compute; reflexivity|]. split; [vm_compute; reflexivity|].
  intros ih port id. destruct (C60_left_is_zero [] ih port id) as (q & E & H); [intros s [<-|[]]; split; reflexivity|]. exists q. split; [exact E|]. exact H.
Qed.
Print Assumptions C60_left_refuted.

(* ------------------------------------------------------------------ *)
(** * C69 Peer identity *)
Theorem C69_same : forall id p port id' p' port', zlen p = 4 \/ zlen p = 16 -> zlen p' = 4 \/ zlen p' = 16 ->
  (Key (MakePeer id p port) = Key (MakePeer id' p' port') <-> id = id' /\ same_addr p p' /\ port = port').
Proof. exact Key_same. Qed.
Print Assumptions C69_same.
(** The address part of the key: dotted decimal, or the text RFC 5952 prescribes. *)
Theorem C69_ipv4_text : forall p a b c d, v4form p a b c d -> IPString p = itoa (b2z a) ++ B "." ++ itoa (b2z b) ++ B "." ++ itoa (b2z c) ++ B "." ++ itoa (b2z d).
Proof. exact IPString_v4. Qed.
Print Assumptions C69_ipv4_text.
Theorem C69_ipv6_text : forall p, v6form p -> exists g, groups_of p g /\ List.length g = 8%nat /\ rfc5952 g (IPString p).
Proof. exact IPString_v6_text. Qed.
Print Assumptions C69_ipv6_text.
(** That text determines the groups. *)
Theorem C69_rfc5952_injective : forall g g' t, List.length g = List.length g' -> rfc5952 g t -> rfc5952 g' t -> g = g'.
Proof. exact rfc_inj. Qed.
Print Assumptions C69_rfc5952_injective.
(** Whatever the addresses: the key determines id, port and the text of the address. *)
Theorem C69_any : forall id p port id' p' port', Key (MakePeer id p port) = Key (MakePeer id' p' port') <-> id = id' /\ IPString p = IPString p' /\ port = port'.
Proof. exact Key_inj. Qed.
Print Assumptions C69_any.
(** An id may contain the separator. *)
Example C69_case : Key (MakePeer (B "x @ 1.2.3.4:5") (IPv4 x01 x02 x03 x04) 6) = B "x @ 1.2.3.4:5 @ 1.2.3.4:6" /\ same_addr (IPv4 x01 x02 x03 x04) [x01; x02; x03; x04].
Proof. split; [vm_compute; reflexivity|]. right. exists x01, x02, x03, x04. split; [right|left]; reflexivity. Qed.
(** Two runs of the same length: the first becomes "::". A run of one zero stays. *)
Definition two_runs : bytes := [x20; x01; x00; x00; x00; x00; x00; x01; x00; x00; x00; x00; x00; x00; x00; x09]%byte.
Definition tie : bytes := [x20; x01; x00; x00; x00; x00; x00; x01; x00; x00; x00; x00; x0a; xbc; x00; x09]%byte.
Definition one_zero : bytes := [x20; x01; x0d; xb8; x00; x00; x00; x01; x00; x01; x00; x01; x00; x01; x00; x01]%byte.
Example C69_texts : v6form two_runs /\ v6form tie /\ v6form one_zero /\ IPString two_runs = B "2001:0:0:1::9" /\ IPString tie = B "2001::1:0:0:abc:9" /\ IPString one_zero = B "2001:db8:0:1:1:1:1:1" /\
  IPString (repeat x00 16) = B "::" /\ IPString (repeat x00 15 ++ [x01]) = B "::1".
Proof. repeat split; try (vm_compute; reflexivity); discriminate. Qed.

(* ------------------------------------------------------------------ *)
(** * C70 Choke *)
Theorem C70_choke_refuted : Choke = wire_of MUnchoke /\ Choke <> wire_of MChoke.
Proof. split; [reflexivity|discriminate]. Qed.
Print Assumptions C70_choke_refuted.

(* ------------------------------------------------------------------ *)
(** * C73 Dialling *)
Theorem C73_ipv4 : forall id p port a b c d, v4form p a b c d ->
  SplitHostPort (Addr (MakePeer id p port)) = Ok (itoa (b2z a) ++ B "." ++ itoa (b2z b) ++ B "." ++ itoa (b2z c) ++ B "." ++ itoa (b2z d), itoa port).
Proof. exact dial_v4form. Qed.
Print Assumptions C73_ipv4.
Theorem C73_ipv6_refuted : forall id p port, v6form p -> SplitHostPort (Addr (MakePeer id p port)) = Err EInvalid.
Proof. exact dial_v6form. Qed.
Print Assumptions C73_ipv6_refuted.
(** No address at all (the tracker's text did not parse): the host dialled is called "<nil>". *)
Theorem C73_no_address : forall id port, SplitHostPort (Addr (MakePeer id [] port)) = Ok (B "<nil>", itoa port).
Proof. exact dial_nil. Qed.
Print Assumptions C73_no_address.
(** The texts that can be dialled, exactly; every other text is an error. *)
Theorem C73_dialled : forall s, (forall h p, SplitHostPort s = Ok (h, p) <-> host_port s h p) /\
  ((forall h p, ~ host_port s h p) -> SplitHostPort s = Err EInvalid).
Proof. exact split_host_port. Qed.
Print Assumptions C73_dialled.
Definition v6 : ip := [x20; x01; x0d; xb8; x00; x00; x00; x00; x00; x00; x00; x00; x00; x00; x00; x01].
Example C73_case : v6form v6 /\ Addr (MakePeer [] v6 80) = B "2001:db8::1:80" /\ SplitHostPort (B "[2001:db8::1]:80") = Ok (B "2001:db8::1", B "80").
Proof. repeat split; try (vm_compute; reflexivity); discriminate. Qed.

(* ------------------------------------------------------------------ *)
(** * C74 Peer state *)
Theorem C74_flags : forall ops s, psrun s ops = mkps (last_set to_chokingUs (chokingUs s) ops) (last_set to_weChoking (weChoking s) ops)
  (last_set to_interestedUs (interestedUs s) ops) (last_set to_weInterested (weInterested s) ops).
Proof. exact psrun_top. Qed.
Print Assumptions C74_flags.
Example C74_case : psrun MakeState [PWeChoking false; PInterestedUs true; PChokingUs true; PWeChoking true] = mkps true true true false.
Proof. reflexivity. Qed.
Theorem C74_MakeState : chokingUs MakeState = true /\ weChoking MakeState = true /\ interestedUs MakeState = false /\ weInterested MakeState = false.
Proof. repeat split. Qed.
Print Assumptions C74_MakeState.
(** A connection should start choked on both sides; a new handler's state says neither side chokes. *)
Theorem C74_initial_state_refuted : handler_initial_state <> MakeState /\ chokingUs handler_initial_state = false /\ weChoking handler_initial_state = false /\
  interestedUs handler_initial_state = false /\ weInterested handler_initial_state = false.
Proof. split; [discriminate|repeat split]. Qed.
Print Assumptions C74_initial_state_refuted.
