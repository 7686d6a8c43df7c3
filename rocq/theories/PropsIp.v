(** PropsIp.v: C103, peers a tracker names by text. *)
From Verif Require Import Base BencodeModel BencodeSpec PeerModel TrackerModel TrackerSpec AddrSpec IpModel IpSpec Ip6Proofs IpListProofs.

(** ** C103: the addresses read are exactly the texts of RFC 4291, and what is dialled for each *)
Theorem C103_parse : forall s p, p <> [] -> (ParseIP s = p <-> stands_for s p).
Proof. exact parse_iff. Qed.
Print Assumptions C103_parse.
Theorem C103_none : forall s, ParseIP s = [] <-> forall p, ~ stands_for s p.
Proof. exact parse_none. Qed.
Print Assumptions C103_none.
Theorem C103_round_trip : forall p, zlen p = 16 -> ParseIP (IPString p) = p.
Proof. exact parse_string. Qed.
Print Assumptions C103_round_trip.
Theorem C103_round_trip_4 : forall a b c d, ParseIP (IPString [a; b; c; d]) = mapped ++ [a; b; c; d].
Proof. exact parse_string4. Qed.
Print Assumptions C103_round_trip_4.
Theorem C103_dialled : forall id t port, text_dialled t port (SplitHostPort (Addr (MakePeer id (ParseIP t) port))).
Proof. exact dial_text. Qed.
Print Assumptions C103_dialled.
Theorem C103_peers : forall body r, handle_body ParseIP body = Ok r -> exists d, Decode body = Ok (VDict d) /\
  ((exists s, str_field d (B "peers") s /\ compact_list s (r_peers r)) \/
   exists l, In (B "peers", VList l) d /\ Forall2 (fun v i => exists e t port id, v = VDict e /\ str_field e (B "ip") t /\ int_field e (B "port") port /\ str_field e (B "peer id") id /\
     text_dialled t (port mod 65536) (SplitHostPort (Addr i))) l (r_peers r)).
Proof. exact listed_peers. Qed.
Print Assumptions C103_peers.
(** "Every peer a tracker names, by IPv4, IPv6 or DNS name as BEP 3 allows, is dialled under that name" is false: a DNS name and an IPv6 address are lost. *)
Theorem C103_named_refuted : exists body r i j, handle_body ParseIP body = Ok r /\ r_peers r = [i; j] /\
  SplitHostPort (Addr i) = Ok (B "<nil>", B "6881") /\ SplitHostPort (Addr j) = Err EInvalid.
Proof. exact named_lost. Qed.
Print Assumptions C103_named_refuted.

Example C103_case_quad : quad (B "192.168.0.7") 192 168 0 7 /\ ParseIP (B "192.168.0.7") = mapped ++ [z2b 192; z2b 168; z2b 0; z2b 7] /\ ParseIP (B "192.168.00.7") = [] /\ ParseIP (B "192.168.0.256") = [] /\ ParseIP (B "192.168.0") = [] /\ ParseIP (B "192.168.0.7 ") = [].
Proof. split; [exact quad_case|]. repeat split; vm_compute; reflexivity. Qed.
Example C103_case_v6 : ip6 (B "2001:DB8::7:1.2.3.4") [8193; 3512; 0; 0; 0; 7; 258; 772] /\
  ParseIP (B "2001:DB8::7:1.2.3.4") = map z2b [32; 1; 13; 184; 0; 0; 0; 0; 0; 0; 0; 7; 1; 2; 3; 4] /\
  ParseIP (B "1::2::3") = [] /\ ParseIP (B "1:2:3:4:5:6:7") = [] /\ ParseIP (B "1:2:3:4:5:6:7::8") = [] /\ ParseIP (B "1:2:3:4:5:6:7::") = map z2b [0; 1; 0; 2; 0; 3; 0; 4; 0; 5; 0; 6; 0; 7; 0; 0] /\
  ParseIP (B "::") = repeat x00 16 /\ ParseIP (B "12345::") = [] /\ ParseIP (B ":1:2:3:4:5:6:7") = [] /\ ParseIP (B "00000001::") = map z2b [0; 1; 0; 0; 0; 0; 0; 0; 0; 0; 0; 0; 0; 0; 0; 0].
Proof. split; [exact ip6_case|]. repeat split; vm_compute; reflexivity. Qed.
