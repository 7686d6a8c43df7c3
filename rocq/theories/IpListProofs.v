(** IpListProofs.v: the peers of a tracker's answer, named by text. *)
From Coq Require Import ZifyBool ZifyNat ZifyN.
From Verif Require Import Base BencodeModel BencodeSpec PeerModel TrackerModel TrackerSpec TrackerProofs AddrSpec IpModel IpSpec IpProofs Ip6Proofs.

Lemma listed_peers body r : handle_body ParseIP body = Ok r -> exists d, Decode body = Ok (VDict d) /\
  ((exists s, str_field d (B "peers") s /\ compact_list s (r_peers r)) \/
   exists l, In (B "peers", VList l) d /\ Forall2 (fun v i => exists e t port id, v = VDict e /\ str_field e (B "ip") t /\ int_field e (B "port") port /\ str_field e (B "peer id") id /\
     text_dialled t (port mod 65536) (SplitHostPort (Addr i))) l (r_peers r)).
Proof.
  intros H. apply handle_body_iff in H. destruct H as (d & Hd & Hg). exists d. split; [exact Hd|]. destruct Hg as (_ & _ & _ & _ & [Hs|(l & Hl & HF)] & _); [now left|right]. exists l. split; [exact Hl|].
  clear - HF. induction HF as [|v i l ps Hv _ IH]; constructor; [|exact IH].
  destruct Hv as (e & t & port & id & H1 & H2 & H3 & H4 & ->). exists e, t, port, id. do 4 (split; [assumption|]). apply dial_text.
Qed.
Definition named_body : bytes := B "d8:completei1e10:incompletei1e8:intervali60e5:peersld2:ip11:example.org7:peer id1:a4:porti6881eed2:ip11:2001:db8::17:peer id1:b4:porti6881eeee".
Lemma named_lost : exists body r i j, handle_body ParseIP body = Ok r /\ r_peers r = [i; j] /\
  SplitHostPort (Addr i) = Ok (B "<nil>", B "6881") /\ SplitHostPort (Addr j) = Err EInvalid.
Proof.
  exists (mkslice named_body []). destruct (handle_body ParseIP (mkslice named_body [])) as [r|e| |] eqn:E; [|vm_compute in E; discriminate..].
  exists r. vm_compute in E. injection E as <-. do 2 eexists. split; [reflexivity|]. split; [reflexivity|]. split; vm_compute; reflexivity.
Qed.
Lemma decimal_case n : 0 <= n -> forall t, itoa n = t -> decimal t n.
Proof. intros H t <-. now apply DecimalProofs.itoa_decimal. Qed.
Lemma quad_case : quad (B "192.168.0.7") 192 168 0 7.
Proof.
  do 4 (split; [lia|]). exists (B "192"), (B "168"), (B "0"), (B "7"). do 4 (split; [apply decimal_case; [lia|vm_compute; reflexivity]|]). vm_compute. reflexivity.
Qed.
Lemma hexgroup_case t n : xtoi t = Some (n, List.length t) -> n < 65536 -> hexgroup t n.
Proof.
  intros H Hn. destruct (proj1 (group_iff t n (List.length t))) as (u & r & E & Hg & _ & Hc); [split; [exact H|lia]|].
  assert (r = []) by (apply (f_equal (@List.length byte)) in E; rewrite app_length in E; destruct r; [reflexivity|cbn in E; lia]). subst r. rewrite app_nil_r in E. now subst u.
Qed.
Lemma ip6_case : ip6 (B "2001:DB8::7:1.2.3.4") [8193; 3512; 0; 0; 0; 7; 258; 772].
Proof.
  right. exists (B "2001:DB8"), (B "7:1.2.3.4"), [8193; 3512], [7; 258; 772]. split; [|split; [|split; [vm_compute; reflexivity|split; [cbn; lia|reflexivity]]]].
  - exists [B "2001"; B "DB8"]. split; [|vm_compute; reflexivity]. do 2 (apply Forall2_cons; [apply hexgroup_case; [vm_compute; reflexivity|lia]|]). apply Forall2_nil.
  - right. exists [B "7"], [7], (B "1.2.3.4"), 1, 2, 3, 4. split; [apply Forall2_cons; [apply hexgroup_case; [vm_compute; reflexivity|lia]|apply Forall2_nil]|]. split; [|split; [vm_compute; reflexivity|reflexivity]].
    do 4 (split; [lia|]). exists (B "1"), (B "2"), (B "3"), (B "4"). do 4 (split; [apply decimal_case; [lia|vm_compute; reflexivity]|]). vm_compute. reflexivity.
Qed.
