(** PropsNet.v: a network of gotors (C96). *)
From Coq Require Import ZifyBool ZifyNat ZifyN.
From Verif Require Import Base BencodeModel BitfieldModel BitfieldSpec BitfieldProofs WireModel WireSpec HandshakeModel HandshakeSpec PathModel PathSpec LayoutModel LayoutSpec DsModel PptModel PptSpec PeerModel
  FsModel FsSpec SwarmModel SessionModel SessionSpec PropsFs PropsSwarm PropsPpt PropsSession PropsInfo RunModel RunSpec PropsRun LeechSpec PropsLeech NetModel NetSpec NetProofs.

(* ------------------------------------------------------------------ *)
(** * C96 Gotors among themselves *)
(** Whoever dies has dialled 64 peers that have one and the same piece. *)
Theorem C96_survive : forall sites N0 ls N l i, begun sites N0 -> aligned_run ls N0 -> nrun ls N0 = Some N -> aligned N l -> nstep l N = NDied i ->
  exists p ks, NoDup ks /\ zlen ks = 64 /\ forall key, In key ks -> offered sites N i key p.
Proof. exact net_dies. Qed.
Print Assumptions C96_survive.
(** What the trackers believe is true. *)
Theorem C96_truth : forall sites N0 ls N i nd st key p, begun sites N0 -> aligned_run ls N0 -> nrun ls N0 = Some N -> nth_error (n_nodes N) i = Some nd -> nth_error sites i = Some st ->
  0 <= p < st_n st -> lists (ss_ppt (nd_s nd)) p key -> offered sites N i key p.
Proof. exact net_truth. Qed.
Print Assumptions C96_truth.
(** Nobody asks for anything and nobody sends any data. *)
Theorem C96_quiet : forall sites N0 ls N i k x, begun sites N0 -> aligned_run ls N0 -> nrun ls N0 = Some N -> conn_at N i k = Some x -> exists st, nth_error sites i = Some st /\ idles (st_c st) x.
Proof. exact net_idles. Qed.
Print Assumptions C96_quiet.
Theorem C96_files : forall sites N0 ls N i nd, begun sites N0 -> nrun ls N0 = Some N -> nth_error (n_nodes N) i = Some nd -> exists st, nth_error sites i = Some st /\ disk_same (st_w st) (ss_world (nd_s nd)).
Proof. exact net_files. Qed.
Print Assumptions C96_files.
(** A bitfield that comes together with the handshake is lost, for ever. *)
Theorem C96_deaf : forall sites N0 ls N j L k m sp ls' N', begun sites N0 -> aligned_run ls N0 -> nrun ls N0 = Some N -> nth_error (n_links N) j = Some L -> l_far L = Taken k -> l_back L = 0%nat -> (68 < m)%nat ->
  aligned_run (NReply j m sp :: ls') N -> nrun (NReply j m sp :: ls') N = Some N' ->
  exists x, conn_at N' (l_from L) (l_conn L) = Some x /\ Forall (fun msg => is_bitfield msg = false) (k_done x).
Proof. exact net_deaf. Qed.
Print Assumptions C96_deaf.
(** Reading all there is never cuts a message. *)
Theorem C96_whole : forall sites N0 ls N i k x, begun sites N0 -> nrun ls N0 = Some N -> conn_at N i k = Some x -> ends x (List.length (k_out x)).
Proof. exact net_whole. Qed.
Print Assumptions C96_whole.
(** But a read takes 16384 bytes at most: whoever dials a seed of 130528 pieces or more and reads as much as it can is dead after two reads. *)
Theorem C96_large : forall sites N0 ls N j L k x y st m sp1 sp2, begun sites N0 -> nrun ls N0 = Some N -> nth_error (n_links N) j = Some L -> l_far L = Taken k -> l_back L = 0%nat ->
  conn_at N (l_from L) (l_conn L) = Some x -> RunSpec.idle x -> (l_to L = l_from L -> k <> l_conn L) -> conn_at N (l_to L) k = Some y -> k_up y = true -> k_in y = true -> nth_error sites (l_to L) = Some st -> 130528 <= st_n st ->
  (forall p, 0 <= p < 130528 -> nth (Z.to_nat p) (bits_of (Data (sc_own (st_c st)))) false = true) ->
  5 <= Z.of_nat m <= 16384 -> 16384 + Z.of_nat m <= zlen (k_out y) ->
  exists N1, nstep (NReply j (Z.to_nat 16384) sp1) N = NWent N1 /\ nstep (NReply j m sp2) N1 = NDied (l_from L).
Proof. exact net_large. Qed.
Print Assumptions C96_large.

(** ** Two gotors: the one of PropsRun, which lacks piece 1, dials one that has everything. *)
Definition me2 : bytes := repeat x64%byte 20.
Definition seed2 : sconst := mksc ti2 ih1 bf_all me2.
Definition site_part : site := mksite 2 hash2 two swarm1 [B "xyQ"; B "Qv"] open_part.
Definition site_seed : site := mksite 2 hash2 two seed2 [B "xyQ"; B "Qv"] open_part.
Definition net2 : net := mknet [mknode swarm1 start1; mknode seed2 start1] [].
Definition who2 : info := MakePeer [] (IPv4 x0a x00 x00 x02) 6881.
Definition meet : list nlabel := [NDial 0 1 who2 None; NAccept 0 (IPv4 x0a x00 x00 x01) 4000 68 false (HandshakeModel.mkw true true) None].
Lemma net2_begun : begun [site_part; site_seed] net2.
Proof.
  split; [constructor; [exact swarm1_up|constructor; [apply C92_case|constructor]]|]. split; [|reflexivity].
  repeat constructor; exists tracker3; split; reflexivity.
Qed.
Definition net_after (ls : list nlabel) : net := match nrun ls net2 with Some N => N | None => net2 end.
Lemma full_read N0 sites ls N j L k m sp : begun sites N0 -> nrun ls N0 = Some N -> nth_error (n_links N) j = Some L -> l_far L = Taken k ->
  (forall y, conn_at N (l_to L) k = Some y -> (l_back L + m)%nat = List.length (k_out y)) -> aligned N (NReply j m sp).
Proof. intros H1 H2 EL EF H L' EL'. assert (L' = L) by congruence. subst L'. rewrite EF. intros y Ey. rewrite (H y Ey). eapply net_whole; eassumption. Qed.
Lemma hs_read N j L k sp : nth_error (n_links N) j = Some L -> l_far L = Taken k -> l_back L = 0%nat -> (forall y, conn_at N (l_to L) k = Some y -> (68 <= List.length (k_out y))%nat) -> aligned N (NReply j 68 sp).
Proof. intros EL EF Hb H L' EL'. assert (L' = L) by congruence. subst L'. rewrite EF, Hb. intros y Ey. left. apply after_handshake. apply H. exact Ey. Qed.
(** The handshake by itself, then the bitfield and unchoke: the dialler's tracker knows all three pieces. *)
Definition learns : list nlabel := meet ++ [NReply 0 68 []; NReply 0 11 []; NOwn 0 (SHandle 0); NOwn 0 (SHandle 0); NOwn 1 (SPing 0)].
(** Everything in one read: it knows nothing. *)
Definition misses : list nlabel := meet ++ [NReply 0 79 []; NOwn 1 (SPing 0); NReply 0 4 []; NOwn 0 (SHandle 0)].
Lemma learns_aligned : aligned_run learns net2.
Proof.
  unfold learns, meet. cbn [app aligned_run]. split; [exact Logic.I|]. destruct (nstep _ net2) as [| |Na] eqn:Ea; try exact Logic.I. split; [right; reflexivity|].
  destruct (nstep _ Na) as [| |Nb] eqn:Eb; try exact Logic.I.
  assert (HN : Nb = net_after meet) by (unfold net_after, meet; cbn [nrun]; now rewrite Ea, Eb).
  assert (HR : nrun meet net2 = Some Nb) by (unfold meet; cbn [nrun]; now rewrite Ea, Eb). split.
  { eapply hs_read; [rewrite HN; vm_compute; reflexivity|reflexivity|reflexivity|]. rewrite HN. intros y Ey. vm_compute in Ey. injection Ey as <-. vm_compute. lia. }
  destruct (nstep (NReply 0 68 []) Nb) as [| |Nc] eqn:Ec; try exact Logic.I. assert (HRc : nrun (meet ++ [NReply 0 68 []]) net2 = Some Nc) by (unfold meet; cbn [app nrun]; now rewrite Ea, Eb, Ec).
  assert (HNc : Nc = net_after (meet ++ [NReply 0 68 []])) by (unfold net_after; now rewrite HRc). split.
  { eapply full_read; [exact net2_begun|exact HRc|rewrite HNc; vm_compute; reflexivity|reflexivity|]. rewrite HNc. intros y Ey. vm_compute in Ey. injection Ey as <-. vm_compute. reflexivity. }
  destruct (nstep _ Nc) as [| |Nd]; try exact Logic.I. split; [exact Logic.I|]. destruct (nstep _ Nd) as [| |Ne]; try exact Logic.I. split; [exact Logic.I|]. destruct (nstep _ Ne) as [| |Nf]; try exact Logic.I.
  split; [exact Logic.I|]. destruct (nstep _ Nf); exact Logic.I.
Qed.
Example C96_case : begun [site_part; site_seed] net2 /\ aligned_run learns net2 /\ nrun learns net2 = Some (net_after learns) /\
  (forall p, 0 <= p < 3 -> exists nd, nth_error (n_nodes (net_after learns)) 0 = Some nd /\ lists (ss_ppt (nd_s nd)) p (Key who2)) /\
  map (fun nd => map (fun x => (k_in x, k_out x)) (ss_conns (nd_s nd))) (n_nodes (net_after learns)) =
  [[(false, MakeHandshake ih1 me1 ++ stream [MUnchoke])]; [(true, MakeHandshake ih1 me2 ++ stream [MBitfield bf_all; MUnchoke; MKeepAlive])]].
Proof.
  split; [exact net2_begun|]. split; [exact learns_aligned|]. split; [vm_compute; reflexivity|]. split; [|vm_compute; reflexivity].
  intros p Hp. eexists. split; [vm_compute; reflexivity|]. assert (Hc : p = 0 \/ p = 1 \/ p = 2) by lia.
  destruct Hc as [-> | [-> | ->]]; (eexists; eexists; split; [vm_compute; reflexivity|split; [vm_compute; reflexivity|vm_compute; discriminate]]).
Qed.
(** The same two, but the handshake, bitfield and unchoke come in one read. *)
Lemma misses_aligned : aligned_run misses net2.
Proof.
  unfold misses, meet. cbn [app aligned_run]. split; [exact Logic.I|]. destruct (nstep _ net2) as [| |Na] eqn:Ea; try exact Logic.I. split; [right; reflexivity|].
  destruct (nstep _ Na) as [| |Nb] eqn:Eb; try exact Logic.I.
  assert (HR : nrun meet net2 = Some Nb) by (unfold meet; cbn [nrun]; now rewrite Ea, Eb).
  assert (HN : Nb = net_after meet) by (unfold net_after; now rewrite HR). split.
  { eapply full_read; [exact net2_begun|exact HR|rewrite HN; vm_compute; reflexivity|reflexivity|]. rewrite HN. intros y Ey. vm_compute in Ey. injection Ey as <-. vm_compute. reflexivity. }
  destruct (nstep (NReply 0 79 []) Nb) as [| |Nc] eqn:Ec; try exact Logic.I. split; [exact Logic.I|].
  destruct (nstep (NOwn 1 (SPing 0)) Nc) as [| |Nd] eqn:Ed; try exact Logic.I.
  assert (HRd : nrun (meet ++ [NReply 0 79 []; NOwn 1 (SPing 0)]) net2 = Some Nd) by (unfold meet; cbn [app nrun]; now rewrite Ea, Eb, Ec, Ed).
  assert (HNd : Nd = net_after (meet ++ [NReply 0 79 []; NOwn 1 (SPing 0)])) by (unfold net_after; now rewrite HRd). split.
  { eapply full_read; [exact net2_begun|exact HRd|rewrite HNd; vm_compute; reflexivity|reflexivity|]. rewrite HNd. intros y Ey. vm_compute in Ey. injection Ey as <-. vm_compute. reflexivity. }
  destruct (nstep _ Nd) as [| |Ne]; try exact Logic.I. split; [exact Logic.I|]. destruct (nstep _ Ne); exact Logic.I.
Qed.
Example C96_deaf_case : begun [site_part; site_seed] net2 /\ aligned_run misses net2 /\ nrun misses net2 = Some (net_after misses) /\
  map (fun nd => map (fun x => k_done x) (ss_conns (nd_s nd))) (n_nodes (net_after misses)) = [[[MKeepAlive]]; [[]]] /\
  map (fun nd => t_heap (ss_ppt (nd_s nd))) (n_nodes (net_after misses)) = map (fun nd => t_heap (ss_ppt (nd_s nd))) (n_nodes net2).
Proof. split; [exact net2_begun|]. split; [exact misses_aligned|]. vm_compute. repeat split; reflexivity. Qed.

(** ** One file of n bytes, pieces of one byte *)
Definition flat_files (n : Z) : list ebase := [mkeb n (B "a") (B "a")].
Definition flat_hashes (n : Z) : bytes := repeat x00%byte (Z.to_nat (20 * n)).
Definition flat_world (n : Z) : world := FsModel.mkw [B "h"] [([B "h"; B "a"], 0%nat)] [repeat x61%byte (Z.to_nat n)] [] [(B "a", FsModel.mkh 0%nat true)].
Definition flat_site (n : Z) (ti : torinfo) (own : bitfield) (id : bytes) : site := mksite 1 (flat_hashes n) (flat_files n) (mksc ti ih1 own id) [repeat x61%byte (Z.to_nat n)] (flat_world n).
Lemma zlen_repeat {A} (a : A) n : 0 <= n -> zlen (repeat a (Z.to_nat n)) = n.
Proof. intros H. unfold zlen. rewrite repeat_length. lia. Qed.
Lemma flat_n n ti own id : 0 <= n -> st_n (flat_site n ti own id) = n.
Proof. intros H. unfold st_n, flat_site, flat_hashes; cbn [st_hashes]. rewrite zlen_repeat by lia. rewrite Z.mul_comm. apply Z.div_mul. lia. Qed.
Lemma flat_made n : 0 < n < 4294967296 -> exists ti, made 1 (flat_hashes n) (flat_files n) ti /\ map en_base (ti_files ti) = flat_files n /\ ti_npieces ti = n /\ ti_plen ti = 1.
Proof.
  intros H. assert (HS : sane 1 (lens_of (flat_files n))) by (split; [unfold big; lia|split; [repeat constructor; cbn; lia|cbn; unfold big; lia]]).
  assert (Hz : zlen (flat_hashes n) = 20 * n) by (apply zlen_repeat; lia).
  assert (Hm : zlen (flat_hashes n) mod 20 = 0) by (rewrite Hz, Z.mul_comm; apply Z_mod_mult).
  destruct (PieceMapProofs.NewTorInfo_spec (B "t") 1 (flat_hashes n) (flat_files n) HS Hm) as [H1 _].
  destruct H1 as (pm & E & _); [rewrite Hz; unfold lens_of, flat_files; cbn [map eb_len zsum fold_right]; rewrite (Z.mul_comm 20), Z.div_mul by lia; lia|].
  eexists. split; [split; [exact HS|split; [rewrite Hz; unfold big; lia|exists (B "t"); exact E]]|].
  split; [|split; [unfold PieceMapProofs.built; cbn [ti_npieces]; rewrite Hz, Z.mul_comm; apply Z.div_mul; lia|reflexivity]].
  exact (InfoProofs.MakeFileList_bases 1 (flat_files n) 0 0 _ (LayoutProofs.MakeFileList_spec (flat_files n) 1 HS)).
Qed.
Lemma flat_up n ti own id : 0 < n < 4294967296 -> made 1 (flat_hashes n) (flat_files n) ti -> map en_base (ti_files ti) = flat_files n -> Nbytes own = bytes_for n -> msg_ok (MBitfield own) -> site_up (flat_site n ti own id).
Proof.
  intros H HM HF HN HB. pose proof (flat_n n ti own id) as Hn. unfold st_n, flat_site in Hn. cbn [st_hashes] in Hn.
  unfold site_up, flat_site, swarm_up. cbn [st_P st_hashes st_files st_c st_contents st_w sc_ti sc_own]. rewrite Hn by lia.
  split; [exact HM|]. split; [lia|]. split; [lia|]. split; [exact HN|]. split; [exact HB|].
  exists [0%nat]. destruct (ti_files ti) as [|e [|e' r]] eqn:ET; try discriminate. injection HF as HE. unfold opened_at. cbn [sc_ti st_c]. rewrite ET. split; [repeat constructor; intros []|].
  split; [constructor; [rewrite HE; reflexivity|constructor]|]. split; [repeat constructor|]. cbn [map lens_of flat_files]. rewrite HE. cbn [eb_len]. unfold lens_of. cbn. now rewrite zlen_repeat by lia.
Qed.

(** With 40 pieces, of which the one that answers has 32, 37, 38 and 39: its bitfield is the five bytes 00 00 00 01 07, a complete (and empty) piece message. *)
Definition bf_none40 : bitfield := mkbf [x00; x00; x00; x06; x05]%byte (repeat x00%byte 5) 5 40 0.
Definition bf_four : bitfield := mkbf [x00; x00; x00; x06; x05]%byte [x00; x00; x00; x01; x07]%byte 5 40 4.
Definition net40 (ti : torinfo) (t0 : ppt) : net :=
  mknet [mknode (mksc ti ih1 bf_none40 me1) (mkss t0 (flat_world 40) []); mknode (mksc ti ih1 bf_four me2) (mkss t0 (flat_world 40) [])] [].
(** Two gotors, honest and with nobody else about. The bytes of the one come to the other in reads of 68, 5 and 5: it dies. *)
Theorem C96_any_reads_refuted : exists sites N0 ls N l, begun sites N0 /\ List.length sites = 2%nat /\ nrun ls N0 = Some N /\ nstep l N = NDied 0 /\
  (forall L, In L (n_links N) -> l_from L = 0%nat /\ l_to L = 1%nat) /\ List.length (n_links N) = 1%nat.
Proof.
  destruct (flat_made 40 ltac:(lia)) as (ti' & HM & HF & Hn & HP). destruct ti' as [nm pl hs np ln fl sg pm ll]. cbn [ti_npieces ti_plen] in Hn, HP. subst pl np. set (ti := mkti _ _ _ _ _ _ _ _ _) in *. destruct (PptProofs.New_pinv 40 ltac:(lia)) as (t0 & Ht & _).
  exists [flat_site 40 ti bf_none40 me1; flat_site 40 ti bf_four me2], (net40 ti t0), (meet ++ [NReply 0 68 []; NReply 0 5 []]).
  eexists. exists (NReply 0 5 []). split.
  { split; [constructor; [apply flat_up; try assumption; try reflexivity; try lia; vm_compute; auto|constructor; [apply flat_up; try assumption; try reflexivity; try lia; vm_compute; auto|constructor]]|].
    split; [|reflexivity]. constructor; [|constructor; [|constructor]]; (split; [reflexivity|exists t0; split; [rewrite flat_n by lia; exact Ht|reflexivity]]). }
  split; [reflexivity|]. split; [vm_compute; reflexivity|]. split; [vm_compute; reflexivity|]. split; [|reflexivity]. intros L [<- |[]]. split; reflexivity.
Qed.
Print Assumptions C96_any_reads_refuted.

(** A torrent of 130528 pieces, and a seed that has all. *)
Definition bf_none_big : bitfield := mkbf [x00; x00; x3f; xbd; x05]%byte (repeat x00%byte (Z.to_nat 16316)) 16316 130528 0.
Definition bf_big : bitfield := mkbf [x00; x00; x3f; xbd; x05]%byte (repeat xff%byte (Z.to_nat 16316)) 16316 130528 130528.
Definition net_big (ti : torinfo) (t0 : ppt) : net :=
  mknet [mknode (mksc ti ih1 bf_none_big me1) (mkss t0 (flat_world 130528) []); mknode (mksc ti ih1 bf_big me2) (mkss t0 (flat_world 130528) [])] [].
Lemma bits_repeat k : bits_of (repeat xff%byte k) = repeat true (8 * k).
Proof. induction k as [|k IH]; [reflexivity|]. replace (8 * S k)%nat with (8 + 8 * k)%nat by lia. rewrite repeat_app. cbn [repeat]. change (bits_of (xff%byte :: repeat xff%byte k)) with (repeat true 8 ++ bits_of (repeat xff%byte k)). rewrite IH. reflexivity. Qed.
Definition met (N : net) : bool :=
  match n_links N, conn_at N 0 0, conn_at N 1 0 with
  | [mklink 0 0 1 (Taken 0) _ 0], Some x, Some y => match k_todo x, k_pend x with [], [] => k_recv x && k_up y && k_in y && (16394 <=? zlen (k_out y)) | _, _ => false end
  | _, _, _ => false
  end.
Lemma met_out (o : option net) : match o with Some N => met N | None => false end = true ->
  exists N g x y, o = Some N /\ n_links N = [mklink 0 0 1 (Taken 0) g 0] /\ conn_at N 0 0 = Some x /\ conn_at N 1 0 = Some y /\ RunSpec.idle x /\ k_up y = true /\ k_in y = true /\ 16394 <= zlen (k_out y).
Proof.
  destruct o as [N|]; [|discriminate]. unfold met. intros Hr.
  destruct (n_links N) as [|[[|] [|] [|[|]] [|[|]|] g [|]] [|]] eqn:EL; try discriminate.
  destruct (conn_at N 0 0) as [x|] eqn:Ex; [|discriminate]. destruct (conn_at N 1 0) as [y|] eqn:Ey; [|discriminate].
  destruct (k_todo x) eqn:E1; [|discriminate]. destruct (k_pend x) eqn:E2; [|discriminate].
  apply andb_prop in Hr. destruct Hr as [Hr H4]. apply andb_prop in Hr. destruct Hr as [Hr H3]. apply andb_prop in Hr. destruct Hr as [H1 H2]. apply Z.leb_le in H4.
  exists N, g, x, y. repeat split; assumption.
Qed.
Example C96_large_case : exists sites N0 N L x y st, begun sites N0 /\ nrun meet N0 = Some N /\ nth_error (n_links N) 0 = Some L /\ l_far L = Taken 0 /\ l_back L = 0%nat /\
  conn_at N (l_from L) (l_conn L) = Some x /\ RunSpec.idle x /\ l_to L <> l_from L /\ conn_at N (l_to L) 0 = Some y /\ k_up y = true /\ k_in y = true /\ nth_error sites (l_to L) = Some st /\ st_n st = 130528 /\
  (forall p, 0 <= p < 130528 -> nth (Z.to_nat p) (bits_of (Data (sc_own (st_c st)))) false = true) /\ 16384 + Z.of_nat 10 <= zlen (k_out y).
Proof.
  destruct (flat_made 130528 ltac:(lia)) as (ti' & HM & HF & Hn & HP). destruct ti' as [nm pl hs np ln fl sg pm ll]. cbn [ti_npieces ti_plen] in Hn, HP. subst pl np. set (ti := mkti _ _ _ _ _ _ _ _ _) in *.
  destruct (PptProofs.New_pinv 130528 ltac:(lia)) as (t0 & Ht & _).
  assert (Hup : forall own id, Nbytes own = 16316 -> msg_ok (MBitfield own) -> site_up (flat_site 130528 ti own id)) by (intros own id H1 H2; apply flat_up; try assumption; lia).
  assert (Hok : msg_ok (MBitfield bf_none_big) /\ msg_ok (MBitfield bf_big)) by (vm_compute; repeat split; reflexivity).
  assert (Hr : match nrun meet (net_big ti t0) with Some N => met N | None => false end = true) by (vm_compute; reflexivity).
  destruct (met_out (nrun meet (net_big ti t0)) Hr) as (N & g & x & y & EN & EL & Ex & Ey & Hi & H2 & H3 & H4). clear Hr.
  exists [flat_site 130528 ti bf_none_big me1; flat_site 130528 ti bf_big me2], (net_big ti t0), N, (mklink 0 0 1 (Taken 0) g 0), x, y, (flat_site 130528 ti bf_big me2). split.
  { split; [constructor; [apply Hup; [reflexivity|apply Hok]|constructor; [apply Hup; [reflexivity|apply Hok]|constructor]]|].
    split; [|reflexivity]. constructor; [|constructor; [|constructor]]; (split; [reflexivity|exists t0; split; [rewrite flat_n by lia; exact Ht|reflexivity]]). }
  split; [exact EN|]. rewrite EL. split; [reflexivity|]. split; [reflexivity|]. split; [reflexivity|]. split; [exact Ex|]. split; [exact Hi|].
  split; [discriminate|]. split; [exact Ey|]. split; [exact H2|]. split; [exact H3|]. split; [reflexivity|]. split; [apply flat_n; lia|]. split; [|lia].
  intros p Hp. change (nth (Z.to_nat p) (bits_of (repeat xff%byte (Z.to_nat 16316))) false = true). rewrite bits_repeat. rewrite nth_indep with (d' := true) by (rewrite repeat_length; lia). apply nth_repeat.
Qed.
