(** SessionProofs.v: proofs about handleMessage, requestLoop and the bytes a connection carries. *)
From Coq Require Import ZifyBool ZifyNat ZifyN.
From Verif Require Import Base BitfieldModel BitfieldSpec BitfieldProofs WireModel WireSpec WireProofs HandshakeModel HandshakeSpec HandshakeProofs PathModel PathSpec LayoutModel LayoutSpec LayoutProofs PieceMapProofs
  FsModel FsSpec FsProofs OcatProofs SwarmModel SwarmProofs DsModel PptModel PptProofs SessionModel SessionSpec.

(** ** Decoded messages are well-formed *)
Lemma loop_msgs l sp : zlen l < 4294967296 -> forall f idx read ms ms' k, 0 <= read <= idx ->
  Forall (fun m => msg_ok m /\ not_piece m) ms ->
  DecodeAllLoop f (mkslice l sp) idx read ms = Ok (ms', k) -> Forall (fun m => msg_ok m /\ not_piece m) ms'.
Proof.
  intros HL. induction f as [|f IH]; intros idx read ms ms' k Hr HF H; [discriminate|].
  destruct (Z.leb_spec (zlen l) idx) as [E|E].
  { rewrite loop_end in H by assumption. injection H as <- <-. assumption. }
  rewrite !loop_step in H by lia.
  assert (Hi : 0 <= idx < zlen l) by lia.
  dcases l idx HL Hi.
  - rewrite HP in H. discriminate.
  - rewrite HD in H. cbn [d_err d_msg d_read] in H. pose proof (wire_pos m).
    apply IH in H; [assumption|lia|]. apply Forall_app. split; [assumption|]. constructor; [|constructor].
    assert (HLs : zlen (skipn (Z.to_nat idx) l) < 4294967296) by (rewrite zlen_skipn; lia).
    destruct (decode_sound _ m _ HLs HD) as (r & _ & _ & A & C). auto.
  - rewrite HD, He in H. apply IH in H; [assumption|lia|assumption].
Qed.
Lemma DecodeAll_msgs l sp fuel ms k : zlen l < 4294967296 -> DecodeAll fuel (mkslice l sp) = Ok (ms, k) ->
  Forall (fun m => msg_ok m /\ not_piece m) ms.
Proof. intros HL H. eapply loop_msgs; [exact HL| |constructor|exact H]. lia. Qed.

(** ** Sound answers, whatever arrives *)
Definition hinv (P : Z) (ti : torinfo) (contents : list bytes) (s : hstate) : Prop :=
  zlen (vis (hs_buf s)) = P /\ spare (hs_buf s) = [] /\ opened (hs_world s) ti contents.

Lemma opened_same w w' ti cs : disk_same w w' -> opened w ti cs -> opened w' ti cs.
Proof. intros H [inos Ho]. exists inos. eapply disk_same_opened; eassumption. Qed.

Lemma handle_any P hashes files ti own idx b l buf w contents : made P hashes files ti -> opened w ti contents ->
  zlen (vis buf) = P -> spare buf = [] -> P < 4294967283 -> is_u32 idx -> is_u32 b -> is_u32 l ->
  exists r buf' w', handleRequest ti own idx b l buf w = (r, buf', w') /\ zlen (vis buf') = P /\ spare buf' = [] /\ disk_same w w' /\
    (forall out, r = Ok out -> exists ps, out = map wire_of ps /\ Forall (genuine P (zsum (lens_of files)) (zlen hashes / 20) contents own) ps /\
       Forall (fun m => msg_ok m /\ is_piece m = true) ps).
Proof.
  intros Hm [inos Ho] Hb Hs HP32 Hi Hrb Hrl. unfold is_u32 in *. destruct (made_facts _ _ _ _ Hm) as (HP & HT & _).
  unfold handleRequest.
  destruct (if Complete own then Ok true else Get own idx) as [h|e| |] eqn:Eh;
    try (eexists _, buf, w; split; [reflexivity|]; repeat (split; [assumption || apply disk_same_refl|]); intros; discriminate).
  destruct h; [|eexists _, buf, w; split; [reflexivity|]; repeat (split; [assumption || apply disk_same_refl|]); intros out E; injection E as <-; exists []; repeat constructor].
  assert (Hhave : have own idx) by (unfold have; destruct (Complete own); [auto|right; exact Eh]).
  destruct (ReadPiece_spec P hashes files ti idx buf w inos contents Hm Ho) as [Hout Hin].
  destruct (Z_lt_dec idx (zlen hashes / 20)) as [Hlt|Hge].
  2:{ rewrite Hout by lia. eexists _, buf, w. split; [reflexivity|]. repeat (split; [assumption || apply disk_same_refl|]). intros; discriminate. }
  destruct (Hin ltac:(lia)) as (r & buf' & w' & E & Hds & Hcap & Hvz & Hr). rewrite E.
  destruct (opened_total _ _ _ _ _ _ _ Hm Ho) as [_ Hz].
  assert (Hpl : zlen (piece_bytes P contents idx) = psize P (zsum (lens_of files)) idx) by (rewrite zlen_piece_bytes by lia; now rewrite Hz).
  pose proof (psize_le P (zsum (lens_of files)) idx ltac:(lia)) as Hple.
  assert (Hsp : spare buf' = []).
  { unfold scap in Hcap. rewrite Hs in Hcap. change (zlen (@nil byte)) with 0 in Hcap. destruct (spare buf') as [|x q]; [reflexivity|]. rewrite zlen_cons in Hcap. pose proof (zlen_nonneg q). lia. }
  assert (HvP : zlen (vis buf') = P) by lia.
  destruct Hr as [(-> & Eb & _ & _)|[[[er ->] _]|[-> _]]];
    [|eexists _, buf', w'; split; [reflexivity|]; repeat (split; [assumption|]); intros; discriminate..].
  destruct (splice_vis buf (piece_bytes P contents idx)) as [Hv _]; [lia|assumption|]. rewrite <- Eb in Hv.
  unfold sslice, scap. rewrite Hsp. change (zlen (@nil byte)) with 0. rewrite Z.add_0_r, HvP.
  destruct ((0 <=? b) && (b <=? u32 (b + l)) && (u32 (b + l) <=? P)) eqn:C.
  2:{ eexists _, buf', w'. split; [reflexivity|]. repeat (split; [assumption|]). intros; discriminate. }
  eexists _, buf', w'. split; [reflexivity|]. repeat (split; [assumption|]). intros out Eo. injection Eo as <-. cbn [vis].
  assert (Hu : u32 (b + l) = b + l).
  { unfold u32 in *. apply Z.mod_small. destruct (Z_lt_dec (b + l) 4294967296); [lia|]. exfalso.
    assert ((b + l) mod 4294967296 = b + l - 4294967296) by (symmetry; apply Z.mod_unique with (q := 1); lia). lia. }
  rewrite Hu in *. rewrite app_nil_r. set (blk := sub _ _ _).
  assert (Hbl : zlen blk = l) by (unfold blk, zlen in *; rewrite sub_length; lia).
  exists [MPiece idx b blk]. split; [cbn [map]; f_equal; apply Encode_piece; lia|].
  split; [|repeat constructor; unfold is_u32; lia].
  constructor; [|constructor]. exists idx, b, blk. split; [reflexivity|]. split; [lia|]. split; [exact Hhave|]. split; [lia|]. split; [lia|].
  intros Hin'. unfold block. rewrite Hbl in *. rewrite <- piece_range by lia. unfold blk. rewrite Hv. unfold range, sub. rewrite skipn_app, firstn_app.
  replace (Z.to_nat (b + l - b) - _)%nat with 0%nat by (rewrite skipn_length; unfold zlen in Hpl; lia). rewrite firstn_O, app_nil_r. reflexivity.
Qed.

Definition sound (P T n : Z) (cs : list bytes) (own : bitfield) (out : list bytes) : Prop :=
  exists ps, out = map wire_of ps /\ Forall (genuine P T n cs own) ps /\ Forall (fun m => msg_ok m /\ is_piece m = true) ps.
Lemma sound_nil P T n cs own : sound P T n cs own [].
Proof. exists []. repeat constructor. Qed.
Lemma sound_app P T n cs own a b : sound P T n cs own a -> sound P T n cs own b -> sound P T n cs own (a ++ b).
Proof.
  intros (p & -> & F1 & G1) (q & -> & F2 & G2). exists (p ++ q). rewrite map_app. split; [reflexivity|]. split; apply Forall_app; auto.
Qed.

Lemma handle_msg_sound P hashes files c m s contents : made P hashes files (hc_ti c) -> hinv P (hc_ti c) contents s -> P < 4294967283 -> msg_ok m ->
  exists x out s', handle_msg c m s = (x, out, s') /\ hinv P (hc_ti c) contents s' /\ disk_same (hs_world s) (hs_world s') /\
    sound P (zsum (lens_of files)) (zlen hashes / 20) contents (hc_own c) out.
Proof.
  intros Hm (Hb & Hs & Ho) HP Hok. pose proof (conj Hb (conj Hs Ho)) as Hinv.
  assert (Hsame : exists x out s', (Ok tt, @nil bytes, s) = (x, out, s') /\ hinv P (hc_ti c) contents s' /\ disk_same (hs_world s) (hs_world s') /\
    sound P (zsum (lens_of files)) (zlen hashes / 20) contents (hc_own c) out).
  { exists (Ok tt), [], s. split; [reflexivity|]. split; [exact Hinv|]. split; [apply disk_same_refl|apply sound_nil]. }
  destruct m as [| | | | |i|bf|i b l|i b blk]; try exact Hsame; cbn [handle_msg].
  - destruct (handleBitfield _ _ _ _ _ _) as [[x t'] bf']. exists x, [], (mkhs t' bf' (hs_buf s) (hs_world s)).
    split; [reflexivity|]. split; [exact Hinv|]. split; [apply disk_same_refl|apply sound_nil].
  - destruct Hok as (Hi & Hrb & Hrl).
    destruct (handle_any P hashes files (hc_ti c) (hc_own c) i b l (hs_buf s) (hs_world s) contents Hm Ho Hb Hs HP Hi Hrb Hrl) as (r & buf' & w' & E & A1 & A2 & A3 & A4).
    rewrite E. pose proof (opened_same _ _ _ _ A3 Ho) as Ho'.
    destruct r as [out|e| |]; eexists _, _, _; (split; [reflexivity|]); (split; [split; [exact A1|split; [exact A2|exact Ho']]|]); (split; [exact A3|]);
      [exact (A4 out eq_refl)|apply sound_nil..].
Qed.

Lemma handle_msgs_sound P hashes files c contents : made P hashes files (hc_ti c) -> P < 4294967283 -> forall ms s, hinv P (hc_ti c) contents s -> Forall msg_ok ms ->
  exists x out s', handle_msgs c ms s = (x, out, s') /\ hinv P (hc_ti c) contents s' /\ disk_same (hs_world s) (hs_world s') /\
    sound P (zsum (lens_of files)) (zlen hashes / 20) contents (hc_own c) out.
Proof.
  intros Hm HP. induction ms as [|m ms IH]; intros s Hs HF; cbn [handle_msgs].
  - exists (Ok tt), [], s. split; [reflexivity|]. split; [assumption|]. split; [apply disk_same_refl|apply sound_nil].
  - inversion HF as [|? ? H1 H2]. subst. destruct (handle_msg_sound P hashes files c m s contents Hm Hs HP H1) as (x & out & s1 & E & A1 & A2 & A3). rewrite E.
    destruct x as [u|e| |]; try (eexists _, out, s1; split; [reflexivity|]; auto; fail).
    destruct (IH s1 A1 H2) as (x2 & out2 & s2 & E2 & B1 & B2 & B3). rewrite E2. exists x2, (out ++ out2), s2.
    split; [reflexivity|]. split; [assumption|]. split; [eapply disk_same_trans; eassumption|apply sound_app; assumption].
Qed.

Lemma handleMessage_sound P hashes files c contents fuel b s : made P hashes files (hc_ti c) -> P < 4294967283 -> hinv P (hc_ti c) contents s -> zlen (vis b) < 4294967296 ->
  exists x out s', handleMessage fuel c b s = (x, out, s') /\ hinv P (hc_ti c) contents s' /\ disk_same (hs_world s) (hs_world s') /\
    sound P (zsum (lens_of files)) (zlen hashes / 20) contents (hc_own c) out.
Proof.
  intros Hm HP Hs Hb. unfold handleMessage. destruct b as [l sp]. cbn [vis] in Hb. destruct (DecodeAll fuel (mkslice l sp)) as [[ms k]|e| |] eqn:E;
    try (eexists _, [], s; split; [reflexivity|]; split; [assumption|]; split; [apply disk_same_refl|apply sound_nil]).
  apply handle_msgs_sound; try assumption. eapply Forall_impl; [|eapply DecodeAll_msgs; eassumption]. intros m [H _]. exact H.
Qed.

Lemma recv_all_sound P hashes files c contents fuel : made P hashes files (hc_ti c) -> P < 4294967283 -> forall bufs s, hinv P (hc_ti c) contents s ->
  Forall (fun b => zlen (vis b) < 4294967296) bufs ->
  exists x out s', recv_all fuel c bufs s = (x, out, s') /\ hinv P (hc_ti c) contents s' /\ disk_same (hs_world s) (hs_world s') /\
    sound P (zsum (lens_of files)) (zlen hashes / 20) contents (hc_own c) out.
Proof.
  intros Hm HP. induction bufs as [|b bufs IH]; intros s Hs HF; cbn [recv_all].
  - exists (Ok tt), [], s. split; [reflexivity|]. split; [assumption|]. split; [apply disk_same_refl|apply sound_nil].
  - inversion HF as [|? ? H1 H2]. subst. destruct (handleMessage_sound P hashes files c contents fuel b s Hm HP Hs H1) as (x & out & s1 & E & A1 & A2 & A3). rewrite E.
    destruct x as [u|e| |]; try (eexists _, out, s1; split; [reflexivity|]; auto; fail).
    destruct (IH s1 A1 H2) as (x2 & out2 & s2 & E2 & B1 & B2 & B3). rewrite E2. exists x2, (out ++ out2), s2.
    split; [reflexivity|]. split; [assumption|]. split; [eapply disk_same_trans; eassumption|apply sound_app; assumption].
Qed.

(** The top statement: from any handler state with the torrent's files open. *)
Lemma recv_all_genuine P hashes files ti own who contents fuel bufs t bf buf w : made P hashes files ti -> P < 4294967283 -> opened w ti contents ->
  zlen (vis buf) = P -> spare buf = [] -> Forall (fun b => zlen (vis b) < 4294967296) bufs ->
  exists x ps s', recv_all fuel (mkhc ti own who) bufs (mkhs t bf buf w) = (x, map wire_of ps, s') /\
    Forall (genuine P (zsum (lens_of files)) (zlen hashes / 20) contents own) ps /\ disk_same w (hs_world s').
Proof.
  intros Hm HP Ho Hb Hs HF. destruct (recv_all_sound P hashes files (mkhc ti own who) contents fuel Hm HP bufs (mkhs t bf buf w)) as (x & out & s' & E & _ & A2 & ps & -> & G & _);
    [split; [exact Hb|split; [exact Hs|exact Ho]]|exact HF|].
  exists x, ps, s'. auto.
Qed.

(** ** Polite peers get exactly what they ask for *)
Lemma haveb_have own i n : 0 <= i < n -> n <= 8 * zlen (Data own) ->
  (haveb own i = true -> have own i) /\ (haveb own i = false -> Complete own = false /\ Get own i = Ok false).
Proof.
  intros Hi Hn. unfold haveb, have. destruct (Complete own); cbn [orb]; [split; [auto|discriminate]|].
  destruct (Get own i) as [b|e| |] eqn:E.
  - destruct b; split; auto; discriminate.
  - unfold Get in E. repeat match type of E with context [if ?x then _ else _] => destruct x end; try discriminate.
    exfalso. revert E. repeat match goal with |- context [match ?x with _ => _ end] => destruct x end; discriminate.
  - exfalso. apply Get_panics in E. lia.
  - exfalso. unfold Get in E. revert E. repeat match goal with |- context [match ?x with _ => _ end] => destruct x end; discriminate.
Qed.

Lemma same_polite P T n m m' : polite P T n m -> same_msg m m' -> m' = m.
Proof. intros [_ H] Hs. destruct m; cbn [same_msg] in Hs; try assumption. contradiction. Qed.
Lemma same_polite_all P T n ms : Forall (polite P T n) ms -> forall ms', Forall2 same_msg ms ms' -> ms' = ms.
Proof.
  induction 1 as [|m ms H _ IH]; intros ms' F; inversion F; subst; [reflexivity|]. f_equal; [eapply same_polite; eassumption|auto].
Qed.

Lemma handle_msg_polite P hashes files ti own who contents m t bf buf w : made P hashes files ti -> opened w ti contents -> no_faults w ->
  P < 4294967283 -> zlen (vis buf) = P -> spare buf = [] -> zlen hashes / 20 <= 8 * zlen (Data own) ->
  polite P (zsum (lens_of files)) (zlen hashes / 20) m ->
  exists buf', zlen (vis buf') = P /\ spare buf' = [] /\
    handle_msg (mkhc ti own who) m (mkhs t bf buf w) = (Ok tt, reply P contents own m, mkhs t bf buf' w).
Proof.
  intros Hm Ho Hnf HP Hb Hs Hd [Hok Hp].
  assert (Hsame : exists buf', zlen (vis buf') = P /\ spare buf' = [] /\ (Ok tt, @nil bytes, mkhs t bf buf w) = (Ok tt, [], mkhs t bf buf' w)) by (exists buf; auto).
  destruct m as [| | | | |i|bf0|i b l|i b blk]; try contradiction; try exact Hsame.
  destruct Hp as [Hi Hle]. destruct Hok as (_ & Hrb & Hrl). unfold is_u32 in *. cbn [handle_msg hc_ti hc_own hs_buf hs_world hs_ppt hs_bf reply].
  destruct (made_facts _ _ _ _ Hm) as (HP1 & _).
  destruct (haveb_have own i (zlen hashes / 20) Hi Hd) as [H1 H2]. destruct (haveb own i).
  - pose proof (psize_le P (zsum (lens_of files)) i ltac:(lia)).
    destruct (handle_in_piece P hashes files ti own i b l buf w contents Hm Ho Hnf Hi (H1 eq_refl) Hb Hs) as (buf' & A1 & A2 & E); try lia.
    exists buf'. rewrite E. split; [assumption|]. split; [assumption|]. unfold block. f_equal. f_equal. f_equal. apply Encode_piece.
    assert (zlen (range (List.concat contents) (i * P + b) (i * P + b + l)) <= l).
    { unfold range, zlen. replace (i * P + b + l - (i * P + b)) with l by ring. rewrite sub_length. generalize (Z.to_nat (i * P + b)). lia. }
    lia.
  - destruct (H2 eq_refl) as [H3 H4]. exists buf. rewrite handle_refuses by assumption. auto.
Qed.

Lemma handle_msgs_polite P hashes files ti own who contents w : made P hashes files ti -> opened w ti contents -> no_faults w ->
  P < 4294967283 -> zlen hashes / 20 <= 8 * zlen (Data own) -> forall ms t bf buf, zlen (vis buf) = P -> spare buf = [] ->
  Forall (polite P (zsum (lens_of files)) (zlen hashes / 20)) ms ->
  exists buf', zlen (vis buf') = P /\ spare buf' = [] /\
    handle_msgs (mkhc ti own who) ms (mkhs t bf buf w) = (Ok tt, flat_map (reply P contents own) ms, mkhs t bf buf' w).
Proof.
  intros Hm Ho Hnf HP Hd. induction ms as [|m ms IH]; intros t bf buf Hb Hs HF; [exists buf; auto|].
  inversion HF as [|? ? H1 H2]. subst. cbn [handle_msgs flat_map].
  destruct (handle_msg_polite (zlen (vis buf)) hashes files ti own who contents m t bf buf w Hm Ho Hnf HP eq_refl Hs Hd H1) as (b1 & A1 & A2 & ->).
  destruct (IH t bf b1 A1 A2 H2) as (b2 & B1 & B2 & ->). exists b2. auto.
Qed.

(** The buffers of recvLoop when every read holds whole messages. *)
Definition whole_reads (groups : list (list msg)) (spares : list bytes) : list gslice :=
  map (fun p => mkslice (stream (fst p)) (snd p)) (combine groups spares).
Lemma recv_all_polite P hashes files ti own who contents w : made P hashes files ti -> opened w ti contents -> no_faults w ->
  P < 4294967283 -> zlen hashes / 20 <= 8 * zlen (Data own) -> forall groups spares t bf buf, zlen (vis buf) = P -> spare buf = [] ->
  List.length spares = List.length groups ->
  Forall (fun g => Forall (polite P (zsum (lens_of files)) (zlen hashes / 20)) g /\ zlen (stream g) < 4294967296) groups ->
  exists f0 buf', forall fuel, (f0 <= fuel)%nat ->
    recv_all fuel (mkhc ti own who) (whole_reads groups spares) (mkhs t bf buf w) = (Ok tt, flat_map (reply P contents own) (List.concat groups), mkhs t bf buf' w).
Proof.
  intros Hm Ho Hnf HP Hd. induction groups as [|g gs IH]; intros [|sp sps] t bf buf Hb Hs Hlen HF; try discriminate; [exists 0%nat, buf; reflexivity|].
  inversion HF as [|? ? (H1 & H2) HF']. subst.
  assert (Hnp : Forall not_piece g) by (eapply Forall_impl; [|exact H1]; intros m [_ Hx]; destruct m; (exact I || exact Hx)).
  assert (Hok : Forall msg_ok g) by (eapply Forall_impl; [|exact H1]; intros m [Hx _]; exact Hx).
  destruct (DecodeAll_stream g sp Hnp Hok H2) as (ms' & F & R). rewrite (same_polite_all _ _ _ g H1 ms' F) in R.
  destruct (handle_msgs_polite (zlen (vis buf)) hashes files ti own who contents w Hm Ho Hnf HP Hd g t bf buf eq_refl Hs H1) as (b1 & A1 & A2 & E1).
  destruct (IH sps t bf b1 A1 A2 ltac:(cbn in Hlen; lia) HF') as (f2 & b2 & E2).
  exists (Nat.max (S (List.length g)) f2), b2. intros fuel Hf. unfold whole_reads. cbn [combine map recv_all fst snd List.concat]. unfold handleMessage.
  rewrite R by lia. rewrite E1. fold (whole_reads gs sps). rewrite E2 by lia. rewrite flat_map_app. reflexivity.
Qed.

(** A request for a piece that does not exist ends the session: the messages after it are not looked at. *)
Lemma recv_bad_index P hashes files ti own who contents w ms i b l rest t bf buf sp : made P hashes files ti -> opened w ti contents -> no_faults w ->
  P < 4294967283 -> zlen hashes / 20 <= 8 * zlen (Data own) -> zlen (vis buf) = P -> spare buf = [] ->
  Forall (polite P (zsum (lens_of files)) (zlen hashes / 20)) ms -> Complete own = true -> zlen hashes / 20 <= i ->
  msg_ok (MRequest i b l) -> Forall (fun m => msg_ok m /\ not_piece m) rest ->
  zlen (stream (ms ++ MRequest i b l :: rest)) < 4294967296 ->
  exists f0 s', forall fuel, (f0 <= fuel)%nat ->
    handleMessage fuel (mkhc ti own who) (mkslice (stream (ms ++ MRequest i b l :: rest)) sp) (mkhs t bf buf w) =
    (Err EBounds, flat_map (reply P contents own) ms, s').
Proof.
  intros Hm Ho Hnf HP Hd Hb Hs Hms Hc Hi Hok Hrest HL.
  assert (Hnp : Forall not_piece ms) by (eapply Forall_impl; [|exact Hms]; intros m [_ Hx]; destruct m; (exact I || exact Hx)).
  assert (Hok1 : Forall msg_ok ms) by (eapply Forall_impl; [|exact Hms]; intros m [Hx _]; exact Hx).
  assert (Hnp' : Forall not_piece (ms ++ MRequest i b l :: rest)).
  { apply Forall_app. split; [assumption|]. constructor; [exact I|]. eapply Forall_impl; [|exact Hrest]. intros m [_ Hx]; exact Hx. }
  assert (Hok' : Forall msg_ok (ms ++ MRequest i b l :: rest)).
  { apply Forall_app. split; [assumption|]. constructor; [exact Hok|]. eapply Forall_impl; [|exact Hrest]. intros m [Hx _]; exact Hx. }
  destruct (DecodeAll_stream _ sp Hnp' Hok' HL) as (ms' & F & R).
  apply Forall2_app_inv_l in F. destruct F as (m1 & m2 & F1 & F2 & ->). rewrite (same_polite_all _ _ _ ms Hms m1 F1) in R.
  inversion F2 as [|? m3 ? m4 F3 F4]. subst. cbn [same_msg] in F3. subst m3.
  destruct (handle_msgs_polite (zlen (vis buf)) hashes files ti own who contents w Hm Ho Hnf HP Hd ms t bf buf eq_refl Hs Hms) as (b1 & A1 & A2 & E1).
  assert (H0 : 0 <= i) by (destruct Hok as ([? _] & _); assumption).
  destruct (handle_bad_index (zlen (vis buf)) hashes files ti own i b l b1 w Hm H0 Hi) as [Hbad _]. specialize (Hbad Hc).
  exists (S (List.length (ms ++ MRequest i b l :: rest))). eexists. intros fuel Hf. unfold handleMessage. rewrite R by lia.
  assert (Hsplit : forall a s x o s1, handle_msgs (mkhc ti own who) a s = (Ok x, o, s1) -> forall r,
     handle_msgs (mkhc ti own who) (a ++ r) s = (let '(y, o2, s2) := handle_msgs (mkhc ti own who) r s1 in (y, o ++ o2, s2))).
  { clear. induction a as [|m a IH]; intros s x o s1 H r; cbn [handle_msgs app] in *.
    - injection H as _ <- <-. destruct (handle_msgs _ r s) as [[y o2] s2]. reflexivity.
    - destruct (handle_msg _ m s) as [[[u|e| |] o1] s2]; try discriminate. destruct (handle_msgs _ a s2) as [[y o2] s3] eqn:E. injection H as -> <- <-.
      rewrite (IH _ _ _ _ E r). destruct (handle_msgs _ r s3) as [[y o3] s4]. now rewrite app_assoc. }
  rewrite (Hsplit ms _ _ _ _ E1). cbn [handle_msgs handle_msg hc_ti hc_own hs_buf hs_world hs_ppt hs_bf]. rewrite Hbad. rewrite app_nil_r. reflexivity.
Qed.

(** A piece message crashes the handler. *)
Lemma handle_piece_panics fuel c i b blk rest sp s : (1 <= fuel)%nat -> zlen (wire_of (MPiece i b blk) ++ rest) < 4294967296 ->
  handleMessage fuel c (mkslice (wire_of (MPiece i b blk) ++ rest) sp) s = (Panic, [], s).
Proof.
  intros Hf HL. unfold handleMessage, DecodeAll. destruct fuel as [|f]; [lia|].
  pose proof (wire_pos (MPiece i b blk)). pose proof (zlen_nonneg rest).
  rewrite loop_step by (rewrite ?zlen_app in *; lia). change (Z.to_nat 0) with 0%nat. cbn [skipn].
  rewrite <- (DecodeMsg_pure _ sp) by assumption. now rewrite Decode_piece_panics.
Qed.

(** ** requestLoop *)
Lemma fill_silent room fuel ti whom env : forall k, snd (fill_requests room fuel ti whom env k) = [].
Proof.
  induction room as [|room IH]; intros k; cbn [fill_requests]; [reflexivity|].
  destruct (NextPiece _ _ _) as [[[next ok] t']|e| |]; try reflexivity. destruct ok; [|reflexivity].
  destruct (createReqMessages fuel ti next) as [ms|e| |] eqn:E; try reflexivity.
  assert (ms = []).
  { destruct (Z.eq_dec (if next =? ti_npieces ti - 1 then u32 (ti_lastlen ti) else u32 (ti_plen ti)) 0) as [H|H].
    - rewrite (createReq_empty ti next H) in E. congruence.
    - rewrite (createReq_diverges ti next H) in E. discriminate. }
  subst ms. specialize (IH (S k)). destruct (fill_requests room fuel ti whom env (S k)) as [[[n k']|e| |] out]; cbn [snd] in *; now subst.
Qed.
Lemma requestLoop_silent rounds fuel ti whom env : forall k n, snd (requestLoop rounds fuel ti whom env k n) = [].
Proof.
  induction rounds as [|r IH]; intros k n; cbn [requestLoop]; destruct (Complete _); try reflexivity.
  pose proof (fill_silent (5 - n) fuel ti whom env (S k)) as H. destruct (fill_requests _ _ _ _ _ _) as [[[m k']|e| |] out]; cbn [snd] in *; try assumption.
  specialize (IH k' (n + m)%nat). destruct (requestLoop r fuel ti whom env k' (n + m)) as [x out']. cbn [snd] in *. now subst.
Qed.
(** Once a piece is offered the loop never gets past building the messages. *)
Lemma requestLoop_stuck rounds fuel ti whom env k n next t' : Complete (snd (env k)) = false -> (n < 5)%nat ->
  NextPiece (fst (env (S k))) (snd (env (S k))) whom = Ok (next, true, t') ->
  (if next =? ti_npieces ti - 1 then u32 (ti_lastlen ti) else u32 (ti_plen ti)) <> 0 ->
  fst (requestLoop rounds fuel ti whom env k n) = NoFuel.
Proof.
  intros Hc Hn HN Hl. destruct rounds as [|r]; cbn [requestLoop]; rewrite Hc; [reflexivity|].
  destruct (5 - n)%nat as [|room] eqn:E; [lia|]. cbn [fill_requests]. rewrite HN. rewrite (createReq_diverges ti next Hl). reflexivity.
Qed.

(** ** The connection *)
Section Connection.
Context (P : Z) (hashes : bytes) (files : list ebase) (c : hconst) (contents : list bytes).
Hypothesis (Hm : made P hashes files (hc_ti c)) (HP : P < 4294967283).
Let T := zsum (lens_of files).
Let n := zlen hashes / 20.
Let good := genuine_or_alive P T n contents (hc_own c).

Lemma alive_good : good MKeepAlive.
Proof. left. reflexivity. Qed.
Lemma sound_cons f r : sound P T n contents (hc_own c) (f :: r) -> exists m, f = wire_of m /\ good m /\ msg_ok m /\ is_piece m = true /\ sound P T n contents (hc_own c) r.
Proof.
  intros (ps & E & F1 & F2). destruct ps as [|m ps]; [discriminate|]. cbn [map] in E. injection E as -> ->.
  inversion F1 as [|? ? A1 A2]. inversion F2 as [|? ? [B1 B2] B3]. subst. exists m. split; [reflexivity|]. split; [right; assumption|]. split; [assumption|]. split; [assumption|].
  exists ps. auto.
Qed.

Lemma crun_down : forall ls s s', crun c ls s = Some s' -> cn_up s = false -> hinv P (hc_ti c) contents (cn_h s) ->
  Forall (fun d => zlen (vis (snd d)) < 4294967296) (deliveries ls) ->
  cn_out s' = cn_out s /\ cn_up s' = false /\ disk_same (hs_world (cn_h s)) (hs_world (cn_h s')).
Proof.
  induction ls as [|l ls IH]; intros s s' H Hu Hh HF; cbn [crun] in H.
  - injection H as <-. split; [reflexivity|]. split; [assumption|apply disk_same_refl].
  - destruct (cstep c l s) as [s1|] eqn:E; [|discriminate]. destruct l as [fuel b| | |k|k]; cbn [cstep] in E.
    + destruct (cn_pend s); [|discriminate]. destruct (cn_recv s); [|discriminate]. cbn [deliveries] in HF. inversion HF as [|? ? H1 H2]. subst.
      destruct (handleMessage_sound P hashes files c contents fuel b (cn_h s) Hm HP Hh H1) as (x & out & h' & E' & A1 & A2 & _). rewrite E' in E. injection E as <-.
      destruct (IH _ _ H Hu A1 H2) as (B1 & B2 & B3). cbn [cn_out cn_h] in *. split; [assumption|]. split; [assumption|]. eapply disk_same_trans; eassumption.
    + rewrite Hu in E. destruct (cn_pend s); discriminate.
    + rewrite Hu in E. discriminate.
    + rewrite Hu in E. destruct (cn_pend s); discriminate.
    + rewrite Hu in E. discriminate.
Qed.

Lemma crun_spec : forall ls s s', crun c ls s = Some s' -> cn_up s = true -> hinv P (hc_ti c) contents (cn_h s) ->
  sound P T n contents (hc_own c) (cn_pend s) -> Forall (fun d => zlen (vis (snd d)) < 4294967296) (deliveries ls) ->
  exists ms tail rest, cn_out s' = cn_out s ++ stream ms ++ tail /\ Forall good ms /\
    disk_same (hs_world (cn_h s)) (hs_world (cn_h s')) /\
    cn_pend s ++ handled c (deliveries ls) (cn_h s) = map wire_of (filter is_piece ms) ++ rest /\
    (cn_up s' = true -> tail = [] /\ rest = cn_pend s') /\
    exists m, good m /\ begins tail (wire_of m).
Proof.
  induction ls as [|l ls IH]; intros s s' H Hu Hh Hp HF; cbn [crun] in H.
  - injection H as <-. exists [], [], (cn_pend s). cbn [stream flat_map deliveries handled filter map]. rewrite !app_nil_r. split; [reflexivity|]. split; [constructor|].
    split; [apply disk_same_refl|]. split; [reflexivity|]. split; [auto|]. exists MKeepAlive. split; [apply alive_good|]. eexists. reflexivity.
  - destruct (cstep c l s) as [s1|] eqn:E; [|discriminate]. destruct l as [fuel b| | |k|k]; cbn [cstep] in E.
    + destruct (cn_pend s) eqn:Ep; [|discriminate]. destruct (cn_recv s); [|discriminate]. cbn [deliveries] in HF. inversion HF as [|? ? H1 H2]. subst.
      destruct (handleMessage_sound P hashes files c contents fuel b (cn_h s) Hm HP Hh H1) as (x & out & h' & E' & A1 & A2 & A3). rewrite E' in E. injection E as <-.
      destruct (IH _ _ H Hu A1 A3 H2) as (ms & tail & rest & B1 & B2 & B3 & B4 & B5 & B6). cbn [cn_out cn_h cn_pend] in *.
      exists ms, tail, rest. split; [assumption|]. split; [assumption|]. split; [eapply disk_same_trans; eassumption|]. split; [|auto].
      cbn [deliveries handled app]. rewrite E'. exact B4.
    + destruct (cn_pend s) as [|f r] eqn:Ep; [discriminate|]. rewrite Hu in E. injection E as <-.
      destruct (sound_cons f r Hp) as (m & -> & Hg & Hok & Hpc & Hr).
      destruct (IH _ _ H eq_refl Hh Hr HF) as (ms & tail & rest & B1 & B2 & B3 & B4 & B5 & B6). cbn [cn_out cn_h cn_pend] in *.
      exists (m :: ms), tail, rest. split; [rewrite B1; cbn [stream flat_map]; now rewrite <- !app_assoc|]. split; [constructor; assumption|]. split; [assumption|].
      split; [cbn [filter]; rewrite Hpc; cbn [map app deliveries handled]; now rewrite B4|]. auto.
    + rewrite Hu in E. injection E as <-.
      destruct (IH _ _ H eq_refl Hh Hp HF) as (ms & tail & rest & B1 & B2 & B3 & B4 & B5 & B6). cbn [cn_out cn_h cn_pend] in *.
      exists (MKeepAlive :: ms), tail, rest. split; [rewrite B1; cbn [stream flat_map]; now rewrite <- !app_assoc|]. split; [constructor; [apply alive_good|assumption]|].
      split; [assumption|]. split; [exact B4|]. auto.
    + destruct (cn_pend s) as [|f r] eqn:Ep; [discriminate|]. rewrite Hu in E. injection E as <-.
      destruct (sound_cons f r Hp) as (m & -> & Hg & Hok & Hpc & Hr).
      destruct (crun_down _ _ _ H eq_refl Hh HF) as (B1 & B2 & B3). cbn [cn_out cn_h] in *.
      exists [], (firstn k (wire_of m)), ((wire_of m :: r) ++ handled c (deliveries (CWriteFail k :: ls)) (cn_h s)).
      split; [exact B1|]. split; [constructor|]. split; [assumption|]. split; [reflexivity|]. split; [congruence|].
      exists m. split; [assumption|]. exists (skipn k (wire_of m)). symmetry. apply firstn_skipn.
    + rewrite Hu in E. injection E as <-.
      destruct (crun_down _ _ _ H eq_refl Hh HF) as (B1 & B2 & B3). cbn [cn_out cn_h] in *.
      exists [], (firstn k keepalive), (cn_pend s ++ handled c (deliveries (CPingFail k :: ls)) (cn_h s)).
      split; [exact B1|]. split; [constructor|]. split; [assumption|]. split; [reflexivity|]. split; [congruence|].
      exists MKeepAlive. split; [apply alive_good|]. exists (skipn k keepalive). symmetry. apply firstn_skipn.
Qed.
End Connection.

Lemma connection_top P hashes files ti own who contents ih me r wr id t bf w ls s : made P hashes files ti -> P < 4294967283 -> opened w ti contents ->
  msg_ok (MBitfield own) -> (List.length (rd_bytes r) <= 68)%nat -> in_peer (FromIncoming ih me own r wr) = Ok id ->
  Forall (fun d => zlen (vis (snd d)) < 4294967296) (deliveries ls) ->
  crun (mkhc ti own who) ls (accepted (in_sent (FromIncoming ih me own r wr)) (fresh t bf ti w)) = Some s ->
  exists ms tail rest, cn_out s = MakeHandshake ih me ++ stream (MBitfield own :: MUnchoke :: ms) ++ tail /\
    Forall (genuine_or_alive P (zsum (lens_of files)) (zlen hashes / 20) contents own) ms /\
    handled (mkhc ti own who) (deliveries ls) (fresh t bf ti w) = map wire_of (filter is_piece ms) ++ rest /\
    (cn_up s = true -> tail = [] /\ rest = cn_pend s) /\
    (exists m, genuine_or_alive P (zsum (lens_of files)) (zlen hashes / 20) contents own m /\ begins tail (wire_of m)) /\
    disk_same w (hs_world (cn_h s)).
Proof.
  intros Hm HP Ho Hbf Hr Hin HF H. destruct (made_facts _ _ _ _ Hm) as (HP1 & _ & _ & Hpl & _).
  assert (Hh : hinv P ti contents (fresh t bf ti w)).
  { split; [|split; [reflexivity|exact Ho]]. cbn [fresh hs_buf vis]. rewrite Hpl. unfold FsModel.zeros, zlen. rewrite repeat_length. lia. }
  destruct (crun_spec P hashes files (mkhc ti own who) contents Hm HP ls _ s H eq_refl Hh) as (ms & tail & rest & B1 & B2 & B3 & B4 & B5 & B6); [apply sound_nil|exact HF|].
  exists ms, tail, rest. cbn [cn_out cn_h cn_pend accepted app hs_world fresh] in *.
  split.
  - rewrite B1. rewrite (FromIncoming_sent ih me own r wr id Hr Hin). rewrite (Encode_wire (MBitfield own)) by (exact I || exact Hbf).
    rewrite (Encode_wire MUnchoke) by exact I. cbn [stream flat_map]. now rewrite <- !app_assoc.
  - auto.
Qed.

(** A request for more than a piece length crashes the process. *)
Lemma recv_oversized P hashes files ti own who contents w i b l t bf buf sp : made P hashes files ti -> opened w ti contents -> no_faults w ->
  P < 4294967283 -> zlen (vis buf) = P -> spare buf = [] -> 0 <= i < zlen hashes / 20 -> have own i -> msg_ok (MRequest i b l) -> P < b + l ->
  forall fuel, (2 <= fuel)%nat -> exists s', handleMessage fuel (mkhc ti own who) (mkslice (wire_of (MRequest i b l)) sp) (mkhs t bf buf w) = (Panic, [], s').
Proof.
  intros Hm Ho Hnf HP Hb Hs Hi Hh Hok Hlt fuel Hf. pose proof Hok as (H1 & H2 & H3). unfold is_u32 in *.
  destruct (handle_panics_iff P hashes files ti own i b l buf w contents Hm Ho Hnf Hi Hh Hb Hs ltac:(lia) H2 H3) as (r & buf' & E & Hr & _).
  rewrite (proj2 Hr Hlt) in E.
  destruct (DecodeAll_stream [MRequest i b l] sp) as (ms & F & R); [repeat constructor|repeat constructor; apply Hok|cbn [stream flat_map]; rewrite app_nil_r, wire_zlen; cbn; lia|].
  inversion F as [|? m ? r0 F1 F2]. inversion F2. subst. cbn [same_msg] in F1. subst m. cbn [stream flat_map] in R. rewrite app_nil_r in R.
  eexists. unfold handleMessage. rewrite R by (cbn [List.length]; lia). cbn [handle_msgs handle_msg hc_ti hc_own hs_buf hs_world hs_ppt hs_bf]. rewrite E. reflexivity.
Qed.

(** ** After a failure *)
Lemma deaf c ls : forall s s', cn_recv s = false -> crun c ls s = Some s' -> deliveries ls = [].
Proof.
  induction ls as [|l ls IH]; intros s s' Hr H; [reflexivity|]. cbn [crun] in H. destruct (cstep c l s) as [s1|] eqn:E; [|discriminate].
  destruct l as [f b| | |k|k]; cbn [cstep] in E; cbn [deliveries].
  - rewrite Hr in E. destruct (cn_pend s); discriminate.
  - destruct (cn_pend s), (cn_up s); try discriminate. injection E as <-. eapply IH; [|exact H]. exact Hr.
  - destruct (cn_up s); try discriminate. injection E as <-. eapply IH; [|exact H]. exact Hr.
  - destruct (cn_pend s), (cn_up s); try discriminate. injection E as <-. eapply IH; [|exact H]. reflexivity.
  - destruct (cn_up s); try discriminate. injection E as <-. eapply IH; [|exact H]. exact Hr.
Qed.
Lemma stops c l ls s s' : crun c (l :: ls) s = Some s' ->
  (exists k, l = CWriteFail k) \/ (exists f b, l = CDeliver f b /\ forall u, fst (fst (handleMessage f c b (cn_h s))) <> Ok u) -> deliveries ls = [].
Proof.
  intros H HC. cbn [crun] in H. destruct (cstep c l s) as [s1|] eqn:E; [|discriminate]. eapply deaf; [|exact H].
  destruct HC as [(k & ->)|(f & b & -> & Hu)]; cbn [cstep] in E.
  - destruct (cn_pend s), (cn_up s); try discriminate. injection E as <-. reflexivity.
  - destruct (cn_pend s); [|discriminate]. destruct (cn_recv s); [|discriminate].
    destruct (handleMessage f c b (cn_h s)) as [[x out] h']. cbn [fst] in Hu. injection E as <-. cbn [cn_recv]. destruct x as [u| | |]; try reflexivity. now destruct (Hu u).
Qed.
