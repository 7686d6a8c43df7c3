(** LeechProofs.v: downloading from a running swarm. *)
From Coq Require Import ZifyBool ZifyNat ZifyN.
From Verif Require Import Base BencodeModel BitfieldModel BitfieldSpec BitfieldProofs WireModel WireSpec WireProofs HandshakeModel HandshakeSpec HandshakeProofs PathModel PathSpec LayoutModel LayoutSpec PieceMapProofs DsModel PptModel PptSpec PeerModel
  FsModel FsSpec FsProofs OcatProofs ConcProofs SwarmModel SwarmProofs SessionModel SessionSpec SessionProofs RunModel RunSpec RunProofs LeechSpec.

(** ** Reading the stream *)
Lemma num32_be32 z : 0 <= z < 4294967296 -> num32 (z2b (z / 16777216)) (z2b (z / 65536)) (z2b (z / 256)) (z2b z) = z.
Proof.
  intros H. pose proof (rd32_be32 z [] H) as E. unfold be32, rd32 in E. cbn [app] in E. inversion E as [E'].
  unfold num32. rewrite E'. rewrite <- E' at 5. lia.
Qed.
(** The payload of a message. *)
Definition body (m : msg) : bytes := skipn 4 (wire_of m).
Lemma wire_body m : msg_ok m -> wire_of m = be32 (zlen (body m)) ++ body m /\ zlen (body m) < 4294967296.
Proof.
  intros H. destruct m; cbn [msg_ok] in H; unfold body, wire_of, WireSpec.frame; cbn [be32 app skipn]; split; try reflexivity;
    rewrite ?zlen_cons, ?zlen_app; repeat (rewrite (Z.add_comm 1 _); reflexivity); change (zlen (@nil byte)) with 0; unfold be32, zlen in *; cbn [List.length]; try lia.
  all: try (rewrite Z.add_comm; reflexivity).
Qed.
Lemma frames_stream ms : Forall msg_ok ms -> forall fuel, (List.length ms <= fuel)%nat -> frames fuel (stream ms) = Some (map body ms).
Proof.
  induction 1 as [|m ms Hm _ IH]; intros fuel Hf; [destruct fuel; reflexivity|]. cbn [List.length] in Hf. destruct fuel as [|f]; [lia|].
  destruct (wire_body m Hm) as [Hw Hb]. pose proof (zlen_nonneg (body m)). cbn [stream flat_map map]. fold (stream ms). rewrite Hw. unfold be32. cbn [app frames].
  rewrite num32_be32 by lia. rewrite zlen_app. pose proof (zlen_nonneg (stream ms)). replace (zlen (body m) <=? zlen (body m) + zlen (stream ms)) with true by lia.
  replace (Z.to_nat (zlen (body m))) with (List.length (body m) + 0)%nat by (unfold zlen; lia). rewrite firstn_app_2, firstn_O, app_nil_r.
  rewrite skipn_app, skipn_all2 by lia. cbn [app]. replace (List.length (body m) + 0 - List.length (body m))%nat with 0%nat by lia. cbn [skipn].
  rewrite IH by lia. reflexivity.
Qed.
Lemma stream_len ms : (List.length ms <= List.length (stream ms))%nat.
Proof. induction ms as [|m ms IH]; [apply le_n|]. cbn [stream flat_map List.length]. rewrite app_length. fold (stream ms). pose proof (wire_pos m). unfold zlen in *. lia. Qed.
Lemma leech_messages P disk h ms : List.length h = 68%nat -> Forall msg_ok ms -> leech P disk (h ++ stream ms) = Some (fold_left (store P) (map body ms) disk).
Proof.
  intros Hh Hok. unfold leech. rewrite skipn_app, skipn_all2 by lia. rewrite Hh. cbn [Nat.sub app skipn].
  rewrite frames_stream; [reflexivity|assumption|]. rewrite app_length. pose proof (stream_len ms). lia.
Qed.

(** ** What is stored *)
Definition put (P : Z) (disk : bytes) (m : msg) : bytes := match m with MPiece i b blk => over disk (i * P + b) blk | _ => disk end.
Lemma store_body P disk m : msg_ok m -> store P disk (body m) = put P disk m.
Proof.
  intros H. destruct m; cbn [msg_ok] in H; unfold body, wire_of, WireSpec.frame; cbn [be32 app skipn store put]; try reflexivity.
  - destruct (Data bf) as [|d0 [|d1 [|d2 [|d3 [|d4 [|d5 [|d6 [|d7 r]]]]]]]]; reflexivity.
  - destruct H as (H1 & H2 & H3). unfold is_u32 in *. rewrite !num32_be32 by assumption. reflexivity.
Qed.
Lemma store_all P ms : Forall msg_ok ms -> forall disk, fold_left (store P) (map body ms) disk = fold_left (put P) (filter is_piece ms) disk.
Proof.
  induction 1 as [|m ms H _ IH]; intros disk; [reflexivity|]. cbn [map fold_left]. rewrite store_body by assumption. rewrite IH.
  destruct m; reflexivity.
Qed.

Lemma nth_error_skip {A} (l : list A) : forall n x, nth_error (skipn n l) x = nth_error l (n + x).
Proof. induction l as [|a l IH]; intros [|n] x; cbn [skipn Nat.add nth_error]; try reflexivity; [destruct x; reflexivity|apply IH]. Qed.

(** ** The downloaded file *)
Lemma in_file P T i b l : 1 <= P -> 0 <= i -> 0 <= b -> 0 < l -> b + l <= psize P T i -> 0 <= i * P + b /\ i * P + b + l <= T.
Proof. unfold psize, pstart. intros. nia. Qed.
Section Fill.
Context (P T n : Z) (contents : list bytes) (own : bitfield).
Hypotheses (HP : 1 <= P) (HT : zlen (List.concat contents) = T).

Lemma fill_spec reqs : Forall (sound_request P T n) reqs -> forall ms, Forall2 answers reqs ms -> Forall (genuine P T n contents own) ms -> forall disk, zlen disk = T ->
  let disk' := fold_left (put P) ms disk in
  zlen disk' = T /\ forall x, 0 <= x < T ->
    ((exists m, In m reqs /\ wants P m x) -> nth_error disk' (Z.to_nat x) = nth_error (List.concat contents) (Z.to_nat x)) /\
    (~ (exists m, In m reqs /\ wants P m x) -> nth_error disk' (Z.to_nat x) = nth_error disk (Z.to_nat x)).
Proof.
  induction 1 as [|r reqs Hr HF IH]; intros ms HA HG disk HL; inversion HA as [|? m ? ms' Ha HA']; subst; cbn [fold_left].
  { split; [assumption|]. intros x Hx. split; [intros (m & [] & _)|reflexivity]. }
  inversion HG as [|? ? Hg HG']; subst. destruct Ha as (i & b & l & blk & -> & -> & Hl).
  destruct Hg as (i' & b' & blk' & E & Hi & Hh & Hb & Hbl & Hgen). injection E as <- <- <-.
  cbn [sound_request] in Hr. destruct Hr as (_ & _ & Hl0 & Hle). rewrite <- Hl in Hle. specialize (Hgen Hle). rewrite Hl in *.
  set (all := List.concat contents) in *. cbn [put].
  assert (Hst : zlen (over disk (i * P + b) blk) = zlen all /\ forall x, 0 <= x < zlen all -> nth_error (over disk (i * P + b) blk) (Z.to_nat x) =
    if (i * P + b <=? x) && (x <? i * P + b + l) then nth_error all (Z.to_nat x) else nth_error disk (Z.to_nat x)).
  { destruct (Z.eq_dec l 0) as [->|Hn0].
    { destruct blk; [|exfalso; unfold zlen in Hl; cbn [List.length] in Hl; lia]. rewrite over_nil. split; [assumption|]. intros x Hx.
      replace ((i * P + b <=? x) && (x <? i * P + b + 0)) with false by lia. reflexivity. }
    destruct (in_file P (zlen all) i b l HP ltac:(lia) Hb ltac:(lia) Hle) as [B1 B2]. fold all in B2.
    split; [rewrite over_length; lia|]. intros x Hx. rewrite over_nth by lia. rewrite Hl.
    destruct (Z.leb_spec (i * P + b) x); cbn [andb]; [|reflexivity]. destruct (Z.ltb_spec x (i * P + b + l)); [|reflexivity].
    rewrite Hgen. unfold block, range, sub. fold all. rewrite nth_error_firstn_lt by lia. rewrite nth_error_skip. f_equal. lia. }
  destruct Hst as [S1 S2]. destruct (IH ms' HA' HG' (over disk (i * P + b) blk) S1) as [I1 I2]. split; [exact I1|].
  intros x Hx. specialize (I2 x Hx). specialize (S2 x Hx). destruct I2 as [I2 I3].
  assert (Hdec : (exists m, In m reqs /\ wants P m x) \/ ~ (exists m, In m reqs /\ wants P m x)).
  { clear. induction reqs as [|m reqs IH]; [right; intros (m & [] & _)|].
    destruct IH as [(m' & A & B)|IH]; [left; exists m'; split; [right; assumption|assumption]|].
    assert (Hw : wants P m x \/ ~ wants P m x).
    { destruct m; try (right; intros (i & b & l & E & _); discriminate E).
      destruct ((index * P + begin <=? x) && (x <? index * P + begin + reqlen)) eqn:E; [left|right].
      - eexists _, _, _. split; [reflexivity|lia].
      - intros (i & b & l & E' & Hx). injection E' as <- <- <-. lia. }
    destruct Hw as [Hw|Hw]; [left; exists m; split; [left; reflexivity|assumption]|right; intros (m' & [<-|A] & B); [contradiction|apply IH; eauto]]. }
  split.
  - intros (m & [<-|Hin] & Hw); [|apply I2; eauto]. destruct Hdec as [Hy|Hno]; [auto|]. rewrite I3, S2 by assumption.
    destruct Hw as (i0 & b0 & l0 & E0 & Hx0). injection E0 as <- <- <-. replace ((i * P + b <=? x) && (x <? i * P + b + l)) with true by lia. reflexivity.
  - intros Hno. rewrite I3, S2.
    + destruct ((i * P + b <=? x) && (x <? i * P + b + l)) eqn:E; [|reflexivity]. exfalso. apply Hno. eexists. split; [left; reflexivity|]. eexists _, _, _. split; [reflexivity|lia].
    + intros (m & A & B). apply Hno. exists m. split; [right; assumption|assumption].
Qed.
End Fill.

(** ** What a connection's peer has received *)
Lemma Forall2_front {A B} (R : A -> B -> Prop) : forall l2 l1 l2', Forall2 R l1 (l2 ++ l2') -> exists a b, l1 = a ++ b /\ Forall2 R a l2 /\ Forall2 R b l2'.
Proof.
  induction l2 as [|y l2 IH]; intros l1 l2' H; cbn [app] in H; [exists [], l1; repeat split; auto|].
  inversion H as [|x ? l1' ? Hx Hr]; subst. destruct (IH l1' l2' Hr) as (a & b & -> & Ha & Hb). exists (x :: a), b. repeat split; auto.
Qed.

Section Peer.
Context (P : Z) (hashes : bytes) (files : list ebase) (c : sconst) (contents : list bytes) (w0 : world).
Hypothesis (Hup : swarm_up P hashes files c contents w0).
Let n := zlen hashes / 20.
Let T := zsum (lens_of files).
Let own := sc_own c.
Notation Inv := (sinv P hashes files c contents w0).

Lemma up_total : 1 <= P /\ zlen (List.concat contents) = T /\ n <= 8 * zlen (Data own).
Proof.
  destruct Hup as (Hm & _ & _ & Hn & (_ & Hb & _) & inos & Ho). destruct (made_facts _ _ _ _ Hm) as (HP & _). split; [lia|].
  split; [apply (opened_total _ _ _ _ _ _ _ Hm Ho)|]. unfold own. rewrite <- Hb, Hn. unfold bytes_for. fold n. Z.div_mod_to_equations. lia.
Qed.
Lemma genuine_ok m : genuine_or_alive P T n contents own m -> msg_ok m.
Proof.
  destruct Hup as (_ & HP & Hn & _). fold n in Hn. intros [->|(i & b & blk & -> & Hi & _ & Hb & Hl & _)]; [exact I|]. cbn [msg_ok]. unfold is_u32. pose proof (zlen_nonneg blk). lia.
Qed.
Lemma alive_pieces ms : Forall (genuine_or_alive P T n contents own) ms -> Forall (genuine P T n contents own) (filter is_piece ms).
Proof. induction 1 as [|m ms [->|H] _ IH]; [constructor|exact IH|]. cbn [filter]. destruct (is_piece m); [constructor|]; assumption. Qed.
Lemma asked_granted m x : 0 <= x -> sound_request P T n m -> granted P own m x <-> asked own m = true /\ wants P m x.
Proof.
  intros Hx Hs. destruct up_total as (_ & _ & Hd). split.
  - intros (i & b & l & -> & Hh & Hr). split; [|exists i, b, l; auto]. cbn [asked]. unfold haveb. destruct Hh as [->| ->]; [reflexivity|apply Bool.orb_true_r].
  - intros [Ha (i & b & l & -> & Hr)]. exists i, b, l. split; [reflexivity|]. split; [|exact Hr]. cbn [asked sound_request] in *. apply (haveb_have own i n); [lia|exact Hd|exact Ha].
Qed.

(** The bytes a peer has been sent hold the beginning of the answers; when the connection is idle, all. *)
Lemma law_received x disk : lawful P T n contents own (sc_ih c) (sc_id c) x -> k_up x = true -> Forall (sound_request P T n) (k_done x) -> zlen disk = T ->
  exists disk' part, leech P disk (k_out x) = Some disk' /\ zlen disk' = T /\ (exists q, k_done x = part ++ q) /\ (k_pend x = [] -> k_recv x = true -> part = k_done x) /\
    forall y, 0 <= y < T ->
      ((exists m, In m part /\ granted P own m y) -> nth_error disk' (Z.to_nat y) = nth_error (List.concat contents) (Z.to_nat y)) /\
      (~ (exists m, In m part /\ granted P own m y) -> nth_error disk' (Z.to_nat y) = nth_error disk (Z.to_nat y)).
Proof.
  intros (ms & ps & reqs & late & Hg & _ & Ho & Hp & Hr & HA & Hlate) Hk Hs HL. destruct up_total as (HP & HT & Hd). specialize (Ho Hk).
  rewrite filter_app in HA. destruct (Forall2_front _ _ _ _ HA) as (r1 & r2 & Er & HA1 & HA2). apply Forall_app in Hg. destruct Hg as [Hg1 Hg2].
  assert (Hpart : exists part q, k_done x = part ++ q /\ filter (asked own) part = r1 /\ (ps = [] -> late = [] -> part = k_done x)).
  { rewrite Er, <- app_assoc in Hr. destruct (list_eq_dec Nat.eq_dec (map (fun _ => 0%nat) (r2 ++ late)) []) as [E|E].
    - apply map_eq_nil in E. rewrite E, app_nil_r in Hr. exists (k_done x), []. rewrite app_nil_r. auto.
    - assert (Hf : forall l a b, filter (asked own) l = a ++ b -> exists p q, l = p ++ q /\ filter (asked own) p = a).
      { clear. induction l as [|m l IH]; intros a b E; cbn [filter] in E.
        - exists [], []. split; [reflexivity|]. destruct a; [reflexivity|discriminate].
        - destruct (asked own m) eqn:Em.
          + destruct a as [|a0 a]; [exists [], (m :: l); auto|]. injection E as <- E. destruct (IH a b E) as (p & q & -> & Hp). exists (m :: p), q. split; [reflexivity|].
            cbn [filter]. rewrite Em, Hp. reflexivity.
          + destruct (IH a b E) as (p & q & -> & Hp). exists (m :: p), q. split; [reflexivity|]. cbn [filter]. rewrite Em. exact Hp. }
      destruct (Hf _ _ _ Hr) as (p & q & E1 & E2). exists p, q. split; [exact E1|]. split; [exact E2|]. intros -> ->. exfalso. apply E. cbn [filter] in HA2. inversion HA2. reflexivity. }
  destruct Hpart as (part & q & Ed & Ef & Hall).
  assert (Hsp : Forall (sound_request P T n) part) by (rewrite Ed in Hs; apply Forall_app in Hs; apply Hs).
  assert (Hsr : Forall (sound_request P T n) r1) by (rewrite <- Ef; apply Forall_forall; intros m Hm; apply filter_In in Hm; rewrite Forall_forall in Hsp; apply Hsp; apply Hm).
  destruct (fill_spec P T n contents own HP HT r1 Hsr _ HA1 (alive_pieces _ Hg1) disk HL) as [F1 F2].
  exists (fold_left (put P) (filter is_piece ms) disk), part. split.
  { rewrite Ho. rewrite leech_messages; [|apply MakeHandshake_length|].
    - rewrite store_all, filter_app.
      + f_equal. f_equal. unfold opening. destruct (k_in x); reflexivity.
      + apply Forall_app. split; [|eapply Forall_impl; [|exact Hg1]; apply genuine_ok]. destruct Hup as (_ & _ & _ & _ & Hok & _). unfold opening. destruct (k_in x); repeat constructor; apply Hok.
    - apply Forall_app. split; [|eapply Forall_impl; [|exact Hg1]; apply genuine_ok]. destruct Hup as (_ & _ & _ & _ & Hok & _). unfold opening. destruct (k_in x); repeat constructor; apply Hok. }
  split; [exact F1|]. split; [exists q; exact Ed|]. split.
  { intros Hpe Hre. apply Hall; [|apply Hlate; exact Hre]. rewrite Hpe in Hp. destruct ps; [reflexivity|discriminate]. }
  assert (Hiff : forall y, 0 <= y < T -> (exists m, In m part /\ granted P own m y) <-> exists m, In m r1 /\ wants P m y).
  { intros y Hy. rewrite Forall_forall in Hsp. split.
    - intros (m & Hm & Hgr). apply asked_granted in Hgr; [|lia|apply Hsp; exact Hm]. exists m. split; [rewrite <- Ef; apply filter_In; split; [exact Hm|apply Hgr]|apply Hgr].
    - intros (m & Hm & Hw). rewrite <- Ef in Hm. apply filter_In in Hm. exists m. split; [apply Hm|]. apply asked_granted; [lia|apply Hsp; apply Hm|]. split; [apply Hm|exact Hw]. }
  intros y Hy. rewrite Hiff by assumption. apply F2. exact Hy.
Qed.

(** ** Serving a polite peer *)
Definition serving (k : nat) (l : slabel) : Prop := l = SHandle k \/ l = SWrite k.
Lemma drain k : no_faults w0 -> forall N s x, (2 * List.length (k_todo x) + List.length (k_pend x) <= N)%nat -> Inv s -> nth_error (ss_conns s) k = Some x -> k_recv x = true -> k_up x = true ->
  Forall (polite P T n) (k_todo x) ->
  exists ls s' x', Forall (serving k) ls /\ (List.length ls <= N)%nat /\ srun c ls s = Some s' /\ Inv s' /\ nth_error (ss_conns s') k = Some x' /\ idle x' /\ k_up x' = true /\ k_in x' = k_in x /\
    k_done x' = k_done x ++ k_todo x.
Proof.
  intros Hnf. induction N as [|N IH]; intros s x HN HI E Hr Hu Hp.
  { exists [], s, x. destruct (k_todo x) eqn:E1; [|cbn [List.length] in HN; lia]. destruct (k_pend x) eqn:E2; [|cbn [List.length] in HN; lia].
    rewrite app_nil_r. unfold idle. repeat (split; [auto|]). reflexivity. }
  destruct (k_pend x) as [|f r] eqn:Ep.
  - destruct (k_todo x) as [|m r] eqn:Et.
    { exists [], s, x. rewrite app_nil_r. unfold idle. cbn [List.length]. repeat (split; [auto; lia|]). reflexivity. }
    cbn [List.length] in HN. inversion Hp as [|? ? Hm Hp']; subst.
    pose proof (up_step P hashes files c contents w0 Hup s (SHandle k) HI I) as Hst.
    assert (Hh : exists buf', sstep c (SHandle k) s = Went (mkss (ss_ppt s) w0 (lupd (ss_conns s) k (put_rx x (k_bf x) buf' r (k_done x ++ [m]) (reply P contents own m) true)))).
    { cbn [sstep]. rewrite E, Et, Ep, Hr. unfold handle_one. destruct HI as (_ & _ & Hw & Hc). rewrite (Hw Hnf). pose proof (nth_error_Forall _ _ _ _ Hc E) as (B1 & B2 & _ & _).
      destruct Hup as (U1 & U2 & U3 & U4 & U5 & U6). destruct up_total as (_ & _ & Hd).
      destruct (handle_msg_polite P hashes files (sc_ti c) (sc_own c) (k_who x) contents m (ss_ppt s) (k_bf x) (k_buf x) w0 U1 U6 Hnf U2 B1 B2 Hd Hm) as (buf' & _ & _ & Eh).
      exists buf'. rewrite Eh. reflexivity. }
    destruct Hh as (buf' & Hh). rewrite Hh in Hst. destruct Hst as [HI' _]. set (s1 := mkss _ _ _) in *.
    set (x1 := put_rx x (k_bf x) buf' r (k_done x ++ [m]) (reply P contents own m) true) in *.
    assert (E1 : nth_error (ss_conns s1) k = Some x1) by (unfold s1; cbn [ss_conns]; eapply nth_lupd_same; exact E).
    assert (Hrl : (List.length (reply P contents own m) <= 1)%nat) by (unfold reply; destruct m; try (cbn [List.length]; lia); destruct (haveb own index); cbn [List.length]; lia).
    destruct (IH s1 x1) as (ls & s' & x' & L1 & L2 & L3 & L4 & L5 & L6 & L7 & L8 & L9); [unfold x1, put_rx; cbn [k_todo k_pend]; lia|exact HI'|exact E1|reflexivity|exact Hu|exact Hp'|].
    exists (SHandle k :: ls), s', x'. split; [constructor; [left; reflexivity|exact L1]|]. split; [cbn [List.length]; lia|]. cbn [srun]. rewrite Hh. split; [exact L3|].
    repeat (split; [assumption|]). rewrite L9. unfold x1, put_rx. cbn [k_done k_todo]. rewrite <- app_assoc. reflexivity.
  - pose proof (up_step P hashes files c contents w0 Hup s (SWrite k) HI I) as Hst.
    assert (Hh : sstep c (SWrite k) s = Went (put_conn s k (put_tx x r (k_recv x) true (k_out x ++ f)))) by (cbn [sstep]; rewrite E, Ep, Hu; reflexivity).
    rewrite Hh in Hst. destruct Hst as [HI' _]. set (s1 := put_conn _ _ _) in *. set (x1 := put_tx x r (k_recv x) true (k_out x ++ f)) in *.
    assert (E1 : nth_error (ss_conns s1) k = Some x1) by (unfold s1; cbn [put_conn ss_conns]; eapply nth_lupd_same; exact E).
    cbn [List.length] in HN. destruct (IH s1 x1) as (ls & s' & x' & L1 & L2 & L3 & L4 & L5 & L6 & L7 & L8 & L9); [unfold x1, put_tx; cbn [k_todo k_pend]; lia|exact HI'|exact E1|exact Hr|reflexivity|exact Hp|].
    exists (SWrite k :: ls), s', x'. split; [constructor; [right; reflexivity|exact L1]|]. split; [cbn [List.length]; lia|]. cbn [srun]. rewrite Hh. split; [exact L3|].
    repeat (split; [assumption|]). exact L9.
Qed.

Lemma delivered_serving k ls : Forall (serving k) ls -> delivered k ls = [].
Proof. induction 1 as [|l ls [->| ->] _ IH]; [reflexivity| |]; cbn [delivered]; exact IH. Qed.
Lemma serving_fair k ls : Forall (serving k) ls -> Forall fair ls.
Proof. apply Forall_impl. intros l [->| ->]; exact I. Qed.
Lemma serving_own k ls : Forall (serving k) ls -> Forall (fun l => of_conn k l = true) ls.
Proof. apply Forall_impl. intros l [->| ->]; cbn [of_conn]; apply Nat.eqb_refl. Qed.

(** Buffers of whole messages, delivered one after the other and each served. *)
Lemma serve k fuel : no_faults w0 -> forall groups s x, Inv s -> nth_error (ss_conns s) k = Some x -> idle x -> k_up x = true ->
  Forall (fun g => Forall (polite P T n) (fst g) /\ zlen (stream (fst g)) < 4294967296 /\ (List.length (fst g) < fuel)%nat) groups ->
  exists ls s' x', Forall fair ls /\ Forall (fun l => of_conn k l = true) ls /\ delivered k ls = map (fun g => (fuel, mkslice (stream (fst g)) (snd g))) groups /\
    srun c ls s = Some s' /\ Inv s' /\ nth_error (ss_conns s') k = Some x' /\ idle x' /\ k_up x' = true /\ k_in x' = k_in x /\ k_done x' = k_done x ++ List.concat (map fst groups).
Proof.
  intros Hnf. induction groups as [|[g sp] gs IH]; intros s x HI E Hid Hu HF.
  { exists [], s, x. cbn [map List.concat delivered srun]. rewrite app_nil_r. repeat (split; [auto|]). reflexivity. }
  inversion HF as [|? ? (H1 & H2 & H3) HF']; subst. cbn [fst snd] in *. destruct Hid as (I1 & I2 & I3).
  assert (Hfair : fair (SDeliver k fuel (mkslice (stream g) sp))) by exact H2.
  pose proof (up_step P hashes files c contents w0 Hup s _ HI Hfair) as Hst.
  assert (Hnp : Forall not_piece g) by (eapply Forall_impl; [|exact H1]; intros m [_ Hx]; destruct m; (exact I || exact Hx)).
  assert (Hok : Forall msg_ok g) by (eapply Forall_impl; [|exact H1]; intros m [Hx _]; exact Hx).
  destruct (DecodeAll_stream g sp Hnp Hok H2) as (ms' & F & R). rewrite (same_polite_all _ _ _ g H1 ms' F) in R. specialize (R fuel H3).
  assert (Hh : sstep c (SDeliver k fuel (mkslice (stream g) sp)) s = Went (put_conn s k (put_rx x (k_bf x) (k_buf x) g (k_done x) [] true))).
  { cbn [sstep]. rewrite E, I1, I2, I3. unfold decode_one. rewrite R. reflexivity. }
  rewrite Hh in Hst. destruct Hst as [HI' _]. set (s1 := put_conn _ _ _) in *. set (x1 := put_rx x (k_bf x) (k_buf x) g (k_done x) [] true) in *.
  assert (E1 : nth_error (ss_conns s1) k = Some x1) by (unfold s1; cbn [put_conn ss_conns]; eapply nth_lupd_same; exact E).
  destruct (drain k Hnf _ s1 x1 (le_n _) HI' E1 eq_refl Hu H1) as (l1 & s2 & x2 & L1 & _ & L3 & L4 & L5 & L6 & L7 & L8 & L9).
  destruct (IH s2 x2 L4 L5 L6 L7 HF') as (l2 & s3 & x3 & M1 & M2 & M3 & M4 & M5 & M6 & M7 & M8 & M9 & M10).
  exists (SDeliver k fuel (mkslice (stream g) sp) :: l1 ++ l2), s3, x3.
  split; [constructor; [exact Hfair|apply Forall_app; split; [exact (serving_fair k l1 L1)|exact M1]]|].
  split; [constructor; [cbn [of_conn]; apply Nat.eqb_refl|apply Forall_app; split; [exact (serving_own k l1 L1)|exact M2]]|].
  split. { cbn [delivered map fst snd]. rewrite Nat.eqb_refl. rewrite delivered_app, (delivered_serving k l1 L1), M3. reflexivity. }
  cbn [srun]. rewrite Hh, srun_app, L3. split; [exact M4|]. repeat (split; [assumption|]). split; [rewrite M9, L8; reflexivity|].
  rewrite M10, L9. unfold x1, put_rx. cbn [k_done k_todo map List.concat fst]. rewrite <- app_assoc. reflexivity.
Qed.

(** A new connection. *)
Lemma connects s p port rsv id : Inv s -> List.length (sc_ih c) = 20%nat -> List.length rsv = 8%nat -> List.length id = 20%nat ->
  exists s' x, sstep c (SAccept p port (mkread (handshake_of rsv (sc_ih c) id) false) (HandshakeModel.mkw true true) None) s = Went s' /\ Inv s' /\
    nth_error (ss_conns s') (List.length (ss_conns s)) = Some x /\ idle x /\ k_up x = true /\ k_done x = [] /\ k_in x = true.
Proof.
  intros HI Hih Hrs Hid.
  assert (Hlen : List.length (handshake_of rsv (sc_ih c) id) = 68%nat) by (unfold handshake_of; cbn [List.length]; rewrite !app_length, Hih, Hrs, Hid; reflexivity).
  pose proof (up_step P hashes files c contents w0 Hup s (SAccept p port (mkread (handshake_of rsv (sc_ih c) id) false) (HandshakeModel.mkw true true) None) HI) as Hst.
  specialize (Hst ltac:(cbn [fair rd_bytes]; lia)). destruct Hup as (H1 & H2 & H3 & H4 & H5 & H6).
  assert (E : in_peer (FromIncoming (sc_ih c) (sc_id c) (sc_own c) (mkread (handshake_of rsv (sc_ih c) id) false) (HandshakeModel.mkw true true)) = Ok id).
  { apply FromIncoming_iff; [cbn [rd_bytes]; lia|]. cbn [rd_err rd_bytes w_handshake w_bitfield]. repeat split. exists rsv. repeat (split; [assumption|]).
    unfold pad68. rewrite Hlen. cbn [Nat.sub repeat]. apply app_nil_r. }
  cbn [sstep] in *. unfold accept_one in *. rewrite E in *.
  destruct (new_conn_ok P hashes files c contents H1 H5 true (List.length (ss_conns s)) (Key (MakePeer id p port)) (MakeHandshake (sc_ih c) (sc_id c) ++ EncodeMsg (MBitfield (sc_own c))) None ltac:(auto) ltac:(discriminate)) as (x & Ex & Hd & _).
  rewrite (FromIncoming_sent _ _ _ _ _ id) in * by (cbn [rd_bytes]; lia || exact E). rewrite Ex in *. cbn [add_conn] in *. destruct Hst as [HI' _]. eexists _, x. split; [reflexivity|]. split; [exact HI'|].
  cbn [ss_conns]. split; [rewrite nth_error_app2, Nat.sub_diag by lia; reflexivity|].
  unfold new_conn in Ex. destruct (NewBitfield _); try discriminate. cbn [bind] in Ex. inversion Ex; subst. repeat split.
Qed.
End Peer.

(** ** Tops *)
Lemma leech_any P hashes files c contents w0 ls s k x disk : swarm_up P hashes files c contents w0 -> reaches (zlen hashes / 20) c w0 ls s -> nth_error (ss_conns s) k = Some x -> k_up x = true ->
  let T := zsum (lens_of files) in
  Forall (sound_request P T (zlen hashes / 20)) (flat_map decoded (delivered k ls)) -> zlen disk = T ->
  exists disk', leech P disk (k_out x) = Some disk' /\ zlen disk' = T /\
    forall y, 0 <= y < T -> nth_error disk' (Z.to_nat y) = nth_error (List.concat contents) (Z.to_nat y) \/
      nth_error disk' (Z.to_nat y) = nth_error disk (Z.to_nat y).
Proof.
  intros Hup Hr E Hu T Hs HL. pose proof (reach_lawful P hashes files c contents w0 ls s x Hup Hr (nth_error_In _ _ E)) as Hlaw.
  destruct (reach_heard P hashes files c contents w0 ls s k x Hup Hr E) as (rest & Hh & _).
  assert (Hs' : Forall (sound_request P T (zlen hashes / 20)) (k_done x)) by (rewrite <- Hh in Hs; apply Forall_app in Hs; apply Hs).
  destruct (law_received P hashes files c contents w0 Hup x disk Hlaw Hu Hs' HL) as (disk' & part & D1 & D2 & _ & _ & D3). exists disk'. split; [exact D1|]. split; [exact D2|].
  (* whether position y is granted is decidable, but the disjunction follows from one of two facts only *)
  intros y Hy. destruct (D3 y Hy) as [D4 D5].
  assert (Hdec : forall l, (exists m, In m l /\ granted P (sc_own c) m y) \/ ~ (exists m, In m l /\ granted P (sc_own c) m y)).
  { clear. induction l as [|m l IH]; [right; intros (m & [] & _)|]. destruct IH as [(m' & A & B)|IH]; [left; exists m'; split; [right; exact A|exact B]|].
    assert (Hw : granted P (sc_own c) m y \/ ~ granted P (sc_own c) m y).
    { destruct m; try (right; intros (i & b & l' & E & _); discriminate E).
      assert (Hhd : have (sc_own c) index \/ ~ have (sc_own c) index).
      { unfold have. destruct (Complete (sc_own c)); [left; left; reflexivity|]. destruct (Get (sc_own c) index) as [[|]| | |]; [left; right; reflexivity| | | |]; right; intros [H|H]; discriminate H. }
      destruct Hhd as [Hhd|Hhd]; [|right; intros (i & b & l' & E & H & _); injection E as <- <- <-; contradiction].
      destruct ((index * P + begin <=? y) && (y <? index * P + begin + reqlen)) eqn:E; [left; eexists _, _, _; split; [reflexivity|]; split; [exact Hhd|lia]|].
      right. intros (i & b & l' & E' & _ & H). injection E' as <- <- <-. lia. }
    destruct Hw as [Hw|Hw]; [left; exists m; split; [left; reflexivity|exact Hw]|right; intros (m' & [<-|A] & B); [contradiction|apply IH; eauto]]. }
  destruct (Hdec part) as [H|H]; auto.
Qed.

Lemma leech_idle P hashes files c contents w0 ls s k x disk : swarm_up P hashes files c contents w0 -> reaches (zlen hashes / 20) c w0 ls s -> nth_error (ss_conns s) k = Some x ->
  idle x -> k_up x = true ->
  let T := zsum (lens_of files) in let ms := flat_map decoded (delivered k ls) in
  Forall (sound_request P T (zlen hashes / 20)) ms -> zlen disk = T ->
  exists disk', leech P disk (k_out x) = Some disk' /\ zlen disk' = T /\
    forall y, 0 <= y < T ->
      ((exists m, In m ms /\ granted P (sc_own c) m y) -> nth_error disk' (Z.to_nat y) = nth_error (List.concat contents) (Z.to_nat y)) /\
      (~ (exists m, In m ms /\ granted P (sc_own c) m y) -> nth_error disk' (Z.to_nat y) = nth_error disk (Z.to_nat y)).
Proof.
  intros Hup Hr E (I1 & I2 & I3) Hu T ms Hs HL. pose proof (reach_lawful P hashes files c contents w0 ls s x Hup Hr (nth_error_In _ _ E)) as Hlaw.
  destruct (reach_heard P hashes files c contents w0 ls s k x Hup Hr E) as (rest & Hh & Hrest). rewrite (Hrest I3), I1, !app_nil_r in Hh. fold ms in Hh. rewrite <- Hh in *.
  destruct (law_received P hashes files c contents w0 Hup x disk Hlaw Hu Hs HL) as (disk' & part & D1 & D2 & _ & D4 & D3). rewrite (D4 I2 I3) in D3. exists disk'. auto.
Qed.

Lemma same_file (a b : bytes) T : zlen a = T -> zlen b = T -> (forall y, 0 <= y < T -> nth_error a (Z.to_nat y) = nth_error b (Z.to_nat y)) -> a = b.
Proof.
  intros Ha Hb H. apply nth_ext_bytes. intros k. unfold zlen in *. destruct (Nat.lt_ge_cases k (List.length a)) as [E|E].
  - specialize (H (Z.of_nat k) ltac:(lia)). rewrite Nat2Z.id in H. exact H.
  - transitivity (@None byte); [|symmetry]; apply nth_error_None; lia.
Qed.
Lemma polite_sound P T n m : polite P T n m -> sound_request P T n m.
Proof. intros [H1 H2]. destruct m; try exact I. cbn [msg_ok sound_request] in *. unfold is_u32 in *. lia. Qed.

Lemma reaches_more n c w0 ls s more s' : reaches n c w0 ls s -> Forall fair more -> srun c more s = Some s' -> reaches n c w0 (ls ++ more) s'.
Proof. intros (t0 & Ht & Hf & Hr) Hf' Hr'. exists t0. split; [exact Ht|]. split; [apply Forall_app; auto|]. rewrite srun_app, Hr. exact Hr'. Qed.

Lemma served P hashes files c contents w0 ls s k x : swarm_up P hashes files c contents w0 -> no_faults w0 -> reaches (zlen hashes / 20) c w0 ls s -> nth_error (ss_conns s) k = Some x ->
  k_recv x = true -> k_up x = true -> Forall (polite P (zsum (lens_of files)) (zlen hashes / 20)) (k_todo x) ->
  exists more s' x', Forall (fun l => l = SHandle k \/ l = SWrite k) more /\ (List.length more <= 2 * List.length (k_todo x) + List.length (k_pend x))%nat /\ srun c more s = Some s' /\
    nth_error (ss_conns s') k = Some x' /\ idle x' /\ k_up x' = true /\ k_done x' = k_done x ++ k_todo x.
Proof.
  intros Hup Hnf Hr E Hre Hu Hp. destruct (drain P hashes files c contents w0 Hup k Hnf _ s x (le_n _) (up_reach P hashes files c contents w0 Hup ls s Hr) E Hre Hu Hp) as (more & s' & x' & L1 & L2 & L3 & _ & L5 & L6 & L7 & _ & L9).
  exists more, s', x'. auto 10.
Qed.

Lemma download P hashes files c contents w0 ls s p port rsv id fuel groups : swarm_up P hashes files c contents w0 -> no_faults w0 -> reaches (zlen hashes / 20) c w0 ls s ->
  List.length (sc_ih c) = 20%nat -> List.length rsv = 8%nat -> List.length id = 20%nat ->
  let T := zsum (lens_of files) in let n := zlen hashes / 20 in let k := List.length (ss_conns s) in
  Forall (fun g => Forall (polite P T n) (fst g) /\ zlen (stream (fst g)) < 4294967296 /\ (List.length (fst g) < fuel)%nat) groups ->
  (forall y, 0 <= y < T -> exists m, In m (List.concat (map fst groups)) /\ granted P (sc_own c) m y) ->
  exists more s' x, Forall (fun l => of_conn k l = true) more /\ delivered k more = map (fun g => (fuel, mkslice (stream (fst g)) (snd g))) groups /\
    srun c (SAccept p port (mkread (handshake_of rsv (sc_ih c) id) false) (HandshakeModel.mkw true true) None :: more) s = Some s' /\
    nth_error (ss_conns s') k = Some x /\ k_up x = true /\ forall disk, zlen disk = T -> leech P disk (k_out x) = Some (List.concat contents).
Proof.
  intros Hup Hnf Hr Hih Hrs Hid T n k HG Hcov. pose proof (up_reach P hashes files c contents w0 Hup ls s Hr) as HI.
  destruct (connects P hashes files c contents w0 Hup s p port rsv id HI Hih Hrs Hid) as (s1 & x1 & E1 & HI1 & N1 & Id1 & U1 & D1 & K1).
  destruct (serve P hashes files c contents w0 Hup k fuel Hnf groups s1 x1 HI1 N1 Id1 U1 HG) as (more & s2 & x2 & M1 & M2 & M3 & M4 & M5 & M6 & M7 & M8 & M9 & M10).
  assert (Hrun : srun c (SAccept p port (mkread (handshake_of rsv (sc_ih c) id) false) (HandshakeModel.mkw true true) None :: more) s = Some s2) by (cbn [srun]; rewrite E1; exact M4).
  exists more, s2, x2. split; [exact M2|]. split; [exact M3|]. split; [exact Hrun|]. split; [exact M6|]. split; [exact M8|]. intros disk HL.
  destruct HI1 as (_ & _ & _ & _). destruct M5 as (_ & _ & _ & F). pose proof (nth_error_Forall _ _ _ _ F M6) as (_ & _ & _ & Hlaw).
  rewrite D1 in M10. cbn [app] in M10.
  assert (Hs : Forall (sound_request P T n) (k_done x2)).
  { rewrite M10. apply Forall_concat. apply Forall_map. eapply Forall_impl; [|exact HG]. intros g (G1 & _). eapply Forall_impl; [|exact G1]. intros m. apply polite_sound. }
  destruct M7 as (I1 & I2 & I3).
  destruct (law_received P hashes files c contents w0 Hup x2 disk Hlaw M8 Hs HL) as (disk' & part & L1 & L2 & _ & L3 & L4). rewrite (L3 I2 I3) in L4.
  rewrite L1. f_equal. destruct (up_total P hashes files c contents w0 Hup) as (_ & HT & _). apply (same_file _ _ T); [exact L2|exact HT|]. intros y Hy. apply (L4 y Hy). rewrite M10. apply Hcov. exact Hy.
Qed.

(** Asking for each piece once is enough. *)
Lemma ask_all_polite P T n : 1 <= P < 4294967296 -> 0 <= T -> n < 4294967296 -> Forall (polite P T n) (ask_all P T n).
Proof.
  intros HP HT Hn. apply Forall_forall. intros m Hm. apply in_map_iff in Hm. destruct Hm as (k & <- & Hk). apply in_seq in Hk. split.
  - cbn [msg_ok]. unfold is_u32. pose proof (psize_le P T (Z.of_nat k) ltac:(lia)). pose proof (pstart_mono P T (Z.of_nat k) ltac:(lia)). unfold psize in *. lia.
  - lia.
Qed.
Lemma ask_all_covers P T n own : 1 <= P -> T <= n * P -> Complete own = true -> forall y, 0 <= y < T -> exists m, In m (ask_all P T n) /\ granted P own m y.
Proof.
  intros HP HT Hc y Hy. assert (H1 : 0 <= y / P) by (apply Z.div_pos; lia). assert (H2 : y / P < n) by (apply Z.div_lt_upper_bound; nia).
  pose proof (Z.div_mod y P ltac:(lia)) as E. pose proof (Z.mod_pos_bound y P ltac:(lia)) as B. exists (MRequest (y / P) 0 (psize P T (y / P))). split.
  - apply in_map_iff. exists (Z.to_nat (y / P)). rewrite Z2Nat.id by lia. split; [reflexivity|]. apply in_seq. lia.
  - exists (y / P), 0, (psize P T (y / P)). split; [reflexivity|]. split; [left; exact Hc|]. unfold psize, pstart. generalize dependent (y / P). intros q H1 H2 E. nia.
Qed.
