(** NetProofs.v: proofs about networks of gotors (C96). *)
From Coq Require Import ZifyBool ZifyNat ZifyN.
From Verif Require Import Base BitfieldModel BitfieldSpec BitfieldProofs WireModel WireSpec WireProofs HandshakeModel HandshakeSpec HandshakeProofs LayoutModel LayoutSpec DsModel PptModel PptSpec PeerModel
  FsModel FsSpec SwarmModel SessionModel SessionSpec SessionProofs RunModel RunSpec RunProofs LeechSpec LeechProofs NetModel NetSpec.

Definition quiet (m : msg) : Prop := match m with MBitfield _ | MUnchoke | MKeepAlive => True | _ => False end.

(** ** What a step of a swarm does to its connections *)
Definition keeps (x x' : conn) : Prop :=
  k_in x' = k_in x /\ k_who x' = k_who x /\ (exists more, k_out x' = k_out x ++ more) /\ (k_up x = false -> k_up x' = false /\ k_out x' = k_out x) /\
  (k_up x' = true -> k_up x = true).
Lemma keeps_refl x : keeps x x.
Proof. split; [reflexivity|]. split; [reflexivity|]. split; [exists []; now rewrite app_nil_r|]. auto. Qed.

Lemma handle_quiet c m s r out h : quiet m -> handle_msg c m s = (r, out, h) -> out = [].
Proof.
  destruct m; cbn [quiet handle_msg]; intros Hq H; try contradiction; try (inversion H; reflexivity).
  destruct (handleBitfield _ _ _ _ _ _) as [[r' t'] bf']. inversion H. reflexivity.
Qed.

Definition calm (x x' : conn) : Prop := k_pend x = [] -> Forall quiet (k_todo x) -> k_pend x' = [] /\ incl (k_done x' ++ k_todo x') (k_done x ++ k_todo x).
Lemma calm_refl x : calm x x.
Proof. intros H _. split; [exact H|apply incl_refl]. Qed.

(** Every connection stays, says no less, and hears nothing unless something is delivered to it. *)
Lemma step_keeps c l s s' : sstep c l s = Went s' -> forall k x, nth_error (ss_conns s) k = Some x ->
  exists x', nth_error (ss_conns s') k = Some x' /\ keeps x x' /\ ((forall f b, l <> SDeliver k f b) -> calm x x') /\
    (forall f b, l = SDeliver k f b -> k_done x' = k_done x /\ k_pend x' = [] /\ k_todo x = [] /\ (k_todo x' = [] \/ exists n, DecodeAll f b = Ok (k_todo x', n))).
Proof.
  assert (Hadd : forall r, add_conn s r = Went s' -> (forall k f b, l <> SDeliver k f b) -> forall k x, nth_error (ss_conns s) k = Some x ->
    exists x', nth_error (ss_conns s') k = Some x' /\ keeps x x' /\ ((forall f b, l <> SDeliver k f b) -> calm x x') /\
    (forall f b, l = SDeliver k f b -> k_done x' = k_done x /\ k_pend x' = [] /\ k_todo x = [] /\ (k_todo x' = [] \/ exists n, DecodeAll f b = Ok (k_todo x', n)))).
  { intros r H Hl k x E. unfold add_conn in H. destruct r; try discriminate. injection H as <-. exists x. cbn [ss_conns]. split.
    - rewrite nth_error_app1; [exact E|]. apply nth_error_Some. congruence.
    - split; [apply keeps_refl|]. split; [intros _; apply calm_refl|]. intros f b H. destruct (Hl k f b H). }
  assert (Hsame : ss_conns s' = ss_conns s -> (forall k f b, l <> SDeliver k f b) -> forall k x, nth_error (ss_conns s) k = Some x ->
    exists x', nth_error (ss_conns s') k = Some x' /\ keeps x x' /\ ((forall f b, l <> SDeliver k f b) -> calm x x') /\
    (forall f b, l = SDeliver k f b -> k_done x' = k_done x /\ k_pend x' = [] /\ k_todo x = [] /\ (k_todo x' = [] \/ exists n, DecodeAll f b = Ok (k_todo x', n)))).
  { intros H Hl k x E. exists x. rewrite H. split; [exact E|]. split; [apply keeps_refl|]. split; [intros _; apply calm_refl|]. intros f b H'. destruct (Hl k f b H'). }
  assert (Hput : forall k0 x0 x0', nth_error (ss_conns s) k0 = Some x0 -> ss_conns s' = lupd (ss_conns s) k0 x0' -> keeps x0 x0' ->
    (forall k f b, k <> k0 -> l <> SDeliver k f b) -> ((forall f b, l <> SDeliver k0 f b) -> calm x0 x0') ->
    (forall f b, l = SDeliver k0 f b -> k_done x0' = k_done x0 /\ k_pend x0' = [] /\ k_todo x0 = [] /\ (k_todo x0' = [] \/ exists n, DecodeAll f b = Ok (k_todo x0', n))) ->
    forall k x, nth_error (ss_conns s) k = Some x ->
    exists x', nth_error (ss_conns s') k = Some x' /\ keeps x x' /\ ((forall f b, l <> SDeliver k f b) -> calm x x') /\
    (forall f b, l = SDeliver k f b -> k_done x' = k_done x /\ k_pend x' = [] /\ k_todo x = [] /\ (k_todo x' = [] \/ exists n, DecodeAll f b = Ok (k_todo x', n)))).
  { intros k0 x0 x0' E0 H H1 H2 H3 H4 k x E. destruct (Nat.eq_dec k k0) as [->|Hne].
    - assert (x = x0) by congruence. subst x. exists x0'. rewrite H, (nth_lupd_same _ _ _ _ E0). auto.
    - exists x. rewrite H, nth_lupd_other by assumption. split; [exact E|]. split; [apply keeps_refl|]. split; [intros _; apply calm_refl|]. intros f b H'. destruct (H2 k f b Hne H'). }
  intros H.
  destruct l as [p port r wr u|p u|k0 fuel b|k0|k0|k0 j|k0|k0 j|k0|k0]; cbn [sstep] in H.
  - unfold accept_one in H. destruct (in_peer _); try discriminate; [eapply Hadd; [exact H|discriminate]|]. injection H as <-. apply Hsame; [reflexivity|discriminate].
  - eapply Hadd; [exact H|discriminate].
  - destruct (nth_error (ss_conns s) k0) as [x0|] eqn:E0; [|discriminate]. destruct (k_todo x0) eqn:Et; [|discriminate]. destruct (k_pend x0) eqn:Ep; [|discriminate]. destruct (k_recv x0); [|discriminate].
    unfold decode_one in H. destruct (DecodeAll fuel b) as [[ms rest]|e| |] eqn:ED; try discriminate; injection H as <-; (eapply (Hput k0 x0); [exact E0|reflexivity| | | |]);
      try (split; [reflexivity|]; split; [reflexivity|]; split; [exists []; cbn [put_rx k_out]; now rewrite app_nil_r|]; cbn [put_rx k_up k_out]; auto);
      try (intros k f b' Hne Heq; congruence); try (intros Hl; exfalso; eapply Hl; reflexivity).
    + intros f b' Heq. injection Heq as <- <-. cbn [put_rx k_done k_pend k_todo]. repeat split; auto. right. exists rest. exact ED.
    + intros f b' Heq. cbn [put_rx k_done k_pend k_todo]. repeat split; auto.
    + intros f b' Heq. cbn [put_rx k_done k_pend k_todo]. repeat split; auto.
  - destruct (nth_error (ss_conns s) k0) as [x0|] eqn:E0; [|discriminate]. destruct (k_todo x0) as [|m r] eqn:Et; [discriminate|]. destruct (k_pend x0) eqn:Ep; [|discriminate]. destruct (k_recv x0); [|discriminate].
    unfold handle_one in H. destruct (handle_msg _ _ _) as [[r0 out] h] eqn:EH. 
    destruct r0; try discriminate; injection H as <-; (eapply (Hput k0 x0); [exact E0|reflexivity| | | |]); try discriminate;
      try (split; [reflexivity|]; split; [reflexivity|]; split; [exists []; cbn [put_rx k_out]; now rewrite app_nil_r|]; cbn [put_rx k_up k_out]; auto);
      intros _ _ Hq; rewrite Et in *; apply Forall_inv in Hq; rewrite (handle_quiet _ _ _ _ _ _ Hq EH); cbn [put_rx k_pend k_done k_todo]; (split; [reflexivity|]);
      intros y Hy; rewrite ?in_app_iff in *; cbn [In] in *; tauto.
  - destruct (nth_error (ss_conns s) k0) as [x0|] eqn:E0; [|discriminate]. destruct (k_pend x0) eqn:Ep; [discriminate|]. destruct (k_up x0) eqn:Eu; [|discriminate].
    injection H as <-; (eapply (Hput k0 x0); [exact E0|reflexivity| | | |]); try discriminate.
    + split; [reflexivity|]. split; [reflexivity|]. split; [eexists; reflexivity|]. cbn [put_tx k_up k_out]. split; [congruence|auto].
    + intros _ H. congruence.
  - destruct (nth_error (ss_conns s) k0) as [x0|] eqn:E0; [|discriminate]. destruct (k_pend x0) eqn:Ep; [discriminate|].
    injection H as <-; (eapply (Hput k0 x0); [exact E0|reflexivity| | | |]); try discriminate.
    + split; [reflexivity|]. split; [reflexivity|]. split; [eexists; reflexivity|]. cbn [put_tx k_up k_out]. split; [intros ->; split; [reflexivity|apply app_nil_r]|discriminate].
    + intros _ H. congruence.
  - destruct (nth_error (ss_conns s) k0) as [x0|] eqn:E0; [|discriminate]. destruct (k_up x0) eqn:Eu; [|discriminate].
    injection H as <-; (eapply (Hput k0 x0); [exact E0|reflexivity| | | |]); try discriminate.
    + split; [reflexivity|]. split; [reflexivity|]. split; [eexists; reflexivity|]. cbn [put_tx k_up k_out]. split; [congruence|auto].
    + intros _ H _. split; [exact H|apply incl_refl].
  - destruct (nth_error (ss_conns s) k0) as [x0|] eqn:E0; [|discriminate].
    injection H as <-; (eapply (Hput k0 x0); [exact E0|reflexivity| | | |]); try discriminate.
    + split; [reflexivity|]. split; [reflexivity|]. split; [eexists; reflexivity|]. cbn [put_tx k_up k_out]. split; [intros ->; split; [reflexivity|apply app_nil_r]|discriminate].
    + intros _ H _. split; [exact H|apply incl_refl].
  - destruct (nth_error (ss_conns s) k0) as [x0|] eqn:E0; [|discriminate]. destruct (k_todo x0) eqn:Et; [|discriminate]. destruct (k_pend x0) eqn:Ep; [|discriminate].
    injection H as <-; (eapply (Hput k0 x0); [exact E0|reflexivity| | | |]); try discriminate.
    + split; [reflexivity|]. split; [reflexivity|]. split; [exists []; cbn [put_tx k_out]; now rewrite app_nil_r|]. cbn [put_tx k_up k_out]. auto.
    + intros _ H _. split; [reflexivity|]. cbn [put_tx k_done k_todo]. apply incl_refl.
  - destruct (nth_error (ss_conns s) k0) as [x0|] eqn:E0; [|discriminate]. destruct (Complete (sc_own c)); [discriminate|].
    unfold next_one in H. destruct (NextPiece _ _ _) as [[[i g] t']|e| |]; try discriminate. injection H as <-. apply Hsame; [reflexivity|discriminate].
Qed.

(** Only dialling and accepting make a connection, and one. *)
Definition fresh (x : conn) : Prop := k_todo x = [] /\ k_done x = [] /\ k_pend x = [] /\ (68 <= List.length (k_out x))%nat.
Lemma accepted_sent ih me bf r w id : in_peer (FromIncoming ih me bf r w) = Ok id -> (68 <= List.length (in_sent (FromIncoming ih me bf r w)))%nat.
Proof.
  unfold FromIncoming. destruct (rd_err r); [discriminate|]. destruct (ValidHandshake _ _) as [[]| | |]; try discriminate. destruct (negb (w_handshake w)); [discriminate|]. destruct (negb (w_bitfield w)); [discriminate|].
  cbn [in_peer in_sent]. intros _. rewrite app_length, MakeHandshake_length. lia.
Qed.
Lemma step_adds c l s s' : sstep c l s = Went s' ->
  List.length (ss_conns s') = List.length (ss_conns s) \/
  (List.length (ss_conns s') = S (List.length (ss_conns s)) /\ exists x, nth_error (ss_conns s') (List.length (ss_conns s)) = Some x /\ fresh x /\
    ((exists p u, l = SDial p u /\ k_in x = false) \/ (exists p port r wr u, l = SAccept p port r wr u /\ k_in x = true))).
Proof.
  assert (HL : forall k (x : conn), List.length (lupd (ss_conns s) k x) = List.length (ss_conns s)) by (intros; apply lupd_length).
  assert (Hn : forall inc ptr key sent u x, new_conn c inc ptr key sent u = Ok x -> (68 <= List.length sent)%nat -> fresh x /\ k_in x = inc).
  { intros inc ptr key sent u x H HS. unfold new_conn in H. destruct (NewBitfield _); try discriminate. cbn [bind] in H. unfold fresh.
    destruct u; inversion H; cbn [k_todo k_done k_pend k_out k_in]; (split; [|reflexivity]); repeat (split; [reflexivity|]); rewrite app_length; lia. }
  intros H.
  destruct l as [p port r wr u|p u|k0 fuel b|k0|k0|k0 j|k0|k0 j|k0|k0]; cbn [sstep] in H.
  - unfold accept_one in H. destruct (in_peer _) eqn:EP; try discriminate; [|injection H as <-; auto].
    unfold add_conn in H. destruct (new_conn _ _ _ _ _ _) as [x| | |] eqn:E; try discriminate. injection H as <-. right. cbn [ss_conns]. rewrite app_length. cbn [List.length]. split; [lia|].
    exists x. rewrite nth_error_app2, Nat.sub_diag by lia. destruct (Hn _ _ _ _ _ _ E (accepted_sent _ _ _ _ _ _ EP)) as [H1 H2]. split; [reflexivity|]. split; [exact H1|]. right. do 5 eexists. split; [reflexivity|exact H2].
  - unfold add_conn in H. destruct (new_conn _ _ _ _ _ _) as [x| | |] eqn:E; try discriminate. injection H as <-. right. cbn [ss_conns]. rewrite app_length. cbn [List.length]. split; [lia|].
    exists x. rewrite nth_error_app2, Nat.sub_diag by lia. destruct (Hn _ _ _ _ _ _ E) as [H1 H2]; [unfold FromBootstrap_sent; rewrite MakeHandshake_length; lia|]. split; [reflexivity|]. split; [exact H1|]. left. do 2 eexists. split; [reflexivity|exact H2].
  - left. destruct (nth_error (ss_conns s) k0) as [x0|]; [|discriminate]. destruct (k_todo x0), (k_pend x0), (k_recv x0); try discriminate. unfold decode_one in H. destruct (DecodeAll _ _) as [[? ?]| | |]; try discriminate; injection H as <-; apply HL.
  - left. destruct (nth_error (ss_conns s) k0) as [x0|]; [|discriminate]. destruct (k_todo x0), (k_pend x0), (k_recv x0); try discriminate. unfold handle_one in H. destruct (handle_msg _ _ _) as [[[] ?] ?]; try discriminate; injection H as <-; apply HL.
  - left. destruct (nth_error (ss_conns s) k0) as [x0|]; [|discriminate]. destruct (k_pend x0), (k_up x0); try discriminate. injection H as <-; apply HL.
  - left. destruct (nth_error (ss_conns s) k0) as [x0|]; [|discriminate]. destruct (k_pend x0); try discriminate. injection H as <-; apply HL.
  - left. destruct (nth_error (ss_conns s) k0) as [x0|]; [|discriminate]. destruct (k_up x0); try discriminate. injection H as <-; apply HL.
  - left. destruct (nth_error (ss_conns s) k0) as [x0|]; [|discriminate]. injection H as <-; apply HL.
  - left. destruct (nth_error (ss_conns s) k0) as [x0|]; [|discriminate]. destruct (k_todo x0), (k_pend x0); try discriminate. injection H as <-; apply HL.
  - left. destruct (nth_error (ss_conns s) k0) as [x0|]; [|discriminate]. destruct (Complete _); try discriminate. unfold next_one in H. destruct (NextPiece _ _ _) as [[[? ?] ?]| | |]; try discriminate. injection H as <-. reflexivity.
Qed.

(** ** Message boundaries *)
Lemma skipn_app_le {A} (a b : list A) n : (n <= List.length a)%nat -> skipn n (a ++ b) = skipn n a ++ b.
Proof. intros H. rewrite skipn_app. now replace (n - List.length a)%nat with 0%nat by lia. Qed.
Lemma boundary_le s p : boundary s p -> (68 <= p <= List.length s)%nat.
Proof.
  induction 1 as [H|p a b c d r Hb IH E Hn]; [lia|]. assert (HL : List.length (skipn p s) = (4 + List.length r)%nat) by (rewrite E; reflexivity). rewrite skipn_length in HL.
  unfold zlen in Hn. lia.
Qed.
Lemma boundary_app s t p : boundary s p -> boundary (s ++ t) p.
Proof.
  induction 1 as [H|p a b c d r Hb IH E Hn].
  - apply after_handshake. rewrite app_length. lia.
  - apply (after_message _ p a b c d (r ++ t)); [exact IH| |rewrite zlen_app; pose proof (zlen_nonneg t); lia].
    rewrite skipn_app_le by (apply boundary_le in Hb; lia). rewrite E. reflexivity.
Qed.
Lemma wire_head m : msg_ok m -> exists a b c d, wire_of m = a :: b :: c :: d :: body m /\ num32 a b c d = zlen (body m).
Proof.
  intros H. destruct (wire_body m H) as [-> Hl]. do 4 eexists. split; [reflexivity|]. apply num32_be32. pose proof (zlen_nonneg (body m)). lia.
Qed.
Lemma boundary_stream h ms : List.length h = 68%nat -> Forall msg_ok ms -> boundary (h ++ stream ms) (List.length (h ++ stream ms)).
Proof.
  intros Hh. rewrite <- (rev_involutive ms). induction (rev ms) as [|m r IH]; intros Hm; cbn [rev].
  - cbn [stream flat_map]. rewrite app_nil_r, Hh. apply after_handshake. lia.
  - cbn [rev] in Hm. apply Forall_app in Hm. destruct Hm as [Hr Hm]. apply Forall_inv in Hm. destruct (wire_head m Hm) as (a & b & c & d & E & En).
    rewrite stream_app. cbn [stream flat_map]. rewrite app_nil_r, E, !app_assoc. specialize (IH Hr).
    replace (List.length ((h ++ stream (rev r)) ++ a :: b :: c :: d :: body m)) with (List.length (h ++ stream (rev r)) + 4 + Z.to_nat (num32 a b c d))%nat.
    + apply (after_message _ _ a b c d (body m)); [now apply boundary_app| |lia]. rewrite skipn_app, skipn_all, Nat.sub_diag. reflexivity.
    + rewrite (app_length _ (a :: _)). cbn [List.length]. rewrite En. unfold zlen. lia.
Qed.
Lemma app_split {A} (a b c d : list A) : a ++ b = c ++ d -> (List.length a <= List.length c)%nat -> exists e, c = a ++ e /\ b = e ++ d.
Proof.
  revert c. induction a as [|x a IH]; intros c H HL; cbn [app] in *; [eauto|]. destruct c as [|y c]; cbn [List.length app] in *; [lia|]. injection H as -> H.
  destruct (IH c H) as (e & -> & ->); [lia|]. eauto.
Qed.
(** In the beginning of a stream, boundaries are ends of messages. *)
Lemma boundary_of s h ms : List.length h = 68%nat -> Forall msg_ok ms -> begins s (h ++ stream ms) -> forall p, boundary s p ->
  exists a b, ms = a ++ b /\ firstn p s = h ++ stream a.
Proof.
  intros Hh Hm [q Hq] p Hb. induction Hb as [HL|p x y z w r Hb IH E Hn].
  - exists [], ms. split; [reflexivity|]. cbn [stream flat_map]. rewrite app_nil_r. destruct (app_split _ _ _ _ Hq) as (e & -> & _); [lia|].
    rewrite <- Hh, firstn_app, Nat.sub_diag, firstn_O, app_nil_r. apply firstn_all.
  - destruct IH as (a & b & -> & Ea). pose proof (boundary_le _ _ Hb) as [_ HL]. rewrite <- (firstn_skipn p s), Ea, E, stream_app, app_assoc, <- app_assoc in Hq. rewrite <- (app_assoc h (stream a)) in Hq.
    rewrite <- !app_assoc in Hq. apply app_inv_head in Hq. apply app_inv_head in Hq.
    destruct b as [|m b]; [discriminate Hq|]. apply Forall_app in Hm. destruct Hm as [_ Hm]. apply Forall_inv in Hm.
    destruct (wire_head m Hm) as (x' & y' & z' & w' & Ew & En). cbn [stream flat_map] in Hq. rewrite Ew in Hq. cbn [app] in Hq. injection Hq as -> -> -> -> Hq.
    exists (a ++ [m]), b. split; [rewrite <- app_assoc; reflexivity|]. rewrite stream_app. cbn [stream flat_map]. rewrite app_nil_r, Ew.
    rewrite En. rewrite En in Hn. destruct (app_split _ _ _ _ Hq) as (e & -> & _); [unfold zlen in Hn; lia|].
    rewrite <- (firstn_skipn p s) at 1. rewrite E. replace (p + 4 + Z.to_nat (zlen (body m)))%nat with (List.length (firstn p s) + (4 + List.length (body m)))%nat by (rewrite firstn_length; unfold zlen; lia).
    rewrite firstn_app_2, Ea. cbn [firstn app Nat.add]. rewrite <- app_assoc. f_equal. f_equal. do 4 f_equal. rewrite firstn_app, Nat.sub_diag. cbn [firstn]. rewrite app_nil_r. now rewrite firstn_all.
Qed.

(** ** Decoding the beginning of a stream *)
Lemma begins_stream ms : Forall msg_ok ms -> forall s, begins s (stream ms) -> exists e f t, ms = e ++ f /\ s = stream e ++ t /\ (t = [] \/ cut_message t).
Proof.
  induction ms as [|m ms IH]; intros Hm s [q Hq]; cbn [stream flat_map] in Hq.
  - symmetry in Hq. apply app_eq_nil in Hq. destruct Hq as [-> ->]. exists [], [], []. repeat split. auto.
  - inversion Hm as [|? ? Hm0 Hms]; subst. destruct (Nat.le_gt_cases (List.length (wire_of m)) (List.length s)) as [HL|HL].
    + destruct (app_split _ _ _ _ Hq HL) as (s' & -> & Hq'). destruct (IH Hms s' (ex_intro _ q Hq')) as (e & f & t & -> & -> & Ht).
      exists (m :: e), f, t. split; [reflexivity|]. split; [|exact Ht]. cbn [stream flat_map]. now rewrite app_assoc.
    + symmetry in Hq. destruct (app_split _ _ _ _ Hq ltac:(lia)) as (e & E & Hq'). exists [], (m :: ms), s. split; [reflexivity|]. split; [reflexivity|]. destruct s as [|b s]; [auto|].
      right. exists m, e. split; [exact Hm0|]. split; [exact E|]. split; [discriminate|]. intros ->. rewrite app_nil_r in E. rewrite E in HL. lia.
Qed.
Lemma decode_begins ms s sp fuel : Forall msg_ok ms -> Forall not_piece ms -> begins s (stream ms) -> zlen s < 4294967296 -> (List.length s < fuel)%nat ->
  exists e f ms' n, ms = e ++ f /\ Forall2 same_msg e ms' /\ DecodeAll fuel (mkslice s sp) = Ok (ms', n).
Proof.
  intros Hm Hp Hb HL Hf. destruct (begins_stream ms Hm s Hb) as (e & f & t & -> & -> & Ht). apply Forall_app in Hm. apply Forall_app in Hp. pose proof (stream_len e) as He. rewrite app_length in Hf.
  destruct Ht as [->|Ht].
  - rewrite app_nil_r in *. destruct (DecodeAll_stream e sp (proj1 Hp) (proj1 Hm) HL) as (ms' & Hs & Hd). exists e, f, ms'. eexists. split; [reflexivity|]. split; [exact Hs|]. apply Hd. cbn [List.length] in Hf. lia.
  - destruct (DecodeAll_stream_cut e t sp (proj1 Hp) (proj1 Hm) Ht HL) as (ms' & Hs & Hd). exists e, f, ms'. eexists. split; [reflexivity|]. split; [exact Hs|]. apply Hd.
    destruct Ht as (_ & _ & _ & _ & Ht & _). destruct t; [congruence|]. cbn [List.length] in Hf. lia.
Qed.
Lemma same_quiet e ms' : Forall2 same_msg e ms' -> Forall quiet e -> Forall quiet ms' /\
  (forall bf', In (MBitfield bf') ms' -> exists bf, In (MBitfield bf) e /\ Data bf' = Data bf).
Proof.
  induction 1 as [|m m' e ms' Hs HF IH]; intros Hq; [split; [constructor|intros bf' []]|]. inversion Hq as [|? ? Hq1 Hq2]; subst. destruct (IH Hq2) as [I1 I2]. destruct m; try contradiction; cbn [same_msg] in Hs.
  - subst m'. split; [constructor; [exact Logic.I|exact I1]|]. intros bf' [H|H]; [discriminate H|]. destruct (I2 bf' H) as (bf & H1 & H2). exists bf. split; [right; exact H1|exact H2].
  - subst m'. split; [constructor; [exact Logic.I|exact I1]|]. intros bf' [H|H]; [discriminate H|]. destruct (I2 bf' H) as (bf & H1 & H2). exists bf. split; [right; exact H1|exact H2].
  - destruct Hs as (b' & -> & _ & Hd). split; [constructor; [exact Logic.I|exact I1]|]. intros bf' [H|H]; [injection H as <-; eexists; split; [left; reflexivity|exact Hd]|].
    destruct (I2 bf' H) as (bf0 & H1 & H2). exists bf0. split; [right; exact H1|exact H2].
Qed.

(** ** What a connection that has heard nothing but bitfields, unchokes and keep-alives has said *)
Lemma alive_repeat P T n contents own ms : Forall (genuine_or_alive P T n contents own) ms -> filter is_piece ms = [] -> ms = repeat MKeepAlive (List.length ms).
Proof.
  induction 1 as [|m ms Hm HF IH]; intros H; [reflexivity|]. cbn [filter] in H. destruct Hm as [->|(i & b & blk & -> & _)]; [|discriminate H]. cbn [List.length repeat]. f_equal. apply IH. exact H.
Qed.
Lemma quiet_asked own l : Forall quiet l -> filter (asked own) l = [].
Proof. induction 1 as [|m l Hm HF IH]; [reflexivity|]. destruct m; try contradiction; exact IH. Qed.
Lemma idles_of st ls s x : site_up st -> reaches (st_n st) (st_c st) (st_w st) ls s -> In x (ss_conns s) -> Forall quiet (k_done x) -> idles (st_c st) x.
Proof.
  intros Hu Hr Hx Hq. destruct (reach_lawful _ _ _ _ _ _ _ _ _ Hu Hr Hx) as (ms & ps & reqs & late & H1 & H2 & H3 & _ & H5 & H6 & _).
  rewrite (quiet_asked _ _ Hq) in H5. symmetry in H5. apply app_eq_nil in H5. destruct H5 as [-> ->]. assert (E : filter is_piece (ms ++ ps) = []) by (inversion H6; reflexivity). rewrite filter_app in E. apply app_eq_nil in E. destruct E as [E _].
  apply Forall_app in H1. destruct H1 as [H1 _]. rewrite (alive_repeat _ _ _ _ _ _ H1 E) in H2, H3. exists (List.length ms). split; assumption.
Qed.
Lemma up_bitfield st : site_up st -> msg_ok (MBitfield (sc_own (st_c st))).
Proof. intros H. apply H. Qed.
Lemma opening_ok st x t : site_up st -> Forall msg_ok (opening (sc_own (st_c st)) x ++ repeat MKeepAlive t) /\ Forall quiet (opening (sc_own (st_c st)) x ++ repeat MKeepAlive t) /\
  Forall not_piece (opening (sc_own (st_c st)) x ++ repeat MKeepAlive t).
Proof.
  intros H. pose proof (up_bitfield st H) as Hb. assert (HK : forall Q : msg -> Prop, Q MKeepAlive -> Forall Q (repeat MKeepAlive t)) by (intros Q HQ; induction t; constructor; auto).
  unfold opening. destruct (k_in x); (split; [|split]); apply Forall_app; (split; [|apply HK; exact Logic.I]); repeat (apply Forall_cons; [first [exact Logic.I|exact Hb]|]); apply Forall_nil.
Qed.

Lemma ends_keeps x x' q : keeps x x' -> ends x q -> ends x' q.
Proof.
  intros (_ & _ & [more E] & Hu & _) [H|[H1 H2]]; [left; rewrite E; now apply boundary_app|]. right. destruct (Hu H1) as [H3 H4]. split; [exact H3|]. now rewrite H4.
Qed.
Lemma hs_start ih id rest : exists r, MakeHandshake ih id ++ rest = z2b 19 :: protocol ++ r.
Proof.
  unfold MakeHandshake. eexists. vm_compute. reflexivity.
Qed.

(** ** What a read that starts at the end of a message hears *)
Lemma chunk_some s p m b : chunk s p m = Some b -> b = firstn m (skipn p s) /\ (1 <= m)%nat /\ Z.of_nat m <= 16384 /\ (p + m <= List.length s)%nat.
Proof. unfold chunk. destruct (_ || _) eqn:E; [discriminate|]. intros H. injection H as <-. split; [reflexivity|]. unfold zlen in E. lia. Qed.
Lemma chunk_len s p m b : chunk s p m = Some b -> List.length b = m.
Proof. intros H. apply chunk_some in H. destruct H as (-> & H). rewrite firstn_length, skipn_length. lia. Qed.
Lemma bitfield_first own (x : conn) t a b bf : opening own x ++ repeat MKeepAlive t = a ++ b -> In (MBitfield bf) b -> k_in x = true /\ a = [] /\ bf = own.
Proof.
  intros E H. assert (HK : forall r, In (MBitfield bf) r -> incl r (repeat MKeepAlive t) -> False) by (intros r Hr Hi; apply Hi, repeat_spec in Hr; discriminate Hr).
  unfold opening in E. destruct (k_in x).
  - destruct a as [|m0 a]; [|exfalso].
    + cbn [app] in E. subst b. split; [reflexivity|]. split; [reflexivity|]. destruct H as [H|[H|H]]; [congruence|discriminate H|]. apply repeat_spec in H. discriminate H.
    + cbn [app] in E. injection E as _ E. assert (H2 : In (MBitfield bf) (MUnchoke :: repeat MKeepAlive t)) by (rewrite E; apply in_or_app; auto).
      destruct H2 as [H2|H2]; [discriminate H2|]. apply repeat_spec in H2. discriminate H2.
  - exfalso. assert (H2 : In (MBitfield bf) (MUnchoke :: repeat MKeepAlive t)) by (cbn [app] in E; rewrite E; apply in_or_app; auto).
    destruct H2 as [H2|H2]; [discriminate H2|]. apply repeat_spec in H2. discriminate H2.
Qed.
Lemma begins_skip s p h t : (p <= List.length s)%nat -> firstn p s = h -> begins s (h ++ t) -> begins (skipn p s) t.
Proof.
  intros HL E [q Hq]. exists q. rewrite <- (firstn_skipn p s), E, <- app_assoc in Hq. now apply app_inv_head in Hq.
Qed.
Lemma begins_trans a b c : begins a b -> begins b c -> begins a c.
Proof. intros [q ->] [r ->]. exists (q ++ r). now rewrite app_assoc. Qed.
Lemma begins_firstn {m s} : begins (firstn m s) s.
Proof. exists (skipn m s). symmetry. apply firstn_skipn. Qed.
Lemma hear_handshake b ih id r sp fuel : begins (MakeHandshake ih id) b -> b = MakeHandshake ih id ++ r -> zlen b < 4294967296 -> (2 <= fuel)%nat -> DecodeAll fuel (mkslice b sp) = Ok ([], 0).
Proof. intros _ -> HL Hf. destruct (hs_start ih id r) as [r' E]. rewrite E in *. now apply DecodeAll_handshake. Qed.
Lemma hear_chunk st x p m b sp : site_up st -> idles (st_c st) x -> (68 <= List.length (k_out x))%nat -> chunk (k_out x) p m = Some b -> (p = 0%nat /\ ends x m) \/ ends x p ->
  exists ms n, DecodeAll (S m) (mkslice b sp) = Ok (ms, n) /\ Forall quiet ms /\
    (forall bf, In (MBitfield bf) ms -> k_in x = true /\ p = 68%nat /\ Data bf = Data (sc_own (st_c st))).
Proof.
  intros Hu [t [Hb _]] Ho HC Hp. pose proof (chunk_len _ _ _ _ HC) as Hbl. destruct (chunk_some _ _ _ _ HC) as (Eb & Hm1 & Hm2 & HL).
  assert (Hz : zlen b < 4294967296) by (unfold zlen; lia). destruct (opening_ok st x t Hu) as (O1 & O2 & O3). set (msgs := opening _ _ ++ _) in *.
  pose proof (MakeHandshake_length (sc_ih (st_c st)) (sc_id (st_c st))) as Hh.
  destruct Hp as [[-> He]|He].
  - assert (Hm : (68 <= m)%nat) by (destruct He as [He|[_ He]]; [apply boundary_le in He|]; lia). destruct Hb as [q Hq]. destruct (app_split _ _ _ _ Hq) as (e & E & _); [lia|].
    exists [], 0. split; [|split; [constructor|intros bf []]]. cbn [skipn] in Eb. apply (hear_handshake b (sc_ih (st_c st)) (sc_id (st_c st)) (firstn (m - 68) e)); [| |exact Hz|lia].
    + exists (firstn (m - 68) e). rewrite Eb, E, firstn_app, Hh. f_equal. apply firstn_all2. lia.
    + rewrite Eb, E, firstn_app, Hh. f_equal. apply firstn_all2. lia.
  - destruct He as [He|[_ He]]; [|lia]. destruct (boundary_of _ _ _ Hh O1 Hb p He) as (a & b' & Em & Ea). rewrite Em, stream_app, app_assoc in Hb.
    assert (Hb2 : begins b (stream b')). { rewrite Eb. eapply begins_trans; [apply begins_firstn|]. eapply begins_skip; [|exact Ea|exact Hb]. lia. }
    rewrite Em in O1, O2, O3. apply Forall_app in O1. apply Forall_app in O2. apply Forall_app in O3.
    destruct (decode_begins b' b sp (S m) (proj2 O1) (proj2 O3) Hb2 Hz ltac:(lia)) as (e & f & ms' & n & Ee & Hs & HD). exists ms', n. split; [exact HD|].
    destruct O2 as [_ O2]. rewrite Ee in O2. apply Forall_app in O2. destruct (same_quiet _ _ Hs (proj1 O2)) as [Q1 Q2]. split; [exact Q1|]. intros bf Hbf. destruct (Q2 bf Hbf) as (bf0 & Hi & Hd).
    assert (Hi' : In (MBitfield bf0) b') by (rewrite Ee; apply in_or_app; auto). destruct (bitfield_first _ _ _ _ _ _ Em Hi') as (H1 & -> & ->). split; [exact H1|]. split; [|exact Hd].
    apply (f_equal (@List.length byte)) in Ea. rewrite firstn_length, app_length, Hh in Ea. cbn [stream flat_map List.length] in Ea. lia.
Qed.

(** ** The network *)
Definition node_ok (st : site) (nd : node) : Prop := nd_c nd = st_c st /\ exists ls, reaches (st_n st) (st_c st) (st_w st) ls (nd_s nd).
Definition heard_ok (sites : list site) (N : net) (i k : nat) (x : conn) : Prop :=
  k_pend x = [] /\ (68 <= List.length (k_out x))%nat /\ Forall quiet (k_done x ++ k_todo x) /\
  forall bf, In (MBitfield bf) (k_done x ++ k_todo x) -> k_in x = false /\ exists L st, In L (n_links N) /\ l_from L = i /\ l_conn L = k /\ nth_error sites (l_to L) = Some st /\ Data bf = Data (sc_own (st_c st)).
Definition link_ok (N : net) (L : link) : Prop :=
  exists x, conn_at N (l_from L) (l_conn L) = Some x /\ k_in x = false /\ (l_back L = 0%nat -> k_done x ++ k_todo x = []) /\
  match l_far L with
  | Waiting => l_back L = 0%nat
  | Taken k => ends x (l_got L) /\ exists y, conn_at N (l_to L) k = Some y /\ k_in y = true /\ (l_back L = 0%nat \/ ends y (l_back L))
  | Refused sent => (sent = [] \/ exists ih id, sent = MakeHandshake ih id) /\ (l_back L = 0%nat \/ l_back L = List.length sent)
  end.
Definition single (ls : list link) : Prop :=
  forall j1 j2 L1 L2, nth_error ls j1 = Some L1 -> nth_error ls j2 = Some L2 -> l_from L1 = l_from L2 -> l_conn L1 = l_conn L2 -> j1 = j2.
Definition ninv (sites : list site) (N : net) : Prop :=
  Forall site_up sites /\ Forall2 node_ok sites (n_nodes N) /\ (forall i k x, conn_at N i k = Some x -> heard_ok sites N i k x) /\
  Forall (link_ok N) (n_links N) /\ single (n_links N).

Lemma Forall2_nth {A B} (R : A -> B -> Prop) l1 l2 i y : Forall2 R l1 l2 -> nth_error l2 i = Some y -> exists x, nth_error l1 i = Some x /\ R x y.
Proof. intros H. revert i. induction H as [|a b l1 l2 Hab HF IH]; intros i E; destruct i; cbn [nth_error] in *; try discriminate; [injection E as <-; eauto|auto]. Qed.
Lemma Forall2_nth1 {A B} (R : A -> B -> Prop) l1 l2 i x : Forall2 R l1 l2 -> nth_error l1 i = Some x -> exists y, nth_error l2 i = Some y /\ R x y.
Proof. intros H. revert i. induction H as [|a b l1 l2 Hab HF IH]; intros i E; destruct i; cbn [nth_error] in *; try discriminate; [injection E as <-; eauto|auto]. Qed.
Lemma Forall2_lupd {A B} (R : A -> B -> Prop) l1 l2 i x y' : Forall2 R l1 l2 -> nth_error l1 i = Some x -> R x y' -> Forall2 R l1 (lupd l2 i y').
Proof.
  intros H. revert i. induction H as [|a b l1 l2 Hab HF IH]; intros i E Hr; [destruct i; discriminate|]. destruct i; cbn [nth_error lupd] in *; [injection E as <-; constructor; assumption|constructor; auto].
Qed.
Lemma node_step_inv N i l f N' : node_step N i l f = NWent N' -> exists nd s, nth_error (n_nodes N) i = Some nd /\ sstep (nd_c nd) l (nd_s nd) = Went s /\
  N' = mknet (lupd (n_nodes N) i (mknode (nd_c nd) s)) (f s).
Proof. unfold node_step. intros H. destruct (nth_error _ _) as [nd|]; [|discriminate]. destruct (sstep _ _ _) as [| |s] eqn:E; try discriminate. injection H as <-. eauto. Qed.
Lemma node_died_inv N i l f i' : node_step N i l f = NDied i' -> i' = i /\ exists nd, nth_error (n_nodes N) i = Some nd /\ sstep (nd_c nd) l (nd_s nd) = Died.
Proof. unfold node_step. intros H. destruct (nth_error _ _) as [nd|]; [|discriminate]. destruct (sstep _ _ _) as [| |s] eqn:E; try discriminate. injection H as <-. eauto. Qed.

Lemma conn_at_put N i nd nd' ls i' k : nth_error (n_nodes N) i = Some nd ->
  conn_at (mknet (lupd (n_nodes N) i nd') ls) i' k = if Nat.eqb i' i then nth_error (ss_conns (nd_s nd')) k else conn_at N i' k.
Proof.
  intros E. unfold conn_at. cbn [n_nodes]. destruct (Nat.eqb i' i) eqn:Ei; [apply Nat.eqb_eq in Ei; subst; now rewrite (nth_lupd_same _ _ _ _ E)|]. apply Nat.eqb_neq in Ei. now rewrite nth_lupd_other.
Qed.

(** A step of node i: every connection is kept. *)
Definition delivers (l : slabel) (k : nat) : Prop := exists f b, l = SDeliver k f b.
Lemma conn_keep N i l f N' : node_step N i l f = NWent N' -> forall i' k x, conn_at N i' k = Some x ->
  exists x', conn_at N' i' k = Some x' /\ keeps x x' /\ (~ (i' = i /\ delivers l k) -> calm x x') /\
    (forall fu b, i' = i -> l = SDeliver k fu b -> k_done x' = k_done x /\ k_pend x' = [] /\ k_todo x = [] /\ (k_todo x' = [] \/ exists n, DecodeAll fu b = Ok (k_todo x', n))).
Proof.
  intros H i' k x E. destruct (node_step_inv _ _ _ _ _ H) as (nd & s & En & Es & ->). rewrite (conn_at_put _ _ _ _ _ _ _ En).
  destruct (Nat.eqb i' i) eqn:Ei.
  - apply Nat.eqb_eq in Ei. subst i'. unfold conn_at in E. rewrite En in E. destruct (step_keeps _ _ _ _ Es k x E) as (x' & E' & K1 & K2 & K3). exists x'. cbn [nd_s]. split; [exact E'|]. split; [exact K1|].
    split; [|intros fu b _; apply K3]. intros Hn. apply K2. intros fu b ->. apply Hn. split; [reflexivity|]. exists fu, b. reflexivity.
  - apply Nat.eqb_neq in Ei. exists x. split; [exact E|]. split; [apply keeps_refl|]. split; [intros _; apply calm_refl|]. intros fu b Heq. contradiction.
Qed.
(** ... and there are no others, except a new one of that node. *)
Lemma conn_new N i l f N' : node_step N i l f = NWent N' -> forall i' k x', conn_at N' i' k = Some x' -> (exists x, conn_at N i' k = Some x) \/
  (i' = i /\ fresh x' /\ (exists nd, nth_error (n_nodes N) i = Some nd /\ k = List.length (ss_conns (nd_s nd))) /\ ((exists p u, l = SDial p u /\ k_in x' = false) \/ (exists p port r wr u, l = SAccept p port r wr u /\ k_in x' = true))).
Proof.
  intros H i' k x' E. destruct (node_step_inv _ _ _ _ _ H) as (nd & s & En & Es & ->). rewrite (conn_at_put _ _ _ _ _ _ _ En) in E.
  destruct (Nat.eqb i' i) eqn:Ei; [|eauto]. apply Nat.eqb_eq in Ei. subst i'. cbn [nd_s] in E. unfold conn_at. rewrite En.
  assert (Hk : (k < List.length (ss_conns s))%nat) by (apply nth_error_Some; congruence).
  destruct (Nat.lt_ge_cases k (List.length (ss_conns (nd_s nd)))) as [Hlt|Hge].
  - left. destruct (nth_error (ss_conns (nd_s nd)) k) eqn:Ek; [eauto|]. apply nth_error_None in Ek. lia.
  - right. destruct (step_adds _ _ _ _ Es) as [Hl|(Hl & x & Ex & Hf & Hd)]; [lia|]. assert (k = List.length (ss_conns (nd_s nd))) by lia. subst k. assert (x = x') by congruence. subst x.
    split; [reflexivity|]. split; [exact Hf|]. split; [eauto|exact Hd].
Qed.
Lemma reaches_step n c w0 ls s l s' : reaches n c w0 ls s -> fair l -> sstep c l s = Went s' -> reaches n c w0 (ls ++ [l]) s'.
Proof.
  intros Hr Hf Hs. apply (reaches_more n c w0 ls s [l] s' Hr); [repeat constructor; exact Hf|]. cbn [srun]. now rewrite Hs.
Qed.
Lemma nodes_step sites N i l f N' : Forall2 node_ok sites (n_nodes N) -> fair l -> node_step N i l f = NWent N' -> Forall2 node_ok sites (n_nodes N').
Proof.
  intros HF Hl H. destruct (node_step_inv _ _ _ _ _ H) as (nd & s & En & Es & ->). cbn [n_nodes]. destruct (Forall2_nth _ _ _ _ _ HF En) as (st & Est & Hc & ls & Hr).
  eapply Forall2_lupd; [exact HF|exact Est|]. split; [exact Hc|]. exists (ls ++ [l]). rewrite Hc in Es. eapply reaches_step; eassumption.
Qed.
(** The other end of every link stays what it was. *)
Definition links_keep (ls ls' : list link) : Prop := forall L, In L ls -> exists L', In L' ls' /\ l_from L' = l_from L /\ l_conn L' = l_conn L /\ l_to L' = l_to L.
Lemma links_keep_refl ls : links_keep ls ls.
Proof. intros L H. eauto. Qed.
Lemma links_keep_app ls L : links_keep ls (ls ++ [L]).
Proof. intros L' H. exists L'. split; [apply in_or_app; auto|auto]. Qed.
Lemma links_keep_put ls j L L' : nth_error ls j = Some L -> l_from L' = l_from L -> l_conn L' = l_conn L -> l_to L' = l_to L -> links_keep ls (lupd ls j L').
Proof.
  intros E H1 H2 H3 K HK. apply In_nth_error in HK. destruct HK as [j' EK]. destruct (Nat.eq_dec j' j) as [->|Hne].
  - assert (K = L) by congruence. subst K. exists L'. split; [eapply nth_error_In; eapply nth_lupd_same; exact E|auto].
  - exists K. split; [|auto]. eapply nth_error_In. rewrite nth_lupd_other; eassumption.
Qed.
Lemma single_put ls j L L' : single ls -> nth_error ls j = Some L -> l_from L' = l_from L -> l_conn L' = l_conn L -> single (lupd ls j L').
Proof.
  intros Hs E H1 H2. assert (HX : forall a K, nth_error (lupd ls j L') a = Some K -> exists K0, nth_error ls a = Some K0 /\ l_from K0 = l_from K /\ l_conn K0 = l_conn K).
  { intros a K EK. destruct (Nat.eq_dec a j) as [->|Hne]; [rewrite (nth_lupd_same _ _ _ _ E) in EK; injection EK as <-; exists L; auto|]. rewrite nth_lupd_other in EK by assumption. eauto. }
  intros a b A B EA EB F1 F2. destruct (HX _ _ EA) as (A0 & ? & ? & ?). destruct (HX _ _ EB) as (B0 & ? & ? & ?). eapply Hs; try eassumption; congruence.
Qed.
Lemma heard_calm sites N N' i k x x' : heard_ok sites N i k x -> keeps x x' -> calm x x' -> links_keep (n_links N) (n_links N') -> heard_ok sites N' i k x'.
Proof.
  intros (H1 & H2 & H3 & H4) (K1 & K2 & [more K3] & _) HC HL. apply Forall_app in H3 as H3'. destruct (HC H1 (proj2 H3')) as [C1 C2]. split; [exact C1|]. split; [rewrite K3, app_length; lia|].
  split; [rewrite Forall_forall in *; intros m Hm; apply H3, C2, Hm|]. intros bf Hbf. destruct (H4 bf (C2 _ Hbf)) as (H5 & L & st & L1 & L2 & L3 & L4 & L5). rewrite K1. split; [exact H5|].
  destruct (HL L L1) as (L' & M1 & M2 & M3 & M4). exists L', st. rewrite M2, M3, M4. auto.
Qed.
Lemma ninv_step sites N i l f N' : ninv sites N -> fair l -> node_step N i l f = NWent N' -> links_keep (n_links N) (n_links N') -> single (n_links N') ->
  (forall k x x', delivers l k -> conn_at N i k = Some x -> conn_at N' i k = Some x' -> keeps x x' -> heard_ok sites N' i k x') ->
  Forall (link_ok N') (n_links N') -> ninv sites N'.
Proof.
  intros (I1 & I2 & I3 & I4 & I5) Hf H HL HS HD HK. split; [exact I1|]. split; [eapply nodes_step; eassumption|]. split; [|split; [exact HK|exact HS]].
  intros i' k x' E'. destruct (conn_new _ _ _ _ _ H i' k x' E') as [[x E]|(-> & (F1 & F2 & F3 & F4) & _)].
  - destruct (conn_keep _ _ _ _ _ H i' k x E) as (x2 & E2 & K1 & K2 & K3). assert (x2 = x') by congruence. subst x2.
    destruct (Nat.eq_dec i' i) as [->|Hne].
    + assert (Hdec : delivers l k \/ ~ delivers l k). { destruct l; try (right; intros (? & ? & ?); discriminate). destruct (Nat.eq_dec k0 k) as [->|Hk]; [left; do 2 eexists; reflexivity|]. right. intros (? & ? & ?). congruence. }
      destruct Hdec as [Hd|Hd]; [eapply HD; eassumption|]. eapply heard_calm; [exact (I3 _ _ _ E)|exact K1| |exact HL]. apply K2. intros [_ Hd']. contradiction.
    + eapply heard_calm; [exact (I3 _ _ _ E)|exact K1| |exact HL]. apply K2. intros [Hd' _]. contradiction.
  - split; [exact F3|]. split; [exact F4|]. rewrite F1, F2. split; [constructor|intros bf []].
Qed.
Lemma link_same sites N i l f N' L : ninv sites N -> node_step N i l f = NWent N' -> link_ok N L -> ~ (l_from L = i /\ delivers l (l_conn L)) -> link_ok N' L.
Proof.
  intros (I1 & I2 & I3 & I4 & I5) H (x & E & X1 & X2 & X3) Hn. destruct (conn_keep _ _ _ _ _ H _ _ x E) as (x' & E' & K1 & K2 & _). exists x'. split; [exact E'|].
  destruct K1 as (K1a & K1b & K1c). split; [congruence|]. pose proof (I3 _ _ _ E) as (P1 & P2 & P3 & _). apply Forall_app in P3. destruct (K2 Hn P1 (proj2 P3)) as [C1 C2].
  split; [intros Hb; rewrite (X2 Hb) in C2; now apply incl_l_nil in C2|]. destruct (l_far L) as [|k|sent]; [exact X3| |exact X3]. destruct X3 as (X4 & y & Ey & Y1 & Y2).
  split; [eapply ends_keeps; [|exact X4]; exact (conj K1a (conj K1b K1c))|]. destruct (conn_keep _ _ _ _ _ H _ _ y Ey) as (y' & Ey' & K1' & _). exists y'. split; [exact Ey'|].
  split; [destruct K1' as (-> & _); exact Y1|]. destruct Y2 as [Y2|Y2]; [auto|]. right. eapply ends_keeps; eassumption.
Qed.
Lemma Forall_nth_lupd {A} (F : A -> Prop) (l : list A) j x y : nth_error l j = Some x -> F y -> (forall j' z, j' <> j -> nth_error l j' = Some z -> F z) -> Forall F (lupd l j y).
Proof.
  intros E Hy Hz. rewrite Forall_forall. intros z Hin. apply In_nth_error in Hin. destruct Hin as [j' Ej]. destruct (Nat.eq_dec j' j) as [->|Hne].
  - rewrite (nth_lupd_same _ _ _ _ E) in Ej. congruence.
  - rewrite nth_lupd_other in Ej by assumption. eauto.
Qed.
Lemma site_of sites N i k x : ninv sites N -> conn_at N i k = Some x -> exists st ls nd, nth_error sites i = Some st /\ site_up st /\ nth_error (n_nodes N) i = Some nd /\ nd_c nd = st_c st /\ reaches (st_n st) (st_c st) (st_w st) ls (nd_s nd) /\ nth_error (ss_conns (nd_s nd)) k = Some x.
Proof.
  intros (I1 & I2 & _) E. unfold conn_at in E. destruct (nth_error (n_nodes N) i) as [nd|] eqn:En; [|discriminate]. destruct (Forall2_nth _ _ _ _ _ I2 En) as (st & Est & Hc & ls & Hr).
  exists st, ls, nd. split; [exact Est|]. split; [eapply nth_error_Forall; eassumption|]. auto.
Qed.
Lemma conn_idles sites N i k x : ninv sites N -> conn_at N i k = Some x -> exists st, nth_error sites i = Some st /\ site_up st /\ idles (st_c st) x.
Proof.
  intros HI E. destruct (site_of _ _ _ _ _ HI E) as (st & ls & nd & S1 & S2 & S3 & S4 & S5 & S6). exists st. split; [exact S1|]. split; [exact S2|].
  eapply idles_of; [exact S2|exact S5|eapply nth_error_In; exact S6|]. destruct HI as (_ & _ & I3 & _). destruct (I3 _ _ _ E) as (_ & _ & H & _). apply Forall_app in H. apply H.
Qed.
Lemma refused_sent ih me bf r w e : in_peer (FromIncoming ih me bf r w) = Err e -> in_sent (FromIncoming ih me bf r w) = [] \/ in_sent (FromIncoming ih me bf r w) = MakeHandshake ih me.
Proof.
  unfold FromIncoming. destruct (rd_err r); [auto|]. destruct (ValidHandshake _ _) as [[]| | |]; auto. destruct (negb (w_handshake w)); [auto|]. destruct (negb (w_bitfield w)); [auto|].
  cbn [in_peer in_sent]. unfold HsId, sslice. match goal with |- context [if ?c then _ else _] => destruct c end; discriminate.
Qed.
(** What accepting does. *)
Lemma accept_went c s p port r wr u s' : accept_one c s p port r wr u = Went s' ->
  (exists x, nth_error (ss_conns s') (List.length (ss_conns s)) = Some x /\ List.length (ss_conns s') = S (List.length (ss_conns s)) /\ k_in x = true /\ rd_err r = false) \/
  (s' = s /\ (in_sent (FromIncoming (sc_ih c) (sc_id c) (sc_own c) r wr) = [] \/ in_sent (FromIncoming (sc_ih c) (sc_id c) (sc_own c) r wr) = MakeHandshake (sc_ih c) (sc_id c))).
Proof.
  intros H. unfold accept_one in H. destruct (in_peer _) as [id|e| |] eqn:EP; try discriminate.
  - left. unfold add_conn in H. destruct (new_conn _ _ _ _ _ _) as [x| | |] eqn:E; try discriminate. injection H as <-. exists x. cbn [ss_conns]. rewrite nth_error_app2, Nat.sub_diag, app_length by lia.
    split; [reflexivity|]. cbn [List.length]. split; [lia|]. split.
    + unfold new_conn in E. destruct (NewBitfield _); try discriminate. cbn [bind] in E. destruct u; inversion E; reflexivity.
    + unfold FromIncoming in EP. destruct (rd_err r); [discriminate EP|reflexivity].
  - right. injection H as <-. split; [reflexivity|]. eapply refused_sent; exact EP.
Qed.

Lemma ninv_next sites N l N' : ninv sites N -> aligned N l -> nstep l N = NWent N' -> ninv sites N'.
Proof.
  intros HI Ha H. pose proof HI as (I1 & I2 & I3 & I4 & I5).
  assert (HLK : forall j L, nth_error (n_links N) j = Some L -> link_ok N L) by (intros j L E; eapply nth_error_Forall; eassumption).
  destruct l as [a b p u|j p port m err wr u|j m sp|j m sp|i l]; cbn [nstep aligned] in *.
  - (* dial *)
    destruct (nth_error (n_nodes N) a) as [nd|] eqn:En; [|discriminate]. destruct (node_step_inv _ _ _ _ _ H) as (nd' & s & En' & Es & EN). assert (nd' = nd) by congruence. subst nd'.
    assert (ELn : n_links N' = n_links N ++ [mklink a (List.length (ss_conns (nd_s nd))) b Waiting 0 0]) by (subst N'; reflexivity).
    refine (ninv_step sites N _ _ _ N' HI _ H _ _ _ _); [exact Logic.I| | | |].
    + rewrite ELn. apply links_keep_app.
    + rewrite ELn. intros j1 j2 L1 L2 E1 E2 F1 F2.
      assert (HX : forall j L, nth_error (n_links N ++ [mklink a (List.length (ss_conns (nd_s nd))) b Waiting 0 0]) j = Some L ->
        (nth_error (n_links N) j = Some L /\ ~ (l_from L = a /\ l_conn L = List.length (ss_conns (nd_s nd)))) \/ (j = List.length (n_links N) /\ l_from L = a /\ l_conn L = List.length (ss_conns (nd_s nd)))).
      { intros j L E. destruct (Nat.lt_ge_cases j (List.length (n_links N))) as [Hl|Hl].
        - rewrite nth_error_app1 in E by lia. left. split; [exact E|]. intros [G1 G2]. destruct (HLK _ _ E) as (x & Ex & _). unfold conn_at in Ex. rewrite G1, En, G2 in Ex.
          assert (Hc : nth_error (ss_conns (nd_s nd)) (List.length (ss_conns (nd_s nd))) <> None) by congruence. apply nth_error_Some in Hc. lia.
        - right. assert (Hj : (j < List.length (n_links N ++ [mklink a (List.length (ss_conns (nd_s nd))) b Waiting 0 0]))%nat) by (apply nth_error_Some; congruence). rewrite app_length in Hj. cbn [List.length] in Hj.
          assert (j = List.length (n_links N)) by lia. subst j. rewrite nth_error_app2, Nat.sub_diag in E by lia. cbn [nth_error] in E. injection E as <-. auto. }
      destruct (HX _ _ E1) as [[G1 G2]|(G1 & G2 & G3)], (HX _ _ E2) as [[J1 J2]|(J1 & J2 & J3)]; [eapply I5; eassumption| | |congruence]; exfalso; [apply G2|apply J2]; split; congruence.
    + intros k x x' (fu & b' & Hd). discriminate Hd.
    + rewrite ELn. apply Forall_app. split.
      * rewrite Forall_forall. intros L HL. eapply link_same; [exact HI|exact H|rewrite Forall_forall in I4; auto|]. intros [_ (fu & b' & Hd)]. discriminate Hd.
      * constructor; [|constructor]. destruct (step_adds _ _ _ _ Es) as [Hl|(Hl & x & Ex & (F1 & F2 & F3 & F4) & Hd)].
        { exfalso. cbn [sstep] in Es. unfold add_conn in Es. destruct (new_conn _ _ _ _ _ _); try discriminate. injection Es as <-. cbn [ss_conns] in Hl. rewrite app_length in Hl. cbn [List.length] in Hl. lia. }
        exists x. cbn [l_from l_conn l_back l_far]. subst N'. rewrite (conn_at_put _ _ _ _ _ _ _ En), Nat.eqb_refl. cbn [nd_s]. split; [exact Ex|]. split.
        { destruct Hd as [(p' & u' & _ & Hd)|(p' & port' & r' & wr' & u' & Hd & _)]; [exact Hd|discriminate Hd]. }
        split; [intros _; now rewrite F1, F2|reflexivity].
  - (* accept *)
    destruct (nth_error (n_links N) j) as [L|] eqn:EL; [|discriminate]. destruct (l_far L) eqn:EF; try discriminate. destruct (nth_error (n_nodes N) (l_to L)) as [nd|] eqn:En; [|discriminate].
    destruct (_ || _) eqn:EM; [discriminate|]. cbv zeta in H. destruct (node_step_inv _ _ _ _ _ H) as (nd' & s & En' & Es & EN). assert (nd' = nd) by congruence. subst nd'.
    set (r := mkread (firstn m (said N L)) err) in *. set (sent := in_sent _) in *. set (L' := mklink (l_from L) (l_conn L) (l_to L) (if Nat.ltb (List.length (ss_conns (nd_s nd))) (List.length (ss_conns s)) then Taken (List.length (ss_conns (nd_s nd))) else Refused sent) m 0).
    assert (ELn : n_links N' = lupd (n_links N) j L') by (subst N'; reflexivity).
    refine (ninv_step sites N _ _ _ N' HI _ H _ _ _ _).
    + cbn [fair]. unfold r. cbn [rd_bytes]. rewrite firstn_length. lia.
    + rewrite ELn. eapply links_keep_put; [exact EL|reflexivity|reflexivity|reflexivity].
    + rewrite ELn. eapply single_put; [exact I5|exact EL|reflexivity|reflexivity].
    + intros k x x' (fu & b' & Hd). discriminate Hd.
    + rewrite ELn. assert (HX : forall K, link_ok N K -> link_ok N' K) by (intros K HK; eapply link_same; [exact HI|exact H|exact HK|]; intros [_ (fu & b' & Hd)]; discriminate Hd).
      eapply Forall_nth_lupd; [exact EL| |intros j' z _ Ez; apply HX; eauto]. destruct (HLK _ _ EL) as (x0 & Ex0 & _). destruct (I3 _ _ _ Ex0) as (_ & Hlen0 & _).
      destruct (HX L (HLK _ _ EL)) as (x & Ex & X1 & X2 & X3). rewrite EF in X3. exists x. unfold L'. cbn [l_from l_conn l_to l_back l_far l_got]. split; [exact Ex|]. split; [exact X1|]. split; [intros _; exact (X2 X3)|].
      cbn [sstep] in Es. destruct (accept_went _ _ _ _ _ _ _ _ Es) as [(y & Ey & Hy & Yin & Yerr)|[-> Hs]].
      * replace (Nat.ltb _ _) with true by (symmetry; apply Nat.ltb_lt; lia). unfold r in Yerr. cbn [rd_err] in Yerr. destruct Ha as [Ha| ->]; [congruence|]. split.
        { destruct (conn_keep _ _ _ _ _ H _ _ x0 Ex0) as (x2 & Ex2 & K & _). assert (x2 = x) by congruence. subst x2. apply (ends_keeps x0); [exact K|]. left. apply after_handshake. lia. }
        exists y. subst N'. rewrite (conn_at_put _ _ _ _ _ _ _ En), Nat.eqb_refl. cbn [nd_s]. auto.
      * rewrite Nat.ltb_irrefl. split; [|auto]. destruct Hs as [Hs|Hs]; [left; exact Hs|right; eauto].
  - (* hear *)
    destruct (nth_error (n_links N) j) as [L|] eqn:EL; [|discriminate]. destruct (l_far L) as [|k|] eqn:EF; try discriminate. destruct (chunk (said N L) (l_got L) m) as [b|] eqn:EC; [|discriminate].
    destruct (HLK _ _ EL) as (x & Ex & X1 & X2 & X3). rewrite EF in X3. destruct X3 as (X4 & y & Ey & Y1 & Y2). specialize (Ha L x eq_refl Ex). unfold said in EC. rewrite Ex in EC.
    pose proof (chunk_len _ _ _ _ EC) as Hbl. destruct (chunk_some _ _ _ _ EC) as (_ & Hm1 & Hm2 & _).
    set (L' := mklink (l_from L) (l_conn L) (l_to L) (Taken k) (l_got L + m) (l_back L)) in *.
    assert (ELn : n_links N' = lupd (n_links N) j L') by (destruct (node_step_inv _ _ _ _ _ H) as (nd' & s & En' & Es & ->); reflexivity).
    assert (Hnd : forall K, link_ok N K -> ~ (l_from K = l_to L /\ delivers (SDeliver k (S m) (mkslice b sp)) (l_conn K))).
    { intros K (z & Ez & Z1 & _) [G1 (fu & b' & G2)]. injection G2 as G2 _ _. rewrite G1, <- G2 in Ez. congruence. }
    refine (ninv_step sites N _ _ _ N' HI _ H _ _ _ _).
    + cbn [fair vis]. unfold zlen. lia.
    + rewrite ELn. eapply links_keep_put; [exact EL|reflexivity|reflexivity|reflexivity].
    + rewrite ELn. eapply single_put; [exact I5|exact EL|reflexivity|reflexivity].
    + intros k' y0 y' (fu & b' & Hd) E0 E' Hk. injection Hd as <- <- <-. assert (y0 = y) by congruence. subst y0.
      destruct (conn_keep _ _ _ _ _ H _ _ y Ey) as (y2 & Ey2 & _ & _ & K3). assert (y2 = y') by congruence. subst y2. destruct (K3 _ _ eq_refl eq_refl) as (D1 & D2 & D3 & D4).
      destruct (I3 _ _ _ Ey) as (P1 & P2 & P3 & P4). destruct (conn_idles _ _ _ _ _ HI Ex) as (st & S1 & S2 & S3). destruct (I3 _ _ _ Ex) as (_ & Hxo & _).
      destruct (hear_chunk st x (l_got L) m b sp S2 S3 Hxo EC (or_intror X4)) as (ms & nn & HD & HQ & HB).
      assert (HT : Forall quiet (k_todo y') /\ forall bf, ~ In (MBitfield bf) (k_todo y')).
      { destruct D4 as [-> |(n' & HD')]; [split; [constructor|intros bf []]|]. rewrite HD in HD'. inversion HD'. subst. split; [exact HQ|]. intros bf Hb. destruct (HB bf Hb) as [HB' _]. congruence. }
      destruct HT as [HT1 HT2]. destruct Hk as (Hk1 & Hk2 & [more Hk3] & _). split; [exact D2|]. split; [rewrite Hk3, app_length; lia|]. rewrite D1. rewrite D3, app_nil_r in P3, P4. split; [apply Forall_app; auto|].
      intros bf Hb. apply in_app_or in Hb. destruct Hb as [Hb|Hb]; [|destruct (HT2 bf Hb)]. destruct (P4 bf Hb) as [G _]. congruence.
    + rewrite ELn. assert (HX : forall K, link_ok N K -> link_ok N' K) by (intros K HK; eapply link_same; [exact HI|exact H|exact HK|]; apply Hnd; exact HK).
      eapply Forall_nth_lupd; [exact EL| |intros j' z _ Ez; apply HX; eauto]. destruct (HX L (HLK _ _ EL)) as (x' & Ex' & X1' & X2' & X3'). rewrite EF in X3'. destruct X3' as (_ & y' & Ey' & Y').
      exists x'. unfold L'. cbn [l_from l_conn l_to l_back l_far l_got]. split; [exact Ex'|]. split; [exact X1'|]. split; [exact X2'|]. split; [|exists y'; auto].
      destruct (conn_keep _ _ _ _ _ H _ _ x Ex) as (x2 & Ex2 & K & _). assert (x2 = x') by congruence. subst x2. eapply ends_keeps; [exact K|exact Ha].
  - (* reply *)
    destruct (nth_error (n_links N) j) as [L|] eqn:EL; [|discriminate]. destruct (chunk (replied N L) (l_back L) m) as [b|] eqn:EC; [|discriminate].
    specialize (Ha L eq_refl). destruct (HLK _ _ EL) as (x & Ex & X1 & X2 & X3).
    pose proof (chunk_len _ _ _ _ EC) as Hbl. destruct (chunk_some _ _ _ _ EC) as (Eb & Hm1 & Hm2 & HLe).
    set (L' := mklink (l_from L) (l_conn L) (l_to L) (l_far L) (l_got L) (l_back L + m)) in *.
    assert (ELn : n_links N' = lupd (n_links N) j L') by (destruct (node_step_inv _ _ _ _ _ H) as (nd' & s & En' & Es & ->); reflexivity).
    (* what it hears *)
    assert (HH : exists ms nn, DecodeAll (S m) (mkslice b sp) = Ok (ms, nn) /\ Forall quiet ms /\
      forall bf, In (MBitfield bf) ms -> exists st, nth_error sites (l_to L) = Some st /\ Data bf = Data (sc_own (st_c st))).
    { unfold replied in *. destruct (l_far L) as [|k|sent] eqn:EF.
      - cbn [List.length] in HLe. lia.
      - destruct X3 as (_ & y & Ey & Y1 & Y2). rewrite Ey in EC. specialize (Ha y Ey). destruct (conn_idles _ _ _ _ _ HI Ey) as (st & S1 & S2 & S3). destruct (I3 _ _ _ Ey) as (_ & Hyo & _).
        destruct (hear_chunk st y (l_back L) m b sp S2 S3 Hyo EC) as (ms & nn & HD & HQ & HB).
        { destruct Y2 as [Y2|Y2]; [left; split; [exact Y2|]; now rewrite Y2 in Ha|auto]. }
        exists ms, nn. split; [exact HD|]. split; [exact HQ|]. intros bf Hb. destruct (HB bf Hb) as (_ & _ & HB'). eauto.
      - destruct X3 as [[-> |(ih & id & ->)] Hb]; [cbn [List.length] in *; lia|]. assert (Hb0 : l_back L = 0%nat) by lia. rewrite Hb0 in *. exists [], 0. split; [|split; [constructor|intros bf []]].
        assert (Eb' : b = MakeHandshake ih id ++ []). { rewrite Eb, app_nil_r. cbn [skipn]. apply firstn_all2. lia. }
        apply (hear_handshake b ih id []); [exists []; exact Eb'|exact Eb'|unfold zlen; lia|lia]. }
    destruct HH as (ms & nn & HD & HQ & HB).
    refine (ninv_step sites N _ _ _ N' HI _ H _ _ _ _).
    + cbn [fair vis]. unfold zlen. lia.
    + rewrite ELn. eapply links_keep_put; [exact EL|reflexivity|reflexivity|reflexivity].
    + rewrite ELn. eapply single_put; [exact I5|exact EL|reflexivity|reflexivity].
    + intros k' x0 x' (fu & b' & Hd) E0 E' Hk. injection Hd as <- <- <-. assert (x0 = x) by congruence. subst x0.
      destruct (conn_keep _ _ _ _ _ H _ _ x Ex) as (x2 & Ex2 & _ & _ & K3). assert (x2 = x') by congruence. subst x2. destruct (K3 _ _ eq_refl eq_refl) as (D1 & D2 & D3 & D4).
      destruct (I3 _ _ _ Ex) as (P1 & P2 & P3 & P4).
      assert (HT : incl (k_todo x') ms). { destruct D4 as [-> |(n' & HD')]; [intros z []|]. rewrite HD in HD'. inversion HD'. apply incl_refl. }
      destruct Hk as (Hk1 & Hk2 & [more Hk3] & _). split; [exact D2|]. split; [rewrite Hk3, app_length; lia|]. rewrite D1. rewrite D3, app_nil_r in P3, P4. split.
      { apply Forall_app. split; [exact P3|]. rewrite Forall_forall in *. intros z Hz. auto. }
      intros bf Hb. rewrite Hk1. split; [exact X1|]. apply in_app_or in Hb. destruct Hb as [Hb|Hb].
      * destruct (P4 bf Hb) as (_ & K & st & K1 & K2 & K3' & K4 & K5). destruct (links_keep_put (n_links N) j L L' EL eq_refl eq_refl eq_refl K K1) as (K' & M1 & M2 & M3 & M4).
        exists K', st. rewrite ELn, M2, M3, M4. auto.
      * destruct (HB bf (HT _ Hb)) as (st & S1 & S2). exists L', st. rewrite ELn. split; [eapply nth_error_In; eapply nth_lupd_same; exact EL|auto].
    + rewrite ELn. eapply Forall_nth_lupd; [exact EL| |].
      * destruct (conn_keep _ _ _ _ _ H _ _ x Ex) as (x' & Ex' & K & _). exists x'. unfold L'. cbn [l_from l_conn l_to l_back l_far l_got]. split; [exact Ex'|]. split; [destruct K as (-> & _); exact X1|].
        split; [lia|]. destruct (l_far L) as [|k|sent] eqn:EF; [|destruct X3 as (X4 & y & Ey & Y1 & Y2)|].
        { exfalso. unfold replied in HLe. rewrite EF in HLe. cbn in HLe. lia. }
        { split; [eapply ends_keeps; [exact K|exact X4]|]. destruct (conn_keep _ _ _ _ _ H _ _ y Ey) as (y' & Ey' & Ky & _). exists y'. split; [exact Ey'|]. split; [destruct Ky as (-> & _); exact Y1|].
          right. eapply ends_keeps; [exact Ky|]. apply Ha. exact Ey. }
        { split; [apply X3|]. right. exact Ha. }
      * intros j' K Hj EK. eapply link_same; [exact HI|exact H|eauto|]. intros [G1 (fu & b' & G2)]. injection G2 as G2 _ _. apply Hj. eapply I5; [exact EK|exact EL|exact G1|congruence].
  - (* own *)
    destruct (local l) eqn:El; [|discriminate].
    assert (ELn : n_links N' = n_links N) by (destruct (node_step_inv _ _ _ _ _ H) as (nd' & s & En' & Es & ->); reflexivity).
    assert (Hnd : forall k, ~ delivers l k) by (intros k (fu & b & ->); discriminate El).
    refine (ninv_step sites N _ _ _ N' HI _ H _ _ _ _).
    + destruct l; try discriminate El; exact Logic.I.
    + rewrite ELn. apply links_keep_refl.
    + rewrite ELn. exact I5.
    + intros k x x' Hd. destruct (Hnd k Hd).
    + rewrite ELn, Forall_forall in *. intros L HL. eapply link_same; [exact HI|exact H|auto|]. intros [_ Hd]. destruct (Hnd _ Hd).
Qed.
Lemma ninv_run sites ls : forall N N', ninv sites N -> aligned_run ls N -> nrun ls N = Some N' -> ninv sites N'.
Proof.
  induction ls as [|l ls IH]; intros N N' HI Ha H; cbn [nrun aligned_run] in *; [congruence|]. destruct Ha as [Ha1 Ha2]. destruct (nstep l N) as [| |N1] eqn:E; try discriminate.
  eapply IH; [|exact Ha2|exact H]. eapply ninv_next; eassumption.
Qed.
Lemma ninv_begun sites N : begun sites N -> ninv sites N.
Proof.
  intros (H1 & H2 & H3). split; [exact H1|]. split; [|split; [|rewrite H3; split; [constructor|intros [] ? ? ? E; discriminate E]]].
  - clear H1 H3. induction H2 as [|st nd ? ? (Hc & t0 & Ht & Hs) HF IH]; constructor; [|exact IH]. split; [exact Hc|]. exists []. exists t0. rewrite Hs. repeat split; auto.
  - intros i k x E. exfalso. unfold conn_at in E. destruct (nth_error (n_nodes N) i) as [nd|] eqn:En; [|discriminate]. destruct (Forall2_nth _ _ _ _ _ H2 En) as (st & _ & _ & t0 & _ & Hs). rewrite Hs in E. destruct k; discriminate E.
Qed.

(** ** Consequences *)
Lemma run_ninv sites N0 ls N : begun sites N0 -> aligned_run ls N0 -> nrun ls N0 = Some N -> ninv sites N.
Proof. intros H. apply ninv_run. apply ninv_begun. exact H. Qed.

Lemma net_idles sites N0 ls N i k x : begun sites N0 -> aligned_run ls N0 -> nrun ls N0 = Some N -> conn_at N i k = Some x -> exists st, nth_error sites i = Some st /\ idles (st_c st) x.
Proof. intros H1 H2 H3 E. destruct (conn_idles _ _ _ _ _ (run_ninv _ _ _ _ H1 H2 H3) E) as (st & S1 & _ & S3). eauto. Qed.

Lemma told_offered sites N i nd n key p : ninv sites N -> nth_error (n_nodes N) i = Some nd -> told n (ss_conns (nd_s nd)) key p -> offered sites N i key p.
Proof.
  intros (I1 & I2 & I3 & I4 & I5) En (x & m & Hx & Hk & Hm & bf & -> & _ & _ & Hbit). apply In_nth_error in Hx. destruct Hx as [k Ex].
  assert (E : conn_at N i k = Some x) by (unfold conn_at; rewrite En; exact Ex). destruct (I3 _ _ _ E) as (_ & _ & _ & HB).
  destruct (HB bf) as (_ & L & st & L1 & L2 & L3 & L4 & L5); [apply in_or_app; auto|]. exists L, x, st. rewrite L3. rewrite <- L5. auto 10.
Qed.
Lemma net_truth sites N0 ls N i nd st key p : begun sites N0 -> aligned_run ls N0 -> nrun ls N0 = Some N -> nth_error (n_nodes N) i = Some nd -> nth_error sites i = Some st ->
  0 <= p < st_n st -> lists (ss_ppt (nd_s nd)) p key -> offered sites N i key p.
Proof.
  intros H1 H2 H3 En Est Hp Hl. pose proof (run_ninv _ _ _ _ H1 H2 H3) as HI. pose proof HI as (I1 & I2 & _). destruct (Forall2_nth _ _ _ _ _ I2 En) as (st' & Est' & Hc & ls' & Hr). assert (st' = st) by congruence. subst st'.
  eapply told_offered; [exact HI|exact En|]. pose proof (nth_error_Forall _ _ _ _ I1 Est) as Hu. apply (reach_tracker _ _ _ _ _ _ _ _ _ _ Hu Hr Hp). exact Hl.
Qed.

(** Decoding never fails at message boundaries. *)
Lemma hear_fine sites N j L k x m b sp : ninv sites N -> nth_error (n_links N) j = Some L -> l_far L = Taken k -> conn_at N (l_from L) (l_conn L) = Some x -> chunk (said N L) (l_got L) m = Some b ->
  exists ms nn, DecodeAll (S m) (mkslice b sp) = Ok (ms, nn).
Proof.
  intros HI EL EF Ex EC. pose proof HI as (I1 & I2 & I3 & I4 & I5). destruct (nth_error_Forall _ _ _ _ I4 EL) as (x' & Ex' & X1 & X2 & X3). assert (x' = x) by congruence. subst x'. rewrite EF in X3. destruct X3 as (X4 & _).
  unfold said in EC. rewrite Ex in EC. destruct (conn_idles _ _ _ _ _ HI Ex) as (st & S1 & S2 & S3). destruct (I3 _ _ _ Ex) as (_ & Hxo & _).
  destruct (hear_chunk st x (l_got L) m b sp S2 S3 Hxo EC (or_intror X4)) as (ms & nn & HD & _). eauto.
Qed.
Lemma reply_fine sites N j L m b sp : ninv sites N -> aligned N (NReply j m sp) -> nth_error (n_links N) j = Some L -> chunk (replied N L) (l_back L) m = Some b ->
  exists ms nn, DecodeAll (S m) (mkslice b sp) = Ok (ms, nn) /\ (forall bf, In (MBitfield bf) ms -> l_back L = 68%nat).
Proof.
  intros HI Ha EL EC. pose proof HI as (I1 & I2 & I3 & I4 & I5). cbn [aligned] in Ha. specialize (Ha L EL). destruct (nth_error_Forall _ _ _ _ I4 EL) as (x & Ex & X1 & X2 & X3).
  pose proof (chunk_len _ _ _ _ EC) as Hbl. destruct (chunk_some _ _ _ _ EC) as (Eb & Hm1 & Hm2 & HLe). unfold replied in *. destruct (l_far L) as [|k|sent] eqn:EF.
  - cbn [List.length] in HLe. lia.
  - destruct X3 as (_ & y & Ey & Y1 & Y2). rewrite Ey in EC. specialize (Ha y Ey). destruct (conn_idles _ _ _ _ _ HI Ey) as (st & S1 & S2 & S3). destruct (I3 _ _ _ Ey) as (_ & Hyo & _).
    destruct (hear_chunk st y (l_back L) m b sp S2 S3 Hyo EC) as (ms & nn & HD & HQ & HB).
    { destruct Y2 as [Y2|Y2]; [left; split; [exact Y2|]; now rewrite Y2 in Ha|auto]. }
    exists ms, nn. split; [exact HD|]. intros bf Hb. apply (HB bf Hb).
  - destruct X3 as [[-> |(ih & id & ->)] Hb]; [cbn [List.length] in *; lia|]. assert (Hb0 : l_back L = 0%nat) by lia. rewrite Hb0 in *. exists [], 0. split; [|intros bf []].
    assert (Eb' : b = MakeHandshake ih id ++ []). { rewrite Eb, app_nil_r. cbn [skipn]. apply firstn_all2. lia. }
    apply (hear_handshake b ih id []); [exists []; exact Eb'|exact Eb'|unfold zlen; lia|lia].
Qed.

(** Every step of the network is a step of one node. *)
Lemma nstep_node l N : nstep l N = NBlocked \/ exists i l' f, nstep l N = node_step N i l' f /\ fair l' /\
  (forall k fu b, l' = SDeliver k fu b -> (exists j m sp L, l = NHear j m sp /\ nth_error (n_links N) j = Some L /\ l_far L = Taken k /\ i = l_to L /\ fu = S m /\ exists bb, b = mkslice bb sp /\ chunk (said N L) (l_got L) m = Some bb) \/
    (exists j m sp L, l = NReply j m sp /\ nth_error (n_links N) j = Some L /\ k = l_conn L /\ i = l_from L /\ fu = S m /\ exists bb, b = mkslice bb sp /\ chunk (replied N L) (l_back L) m = Some bb)).
Proof.
  destruct l as [a b p u|j p port m err wr u|j m sp|j m sp|i l]; cbn [nstep].
  - destruct (nth_error (n_nodes N) a); [|auto]. right. do 3 eexists. split; [reflexivity|]. split; [exact Logic.I|discriminate].
  - destruct (nth_error (n_links N) j) as [L|]; [|auto]. destruct (l_far L); auto. destruct (nth_error (n_nodes N) (l_to L)); [|auto]. destruct (_ || _) eqn:EM; [auto|].
    right. do 3 eexists. split; [reflexivity|]. split; [|discriminate]. cbn [fair rd_bytes]. rewrite firstn_length. lia.
  - destruct (nth_error (n_links N) j) as [L|] eqn:EL; [|auto]. destruct (l_far L) eqn:EF; auto. destruct (chunk _ _ _) as [b|] eqn:EC; [|auto]. right. do 3 eexists. split; [reflexivity|].
    pose proof (chunk_len _ _ _ _ EC). destruct (chunk_some _ _ _ _ EC) as (_ & _ & Hm & _). split; [cbn [fair vis]; unfold zlen; lia|].
    intros k' fu b' Hd. injection Hd as <- <- <-. left. exists j, m, sp, L. repeat (split; [assumption || reflexivity|]). eexists. split; [reflexivity|exact EC].
  - destruct (nth_error (n_links N) j) as [L|] eqn:EL; [|auto]. destruct (chunk _ _ _) as [b|] eqn:EC; [|auto]. right. do 3 eexists. split; [reflexivity|].
    pose proof (chunk_len _ _ _ _ EC). destruct (chunk_some _ _ _ _ EC) as (_ & _ & Hm & _). split; [cbn [fair vis]; unfold zlen; lia|].
    intros k' fu b' Hd. injection Hd as <- <- <-. right. exists j, m, sp, L. repeat (split; [assumption || reflexivity|]). eexists. split; [reflexivity|exact EC].
  - destruct (local l) eqn:El; [|auto]. right. do 3 eexists. split; [reflexivity|]. destruct l; try discriminate El; (split; [exact Logic.I|discriminate]).
Qed.
Lemma net_dies sites N0 ls N l i : begun sites N0 -> aligned_run ls N0 -> nrun ls N0 = Some N -> aligned N l -> nstep l N = NDied i ->
  exists p ks, NoDup ks /\ zlen ks = 64 /\ forall key, In key ks -> offered sites N i key p.
Proof.
  intros H1 H2 H3 Ha HD. pose proof (run_ninv _ _ _ _ H1 H2 H3) as HI. pose proof HI as (I1 & I2 & I3 & I4 & I5). destruct (nstep_node l N) as [HB|(i0 & l' & f & Hn & Hf & Hdel)]; [congruence|].
  rewrite Hn in HD. destruct (node_died_inv _ _ _ _ _ HD) as (-> & nd & En & Es). destruct (Forall2_nth _ _ _ _ _ I2 En) as (st & Est & Hc & ls' & Hr). rewrite Hc in Es.
  pose proof (nth_error_Forall _ _ _ _ I1 Est) as Hu. pose proof (reach_dies _ _ _ _ _ _ _ _ _ Hu Hr Hf Es) as Hd. destruct l' as [p port r wr u|p u|k fuel b|k|k|k j|k|k j|k|k]; try contradiction; cbn [deadly] in Hd.
  - destruct Hd as (y & Ey & _ & HP). exfalso. destruct (Hdel _ _ _ eq_refl) as [(j & m & sp & L & -> & EL & EF & -> & -> & bb & -> & EC)|(j & m & sp & L & -> & EL & -> & -> & -> & bb & -> & EC)].
    + destruct (nth_error_Forall _ _ _ _ I4 EL) as (x & Ex & _). destruct (hear_fine _ _ _ _ _ _ _ _ sp HI EL EF Ex EC) as (ms & nn & HX). congruence.
    + destruct (reply_fine _ _ _ _ _ _ sp HI Ha EL EC) as (ms & nn & HX & _). congruence.
  - destruct Hd as (y & m & Ey & ((r & Hm) & _) & HX). assert (E : conn_at N i0 k = Some y) by (unfold conn_at; rewrite En; exact Ey). destruct (I3 _ _ _ E) as (_ & _ & HQ & HB).
    assert (Hin : In m (k_done y ++ k_todo y)) by (rewrite Hm; apply in_or_app; right; left; reflexivity). rewrite Forall_forall in HQ. specialize (HQ m Hin).
    destruct HX as [(a & b & c & -> & _)|(p & ks & Ht & Hnt & Hnd & Hz & Hks)]; [contradiction|].
    exists p, (h_key (k_who y) :: ks). split; [constructor; [|exact Hnd]; intros Hk; apply Hnt, Hks, Hk|]. split; [unfold zlen in *; cbn [List.length]; lia|].
    intros key [<-|Hk]; [|eapply told_offered; [exact HI|exact En|apply Hks; exact Hk]]. destruct Ht as (bf & -> & _ & _ & Hbit). destruct (HB bf Hin) as (_ & L & st' & L1 & L2 & L3 & L4 & L5).
    exists L, y, st'. rewrite L3, <- L5. auto 10.
Qed.

(** Files. *)
Lemma nodes_run sites ls : forall N N', Forall2 node_ok sites (n_nodes N) -> nrun ls N = Some N' -> Forall2 node_ok sites (n_nodes N').
Proof.
  induction ls as [|l ls IH]; intros N N' HF H; cbn [nrun] in H; [congruence|]. destruct (nstep l N) as [| |N1] eqn:E; try discriminate. eapply IH; [|exact H].
  destruct (nstep_node l N) as [HB|(i0 & l' & f & Hn & Hf & _)]; [congruence|]. rewrite Hn in E. eapply nodes_step; eassumption.
Qed.
Lemma net_files sites N0 ls N i nd : begun sites N0 -> nrun ls N0 = Some N -> nth_error (n_nodes N) i = Some nd -> exists st, nth_error sites i = Some st /\ disk_same (st_w st) (ss_world (nd_s nd)).
Proof.
  intros H1 H3 En. pose proof (ninv_begun _ _ H1) as (I1 & I2 & _). pose proof (nodes_run _ _ _ _ I2 H3) as HF. destruct (Forall2_nth _ _ _ _ _ HF En) as (st & Est & Hc & ls' & Hr). exists st. split; [exact Est|].
  eapply reach_world; [exact (nth_error_Forall _ _ _ _ I1 Est)|exact Hr].
Qed.
(** Whoever reads all there is reads whole messages. *)
Lemma net_whole sites N0 ls N i k x : begun sites N0 -> nrun ls N0 = Some N -> conn_at N i k = Some x -> ends x (List.length (k_out x)).
Proof.
  intros H1 H3 E. pose proof (ninv_begun _ _ H1) as (I1 & I2 & _). pose proof (nodes_run _ _ _ _ I2 H3) as HF. unfold conn_at in E. destruct (nth_error (n_nodes N) i) as [nd|] eqn:En; [|discriminate].
  destruct (Forall2_nth _ _ _ _ _ HF En) as (st & Est & Hc & ls' & Hr). pose proof (nth_error_Forall _ _ _ _ I1 Est) as Hu. destruct (k_up x) eqn:Eu; [|right; auto]. left.
  destruct (reach_lawful _ _ _ _ _ _ _ _ _ Hu Hr (nth_error_In _ _ E)) as (ms & ps & reqs & late & L1 & _ & L3 & _). rewrite (L3 Eu). apply boundary_stream; [apply MakeHandshake_length|].
  apply Forall_app. split; [destruct (opening_ok st x 0 Hu) as (O & _); cbn [repeat] in O; rewrite app_nil_r in O; exact O|]. apply Forall_app in L1. eapply Forall_impl; [|apply L1]. intros m. apply (genuine_ok _ _ _ _ _ _ Hu).
Qed.

(** ** A dialler that gets the bitfield together with the handshake *)
Lemma link_step l N N' j L k : nstep l N = NWent N' -> nth_error (n_links N) j = Some L -> l_far L = Taken k ->
  exists L', nth_error (n_links N') j = Some L' /\ l_from L' = l_from L /\ l_conn L' = l_conn L /\ l_far L' = Taken k /\ (l_back L <= l_back L')%nat.
Proof.
  intros H E EF. assert (Hp : forall j' K K', nth_error (n_links N) j' = Some K -> n_links N' = lupd (n_links N) j' K' -> (j' = j -> K = L -> l_from K' = l_from K /\ l_conn K' = l_conn K /\ l_far K' = Taken k /\ (l_back K <= l_back K')%nat) ->
    exists L', nth_error (n_links N') j = Some L' /\ l_from L' = l_from L /\ l_conn L' = l_conn L /\ l_far L' = Taken k /\ (l_back L <= l_back L')%nat).
  { intros j' K K' EK EN HK. destruct (Nat.eq_dec j' j) as [->|Hne].
    - assert (K = L) by congruence. subst K. exists K'. rewrite EN, (nth_lupd_same _ _ _ _ EK). auto.
    - exists L. rewrite EN, nth_lupd_other by congruence. auto. }
  destruct l as [a b p u|j' p port m err wr u|j' m sp|j' m sp|i l]; cbn [nstep] in H.
  - destruct (nth_error (n_nodes N) a); [|discriminate]. destruct (node_step_inv _ _ _ _ _ H) as (nd' & s & _ & _ & ->). exists L. cbn [n_links]. rewrite nth_error_app1 by (apply nth_error_Some; congruence). auto.
  - destruct (nth_error (n_links N) j') as [K|] eqn:EK; [|discriminate]. destruct (l_far K) eqn:EKF; try discriminate. destruct (nth_error (n_nodes N) (l_to K)); [|discriminate]. destruct (_ || _); [discriminate|].
    cbv zeta in H. destruct (node_step_inv _ _ _ _ _ H) as (nd' & s & _ & _ & ->). eapply Hp; [exact EK|reflexivity|]. intros _ ->. congruence.
  - destruct (nth_error (n_links N) j') as [K|] eqn:EK; [|discriminate]. destruct (l_far K) eqn:EKF; try discriminate. destruct (chunk _ _ _); [|discriminate].
    destruct (node_step_inv _ _ _ _ _ H) as (nd' & s & _ & _ & ->). eapply Hp; [exact EK|reflexivity|]. intros _ ->. cbn [l_from l_conn l_far l_back]. repeat split; congruence || lia.
  - destruct (nth_error (n_links N) j') as [K|] eqn:EK; [|discriminate]. destruct (chunk _ _ _); [|discriminate].
    destruct (node_step_inv _ _ _ _ _ H) as (nd' & s & _ & _ & ->). eapply Hp; [exact EK|reflexivity|]. intros _ ->. cbn [l_from l_conn l_far l_back]. repeat split; congruence || lia.
  - destruct (local l); [|discriminate]. destruct (node_step_inv _ _ _ _ _ H) as (nd' & s & _ & _ & ->). exists L. auto.
Qed.
Definition unheard (x : conn) : Prop := forall bf, ~ In (MBitfield bf) (k_done x ++ k_todo x).
Lemma deaf_step sites N l N' j L k x : ninv sites N -> aligned N l -> nstep l N = NWent N' -> nth_error (n_links N) j = Some L -> l_far L = Taken k -> conn_at N (l_from L) (l_conn L) = Some x ->
  unheard x -> l_back L <> 68%nat -> exists x', conn_at N' (l_from L) (l_conn L) = Some x' /\ unheard x'.
Proof.
  intros HI Ha H EL EF Ex Hx Hb. pose proof HI as (I1 & I2 & I3 & I4 & I5). destruct (nstep_node l N) as [HB|(i0 & l' & f & Hn & Hf & Hdel)]; [congruence|]. rewrite Hn in H.
  destruct (conn_keep _ _ _ _ _ H _ _ x Ex) as (x' & Ex' & K1 & K2 & K3). exists x'. split; [exact Ex'|]. destruct (I3 _ _ _ Ex) as (P1 & _ & P3 & _). apply Forall_app in P3.
  assert (Hdec : (exists fu b, l_from L = i0 /\ l' = SDeliver (l_conn L) fu b) \/ ~ (l_from L = i0 /\ delivers l' (l_conn L))).
  { destruct (Nat.eq_dec (l_from L) i0) as [He|He]; [|right; intros [He' _]; contradiction]. destruct l'; try (right; intros [_ (? & ? & ?)]; discriminate). 
    destruct (Nat.eq_dec k0 (l_conn L)) as [->|Hk]; [left; do 2 eexists; split; [exact He|reflexivity]|]. right. intros [_ (? & ? & ?)]. congruence. }
  destruct Hdec as [(fu & b & Hi & El)|Hd].
  - destruct (K3 fu b Hi El) as (D1 & D2 & D3 & D4). unfold unheard in *. rewrite D1. rewrite D3, app_nil_r in Hx. intros bf Hbf. apply in_app_or in Hbf. destruct Hbf as [Hbf|Hbf]; [exact (Hx bf Hbf)|].
    destruct D4 as [D4|[nn D4]]; [rewrite D4 in Hbf; exact Hbf|]. destruct (nth_error_Forall _ _ _ _ I4 EL) as (x0 & Ex0 & X1 & _). assert (x0 = x) by congruence. subst x0.
    destruct (Hdel _ _ _ El) as [(j' & m & sp & L' & -> & EL' & EF' & Hi' & -> & bb & -> & EC)|(j' & m & sp & L' & -> & EL' & Hc' & Hi' & -> & bb & -> & EC)].
    + destruct (nth_error_Forall _ _ _ _ I4 EL') as (x9 & _ & _ & _ & X3). rewrite EF' in X3. destruct X3 as (_ & y & Ey & Y1 & _). rewrite <- Hi', <- Hi in Ey. congruence.
    + assert (j' = j) by (eapply I5; [exact EL'|exact EL|congruence|congruence]). subst j'. assert (L' = L) by congruence. subst L'.
      destruct (reply_fine _ _ _ _ _ _ sp HI Ha EL EC) as (ms & n' & HX & HY). rewrite D4 in HX. inversion HX; subst. exact (Hb (HY bf Hbf)).
  - destruct (K2 Hd P1 (proj2 P3)) as [_ C2]. intros bf Hbf. exact (Hx bf (C2 _ Hbf)).
Qed.
Lemma deaf_run sites j k ls : forall N N' L x, ninv sites N -> aligned_run ls N -> nrun ls N = Some N' -> nth_error (n_links N) j = Some L -> l_far L = Taken k -> conn_at N (l_from L) (l_conn L) = Some x ->
  unheard x -> (68 < l_back L)%nat -> exists x', conn_at N' (l_from L) (l_conn L) = Some x' /\ unheard x'.
Proof.
  induction ls as [|l ls IH]; intros N N' L x HI Ha H EL EF Ex Hx Hb; cbn [nrun aligned_run] in *; [injection H as <-; eauto|]. destruct Ha as [Ha1 Ha2]. destruct (nstep l N) as [| |N1] eqn:E; try discriminate.
  destruct (deaf_step _ _ _ _ _ _ _ _ HI Ha1 E EL EF Ex Hx ltac:(lia)) as (x1 & Ex1 & Hx1). destruct (link_step _ _ _ _ _ _ E EL EF) as (L1 & EL1 & F1 & F2 & F3 & F4). rewrite <- F1, <- F2 in *.
  eapply (IH N1 N' L1); try eassumption; [eapply ninv_next; eassumption|lia].
Qed.
Lemma net_deaf sites N0 ls N j L k m sp ls' N' : begun sites N0 -> aligned_run ls N0 -> nrun ls N0 = Some N -> nth_error (n_links N) j = Some L -> l_far L = Taken k -> l_back L = 0%nat -> (68 < m)%nat ->
  aligned_run (NReply j m sp :: ls') N -> nrun (NReply j m sp :: ls') N = Some N' ->
  exists x, conn_at N' (l_from L) (l_conn L) = Some x /\ Forall (fun msg => is_bitfield msg = false) (k_done x).
Proof.
  intros H1 H2 H3 EL EF Hb Hm Ha Hr. pose proof (run_ninv _ _ _ _ H1 H2 H3) as HI. pose proof HI as (I1 & I2 & I3 & I4 & I5). destruct (nth_error_Forall _ _ _ _ I4 EL) as (x & Ex & X1 & X2 & X3).
  assert (Hx : unheard x) by (intros bf; rewrite (X2 Hb); auto). cbn [nrun aligned_run] in *. destruct Ha as [Ha1 Ha2]. destruct (nstep (NReply j m sp) N) as [| |N1] eqn:E; try discriminate.
  destruct (deaf_step _ _ _ _ _ _ _ _ HI Ha1 E EL EF Ex Hx ltac:(lia)) as (x1 & Ex1 & Hx1).
  assert (EL1 : nth_error (n_links N1) j = Some (mklink (l_from L) (l_conn L) (l_to L) (l_far L) (l_got L) (l_back L + m))).
  { cbn [nstep] in E. rewrite EL in E. destruct (chunk _ _ _); [|discriminate]. destruct (node_step_inv _ _ _ _ _ E) as (nd & s & _ & _ & ->). cbn [n_links]. eapply nth_lupd_same. exact EL. }
  destruct (deaf_run sites j k ls' N1 N' _ x1 (ninv_next _ _ _ _ HI Ha1 E) Ha2 Hr EL1 EF Ex1 Hx1) as (x' & Ex' & Hx'); [cbn [l_back]; lia|]. cbn [l_from l_conn] in Ex'. exists x'. split; [exact Ex'|].
  rewrite Forall_forall. intros msg Hin. destruct msg; try reflexivity. exfalso. eapply Hx'. apply in_or_app. left. exact Hin.
Qed.

(** ** Large torrents *)
Lemma ones_byte b : byte_bits b = repeat true 8 -> b = xff.
Proof. destruct b; intros H; first [reflexivity|discriminate H]. Qed.
Lemma byte_bits_8 b : List.length (byte_bits b) = 8%nat.
Proof. reflexivity. Qed.
Lemma ones_firstn q : forall data, (forall i, (i < 8 * q)%nat -> nth i (bits_of data) false = true) -> (q <= List.length data)%nat -> firstn q data = repeat xff q.
Proof.
  induction q as [|q IH]; intros data H HL; [reflexivity|]. destruct data as [|b data]; cbn [List.length] in HL; [lia|]. cbn [firstn repeat]. f_equal.
  - apply ones_byte. apply (nth_ext _ _ false false); [reflexivity|]. rewrite byte_bits_8. intros i Hi. specialize (H i ltac:(lia)). cbn [bits_of flat_map] in H. rewrite app_nth1 in H by (rewrite byte_bits_8; lia). rewrite H.
    clear H. symmetry. do 8 (destruct i; [reflexivity|]). lia.
  - apply IH; [|lia]. intros i Hi. specialize (H (8 + i)%nat ltac:(lia)). cbn [bits_of flat_map] in H. rewrite app_nth2 in H by (rewrite byte_bits_8; lia). rewrite byte_bits_8 in H. replace (8 + i - 8)%nat with i in H by lia. exact H.
Qed.
Lemma ones_panic m rest sp : (5 <= m)%nat -> Z.of_nat m <= 16384 -> (m <= 5 + List.length rest)%nat -> DecodeAll (S m) (mkslice (firstn m (repeat xff 5 ++ rest)) sp) = Panic.
Proof.
  intros Hm Hm2 HL. set (b := firstn m _). assert (Hb : List.length b = m) by (unfold b; rewrite firstn_length, app_length, repeat_length; lia).
  assert (Hz : zlen b < 4294967296) by (unfold zlen; lia). unfold DecodeAll. rewrite loop_step by (unfold zlen; lia). change (Z.to_nat 0) with 0%nat. cbn [skipn].
  assert (Hp : panic_frame b). { exists 4294967295, xff, (firstn (m - 5) rest). split; [unfold b; rewrite firstn_app, repeat_length, firstn_all2 by (rewrite repeat_length; lia); reflexivity|]. split; [lia|]. right. split; [reflexivity|lia]. }
  apply (decode_panics b Hz) in Hp. now rewrite Hp.
Qed.
Lemma net_large sites N0 ls N j L k x y st m sp1 sp2 : begun sites N0 -> nrun ls N0 = Some N -> nth_error (n_links N) j = Some L -> l_far L = Taken k -> l_back L = 0%nat ->
  conn_at N (l_from L) (l_conn L) = Some x -> RunSpec.idle x -> (l_to L = l_from L -> k <> l_conn L) -> conn_at N (l_to L) k = Some y -> k_up y = true -> k_in y = true -> nth_error sites (l_to L) = Some st -> 130528 <= st_n st ->
  (forall p, 0 <= p < 130528 -> nth (Z.to_nat p) (bits_of (Data (sc_own (st_c st)))) false = true) ->
  5 <= Z.of_nat m <= 16384 -> 16384 + Z.of_nat m <= zlen (k_out y) ->
  exists N1, nstep (NReply j (Z.to_nat 16384) sp1) N = NWent N1 /\ nstep (NReply j m sp2) N1 = NDied (l_from L).
Proof.
  intros H1 H3 EL EF Hb Ex (Xt & Xp & Xr) Hne Ey Hup Hin Est Hn Hones Hm HL. pose proof (ninv_begun _ _ H1) as (I1 & I2 & _). pose proof (nodes_run _ _ _ _ I2 H3) as HF.
  pose proof (nth_error_Forall _ _ _ _ I1 Est) as Hu. assert (E := Ey). unfold conn_at in E. destruct (nth_error (n_nodes N) (l_to L)) as [nd|] eqn:En; [|discriminate].
  destruct (Forall2_nth _ _ _ _ _ HF En) as (st' & Est' & Hc & ls' & Hr). assert (st' = st) by congruence. subst st'.
  destruct (reach_accepted _ _ _ _ _ _ _ _ _ Hu Hr (nth_error_In _ _ E) Hin Hup) as [tail Eo]. set (own := sc_own (st_c st)) in *. set (H := MakeHandshake _ _) in *.
  assert (Hh : List.length H = 68%nat) by apply MakeHandshake_length.
  assert (Hd : 16316 <= zlen (Data own)). { destruct (up_parts _ _ _ _ _ _ Hu) as (_ & _ & _ & Hnb & (_ & Hnb2 & _) & _). fold own in Hnb, Hnb2. rewrite <- Hnb2, Hnb. fold (st_n st). unfold bytes_for. Z.div_mod_to_equations. lia. }
  assert (HQ : exists q1 q2, q1 = Z.to_nat 16311 /\ q2 = Z.to_nat 16316 /\ (q2 = q1 + 5)%nat) by (do 2 eexists; repeat split; lia). destruct HQ as (q1 & q2 & Eq1 & Eq2 & Eq).
  assert (HO : firstn q2 (Data own) = repeat xff q2). { apply ones_firstn; [|unfold zlen in Hd; lia]. intros i Hi. specialize (Hones (Z.of_nat i) ltac:(lia)). now rewrite Nat2Z.id in Hones. }
  assert (Ew : exists h5, wire_of (MBitfield own) = h5 ++ Data own /\ List.length h5 = 5%nat) by (cbn [wire_of]; unfold frame; eexists; rewrite app_assoc; split; [reflexivity|reflexivity]).
  destruct Ew as (h5 & Ew & Hh5).
  set (rest := skipn q2 (Data own) ++ tail) in *.
  assert (Eo2 : k_out y = (H ++ h5 ++ repeat xff q1) ++ repeat xff 5 ++ rest).
  { rewrite Eo, Ew. rewrite <- (firstn_skipn q2 (Data own)) at 1. rewrite HO, Eq, repeat_app. unfold rest. rewrite Eq, <- !app_assoc. reflexivity. }
  assert (Hpre : List.length (H ++ h5 ++ repeat xff q1) = Z.to_nat 16384) by (rewrite !app_length, Hh, Hh5, repeat_length; lia).
  set (M := Z.to_nat 16384) in *. assert (HM : Z.of_nat M = 16384) by (unfold M; lia). clearbody M.
  assert (Hrep : replied N L = k_out y) by (unfold replied; rewrite EF, Ey; reflexivity).
  assert (EC : chunk (k_out y) 0 M = Some (H ++ h5 ++ repeat xff q1)).
  { unfold chunk. rewrite HM. replace (_ || _) with false by (unfold zlen in *; lia). cbn [skipn]. rewrite Eo2, firstn_app, Hpre, Nat.sub_diag, firstn_O, app_nil_r. f_equal. apply firstn_all2. lia. }
  assert (Ex2 := Ex). unfold conn_at in Ex2. destruct (nth_error (n_nodes N) (l_from L)) as [nx|] eqn:Enx; [|discriminate].
  set (x1 := put_rx x (k_bf x) (k_buf x) [] (k_done x) [] true).
  assert (ES : sstep (nd_c nx) (SDeliver (l_conn L) (S M) (mkslice (H ++ h5 ++ repeat xff q1) sp1)) (nd_s nx) = Went (put_conn (nd_s nx) (l_conn L) x1)).
  { cbn [sstep]. rewrite Ex2, Xt, Xp, Xr. unfold decode_one. rewrite (hear_handshake _ (sc_ih (st_c st)) (sc_id (st_c st)) (h5 ++ repeat xff q1)); [reflexivity|eexists; reflexivity|reflexivity|unfold zlen; lia|lia]. }
  eexists. split. { cbn [nstep]. rewrite EL, Hrep, Hb, EC. unfold node_step. rewrite Enx, ES. reflexivity. }
  set (L1 := mklink (l_from L) (l_conn L) (l_to L) (l_far L) (l_got L) (0 + M)). cbn [nstep n_links]. rewrite (nth_lupd_same _ _ _ _ EL).
  assert (Hrep1 : replied (mknet (lupd (n_nodes N) (l_from L) (mknode (nd_c nx) (put_conn (nd_s nx) (l_conn L) x1))) (lupd (n_links N) j L1)) L1 = k_out y).
  { unfold replied, L1. cbn [l_far l_to]. rewrite EF, (conn_at_put _ _ _ _ _ _ _ Enx). cbn [nd_s put_conn ss_conns]. destruct (Nat.eqb (l_to L) (l_from L)) eqn:Ee; [|now rewrite Ey].
    apply Nat.eqb_eq in Ee. rewrite nth_lupd_other by (apply Hne; exact Ee). rewrite Ee in En. assert (nx = nd) by congruence. subst nx. now rewrite E. }
  rewrite Hrep1. unfold L1 at 1. cbn [l_back]. cbn [Nat.add].
  assert (EC2 : chunk (k_out y) M m = Some (firstn m (repeat xff 5 ++ rest))).
  { unfold chunk. replace (_ || _) with false by (unfold zlen in *; lia). rewrite Eo2, skipn_app, Hpre, Nat.sub_diag, skipn_all2 by lia. reflexivity. }
  rewrite EC2. unfold node_step. unfold L1. cbn [l_from n_nodes]. rewrite (nth_lupd_same _ _ _ _ Enx). cbn [sstep nd_c nd_s l_conn put_conn ss_conns]. rewrite (nth_lupd_same _ _ _ _ Ex2).
  unfold x1. cbn [put_rx k_todo k_pend k_recv]. unfold decode_one. rewrite ones_panic; [reflexivity|lia|lia|]. rewrite Eo2 in HL. unfold zlen in HL. rewrite app_length, Hpre, app_length, repeat_length in HL. lia.
Qed.
