(** HandshakeProofs.v: lemmas about the handshake model. *)
From Verif Require Import Base BitfieldModel WireModel WireSpec WireProofs HandshakeModel HandshakeSpec.
From Coq Require Import ZifyBool ZifyNat ZifyN.
Ltac Zify.zify_post_hook ::= Z.div_mod_to_equations.

Lemma sub_at {A} (a b c : list A) lo n : List.length a = lo -> List.length b = n -> sub (a ++ b ++ c) lo n = b.
Proof.
  intros <- <-. unfold sub. rewrite skipn_app, skipn_all, Nat.sub_diag. cbn [app skipn].
  rewrite firstn_app, firstn_all, Nat.sub_diag, firstn_O, app_nil_r. reflexivity.
Qed.

Lemma split_at {A} (l : list A) n : (n <= List.length l)%nat -> exists a b, l = a ++ b /\ List.length a = n.
Proof. intros H. exists (firstn n l), (skipn n l). rewrite firstn_skipn, firstn_length. split; [reflexivity|lia]. Qed.

(** Any 68 bytes split into the five fields. *)
Lemma fields (hs : bytes) : List.length hs = 68%nat ->
  exists a p r h i, hs = a :: p ++ r ++ h ++ i /\ List.length p = 19%nat /\ List.length r = 8%nat /\
    List.length h = 20%nat /\ List.length i = 20%nat.
Proof.
  intros H. destruct hs as [|a hs]; [discriminate|]. cbn in H.
  destruct (split_at hs 19) as (p & hs1 & -> & Hp); [lia|]. rewrite app_length in H.
  destruct (split_at hs1 8) as (r & hs2 & -> & Hr); [lia|]. rewrite app_length in H.
  destruct (split_at hs2 20) as (h & i & -> & Hh); [lia|]. rewrite app_length in H.
  exists a, p, r, h, i. repeat split; try assumption. lia.
Qed.

Section Fields.
Variables (a : byte) (p r h i sp : bytes).
Hypotheses (Hp : List.length p = 19%nat) (Hr : List.length r = 8%nat) (Hh : List.length h = 20%nat) (Hi : List.length i = 20%nat).
Let hs := mkslice (a :: p ++ r ++ h ++ i) sp.

Lemma hs_len : zlen (a :: p ++ r ++ h ++ i) = 68.
Proof. rewrite zlen_cons, !zlen_app. unfold zlen. lia. Qed.

Lemma Pstrlen_f : Pstrlen hs = Ok (b2z a).
Proof. unfold Pstrlen, sindex, slen, hs. cbn [vis]. rewrite hs_len. reflexivity. Qed.
Lemma Pstr_f : Pstr hs = Ok p.
Proof.
  unfold Pstr, hs. rewrite sslice_vis by (rewrite ?hs_len; lia). cbn [bind vis]. f_equal.
  change (a :: p ++ r ++ h ++ i) with ([a] ++ p ++ r ++ h ++ i). apply sub_at; [reflexivity|lia].
Qed.
Lemma Reserved_f : Reserved hs = Ok r.
Proof.
  unfold Reserved, hs. rewrite sslice_vis by (rewrite ?hs_len; lia). cbn [bind vis]. f_equal.
  change (a :: p ++ r ++ h ++ i) with ((a :: p) ++ r ++ h ++ i). apply sub_at; [cbn; lia|lia].
Qed.
Lemma Infohash_f : HsInfohash hs = Ok h.
Proof.
  unfold HsInfohash, hs. rewrite sslice_vis by (rewrite ?hs_len; lia). cbn [bind vis]. f_equal.
  replace (a :: p ++ r ++ h ++ i) with ((a :: p ++ r) ++ h ++ i) by (cbn; now rewrite <- !app_assoc).
  apply sub_at; [cbn; rewrite app_length; lia|lia].
Qed.
Lemma Id_f : HsId hs = Ok i.
Proof.
  unfold HsId, hs. rewrite sslice_vis by (rewrite ?hs_len; lia). cbn [bind vis]. f_equal.
  replace (a :: p ++ r ++ h ++ i) with ((a :: p ++ r ++ h) ++ i ++ []) by (cbn; rewrite app_nil_r; now rewrite <- !app_assoc).
  apply sub_at; [cbn; rewrite !app_length; lia|lia].
Qed.
Lemma Valid_f ih : ValidHandshake hs ih = Ok ((b2z a =? 19) && beqb p HandshakePstr && beqb h ih).
Proof.
  unfold ValidHandshake. rewrite Pstrlen_f, Pstr_f, Infohash_f. unfold slen, hs. cbn [vis bind]. rewrite hs_len.
  cbn [Z.eqb Pos.eqb negb]. destruct (b2z a =? 19); [|reflexivity]. cbn [negb andb].
  destruct (beqb p HandshakePstr); [|reflexivity]. destruct (beqb h ih); reflexivity.
Qed.
End Fields.

Lemma app_inv_len {A} (a a' b b' : list A) : List.length a = List.length a' -> a ++ b = a' ++ b' -> a = a' /\ b = b'.
Proof.
  revert a'; induction a as [|x a IH]; intros [|y a'] HL H; try discriminate; [auto|].
  cbn in H. injection H as -> H. destruct (IH a') as [-> ->]; [cbn in HL; lia|assumption|]. auto.
Qed.

Lemma Valid_total hs sp ih : exists b, ValidHandshake (mkslice hs sp) ih = Ok b.
Proof.
  destruct (Nat.eq_dec (List.length hs) 68) as [E|E].
  - destruct (fields hs E) as (a & p & r & h & i & -> & H1 & H2 & H3 & H4). eexists. apply Valid_f; assumption.
  - unfold ValidHandshake, slen. cbn [vis]. replace (zlen hs =? 68) with false by (unfold zlen; lia). eexists. reflexivity.
Qed.

Lemma Valid_iff hs sp ih : ValidHandshake (mkslice hs sp) ih = Ok true <-> is_handshake hs ih.
Proof.
  split.
  - intros H. destruct (Nat.eq_dec (List.length hs) 68) as [E|E].
    + destruct (fields hs E) as (a & p & r & h & i & -> & H1 & H2 & H3 & H4).
      rewrite Valid_f in H by assumption. injection H as H.
      apply andb_true_iff in H as [H Hih]. apply andb_true_iff in H as [Ha Hpp].
      apply beqb_eq in Hih, Hpp. subst. exists r, i. repeat split; try assumption.
      unfold handshake_of. f_equal. apply b2z_inj. rewrite b2z_z2b. apply Z.eqb_eq in Ha. rewrite Ha. reflexivity.
    + unfold ValidHandshake, slen in H. cbn [vis] in H. replace (zlen hs =? 68) with false in H by (unfold zlen; lia). discriminate.
  - intros (r & i & Hr & Hh & Hi & ->). unfold handshake_of. rewrite Valid_f by (assumption || reflexivity).
    f_equal. rewrite !andb_true_iff, !beqb_eq. repeat split.
Qed.

Lemma Valid_false_iff hs sp ih : ValidHandshake (mkslice hs sp) ih = Ok false <-> ~ is_handshake hs ih.
Proof.
  rewrite <- (Valid_iff hs sp). destruct (Valid_total hs sp ih) as ([|] & ->); split; intros H; congruence.
Qed.

Lemma Valid_len ih hs sp : List.length ih <> 20%nat -> ValidHandshake (mkslice hs sp) ih = Ok false.
Proof. intros H. apply Valid_false_iff. intros (r & i & _ & Hh & _). contradiction. Qed.

(** ** MakeHandshake *)

Lemma copy_at_length dst off src : (off <= List.length dst)%nat -> List.length (copy_at dst off src) = List.length dst.
Proof. intros H. unfold copy_at. rewrite !app_length, !firstn_length, skipn_length. lia. Qed.

Lemma MakeHandshake_length ih id : List.length (MakeHandshake ih id) = 68%nat.
Proof.
  unfold MakeHandshake. rewrite !copy_at_length; rewrite ?copy_at_length; rewrite ?repeat_length; cbn; lia.
Qed.

Lemma copy_at_mid (a b c src : bytes) off : List.length a = off -> List.length b = List.length src ->
  copy_at (a ++ b ++ c) off src = a ++ src ++ c.
Proof.
  intros Ha Hb. unfold copy_at. rewrite firstn_app, Ha, Nat.sub_diag, firstn_O, app_nil_r, firstn_all2 by lia.
  f_equal. f_equal.
  - apply firstn_all2. rewrite !app_length. lia.
  - rewrite skipn_app, skipn_all2 by lia. cbn [app]. rewrite Ha. replace (off + List.length src - off)%nat with (List.length b) by lia.
    rewrite skipn_app, skipn_all, Nat.sub_diag. reflexivity.
Qed.

Lemma MakeHandshake_fields ih id : List.length ih = 20%nat -> List.length id = 20%nat ->
  MakeHandshake ih id = handshake_of (repeat (z2b 0) 8) ih id.
Proof.
  intros Hih Hid. unfold MakeHandshake.
  replace (copy_at (copy_at (repeat (z2b 0) 68) 0 [z2b 19]) 1 HandshakePstr)
    with ((z2b 19 :: protocol ++ repeat (z2b 0) 8) ++ repeat (z2b 0) 20 ++ repeat (z2b 0) 20) by reflexivity.
  rewrite copy_at_mid by (rewrite ?repeat_length; (reflexivity || lia)).
  replace ((z2b 19 :: protocol ++ repeat (z2b 0) 8) ++ ih ++ repeat (z2b 0) 20)
    with (((z2b 19 :: protocol ++ repeat (z2b 0) 8) ++ ih) ++ repeat (z2b 0) 20 ++ []).
  2:{ rewrite app_nil_r, <- !app_assoc. reflexivity. }
  rewrite copy_at_mid; [|rewrite app_length, Hih; reflexivity|rewrite repeat_length; lia].
  unfold handshake_of. rewrite app_nil_r. cbn [app]. rewrite <- !app_assoc. reflexivity.
Qed.

Lemma Make_accessors ih id sp : List.length ih = 20%nat -> List.length id = 20%nat ->
  let hs := mkslice (MakeHandshake ih id) sp in
  Pstrlen hs = Ok 19 /\ Pstr hs = Ok protocol /\ Reserved hs = Ok (repeat (z2b 0) 8) /\
  HsInfohash hs = Ok ih /\ HsId hs = Ok id.
Proof.
  intros Hih Hid hs. unfold hs. rewrite MakeHandshake_fields by assumption. unfold handshake_of.
  rewrite Pstrlen_f, Pstr_f, Reserved_f, Infohash_f, Id_f by (assumption || reflexivity). repeat split.
Qed.

Lemma handshake_inj r ih id r' ih' id' :
  List.length r = 8%nat -> List.length r' = 8%nat -> List.length ih = List.length ih' ->
  handshake_of r ih id = handshake_of r' ih' id' -> r = r' /\ ih = ih' /\ id = id'.
Proof.
  intros Hr Hr' Hl E. unfold handshake_of in E. injection E as E.
  apply app_inv_len in E as [-> E]; [|lia]. apply app_inv_len in E as [-> ->]; [|lia]. auto.
Qed.

Lemma Make_valid ih id ih' sp : List.length ih = 20%nat -> List.length id = 20%nat ->
  (ValidHandshake (mkslice (MakeHandshake ih id) sp) ih' = Ok true <-> ih' = ih).
Proof.
  intros Hih Hid. rewrite Valid_iff, MakeHandshake_fields by assumption. split.
  - intros (r & i & Hr & Hh & Hi & E). apply handshake_inj in E as (_ & -> & _); [reflexivity|reflexivity|assumption|lia].
  - intros ->. exists (repeat (z2b 0) 8), id. repeat split; assumption.
Qed.

(** ** FromIncoming *)

Lemma copy_at_pad b : (List.length b <= 68)%nat -> copy_at (repeat (z2b 0) 68) 0 b = pad68 b.
Proof.
  intros H. unfold copy_at, pad68. cbn [firstn app]. rewrite repeat_length. rewrite firstn_all2 by lia. f_equal.
  rewrite Nat.add_0_l. set (k := List.length b) in *. replace 68%nat with (k + (68 - k))%nat at 1 by lia.
  rewrite repeat_app, skipn_app, skipn_all2 by (rewrite repeat_length; lia). rewrite repeat_length, Nat.sub_diag. reflexivity.
Qed.

Lemma FromIncoming_iff ih me bf r w id : (List.length (rd_bytes r) <= 68)%nat ->
  in_peer (FromIncoming ih me bf r w) = Ok id <->
  (rd_err r = false /\ w_handshake w = true /\ w_bitfield w = true /\
   exists rsv, List.length rsv = 8%nat /\ List.length ih = 20%nat /\ List.length id = 20%nat /\
     pad68 (rd_bytes r) = handshake_of rsv ih id).
Proof.
  intros HL. unfold FromIncoming. rewrite copy_at_pad by assumption.
  destruct (rd_err r); [split; [discriminate|intros (H & _); discriminate]|].
  destruct (Valid_total (pad68 (rd_bytes r)) [] ih) as ([|] & HV); rewrite HV.
  - pose proof HV as HV'. apply Valid_iff in HV' as (rsv & i & Hr & Hh & Hi & E).
    assert (HI : HsId (mkslice (pad68 (rd_bytes r)) []) = Ok i).
    { rewrite E. unfold handshake_of. apply Id_f; (assumption || reflexivity). }
    destruct (w_handshake w); cbn [negb in_peer]; [|split; [discriminate|intros (_ & H & _); discriminate]].
    destruct (w_bitfield w); cbn [negb in_peer]; [|split; [discriminate|intros (_ & _ & H & _); discriminate]].
    rewrite HI. split.
    + intros Hx. injection Hx as <-. repeat split. exists rsv. auto.
    + intros (_ & _ & _ & rsv' & H1 & H2 & H3 & E'). rewrite E in E'. apply handshake_inj in E' as (_ & _ & ->); auto.
  - cbn [in_peer]. split; [discriminate|]. intros (_ & _ & _ & rsv' & H1 & H2 & H3 & E'). exfalso.
    apply Valid_false_iff in HV. apply HV. exists rsv', id. auto.
Qed.

Lemma FromIncoming_sent ih me bf r w id : (List.length (rd_bytes r) <= 68)%nat ->
  in_peer (FromIncoming ih me bf r w) = Ok id ->
  in_sent (FromIncoming ih me bf r w) = MakeHandshake ih me ++ EncodeMsg (MBitfield bf).
Proof.
  intros HL H. unfold FromIncoming in *. destruct (rd_err r); [discriminate|].
  destruct (ValidHandshake _ ih) as [[|]| | |]; try discriminate.
  destruct (w_handshake w); [|discriminate]. destruct (w_bitfield w); [|discriminate]. reflexivity.
Qed.

Lemma FromIncoming_silent ih me bf r w : (List.length (rd_bytes r) <= 68)%nat ->
  ~ is_handshake (pad68 (rd_bytes r)) ih -> in_sent (FromIncoming ih me bf r w) = [] /\ exists e, in_peer (FromIncoming ih me bf r w) = Err e.
Proof.
  intros HL H. unfold FromIncoming. rewrite copy_at_pad by assumption. destruct (rd_err r); [split; [reflexivity|eexists; reflexivity]|].
  apply (Valid_false_iff _ []) in H. rewrite H. split; [reflexivity|eexists; reflexivity].
Qed.

(** A correct handshake of which only the first k bytes arrive in the first read. *)
Lemma zeros_repeat l : zeros l <-> l = repeat (z2b 0) (List.length l).
Proof.
  unfold zeros. induction l as [|x l IH]; cbn; [split; auto|]. split.
  - intros H. inversion H; subst. f_equal. now apply IH.
  - intros H. injection H as -> H. constructor; [reflexivity|]. now apply IH.
Qed.

Lemma pad68_firstn hs k : List.length hs = 68%nat -> (k <= 68)%nat ->
  pad68 (firstn k hs) = firstn k hs ++ repeat (z2b 0) (68 - k).
Proof. intros H Hk. unfold pad68. rewrite firstn_length. replace (Nat.min k (List.length hs)) with k by lia. reflexivity. Qed.

Lemma pad_agree hs k : List.length hs = 68%nat -> (k <= 68)%nat ->
  forall j, nth j (pad68 (firstn k hs)) (z2b 0) = if Nat.ltb j k then nth j hs (z2b 0) else z2b 0.
Proof.
  intros H Hk j. rewrite pad68_firstn by assumption. destruct (Nat.ltb_spec j k).
  - rewrite app_nth1 by (rewrite firstn_length; lia). rewrite <- (firstn_skipn k hs) at 2. rewrite app_nth1; [reflexivity|rewrite firstn_length; lia].
  - rewrite app_nth2 by (rewrite firstn_length; lia). rewrite nth_repeat. reflexivity.
Qed.

Lemma zeros_nth l : zeros l <-> forall j, nth j l (z2b 0) = z2b 0.
Proof.
  unfold zeros. rewrite Forall_forall. split.
  - intros H j. destruct (Nat.ltb_spec j (List.length l)); [apply H, nth_In; assumption|now apply nth_overflow].
  - intros H x Hx. destruct (In_nth l x (z2b 0) Hx) as (j & _ & <-). apply H.
Qed.

Lemma nth_skipn_z (l : bytes) n j : nth j (skipn n l) (z2b 0) = nth (n + j) l (z2b 0).
Proof. revert l; induction n as [|n IH]; intros l; [reflexivity|]. destruct l; [destruct j; reflexivity|]. cbn. apply IH. Qed.

Lemma nth_firstn' {A} (l : list A) n j d : (j < n)%nat -> nth j (firstn n l) d = nth j l d.
Proof. revert l j; induction n as [|n IH]; intros l j H; [lia|]. destruct l; [destruct j; reflexivity|]. destruct j; [reflexivity|]. cbn. apply IH. lia. Qed.

Lemma nth_handshake_ih rsv ih id j : List.length rsv = 8%nat -> List.length ih = 20%nat -> (j < 20)%nat ->
  nth (28 + j) (handshake_of rsv ih id) (z2b 0) = nth j ih (z2b 0).
Proof.
  intros Hr Hi Hj. unfold handshake_of. replace (z2b 19 :: protocol ++ rsv ++ ih ++ id) with ((z2b 19 :: protocol ++ rsv) ++ ih ++ id).
  2:{ cbn [app]. rewrite <- app_assoc. reflexivity. }
  assert (HL : List.length (z2b 19 :: protocol ++ rsv) = 28%nat) by (cbn [List.length]; rewrite app_length, Hr; reflexivity).
  rewrite app_nth2 by lia. rewrite HL. replace (28 + j - 28)%nat with j by lia. rewrite app_nth1 by lia. reflexivity.
Qed.

Lemma nth_handshake_pstr rsv ih id : nth 19 (handshake_of rsv ih id) (z2b 0) = "l"%byte.
Proof. reflexivity. Qed.

Lemma short_read_accept ih rsv id k sp : List.length rsv = 8%nat -> List.length ih = 20%nat -> List.length id = 20%nat ->
  (k <= 68)%nat ->
  (ValidHandshake (mkslice (pad68 (firstn k (handshake_of rsv ih id))) sp) ih = Ok true <->
   (20 <= k)%nat /\ zeros (skipn (k - 28) ih)).
Proof.
  intros Hr Hi Hd Hk. set (hs := handshake_of rsv ih id).
  assert (HL : List.length hs = 68%nat).
  { unfold hs, handshake_of. cbn [List.length]. rewrite !app_length, Hr, Hi, Hd. reflexivity. }
  rewrite Valid_iff. split.
  - intros (r' & i' & Hr' & _ & Hi' & E).
    assert (HN : forall j, nth j (handshake_of r' ih i') (z2b 0) = if Nat.ltb j k then nth j hs (z2b 0) else z2b 0).
    { intros j. rewrite <- E. now apply pad_agree. }
    split.
    + destruct (Nat.leb_spec 20 k); [assumption|exfalso]. specialize (HN 19%nat). rewrite nth_handshake_pstr in HN.
      destruct (Nat.ltb_spec 19 k); [lia|]. discriminate HN.
    + apply zeros_nth. intros j. rewrite nth_skipn_z.
      destruct (Nat.ltb_spec (k - 28 + j) 20) as [J|J]; [|apply nth_overflow; lia].
      destruct (Nat.leb_spec 28 k) as [K|K].
      * specialize (HN (28 + (k - 28 + j))%nat). rewrite nth_handshake_ih in HN by assumption.
        destruct (Nat.ltb_spec (28 + (k - 28 + j)) k); [lia|assumption].
      * specialize (HN (28 + (k - 28 + j))%nat). rewrite nth_handshake_ih in HN by assumption.
        destruct (Nat.ltb_spec (28 + (k - 28 + j)) k); [lia|assumption].
  - intros [K Z].
    exists (firstn 8 (skipn 20 (pad68 (firstn k hs)))), (skipn 48 (pad68 (firstn k hs))).
    assert (PL : List.length (pad68 (firstn k hs)) = 68%nat).
    { unfold pad68. rewrite app_length, repeat_length, firstn_length. lia. }
    split; [rewrite firstn_length, skipn_length; lia|]. split; [assumption|]. split; [rewrite skipn_length; lia|].
    assert (ZN : forall j, nth (k - 28 + j) ih (z2b 0) = z2b 0).
    { intros j. rewrite <- nth_skipn_z. now apply zeros_nth. }
    apply nth_ext with (d := z2b 0) (d' := z2b 0).
    { rewrite PL. unfold handshake_of. cbn [List.length]. rewrite !app_length, firstn_length, !skipn_length, PL, Hi. reflexivity. }
    intros j Hj. rewrite PL in Hj.
    destruct (Nat.ltb_spec j 20) as [J1|J1].
    { rewrite pad_agree by assumption. destruct (Nat.ltb_spec j k); [|lia].
      unfold hs, handshake_of. change (z2b 19 :: protocol ++ ?x) with ((z2b 19 :: protocol) ++ x).
      rewrite !app_nth1 by (cbn; lia). reflexivity. }
    set (rs := firstn 8 (skipn 20 (pad68 (firstn k hs)))).
    assert (RL : List.length rs = 8%nat) by (unfold rs; rewrite firstn_length, skipn_length; lia).
    destruct (Nat.ltb_spec j 28) as [J2|J2].
    { unfold handshake_of. change (z2b 19 :: protocol ++ ?x) with ((z2b 19 :: protocol) ++ x).
      rewrite (app_nth2 (z2b 19 :: protocol)) by (cbn; lia). rewrite app_nth1 by (rewrite RL; cbn; lia).
      change (List.length (z2b 19 :: protocol)) with 20%nat. unfold rs.
      rewrite nth_firstn' by lia. rewrite nth_skipn_z. f_equal. lia. }
    destruct (Nat.ltb_spec j 48) as [J3|J3].
    { replace j with (28 + (j - 28))%nat by lia. rewrite nth_handshake_ih by (assumption || lia).
      rewrite pad_agree by assumption. destruct (Nat.ltb_spec (28 + (j - 28)) k) as [Q|Q].
      - unfold hs. rewrite nth_handshake_ih by (assumption || lia). reflexivity.
      - symmetry. replace (j - 28)%nat with (k - 28 + (j - 28 - (k - 28)))%nat by lia. apply ZN. }
    unfold handshake_of. replace (z2b 19 :: protocol ++ rs ++ ih ++ skipn 48 (pad68 (firstn k hs))) with ((z2b 19 :: protocol ++ rs ++ ih) ++ skipn 48 (pad68 (firstn k hs))).
    2:{ cbn [app]. rewrite <- !app_assoc. reflexivity. }
    assert (QL : List.length (z2b 19 :: protocol ++ rs ++ ih) = 48%nat) by (cbn [List.length]; rewrite !app_length, RL, Hi; reflexivity).
    rewrite app_nth2 by lia. rewrite QL, nth_skipn_z. f_equal. lia.
Qed.

(** ** The reply to our own handshake *)

Lemma decode_hs rest : zlen (z2b 19 :: protocol ++ rest) < 4294967296 ->
  exists e, decode_pure (z2b 19 :: protocol ++ rest) = Ok (mkdres None (zlen (z2b 19 :: protocol ++ rest)) (Some e)).
Proof.
  intros HL.
  change (z2b 19 :: protocol ++ rest) with (be32 323119476 ++ "T"%byte :: B "orrent protocol" ++ rest).
  rewrite decode_frame by lia.
  replace (zlen (be32 323119476 ++ "T"%byte :: B "orrent protocol" ++ rest)) with (5 + zlen (B "orrent protocol" ++ rest))
    by (rewrite (zlen_app (be32 323119476)), zlen_cons, zlen_be32; lia).
  change (b2z "T"%byte <=? 3) with false. change (4294967292 <=? 323119476) with false. cbv iota.
  destruct (_ <? _); eexists; reflexivity.
Qed.

Lemma DecodeAll_handshake rest sp fuel : (2 <= fuel)%nat -> zlen (z2b 19 :: protocol ++ rest) < 4294967296 ->
  DecodeAll fuel (mkslice (z2b 19 :: protocol ++ rest) sp) = Ok ([], 0).
Proof.
  intros Hf HL. destruct (decode_hs rest HL) as (e & HD).
  destruct fuel as [|[|f]]; [lia|lia|]. unfold DecodeAll.
  assert (0 < zlen (z2b 19 :: protocol ++ rest)) by (rewrite zlen_cons; pose proof (zlen_nonneg (protocol ++ rest)); lia).
  rewrite loop_step by lia. change (skipn (Z.to_nat 0) (z2b 19 :: protocol ++ rest)) with (z2b 19 :: protocol ++ rest).
  rewrite HD. cbn [d_err d_msg d_read]. rewrite loop_end by lia. reflexivity.
Qed.

(** ** Statements in terms of the API *)

Lemma FromIncoming_short ih me bf rsv id k :
  List.length rsv = 8%nat -> List.length ih = 20%nat -> List.length id = 20%nat -> (k <= 68)%nat ->
  let r := mkread (firstn k (handshake_of rsv ih id)) false in
  ((exists id', in_peer (FromIncoming ih me bf r (mkw true true)) = Ok id') <->
   (20 <= k)%nat /\ zeros (skipn (k - 28) ih)).
Proof.
  intros Hr Hi Hd Hk r. rewrite <- (short_read_accept ih rsv id k []) by assumption. rewrite Valid_iff.
  assert (HL : (List.length (rd_bytes r) <= 68)%nat) by (cbn [r rd_bytes]; rewrite firstn_length; lia).
  split.
  - intros (id' & H). apply FromIncoming_iff in H; [|assumption]. destruct H as (_ & _ & _ & rsv' & H1 & H2 & H3 & E).
    exists rsv', id'. auto.
  - intros (rsv' & id' & H1 & H2 & H3 & E). exists id'. apply FromIncoming_iff; [assumption|]. repeat split. exists rsv'. auto.
Qed.

Lemma FromIncoming_48 ih me bf rsv tail :
  List.length rsv = 8%nat -> List.length ih = 20%nat -> (List.length tail <= 20)%nat ->
  in_peer (FromIncoming ih me bf (mkread (z2b 19 :: protocol ++ rsv ++ ih ++ tail) false) (mkw true true)) =
  Ok (tail ++ repeat (z2b 0) (20 - List.length tail)).
Proof.
  intros Hr Hi Ht. apply FromIncoming_iff.
  { cbn [rd_bytes List.length]. rewrite !app_length, Hr, Hi. change (List.length protocol) with 19%nat. lia. }
  repeat split. exists rsv. split; [assumption|]. split; [assumption|].
  split; [rewrite app_length, repeat_length; lia|]. cbn [rd_bytes]. unfold pad68, handshake_of.
  cbn [List.length app]. rewrite !app_length, Hr, Hi. change (List.length protocol) with 19%nat.
  rewrite <- !app_assoc. reflexivity.
Qed.
