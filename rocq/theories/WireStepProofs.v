(** WireStepProofs.v: error outcomes of the message decoder. *)
From Verif Require Import Base BitfieldModel BitfieldSpec WireModel WireSpec WireProofs WireStepSpec.
From Coq Require Import ZifyBool ZifyNat ZifyN.

Lemma four (l : bytes) : 4 <= zlen l -> exists n r, l = be32 n ++ r /\ 0 <= n < 4294967296.
Proof.
  intros H. destruct (split4 l H) as (a & b & c & d & q & ->).
  exists (val32 [a; b; c; d]), q. split; [rewrite be32_val32; reflexivity|apply val32_range].
Qed.

Lemma decode_tiny l : zlen l < 4 -> decode_pure l = Ok (mkdres None (zlen l) (Some EBadMessage)).
Proof.
  intros H. destruct l as [|a [|b [|c [|d r]]]]; try reflexivity.
  exfalso. rewrite !zlen_cons in H. pose proof (zlen_nonneg r). lia.
Qed.

Lemma decode_noid n : 1 <= n < 4294967296 -> decode_pure (be32 n) = Ok (mkdres None 4 (Some EBadMessage)).
Proof.
  intros Hn. pose proof (val32_be32 n [] ltac:(lia)) as V. rewrite app_nil_r in V.
  unfold be32 in *. cbn [decode_pure]. rewrite V. replace (n =? 0) with false by lia. reflexivity.
Qed.

Lemma body_big L t n p : 8 <= b2z t -> body L t n p = Ok (mkdres None L (Some EUnknownType)).
Proof.
  intros Ht. unfold body. pose proof (b2z_range t) as Hr.
  destruct (b2z t) as [|q|q]; try lia.
  destruct q as [[[q|q|]|[q|q|]|]|[[q|q|]|[q|q|]|]|]; try lia; reflexivity.
Qed.

Lemma decode_rejects l k : zlen l < 4294967296 -> rejected l k ->
  exists e, decode_pure l = Ok (mkdres None k (Some e)).
Proof.
  intros HL [[-> [Ht|(n & Hn & [->|(t & r & -> & HC)])]]|[[-> (n & r & -> & Hn & Hd & Hr)]|[[-> (n & r & -> & Hn & Hd & Hr)]|[-> He]]]].
  - exists EBadMessage. now apply decode_tiny.
  - exists EBadMessage. now apply decode_noid.
  - cbn [app]. rewrite decode_frame by assumption.
    assert (HZ : zlen (be32 n ++ t :: r) = 5 + zlen r) by (rewrite zlen_app, zlen_be32, zlen_cons; lia).
    rewrite HZ. destruct HC as [[H1 H2]|(H1 & H2 & H3)].
    + replace (b2z t <=? 3) with true by lia. replace (n =? 1) with false by lia. eauto.
    + replace (b2z t <=? 3) with false by lia. replace (4294967292 <=? n) with false by lia.
      destruct (Z.ltb_spec (zlen r) (n - 1)); [eauto|].
      destruct H3 as [H3|H3]; [lia|]. rewrite body_big by assumption. eauto.
  - cbn [app]. rewrite decode_frame by lia.
    rewrite b2z_z2b_small by lia. replace (4 <=? 3) with false by reflexivity.
    replace (4294967292 <=? n) with false by lia. replace (zlen r <? n - 1) with false by lia.
    unfold body. rewrite b2z_z2b_small by lia. replace (n =? 5) with false by lia. eauto.
  - cbn [app]. rewrite decode_frame by lia.
    rewrite b2z_z2b_small by lia. replace (6 <=? 3) with false by reflexivity.
    replace (4294967292 <=? n) with false by lia. replace (zlen r <? n - 1) with false by lia.
    unfold body. rewrite b2z_z2b_small by lia. replace (n =? 13) with false by lia. eauto.
  - destruct l as [|a [|b [|c [|d [|e r]]]]]; try discriminate He. injection He as -> -> -> -> ->.
    change (exists e, decode_pure (be32 1 ++ x05 :: r) = Ok (mkdres None 0 (Some e))).
    rewrite decode_frame by lia. change (b2z x05) with 5. cbn [Z.leb].
    replace (4294967292 <=? 1) with false by reflexivity. pose proof (zlen_nonneg r).
    replace (zlen r <? 1 - 1) with false by lia. unfold body. change (b2z x05) with 5. eexists. reflexivity.
Qed.

Lemma byte_of t z : b2z t = z -> t = z2b z.
Proof. intros <-. symmetry. apply z2b_b2z. Qed.

Lemma decode_error_inv l k e : zlen l < 4294967296 ->
  decode_pure l = Ok (mkdres None k (Some e)) -> rejected l k.
Proof.
  intros HL HD. destruct (Z.lt_ge_cases (zlen l) 4) as [Ht|Ht].
  { rewrite decode_tiny in HD by assumption. left. split; [congruence|now left]. }
  destruct (four l Ht) as (n & r & -> & Hn).
  destruct (Z.eq_dec n 0) as [->|Hn0].
  { assert (HX : decode_pure (be32 0 ++ r) = Ok (mkdres (Some MKeepAlive) 4 None)) by reflexivity. congruence. }
  destruct r as [|t r].
  { rewrite app_nil_r in *. rewrite decode_noid in HD by lia. left. split; [rewrite zlen_be32; congruence|].
    right. exists n. split; [lia|now left]. }
  assert (HZ : zlen (be32 n ++ t :: r) = 5 + zlen r) by (rewrite zlen_app, zlen_be32, zlen_cons; lia).
  assert (HG : (b2z t <= 3 /\ n <> 1) \/ (3 < b2z t /\ n < 4294967292 /\ (zlen r < n - 1 \/ 8 <= b2z t)) ->
               k = 5 + zlen r -> rejected (be32 n ++ t :: r) k).
  { intros HC ->. left. split; [now rewrite HZ|]. right. exists n. split; [lia|]. right. exists t, r. split; [reflexivity|exact HC]. }
  rewrite decode_frame in HD by lia.
  destruct (Z.leb_spec (b2z t) 3) as [E3|E3].
  { destruct (Z.eqb_spec n 1) as [E1|E1]; [congruence|]. apply HG; [lia|congruence]. }
  destruct (Z.leb_spec 4294967292 n) as [E4|E4]; [discriminate|].
  destruct (Z.ltb_spec (zlen r) (n - 1)) as [E5|E5]; [apply HG; [lia|congruence]|].
  destruct (Z.le_gt_cases 8 (b2z t)) as [E8|E8].
  { rewrite body_big in HD by assumption. apply HG; [lia|congruence]. }
  unfold body in HD.
  assert (HT : b2z t = 4 \/ b2z t = 5 \/ b2z t = 6 \/ b2z t = 7) by lia.
  destruct HT as [E|[E|[E|E]]]; rewrite E in HD.
  - destruct (Z.eqb_spec n 5) as [E1|E1]; [congruence|]. assert (k = 9) by congruence. subst k.
    right. left. split; [reflexivity|]. exists n, r. apply byte_of in E. subst t. repeat split; try assumption; lia.
  - destruct (Z.eqb_spec n 1) as [E1|E1]; [|congruence]. assert (k = 0) by congruence. subst k n.
    right. right. right. split; [reflexivity|]. apply byte_of in E. subst t. reflexivity.
  - destruct (Z.eqb_spec n 13) as [E1|E1]; [congruence|]. assert (k = 17) by congruence. subst k.
    right. right. left. split; [reflexivity|]. exists n, r. apply byte_of in E. subst t. repeat split; try assumption; lia.
  - discriminate.
Qed.

Lemma decode_msg_none l k e m : decode_pure l = Ok (mkdres m k (Some e)) -> m = None.
Proof.
  destruct l as [|a [|b [|c [|d r]]]]; cbn [decode_pure]; try congruence.
  destruct (_ =? 0); [congruence|]. destruct r as [|t r]; [congruence|].
  destruct (_ <=? 3); [destruct (_ =? 1); congruence|].
  destruct (_ <=? _); [discriminate|]. destruct (_ <? _); [congruence|].
  unfold body. destruct (b2z t) as [|q|q]; try congruence.
  destruct q as [[[q|q|]|[q|q|]|]|[[q|q|]|[q|q|]|]|]; try congruence; destruct (_ =? _); congruence.
Qed.

Lemma Decode_rejects l sp k : zlen l < 4294967296 ->
  ((exists dr, DecodeMsg (mkslice l sp) = Ok dr /\ d_err dr <> None /\ d_read dr = k) <-> rejected l k).
Proof.
  intros HL. rewrite DecodeMsg_pure by assumption. split.
  - intros ([m k' [e|]] & HD & He & Hk); cbn in *; [|congruence]. subst k'.
    pose proof (decode_msg_none _ _ _ _ HD) as ->. now apply decode_error_inv in HD.
  - intros HR. destruct (decode_rejects l k HL HR) as (e & HD). eexists. split; [exact HD|]. split; [discriminate|reflexivity].
Qed.

Lemma Decode_error_no_msg l sp dr : zlen l < 4294967296 ->
  DecodeMsg (mkslice l sp) = Ok dr -> (d_err dr <> None <-> d_msg dr = None).
Proof.
  intros HL. rewrite DecodeMsg_pure by assumption. intros HD.
  destruct dr as [m k [e|]]; cbn.
  - apply decode_msg_none in HD. split; [auto|discriminate].
  - destruct (decode_ok_shape _ _ HD) as [(m' & H1 & _)|(e & H1)]; cbn in H1; [|discriminate].
    subst m. split; [congruence|discriminate].
Qed.

(** ** The loop after an error *)

Lemma loop_shift sp : forall f l idx read ms, zlen l < 4294967296 -> 0 <= read <= idx ->
  DecodeAllLoop f (mkslice l sp) idx read ms =
  match DecodeAllLoop f (mkslice (skipn (Z.to_nat idx) l) sp) 0 0 [] with
  | Ok (a, b) => Ok (ms ++ a, read + b)
  | o => o
  end.
Proof.
  induction f as [|f IH]; intros l idx read ms HL Hr; [reflexivity|].
  destruct (Z.leb_spec (zlen l) idx) as [E|E].
  { rewrite loop_end by assumption. rewrite loop_end; [now rewrite app_nil_r, Z.add_0_r|].
    rewrite zlen_skipn. lia. }
  assert (HL2 : zlen (skipn (Z.to_nat idx) l) < 4294967296) by (rewrite zlen_skipn; lia).
  rewrite loop_step by lia. rewrite loop_step; [|assumption|rewrite zlen_skipn; lia|lia].
  change (Z.to_nat 0) with 0%nat. rewrite skipn_O.
  set (l2 := skipn (Z.to_nat idx) l) in *.
  assert (Hne : l2 <> []) by (apply skipn_ne; lia).
  destruct (decode_pure l2) as [dr|?| |] eqn:ED; try reflexivity.
  assert (Hk : 0 <= d_read dr) by (destruct (decode_read l2 dr Hne ED); lia).
  assert (HS : skipn (Z.to_nat (0 + d_read dr)) l2 = skipn (Z.to_nat (idx + d_read dr)) l).
  { unfold l2. rewrite skipn_skipn'. f_equal. lia. }
  destruct (d_err dr) as [e|].
  - rewrite (IH l (idx + d_read dr)) by lia. rewrite (IH l2 (0 + d_read dr)) by lia. rewrite HS.
    destruct (DecodeAllLoop f _ 0 0 []) as [[a b]|?| |]; reflexivity.
  - destruct (d_msg dr) as [m|]; [|reflexivity].
    rewrite (IH l (idx + d_read dr)) by lia. rewrite (IH l2 (0 + d_read dr)) by lia. rewrite HS.
    destruct (DecodeAllLoop f _ 0 0 []) as [[a b]|?| |]; try reflexivity.
    rewrite <- app_assoc. do 2 f_equal. lia.
Qed.

Definition prepend (ms : list msg) (n : Z) (r : res (list msg * Z)) : res (list msg * Z) :=
  match r with Ok (a, b) => Ok (ms ++ a, n + b) | o => o end.

Lemma DecodeAll_one l sp f : zlen l < 4294967296 -> l <> [] ->
  DecodeAll (S f) (mkslice l sp) =
  match decode_pure l with
  | Ok dr => match d_err dr, d_msg dr with
             | None, Some m => prepend [m] (d_read dr) (DecodeAll f (mkslice (skipn (Z.to_nat (d_read dr)) l) sp))
             | None, None => Panic
             | Some _, _ => DecodeAll f (mkslice (skipn (Z.to_nat (d_read dr)) l) sp)
             end
  | Err e => Err e | Panic => Panic | NoFuel => NoFuel
  end.
Proof.
  intros HL Hne. unfold DecodeAll at 1.
  assert (0 < zlen l) by (destruct l; [congruence|rewrite zlen_cons; pose proof (zlen_nonneg l); lia]).
  rewrite loop_step by lia. change (Z.to_nat 0) with 0%nat. rewrite skipn_O.
  destruct (decode_pure l) as [dr|?| |] eqn:ED; try reflexivity;
    [|now apply decode_never_err in ED|now apply decode_never_nofuel in ED].
  assert (Hk : 0 <= d_read dr) by (destruct (decode_read l dr Hne ED); lia).
  destruct (d_err dr) as [e|]; [|destruct (d_msg dr) as [m|]; [|reflexivity]];
    rewrite loop_shift by lia; fold (DecodeAll f (mkslice (skipn (Z.to_nat (0 + d_read dr)) l) sp)); rewrite !Z.add_0_l;
    unfold prepend; destruct (DecodeAll f _) as [[a b]|?| |]; reflexivity.
Qed.

Lemma prepend_nil r : prepend [] 0 r = r.
Proof. destruct r as [[a b]|?| |]; reflexivity. Qed.
Lemma prepend_twice a x b y r : prepend a x (prepend b y r) = prepend (a ++ b) (x + y) r.
Proof. destruct r as [[c z]|?| |]; cbn; try reflexivity. now rewrite <- app_assoc, Z.add_assoc. Qed.

Lemma DecodeAll_prefix ms : Forall not_piece ms -> Forall msg_ok ms ->
  exists ms', Forall2 same_msg ms ms' /\ forall l sp f, zlen (stream ms ++ l) < 4294967296 ->
    DecodeAll (List.length ms + f) (mkslice (stream ms ++ l) sp) =
    prepend ms' (zlen (stream ms)) (DecodeAll f (mkslice l sp)).
Proof.
  induction ms as [|m ms IH]; intros Hp Ho.
  - exists []. split; [constructor|]. intros l sp f HL. cbn [stream flat_map app List.length plus].
    now rewrite prepend_nil.
  - inversion Hp; subst. inversion Ho as [|? ? Hmok Hoks]; subst. destruct (IH ltac:(assumption) ltac:(assumption)) as (ms' & HF & HX).
    destruct (decode_wire m [] ltac:(assumption) ltac:(assumption)) as (m' & _ & Hs).
    assert (HM : exists m', same_msg m m' /\ forall rest, decode_pure (wire_of m ++ rest) = Ok (mkdres (Some m') (zlen (wire_of m)) None)).
    { clear m' Hs. pose proof (decode_wire m [] ltac:(assumption) ltac:(assumption)) as (m' & HD & Hs).
      exists m'. split; [exact Hs|]. intros rest.
      destruct (decode_wire m rest ltac:(assumption) ltac:(assumption)) as (m'' & HD' & Hs').
      rewrite HD'. do 3 f_equal.
      destruct m; cbn [same_msg] in Hs, Hs'; try congruence.
      destruct Hs as (b1 & -> & A1 & D1), Hs' as (b2 & -> & A2 & D2).
      cbn [wire_of] in HD, HD'. destruct Hmok as (H5 & Hb & Hl).
      rewrite decode_frame_payload in HD, HD' by lia.
      unfold body in HD, HD'. rewrite b2z_z2b_small in HD, HD' by lia.
      destruct (1 + zlen (Data bf) =? 1); congruence. }
    clear m' Hs. destruct HM as (m' & Hs & HD).
    exists (m' :: ms'). split; [constructor; assumption|].
    intros l sp f HL. cbn [stream flat_map] in *. fold (stream ms) in *. rewrite <- app_assoc in HL |- *.
    cbn [List.length plus].
    rewrite DecodeAll_one; [|assumption|].
    2:{ intros E. apply (f_equal zlen) in E. rewrite zlen_app in E. pose proof (wire_pos m).
        pose proof (zlen_nonneg (stream ms ++ l)). unfold zlen at 3 in E. cbn in E. lia. }
    rewrite HD. cbn [d_err d_msg d_read].
    replace (skipn (Z.to_nat (zlen (wire_of m))) (wire_of m ++ stream ms ++ l)) with (stream ms ++ l).
    2:{ unfold zlen. rewrite Nat2Z.id, skipn_app, skipn_all, Nat.sub_diag. reflexivity. }
    rewrite HX by (rewrite zlen_app in HL; pose proof (zlen_nonneg (wire_of m)); lia).
    rewrite prepend_twice, zlen_app. reflexivity.
Qed.

Lemma DecodeAll_after_error ms : Forall not_piece ms -> Forall msg_ok ms ->
  exists ms', Forall2 same_msg ms ms' /\ forall l k sp f,
    zlen (stream ms ++ l) < 4294967296 -> l <> [] -> rejected l k ->
    DecodeAll (List.length ms + S f) (mkslice (stream ms ++ l) sp) =
    match DecodeAll f (mkslice (skipn (Z.to_nat k) l) sp) with
    | Ok (ms2, n2) => Ok (ms' ++ ms2, zlen (stream ms) + n2)
    | other => other
    end.
Proof.
  intros Hp Ho. destruct (DecodeAll_prefix ms Hp Ho) as (ms' & HF & HX).
  exists ms'. split; [exact HF|]. intros l k sp f HL Hne HR. rewrite HX by assumption.
  assert (HL2 : zlen l < 4294967296) by (rewrite zlen_app in HL; pose proof (zlen_nonneg (stream ms)); lia).
  rewrite DecodeAll_one by assumption.
  destruct (decode_rejects l k HL2 HR) as (e & ->). cbn [d_err d_msg d_read].
  destruct (DecodeAll f _) as [[a b]|?| |]; reflexivity.
Qed.

Lemma DecodeAll_gives_up ms l sp : Forall not_piece ms -> Forall msg_ok ms ->
  zlen (stream ms ++ l) < 4294967296 -> gives_up l ->
  exists ms', Forall2 same_msg ms ms' /\ forall fuel, (List.length ms + 1 < fuel)%nat ->
    DecodeAll fuel (mkslice (stream ms ++ l) sp) = Ok (ms', zlen (stream ms)).
Proof.
  intros Hp Ho HL HG. destruct (DecodeAll_prefix ms Hp Ho) as (ms' & HF & HX).
  exists ms'. split; [exact HF|]. intros fuel Hf.
  assert (HS : exists f, fuel = (List.length ms + S (S f))%nat) by (exists (fuel - List.length ms - 2)%nat; lia).
  destruct HS as [f ->]. rewrite HX by assumption.
  assert (HE : DecodeAll (S (S f)) (mkslice l sp) = Ok ([], 0)).
  { assert (HL2 : zlen l < 4294967296) by (rewrite zlen_app in HL; pose proof (zlen_nonneg (stream ms)); lia).
    destruct l as [|x l]; [reflexivity|]. rewrite DecodeAll_one by (assumption || discriminate).
    destruct (decode_rejects (x :: l) (zlen (x :: l)) HL2 ltac:(left; split; [reflexivity|assumption])) as (e & ->).
    cbn [d_err d_read]. unfold zlen. rewrite Nat2Z.id, skipn_all. reflexivity. }
  rewrite HE. cbn. now rewrite app_nil_r, Z.add_0_r.
Qed.
