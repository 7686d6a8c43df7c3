(** WireProofs.v: lemmas about the peer wire model. *)
From Verif Require Import Base BitfieldModel BitfieldSpec BitfieldProofs WireModel WireSpec.
From Coq Require Import ZifyBool ZifyNat ZifyN.
Ltac Zify.zify_post_hook ::= Z.div_mod_to_equations.

Definition max32 := 4294967296.

Lemma u32_id z : 0 <= z < 4294967296 -> u32 z = z.
Proof. intros. unfold u32. now rewrite Z.mod_small. Qed.
Lemma u64_id z : 0 <= z < 18446744073709551616 -> u64 z = z.
Proof. intros. unfold u64. now rewrite Z.mod_small. Qed.

Lemma zlen_firstn {A} (l : list A) n : 0 <= n <= zlen l -> zlen (firstn (Z.to_nat n) l) = n.
Proof. unfold zlen. intros. rewrite firstn_length. lia. Qed.
Lemma zlen_skipn {A} (l : list A) n : zlen (skipn n l) = Z.max 0 (zlen l - Z.of_nat n).
Proof. unfold zlen. rewrite skipn_length. lia. Qed.

(** sslice within the visible part. *)
Lemma sslice_vis v sp lo hi : 0 <= lo <= hi -> hi <= zlen v ->
  sslice (mkslice v sp) lo hi = Ok (mkslice (sub v (Z.to_nat lo) (Z.to_nat (hi - lo))) (skipn (Z.to_nat hi) (v ++ sp))).
Proof.
  intros H H2. unfold sslice, scap. cbn [vis spare]. pose proof (zlen_nonneg sp).
  replace ((0 <=? lo) && (lo <=? hi) && (hi <=? zlen v + zlen sp)) with true by lia.
  f_equal. f_equal. apply sub_app_l. unfold zlen in *. lia.
Qed.

Lemma sfrom_vis v sp lo : 0 <= lo <= zlen v ->
  sfrom (mkslice v sp) lo = Ok (mkslice (skipn (Z.to_nat lo) v) sp).
Proof.
  intros H. unfold sfrom, slen. cbn [vis]. rewrite sslice_vis by lia. f_equal. f_equal.
  - unfold sub. apply firstn_all2. rewrite skipn_length. unfold zlen in *. lia.
  - replace (Z.to_nat (zlen v)) with (List.length v) by (unfold zlen; lia).
    rewrite skipn_app, skipn_all, Nat.sub_diag. reflexivity.
Qed.

(** The message a payload-less id stands for. *)
Definition nopl (t : byte) : msg :=
  match b2z t with 0 => MChoke | 1 => MUnchoke | 2 => MInterested | _ => MNotInterested end.

(** The bitfield Decode builds from payload p. *)
Definition dec_bf (n : Z) (t : byte) (p : bytes) : bitfield :=
  mkbf (be32 n ++ [t]) p (n - 1) ((n - 1) * 8) (count_true (bits_of p)).

Definition val32 (s : bytes) : Z := match rd32 s with Ok v => v | _ => 0 end.

Definition body (L : Z) (t : byte) (n : Z) (p : bytes) : res dres :=
  match b2z t with
  | 4 => Ok (if n =? 5 then mkdres (Some (MHave (val32 p))) 9 None else mkdres None 9 (Some EBadMessage))
  | 5 => Ok (if n =? 1 then mkdres None 0 (Some EInvalid) else mkdres (Some (MBitfield (dec_bf n t p))) (4 + n) None)
  | 6 => Ok (if n =? 13 then mkdres (Some (MRequest (val32 p) (val32 (skipn 4 p)) (val32 (skipn 8 p)))) 17 None
             else mkdres None 17 (Some EBadMessage))
  | 7 => Panic
  | _ => Ok (mkdres None L (Some EUnknownType))
  end.

Definition decode_pure (l : bytes) : res dres :=
  match l with
  | a :: b :: c :: d :: r =>
    let n := val32 [a; b; c; d] in
    if n =? 0 then Ok (mkdres (Some MKeepAlive) 4 None)
    else match r with
         | [] => Ok (mkdres None (zlen l) (Some EBadMessage))
         | t :: r' =>
           if b2z t <=? 3 then
             if n =? 1 then Ok (mkdres (Some (nopl t)) 5 None)
             else Ok (mkdres None (zlen l) (Some EBadMessage))
           else if 4294967292 <=? n then Panic
           else if zlen r' <? n - 1 then Ok (mkdres None (zlen l) (Some EBadMessage))
           else body (zlen l) t n (firstn (Z.to_nat (n - 1)) r')
         end
  | _ => Ok (mkdres None (zlen l) (Some EBadMessage))
  end.

Lemma rd32_val s : 4 <= zlen s -> rd32 s = Ok (val32 s).
Proof. unfold val32. destruct s as [|a [|b [|c [|d s]]]]; cbn; try lia. reflexivity. Qed.

Lemma val32_range s : 0 <= val32 s < 4294967296.
Proof.
  unfold val32. destruct (rd32 s) eqn:E; try lia. now apply rd32_range in E.
Qed.

Lemma val32_four a b c d r : val32 (a :: b :: c :: d :: r) = val32 [a; b; c; d].
Proof. reflexivity. Qed.

Lemma DecodeMsg_pure l sp : zlen l < 4294967296 -> DecodeMsg (mkslice l sp) = decode_pure l.
Proof.
  intros HL. pose proof (zlen_nonneg l) as H0.
  unfold DecodeMsg, slen. cbn [vis]. rewrite (u64_id (zlen l)) by lia.
  destruct l as [|a [|b [|c [|d r]]]]; try reflexivity.
  replace (zlen (a :: b :: c :: d :: r) <? 4) with false
    by (rewrite !zlen_cons; pose proof (zlen_nonneg r); lia).
  rewrite rd32_val by (rewrite !zlen_cons; pose proof (zlen_nonneg r); lia).
  rewrite (val32_four a b c d r).
  cbn [bind decode_pure]. set (n := val32 [a; b; c; d]).
  pose proof (val32_range [a; b; c; d]) as Hn. fold n in Hn.
  destruct (Z.eqb_spec n 0) as [E0|E0]; [reflexivity|].
  destruct r as [|t r]; [reflexivity|].
  set (l := a :: b :: c :: d :: t :: r) in *.
  assert (HLr : zlen l = 5 + zlen r) by (unfold l; rewrite !zlen_cons; lia).
  pose proof (zlen_nonneg r) as Hr0.
  replace (zlen l <? 5) with false by lia.
  unfold sindex, slen. cbn [vis].
  replace ((0 <=? 4) && (4 <? zlen l)) with true by lia.
  change (nth_error l (Z.to_nat 4)) with (Some t). cbn [bind].
  pose proof (b2z_range t) as Ht.
  rewrite (u32_id (zlen l)) by lia.
  destruct (Z.leb_spec (b2z t) 3) as [T|T].
  - destruct (Z.eqb_spec n 1) as [E1|E1]; cbn [negb andb]; [|reflexivity].
    replace (u32 (4 + n)) with 5 by (rewrite u32_id; lia).
    replace (zlen l <? 5) with false by lia.
    replace (u32 (5 + n - 1)) with 5 by (rewrite u32_id; lia).
    rewrite sslice_vis by lia. cbn [bind].
    unfold nopl. destruct (b2z t) as [|q|q] eqn:Eq; [reflexivity| |lia].
    destruct q as [[q|q|]|[q|q|]|]; try lia; reflexivity.
  - cbn [andb].
    destruct (Z.leb_spec 4294967292 n) as [W|W].
    + replace (u32 (4 + n)) with (4 + n - 4294967296) by (unfold u32; lia).
      replace (zlen l <? 4 + n - 4294967296) with false by lia.
      replace (u32 (5 + n - 1)) with (4 + n - 4294967296) by (unfold u32; lia).
      unfold sslice. replace ((0 <=? 5) && (5 <=? 4 + n - 4294967296)) with false by lia. reflexivity.
    + rewrite (u32_id (4 + n)) by lia.
      replace (zlen l <? 4 + n) with (zlen r <? n - 1) by lia.
      destruct (Z.ltb_spec (zlen r) (n - 1)) as [S|S]; [reflexivity|].
      rewrite (u32_id (5 + n - 1)) by lia.
      rewrite sslice_vis by lia. cbn [bind vis].
      replace (5 + n - 1 - 5) with (n - 1) by lia.
      replace (sub l (Z.to_nat 5) (Z.to_nat (n - 1))) with (firstn (Z.to_nat (n - 1)) r) by reflexivity.
      set (p := firstn (Z.to_nat (n - 1)) r).
      assert (Hp : zlen p = n - 1) by (apply zlen_firstn; lia).
      unfold body.
      assert (HB : b2z t = 4 \/ b2z t = 5 \/ b2z t = 6 \/ b2z t = 7 \/ 8 <= b2z t) by lia.
      destruct HB as [HB|[HB|[HB|[HB|HB]]]].
      * rewrite HB. unfold DecodeMsgHave. rewrite Hp, (u32_id (n - 1)) by lia.
        replace (n - 1 =? 4) with (n =? 5) by lia.
        destruct (Z.eqb_spec n 5) as [E5|E5]; cbn [negb attempt]; [|reflexivity].
        rewrite rd32_val by lia. reflexivity.
      * rewrite HB. unfold DecodeMsgBitfield.
        rewrite (u32_id (4 + n)), (u32_id (n - 1)) by lia.
        rewrite sslice_vis by lia. cbn [bind vis].
        replace (sub l (Z.to_nat 0) (Z.to_nat (4 + n - 0))) with (be32 n ++ t :: p).
        2:{ unfold sub. cbn [Z.to_nat skipn]. replace (Z.to_nat (4 + n - 0)) with (5 + Z.to_nat (n - 1))%nat by lia.
            replace (be32 n) with [a; b; c; d]; [reflexivity|].
            symmetry. eapply be32_rd32 with (r := []). apply rd32_val. unfold zlen; cbn; lia. }
        unfold FromBytes.
        assert (HF : zlen (be32 n ++ t :: p) = 4 + n).
        { rewrite zlen_app, zlen_cons, Hp. unfold zlen. rewrite be32_length. lia. }
        rewrite HF. replace (4 + n <=? 5) with (n =? 1) by lia.
        destruct (Z.eqb_spec n 1) as [E1|E1]; [reflexivity|].
        replace (((n - 1) * 8 <? (4 + n - 5 - 1) * 8 + 1) || ((4 + n - 5) * 8 <? (n - 1) * 8)) with false by lia.
        change (skipn 5 (be32 n ++ t :: p)) with p.
        change (firstn 5 (be32 n ++ t :: p)) with (be32 n ++ [t]).
        rewrite calcNset_ok by lia. cbn [bind attempt Length Nbytes bnbytes].
        rewrite (u32_id (1 + (4 + n - 5))) by lia. rewrite u32_id by lia.
        f_equal. unfold dec_bf. f_equal; [|lia]. f_equal. f_equal. f_equal; [lia|].
        f_equal. apply firstn_all2. rewrite bits_of_length. unfold zlen in *. lia.
      * rewrite HB. unfold DecodeMsgRequest. rewrite Hp, (u32_id (n - 1)) by lia.
        replace (n - 1 =? 12) with (n =? 13) by lia.
        destruct (Z.eqb_spec n 13) as [E5|E5]; cbn [negb attempt]; [|reflexivity].
        rewrite !rd32_val by (rewrite ?zlen_skipn; lia). reflexivity.
      * rewrite HB. unfold DecodeMsgPiece. rewrite Hp, (u32_id (n - 1)) by lia.
        replace (n - 1 =? n) with false by lia. reflexivity.
      * destruct (b2z t) as [|q|q] eqn:Eq; try lia.
        do 3 (destruct q as [q|q|]; try lia); reflexivity.
Qed.

(** ** Encoding *)

Lemma Encode_piece index begin block : zlen block < 4294967287 ->
  EncodeMsg (MPiece index begin block) = wire_of (MPiece index begin block).
Proof.
  intros Hl. cbn [EncodeMsg wire_of]. unfold base, frame. cbn [Length Mtype].
  pose proof (zlen_nonneg block).
  rewrite !zlen_app. unfold zlen at 2 3. rewrite !be32_length. rewrite u32_id by lia.
  replace (1 + 8 + zlen block) with (1 + (Z.of_nat 4 + (Z.of_nat 4 + zlen block))) by lia.
  rewrite <- app_assoc. reflexivity.
Qed.

Lemma Encode_wire m : not_request m -> msg_ok m -> EncodeMsg m = wire_of m.
Proof.
  intros Hc Hm.
  destruct m; cbn [not_request] in Hc; try contradiction; try reflexivity.
  - (* bitfield *) destruct Hm as (H5 & Hb & Hl). cbn [EncodeMsg wire_of]. unfold base, frame. cbn [Length Mtype].
    rewrite Hb, u32_id by lia. rewrite <- app_assoc. f_equal. f_equal.
    unfold Data5. rewrite skipn_app, H5. change (5 - 5)%nat with 0%nat. rewrite skipn_O.
    rewrite skipn_all2 by lia. reflexivity.
  - (* piece *) destruct Hm as (Hi & Hb & Hl). apply Encode_piece. lia.
Qed.

(** ** Decoding a frame *)

Lemma val32_be32 z r : 0 <= z < 4294967296 -> val32 (be32 z ++ r) = z.
Proof. intros H. unfold val32. now rewrite rd32_be32. Qed.

Lemma decode_frame n t r : 1 <= n < 4294967296 ->
  decode_pure (be32 n ++ t :: r) =
    if b2z t <=? 3 then
      if n =? 1 then Ok (mkdres (Some (nopl t)) 5 None)
      else Ok (mkdres None (5 + zlen r) (Some EBadMessage))
    else if 4294967292 <=? n then Panic
    else if zlen r <? n - 1 then Ok (mkdres None (5 + zlen r) (Some EBadMessage))
    else body (5 + zlen r) t n (firstn (Z.to_nat (n - 1)) r).
Proof.
  intros Hn. pose proof (val32_be32 n [] ltac:(lia)) as V.
  assert (HL : zlen (be32 n ++ t :: r) = 5 + zlen r).
  { rewrite zlen_app, zlen_cons. unfold zlen at 1. rewrite be32_length. lia. }
  rewrite <- HL. unfold be32 in *. cbn [app] in *. cbn [decode_pure].
  rewrite V. replace (n =? 0) with false by lia. reflexivity.
Qed.

Lemma b2z_z2b_small z : 0 <= z < 256 -> b2z (z2b z) = z.
Proof. intros. rewrite b2z_z2b. now rewrite Z.mod_small. Qed.

(** A frame with payload p and id above 3. *)
Lemma decode_frame_payload id p rest : 4 <= id < 256 -> zlen p < 4294967291 ->
  decode_pure (frame id p ++ rest) = body (5 + zlen p + zlen rest) (z2b id) (1 + zlen p) p.
Proof.
  intros Hid Hp. pose proof (zlen_nonneg p). pose proof (zlen_nonneg rest).
  unfold frame. rewrite <- !app_assoc. cbn [app]. rewrite decode_frame by lia.
  rewrite b2z_z2b_small by lia.
  replace (id <=? 3) with false by lia.
  replace (4294967292 <=? 1 + zlen p) with false by lia.
  replace (zlen (p ++ rest) <? 1 + zlen p - 1) with false by (rewrite zlen_app; lia).
  rewrite zlen_app. replace (5 + (zlen p + zlen rest)) with (5 + zlen p + zlen rest) by lia. f_equal.
  rewrite firstn_app. replace (Z.to_nat (1 + zlen p - 1)) with (List.length p) by (unfold zlen; lia).
  rewrite firstn_all, Nat.sub_diag, firstn_O, app_nil_r. reflexivity.
Qed.

Lemma zlen_be32 z : zlen (be32 z) = 4.
Proof. reflexivity. Qed.

Lemma wire_zlen m : zlen (wire_of m) =
  match m with
  | MKeepAlive => 4 | MChoke | MUnchoke | MInterested | MNotInterested => 5
  | MHave _ => 9 | MBitfield bf => 5 + zlen (Data bf) | MRequest _ _ _ => 17
  | MPiece _ _ block => 13 + zlen block end.
Proof.
  destruct m; try reflexivity; cbn [wire_of]; unfold frame; rewrite !zlen_app, ?zlen_be32, ?zlen_cons, ?zlen_nil; lia.
Qed.

Lemma same_msg_refl m : (match m with MBitfield _ => False | _ => True end) -> same_msg m m.
Proof. destruct m; cbn; tauto. Qed.

Lemma dec_bf_same bf n t : 0 < zlen (Data bf) -> n = 1 + zlen (Data bf) ->
  same_msg (MBitfield bf) (MBitfield (dec_bf n t (Data bf))).
Proof.
  intros H ->. eexists. split; [reflexivity|]. split; [|reflexivity].
  apply binv_agrees. unfold binv, dec_bf. cbn [vn vbits bnbits bnbytes bhdr bdat bnset].
  unfold zlen in *. rewrite bits_of_length.
  repeat split; try lia. f_equal. symmetry. apply firstn_all2. rewrite bits_of_length. lia.
Qed.

Lemma decode_wire m rest : not_piece m -> msg_ok m ->
  exists m', decode_pure (wire_of m ++ rest) = Ok (mkdres (Some m') (zlen (wire_of m)) None) /\ same_msg m m'.
Proof.
  intros Hp Hm. pose proof (zlen_nonneg rest). rewrite wire_zlen.
  destruct m; cbn [not_piece] in Hp; try contradiction; cbn [wire_of].
  - exists MKeepAlive. split; reflexivity.
  - exists MChoke. split; reflexivity.
  - exists MUnchoke. split; reflexivity.
  - exists MInterested. split; reflexivity.
  - exists MNotInterested. split; reflexivity.
  - exists (MHave index). split; [|reflexivity]. cbn in Hm. unfold is_u32 in Hm.
    rewrite decode_frame_payload by (rewrite ?zlen_be32; lia). rewrite zlen_be32.
    unfold body. rewrite b2z_z2b_small by lia. cbn [Z.eqb Z.add Pos.add Pos.succ Pos.eqb].
    rewrite <- (app_nil_r (be32 index)). rewrite val32_be32 by lia. reflexivity.
  - destruct Hm as (H5 & Hb & Hl). exists (MBitfield (dec_bf (1 + zlen (Data bf)) (z2b 5) (Data bf))).
    split; [|apply dec_bf_same; lia].
    rewrite decode_frame_payload by lia. unfold body. rewrite b2z_z2b_small by lia.
    replace (1 + zlen (Data bf) =? 1) with false by lia. f_equal. f_equal. lia.
  - exists (MRequest index begin reqlen). split; [|reflexivity]. destruct Hm as (Hi & Hb & Hl). unfold is_u32 in *.
    rewrite decode_frame_payload by (rewrite ?zlen_app, ?zlen_be32; lia). rewrite !zlen_app, !zlen_be32.
    unfold body. rewrite b2z_z2b_small by lia. cbn [Z.eqb Z.add Pos.add Pos.succ Pos.eqb].
    rewrite val32_be32 by lia.
    change (skipn 4 (be32 index ++ be32 begin ++ be32 reqlen)) with (be32 begin ++ be32 reqlen).
    rewrite val32_be32 by lia.
    change (skipn 8 (be32 index ++ be32 begin ++ be32 reqlen)) with (be32 reqlen).
    rewrite <- (app_nil_r (be32 reqlen)). rewrite val32_be32 by lia. reflexivity.
Qed.

(** ** Soundness *)

Lemma be32_val32 a b c d : be32 (val32 [a; b; c; d]) = [a; b; c; d].
Proof. eapply be32_rd32 with (r := []). apply rd32_val. unfold zlen; cbn; lia. Qed.

Lemma list4 (p : bytes) : zlen p = 4 -> exists a b c d, p = [a; b; c; d].
Proof.
  intros H. destruct p as [|a [|b [|c [|d [|e p]]]]]; try (unfold zlen in H; cbn in H; lia). eauto.
Qed.

Lemma split4 (p : bytes) : 4 <= zlen p -> exists a b c d q, p = a :: b :: c :: d :: q.
Proof.
  intros H. destruct p as [|a [|b [|c [|d p]]]]; try (unfold zlen in H; cbn in H; lia). eauto 8.
Qed.

Lemma be32_val32_front p : 4 <= zlen p -> be32 (val32 p) = firstn 4 p.
Proof.
  intros H. destruct (split4 p H) as (a & b & c & d & q & ->). rewrite val32_four. apply be32_val32.
Qed.

Lemma z2b_of t z : b2z t = z -> t = z2b z.
Proof. intros <-. now rewrite z2b_b2z. Qed.

Lemma skipn_skipn' {A} (n m : nat) (l : list A) : skipn n (skipn m l) = skipn (m + n) l.
Proof. revert l; induction m as [|m IH]; intros l; [reflexivity|]. destruct l; [now rewrite !skipn_nil|]. cbn. apply IH. Qed.

Lemma dres_inj a b m k : @Ok dres (mkdres (Some a) b None) = Ok (mkdres (Some m) k None) -> a = m /\ b = k.
Proof. intros H. split; congruence. Qed.

Lemma decode_sound l m k : zlen l < 4294967296 ->
  decode_pure l = Ok (mkdres (Some m) k None) ->
  exists rest, l = wire_of m ++ rest /\ k = zlen (wire_of m) /\ msg_ok m /\ not_piece m.
Proof.
  intros HL H. rewrite wire_zlen.
  destruct l as [|a [|b [|c [|d r]]]]; try discriminate.
  cbn [decode_pure] in H. pose proof (val32_range [a; b; c; d]) as Hn.
  pose proof (be32_val32 a b c d) as Hbe. set (n := val32 [a; b; c; d]) in *.
  destruct (Z.eqb_spec n 0) as [E0|E0].
  { injection H as <- <-. exists r. rewrite E0 in Hbe.
    split; [|split; [reflexivity|split; exact I]].
    cbn [wire_of]. change [z2b 0; z2b 0; z2b 0; z2b 0] with (be32 0). rewrite Hbe. reflexivity. }
  destruct r as [|t r]; [discriminate|].
  assert (HL2 : zlen r + 5 < 4294967296) by (rewrite !zlen_cons in HL; lia).
  assert (Hform : a :: b :: c :: d :: t :: r = be32 n ++ t :: r) by (rewrite Hbe; reflexivity).
  rewrite Hform. clear Hform. pose proof (zlen_nonneg r) as Hr.
  destruct (Z.leb_spec (b2z t) 3) as [T|T].
  - destruct (Z.eqb_spec n 1) as [E1|E1]; [|discriminate]. injection H as <- <-. exists r.
    rewrite E1. pose proof (b2z_range t).
    assert (HB : b2z t = 0 \/ b2z t = 1 \/ b2z t = 2 \/ b2z t = 3) by lia.
    unfold nopl. destruct HB as [HB|[HB|[HB|HB]]]; rewrite (z2b_of _ _ HB); rewrite b2z_z2b_small by lia; repeat split; exact I.
  - destruct (Z.leb_spec 4294967292 n) as [W|W]; [discriminate|].
    destruct (Z.ltb_spec (zlen r) (n - 1)) as [S|S]; [discriminate|].
    set (p := firstn (Z.to_nat (n - 1)) r) in *.
    assert (Hp : zlen p = n - 1) by (apply zlen_firstn; lia).
    assert (Hr' : r = p ++ skipn (Z.to_nat (n - 1)) r) by (symmetry; apply firstn_skipn).
    set (rest := skipn (Z.to_nat (n - 1)) r) in *.
    unfold body in H. pose proof (b2z_range t) as Ht.
    assert (HB : b2z t = 4 \/ b2z t = 5 \/ b2z t = 6 \/ b2z t = 7 \/ 8 <= b2z t) by lia.
    exists rest. destruct HB as [HB|[HB|[HB|[HB|HB]]]].
    + rewrite HB in H. destruct (Z.eqb_spec n 5) as [E5|E5]; [|discriminate]. injection H as <- <-.
      split; [|split; [reflexivity|split; [apply val32_range|exact I]]].
      cbn [wire_of]. rewrite be32_val32_front by lia. rewrite firstn_all2 by (unfold zlen in Hp; lia).
      unfold frame. rewrite Hp, (z2b_of _ _ HB). rewrite Hr' at 1. replace (1 + (n - 1)) with n by lia.
      rewrite <- !app_assoc. reflexivity.
    + rewrite HB in H. destruct (Z.eqb_spec n 1) as [E1|E1]; [discriminate|]. apply dres_inj in H as [<- <-].
      cbn [wire_of msg_ok dec_bf Data bdat bhdr Nbytes bnbytes].
      split; [|split; [lia|split; [|exact I]]].
      * unfold frame. rewrite Hp, (z2b_of _ _ HB). rewrite Hr' at 1. replace (1 + (n - 1)) with n by lia.
        rewrite <- !app_assoc. reflexivity.
      * split; [reflexivity|]. split; lia.
    + rewrite HB in H. destruct (Z.eqb_spec n 13) as [E5|E5]; [|discriminate]. apply dres_inj in H as [<- <-].
      split; [|split; [reflexivity|split; [repeat split; apply val32_range|exact I]]].
      cbn [wire_of]. rewrite !be32_val32_front by (rewrite ?zlen_skipn; lia).
      assert (Hpp : firstn 4 p ++ firstn 4 (skipn 4 p) ++ firstn 4 (skipn 8 p) = p).
      { rewrite <- (firstn_skipn 4 p) at 4. f_equal. rewrite <- (firstn_skipn 4 (skipn 4 p)) at 2. f_equal.
        rewrite skipn_skipn'. cbn [Nat.add]. apply firstn_all2. rewrite skipn_length. unfold zlen in Hp. lia. }
      rewrite Hpp. unfold frame. rewrite Hp, (z2b_of _ _ HB). rewrite Hr' at 1. replace (1 + (n - 1)) with n by lia.
      rewrite <- !app_assoc. reflexivity.
    + rewrite HB in H. discriminate.
    + exfalso. destruct (b2z t) as [|q|q] eqn:Eq; try lia.
      do 3 (destruct q as [q|q|]; try lia); discriminate.
Qed.

(** Shape of every outcome. *)
Lemma decode_ok_shape l dr : decode_pure l = Ok dr ->
  (exists m, d_msg dr = Some m /\ d_err dr = None) \/ (exists e, d_err dr = Some e).
Proof.
  destruct l as [|a [|b [|c [|d r]]]]; cbn [decode_pure]; try (intros H; injection H as <-; right; eexists; reflexivity).
  destruct (_ =? 0); [intros H; injection H as <-; left; eexists; split; reflexivity|].
  destruct r as [|t r]; [intros H; injection H as <-; right; eexists; reflexivity|].
  destruct (_ <=? 3).
  { destruct (_ =? 1); intros H; injection H as <-; [left; eexists; split; reflexivity|right; eexists; reflexivity]. }
  destruct (_ <=? _); [discriminate|]. destruct (_ <? _); [intros H; injection H as <-; right; eexists; reflexivity|].
  unfold body. destruct (b2z t) as [|q|q]; try (intros H; injection H as <-; right; eexists; reflexivity).
  do 3 (destruct q as [q|q|]; try discriminate; try (intros H; injection H as <-; right; eexists; reflexivity));
  destruct (_ =? _); intros H; injection H as <-; (left; eexists; split; reflexivity) || (right; eexists; reflexivity).
Qed.

Lemma decode_never_err l e : decode_pure l <> Err e.
Proof.
  destruct l as [|a [|b [|c [|d r]]]]; cbn [decode_pure]; try discriminate.
  destruct (_ =? 0); [discriminate|]. destruct r as [|t r]; [discriminate|].
  destruct (_ <=? 3); [destruct (_ =? 1); discriminate|].
  destruct (_ <=? _); [discriminate|]. destruct (_ <? _); [discriminate|].
  unfold body. destruct (b2z t) as [|q|q]; try discriminate.
  do 3 (destruct q as [q|q|]; try discriminate).
Qed.

Lemma decode_never_nofuel l : decode_pure l <> NoFuel.
Proof.
  destruct l as [|a [|b [|c [|d r]]]]; cbn [decode_pure]; try discriminate.
  destruct (_ =? 0); [discriminate|]. destruct r as [|t r]; [discriminate|].
  destruct (_ <=? 3); [destruct (_ =? 1); discriminate|].
  destruct (_ <=? _); [discriminate|]. destruct (_ <? _); [discriminate|].
  unfold body. destruct (b2z t) as [|q|q]; try discriminate.
  do 3 (destruct q as [q|q|]; try discriminate).
Qed.

Lemma be32_inj m n : 0 <= m < 4294967296 -> 0 <= n < 4294967296 -> be32 m = be32 n -> m = n.
Proof.
  intros Hm Hn H. rewrite <- (val32_be32 m [] Hm), <- (val32_be32 n [] Hn), H. reflexivity.
Qed.

Lemma decode_panics l : zlen l < 4294967296 -> (decode_pure l = Panic <-> panic_frame l).
Proof.
  intros HL. split.
  - intros H. destruct l as [|a [|b [|c [|d r]]]]; try discriminate.
    cbn [decode_pure] in H. pose proof (val32_range [a; b; c; d]) as Hn.
    pose proof (be32_val32 a b c d) as Hbe. set (n := val32 [a; b; c; d]) in *.
    destruct (Z.eqb_spec n 0) as [E0|E0]; [discriminate|].
    destruct r as [|t r]; [discriminate|].
    exists n, t, r. split; [rewrite Hbe; reflexivity|]. split; [lia|].
    destruct (Z.leb_spec (b2z t) 3) as [T|T]; [destruct (n =? 1); discriminate|].
    destruct (Z.leb_spec 4294967292 n) as [W|W]; [right; lia|].
    destruct (Z.ltb_spec (zlen r) (n - 1)) as [S|S]; [discriminate|]. left. split; [|assumption].
    unfold body in H. destruct (b2z t) as [|q|q]; try discriminate.
    do 3 (destruct q as [q|q|]; try discriminate); reflexivity.
  - intros (n & t & r & -> & Hn & Hc). cbn [app] in *. rewrite zlen_app, zlen_cons, zlen_be32 in HL.
    pose proof (zlen_nonneg r). rewrite decode_frame by lia.
    destruct Hc as [[Ht Hr]|[Ht Hr]].
    + rewrite Ht. cbn [Z.leb Z.compare Pos.compare Pos.compare_cont]. replace (4294967292 <=? n) with false by lia.
      replace (zlen r <? n - 1) with false by lia. unfold body. now rewrite Ht.
    + replace (b2z t <=? 3) with false by lia. replace (4294967292 <=? n) with true by lia. reflexivity.
Qed.

(** Consumption. *)
Lemma dread_of a k e dr : @Ok dres (mkdres a k e) = Ok dr -> d_read dr = k.
Proof. intros H. inversion H. reflexivity. Qed.

Lemma decode_read l dr : l <> [] -> decode_pure l = Ok dr ->
  (d_read dr = 0 /\ firstn 5 l = empty_bitfield_frame) \/
  (0 < d_read dr <= zlen l + 17 /\ firstn 5 l <> empty_bitfield_frame).
Proof.
  intros Hne H.
  assert (Hz : 0 < zlen l) by (destruct l; [congruence|rewrite zlen_cons; pose proof (zlen_nonneg l); lia]).
  destruct l as [|a [|b [|c [|d r]]]]; cbn [decode_pure] in H; try congruence;
    try (apply dread_of in H; rewrite H; right; split; [lia|discriminate]).
  pose proof (be32_val32 a b c d) as Hbe. set (n := val32 [a; b; c; d]) in *.
  pose proof (val32_range [a; b; c; d]) as Hn. fold n in Hn.
  destruct (Z.eqb_spec n 0) as [E0|E0].
  { apply dread_of in H; rewrite H. right. split; [lia|]. rewrite E0 in Hbe.
    intros Hx. unfold empty_bitfield_frame in Hx.
    destruct r as [|t r]; cbn in Hx; [discriminate|]. injection Hx as -> -> -> -> _. discriminate Hbe. }
  destruct r as [|t r].
  { apply dread_of in H; rewrite H. right. split; [lia|discriminate]. }
  pose proof (zlen_nonneg r) as Hr. rewrite !zlen_cons in *.
  assert (Hfive : firstn 5 (a :: b :: c :: d :: t :: r) = empty_bitfield_frame <-> n = 1 /\ b2z t = 5).
  { unfold empty_bitfield_frame. split.
    - intros Hx. injection Hx as -> -> -> -> ->. split; reflexivity.
    - intros [E1 Ht]. rewrite E1 in Hbe. injection Hbe as <- <- <- <-. rewrite (z2b_of _ _ Ht). reflexivity. }
  rewrite Hfive.
  destruct (Z.leb_spec (b2z t) 3) as [T|T].
  { destruct (n =? 1); apply dread_of in H; rewrite H; right; lia. }
  destruct (Z.leb_spec 4294967292 n) as [W|W]; [discriminate|].
  destruct (Z.ltb_spec (zlen r) (n - 1)) as [S|S]; [apply dread_of in H; rewrite H; right; lia|].
  unfold body in H. pose proof (b2z_range t) as Ht.
  assert (HB : b2z t = 4 \/ b2z t = 5 \/ b2z t = 6 \/ b2z t = 7 \/ 8 <= b2z t) by lia.
  destruct HB as [HB|[HB|[HB|[HB|HB]]]].
  - rewrite HB in *. destruct (n =? 5); apply dread_of in H; rewrite H; right; lia.
  - rewrite HB in *. assert (Hdr : d_read dr = if n =? 1 then 0 else 4 + n) by (destruct (n =? 1); inversion H; reflexivity).
    rewrite Hdr. destruct (Z.eqb_spec n 1); [left|right]; lia.
  - rewrite HB in *. destruct (n =? 13); apply dread_of in H; rewrite H; right; lia.
  - rewrite HB in H. discriminate.
  - right. destruct (b2z t) as [|q|q] eqn:Eq; try lia.
    do 3 (destruct q as [q|q|]; try lia); apply dread_of in H; rewrite H; lia.
Qed.

(** ** DecodeAll *)

Lemma loop_end f l sp idx read ms : zlen l <= idx ->
  DecodeAllLoop (S f) (mkslice l sp) idx read ms = Ok (ms, read).
Proof. intros H. cbn [DecodeAllLoop]. unfold slen. cbn [vis]. replace (zlen l <=? idx) with true by lia. reflexivity. Qed.

Lemma skipn_ne (l : bytes) i : 0 <= i < zlen l -> skipn (Z.to_nat i) l <> [].
Proof.
  intros H E. assert (L : zlen (skipn (Z.to_nat i) l) = 0) by (rewrite E; reflexivity).
  rewrite zlen_skipn in L. lia.
Qed.

Lemma loop_step f l sp idx read ms : zlen l < 4294967296 -> 0 <= idx < zlen l -> 0 <= read <= idx ->
  DecodeAllLoop (S f) (mkslice l sp) idx read ms =
  match decode_pure (skipn (Z.to_nat idx) l) with
  | Ok dr =>
    match d_err dr, d_msg dr with
    | None, Some m => DecodeAllLoop f (mkslice l sp) (idx + d_read dr) (read + d_read dr) (ms ++ [m])
    | None, None => Panic
    | Some _, _ => DecodeAllLoop f (mkslice l sp) (idx + d_read dr) read ms
    end
  | _ => Panic
  end.
Proof.
  intros HL Hi Hr. cbn [DecodeAllLoop]. unfold slen. cbn [vis]. replace (zlen l <=? idx) with false by lia.
  rewrite sfrom_vis by lia. cbn [bind]. rewrite DecodeMsg_pure by (rewrite zlen_skipn; lia).
  pose proof (decode_never_err (skipn (Z.to_nat idx) l)) as NE. pose proof (decode_never_nofuel (skipn (Z.to_nat idx) l)) as NF.
  destruct (decode_pure _) as [dr|e| |] eqn:E; cbn [bind]; try congruence.
  pose proof (decode_read _ _ (skipn_ne l idx Hi) E) as Hd. rewrite zlen_skipn in Hd.
  destruct (d_err dr); [|destruct (d_msg dr)]; rewrite ?u64_id by lia; reflexivity.
Qed.

(** One step in terms of consumption, for inductions. *)
Lemma decode_cases l : zlen l < 4294967296 -> l <> [] ->
  decode_pure l = Panic \/
  (exists m rest, decode_pure l = Ok (mkdres (Some m) (zlen (wire_of m)) None) /\ l = wire_of m ++ rest) \/
  (exists dr e, decode_pure l = Ok dr /\ d_err dr = Some e /\ 0 <= d_read dr <= zlen l + 17 /\
     (d_read dr = 0 <-> firstn 5 l = empty_bitfield_frame)).
Proof.
  intros HL Hne. pose proof (decode_never_err l) as NE. pose proof (decode_never_nofuel l) as NF.
  destruct (decode_pure l) as [dr|e| |] eqn:E; try congruence; [|left; reflexivity].
  right. destruct (decode_ok_shape l dr E) as [(m & Hm & He)|(e & He)].
  - left. destruct dr as [dm k de]. cbn in Hm, He. subst.
    destruct (decode_sound l m k HL E) as (rest & -> & -> & _). eauto.
  - right. exists dr, e. pose proof (decode_read l dr Hne E) as Hd. pose proof (zlen_nonneg l).
    split; [reflexivity|]. split; [assumption|]. split; [lia|].
    destruct Hd as [[? ?]|[? ?]]; split; intros; (assumption || lia || contradiction).
Qed.

Lemma wire_pos m : 4 <= zlen (wire_of m).
Proof.
  rewrite wire_zlen. destruct m; try lia; [pose proof (zlen_nonneg (Data bf))|pose proof (zlen_nonneg block)]; lia.
Qed.

Ltac dcases l i HL Hi :=
  let Hne := fresh "Hne" in
  pose proof (skipn_ne l i Hi) as Hne;
  destruct (decode_cases (skipn (Z.to_nat i) l) ltac:(rewrite zlen_skipn; lia) Hne)
    as [HP|[(m & rest & HD & Hsplit)|(dr & e & HD & He & Hrd & Hz)]].

Lemma loop_spare l sp sp' : zlen l < 4294967296 -> forall f idx read ms, 0 <= read <= idx ->
  DecodeAllLoop f (mkslice l sp) idx read ms = DecodeAllLoop f (mkslice l sp') idx read ms.
Proof.
  intros HL. induction f as [|f IH]; intros idx read ms Hr; [reflexivity|].
  destruct (Z.leb_spec (zlen l) idx) as [E|E]; [now rewrite !loop_end|].
  rewrite !loop_step by lia.
  assert (Hi : 0 <= idx < zlen l) by lia.
  dcases l idx HL Hi.
  - now rewrite HP.
  - rewrite HD. cbn [d_err d_msg d_read]. pose proof (wire_pos m). apply IH. lia.
  - rewrite HD, He. apply IH. lia.
Qed.

Lemma DecodeAll_spare l sp sp' fuel : zlen l < 4294967296 ->
  DecodeAll fuel (mkslice l sp) = DecodeAll fuel (mkslice l sp').
Proof. intros. apply loop_spare; lia. Qed.

Lemma DecodeMsg_spare l sp sp' : zlen l < 4294967296 ->
  DecodeMsg (mkslice l sp) = DecodeMsg (mkslice l sp').
Proof. intros. now rewrite !DecodeMsg_pure. Qed.

Lemma total_app a b : total_size (a ++ b) = total_size a + total_size b.
Proof. induction a as [|x a IH]; cbn [total_size app]; [reflexivity|]. rewrite IH. lia. Qed.

Lemma loop_read l sp : zlen l < 4294967296 -> forall f idx read ms ms' k, 0 <= read <= idx ->
  DecodeAllLoop f (mkslice l sp) idx read ms = Ok (ms', k) ->
  exists new, ms' = ms ++ new /\ k = read + total_size new /\ 0 <= total_size new <= Z.max 0 (zlen l - idx).
Proof.
  intros HL. induction f as [|f IH]; intros idx read ms ms' k Hr H; [discriminate|].
  destruct (Z.leb_spec (zlen l) idx) as [E|E].
  { rewrite loop_end in H by assumption. injection H as <- <-. exists []. rewrite app_nil_r. cbn [total_size].
    split; [reflexivity|]. lia. }
  rewrite !loop_step in H by lia.
  assert (Hi : 0 <= idx < zlen l) by lia.
  dcases l idx HL Hi.
  - rewrite HP in H. discriminate.
  - rewrite HD in H. cbn [d_err d_msg d_read] in H. pose proof (wire_pos m).
    apply IH in H; [|lia]. destruct H as (new & -> & -> & Hn).
    exists (m :: new). cbn [total_size]. rewrite <- app_assoc. split; [reflexivity|]. split; [lia|].
    assert (zlen (skipn (Z.to_nat idx) l) = zlen (wire_of m) + zlen rest) by (rewrite Hsplit, zlen_app; reflexivity).
    rewrite zlen_skipn in *. pose proof (zlen_nonneg rest). lia.
  - rewrite HD, He in H. apply IH in H; [|lia]. destruct H as (new & -> & -> & Hn). exists new.
    split; [reflexivity|]. lia.
Qed.

Lemma DecodeAll_read l sp fuel ms k : zlen l < 4294967296 ->
  DecodeAll fuel (mkslice l sp) = Ok (ms, k) -> k = total_size ms /\ 0 <= k <= zlen l.
Proof.
  intros HL H. apply loop_read in H; [|assumption|lia]. destruct H as (new & -> & -> & Hn).
  rewrite app_nil_l. pose proof (zlen_nonneg l). lia.
Qed.

(** *** Termination *)

Lemma reach_trans l i j k : reach l i j -> reach l j k -> reach l i k.
Proof. induction 1; intros; [assumption|]. econstructor; eauto. Qed.

Lemma loop_diverges l sp : zlen l < 4294967296 -> forall i j,
  reach l i j -> 0 <= i -> firstn 5 (skipn (Z.to_nat j) l) = empty_bitfield_frame -> forall f read ms, 0 <= read <= i ->
  DecodeAllLoop f (mkslice l sp) i read ms = NoFuel.
Proof.
  intros HL i j H. induction H as [i|i j dr sp' Hi HD Hre IH]; intros H0 Hj.
  - assert (Hi : i < zlen l).
    { destruct (Z.ltb_spec i (zlen l)) as [|E]; [assumption|exfalso].
      rewrite skipn_all2 in Hj by (unfold zlen in E; lia). discriminate. }
    intros f. induction f as [|f IHf]; intros read ms Hr; [reflexivity|].
    rewrite loop_step by lia. assert (Hi2 : 0 <= i < zlen l) by lia.
    dcases l i HL Hi2.
    + exfalso. apply decode_panics in HP; [|rewrite zlen_skipn; lia]. destruct HP as (n & t & r & E & Hn & Hc).
      rewrite E in Hj. unfold be32 in Hj. cbn [app firstn] in Hj. unfold empty_bitfield_frame in Hj.
      injection Hj as E1 E2 E3 E4 E5. apply (f_equal b2z) in E1, E2, E3, E4. rewrite !b2z_z2b in *.
      change (b2z x00) with 0 in *. change (b2z x01) with 1 in *. subst t. change (b2z x05) with 5 in *. lia.
    + exfalso. apply decode_sound in HD; [|rewrite zlen_skipn; lia]. rewrite Hsplit in Hj. destruct HD as (_ & _ & _ & Hm & Hp).
      destruct m; cbn [not_piece] in Hp; try contradiction; try discriminate.
      cbn [wire_of] in Hj. destruct Hm as (_ & _ & Hl). unfold frame in Hj.
      remember (1 + zlen (Data bf)) as nn eqn:Enn. rewrite <- !app_assoc in Hj.
      unfold be32 in Hj. cbn [app firstn] in Hj. unfold empty_bitfield_frame in Hj.
      injection Hj as E1 E2 E3 E4. apply (f_equal b2z) in E1, E2, E3, E4. rewrite !b2z_z2b in *.
      change (b2z x00) with 0 in *. change (b2z x01) with 1 in *. lia.
    + rewrite HD, He. apply Hz in Hj. rewrite Hj, Z.add_0_r. apply IHf. assumption.
  - intros f read ms Hr. destruct f as [|f]; [reflexivity|].
    assert (Hi2 : 0 <= i < zlen l) by lia. rewrite loop_step by lia.
    rewrite DecodeMsg_pure in HD by (rewrite zlen_skipn; lia). rewrite HD.
    pose proof (decode_read _ _ (skipn_ne l i Hi2) HD) as Hd.
    destruct (decode_ok_shape _ _ HD) as [(m & Hm & He)|(e & He)]; rewrite He; rewrite ?Hm; apply IH; try assumption; lia.
Qed.

Lemma loop_terminates l sp : zlen l < 4294967296 -> forall f i read ms, 0 <= read <= i ->
  (forall j, reach l i j -> firstn 5 (skipn (Z.to_nat j) l) <> empty_bitfield_frame) ->
  zlen l - i < Z.of_nat f -> (0 < f)%nat -> DecodeAllLoop f (mkslice l sp) i read ms <> NoFuel.
Proof.
  intros HL. induction f as [|f IH]; intros i read ms Hr Hno Hf Hf0; [lia|].
  destruct (Z.leb_spec (zlen l) i) as [E|E]; [rewrite loop_end by assumption; discriminate|].
  assert (Hi2 : 0 <= i < zlen l) by lia. rewrite loop_step by lia.
  assert (HR : forall dr, decode_pure (skipn (Z.to_nat i) l) = Ok dr -> forall j, reach l (i + d_read dr) j -> reach l i j).
  { intros dr HD j Hj. apply (reach_step l i j dr []); [lia| |assumption]. rewrite DecodeMsg_pure by (rewrite zlen_skipn; lia). assumption. }
  dcases l i HL Hi2.
  - rewrite HP. discriminate.
  - rewrite HD. cbn [d_err d_msg d_read]. pose proof (wire_pos m).
    apply IH; try lia. intros j Hj. apply Hno. eapply HR; eauto.
  - rewrite HD, He. assert (d_read dr <> 0) by (intros Hx; apply Hz in Hx; eapply (Hno i); [constructor|assumption]).
    apply IH; try lia. intros j Hj. apply Hno. eapply HR; eauto.
Qed.

Lemma firstn5_dec (l : bytes) : {firstn 5 l = empty_bitfield_frame} + {firstn 5 l <> empty_bitfield_frame}.
Proof. apply bytes_dec. Qed.

Lemma DecodeAll_diverges l sp : zlen l < 4294967296 ->
  ((forall fuel, DecodeAll fuel (mkslice l sp) = NoFuel) <->
   exists i, reach l 0 i /\ firstn 5 (skipn (Z.to_nat i) l) = empty_bitfield_frame).
Proof.
  intros HL. split.
  - intros H.
    (* search the finitely many positions visited *)
    assert (S : forall f i read ms, 0 <= read <= i -> zlen l - i < Z.of_nat f -> (0 < f)%nat ->
      DecodeAllLoop f (mkslice l sp) i read ms = NoFuel ->
      exists j, reach l i j /\ firstn 5 (skipn (Z.to_nat j) l) = empty_bitfield_frame).
    { induction f as [|f IH]; intros i read ms Hr Hf Hf0 HN; [lia|].
      destruct (Z.leb_spec (zlen l) i) as [E|E]; [rewrite loop_end in HN by assumption; discriminate|].
      assert (Hi2 : 0 <= i < zlen l) by lia. rewrite loop_step in HN by lia.
      assert (HR : forall dr, decode_pure (skipn (Z.to_nat i) l) = Ok dr -> forall j, reach l (i + d_read dr) j -> reach l i j).
      { intros dr HD j Hj. apply (reach_step l i j dr []); [lia| |assumption]. rewrite DecodeMsg_pure by (rewrite zlen_skipn; lia). assumption. }
      dcases l i HL Hi2.
      - rewrite HP in HN. discriminate.
      - rewrite HD in HN. cbn [d_err d_msg d_read] in HN. pose proof (wire_pos m).
        apply IH in HN; try lia. destruct HN as (j & Hj & Hx). exists j. split; [eapply HR; eauto|assumption].
      - destruct (firstn5_dec (skipn (Z.to_nat i) l)) as [F|F]; [exists i; split; [constructor|assumption]|].
        rewrite HD, He in HN. assert (d_read dr <> 0) by (intros Hx; now apply Hz in Hx).
        apply IH in HN; try lia. destruct HN as (j & Hj & Hx). exists j. split; [eapply HR; eauto|assumption]. }
    apply (S (Datatypes.S (List.length l)) 0 0 []); [lia|unfold zlen; lia|lia|apply (H (Datatypes.S (List.length l)))].
  - intros (i & Hre & Hx) fuel. eapply loop_diverges; eauto; lia.
Qed.

Lemma DecodeAll_terminates l sp : zlen l < 4294967296 ->
  (forall i, reach l 0 i -> firstn 5 (skipn (Z.to_nat i) l) <> empty_bitfield_frame) ->
  DecodeAll (S (List.length l)) (mkslice l sp) <> NoFuel.
Proof. intros HL H. apply loop_terminates; try assumption; try lia. unfold zlen. lia. Qed.

Lemma DecodeAll_panics l sp : zlen l < 4294967296 ->
  ((exists fuel, DecodeAll fuel (mkslice l sp) = Panic) <->
   exists i, reach l 0 i /\ 0 <= i < zlen l /\ panic_frame (skipn (Z.to_nat i) l)).
Proof.
  intros HL. split.
  - intros (f & H). unfold DecodeAll in H.
    assert (S : forall f i read ms, 0 <= read <= i -> DecodeAllLoop f (mkslice l sp) i read ms = Panic ->
      exists j, reach l i j /\ 0 <= j < zlen l /\ panic_frame (skipn (Z.to_nat j) l)).
    { clear f H. intros f. induction f as [|f IH]; intros i read ms Hr HN; [discriminate|].
      destruct (Z.leb_spec (zlen l) i) as [E|E]; [rewrite loop_end in HN by assumption; discriminate|].
      assert (Hi2 : 0 <= i < zlen l) by lia. rewrite loop_step in HN by lia.
      assert (HR : forall dr, decode_pure (skipn (Z.to_nat i) l) = Ok dr -> forall j, reach l (i + d_read dr) j -> reach l i j).
      { intros dr HD j Hj. apply (reach_step l i j dr []); [lia| |assumption]. rewrite DecodeMsg_pure by (rewrite zlen_skipn; lia). assumption. }
      dcases l i HL Hi2.
      - exists i. split; [constructor|]. split; [assumption|]. apply decode_panics; [rewrite zlen_skipn; lia|assumption].
      - rewrite HD in HN. cbn [d_err d_msg d_read] in HN. pose proof (wire_pos m).
        apply IH in HN; try lia. destruct HN as (j & Hj & Hx). exists j. split; [eapply HR; eauto|assumption].
      - rewrite HD, He in HN. apply IH in HN; try lia. destruct HN as (j & Hj & Hx). exists j. split; [eapply HR; eauto|assumption]. }
    eapply S; eauto. lia.
  - intros (j & Hre & Hj & Hp).
    assert (S : forall i, reach l i j -> forall read ms, 0 <= read <= i -> exists f, DecodeAllLoop f (mkslice l sp) i read ms = Panic).
    { clear Hre. intros i Hre. induction Hre as [i|i j dr sp' Hi HD Hre IH]; intros read ms Hr.
      - exists 1%nat. rewrite loop_step by lia. apply decode_panics in Hp; [|rewrite zlen_skipn; lia]. now rewrite Hp.
      - assert (Hi2 : 0 <= i < zlen l) by lia.
        rewrite DecodeMsg_pure in HD by (rewrite zlen_skipn; lia).
        pose proof (decode_read _ _ (skipn_ne l i Hi2) HD) as Hd.
        destruct (decode_ok_shape _ _ HD) as [(m & Hm & He)|(e & He)].
        + destruct (IH Hj Hp (read + d_read dr) (ms ++ [m])) as (f & Hf); [lia|]. exists (Datatypes.S f).
          rewrite loop_step by lia. rewrite HD, He, Hm. exact Hf.
        + destruct (IH Hj Hp read ms) as (f & Hf); [lia|]. exists (Datatypes.S f).
          rewrite loop_step by lia. rewrite HD, He. exact Hf. }
    apply (S 0 Hre 0 []). lia.
Qed.

(** ** Streams *)

Lemma zlen_pos {A} (l : list A) : l <> [] -> 0 < zlen l.
Proof. destruct l; [congruence|]. intros _. rewrite zlen_cons. pose proof (zlen_nonneg l). lia. Qed.

Lemma decode_cut_frame id payload p q : 0 <= id < 256 -> (id <= 3 -> payload = []) -> zlen payload < 4294967291 ->
  frame id payload = p ++ q -> q <> [] -> exists e, decode_pure p = Ok (mkdres None (zlen p) (Some e)).
Proof.
  intros Hid H3 Hpl E Hq. apply zlen_pos in Hq. pose proof (zlen_nonneg payload) as Hp0.
  assert (HL : zlen p + zlen q = 5 + zlen payload).
  { rewrite <- zlen_app, <- E. unfold frame. rewrite !zlen_app, zlen_be32, zlen_cons, zlen_nil. lia. }
  unfold frame in E. set (n := 1 + zlen payload) in *.
  assert (Hn : 1 <= n < 4294967292) by lia.
  destruct p as [|a [|b [|c [|d [|t r]]]]]; try (eexists; reflexivity).
  - cbn [decode_pure]. assert (Hv : val32 [a; b; c; d] = n).
    { unfold be32 in E. cbn [app] in E. injection E as <- <- <- <- _. apply (val32_be32 n []). lia. }
    rewrite Hv. replace (n =? 0) with false by lia. eexists; reflexivity.
  - assert (Ef : a :: b :: c :: d :: t :: r = be32 n ++ z2b id :: r /\ payload = r ++ q).
    { unfold be32 in *. cbn [app] in *. injection E as <- <- <- <- <- ->. split; reflexivity. }
    destruct Ef as [Ef Epl]. rewrite Ef in *. rewrite !zlen_app, zlen_cons, zlen_be32 in *. rewrite decode_frame by lia.
    rewrite b2z_z2b_small by lia. pose proof (zlen_nonneg r).
    destruct (Z.leb_spec id 3) as [T|T].
    + rewrite (H3 T) in *. symmetry in Epl. apply app_eq_nil in Epl as [-> ->]. rewrite zlen_nil in *. lia.
    + replace (4294967292 <=? n) with false by lia.
      replace (zlen r <? n - 1) with true by lia. replace (4 + (1 + zlen r)) with (5 + zlen r) by lia.
      eexists; reflexivity.
Qed.

Lemma decode_cut p : cut_message p -> exists e, decode_pure p = Ok (mkdres None (zlen p) (Some e)).
Proof.
  intros (m & q & Hm & E & Hp & Hq). destruct m; cbn [wire_of msg_ok] in *.
  1: { apply zlen_pos in Hq. assert (zlen p + zlen q = 4) by (rewrite <- zlen_app, <- E; reflexivity).
       destruct p as [|a [|b [|c [|d p]]]]; try (eexists; reflexivity).
       exfalso. rewrite !zlen_cons in *. pose proof (zlen_nonneg p). lia. }
  all: eapply decode_cut_frame; [| | |exact E|exact Hq];
    try lia; try (intros; lia); try reflexivity; try (intros; reflexivity).
  destruct Hm as (? & ? & ?). rewrite !zlen_app, !zlen_be32. lia.
Qed.

Lemma stream_zlen ms : zlen (stream ms) = total_size ms.
Proof. induction ms as [|m ms IH]; [reflexivity|]. cbn [stream flat_map total_size]. rewrite zlen_app. unfold stream in IH. lia. Qed.

Lemma loop_stream sp tail : forall ms pre,
  Forall not_piece ms -> Forall msg_ok ms -> zlen (pre ++ stream ms ++ tail) < 4294967296 ->
  exists ms', Forall2 same_msg ms ms' /\ forall f read acc, 0 <= read <= zlen pre ->
    DecodeAllLoop (List.length ms + f) (mkslice (pre ++ stream ms ++ tail) sp) (zlen pre) read acc =
    DecodeAllLoop f (mkslice (pre ++ stream ms ++ tail) sp) (zlen pre + total_size ms) (read + total_size ms) (acc ++ ms').
Proof.
  induction ms as [|m ms IH]; intros pre Hnp Hok HL.
  - exists []. split; [constructor|]. intros f read acc Hr. cbn [List.length Nat.add total_size].
    rewrite app_nil_r, !Z.add_0_r. reflexivity.
  - inversion Hnp as [|? ? Hm Hnp']. inversion Hok as [|? ? Hmo Hok']. subst.
    assert (El : pre ++ stream (m :: ms) ++ tail = (pre ++ wire_of m) ++ stream ms ++ tail).
    { cbn [stream flat_map]. rewrite <- !app_assoc. reflexivity. }
    rewrite El in *.
    destruct (IH (pre ++ wire_of m) Hnp' Hok' HL) as (ms' & Hf & Hrun).
    destruct (decode_wire m (stream ms ++ tail) Hm Hmo) as (m' & HD & Hs).
    exists (m' :: ms'). split; [constructor; assumption|].
    intros f read acc Hr. cbn [List.length Nat.add]. pose proof (wire_pos m) as Hw. pose proof (zlen_nonneg pre) as Hpre.
    pose proof (zlen_nonneg (stream ms ++ tail)) as Hst.
    rewrite loop_step; [|assumption|rewrite !zlen_app in *; lia|assumption].
    replace (skipn (Z.to_nat (zlen pre)) ((pre ++ wire_of m) ++ stream ms ++ tail)) with (wire_of m ++ stream ms ++ tail).
    2:{ rewrite <- app_assoc, skipn_app. replace (Z.to_nat (zlen pre)) with (List.length pre) by (unfold zlen; lia).
        rewrite skipn_all, Nat.sub_diag. reflexivity. }
    rewrite HD. cbn [d_err d_msg d_read total_size].
    replace (zlen pre + zlen (wire_of m)) with (zlen (pre ++ wire_of m)) by apply zlen_app.
    rewrite Hrun by (rewrite zlen_app; lia). rewrite zlen_app, <- !app_assoc, <- !Z.add_assoc. reflexivity.
Qed.

Lemma DecodeAll_stream ms sp : Forall not_piece ms -> Forall msg_ok ms -> zlen (stream ms) < 4294967296 ->
  exists ms', Forall2 same_msg ms ms' /\ forall fuel, (List.length ms < fuel)%nat ->
    DecodeAll fuel (mkslice (stream ms) sp) = Ok (ms', zlen (stream ms)).
Proof.
  intros Hnp Hok HL. pose proof (loop_stream sp [] ms [] Hnp Hok) as H. rewrite app_nil_r in H. cbn [app] in H.
  destruct (H HL) as (ms' & Hf & Hrun). exists ms'. split; [assumption|]. intros fuel Hfu.
  unfold DecodeAll. replace fuel with (List.length ms + S (fuel - List.length ms - 1))%nat by lia.
  change (zlen (@nil byte)) with 0 in Hrun. rewrite Hrun by lia. rewrite !Z.add_0_l.
  rewrite loop_end by (rewrite stream_zlen; lia). rewrite stream_zlen. reflexivity.
Qed.

Lemma DecodeAll_stream_cut ms p sp : Forall not_piece ms -> Forall msg_ok ms -> cut_message p ->
  zlen (stream ms ++ p) < 4294967296 ->
  exists ms', Forall2 same_msg ms ms' /\ forall fuel, (List.length ms + 1 < fuel)%nat ->
    DecodeAll fuel (mkslice (stream ms ++ p) sp) = Ok (ms', zlen (stream ms)).
Proof.
  intros Hnp Hok Hc HL. pose proof (loop_stream sp p ms [] Hnp Hok) as H. cbn [app] in H.
  destruct (H HL) as (ms' & Hf & Hrun). exists ms'. split; [assumption|]. intros fuel Hfu.
  unfold DecodeAll. replace fuel with (List.length ms + S (S (fuel - List.length ms - 2)))%nat by lia.
  change (zlen (@nil byte)) with 0 in Hrun. rewrite Hrun by lia. rewrite !Z.add_0_l.
  assert (Hp0 : 0 < zlen p) by (destruct Hc as (? & ? & _ & _ & Hp & _); now apply zlen_pos).
  pose proof (zlen_nonneg (stream ms)). rewrite stream_zlen in *. rewrite zlen_app, stream_zlen in HL.
  rewrite loop_step by (rewrite ?zlen_app, ?stream_zlen; lia).
  replace (skipn (Z.to_nat (total_size ms)) (stream ms ++ p)) with p.
  2:{ rewrite skipn_app. replace (Z.to_nat (total_size ms)) with (List.length (stream ms)) by (rewrite <- stream_zlen; unfold zlen; lia).
      rewrite skipn_all, Nat.sub_diag. reflexivity. }
  destruct (decode_cut p Hc) as (e & ->). cbn [d_err d_msg d_read].
  rewrite loop_end by (rewrite zlen_app, stream_zlen; lia). reflexivity.
Qed.

(** Read by read, cut at message boundaries. *)
Lemma recv_boundaries : forall (groups : list (list msg)) (spares : list bytes),
  List.length spares = List.length groups ->
  Forall (fun g => Forall not_piece g /\ Forall msg_ok g /\ zlen (stream g) < 4294967296) groups ->
  exists ms', Forall2 same_msg (List.concat groups) ms' /\ exists f0, forall fuel, (f0 <= fuel)%nat ->
    recv_messages fuel (map (fun p => mkslice (stream (fst p)) (snd p)) (combine groups spares)) = Ok ms'.
Proof.
  induction groups as [|g gs IH]; intros [|sp sps] Hlen HF; try discriminate.
  - exists []. split; [constructor|]. exists 0%nat. reflexivity.
  - inversion HF as [|? ? (H1 & H2 & H3) HF']. subst.
    destruct (IH sps ltac:(cbn in Hlen; lia) HF') as (ms2 & F2 & f2 & R2).
    destruct (DecodeAll_stream g sp H1 H2 H3) as (ms1 & F1 & R1).
    exists (ms1 ++ ms2). split; [cbn [List.concat]; apply Forall2_app; assumption|].
    exists (Nat.max (S (List.length g)) f2). intros fuel Hfu. cbn [combine map recv_messages fst snd].
    rewrite R1 by lia. cbn [bind]. rewrite R2 by lia. reflexivity.
Qed.

(** A message cut over two reads never comes out of the first read. *)
Lemma recv_cut_first ms p sp : Forall not_piece ms -> Forall msg_ok ms -> cut_message p ->
  zlen (stream ms ++ p) < 4294967296 ->
  exists ms' f0, Forall2 same_msg ms ms' /\ forall fuel, (f0 <= fuel)%nat ->
    recv_messages fuel [mkslice (stream ms ++ p) sp] = Ok ms'.
Proof.
  intros H1 H2 H3 H4. destruct (DecodeAll_stream_cut ms p sp H1 H2 H3 H4) as (ms' & F & R).
  exists ms', (List.length ms + 2)%nat. split; [assumption|]. intros fuel Hf. cbn [recv_messages].
  rewrite R by lia. cbn [bind]. now rewrite app_nil_r.
Qed.

(** ** Requests and pieces *)

Lemma Encode_request i b l : EncodeMsg (MRequest i b l) = be32 l ++ [z2b 6].
Proof. reflexivity. Qed.

Lemma Decode_own_request i b l sp : 0 <= l < 4294967296 ->
  match DecodeMsg (mkslice (EncodeMsg (MRequest i b l)) sp) with
  | Ok dr => d_msg dr = None \/ (l = 0 /\ d_msg dr = Some MKeepAlive)
  | _ => 4294967292 <= l
  end.
Proof.
  intros Hl. rewrite Encode_request. rewrite DecodeMsg_pure by (rewrite zlen_app, zlen_be32, zlen_cons, zlen_nil; lia).
  destruct (Z.eqb_spec l 0) as [->|E]; [vm_compute; right; split; reflexivity|].
  rewrite decode_frame by lia. rewrite b2z_z2b_small by lia.
  cbn [Z.leb Z.compare Pos.compare Pos.compare_cont].
  destruct (Z.leb_spec 4294967292 l); [assumption|]. rewrite zlen_nil.
  destruct (Z.ltb_spec 0 (l - 1)); [left; reflexivity|].
  unfold body. rewrite b2z_z2b_small by lia. replace (l =? 13) with false by lia. left; reflexivity.
Qed.

Lemma DecodeMsgPiece_iff p len m :
  DecodeMsgPiece p len = Ok m <->
  (u32 (zlen p) = len /\ 8 <= len /\ m = MPiece (val32 p) (val32 (skipn 4 p)) (skipn 8 p)).
Proof.
  pose proof (zlen_nonneg p) as H0. unfold DecodeMsgPiece. destruct (Z.eqb_spec (u32 (zlen p)) len) as [E|E]; cbn [negb].
  - destruct (Z.ltb_spec (u32 (zlen p)) 8) as [L|L]; [split; [discriminate|lia]|].
    assert (Hz : 8 <= zlen p) by (unfold u32 in L; lia).
    rewrite !rd32_val by (rewrite ?zlen_skipn; lia). cbn [bind]. split.
    + intros H. injection H as <-. repeat split; lia || reflexivity.
    + intros (_ & _ & ->). reflexivity.
  - split; [discriminate|]. tauto.
Qed.

Lemma Decode_no_piece l sp dr i b block : zlen l < 4294967296 ->
  DecodeMsg (mkslice l sp) = Ok dr -> d_msg dr <> Some (MPiece i b block).
Proof.
  intros HL H Hm. rewrite DecodeMsg_pure in H by assumption.
  destruct (decode_ok_shape l dr H) as [(m & Hm' & He)|(e & He)].
  - destruct dr as [dm k de]. cbn in *. subst. injection Hm' as <-.
    destruct (decode_sound l _ k HL H) as (? & _ & _ & _ & Hp). exact Hp.
  - (* an error never comes with a message *)
    destruct l as [|a [|b' [|c [|d r]]]]; cbn [decode_pure] in H; try (injection H as <-; discriminate).
    destruct (_ =? 0); [injection H as <-; discriminate|].
    destruct r as [|t r]; [injection H as <-; discriminate|].
    destruct (_ <=? 3); [destruct (_ =? 1); injection H as <-; discriminate|].
    destruct (_ <=? _); [discriminate|]. destruct (_ <? _); [injection H as <-; discriminate|].
    unfold body in H. destruct (b2z t) as [|q|q]; try (injection H as <-; discriminate).
    do 3 (destruct q as [q|q|]; try discriminate; try (injection H as <-; discriminate));
      destruct (_ =? _); injection H as <-; discriminate.
Qed.

(** ** Statements in terms of the API *)

Lemma Decode_Encode m rest sp : codec_msg m -> msg_ok m -> zlen (EncodeMsg m ++ rest) < 4294967296 ->
  exists m', DecodeMsg (mkslice (EncodeMsg m ++ rest) sp) = Ok (mkdres (Some m') (zlen (EncodeMsg m)) None) /\ same_msg m m'.
Proof.
  intros Hc Hm HL. rewrite DecodeMsg_pure by assumption.
  rewrite Encode_wire in *; try assumption; try (destruct m; cbn in *; tauto).
  apply decode_wire; [destruct m; cbn in *; tauto|assumption].
Qed.

Lemma Decode_sound l sp m k : zlen l < 4294967296 -> DecodeMsg (mkslice l sp) = Ok (mkdres (Some m) k None) ->
  exists rest, l = wire_of m ++ rest /\ k = zlen (wire_of m) /\ msg_ok m /\ not_piece m.
Proof. intros HL H. rewrite DecodeMsg_pure in H by assumption. now apply decode_sound. Qed.

Lemma Decode_panics l sp : zlen l < 4294967296 -> (DecodeMsg (mkslice l sp) = Panic <-> panic_frame l).
Proof. intros HL. rewrite DecodeMsg_pure by assumption. now apply decode_panics. Qed.

Lemma Decode_request i b l rest sp : is_u32 i -> is_u32 b -> is_u32 l -> zlen rest < 4294967279 ->
  DecodeMsg (mkslice (wire_of (MRequest i b l) ++ rest) sp) = Ok (mkdres (Some (MRequest i b l)) 17 None).
Proof.
  intros Hi Hb Hl HL. rewrite DecodeMsg_pure by (rewrite zlen_app, wire_zlen; lia).
  destruct (decode_wire (MRequest i b l) rest I (conj Hi (conj Hb Hl))) as (m' & -> & Hs). cbn in Hs. subst. reflexivity.
Qed.

Lemma DecodeMsgPiece_spec p len m : zlen p < 4294967296 ->
  (DecodeMsgPiece p len = Ok m <->
   zlen p = len /\ 8 <= len /\ exists i b block, is_u32 i /\ is_u32 b /\ p = be32 i ++ be32 b ++ block /\ m = MPiece i b block).
Proof.
  intros HL. pose proof (zlen_nonneg p). rewrite DecodeMsgPiece_iff, u32_id by lia. split.
  - intros (<- & H8 & ->). split; [reflexivity|]. split; [assumption|].
    exists (val32 p), (val32 (skipn 4 p)), (skipn 8 p). split; [apply val32_range|]. split; [apply val32_range|].
    split; [|reflexivity]. rewrite !be32_val32_front by (rewrite ?zlen_skipn; lia).
    rewrite <- (firstn_skipn 4 p) at 1. f_equal. rewrite <- (firstn_skipn 4 (skipn 4 p)) at 1. f_equal.
    rewrite skipn_skipn'. reflexivity.
  - intros (<- & H8 & i & b & block & Hi & Hb & -> & ->). split; [reflexivity|]. split; [assumption|].
    rewrite val32_be32 by assumption.
    change (skipn 4 (be32 i ++ be32 b ++ block)) with (be32 b ++ block). rewrite val32_be32 by assumption. reflexivity.
Qed.

Lemma DecodeMsgPiece_refuses p len : zlen p < 4294967296 -> ~ (zlen p = len /\ 8 <= len) -> DecodeMsgPiece p len = Err EBadMessage.
Proof.
  intros HL H. pose proof (zlen_nonneg p). unfold DecodeMsgPiece. rewrite u32_id by lia. destruct (negb (zlen p =? len)) eqn:E; [reflexivity|]. destruct (zlen p <? 8) eqn:E2; [reflexivity|]. lia.
Qed.
Lemma DecodeMsgHave_spec p : zlen p < 4294967296 -> (forall m, DecodeMsgHave p = Ok m <-> exists i, is_u32 i /\ p = be32 i /\ m = MHave i) /\ (zlen p <> 4 -> DecodeMsgHave p = Err EBadMessage).
Proof.
  intros HL. pose proof (zlen_nonneg p). unfold DecodeMsgHave. rewrite u32_id by lia. split; [|intros H'; replace (zlen p =? 4) with false by lia; reflexivity]. intros m.
  destruct (zlen p =? 4) eqn:E; cbn [negb].
  - rewrite rd32_val by lia. cbn [bind]. split.
    + intros X. injection X as <-. exists (val32 p). split; [apply val32_range|]. split; [|reflexivity]. rewrite be32_val32_front by lia. symmetry. apply firstn_all2. unfold zlen in E. lia.
    + intros (i & Hi & -> & ->). rewrite <- (app_nil_r (be32 i)), val32_be32 by assumption. reflexivity.
  - split; [discriminate|]. intros (i & _ & -> & _). unfold zlen in E. rewrite be32_length in E. lia.
Qed.
Lemma DecodeMsgRequest_spec p : zlen p < 4294967296 ->
  (forall m, DecodeMsgRequest p = Ok m <-> exists i b l, is_u32 i /\ is_u32 b /\ is_u32 l /\ p = be32 i ++ be32 b ++ be32 l /\ m = MRequest i b l) /\ (zlen p <> 12 -> DecodeMsgRequest p = Err EBadMessage).
Proof.
  intros HL. pose proof (zlen_nonneg p). unfold DecodeMsgRequest. rewrite u32_id by lia. split; [|intros H'; replace (zlen p =? 12) with false by lia; reflexivity]. intros m.
  destruct (zlen p =? 12) eqn:E; cbn [negb].
  - rewrite !rd32_val by (rewrite ?zlen_skipn; lia). cbn [bind]. split.
    + intros X. injection X as <-. exists (val32 p), (val32 (skipn 4 p)), (val32 (skipn 8 p)). split; [apply val32_range|]. split; [apply val32_range|]. split; [apply val32_range|]. split; [|reflexivity].
      rewrite !be32_val32_front by (rewrite ?zlen_skipn; lia). rewrite <- (firstn_skipn 4 p) at 1. f_equal. rewrite <- (firstn_skipn 4 (skipn 4 p)) at 1. f_equal. rewrite skipn_skipn'. symmetry. apply firstn_all2.
      rewrite skipn_length. unfold zlen in E. lia.
    + intros (i & b & l & Hi & Hb & Hl & -> & ->). rewrite val32_be32 by assumption.
      change (skipn 4 (be32 i ++ be32 b ++ be32 l)) with (be32 b ++ be32 l). change (skipn 8 (be32 i ++ be32 b ++ be32 l)) with (be32 l). rewrite val32_be32 by assumption.
      rewrite <- (app_nil_r (be32 l)) at 1. rewrite val32_be32 by assumption. reflexivity.
  - split; [discriminate|]. intros (i & b & l & _ & _ & _ & -> & _). unfold zlen in E. rewrite !app_length, !be32_length in E. lia.
Qed.

Lemma Decode_piece_panics i b block rest sp : zlen (wire_of (MPiece i b block) ++ rest) < 4294967296 ->
  DecodeMsg (mkslice (wire_of (MPiece i b block) ++ rest) sp) = Panic.
Proof.
  intros HL. rewrite DecodeMsg_pure by assumption. apply decode_panics; [assumption|].
  rewrite zlen_app, wire_zlen in HL. pose proof (zlen_nonneg rest). pose proof (zlen_nonneg block).
  cbn [wire_of]. unfold frame. set (pl := be32 i ++ be32 b ++ block).
  assert (Hpl : zlen pl = 8 + zlen block) by (unfold pl; rewrite !zlen_app, !zlen_be32; lia).
  exists (1 + zlen pl), (z2b 7), (pl ++ rest). split; [rewrite <- !app_assoc; reflexivity|]. split; [lia|].
  left. split; [reflexivity|]. rewrite zlen_app. lia.
Qed.

Lemma cut_hangs : exists m a b, wire_of m = a ++ b /\ msg_ok m /\
  (forall fuel, recv_messages fuel [mkslice a []; mkslice b []] = NoFuel) /\
  exists m', forall fuel, (2 <= fuel)%nat -> recv_messages fuel [mkslice (a ++ b) []] = Ok [m'].
Proof.
  exists (MBitfield (mkbf (repeat x00 5) empty_bitfield_frame 5 40 3)), [x00; x00; x00; x06; x05]%byte, empty_bitfield_frame.
  split; [reflexivity|]. split; [vm_compute; repeat split; reflexivity|]. split.
  - intros [|[|fuel]]; try reflexivity. cbn [recv_messages].
    change (DecodeAll (S (S fuel)) (mkslice [x00; x00; x00; x06; x05]%byte [])) with (@Ok (list msg * Z) ([], 0)).
    cbn [bind]. assert (HD : DecodeAll (S (S fuel)) (mkslice empty_bitfield_frame []) = NoFuel).
    { apply DecodeAll_diverges; [reflexivity|]. exists 0. split; [constructor|reflexivity]. }
    rewrite HD. reflexivity.
  - eexists. intros [|[|fuel]] H; try lia. reflexivity.
Qed.

(** ** Length and Mtype *)
Lemma frame_length id p L : L = 1 + zlen p -> exists rest, frame id p = be32 L ++ rest /\ zlen rest = L /\ exists q, rest = z2b id :: q.
Proof. intros ->. exists (z2b id :: p). split; [reflexivity|]. split; [rewrite zlen_cons; reflexivity|]. eexists. reflexivity. Qed.
Lemma accessors_top m : msg_ok m -> exists rest, wire_of m = be32 (Length m) ++ rest /\ zlen rest = Length m /\ (m <> MKeepAlive -> exists p, rest = z2b (Mtype m) :: p).
Proof.
  intros H.
  assert (K : m = MKeepAlive \/ exists rest, wire_of m = be32 (Length m) ++ rest /\ zlen rest = Length m /\ exists p, rest = z2b (Mtype m) :: p).
  { destruct m; [left; reflexivity|right..]; cbn [wire_of Length Mtype]; apply frame_length; try reflexivity; cbn [msg_ok] in H.
    - destruct H as (_ & -> & Hl). apply u32_id. lia.
    - destruct H as (_ & _ & Hl). pose proof (zlen_nonneg block). rewrite u32_id by lia. rewrite !zlen_app. unfold zlen at 2 3. rewrite !be32_length. lia. }
  destruct K as [->|(rest & K1 & K2 & K3)]; [exists []; split; [reflexivity|]; split; [reflexivity|]; intros X; contradiction|]. exists rest. auto.
Qed.
