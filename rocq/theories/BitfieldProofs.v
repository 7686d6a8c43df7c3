(** BitfieldProofs.v: lemmas about the bitfield model. *)
From Verif Require Import Base BitfieldModel BitfieldSpec.
From Coq Require Import ZifyBool ZifyNat ZifyN.
Ltac Zify.zify_post_hook ::= Z.div_mod_to_equations.

(** ** One byte: finite sweeps *)

Definition sweep2 (P : byte -> nat -> bool) (n : nat) : bool :=
  forallb (fun b => forallb (P b) (seq 0 n)) all_bytes.

Lemma sweep2_ok P n : sweep2 P n = true -> forall b j, (j < n)%nat -> P b j = true.
Proof.
  intros H b j Hj. pose proof (byte_sweep _ H b) as Hb. cbn beta in Hb. rewrite forallb_forall in Hb.
  apply Hb. apply in_seq. lia.
Qed.

Lemma beqb_lists (a b : list bool) : (if list_eq_dec Bool.bool_dec a b then true else false) = true -> a = b.
Proof. destruct (list_eq_dec _ a b); congruence. Qed.

Lemma btest_bits b j : (j < 8)%nat -> btest b (Z.of_nat j) = nth j (byte_bits b) false.
Proof.
  intros Hj. apply Bool.eqb_prop.
  refine (sweep2_ok (fun b j => Bool.eqb (btest b (Z.of_nat j)) (nth j (byte_bits b) false)) 8 _ b j Hj).
  vm_compute. reflexivity.
Qed.

Lemma bset_bits b j : (j < 8)%nat -> byte_bits (bset b (Z.of_nat j)) = vput (byte_bits b) j true.
Proof.
  intros Hj. apply beqb_lists.
  refine (sweep2_ok (fun b j => if list_eq_dec Bool.bool_dec (byte_bits (bset b (Z.of_nat j))) (vput (byte_bits b) j true) then true else false) 8 _ b j Hj).
  vm_compute. reflexivity.
Qed.

Lemma bclr_bits b j : (j < 8)%nat -> byte_bits (bclr b (Z.of_nat j)) = vput (byte_bits b) j false.
Proof.
  intros Hj. apply beqb_lists.
  refine (sweep2_ok (fun b j => if list_eq_dec Bool.bool_dec (byte_bits (bclr b (Z.of_nat j))) (vput (byte_bits b) j false) then true else false) 8 _ b j Hj).
  vm_compute. reflexivity.
Qed.

Lemma bcount_bits b n : (n <= 8)%nat -> bcount b n = count_true (firstn n (byte_bits b)).
Proof.
  intros Hn. apply Z.eqb_eq.
  refine (sweep2_ok (fun b n => bcount b n =? count_true (firstn n (byte_bits b))) 9 _ b n _); [|lia].
  vm_compute. reflexivity.
Qed.

Lemma byte_bits_length b : List.length (byte_bits b) = 8%nat.
Proof. reflexivity. Qed.

(** ** Vectors *)

Lemma bits_of_length l : List.length (bits_of l) = (8 * List.length l)%nat.
Proof.
  induction l as [|b l IH]; [reflexivity|]. unfold bits_of in *. cbn [flat_map List.length].
  rewrite app_length, byte_bits_length, IH. lia.
Qed.

Lemma count_true_app a b : count_true (a ++ b) = count_true a + count_true b.
Proof. unfold count_true. rewrite filter_app, app_length. lia. Qed.

Lemma count_true_range l : 0 <= count_true l <= zlen l.
Proof.
  unfold count_true, zlen. induction l as [|[] l IH]; cbn [filter List.length]; lia.
Qed.

Lemma count_true_all l : count_true l = zlen l <-> forall i, (i < List.length l)%nat -> nth i l false = true.
Proof.
  induction l as [|b l IH]; cbn [List.length].
  - split; [intros _ i Hi; lia|reflexivity].
  - change (b :: l) with ([b] ++ l). rewrite count_true_app, zlen_app.
    assert (H1 : count_true [b] = if b then 1 else 0) by (destruct b; reflexivity).
    assert (H2 : zlen [b] = 1) by reflexivity. rewrite H1, H2. clear H1 H2.
    pose proof (count_true_range l). split.
    + intros E [|i] Hi; cbn [app nth].
      * destruct b; [reflexivity|]. lia.
      * apply IH; [|lia]. destruct b; lia.
    + intros H0. assert (Hb : b = true) by exact (H0 0%nat ltac:(lia)). subst b.
      assert (E : count_true l = zlen l) by (apply IH; intros i Hi; exact (H0 (S i) ltac:(lia))).
      rewrite E. reflexivity.
Qed.

Lemma vput_length l i v : (i < List.length l)%nat -> List.length (vput l i v) = List.length l.
Proof.
  intros H. unfold vput. cbn [app]. rewrite app_length, firstn_length. cbn [List.length]. rewrite skipn_length. lia.
Qed.

Lemma vput_nth_same l i : (i < List.length l)%nat -> vput l i (nth i l false) = l.
Proof.
  revert i; induction l as [|x l IH]; intros i Hi; [cbn in Hi; lia|].
  destruct i as [|i]; [reflexivity|]. unfold vput in *. cbn [firstn app skipn nth List.length] in *.
  f_equal. apply IH. lia.
Qed.

Lemma vput_app_r a b i v : vput (a ++ b) (List.length a + i) v = a ++ vput b i v.
Proof.
  induction a as [|x a IH]; [reflexivity|]. unfold vput in *. cbn [List.length Nat.add firstn app skipn] in *.
  f_equal. exact IH.
Qed.

Lemma vput_app_l a b i v : (i < List.length a)%nat -> vput (a ++ b) i v = vput a i v ++ b.
Proof.
  revert i; induction a as [|x a IH]; intros i Hi; [cbn in Hi; lia|].
  destruct i as [|i]; [reflexivity|]. unfold vput in *. cbn [List.length firstn app skipn] in *.
  f_equal. apply IH. lia.
Qed.

Lemma bits_of_nth data i : 
  (i < List.length (bits_of data))%nat ->
  exists b, nth_error data (i / 8) = Some b /\ btest b (Z.of_nat (i mod 8)) = nth i (bits_of data) false /\
    forall b' v, byte_bits b' = vput (byte_bits b) (i mod 8) v ->
      bits_of (lupd data (i / 8) b') = vput (bits_of data) i v.
Proof.
  revert i; induction data as [|b data IH]; intros i Hi; [cbn in Hi; lia|].
  change (bits_of (b :: data)) with (byte_bits b ++ bits_of data) in *.
  rewrite app_length, byte_bits_length in Hi.
  destruct (Nat.lt_ge_cases i 8) as [H|H].
  - rewrite Nat.div_small, Nat.mod_small by assumption. cbn [nth_error].
    exists b. split; [reflexivity|]. split.
    + rewrite btest_bits by assumption. rewrite app_nth1 by (rewrite byte_bits_length; assumption). reflexivity.
    + intros b' v E. cbn [lupd]. change (bits_of (b' :: data)) with (byte_bits b' ++ bits_of data).
      rewrite E, vput_app_l by (rewrite byte_bits_length; assumption). reflexivity.
  - replace i with (8 + (i - 8))%nat by lia.
    remember (i - 8)%nat as k.
    replace ((8 + k) / 8)%nat with (S (k / 8)) by lia.
    replace ((8 + k) mod 8)%nat with (k mod 8)%nat by lia.
    destruct (IH k ltac:(lia)) as (b0 & H1 & H2 & H3).
    exists b0. split; [exact H1|]. split.
    + rewrite H2. rewrite app_nth2 by (rewrite byte_bits_length; lia). rewrite byte_bits_length.
      f_equal. lia.
    + intros b' v E. cbn [lupd]. change (bits_of (b :: lupd data (k / 8) b')) with (byte_bits b ++ bits_of (lupd data (k / 8) b')).
      rewrite (H3 b' v E). symmetry. exact (vput_app_r (byte_bits b) (bits_of data) k v).
Qed.

Lemma full_bytes_count data k :
  (k <= List.length data)%nat -> full_bytes data k = count_true (firstn (8 * k) (bits_of data)).
Proof.
  revert k; induction data as [|b data IH]; intros [|k] Hk; cbn [full_bytes]; try reflexivity.
  cbn [List.length] in Hk.
  change (bits_of (b :: data)) with (byte_bits b ++ bits_of data).
  replace (8 * S k)%nat with (List.length (byte_bits b) + 8 * k)%nat by (rewrite byte_bits_length; lia).
  rewrite firstn_app_2, count_true_app, IH by lia.
  rewrite bcount_bits by lia. reflexivity.
Qed.

Lemma firstn_count data k r b :
  nth_error data k = Some b -> (r <= 8)%nat ->
  count_true (firstn (8 * k + r) (bits_of data)) = full_bytes data k + bcount b r.
Proof.
  revert k; induction data as [|b0 data IH]; intros [|k] Hn Hr; cbn [nth_error] in Hn; try discriminate.
  - injection Hn as ->. change (bits_of (b :: data)) with (byte_bits b ++ bits_of data).
    cbn [full_bytes]. replace (8 * 0 + r)%nat with r by lia. rewrite Z.add_0_l, bcount_bits by assumption.
    rewrite firstn_app. replace (r - List.length (byte_bits b))%nat with 0%nat by (rewrite byte_bits_length; lia).
    cbn [firstn]. now rewrite app_nil_r.
  - cbn [full_bytes]. change (bits_of (b0 :: data)) with (byte_bits b0 ++ bits_of data).
    replace (8 * S k + r)%nat with (List.length (byte_bits b0) + (8 * k + r))%nat by (rewrite byte_bits_length; lia).
    rewrite firstn_app_2, count_true_app, IH by assumption. rewrite (bcount_bits b0) by lia.
    change (firstn 8 (byte_bits b0)) with (byte_bits b0). lia.
Qed.

(** calcNset counts the first nbits bits, when nbits needs all the bytes. *)
Lemma calcNset_ok h d nb n s0 :
  0 <= n -> 8 * zlen d - 8 < n <= 8 * zlen d ->
  calcNset (mkbf h d nb n s0) = Ok (mkbf h d nb n (count_true (firstn (Z.to_nat n) (bits_of d)))).
Proof.
  intros H0 Hn. unfold calcNset. cbn [bnbits bdat bhdr bnbytes].
  rewrite Z.rem_mod_nonneg by lia.
  destruct (Z.eqb_spec (n mod 8) 0) as [E|E].
  - replace (n mod 8 <=? 0) with true by lia. f_equal. f_equal.
    rewrite full_bytes_count by (unfold zlen; lia). f_equal. f_equal. unfold zlen in *. lia.
  - replace (n mod 8 <=? 0) with false by lia.
    assert (Hp : 0 < zlen d) by lia.
    replace (zlen d - 1 + 0 <? 0) with false by lia.
    destruct (nth_error d (Z.to_nat (zlen d - 1 + 0))) as [b|] eqn:En.
    + f_equal. f_equal. rewrite <- (firstn_count d _ (Z.to_nat (n mod 8)) b En) by lia.
      f_equal. f_equal. unfold zlen in *. lia.
    + exfalso. apply nth_error_None in En. unfold zlen in *. lia.
Qed.

(** ** The representation invariant *)

Definition binv (bf : bitfield) (s : vec) : Prop :=
  bnbits bf = vn s /\ bnbytes bf = zlen (bdat bf) /\ List.length (bhdr bf) = 5%nat /\
  bits_of (bdat bf) = vbits s /\ 0 <= vn s <= zlen (vbits s) /\
  bnset bf = count_true (firstn (Z.to_nat (vn s)) (vbits s)).

Lemma binv_agrees bf s : binv bf s -> agrees bf s.
Proof.
  intros (H1 & H2 & H3 & H4 & H5 & H6). unfold agrees, Nbits, Nbytes, Data, Nset.
  split; [assumption|]. split; [assumption|]. split; [assumption|]. split; [|split; [assumption|]].
  - intros i Hi. unfold Get. replace (i <? 0) with false by lia.
    assert (Hl : (Z.to_nat i < List.length (bits_of (bdat bf)))%nat) by (rewrite H4; unfold zlen in Hi; lia).
    destruct (bits_of_nth (bdat bf) (Z.to_nat i) Hl) as (b & Hb & Ht & _).
    replace (Z.to_nat (i / 8)) with (Z.to_nat i / 8)%nat by lia. rewrite Hb.
    replace (i mod 8) with (Z.of_nat (Z.to_nat i mod 8)) by lia. rewrite Ht, H4. reflexivity.
  - unfold Complete. rewrite H6, H1, Z.eqb_eq.
    assert (HL : List.length (firstn (Z.to_nat (vn s)) (vbits s)) = Z.to_nat (vn s)).
    { rewrite firstn_length. unfold zlen in H5. lia. }
    replace (vn s) with (zlen (firstn (Z.to_nat (vn s)) (vbits s))) at 2 by (unfold zlen; rewrite HL; lia).
    rewrite count_true_all, HL. split; intros H i Hi; specialize (H i Hi).
    + rewrite <- H. rewrite <- (firstn_skipn (Z.to_nat (vn s)) (vbits s)) at 1. rewrite app_nth1 by lia. reflexivity.
    + rewrite <- H. rewrite <- (firstn_skipn (Z.to_nat (vn s)) (vbits s)) at 2. rewrite app_nth1 by lia. reflexivity.
Qed.

Lemma vput_count l n i v :
  (i < n)%nat -> (n <= List.length l)%nat ->
  count_true (firstn n (vput l i v)) =
  count_true (firstn n l) + (if v then 1 else 0) - (if nth i l false then 1 else 0).
Proof.
  revert n i; induction l as [|x l IH]; intros n i Hi Hn; [cbn in Hn; lia|].
  destruct n as [|n]; [lia|]. destruct i as [|i].
  - unfold vput. cbn [firstn app skipn nth]. unfold count_true. cbn [filter].
    destruct v, x; cbn [List.length]; lia.
  - specialize (IH n i ltac:(lia) ltac:(cbn in Hn; lia)).
    unfold vput in *. cbn [firstn app skipn nth] in *. cbn [skipn] in IH.
    unfold count_true in *. cbn [filter]. destruct x; cbn [List.length] in *; lia.
Qed.

Lemma map_const_length {A C} (c : C) (l : list A) : List.length (map (fun _ => c) l) = List.length l.
Proof. apply map_length. Qed.

Lemma bits_of_fill d : bits_of (map (fun _ => z2b 255) d) = map (fun _ => true) (bits_of d).
Proof.
  induction d as [|b d IH]; [reflexivity|].
  change (bits_of (map (fun _ => z2b 255) (b :: d))) with (byte_bits (z2b 255) ++ bits_of (map (fun _ => z2b 255) d)).
  change (bits_of (b :: d)) with (byte_bits b ++ bits_of d). rewrite map_app, IH. reflexivity.
Qed.

Lemma count_true_map_true {A} (l : list A) : count_true (map (fun _ => true) l) = zlen l.
Proof. unfold count_true, zlen. induction l as [|x l IH]; cbn [map filter List.length]; lia. Qed.

Lemma firstn_map {A C} (f : A -> C) n l : firstn n (map f l) = map f (firstn n l).
Proof. revert n; induction l as [|x l IH]; intros [|n]; cbn; f_equal; auto. Qed.

Lemma binv_step bf s o : binv bf s -> vvalid s o -> exists bf', bstep bf o = Ok bf' /\ binv bf' (vstep s o).
Proof.
  intros (H1 & H2 & H3 & H4 & H5 & H6) Hv. destruct o as [i v| |n]; cbn [bstep vstep vvalid] in *.
  - assert (HiL : (Z.to_nat i < List.length (bits_of (bdat bf)))%nat) by (rewrite H4; unfold zlen in H5; lia).
    destruct (bits_of_nth (bdat bf) (Z.to_nat i) HiL) as (b & Hb & Ht & Hu).
    assert (HmL : (Z.to_nat i mod 8 < 8)%nat) by lia.
    pose proof (bset_bits b _ HmL) as Hs. pose proof (bclr_bits b _ HmL) as Hc.
    unfold SetBit. replace (i <? 0) with false by lia.
    replace (Z.to_nat (i / 8)) with (Z.to_nat i / 8)%nat by lia. rewrite Hb.
    replace (i mod 8) with (Z.of_nat (Z.to_nat i mod 8)) by lia. rewrite Ht. rewrite H4 in *.
    pose proof (vput_count (vbits s) (Z.to_nat (vn s)) (Z.to_nat i) v ltac:(lia) ltac:(unfold zlen in H5; lia)) as HC.
    assert (HLv : zlen (vput (vbits s) (Z.to_nat i) v) = zlen (vbits s)) by (unfold zlen; rewrite vput_length; [reflexivity|assumption]).
    destruct (nth (Z.to_nat i) (vbits s) false) eqn:En; destruct v; cbn [negb andb].
    + eexists; split; [reflexivity|].
      assert (Hsame : vput (vbits s) (Z.to_nat i) true = vbits s) by (rewrite <- En; now apply vput_nth_same).
      unfold binv; cbn [vn vbits]; rewrite Hsame; repeat split; auto; tauto.
    + eexists; split; [reflexivity|]. unfold binv; cbn [vn vbits bnbits bnbytes bhdr bdat bnset].
      rewrite HLv. unfold zlen in *. rewrite lupd_length. repeat split; auto; try tauto.
      * lia.
    + eexists; split; [reflexivity|]. unfold binv; cbn [vn vbits bnbits bnbytes bhdr bdat bnset].
      rewrite HLv. unfold zlen in *. rewrite lupd_length. repeat split; auto; try tauto.
      * lia.
    + eexists; split; [reflexivity|].
      assert (Hsame : vput (vbits s) (Z.to_nat i) false = vbits s) by (rewrite <- En; now apply vput_nth_same).
      unfold binv; cbn [vn vbits]; rewrite Hsame; repeat split; auto; tauto.
  - eexists; split; [reflexivity|]. unfold binv, Fill. cbn [vn vbits bnbits bnbytes bhdr bdat bnset].
    rewrite bits_of_fill, H4. unfold zlen in *. rewrite !map_length.
    repeat split; auto; try tauto.
    rewrite firstn_map, count_true_map_true. unfold zlen. rewrite firstn_length. lia.
  - unfold SetNbits. rewrite H2.
    assert (HL : zlen (vbits s) = 8 * zlen (bdat bf)) by (rewrite <- H4; unfold zlen; rewrite bits_of_length; lia).
    replace ((n <? (zlen (bdat bf) - 1) * 8) || (zlen (bdat bf) * 8 <? n)) with false by lia.
    rewrite calcNset_ok by lia. eexists; split; [reflexivity|].
    unfold binv. cbn [vn vbits bnbits bnbytes bhdr bdat bnset]. rewrite H4. repeat split; auto; lia.
Qed.

Lemma binv_run ops : forall bf s, binv bf s -> vvalid_all s ops ->
  exists bf', brun bf ops = Ok bf' /\ binv bf' (vrun s ops).
Proof.
  induction ops as [|o ops IH]; intros bf s Hi Hv; cbn [brun vrun fold_left vvalid_all] in *; [eauto|].
  destruct Hv as [Hv Hr]. destruct (binv_step bf s o Hi Hv) as (bf' & -> & Hi'). cbn [bind]. now apply IH.
Qed.

Lemma bits_of_zero k : bits_of (repeat (z2b 0) k) = repeat false (8 * k).
Proof.
  induction k as [|k IH]; [reflexivity|]. cbn [repeat].
  change (bits_of (z2b 0 :: repeat (z2b 0) k)) with (byte_bits (z2b 0) ++ bits_of (repeat (z2b 0) k)).
  rewrite IH. replace (8 * S k)%nat with (8 + 8 * k)%nat by lia. rewrite repeat_app. reflexivity.
Qed.

Lemma count_true_false n : count_true (repeat false n) = 0.
Proof. induction n as [|n IH]; [reflexivity|]. cbn [repeat]. unfold count_true in *. cbn [filter]. exact IH. Qed.

Lemma firstn_repeat {A} (x : A) n m : firstn n (repeat x m) = repeat x (Nat.min n m).
Proof. revert n; induction m as [|m IH]; intros [|n]; cbn; f_equal; auto. Qed.

Lemma NewBitfield_inv n : 0 <= n -> exists bf, NewBitfield n = Ok bf /\ binv bf (zero_vec n).
Proof.
  intros Hn. unfold NewBitfield, zero_vec, bytes_for. rewrite Z.quot_div_nonneg, Z.rem_mod_nonneg by lia.
  set (k := n / 8 + (if n mod 8 =? 0 then 0 else 1)).
  assert (Hk : k = (n + 7) / 8) by (subst k; destruct (Z.eqb_spec (n mod 8) 0); lia).
  replace (k <? 0) with false by lia. eexists; split; [reflexivity|].
  unfold binv. cbn [vn vbits bnbits bnbytes bhdr bdat bnset].
  split; [reflexivity|]. split; [unfold zlen; rewrite repeat_length; lia|].
  split; [reflexivity|]. split; [rewrite bits_of_zero; f_equal; lia|].
  split; [unfold zlen; rewrite repeat_length; lia|].
  rewrite firstn_repeat, count_true_false. reflexivity.
Qed.

Lemma NewBitfield_agrees n ops :
  0 <= n -> vvalid_all (zero_vec n) ops ->
  exists bf, (do b0 <- NewBitfield n; brun b0 ops) = Ok bf /\ agrees bf (vrun (zero_vec n) ops).
Proof.
  intros Hn Hv. destruct (NewBitfield_inv n Hn) as (b0 & -> & Hi). cbn [bind].
  destruct (binv_run ops b0 _ Hi Hv) as (bf & -> & Hb). exists bf. split; [reflexivity|]. now apply binv_agrees.
Qed.

Lemma FromBytes_agrees b n ops :
  5 < zlen b -> 8 * (zlen b - 5) - 8 < n <= 8 * (zlen b - 5) ->
  vvalid_all (mkvec (bits_of (skipn 5 b)) n) ops ->
  exists bf, (do b0 <- FromBytes b n; brun b0 ops) = Ok bf /\ agrees bf (vrun (mkvec (bits_of (skipn 5 b)) n) ops).
Proof.
  intros Hl Hn Hv. unfold FromBytes. replace (zlen b <=? 5) with false by lia.
  replace ((n <? (zlen b - 5 - 1) * 8 + 1) || ((zlen b - 5) * 8 <? n)) with false by lia.
  assert (HL : zlen (skipn 5 b) = zlen b - 5) by (unfold zlen in *; rewrite skipn_length; lia).
  rewrite calcNset_ok by lia. cbn [bind].
  match goal with |- exists bf, brun ?b0 ops = _ /\ _ => assert (Hi : binv b0 (mkvec (bits_of (skipn 5 b)) n)) end.
  { unfold binv. cbn [vn vbits bnbits bnbytes bhdr bdat bnset].
    split; [reflexivity|]. split; [lia|]. split; [unfold zlen in *; rewrite firstn_length; lia|].
    split; [reflexivity|]. split; [|reflexivity].
    unfold zlen in *. rewrite bits_of_length. lia. }
  destruct (binv_run ops _ _ Hi Hv) as (bf & -> & Hb). exists bf. split; [reflexivity|]. now apply binv_agrees.
Qed.

Lemma FromBytes_rejects b n :
  ~ (5 < zlen b /\ 8 * (zlen b - 5) - 8 < n <= 8 * (zlen b - 5)) -> exists e, FromBytes b n = Err e.
Proof.
  intros H. unfold FromBytes. destruct (Z.leb_spec (zlen b) 5); [eauto|].
  destruct ((n <? _) || _) eqn:E; [eauto|]. lia.
Qed.

(** SetNbits one step, including the boundary the count gets wrong. *)
Lemma SetNbits_panics bf n :
  0 <= n -> 0 < Nbytes bf -> Nbytes bf = zlen (Data bf) ->
  (SetNbits bf n = Panic <-> n < 8 * (Nbytes bf - 1) \/ 8 * Nbytes bf < n).
Proof.
  unfold Nbytes, Data. intros H0 Hp HL. unfold SetNbits.
  destruct ((n <? (bnbytes bf - 1) * 8) || (bnbytes bf * 8 <? n)) eqn:E.
  - split; [lia|reflexivity].
  - split; [|lia]. intros H. exfalso.
    destruct (Z.eq_dec n (8 * (bnbytes bf - 1))) as [En|En].
    + unfold calcNset in H. cbn [bnbits] in H. rewrite Z.rem_mod_nonneg in H by lia.
      replace (n mod 8 <=? 0) with true in H by lia. discriminate.
    + rewrite calcNset_ok in H by lia. discriminate.
Qed.

Lemma SetNbits_boundary bf n :
  Nbytes bf = zlen (Data bf) -> 0 < Nbytes bf -> n = 8 * (Nbytes bf - 1) ->
  exists bf', SetNbits bf n = Ok bf' /\ Nbits bf' = n /\ Data bf' = Data bf /\
    Nset bf' = count_true (bits_of (Data bf)).
Proof.
  unfold Nbytes, Data, Nbits, Nset. intros HL Hp ->. unfold SetNbits.
  replace ((8 * (bnbytes bf - 1) <? (bnbytes bf - 1) * 8) || (bnbytes bf * 8 <? 8 * (bnbytes bf - 1))) with false by lia.
  unfold calcNset. cbn [bnbits bdat bhdr bnbytes]. rewrite Z.rem_mod_nonneg by lia.
  replace ((8 * (bnbytes bf - 1)) mod 8) with 0 by lia. rewrite Z.eqb_refl. cbn [Z.leb].
  replace (0 <=? 0) with true by lia. eexists; split; [reflexivity|]. cbn [bnbits bdat bnset].
  split; [reflexivity|]. split; [reflexivity|].
  rewrite full_bytes_count by (unfold zlen; lia). f_equal. apply firstn_all2. rewrite bits_of_length. unfold zlen. lia.
Qed.

Lemma vvalid_all_app s a b : vvalid_all s (a ++ b) <-> vvalid_all s a /\ vvalid_all (vrun s a) b.
Proof.
  revert s; induction a as [|o a IH]; intros s; cbn [app vvalid_all vrun fold_left]; [tauto|].
  rewrite IH. unfold vrun. tauto.
Qed.

Lemma vstep_vbits_len s o : vvalid s o -> 0 <= vn s <= zlen (vbits s) ->
  zlen (vbits (vstep s o)) = zlen (vbits s) /\ 0 <= vn (vstep s o) <= zlen (vbits s).
Proof.
  intros Hv Hn. destruct o as [i v| |n]; cbn [vstep vvalid vbits vn] in *; unfold zlen in *.
  - rewrite vput_length by lia. lia.
  - rewrite map_length. lia.
  - lia.
Qed.

Lemma vrun_len ops : forall s, vvalid_all s ops -> 0 <= vn s <= zlen (vbits s) ->
  0 <= vn (vrun s ops) <= zlen (vbits (vrun s ops)).
Proof.
  induction ops as [|o ops IH]; intros s Hv Hn; cbn [vrun fold_left vvalid_all] in *; [assumption|].
  destruct Hv as [Hv Hr]. destruct (vstep_vbits_len s o Hv Hn) as [E H]. apply IH; [assumption|]. lia.
Qed.

Lemma nth_map_true {A} i (l : list A) : (i < List.length l)%nat -> nth i (map (fun _ => true) l) false = true.
Proof. revert i; induction l as [|x l IH]; intros [|i] Hi; cbn in *; try lia; auto. apply IH. lia. Qed.

Lemma Fill_completes n ops :
  0 <= n -> vvalid_all (zero_vec n) ops ->
  exists bf, (do b0 <- NewBitfield n; brun b0 (ops ++ [OFill])) = Ok bf /\
    (forall i, 0 <= i < Nbits bf -> Get bf i = Ok true) /\ Nset bf = Nbits bf /\ Complete bf = true.
Proof.
  intros Hn Hv.
  destruct (NewBitfield_agrees n (ops ++ [OFill]) Hn) as (bf & Hr & H1 & H2 & H3 & H4 & H5 & H6).
  { apply vvalid_all_app. split; [assumption|]. cbn. auto. }
  exists bf. split; [exact Hr|].
  assert (Hl : 0 <= vn (vrun (zero_vec n) ops) <= zlen (vbits (vrun (zero_vec n) ops))).
  { apply vrun_len; [assumption|]. unfold zero_vec, bytes_for. cbn [vn vbits]. unfold zlen. rewrite repeat_length. lia. }
  unfold vrun in *. rewrite fold_left_app in *. cbn [fold_left vstep vn vbits] in *.
  set (s := fold_left vstep ops (zero_vec n)) in *.
  unfold zlen in *. rewrite map_length in *.
  split; [|split].
  - intros i Hi. rewrite H4 by lia. f_equal.
    apply nth_map_true. lia.
  - rewrite H5, H1. rewrite firstn_map, count_true_map_true. unfold zlen. rewrite firstn_length. lia.
  - apply H6. intros i Hi. apply nth_map_true. lia.
Qed.

Lemma SetBit_panics bf i v : SetBit bf i v = Panic <-> i < 0 \/ 8 * zlen (Data bf) <= i.
Proof.
  unfold SetBit, Data. destruct (Z.ltb_spec i 0); [split; [auto|reflexivity]|].
  destruct (nth_error (bdat bf) (Z.to_nat (i / 8))) as [b|] eqn:E.
  - assert (Z.to_nat (i / 8) < List.length (bdat bf))%nat by (apply nth_error_Some; congruence).
    split; [|unfold zlen; lia].
    destruct (negb _ && v); [discriminate|]. destruct (_ && negb v); discriminate.
  - apply nth_error_None in E. split; [|reflexivity]. unfold zlen. lia.
Qed.

Lemma Get_panics bf i : Get bf i = Panic <-> i < 0 \/ 8 * zlen (Data bf) <= i.
Proof.
  unfold Get, Data. destruct (Z.ltb_spec i 0); [split; [auto|reflexivity]|].
  destruct (nth_error (bdat bf) (Z.to_nat (i / 8))) as [b|] eqn:E.
  - assert (Z.to_nat (i / 8) < List.length (bdat bf))%nat by (apply nth_error_Some; congruence).
    split; [discriminate|unfold zlen; lia].
  - apply nth_error_None in E. split; [|reflexivity]. unfold zlen. lia.
Qed.

Lemma nth_repeat_false k n : nth k (repeat false n) false = false.
Proof. revert k; induction n as [|n IH]; intros [|k]; cbn; auto. Qed.

Lemma nth_vput l i v k : (i < List.length l)%nat ->
  nth k (vput l i v) false = if Nat.eqb k i then v else nth k l false.
Proof.
  revert i k; induction l as [|x l IH]; intros i k Hi; [cbn in Hi; lia|].
  destruct i as [|i], k as [|k]; try reflexivity. unfold vput in *. cbn [firstn app skipn nth List.length Nat.eqb] in *.
  rewrite <- IH by lia. reflexivity.
Qed.

Lemma SetBit_spare n i :
  0 <= n -> n <= i < 8 * bytes_for n ->
  exists bf, (do b0 <- NewBitfield n; SetBit b0 i true) = Ok bf /\ Nset bf = 1 /\
    (forall j, 0 <= j < n -> Get bf j = Ok false).
Proof.
  intros Hn Hi. destruct (NewBitfield_inv n Hn) as (b0 & -> & (H1 & H2 & H3 & H4 & H5 & H6)). cbn [bind].
  unfold zero_vec in *. cbn [vn vbits] in *.
  assert (HiL : (Z.to_nat i < List.length (bits_of (bdat b0)))%nat) by (rewrite H4, repeat_length; lia).
  destruct (bits_of_nth (bdat b0) (Z.to_nat i) HiL) as (b & Hb & Ht & Hu).
  rewrite H4, nth_repeat_false in Ht.
  unfold SetBit. replace (i <? 0) with false by lia.
  replace (Z.to_nat (i / 8)) with (Z.to_nat i / 8)%nat by lia. rewrite Hb.
  replace (i mod 8) with (Z.of_nat (Z.to_nat i mod 8)) by lia. rewrite Ht. cbn [negb andb].
  eexists; split; [reflexivity|]. unfold Nset. cbn [bnset]. split.
  - rewrite H6, firstn_repeat, count_true_false. reflexivity.
  - intros j Hj. unfold Get. cbn [bdat]. replace (j <? 0) with false by lia.
    assert (HmL : (Z.to_nat i mod 8 < 8)%nat) by lia.
    specialize (Hu _ true (bset_bits b _ HmL)).
    match type of Hu with bits_of ?d = _ => set (d' := d) in * end.
    assert (HjL : (Z.to_nat j < List.length (bits_of d'))%nat).
    { rewrite Hu, vput_length by assumption. rewrite H4, repeat_length. lia. }
    destruct (bits_of_nth d' (Z.to_nat j) HjL) as (c & Hc & Htc & _).
    replace (Z.to_nat (j / 8)) with (Z.to_nat j / 8)%nat by lia. rewrite Hc.
    replace (j mod 8) with (Z.of_nat (Z.to_nat j mod 8)) by lia. rewrite Htc. f_equal.
    rewrite Hu, nth_vput by assumption. replace (Nat.eqb (Z.to_nat j) (Z.to_nat i)) with false by lia.
    now rewrite H4, nth_repeat_false.
Qed.

Lemma SetNbits_recounts b n m :
  5 < zlen b -> 8 * (zlen b - 5) - 8 < n <= 8 * (zlen b - 5) ->
  8 * (zlen b - 5) - 8 < m <= 8 * (zlen b - 5) ->
  exists bf, (do b0 <- FromBytes b n; SetNbits b0 m) = Ok bf /\ agrees bf (mkvec (bits_of (skipn 5 b)) m).
Proof.
  intros Hb Hn Hm. destruct (FromBytes_agrees b n [OSetNbits m] Hb Hn) as (bf & Hr & Ha).
  { cbn [vvalid_all vvalid vbits]. unfold zlen in *. rewrite bits_of_length, skipn_length. lia. }
  exists bf. split; [|exact Ha]. rewrite <- Hr. destruct (FromBytes b n); cbn [bind brun bstep]; try reflexivity.
  destruct (SetNbits a m); reflexivity.
Qed.

Lemma vbits_run_len ops : forall s, vvalid_all s ops -> 0 <= vn s <= zlen (vbits s) ->
  zlen (vbits (vrun s ops)) = zlen (vbits s).
Proof.
  induction ops as [|o ops IH]; intros s Hv Hn; cbn [vrun fold_left vvalid_all] in *; [reflexivity|].
  destruct Hv as [Hv Hr]. destruct (vstep_vbits_len s o Hv Hn) as [E H]. rewrite <- E. apply IH; [assumption|]. lia.
Qed.

Lemma map_const_repeat {A C} (c : C) (l : list A) : map (fun _ => c) l = repeat c (List.length l).
Proof. induction l as [|x l IH]; cbn; f_equal; auto. Qed.

Lemma Fill_then n ops ops' :
  0 <= n -> vvalid_all (zero_vec n) (ops ++ OFill :: ops') ->
  exists bf, (do b0 <- NewBitfield n; brun b0 (ops ++ OFill :: ops')) = Ok bf /\
    agrees bf (vrun (mkvec (repeat true (Z.to_nat (8 * bytes_for n))) (vn (vrun (zero_vec n) ops))) ops').
Proof.
  intros Hn Hv. destruct (NewBitfield_agrees n _ Hn Hv) as (bf & Hr & Ha). exists bf. split; [exact Hr|].
  apply vvalid_all_app in Hv as [Hv _].
  assert (H0 : 0 <= vn (zero_vec n) <= zlen (vbits (zero_vec n))).
  { unfold zero_vec, bytes_for. cbn [vn vbits]. unfold zlen. rewrite repeat_length. lia. }
  pose proof (vbits_run_len ops _ Hv H0) as HL.
  unfold vrun in *. rewrite fold_left_app in Ha. cbn [fold_left vstep] in Ha.
  rewrite map_const_repeat in Ha.
  replace (List.length (vbits (fold_left vstep ops (zero_vec n)))) with (Z.to_nat (8 * bytes_for n)) in Ha; [exact Ha|].
  unfold zlen in HL. unfold zero_vec in HL at 2. cbn [vbits] in HL. rewrite repeat_length in HL. unfold bytes_for in *. lia.
Qed.

(** ** The five header bytes *)

Lemma calcNset_hdr bf bf' : calcNset bf = Ok bf' -> bhdr bf' = bhdr bf /\ bdat bf' = bdat bf.
Proof.
  unfold calcNset. destruct (_ <=? 0).
  - intros H. assert (E : bf' = mkbf (bhdr bf) (bdat bf) (bnbytes bf) (bnbits bf) (full_bytes (bdat bf) (Z.to_nat (zlen (bdat bf) - 1 + (if Z.rem (bnbits bf) 8 =? 0 then 1 else 0))))) by congruence.
    subst. now split.
  - destruct (_ <? 0); [discriminate|]. destruct (nth_error _ _) as [b|]; [|discriminate].
    intros H. inversion H. now split.
Qed.

Lemma lupd_len {A} (l : list A) i x : List.length (lupd l i x) = List.length l.
Proof. revert i; induction l as [|y l IH]; intros [|i]; cbn [lupd List.length]; auto. Qed.

Lemma bstep_hdr bf o bf' : bstep bf o = Ok bf' ->
  bhdr bf' = (match o with OFill => map (fun _ => z2b 255) (bhdr bf) | _ => bhdr bf end) /\
  List.length (bdat bf') = List.length (bdat bf).
Proof.
  destruct o as [i v| |n]; cbn [bstep].
  - unfold SetBit. destruct (_ <? 0); [discriminate|]. destruct (nth_error _ _) as [b|]; [|discriminate].
    cbv zeta. destruct (_ && v); [intros H; inversion H; cbn [bhdr bdat]; now rewrite lupd_len|].
    destruct (_ && negb v); intros H; inversion H; cbn [bhdr bdat]; now rewrite ?lupd_len.
  - intros H. inversion H. unfold Fill. cbn [bhdr bdat]. now rewrite map_length.
  - unfold SetNbits. destruct (_ || _); [discriminate|]. intros H. apply calcNset_hdr in H.
    destruct H as [-> ->]. now split.
Qed.

Definition is_fill (o : bop) : bool := match o with OFill => true | _ => false end.

Lemma brun_hdr ops : forall bf bf' b, bhdr bf = repeat b 5 -> brun bf ops = Ok bf' ->
  bhdr bf' = repeat (if existsb is_fill ops then z2b 255 else b) 5 /\
  List.length (bdat bf') = List.length (bdat bf).
Proof.
  induction ops as [|o ops IH]; intros bf bf' b Hb; cbn [brun].
  - intros H. assert (bf = bf') by congruence. subst. now split.
  - destruct (bstep bf o) as [b1|?| |] eqn:E; cbn [bind]; try discriminate.
    intros H. apply bstep_hdr in E. destruct E as [E1 E2]. cbn [existsb].
    assert (Hb1 : bhdr b1 = repeat (if is_fill o then z2b 255 else b) 5)
      by (rewrite E1, Hb; destruct o; reflexivity).
    destruct (IH b1 bf' _ Hb1 H) as [H1 H2]. split; [|congruence].
    rewrite H1. destruct (is_fill o), (existsb is_fill ops); reflexivity.
Qed.

Lemma Data5_layout n ops bf :
  (do b0 <- NewBitfield n; brun b0 ops) = Ok bf ->
  Data5 bf = repeat (if existsb (fun o => match o with OFill => true | _ => false end) ops then z2b 255 else z2b 0) 5 ++ Data bf /\
  zlen (Data bf) = Z.quot n 8 + (if Z.rem n 8 =? 0 then 0 else 1).
Proof.
  unfold NewBitfield. cbv zeta. set (q := Z.quot n 8 + _). destruct (Z.ltb_spec q 0); cbn [bind]; [discriminate|].
  intros Hr. apply (brun_hdr ops _ _ (z2b 0)) in Hr; [|reflexivity]. destruct Hr as [H1 H2].
  unfold Data5, Data. rewrite H1. split; [reflexivity|].
  unfold zlen. rewrite H2. cbn [bdat]. rewrite repeat_length. lia.
Qed.

Lemma NewBitfield_negative n : n < 0 -> (NewBitfield n = Panic <-> n <= -16 \/ n = -8) /\ (NewBitfield n <> Panic -> exists bf, NewBitfield n = Ok bf /\ Nbits bf = n /\ zlen (Data bf) <= 1).
Proof.
  intros H. unfold NewBitfield. assert (Hq : n = 8 * Z.quot n 8 + Z.rem n 8) by (apply Z.quot_rem; lia).
  assert (Hr : -8 < Z.rem n 8 <= 0) by (split; [pose proof (Z.rem_bound_neg_pos n 8); lia|apply Z.rem_nonpos; lia]).
  set (q := Z.quot n 8) in *. set (r := Z.rem n 8) in *. clearbody q r.
  destruct (r =? 0) eqn:E.
  - destruct (q + 0 <? 0) eqn:F; split; [split; [lia|reflexivity]|congruence|split; [discriminate|lia]|].
    intros _. eexists. split; [reflexivity|]. split; [reflexivity|]. unfold Data, zlen; cbn [bdat]. rewrite repeat_length. lia.
  - destruct (q + 1 <? 0) eqn:F; split; [split; [lia|reflexivity]|congruence|split; [discriminate|lia]|].
    intros _. eexists. split; [reflexivity|]. split; [reflexivity|]. unfold Data, zlen; cbn [bdat]. rewrite repeat_length. lia.
Qed.
