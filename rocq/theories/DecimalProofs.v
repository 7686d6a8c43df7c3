(** DecimalProofs.v: decimal text of integers, shared by bencode, tracker and options. *)
From Verif Require Import Base BencodeModel BencodeSpec.
From Coq Require Import ZifyBool ZifyNat ZifyN Nnat NArith.
Ltac Zify.zify_post_hook ::= Z.div_mod_to_equations.

Lemma digits_val_dvalue ds : digits_val ds = dvalue ds.
Proof. reflexivity. Qed.

Lemma dvalue_snoc ds d : dvalue (ds ++ [d]) = 10 * dvalue ds + (b2z d - 48).
Proof. unfold dvalue. rewrite fold_left_app. reflexivity. Qed.

Lemma dvalue_fold_ge a ds :
  0 <= a -> Forall (fun d => 48 <= b2z d <= 57) ds ->
  a <= fold_left (fun a d => 10 * a + (b2z d - 48)) ds a.
Proof.
  revert a; induction ds as [|d ds IH]; intros a Ha Hd; cbn [fold_left]; [lia|].
  inversion Hd; subst. specialize (IH (10 * a + (b2z d - 48)) ltac:(lia) ltac:(assumption)). lia.
Qed.

Lemma dvalue_nonneg ds : Forall (fun d => 48 <= b2z d <= 57) ds -> 0 <= dvalue ds.
Proof. intros H. apply (dvalue_fold_ge 0 ds); [lia|assumption]. Qed.

Lemma dvalue_pos d ds :
  48 < b2z d <= 57 -> Forall (fun d => 48 <= b2z d <= 57) ds -> 1 <= dvalue (d :: ds).
Proof.
  intros Hd H. unfold dvalue. cbn [fold_left].
  pose proof (dvalue_fold_ge (10 * 0 + (b2z d - 48)) ds ltac:(lia) H). lia.
Qed.

Lemma digit_b2z z : 0 <= z <= 9 -> b2z (digit z) = 48 + z.
Proof. intros H. unfold digit. rewrite b2z_z2b. lia. Qed.

Lemma decimal_nonneg ds n : decimal ds n -> 0 <= n.
Proof. intros (_ & H & _ & <-). now apply dvalue_nonneg. Qed.

Lemma decimal_snoc ds n d :
  decimal ds n -> n <> 0 -> 48 <= b2z d <= 57 -> decimal (ds ++ [d]) (10 * n + (b2z d - 48)).
Proof.
  intros (Hne & Hd & Hz & Hv) Hn Hb. split; [|split; [|split]].
  - destruct ds; discriminate.
  - apply Forall_app; split; [assumption|constructor; [assumption|constructor]].
  - intros x r Heq Hx. destruct ds as [|y ds]; [congruence|]. cbn [app] in Heq. injection Heq as -> <-.
    specialize (Hz x ds eq_refl Hx). subst ds. exfalso. apply Hn. rewrite <- Hv. unfold dvalue. cbn [fold_left]. lia.
  - rewrite dvalue_snoc, Hv. reflexivity.
Qed.

Lemma udigits_app f n acc : udigits f n acc = udigits f n [] ++ acc.
Proof.
  revert n acc; induction f as [|f IH]; intros n acc; cbn [udigits]; [reflexivity|].
  destruct (n <? 10)%N; [reflexivity|].
  rewrite IH, (IH _ [_]), <- app_assoc. reflexivity.
Qed.

Lemma udigits_decimal f n :
  (n < 2 ^ N.of_nat f)%N -> (0 < f)%nat -> decimal (udigits f n []) (Z.of_N n).
Proof.
  revert n; induction f as [|f IH]; intros n Hn Hf; [lia|]. cbn [udigits].
  destruct (N.ltb_spec n 10) as [H|H].
  - split; [discriminate|split; [|split]].
    + constructor; [|constructor]. rewrite digit_b2z by lia. lia.
    + intros d r Heq _. injection Heq as _ <-. reflexivity.
    + unfold dvalue. cbn [fold_left]. rewrite digit_b2z by lia. lia.
  - rewrite udigits_app.
    rewrite Nat2N.inj_succ, N.pow_succ_r' in Hn.
    assert (Hq : (n / 10 < 2 ^ N.of_nat f)%N) by lia.
    assert (Hf' : (0 < f)%nat).
    { destruct f; [|lia]. cbn in Hq. lia. }
    specialize (IH _ Hq Hf').
    pose proof (decimal_snoc _ _ (digit (Z.of_N (n mod 10))) IH ltac:(lia)) as Hs.
    rewrite digit_b2z in Hs by lia. specialize (Hs ltac:(lia)).
    replace (10 * Z.of_N (n / 10) + (48 + Z.of_N (n mod 10) - 48)) with (Z.of_N n) in Hs by lia.
    exact Hs.
Qed.

Lemma utoa_decimal n : decimal (utoa n) (Z.of_N n).
Proof.
  unfold utoa. apply udigits_decimal; [|lia].
  rewrite Nat2N.inj_succ, N2Nat.id, N.pow_succ_r'.
  destruct (N.eq_dec n 0) as [->|Hn]; [cbn; lia|].
  pose proof (N.size_gt n). lia.
Qed.

Lemma itoa_decimal z : 0 <= z -> decimal (itoa z) z.
Proof.
  intros H. unfold itoa. replace (z <? 0) with false by lia.
  pose proof (utoa_decimal (Z.to_N z)) as Hd. rewrite Z2N.id in Hd by lia. exact Hd.
Qed.

Lemma itoa_neg z : z < 0 -> exists ds, itoa z = "-"%byte :: ds /\ decimal ds (- z).
Proof.
  intros H. unfold itoa. replace (z <? 0) with true by lia.
  exists (utoa (Z.to_N (- z))). split; [reflexivity|].
  pose proof (utoa_decimal (Z.to_N (- z))) as Hd. rewrite Z2N.id in Hd by lia. exact Hd.
Qed.

Lemma decimal_unique ds ds' n : decimal ds n -> decimal ds' n -> ds = ds'.
Proof.
  revert ds' n. induction ds as [|x ds IH] using rev_ind; intros ds' n H H'.
  - destruct H as [H _]; congruence.
  - destruct ds' as [|y ds' _] using rev_ind; [destruct H' as [H' _]; congruence|].
    destruct H as (_ & Hd & Hz & Hv), H' as (_ & Hd' & Hz' & Hv').
    apply Forall_app in Hd as [Hd Hx], Hd' as [Hd' Hy].
    inversion Hx as [|? ? Hx1 _]; inversion Hy as [|? ? Hy1 _]; subst.
    rewrite !dvalue_snoc in *.
    assert (Hpos : forall l w, Forall (fun d => 48 <= b2z d <= 57) l ->
        (forall d r, l ++ [w] = d :: r -> b2z d = 48 -> r = []) -> l <> [] -> 1 <= dvalue l).
    { intros [|d l] w HF Hz0 Hne; [congruence|]. inversion HF; subst. apply dvalue_pos; [|assumption].
      destruct (Z.eq_dec (b2z d) 48) as [E|E]; [|lia].
      specialize (Hz0 d (l ++ [w]) eq_refl E). destruct l; discriminate. }
    pose proof (dvalue_nonneg _ Hd). pose proof (dvalue_nonneg _ Hd').
    assert (Hxy : b2z x = b2z y) by lia. apply b2z_inj in Hxy. subst y.
    assert (Hvv : dvalue ds = dvalue ds') by lia.
    f_equal.
    destruct (list_eq_dec byte_eq_dec ds []) as [->|Hne].
    + destruct (list_eq_dec byte_eq_dec ds' []) as [->|Hne']; [reflexivity|].
      specialize (Hpos ds' x Hd' Hz' Hne'). cbn in Hvv. lia.
    + destruct (list_eq_dec byte_eq_dec ds' []) as [->|Hne'].
      * specialize (Hpos ds x Hd Hz Hne). cbn in Hvv. lia.
      * assert (HZ : forall l w, (forall d r, l ++ [w] = d :: r -> b2z d = 48 -> r = []) ->
           forall d r, l = d :: r -> b2z d = 48 -> r = []).
        { intros l w Hl d r -> Hd0. specialize (Hl d (r ++ [w]) eq_refl Hd0). destruct r; discriminate. }
        apply (IH ds' (dvalue ds)).
        -- split; [assumption|split; [assumption|split; [eapply HZ; eassumption|reflexivity]]].
        -- split; [assumption|split; [assumption|split; [eapply HZ; eassumption|congruence]]].
Qed.

Lemma decimal_itoa ds n : decimal ds n -> ds = itoa n.
Proof. intros H. eapply decimal_unique; [exact H|]. apply itoa_decimal. eapply decimal_nonneg; eassumption. Qed.

Lemma itoa_digits z : 0 <= z -> Forall (fun d => 48 <= b2z d <= 57) (itoa z).
Proof. intros H. now destruct (itoa_decimal z H) as (_ & Hd & _). Qed.

Lemma itoa_value z : 0 <= z -> dvalue (itoa z) = z.
Proof. intros H. now destruct (itoa_decimal z H) as (_ & _ & _ & Hv). Qed.

Lemma itoa_nonnil z : itoa z <> [].
Proof.
  destruct (Z_lt_le_dec z 0) as [H|H].
  - destruct (itoa_neg z H) as (ds & -> & _). discriminate.
  - now destruct (itoa_decimal z H).
Qed.

Lemma itoa_inj a b : itoa a = itoa b -> a = b.
Proof.
  destruct (Z_lt_le_dec a 0) as [Ha|Ha]; destruct (Z_lt_le_dec b 0) as [Hb|Hb]; intros E.
  - destruct (itoa_neg a Ha) as (da & Ea & (_ & _ & _ & Va)), (itoa_neg b Hb) as (db & Eb & (_ & _ & _ & Vb)).
    rewrite Ea, Eb in E. injection E as E. subst db. lia.
  - destruct (itoa_neg a Ha) as (da & Ea & _). pose proof (itoa_digits b Hb) as Hd.
    rewrite <- E, Ea in Hd. inversion Hd as [|? ? Hc _]. cbn in Hc. lia.
  - destruct (itoa_neg b Hb) as (db & Eb & _). pose proof (itoa_digits a Ha) as Hd.
    rewrite E, Eb in Hd. inversion Hd as [|? ? Hc _]. cbn in Hc. lia.
  - rewrite <- (itoa_value a Ha), <- (itoa_value b Hb). now rewrite E.
Qed.

Lemma is_digit_iff b : is_digit b = true <-> 48 <= b2z b <= 57.
Proof. unfold is_digit. lia. Qed.

Lemma atoi_ok ds n : decimal ds n -> n <= max64 -> atoi ds = Ok n.
Proof.
  intros (Hne & _ & _ & Hv) Hn. unfold atoi. destruct ds as [|d ds]; [congruence|].
  rewrite digits_val_dvalue, Hv. replace (n <=? max64) with true by lia. reflexivity.
Qed.

Lemma digit_loop_ok stop e ds r acc :
  Forall (fun d => 48 <= b2z d <= 57) ds -> is_digit stop = false ->
  digit_loop stop e (ds ++ stop :: r) acc = Ok (acc ++ ds, r).
Proof.
  intros Hd Hs. revert acc. induction Hd as [|d ds H Hd IH]; intros acc; cbn [app digit_loop].
  - rewrite Hs, (byte_dec_lb eq_refl), app_nil_r. reflexivity.
  - rewrite (proj2 (is_digit_iff d) H). rewrite IH, <- app_assoc. reflexivity.
Qed.
