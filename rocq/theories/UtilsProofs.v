(** UtilsProofs.v: proofs about UtilsModel. *)
From Coq Require Import ZifyBool ZifyNat ZifyN.
From Verif Require Import Base BencodeModel BencodeSpec DecimalProofs UtilsModel UtilsSpec.

(* ------------------------------------------------------------------ *)
(** * RemoveSwap *)
Lemma lupd_app_l {A} (a b : list A) n x : (n < List.length a)%nat -> lupd (a ++ b) n x = lupd a n x ++ b.
Proof. revert n; induction a as [|y a IH]; intros [|n] H; cbn in *; try lia; [reflexivity|]. rewrite IH by lia. reflexivity. Qed.
Lemma lupd_mid {A} (a b : list A) y x : lupd (a ++ y :: b) (List.length a) x = a ++ x :: b.
Proof. induction a as [|z a IH]; cbn; [reflexivity|]. rewrite IH. reflexivity. Qed.
Lemma RemoveSwap_ok {T} (a b : list T) x : exists r back, RemoveSwap (a ++ x :: b) (zlen a) = Ok (r, back) /\
  Permutation (a ++ b) r /\ zlen r = zlen a + zlen b /\ (forall i, (i < List.length r)%nat -> i <> List.length a -> nth_error r i = nth_error (a ++ x :: b) i) /\
  firstn (List.length r) back = r /\ List.length back = S (List.length r).
Proof.
  destruct (exists_last (l := x :: b) ltac:(discriminate)) as (b0 & y & E).
  unfold RemoveSwap. replace ((0 <=? zlen a) && (zlen a <? zlen (a ++ x :: b)))%bool with true by (unfold zlen; rewrite app_length; cbn [List.length]; lia).
  replace (List.length (a ++ x :: b) - 1)%nat with (List.length (a ++ b0)) by (rewrite E, !app_length; cbn; lia).
  rewrite E. rewrite app_assoc. rewrite nth_error_app2 by lia. rewrite Nat.sub_diag. cbn [nth_error].
  assert (Hz : Z.to_nat (zlen a) = List.length a) by (unfold zlen; lia). rewrite Hz. eexists _, _. split; [reflexivity|].
  destruct b as [|x' b].
  - destruct b0 as [|? [|? ?]]; cbn in E; try discriminate. injection E as ->. rewrite !app_nil_r. rewrite lupd_mid.
    rewrite firstn_app, Nat.sub_diag, firstn_all. cbn [firstn]. rewrite app_nil_r. repeat split; [apply Permutation_refl|rewrite zlen_nil; lia| | |].
    + intros i Hi Hn. rewrite nth_error_app1 by lia. reflexivity.
    + rewrite firstn_app, Nat.sub_diag, firstn_all. cbn. apply app_nil_r.
    + rewrite app_length. cbn. lia.
  - destruct b0 as [|x0 b0]; [cbn in E; injection E as _ E; destruct b; discriminate|]. cbn in E. injection E as <- E. rewrite E.
    rewrite lupd_app_l by (rewrite app_length; cbn; lia). rewrite lupd_mid.
    assert (HL : List.length (a ++ x :: b0) = List.length (a ++ y :: b0)) by (rewrite !app_length; reflexivity).
    rewrite HL. rewrite firstn_app, Nat.sub_diag, firstn_all. cbn [firstn]. rewrite app_nil_r. repeat split.
    + apply Permutation_app_head. apply Permutation_sym, Permutation_cons_append.
    + rewrite zlen_app, zlen_cons, zlen_app, zlen_cons, zlen_nil. lia.
    + intros i Hi Hn. rewrite (nth_error_app1 (a ++ x :: b0)) by lia. destruct (Nat.lt_ge_cases i (List.length a)) as [H|H].
      * rewrite !nth_error_app1 by lia. reflexivity.
      * rewrite !nth_error_app2 by lia. destruct (i - List.length a)%nat eqn:E'; [lia|]. reflexivity.
    + rewrite firstn_app, Nat.sub_diag, firstn_all. cbn. apply app_nil_r.
    + rewrite (app_length (a ++ y :: b0)). cbn. lia.
Qed.
Lemma RemoveSwap_top {T} (s : list T) i x : 0 <= i -> nth_error s (Z.to_nat i) = Some x -> exists r back, RemoveSwap s i = Ok (r, back) /\
  Permutation s (x :: r) /\ zlen r = zlen s - 1 /\ (forall j, (j < List.length r)%nat -> j <> Z.to_nat i -> nth_error r j = nth_error s j) /\
  firstn (List.length r) back = r /\ List.length back = List.length s.
Proof.
  intros H0 H. destruct (nth_error_split s (Z.to_nat i) H) as (a & b & -> & Ha).
  destruct (RemoveSwap_ok a b x) as (r & back & E & HP & HL & HN & HF & HB). exists r, back. unfold zlen in E at 1. rewrite Ha, Z2Nat.id in E by lia.
  split; [exact E|]. split; [|split; [|split; [|split]]].
  - apply Permutation_sym, Permutation_cons_app, Permutation_sym. exact HP.
  - rewrite zlen_app, zlen_cons. lia.
  - rewrite <- Ha. exact HN.
  - exact HF.
  - rewrite HB, app_length. cbn. unfold zlen in HL. lia.
Qed.
Lemma RemoveSwap_panics {T} (s : list T) i : RemoveSwap s i = Panic <-> i < 0 \/ zlen s <= i.
Proof.
  unfold RemoveSwap. destruct (nth_error s (List.length s - 1)) as [l|] eqn:E.
  - destruct ((0 <=? i) && (i <? zlen s))%bool eqn:Hb; split; intros H; try discriminate; try reflexivity; lia.
  - apply nth_error_None in E. split; [|reflexivity]. intros _. unfold zlen. lia.
Qed.

(* ------------------------------------------------------------------ *)
(** * Random strings *)
Lemma letter_nth g : 0 <= g < 52 -> letter g = [nth (Z.to_nat g) letterBytes x00].
Proof.
  intros H. assert (Hs : forallb (fun n => beqb (letter (Z.of_nat n)) [nth n letterBytes x00]) (seq 0 52) = true) by (vm_compute; reflexivity).
  rewrite forallb_forall in Hs. specialize (Hs (Z.to_nat g)). rewrite Z2Nat.id in Hs by lia. apply beqb_eq, Hs, in_seq. lia.
Qed.
Lemma letter_none g : 52 <= g -> letter g = [].
Proof. intros H. unfold letter. replace (g <? 26) with false by lia. replace (g <? 52) with false by lia. rewrite !andb_false_r. reflexivity. Qed.
Lemma letter_is g b : In b (letter g) -> is_letter b.
Proof.
  unfold letter, is_letter. destruct (Z.leb_spec 0 g), (Z.ltb_spec g 26), (Z.leb_spec 26 g), (Z.ltb_spec g 52); cbn [andb In]; intros Hb; try contradiction; destruct Hb as [<-|Hb]; try contradiction; rewrite b2z_z2b, Z.mod_small by lia; lia.
Qed.
Lemma letters_S src m : letters src (S m) = letters src m ++ letter (group src m).
Proof. unfold letters. rewrite seq_S, flat_map_app. cbn. rewrite app_nil_r. reflexivity. Qed.
Lemma letters_length src a b : (a <= b)%nat -> (List.length (letters src a) <= List.length (letters src b))%nat.
Proof. induction 1; [lia|]. rewrite letters_S, app_length. lia. Qed.
(** The loop state after j groups. *)
Definition at_group (src : nat -> Z) (j : nat) (cache : Z) (remain next : nat) : Prop :=
  exists d t, (j = 10 * d + t /\ t <= 10 /\ remain = 10 - t /\ next = S d)%nat /\ cache = Z.shiftr (src d) (6 * Z.of_nat t).
Lemma rand_loop_step src fuel left j cache remain next sb : at_group src j cache remain next ->
  exists cache' remain' next', at_group src (S j) cache' remain' next' /\
    rand_loop src (S fuel) (S left) cache remain next sb =
    rand_loop src fuel (match letter (group src j) with [] => S left | _ => left end) cache' remain' next' (sb ++ letter (group src j)).
Proof.
  intros (d & t & (Hj & Ht & Hr & Hn) & Hc). cbn [rand_loop].
  assert (HX : exists d' t' cache1 remain1, match remain with O => (src next, 10%nat, S next) | _ => (cache, remain, next) end = (cache1, remain1, S d') /\
    j = (10 * d' + t')%nat /\ (t' < 10)%nat /\ remain1 = (10 - t')%nat /\ cache1 = Z.shiftr (src d') (6 * Z.of_nat t')).
  { destruct remain as [|rm].
    - exists (S d), 0%nat, (src next), 10%nat. subst next. repeat split; lia || (symmetry; apply Z.shiftr_0_r).
    - exists d, t, cache, (S rm). subst next. repeat split; try lia; assumption. }
  destruct HX as (d' & t' & c1 & r1 & -> & Hj' & Ht' & Hr1 & Hc1). cbn beta iota.
  assert (Hg : Z.land c1 63 = group src j).
  { change 63 with (Z.ones 6). rewrite Z.land_ones by lia. unfold group. replace (j / 10)%nat with d' by (apply (Nat.div_unique _ _ _ t'); lia).
    replace (j mod 10)%nat with t' by (apply (Nat.mod_unique _ _ d'); lia). rewrite Hc1, Z.shiftr_div_pow2 by lia. reflexivity. }
  rewrite Hg. assert (Hgr : 0 <= group src j < 64) by (unfold group; apply Z.mod_pos_bound; lia).
  exists (Z.shiftr c1 6), (r1 - 1)%nat, (S d'). split.
  - exists d', (S t'). split; [lia|]. rewrite Hc1, Z.shiftr_shiftr by lia. f_equal. lia.
  - change (zlen letterBytes) with 52. destruct (Z.ltb_spec (group src j) 52) as [H|H].
    + rewrite letter_nth by lia. reflexivity.
    + rewrite letter_none by lia. rewrite app_nil_r. reflexivity.
Qed.
Lemma rand_loop_letters src n : forall fuel left j cache remain next sb s, at_group src j cache remain next -> sb = letters src j -> (List.length sb + left = n)%nat ->
  rand_loop src fuel left cache remain next sb = Ok s -> exists m, s = letters src m /\ List.length s = n.
Proof.
  induction fuel as [|fuel IH]; intros left j cache remain next sb s Hg Hs Hn H; [discriminate|]. destruct left as [|left].
  - cbn [rand_loop] in H. injection H as <-. exists j. split; [exact Hs|lia].
  - destruct (rand_loop_step src fuel left j cache remain next sb Hg) as (c' & r' & n' & Hg' & E). rewrite E in H.
    eapply (IH _ (S j)); [exact Hg'| | |exact H]; [rewrite letters_S, Hs; reflexivity|].
    rewrite app_length. unfold letter in *. destruct ((0 <=? group src j) && (group src j <? 26))%bool; [cbn [List.length]; lia|].
    destruct ((26 <=? group src j) && (group src j <? 52))%bool; cbn [List.length]; lia.
Qed.
Lemma rand_loop_done src n m : (n <= List.length (letters src m))%nat -> forall fuel left j cache remain next sb, at_group src j cache remain next -> sb = letters src j ->
  (List.length sb + left = n)%nat -> (m - j < fuel)%nat -> exists s, rand_loop src fuel left cache remain next sb = Ok s.
Proof.
  intros Hm. induction fuel as [|fuel IH]; intros left j cache remain next sb Hg Hs Hn Hf; [lia|]. destruct left as [|left]; [eexists; reflexivity|].
  assert (j < m)%nat. { destruct (Nat.lt_ge_cases j m) as [H|H]; [exact H|]. pose proof (letters_length src m j H). subst sb. lia. }
  destruct (rand_loop_step src fuel left j cache remain next sb Hg) as (c' & r' & n' & Hg' & E). rewrite E.
  apply (IH _ (S j)); [exact Hg'|rewrite letters_S, Hs; reflexivity| |lia].
  rewrite app_length. unfold letter in *. destruct ((0 <=? group src j) && (group src j <? 26))%bool; [cbn [List.length]; lia|].
  destruct ((26 <=? group src j) && (group src j <? 52))%bool; cbn [List.length]; lia.
Qed.
Lemma at_group_0 src : at_group src 0 (src 0%nat) 10 1.
Proof. exists 0%nat, 0%nat. split; [lia|]. symmetry. apply Z.shiftr_0_r. Qed.
Lemma randString_sound src fuel n s : randString src fuel n = Ok s -> exists m, s = letters src m /\ List.length s = n.
Proof. intros H. eapply rand_loop_letters; [apply at_group_0| | |exact H]; reflexivity. Qed.
Lemma randString_total src n m : (n <= List.length (letters src m))%nat -> exists s, randString src (S m) n = Ok s.
Proof. intros H. eapply (rand_loop_done src n m H); [apply at_group_0|reflexivity|reflexivity|lia]. Qed.
Lemma letters_letter src m : Forall is_letter (letters src m).
Proof. apply Forall_forall. intros b H. apply in_flat_map in H. destruct H as (j & _ & H). exact (letter_is _ _ H). Qed.
Lemma rand_not_other src : forall fuel todo cache remain next sb, rand_loop src fuel todo cache remain next sb = NoFuel \/ exists s, rand_loop src fuel todo cache remain next sb = Ok s.
Proof.
  induction fuel as [|f IH]; intros todo cache remain next sb; [left; reflexivity|]. cbn [rand_loop]. destruct todo; [right; eauto|].
  destruct remain; cbn beta iota; destruct (_ <? zlen letterBytes); apply IH.
Qed.
Lemma NewPeerId_sound src fuel s : NewPeerId src fuel = Ok s -> exists m r, s = B "-GT0000-" ++ r /\ r = letters src m /\ zlen s = 20 /\ Forall is_letter r.
Proof.
  unfold NewPeerId. destruct (randString src fuel 12) as [r|?| |] eqn:E; cbn [bind]; try discriminate. intros H. assert (Hs : s = B "-GT0000-" ++ r) by congruence. subst s.
  destruct (randString_sound _ _ _ _ E) as (m & Hr & Hl). exists m, r. split; [reflexivity|]. split; [exact Hr|]. split; [rewrite zlen_app; unfold zlen; rewrite Hl; reflexivity|rewrite Hr; apply letters_letter].
Qed.
Lemma NewPeerId_terminates src : (exists fuel s, NewPeerId src fuel = Ok s) <-> exists m, (12 <= List.length (letters src m))%nat.
Proof.
  split.
  - intros (fuel & s & H). destruct (NewPeerId_sound _ _ _ H) as (m & r & -> & -> & Hl & _). exists m. rewrite zlen_app in Hl. unfold zlen in Hl. change (List.length (B "-GT0000-")) with 8%nat in Hl. lia.
  - intros (m & H). destruct (randString_total src 12 m H) as (s & E). exists (S m), (B "-GT0000-" ++ s). unfold NewPeerId. rewrite E. reflexivity.
Qed.
Lemma NewPeerId_diverges src : (forall m, (List.length (letters src m) < 12)%nat) -> forall fuel, NewPeerId src fuel = NoFuel.
Proof.
  intros H fuel. unfold NewPeerId, randString. destruct (rand_not_other src fuel 12 (src 0%nat) 10 1 []) as [E|(s & E)]; [rewrite E; reflexivity|].
  assert (HE : NewPeerId src fuel = Ok (B "-GT0000-" ++ s)) by (unfold NewPeerId, randString; rewrite E; reflexivity).
  destruct (proj1 (NewPeerId_terminates src) (ex_intro _ _ (ex_intro _ _ HE))) as (m & Hm). specialize (H m). lia.
Qed.

(* ------------------------------------------------------------------ *)
(** * float64 and Bytes4Humans *)
Lemma f64_small n : Z.abs n < 2 ^ 53 -> f64 n = n.
Proof. intros H. unfold f64. replace (Z.abs n <? 2 ^ 53) with true by lia. reflexivity. Qed.
Lemma f64_parts n : 2 ^ 53 <= n -> exists e q r q', 1 <= e /\ n = q * 2 ^ e + r /\ 0 <= r < 2 ^ e /\ 2 ^ 52 <= q < 2 ^ 53 /\ f64 n = q' * 2 ^ e /\ (q' = q \/ q' = q + 1) /\
  (q' = q -> 2 * r <= 2 ^ e) /\ (q' = q + 1 -> 2 ^ e <= 2 * r).
Proof.
  intros H. unfold f64. rewrite Z.abs_eq by lia. replace (n <? 2 ^ 53) with false by lia. rewrite Z.sgn_pos by lia. cbv zeta.
  set (e := Z.log2 n - 52). assert (He : 1 <= e) by (unfold e; assert (Z.log2 (2 ^ 53) <= Z.log2 n) by (apply Z.log2_le_mono; lia); rewrite Z.log2_pow2 in H0 by lia; lia).
  destruct (Z.log2_spec n ltac:(lia)) as [Hlo Hhi]. replace (Z.log2 n) with (e + 52) in Hlo, Hhi by (unfold e; lia).
  rewrite Z.pow_add_r in Hlo by lia. replace (Z.succ (e + 52)) with (e + 53) in Hhi by lia. rewrite Z.pow_add_r in Hhi by lia.
  assert (Hp : 0 < 2 ^ e) by (apply Z.pow_pos_nonneg; lia).
  assert (Hh : 2 ^ e = 2 * 2 ^ (e - 1)) by (replace e with (Z.succ (e - 1)) at 1 by lia; rewrite Z.pow_succ_r by lia; lia).
  pose proof (Z.div_mod n (2 ^ e) ltac:(lia)) as Hd. pose proof (Z.mod_pos_bound n (2 ^ e) Hp) as Hm.
  assert (Hq : 2 ^ 52 <= n / 2 ^ e < 2 ^ 53).
  { split; [apply Z.div_le_lower_bound; lia|apply Z.div_lt_upper_bound; lia]. }
  eexists e, (n / 2 ^ e), (n mod 2 ^ e), _. split; [exact He|]. split; [lia|]. split; [exact Hm|]. split; [exact Hq|]. rewrite Z.mul_1_l. split; [reflexivity|].
  destruct (Z.ltb_spec (n mod 2 ^ e) (2 ^ (e - 1))); [lia|]. destruct (Z.ltb_spec (2 ^ (e - 1)) (n mod 2 ^ e)); [lia|]. destruct (Z.even (n / 2 ^ e)); lia.
Qed.
Lemma f64_repr n : 0 <= n -> float53 (f64 n).
Proof.
  intros H. destruct (Z.lt_ge_cases n (2 ^ 53)) as [Hs|Hb].
  - rewrite f64_small by lia. exists n, 0. rewrite Z.mul_1_r. lia.
  - destruct (f64_parts n Hb) as (e & q & r & q' & He & Hn & Hr & Hq & -> & Hq' & _). destruct (Z.eq_dec q' (2 ^ 53)) as [->|Hne].
    + exists 1, (53 + e). rewrite Z.pow_add_r by lia. repeat split; lia.
    + exists q', e. repeat split; lia.
Qed.
(** The relative error is at most 2^-53. *)
Lemma f64_close n : 0 <= n -> 2 ^ 53 * Z.abs (f64 n - n) <= n.
Proof.
  intros H. destruct (Z.lt_ge_cases n (2 ^ 53)) as [Hs|Hb].
  - rewrite f64_small by lia. rewrite Z.sub_diag. cbn [Z.abs]. lia.
  - destruct (f64_parts n Hb) as (e & q & r & q' & He & Hn & Hr & Hq & -> & Hq' & H1 & H2). assert (0 < 2 ^ e) by lia.
    assert (2 ^ 52 * 2 ^ e <= q * 2 ^ e) by (apply Z.mul_le_mono_nonneg_r; lia).
    replace (2 ^ 53) with (2 * 2 ^ 52) by reflexivity. destruct Hq' as [E|E]; specialize (H1 E) || specialize (H2 E); rewrite E.
    + replace (q * 2 ^ e - n) with (- r) by lia. rewrite Z.abs_opp, Z.abs_eq by lia. replace (2 * 2 ^ 52 * r) with (2 ^ 52 * (2 * r)) by lia. nia.
    + replace ((q + 1) * 2 ^ e - n) with (2 ^ e - r) by lia. rewrite Z.abs_eq by lia. nia.
Qed.
Lemma f64_pow2 k : 0 <= k <= 62 -> f64 (2 ^ k) = 2 ^ k.
Proof.
  intros H. assert (Hs : forallb (fun j => f64 (2 ^ Z.of_nat j) =? 2 ^ Z.of_nat j) (seq 0 63) = true) by (vm_compute; reflexivity).
  rewrite forallb_forall in Hs. specialize (Hs (Z.to_nat k) ltac:(apply in_seq; lia)). rewrite Z2Nat.id in Hs by lia. lia.
Qed.
Lemma f64_bounds n k : 0 <= k <= 62 -> 2 ^ k <= n -> 2 ^ k <= f64 n.
Proof.
  intros Hk H. assert (H1 : 1 <= 2 ^ k) by (change 1 with (2 ^ 0); apply Z.pow_le_mono_r; lia). destruct (Z.lt_ge_cases n (2 ^ 53)) as [Hs|Hb]; [rewrite f64_small by lia; lia|].
  destruct (f64_parts n Hb) as (e & q & r & q' & He & Hn & Hr & Hq & -> & Hq' & _).
  destruct (Z.lt_ge_cases k (e + 52)) as [Hl|Hg].
  - assert (2 ^ k <= 2 ^ (e + 52)) by (apply Z.pow_le_mono_r; lia). rewrite Z.pow_add_r in H0 by lia. nia.
  - replace k with ((k - e) + e) in * by lia. rewrite Z.pow_add_r in * by lia. assert (2 ^ (k - e) <= q); [|nia].
    assert (2 ^ (k - e) < q + 1); [|lia]. apply (Z.mul_lt_mono_pos_r (2 ^ e)); [lia|]. nia.
Qed.
Lemma f64_top n : n <= max64 -> 0 <= n -> f64 n <= 2 ^ 63.
Proof.
  intros H H0. destruct (Z.lt_ge_cases n (2 ^ 53)) as [Hs|Hb]; [rewrite f64_small by lia; unfold max64 in H; lia|].
  destruct (f64_parts n Hb) as (e & q & r & q' & He & Hn & Hr & Hq & -> & Hq' & _). unfold max64 in H.
  assert (e <= 10). { destruct (Z.le_gt_cases e 10) as [|Hg]; [assumption|]. assert (2 ^ 11 <= 2 ^ e) by (apply Z.pow_le_mono_r; lia). nia. }
  assert (Hs : q' * 2 ^ e <= 2 ^ 53 * 2 ^ e) by nia. rewrite <- Z.pow_add_r in Hs by lia. assert (2 ^ (53 + e) <= 2 ^ 63) by (apply Z.pow_le_mono_r; lia). lia.
Qed.
Lemma humans_loop_spec m : 0 < m <= 2 ^ 63 -> forall fuel k, 1 <= k <= 6 -> (6 - k < Z.of_nat fuel) -> 1024 ^ k <= m ->
  exists j, k <= j <= 6 /\ humans_loop fuel m k (1024 ^ k) (k - 1) = Ok (1024 ^ j, j - 1) /\ 1024 ^ j <= m < 1024 ^ (j + 1).
Proof.
  intros Hm. induction fuel as [|f IH]; intros k Hk Hf Hlo; [lia|]. cbn [humans_loop].
  replace (1024 * 1024 ^ k) with (1024 ^ (k + 1)) by (rewrite Z.pow_add_r by lia; lia). destruct (Z.ltb_spec m (1024 ^ (k + 1))) as [Hlt|Hge].
  - exists k. repeat split; lia.
  - destruct (Z.eq_dec k 6) as [->|Hne]; [exfalso; assert (1024 ^ (6 + 1) = 2 ^ 70) by reflexivity; assert (2 ^ 63 < 2 ^ 70) by (apply Z.pow_lt_mono_r; lia); lia|].
    assert (Hpow : 1024 ^ k * 1024 = 1024 ^ (k + 1)) by (rewrite Z.pow_add_r by lia; lia).
    assert (Hb : 1024 ^ (k + 1) <= 1024 ^ 6) by (apply Z.pow_le_mono_r; lia). change (1024 ^ 6) with 1152921504606846976 in Hb. assert (0 < 1024 ^ (k + 1)) by (apply Z.pow_pos_nonneg; lia).
    rewrite Hpow, i64_id by (unfold min64, max64; lia). replace (k - 1 + 1) with (k + 1 - 1) by lia.
    destruct (IH (k + 1) ltac:(lia) ltac:(lia) Hge) as (j & Hj & E & Hr). exists j. repeat split; [lia|lia|exact E|apply Hr|apply Hr].
Qed.
Lemma Humans_small n : min64 <= n < 1024 -> Bytes4Humans n = Ok (f64 n, 1, B "B").
Proof. intros H. unfold Bytes4Humans. replace (n <? 1024) with true by lia. reflexivity. Qed.
Lemma Humans_big n : 1024 <= n <= max64 -> exists j c, 1 <= j <= 6 /\ Bytes4Humans n = Ok (f64 n, 1024 ^ j, [c] ++ B "iB") /\
  nth_error (B "KMGTPE") (Z.to_nat (j - 1)) = Some c /\ 1024 ^ j <= f64 n < 1024 ^ j * 1024.
Proof.
  intros H. unfold Bytes4Humans. replace (n <? 1024) with false by lia.
  assert (Hlo : 2 ^ 10 <= f64 n) by (apply f64_bounds; lia). pose proof (f64_top n ltac:(lia) ltac:(lia)).
  destruct (humans_loop_spec (f64 n) ltac:(lia) 8 1 ltac:(lia) ltac:(lia) ltac:(lia)) as (j & Hj & E & Hr). change (1024 ^ 1) with 1024 in E. change (1 - 1) with 0 in E. rewrite E. cbn [bind].
  destruct (nth_error (B "KMGTPE") (Z.to_nat (j - 1))) as [c|] eqn:Ec; [|apply nth_error_None in Ec; cbn in Ec; lia].
  exists j, c. split; [lia|]. replace (f64 (1024 ^ j)) with (1024 ^ j).
  - rewrite Z.pow_add_r in Hr by lia. repeat split; try exact Ec; lia || reflexivity.
  - change 1024 with (2 ^ 10). rewrite <- Z.pow_mul_r by lia. symmetry. apply f64_pow2. lia.
Qed.

(* ------------------------------------------------------------------ *)
(** * parseSizeUnits *)
Lemma i64_mod z : i64 z mod 18446744073709551616 = z mod 18446744073709551616.
Proof. unfold i64, min64. rewrite Zplus_mod_idemp_l. f_equal. lia. Qed.
Lemma i64_cong a b : a mod 18446744073709551616 = b mod 18446744073709551616 -> i64 a = i64 b.
Proof. intros H. unfold i64. f_equal. rewrite (Zminus_mod a), (Zminus_mod b), H. reflexivity. Qed.
Lemma i64_mul a b : i64 (i64 a * b) = i64 (a * b).
Proof. apply i64_cong. rewrite (Zmult_mod (i64 a)), (Zmult_mod a), i64_mod. reflexivity. Qed.

Lemma span_digits_spec s d t : span_digits s = (d, t) -> s = d ++ t /\ Forall (fun x => 48 <= b2z x <= 57) d.
Proof.
  revert d t. induction s as [|b s IH]; intros d t H; cbn in H; [injection H as <- <-; auto|].
  destruct (is_digit b) eqn:E; [|injection H as <- <-; auto]. destruct (span_digits s) as [d' t'] eqn:E'. injection H as <- <-.
  destruct (IH _ _ eq_refl) as [-> HF]. split; [reflexivity|]. constructor; [apply is_digit_iff; exact E|exact HF].
Qed.
Lemma span_digits_app d t : Forall (fun x => 48 <= b2z x <= 57) d -> (forall b r, t = b :: r -> is_digit b = false) -> span_digits (d ++ t) = (d, t).
Proof.
  intros Hd Ht. induction Hd as [|x d Hx _ IH]; cbn [app span_digits].
  - destruct t as [|b r]; [reflexivity|]. cbn [span_digits]. rewrite (Ht b r eq_refl). reflexivity.
  - rewrite (proj2 (is_digit_iff x) Hx), IH. reflexivity.
Qed.
(** The part after ToUpper. *)
Definition psu (str : bytes) : res Z :=
  match str with
  | [] => Err EInvalid
  | c :: r =>
    let neg := Byte.eqb c "-"%byte in
    let (ds, tail) := span_digits (if neg then r else str) in
    do v <- atoi ds;
    let val := i64 (v * (if neg then -1 else 1)) in
    match tail with
    | [] => Ok val
    | [u] =>
      if Byte.eqb u "B"%byte then Ok val
      else if Byte.eqb u "K"%byte then Ok (i64 (val * 1024))
      else if Byte.eqb u "M"%byte then Ok (i64 (i64 (val * 1024) * 1024))
      else if Byte.eqb u "G"%byte then Ok (i64 (i64 (i64 (val * 1024) * 1024) * 1024))
      else Err EInvalid
    | _ => Err EInvalid
    end
  end.
Lemma psu_eq uni s : parseSizeUnits uni s = psu (ToUpper uni s).
Proof. reflexivity. Qed.
Definition upper_unit (u : bytes) (mult : Z) : Prop :=
  (u = [] /\ mult = 1) \/ (u = B "B" /\ mult = 1) \/ (u = B "K" /\ mult = 1024) \/ (u = B "M" /\ mult = 1048576) \/ (u = B "G" /\ mult = 1073741824).
Definition upper_text (s : bytes) (n : Z) : Prop :=
  exists sign ds u mult, s = sign ++ ds ++ u /\ ds <> [] /\ Forall (fun d => 48 <= b2z d <= 57) ds /\ dvalue ds <= max64 /\ upper_unit u mult /\
    ((sign = [] /\ n = dvalue ds * mult) \/ (sign = B "-" /\ n = - (dvalue ds * mult))).
Lemma atoi_iff ds v : atoi ds = Ok v <-> ds <> [] /\ dvalue ds <= max64 /\ v = dvalue ds.
Proof.
  unfold atoi. destruct ds as [|d ds]; [split; [discriminate|intros (H & _); congruence]|]. rewrite digits_val_dvalue.
  destruct (Z.leb_spec (dvalue (d :: ds)) max64) as [H|H]; split.
  - intros E. assert (v = dvalue (d :: ds)) by congruence. repeat split; [discriminate|exact H|assumption].
  - intros (_ & _ & ->). reflexivity.
  - discriminate.
  - intros (_ & H' & _). lia.
Qed.
Lemma psu_sound s v : psu s = Ok v -> exists n, upper_text s n /\ v = i64 n.
Proof.
  unfold psu. destruct s as [|c r]; [discriminate|]. cbv zeta. destruct (span_digits (if Byte.eqb c "-" then r else c :: r)) as [ds tail] eqn:E.
  apply span_digits_spec in E. destruct E as [Es Hd]. destruct (atoi ds) as [n|?| |] eqn:En; cbn [bind]; try discriminate. apply atoi_iff in En. destruct En as (Hne & Hmax & ->).
  assert (HX : forall mult, upper_unit tail mult -> exists n, upper_text (c :: r) n /\ i64 (dvalue ds * (if Byte.eqb c "-" then -1 else 1) * mult) = i64 n).
  { intros mult Hu. destruct (Byte.eqb c "-") eqn:Ec.
    - apply Byte_eqb_eq in Ec. subst c r. exists (- (dvalue ds * mult)). split; [|f_equal; lia]. exists (B "-"), ds, tail, mult. repeat split; auto.
    - exists (dvalue ds * mult). split; [|f_equal; lia]. exists [], ds, tail, mult. repeat split; auto. }
  set (x := dvalue ds * (if Byte.eqb c "-" then -1 else 1)) in *.
  destruct tail as [|u [|? ?]]; try discriminate.
  - intros H. assert (v = i64 x) by congruence. subst v. rewrite <- (Z.mul_1_r x). apply HX. left. auto.
  - destruct (Byte.eqb u "B") eqn:E1; [apply Byte_eqb_eq in E1; subst u|destruct (Byte.eqb u "K") eqn:E2; [apply Byte_eqb_eq in E2; subst u|destruct (Byte.eqb u "M") eqn:E3; [apply Byte_eqb_eq in E3; subst u|destruct (Byte.eqb u "G") eqn:E4; [apply Byte_eqb_eq in E4; subst u|discriminate]]]];
    intros H; rewrite ?i64_mul in H; rewrite <- ?Z.mul_assoc in H; rewrite ?i64_mul in H; apply (f_equal (fun y => match y with Ok z => z | _ => 0 end)) in H; cbn beta iota in H; subst v.
    + rewrite <- (Z.mul_1_r x). apply HX. right. left. auto.
    + apply HX. right. right. left. auto.
    + change (1024 * 1024) with 1048576. apply HX. right. right. right. left. auto.
    + replace (x * 1024 * (1024 * 1024)) with (x * 1073741824) by lia. apply HX. right. right. right. right. auto.
Qed.
Lemma psu_complete s n : upper_text s n -> psu s = Ok (i64 n).
Proof.
  intros (sign & ds & u & mult & -> & Hne & Hd & Hmax & Hu & Hs).
  assert (Hut : forall b r, u = b :: r -> is_digit b = false).
  { intros b r ->. destruct Hu as [[H _]|[[H _]|[[H _]|[[H _]|[H _]]]]]; try discriminate; injection H as -> _; reflexivity. }
  assert (Hat : atoi ds = Ok (dvalue ds)) by (apply atoi_iff; auto).
  assert (HT : forall k, match u with
    | [] => Ok (i64 (dvalue ds * k))
    | [u] =>
      if Byte.eqb u "B"%byte then Ok (i64 (dvalue ds * k))
      else if Byte.eqb u "K"%byte then Ok (i64 (i64 (dvalue ds * k) * 1024))
      else if Byte.eqb u "M"%byte then Ok (i64 (i64 (i64 (dvalue ds * k) * 1024) * 1024))
      else if Byte.eqb u "G"%byte then Ok (i64 (i64 (i64 (i64 (dvalue ds * k) * 1024) * 1024) * 1024))
      else Err EInvalid
    | _ => Err EInvalid end = Ok (i64 (dvalue ds * k * mult))).
  { assert (HK : forall a, i64 (i64 a * 1024) = i64 (a * 1024)) by (intros; apply i64_mul).
    assert (HM : forall a, i64 (i64 (i64 a * 1024) * 1024) = i64 (a * 1048576)) by (intros a; rewrite i64_mul, <- Z.mul_assoc, i64_mul; reflexivity).
    assert (HG : forall a, i64 (i64 (i64 (i64 a * 1024) * 1024) * 1024) = i64 (a * 1073741824)) by (intros a; rewrite HM, <- Z.mul_comm, (Z.mul_comm _ (i64 a * 1024)), <- Z.mul_assoc, i64_mul; reflexivity).
    intros k. destruct Hu as [[-> ->]|[[-> ->]|[[-> ->]|[[-> ->]|[-> ->]]]]].
    - rewrite Z.mul_1_r. reflexivity.
    - rewrite Z.mul_1_r. reflexivity.
    - exact (f_equal Ok (HK (dvalue ds * k))).
    - exact (f_equal Ok (HM (dvalue ds * k))).
    - exact (f_equal Ok (HG (dvalue ds * k))). }
  unfold psu. destruct Hs as [[-> ->]|[-> ->]].
  - cbn [app]. destruct ds as [|d ds]; [congruence|]. cbn [app]. cbv zeta. inversion Hd as [|? ? Hd0 _]; subst.
    replace (Byte.eqb d "-") with false by (symmetry; apply Byte_eqb_neq; intros ->; cbn in Hd0; lia).
    change (d :: ds ++ u) with ((d :: ds) ++ u). rewrite (span_digits_app _ _ Hd Hut), Hat. cbn [bind]. rewrite HT, Z.mul_1_r. reflexivity.
  - change (B "-" ++ ds ++ u) with ("-"%byte :: (ds ++ u)). cbv zeta. cbn iota. change (Byte.eqb "-" "-") with true. cbn iota.
    rewrite (span_digits_app _ _ Hd Hut), Hat. cbn [bind]. rewrite HT. replace (dvalue ds * -1 * mult) with (- (dvalue ds * mult)) by lia. reflexivity.
Qed.
Lemma psu_outcome s : (exists v, psu s = Ok v) \/ exists e, psu s = Err e.
Proof.
  unfold psu. destruct s as [|c r]; [eauto|]. cbv zeta. destruct (span_digits _) as [ds tail]. unfold atoi. destruct ds; [cbn; eauto|]. destruct (_ <=? _); cbn [bind]; [|eauto].
  destruct tail as [|u [|? ?]]; [eauto| |eauto]. destruct (Byte.eqb u "B"); [eauto|]. destruct (Byte.eqb u "K"); [eauto|]. destruct (Byte.eqb u "M"); [eauto|]. destruct (Byte.eqb u "G"); eauto.
Qed.
Lemma upper_digit b : 48 <= b2z (upper b) <= 57 -> upper b = b.
Proof.
  intros H. pose proof (byte_sweep (fun b => negb (is_digit (upper b)) || Byte.eqb (upper b) b) ltac:(vm_compute; reflexivity) b) as Hs. cbn beta in Hs.
  apply orb_true_iff in Hs. destruct Hs as [Hs|Hs]; [|apply Byte_eqb_eq; exact Hs]. apply is_digit_iff in H. rewrite H in Hs. discriminate.
Qed.
Lemma digit_upper b : 48 <= b2z b <= 57 -> upper b = b.
Proof. intros H. unfold upper. replace ((97 <=? b2z b) && (b2z b <=? 122))%bool with false by lia. reflexivity. Qed.
Lemma upper_minus b : upper b = "-"%byte -> b = "-"%byte.
Proof.
  intros H. pose proof (byte_sweep (fun b => negb (Byte.eqb (upper b) "-") || Byte.eqb b "-") ltac:(vm_compute; reflexivity) b) as Hs. cbn beta in Hs. rewrite H in Hs. apply Byte_eqb_eq. exact Hs.
Qed.
Lemma upper_letter u c l : upper c = u -> u = "B"%byte /\ l = "b"%byte \/ u = "K"%byte /\ l = "k"%byte \/ u = "M"%byte /\ l = "m"%byte \/ u = "G"%byte /\ l = "g"%byte -> c = u \/ c = l.
Proof.
  intros <- H. pose proof (byte_sweep (fun c => (negb (Byte.eqb (upper c) "B") || (Byte.eqb c "B" || Byte.eqb c "b")) && (negb (Byte.eqb (upper c) "K") || (Byte.eqb c "K" || Byte.eqb c "k")) &&
     (negb (Byte.eqb (upper c) "M") || (Byte.eqb c "M" || Byte.eqb c "m")) && (negb (Byte.eqb (upper c) "G") || (Byte.eqb c "G" || Byte.eqb c "g"))) ltac:(vm_compute; reflexivity) c) as Hs. cbn beta in Hs.
  rewrite !andb_true_iff in Hs. destruct Hs as [[[H1 H2] H3] H4].
  destruct H as [[E ->]|[[E ->]|[[E ->]|[E ->]]]]; rewrite E in *;
    [rename H1 into HH|rename H2 into HH|rename H3 into HH|rename H4 into HH]; cbn [Byte.eqb negb orb] in HH;
    match type of HH with _ = true => idtac end; apply orb_true_iff in HH; destruct HH as [HH|HH]; try discriminate; try (apply orb_true_iff in HH; destruct HH as [HH|HH]); apply Byte_eqb_eq in HH; auto.
Qed.
Lemma map_upper_digits a ds : map upper a = ds -> Forall (fun d => 48 <= b2z d <= 57) ds -> a = ds.
Proof.
  revert ds. induction a as [|x a IH]; intros ds <- H; [reflexivity|]. cbn in *. inversion H; subst. f_equal; [symmetry; apply upper_digit; assumption|]. apply IH; auto.
Qed.
Lemma upper_text_size s n : upper_text (map upper s) n -> size_text s n.
Proof.
  intros (sign & ds & u & mult & E & Hne & Hd & Hmax & Hu & Hs). apply map_eq_app in E. destruct E as (s1 & s2 & -> & E1 & E2).
  apply map_eq_app in E2. destruct E2 as (a & b & -> & Ea & Eb). apply (map_upper_digits a ds Ea) in Hd as Ha. subst a.
  assert (Hsg : s1 = sign).
  { destruct Hs as [[-> _]|[-> _]]; [destruct s1; [reflexivity|discriminate]|]. destruct s1 as [|c [|? ?]]; try discriminate. cbn in E1. injection E1 as E1. rewrite (upper_minus c E1). reflexivity. }
  subst s1. exists sign, ds, b, mult. repeat split; auto.
  assert (HB : forall U L, u = [U] -> (U = "B"%byte /\ L = "b"%byte \/ U = "K"%byte /\ L = "k"%byte \/ U = "M"%byte /\ L = "m"%byte \/ U = "G"%byte /\ L = "g"%byte) -> b = [U] \/ b = [L]).
  { intros U L -> HU. destruct b as [|c [|? ?]]; try discriminate. cbn in Eb. injection Eb as Eb. destruct (upper_letter U c L Eb HU) as [->| ->]; auto. }
  destruct Hu as [[-> ->]|[[-> ->]|[[-> ->]|[[-> ->]|[-> ->]]]]].
  - left. destruct b; [auto|discriminate].
  - right. left. split; [apply (HB "B"%byte "b"%byte); auto|reflexivity].
  - right. right. left. split; [apply (HB "K"%byte "k"%byte); auto 6|reflexivity].
  - right. right. right. left. split; [apply (HB "M"%byte "m"%byte); auto 6|reflexivity].
  - right. right. right. right. split; [apply (HB "G"%byte "g"%byte); auto 6|reflexivity].
Qed.
Lemma size_upper_text s n : size_text s n -> upper_text (map upper s) n.
Proof.
  intros (sign & ds & u & mult & -> & Hne & Hd & Hmax & Hu & Hs). exists sign, ds, (map upper u), mult.
  repeat split; auto.
  - rewrite !map_app. assert (map upper ds = ds) as ->. { clear -Hd. induction Hd; cbn; [reflexivity|]. rewrite digit_upper by assumption. f_equal. assumption. }
    destruct Hs as [[-> _]|[-> _]]; reflexivity.
  - unfold upper_unit. destruct Hu as [[-> ->]|[[[-> | ->] ->]|[[[-> | ->] ->]|[[[-> | ->] ->]|[[-> | ->] ->]]]]]; cbn; auto 10.
Qed.
Lemma size_ascii s n : size_text s n -> forallb (fun b => b2z b <? 128) s = true.
Proof.
  intros (sign & ds & u & mult & -> & Hne & Hd & Hmax & Hu & Hs). rewrite !forallb_app. apply andb_true_iff. split; [destruct Hs as [[-> _]|[-> _]]; reflexivity|].
  apply andb_true_iff. split; [apply forallb_forall; intros x Hx; rewrite Forall_forall in Hd; specialize (Hd x Hx); lia|].
  destruct Hu as [[-> _]|[[[-> | ->] _]|[[[-> | ->] _]|[[[-> | ->] _]|[[-> | ->] _]]]]]; reflexivity.
Qed.
Lemma parseSizeUnits_complete uni s n : size_text s n -> parseSizeUnits uni s = Ok (i64 n).
Proof. intros H. rewrite psu_eq. unfold ToUpper. rewrite (size_ascii s n H). apply psu_complete, size_upper_text, H. Qed.
Lemma parseSizeUnits_sound uni s v : unicode_ok uni -> parseSizeUnits uni s = Ok v -> exists n, size_text s n /\ v = i64 n.
Proof.
  intros Huni. rewrite psu_eq. unfold ToUpper. destruct (forallb (fun b => b2z b <? 128) s) eqn:Ea; intros H; apply psu_sound in H; destruct H as (n & Ht & Hv).
  - exists n. split; [apply upper_text_size; exact Ht|exact Hv].
  - exfalso. assert (Hex : exists b, In b s /\ 128 <= b2z b).
    { clear -Ea. induction s as [|x s IH]; [discriminate|]. cbn [forallb] in Ea. apply andb_false_iff in Ea. destruct Ea as [E|E]; [exists x; split; [left; reflexivity|lia]|].
      destruct (IH E) as (b & Hb & Hl). exists b. split; [right; exact Hb|exact Hl]. }
    destruct (Huni s Hex) as (b & Hin & Hb). destruct Ht as (sign & ds & u & mult & E & _ & Hd & _ & Hu & Hs). rewrite E in Hin.
    assert (Hok : 48 <= b2z b <= 57 \/ b = "-"%byte \/ b = "B"%byte \/ b = "K"%byte \/ b = "M"%byte \/ b = "G"%byte).
    { rewrite !in_app_iff in Hin. destruct Hin as [Hin|[Hin|Hin]].
      - destruct Hs as [[-> _]|[-> _]]; cbn in Hin; intuition.
      - left. rewrite Forall_forall in Hd. auto.
      - destruct Hu as [[-> _]|[[-> _]|[[-> _]|[[-> _]|[-> _]]]]]; cbn in Hin; intuition. }
    destruct Hb as [Hb|[-> | ->]]; [destruct Hok as [H|[->|[->|[->|[->| ->]]]]]; cbn in *; lia| |]; cbn in Hok; intuition (try discriminate; lia).
Qed.
Lemma parseSizeUnits_rejects uni s : unicode_ok uni -> (forall n, ~ size_text s n) -> exists e, parseSizeUnits uni s = Err e.
Proof.
  intros Hu Hn. destruct (psu_outcome (ToUpper uni s)) as [(v & E)|(e & E)]; [|exists e; exact E].
  destruct (parseSizeUnits_sound uni s v Hu E) as (n & Ht & _). exfalso. exact (Hn n Ht).
Qed.

(* ------------------------------------------------------------------ *)
(** * Validate *)
Definition known (cmd : bytes) : Prop := cmd = B "swarm" \/ cmd = B "info".
Lemma Validate_iff uni g o : unicode_ok uni ->
  (exists g', ValidateOpts uni (Some g) o = (Ok tt, Some g')) <->
  o_input o <> [] /\ known (o_cmd o) /\ (exists n, size_text (o_upstr g) n) /\ (exists n, size_text (o_dnstr g) n).
Proof.
  intros Hu. unfold ValidateOpts. destruct (beqb (o_input o) []) eqn:Ei; [apply beqb_eq in Ei; split; [intros (? & H); discriminate|intros (H & _); congruence]|]. apply beqb_neq in Ei.
  unfold known. destruct (beqb (o_cmd o) (B "swarm") || beqb (o_cmd o) (B "info"))%bool eqn:Ec; cbn [negb].
  2:{ apply orb_false_iff in Ec. rewrite !beqb_neq in Ec. split; [intros (? & H); discriminate|tauto]. }
  rewrite orb_true_iff, !beqb_eq in Ec. destruct (parseSizeUnits uni (o_upstr g)) as [v|e| |] eqn:E1.
  - cbn [set_uplim o_dnstr]. change (o_dnstr (set_uplim g v)) with (o_dnstr g). destruct (parseSizeUnits uni (o_dnstr g)) as [v'|e| |] eqn:E2.
    + destruct (parseSizeUnits_sound _ _ _ Hu E1) as (n1 & H1 & _), (parseSizeUnits_sound _ _ _ Hu E2) as (n2 & H2 & _). split; [intros _; repeat split; eauto|intros _; eexists; reflexivity].
    + split; [intros (? & H); discriminate|]. intros (_ & _ & _ & (n & H)). rewrite (parseSizeUnits_complete uni _ _ H) in E2. discriminate.
    + split; [intros (? & H); discriminate|]. intros (_ & _ & _ & (n & H)). rewrite (parseSizeUnits_complete uni _ _ H) in E2. discriminate.
    + split; [intros (? & H); discriminate|]. intros (_ & _ & _ & (n & H)). rewrite (parseSizeUnits_complete uni _ _ H) in E2. discriminate.
  - split; [intros (? & H); discriminate|]. intros (_ & _ & (n & H) & _). rewrite (parseSizeUnits_complete uni _ _ H) in E1. discriminate.
  - split; [intros (? & H); discriminate|]. intros (_ & _ & (n & H) & _). rewrite (parseSizeUnits_complete uni _ _ H) in E1. discriminate.
  - split; [intros (? & H); discriminate|]. intros (_ & _ & (n & H) & _). rewrite (parseSizeUnits_complete uni _ _ H) in E1. discriminate.
Qed.
Lemma initOpts_ok uni o u d : o_input o <> [] -> known (o_cmd o) -> size_text (o_upstr o) u -> size_text (o_dnstr o) d ->
  exists g, initOpts uni o = Ok g /\ o_uplim g = i64 u /\ o_dnlim g = i64 d /\ o_input g = o_input o /\ o_wd g = o_wd o /\ OptPort g = o_port o mod 65536.
Proof.
  intros Hi Hc Hu Hd. unfold initOpts, ValidateOpts. cbn [set_dnlim set_uplim o_input o_cmd o_upstr o_dnstr].
  rewrite (proj2 (beqb_neq _ _) Hi). replace (beqb (o_cmd o) (B "swarm") || beqb (o_cmd o) (B "info"))%bool with true by (symmetry; rewrite orb_true_iff, !beqb_eq; exact Hc). cbn [negb].
  rewrite (parseSizeUnits_complete uni _ _ Hu). cbv zeta. cbn [set_uplim o_dnstr]. rewrite (parseSizeUnits_complete uni _ _ Hd).
  eexists. split; [reflexivity|]. repeat split.
Qed.
Lemma initOpts_bad uni o : unicode_ok uni -> ~ (o_input o <> [] /\ known (o_cmd o) /\ (exists n, size_text (o_upstr o) n) /\ (exists n, size_text (o_dnstr o) n)) -> initOpts uni o = Panic.
Proof.
  intros Hu Hn. unfold initOpts. cbv zeta. set (o' := set_dnlim (set_uplim o 0) 0). destruct (ValidateOpts uni (Some o') o') as [r g] eqn:E.
  assert (Hno : ~ exists g', ValidateOpts uni (Some o') o' = (Ok tt, Some g')) by (rewrite (Validate_iff uni o' o' Hu); exact Hn). rewrite E in Hno.
  destruct r as [[]|e| |]; [|reflexivity|reflexivity|].
  - destruct g; [exfalso; eauto|reflexivity].
  - exfalso. revert E. unfold ValidateOpts. destruct (beqb (o_input o') []); [discriminate|]. destruct (negb _); [discriminate|].
    pose proof (psu_outcome (ToUpper uni (o_upstr o'))) as H1. rewrite <- psu_eq in H1. destruct H1 as [(v & ->)|(e & ->)]; [|discriminate].
    pose proof (psu_outcome (ToUpper uni (o_dnstr (set_uplim o' v)))) as H2. rewrite <- psu_eq in H2. destruct H2 as [(v' & ->)|(e & ->)]; discriminate.
Qed.

(* ------------------------------------------------------------------ *)
(** * Corollaries *)
Lemma parseSizeUnits_exact uni s n : size_text s n -> in_int64 n -> parseSizeUnits uni s = Ok n.
Proof. intros H Hn. rewrite (parseSizeUnits_complete uni s n H). f_equal. apply i64_id. exact Hn. Qed.
Lemma parseSizeUnits_wraps uni : exists s n, size_text s n /\ max64 < n /\ parseSizeUnits uni s = Ok 0.
Proof.
  exists (B "17179869184G"), (17179869184 * 1073741824). assert (H : size_text (B "17179869184G") (17179869184 * 1073741824)).
  { exists [], (B "17179869184"), (B "G"), 1073741824. repeat split; try discriminate.
    - repeat constructor; cbn; discriminate.
    - do 4 right. split; [left; reflexivity|reflexivity].
    - left. split; reflexivity. }
  split; [exact H|]. split; [reflexivity|]. rewrite (parseSizeUnits_complete uni _ _ H). reflexivity.
Qed.
Lemma parseSizeUnits_negates uni : exists s n, size_text s n /\ 0 < n /\ exists v, parseSizeUnits uni s = Ok v /\ v < 0.
Proof.
  exists (B "8796093022208M"), (8796093022208 * 1048576). assert (H : size_text (B "8796093022208M") (8796093022208 * 1048576)).
  { exists [], (B "8796093022208"), (B "M"), 1048576. repeat split; try discriminate.
    - repeat constructor; cbn; discriminate.
    - do 3 right. left. split; [left; reflexivity|reflexivity].
    - left. split; reflexivity. }
  split; [exact H|]. split; [reflexivity|]. eexists. split; [exact (parseSizeUnits_complete uni _ _ H)|]. reflexivity.
Qed.
Lemma letters_prefix src a b : (a <= b)%nat -> exists t, letters src b = letters src a ++ t.
Proof. induction 1 as [|b H (t & E)]; [exists []; rewrite app_nil_r; reflexivity|]. rewrite letters_S, E. exists (t ++ letter (group src b)). rewrite app_assoc. reflexivity. Qed.
Lemma NewPeerId_first src fuel s m : NewPeerId src fuel = Ok s -> (12 <= List.length (letters src m))%nat -> s = B "-GT0000-" ++ firstn 12 (letters src m).
Proof.
  intros H Hm. destruct (NewPeerId_sound _ _ _ H) as (k & r & -> & -> & HL & _). f_equal. assert (Hk : List.length (letters src k) = 12%nat).
  { rewrite zlen_app in HL. unfold zlen in HL. change (List.length (B "-GT0000-")) with 8%nat in HL. lia. }
  destruct (Nat.le_ge_cases k m) as [Hle|Hle]; destruct (letters_prefix src _ _ Hle) as (t & E); rewrite E.
  - rewrite <- Hk, firstn_app, Nat.sub_diag, firstn_all. cbn [firstn]. rewrite app_nil_r. reflexivity.
  - rewrite E, app_length in Hk. assert (List.length t = 0%nat) by lia. destruct t; [|discriminate]. rewrite app_nil_r. cbn [List.length] in Hk. symmetry. apply firstn_all2. lia.
Qed.
Lemma f64_even n : 2 ^ 53 <= n -> nearest_even n (f64 n).
Proof.
  intros Hn. unfold f64. rewrite (Z.abs_eq n) by lia. replace (n <? 2 ^ 53) with false by lia.
  assert (Hl : 53 <= Z.log2 n) by (apply Z.log2_le_pow2; lia). destruct (Z.log2_spec n ltac:(lia)) as [L1 L2].
  set (e := Z.log2 n - 52) in *. assert (He : 0 < e) by lia. assert (Hp : 2 ^ e = 2 * 2 ^ (e - 1)) by (rewrite <- Z.pow_succ_r by lia; f_equal; lia).
  assert (Hpp : 0 < 2 ^ (e - 1)) by (apply Z.pow_pos_nonneg; lia).
  assert (L3 : 2 ^ 52 * 2 ^ e <= n < 2 ^ 53 * 2 ^ e) by (rewrite <- !Z.pow_add_r by lia; replace (52 + e) with (Z.log2 n) by lia; replace (53 + e) with (Z.succ (Z.log2 n)) by lia; lia).
  assert (Hs : Z.sgn n = 1) by (apply Z.sgn_pos; lia). rewrite Hs, Z.mul_1_l.
  pose proof (Z.div_mod n (2 ^ e) ltac:(lia)) as Hd. pose proof (Z.mod_pos_bound n (2 ^ e) ltac:(lia)) as Hr. rewrite Z.mul_comm in Hd.
  set (q := n / 2 ^ e) in *. set (r := n mod 2 ^ e) in *. clearbody q r.
  assert (Hq : 2 ^ 52 <= q < 2 ^ 53).
  { split; [apply Z.lt_succ_r; apply (Z.mul_lt_mono_pos_r (2 ^ e)); lia|apply (Z.mul_lt_mono_pos_r (2 ^ e)); lia]. }
  set (q' := if r <? 2 ^ (e - 1) then q else if 2 ^ (e - 1) <? r then q + 1 else if Z.even q then q else q + 1). exists q', e. split; [reflexivity|]. split; [lia|].
  assert (E1 : forall k, n - (q + k) * 2 ^ e = r - k * 2 ^ e) by (intros; lia). unfold q'. clear q'.
  destruct (Z.ltb_spec r (2 ^ (e - 1))) as [A|A]; [|destruct (Z.ltb_spec (2 ^ (e - 1)) r) as [C|C]; [|destruct (Z.even q) eqn:Ev]].
  - specialize (E1 0). rewrite Z.add_0_r in E1. rewrite E1. split; [lia|]. split; lia.
  - rewrite (E1 1). split; [lia|]. split; lia.
  - specialize (E1 0). rewrite Z.add_0_r in E1. rewrite E1. split; [lia|]. split; [lia|]. intros _. exact Ev.
  - rewrite (E1 1). split; [lia|]. split; [lia|]. intros _. rewrite Z.even_add, Ev. reflexivity.
Qed.
Lemma f64_spec n : 0 <= n -> float53 (f64 n) /\ 2 ^ 53 * Z.abs (f64 n - n) <= n /\ (n < 2 ^ 53 -> f64 n = n) /\ (2 ^ 53 <= n -> nearest_even n (f64 n)).
Proof. intros H. split; [apply f64_repr, H|]. split; [apply f64_close, H|]. split; [intros Hn; apply f64_small; lia|]. apply f64_even. Qed.
Lemma Validate_wrong_receiver uni : exists g o, fst (ValidateOpts uni (Some g) o) = Ok tt /\ forall n, ~ size_text (o_upstr o) n.
Proof.
  exists (mkopts (B "a") [] 1 (B "info") (B "1") (B "1") 0 0), (mkopts (B "a") [] 1 (B "info") [] (B "1") 0 0). split; [reflexivity|].
  intros n (sign & ds & u & mult & E & Hd & _). cbn [o_upstr] in E. destruct sign; [|discriminate]. destruct ds; [congruence|discriminate].
Qed.

Lemma Validate_unset uni o : (o_input o <> [] /\ known (o_cmd o) -> ValidateOpts uni None o = (Panic, None)) /\
  (~ (o_input o <> [] /\ known (o_cmd o)) -> exists e, ValidateOpts uni None o = (Err e, None)).
Proof.
  unfold ValidateOpts, known. destruct (beqb (o_input o) []) eqn:E; [apply beqb_eq in E; split; [intros [H _]; contradiction|eauto]|]. apply beqb_neq in E.
  destruct (negb (beqb (o_cmd o) (B "swarm") || beqb (o_cmd o) (B "info"))) eqn:E2; rewrite <- !beqb_eq.
  - split; [intros [_ [H|H]]; rewrite H in E2; [discriminate|rewrite orb_true_r in E2; discriminate]|eauto].
  - split; [reflexivity|]. intros H. exfalso. apply H. split; [rewrite beqb_eq; exact E|]. apply negb_false_iff, orb_prop in E2. exact E2.
Qed.
Lemma Validate_refused uni g o : unicode_ok uni ->
  ~ (o_input o <> [] /\ known (o_cmd o) /\ (exists n, size_text (o_upstr g) n) /\ (exists n, size_text (o_dnstr g) n)) ->
  exists e g', ValidateOpts uni (Some g) o = (Err e, Some g').
Proof.
  intros Hu Hn. destruct (ValidateOpts uni (Some g) o) as [r g'] eqn:E.
  assert (Hno : ~ exists g', ValidateOpts uni (Some g) o = (Ok tt, Some g')) by (rewrite (Validate_iff uni g o Hu); exact Hn). rewrite E in Hno. revert E.
  unfold ValidateOpts. destruct (beqb (o_input o) []); [intros H; injection H as <- <-; eauto|]. destruct (negb _); [intros H; injection H as <- <-; eauto|].
  pose proof (psu_outcome (ToUpper uni (o_upstr g))) as H1. rewrite <- psu_eq in H1. destruct H1 as [(v & ->)|(e & ->)]; [|intros H; injection H as <- <-; eauto].
  pose proof (psu_outcome (ToUpper uni (o_dnstr (set_uplim g v)))) as H2. rewrite <- psu_eq in H2.
  destruct H2 as [(v' & ->)|(e & ->)]; intros H; injection H as <- <-; [|eauto]. exfalso. eauto.
Qed.
