(** ShaProofs.v: the model of crypto/sha1 computes SHA-1. *)
From Coq Require Import ZifyBool ZifyNat ZifyN Znumtheory.
From Verif Require Import Base ShaModel ShaSpec.

(** ** Words *)
Definition word (x : Z) : Prop := 0 <= x < 4294967296.
Lemma u32_word x : word (u32 x).
Proof. apply Z.mod_pos_bound. lia. Qed.
Lemma high x n : word x -> 32 <= n -> Z.testbit x n = false.
Proof. intros H Hn. change 4294967296 with (2 ^ 32) in H. rewrite <- (Z.mod_small x (2 ^ 32)) by exact H. apply Z.mod_pow2_bits_high. lia. Qed.
Lemma bits_word x : 0 <= x -> (forall n, 32 <= n -> Z.testbit x n = false) -> word x.
Proof.
  intros H0 H. split; [exact H0|]. change 4294967296 with (2 ^ 32). destruct (Z.eq_dec x 0) as [->|Hx]; [lia|]. apply Z.log2_lt_pow2; [lia|].
  destruct (Z_lt_le_dec (Z.log2 x) 32) as [|Hl]; [assumption|]. pose proof (Z.bit_log2 x ltac:(lia)) as Hb. rewrite (H _ Hl) in Hb. discriminate.
Qed.
Lemma low_zero k x n : 0 <= k -> x mod 2 ^ k = 0 -> n < k -> Z.testbit x n = false.
Proof.
  intros Hk Hx Hn. destruct (Z_lt_le_dec n 0) as [|H0]; [apply Z.testbit_neg_r; assumption|]. rewrite <- (Z.mod_pow2_bits_low x k n) by lia. rewrite Hx. apply Z.bits_0.
Qed.
Lemma high_pow k y n : 0 <= k -> 0 <= y < 2 ^ k -> k <= n -> Z.testbit y n = false.
Proof. intros Hk Hy Hn. rewrite <- (Z.mod_small y (2 ^ k)) by exact Hy. apply Z.mod_pow2_bits_high. lia. Qed.
Lemma lor_add x y : Z.land x y = 0 -> Z.lor x y = x + y.
Proof. intros H. rewrite Z.add_nocarry_lxor by exact H. symmetry. apply Z.lxor_lor, H. Qed.
Lemma lor_low k x y : 0 <= k -> x mod 2 ^ k = 0 -> 0 <= y < 2 ^ k -> Z.lor x y = x + y.
Proof.
  intros Hk Hx Hy. apply lor_add. apply Z.bits_inj'. intros n Hn. rewrite Z.land_spec, Z.bits_0. destruct (Z_lt_le_dec n k); [rewrite (low_zero k x) by assumption; reflexivity|]. rewrite (high_pow k y) by assumption. apply andb_false_r.
Qed.
Lemma rotl_ROTL k x : 0 < k < 32 -> word x -> rotl k x = ROTL k x.
Proof.
  intros Hk Hx. unfold rotl, ROTL, u32, W32. rewrite Z.shiftl_mul_pow2, Z.shiftr_div_pow2 by lia. apply (lor_low k); [lia| |].
  - change 4294967296 with (2 ^ 32). replace 32 with (k + (32 - k)) by lia. rewrite Z.pow_add_r by lia. rewrite (Z.mul_comm x), Zmult_mod_distr_l. rewrite Z.mul_comm. apply Z.mod_mul. apply Z.pow_nonzero; lia.
  - unfold word in Hx. change 4294967296 with (2 ^ 32) in Hx. replace 32 with ((32 - k) + k) in Hx at 1 by lia. rewrite Z.pow_add_r in Hx by lia. split; [apply Z.div_pos; [lia|apply Z.pow_pos_nonneg; lia]|]. apply Z.div_lt_upper_bound; [apply Z.pow_pos_nonneg; lia|lia].
Qed.
Lemma rotl_word k x : 0 < k < 32 -> word x -> word (rotl k x).
Proof.
  intros Hk Hx. apply bits_word.
  - unfold rotl. apply Z.lor_nonneg. split; [apply u32_word|]. apply Z.shiftr_nonneg. apply Hx.
  - intros n Hn. unfold rotl. rewrite Z.lor_spec, (high (u32 _)), Z.shiftr_spec, (high x) by (apply u32_word || assumption || lia). reflexivity.
Qed.
Lemma ch_eq b c d : word b -> Z.lor (Z.land b c) (Z.land (4294967295 - b) d) = Z.lxor (Z.land b c) (Z.land (W32 - 1 - b) d).
Proof.
  intros Hb. change (W32 - 1 - b) with (4294967295 - b). symmetry. apply Z.lxor_lor. apply Z.bits_inj'. intros n Hn. rewrite !Z.land_spec, Z.bits_0.
  assert (Hc : Z.testbit b n && Z.testbit (4294967295 - b) n = false).
  { destruct (Z_lt_le_dec n 32) as [Hl|Hl]; [|rewrite (high b) by assumption; reflexivity]. replace (4294967295 - b) with (Z.lnot b mod 2 ^ 32).
    - rewrite Z.mod_pow2_bits_low by lia. rewrite Z.lnot_spec by lia. destruct (Z.testbit b n); reflexivity.
    - unfold Z.lnot. rewrite <- (Z.mod_add _ 1) by lia. unfold word in Hb. rewrite Z.mod_small; change (2 ^ 32) with 4294967296; lia. }
  destruct (Z.testbit b n), (Z.testbit (4294967295 - b) n), (Z.testbit c n), (Z.testbit d n); try discriminate; reflexivity.
Qed.
Lemma maj_eq b c d : Z.lor (Z.land (Z.lor b c) d) (Z.land b c) = Z.lxor (Z.land b c) (Z.lxor (Z.land b d) (Z.land c d)).
Proof. apply Z.bits_inj'. intros n Hn. rewrite !Z.lor_spec, !Z.lxor_spec, !Z.land_spec, !Z.lor_spec. destruct (Z.testbit b n), (Z.testbit c n), (Z.testbit d n); reflexivity. Qed.
Lemma f_eq i b c d : word b -> go_f i b c d = f_t i b c d.
Proof.
  intros Hb. unfold go_f, f_t. replace (i <=? 19)%nat with (i <? 20)%nat by lia. replace (i <=? 39)%nat with (i <? 40)%nat by lia. replace (i <=? 59)%nat with (i <? 60)%nat by lia.
  destruct (i <? 20)%nat; [apply ch_eq, Hb|]. destruct (i <? 40)%nat; [rewrite Z.lxor_assoc; reflexivity|]. destruct (i <? 60)%nat; [apply maj_eq|]. rewrite Z.lxor_assoc. reflexivity.
Qed.
Lemma k_eq i : (i < 80)%nat -> go_k i = K_t i.
Proof. intros H. unfold go_k, K_t. do 80 (destruct i as [|i]; [reflexivity|]). lia. Qed.
Lemma lxor_word x y : word x -> word y -> word (Z.lxor x y).
Proof. intros Hx Hy. apply bits_word; [apply Z.lxor_nonneg; unfold word in *; lia|]. intros n Hn. rewrite Z.lxor_spec, (high x), (high y) by assumption. reflexivity. Qed.

(** ** One block *)
Lemma be_word a b c d : 0 <= a < 256 -> 0 <= b < 256 -> 0 <= c < 256 -> 0 <= d < 256 ->
  Z.lor (Z.lor (Z.lor (Z.shiftl a 24) (Z.shiftl b 16)) (Z.shiftl c 8)) d = a * 16777216 + b * 65536 + c * 256 + d.
Proof.
  intros Ha Hb Hc Hd. rewrite !Z.shiftl_mul_pow2 by lia. change (2 ^ 24) with 16777216. change (2 ^ 16) with 65536. change (2 ^ 8) with 256.
  rewrite (lor_low 24 (a * 16777216) (b * 65536)); [|lia|change (2 ^ 24) with 16777216; apply Z.mod_mul; lia|change (2 ^ 24) with 16777216; lia].
  rewrite (lor_low 16 _ (c * 256)); [|lia|change (2 ^ 16) with 65536; replace (a * 16777216 + b * 65536) with ((a * 256 + b) * 65536) by lia; apply Z.mod_mul; lia|change (2 ^ 16) with 65536; lia].
  rewrite (lor_low 8 _ d); [|lia|change (2 ^ 8) with 256; replace (a * 16777216 + b * 65536 + c * 256) with ((a * 65536 + b * 256 + c) * 256) by lia; apply Z.mod_mul; lia|change (2 ^ 8) with 256; lia]. lia.
Qed.
Lemma four (M : bytes) i : (i + 4 <= List.length M)%nat -> firstn 4 (skipn i M) = [nth i M x00; nth (i + 1) M x00; nth (i + 2) M x00; nth (i + 3) M x00].
Proof.
  revert i. induction M as [|m M IH]; intros i H; [cbn in H; lia|]. destruct i as [|i].
  - cbn [List.length] in H. destruct M as [|m1 [|m2 [|m3 M]]]; cbn [List.length] in H; try lia. reflexivity.
  - cbn [List.length] in H. cbn [skipn nth Nat.add]. apply IH. lia.
Qed.
Lemma load_nth M t : List.length M = 64%nat -> (t < 16)%nat -> nth t (load M) 0 = value (firstn 4 (skipn (4 * t) M)).
Proof.
  intros HM Ht. rewrite four by lia. unfold load.
  rewrite (nth_indep _ 0 (load1 M 0)) by (rewrite map_length, seq_length; exact Ht).
  rewrite map_nth, seq_nth by exact Ht. cbn [Nat.add]. unfold load1, at_. rewrite be_word by apply b2z_range. cbn [value]. unfold zlen. cbn [List.length Z.of_nat Pos.of_succ_nat Pos.succ]. change (256 ^ 3) with 16777216. change (256 ^ 2) with 65536. change (256 ^ 1) with 256. change (256 ^ 0) with 1. lia.
Qed.
Lemma load_word M t : word (nth t (load M) 0).
Proof.
  destruct (nth_in_or_default t (load M) 0) as [H|E]; [|rewrite E; unfold word; lia]. unfold load in *. apply in_map_iff in H. destruct H as (i & <- & _). unfold load1, at_. rewrite be_word by apply b2z_range.
  pose proof (b2z_range (nth (4 * i) M x00)). pose proof (b2z_range (nth (4 * i + 1) M x00)). pose proof (b2z_range (nth (4 * i + 2) M x00)). pose proof (b2z_range (nth (4 * i + 3) M x00)). unfold word. lia.
Qed.
(** The schedule as a growing list. *)
Definition next (ws : list Z) : Z :=
  let t := List.length ws in rotl 1 (Z.lxor (Z.lxor (Z.lxor (nth (t - 3) ws 0) (nth (t - 8) ws 0)) (nth (t - 14) ws 0)) (nth (t - 16) ws 0)).
Fixpoint ext (n : nat) (ws : list Z) : list Z := match n with O => ws | S n' => let e := ext n' ws in e ++ [next e] end.
Definition sched (M : bytes) (t : nat) : Z := nth t (ext t (load M)) 0.
Lemma ext_len n ws : List.length (ext n ws) = (n + List.length ws)%nat.
Proof. induction n as [|n IH]; [reflexivity|]. cbn [ext]. rewrite app_length, IH. cbn. lia. Qed.
Lemma load_len M : List.length (load M) = 16%nat.
Proof. unfold load. rewrite map_length, seq_length. reflexivity. Qed.
Lemma ext_nth n ws t : (t < n + List.length ws)%nat -> forall m, (n <= m)%nat -> nth t (ext m ws) 0 = nth t (ext n ws) 0.
Proof.
  intros Ht m Hm. induction m as [|m IH]; [replace n with 0%nat by lia; reflexivity|]. destruct (Nat.eq_dec n (S m)) as [->|Hn]; [reflexivity|]. cbn [ext]. rewrite app_nth1 by (rewrite ext_len; lia). apply IH. lia.
Qed.
Lemma sched_at M t n : (t < n + 16)%nat -> nth t (ext n (load M)) 0 = sched M t.
Proof.
  intros H. unfold sched. destruct (le_ge_dec t n) as [Hl|Hl]; [apply ext_nth; [rewrite load_len; lia|exact Hl]|]. symmetry. apply ext_nth; [rewrite load_len; lia|exact Hl].
Qed.
Lemma sched_rec M t : (16 <= t)%nat -> sched M t = rotl 1 (Z.lxor (Z.lxor (Z.lxor (sched M (t - 3)) (sched M (t - 8))) (sched M (t - 14))) (sched M (t - 16))).
Proof.
  intros H. rewrite <- (sched_at M t (t - 15)) by lia. replace (t - 15)%nat with (S (t - 16)) by lia. cbn [ext]. rewrite app_nth2 by (rewrite ext_len, load_len; lia). rewrite ext_len, load_len. replace (t - (t - 16 + 16))%nat with 0%nat by lia. cbn [nth].
  unfold next. rewrite ext_len, load_len. rewrite !sched_at by lia. replace (t - 16 + 16)%nat with t by lia. reflexivity.
Qed.
Lemma sched_word M t : word (sched M t).
Proof.
  induction t as [t IH] using lt_wf_ind. destruct (le_lt_dec 16 t) as [H|H].
  - rewrite sched_rec by exact H. apply rotl_word; [lia|]. repeat apply lxor_word; apply IH; lia.
  - rewrite <- (sched_at M t 0) by lia. apply load_word.
Qed.
Lemma sched_ok M : List.length M = 64%nat -> schedule M (sched M).
Proof.
  intros HM. split.
  - intros t Ht. rewrite <- (sched_at M t 0) by lia. apply load_nth; assumption.
  - intros t Ht. rewrite sched_rec by exact Ht. rewrite rotl_ROTL by first [lia | repeat apply lxor_word; apply sched_word]. rewrite !Z.lxor_assoc. reflexivity.
Qed.
Definition list5 (v : Z * Z * Z * Z * Z) : list Z := let '(a, b, c, d, e) := v in [a; b; c; d; e].
Definition words5 (v : Z * Z * Z * Z * Z) : Prop := Forall word (list5 v).
Lemma upd_nth w i v j : (i < List.length w)%nat -> nth j (upd w i v) 0 = if Nat.eqb j i then v else nth j w 0.
Proof.
  intros H. unfold upd. destruct (Nat.eqb_spec j i) as [->|Hj].
  - rewrite app_nth2 by (rewrite firstn_length; lia). rewrite firstn_length. replace (i - Nat.min i (List.length w))%nat with 0%nat by lia. reflexivity.
  - destruct (le_lt_dec i j) as [Hl|Hl].
    + rewrite app_nth2 by (rewrite firstn_length; lia). rewrite firstn_length. replace (j - Nat.min i (List.length w))%nat with (S (j - S i)) by lia. cbn [nth]. replace j with (S i + (j - S i))%nat at 2 by lia. generalize (j - S i)%nat. clear. intros n. revert i. induction w as [|a w IH]; intros i; [destruct n, i; reflexivity|]. destruct i; [reflexivity|]. apply (IH i).
    + rewrite app_nth1 by (rewrite firstn_length; lia). clear - Hl. revert i Hl. revert j. induction w as [|a w IH]; intros j i Hl; [destruct i, j; reflexivity|]. destruct i; [lia|]. destruct j; [reflexivity|]. cbn [firstn nth]. apply IH. lia.
Qed.
Lemma upd_len w i v : (i < List.length w)%nat -> List.length (upd w i v) = List.length w.
Proof. intros H. unfold upd. rewrite app_length, firstn_length. cbn [List.length]. rewrite skipn_length. lia. Qed.
Lemma rounds_spec M : forall n i w v, (i + n <= 80)%nat -> List.length w = 16%nat -> words5 v ->
  (if (i <? 16)%nat then forall j, (j < 16)%nat -> nth j w 0 = sched M j else forall j, (i - 16 <= j < i)%nat -> ring w j = sched M j) ->
  list5 (rounds n i w v) = fold_left (round (sched M)) (seq i n) (list5 v) /\ words5 (rounds n i w v).
Proof.
  induction n as [|n IH]; intros i w v Hi Hw Hv Hr; [split; [reflexivity|exact Hv]|]. destruct v as [[[[a b] c] d] e]. cbn [rounds seq fold_left].
  set (w' := if (i <? 16)%nat then w else _).
  assert (Hw' : List.length w' = 16%nat) by (unfold w'; destruct (i <? 16)%nat; [exact Hw|rewrite upd_len; [exact Hw|rewrite Hw; apply Nat.mod_upper_bound; lia]]).
  assert (Hr' : ring w' i = sched M i /\ if (S i <? 16)%nat then forall j, (j < 16)%nat -> nth j w' 0 = sched M j else forall j, (S i - 16 <= j < S i)%nat -> ring w' j = sched M j).
  { unfold w'. destruct (Nat.ltb_spec i 16) as [Hl|Hl].
    - split; [unfold ring; rewrite Nat.mod_small by lia; apply Hr; exact Hl|]. destruct (S i <? 16)%nat; [exact Hr|]. intros j Hj. unfold ring. rewrite Nat.mod_small by lia. apply Hr. lia.
    - assert (Hm : (i mod 16 < List.length w)%nat) by (rewrite Hw; apply Nat.mod_upper_bound; lia).
      assert (Hi' : ring w i = sched M (i - 16)) by (rewrite <- Hr by lia; unfold ring; f_equal; replace i with ((i - 16) + 1 * 16)%nat at 1 by lia; apply Nat.mod_add; lia).
      replace (S i <? 16)%nat with false by lia.
      assert (Hn : forall j, (S i - 16 <= j < S i)%nat -> ring (upd w (i mod 16) (rotl 1 (Z.lxor (Z.lxor (Z.lxor (ring w (i - 3)) (ring w (i - 8))) (ring w (i - 14))) (ring w i)))) j = sched M j).
      { intros j Hj. unfold ring at 1. rewrite upd_nth by exact Hm. destruct (Nat.eqb_spec (j mod 16) (i mod 16)) as [E|E].
        - assert (j = i) by (pose proof (Nat.div_mod j 16 ltac:(lia)); pose proof (Nat.div_mod i 16 ltac:(lia)); lia). subst j. rewrite Hi', !Hr by lia. symmetry. apply sched_rec. exact Hl.
        - apply Hr. assert (j <> i) by (intros ->; apply E; reflexivity). lia. }
      split; [apply Hn; lia|exact Hn]. }
  destruct Hr' as [Hri Hr']. unfold words5, list5 in Hv. apply Forall_cons_iff in Hv. destruct Hv as [Ha Hv]. apply Forall_cons_iff in Hv. destruct Hv as [Hb Hv]. apply Forall_cons_iff in Hv. destruct Hv as [Hc Hv]. apply Forall_cons_iff in Hv. destruct Hv as [Hd Hv].
  cbv zeta. specialize (IH (S i) w' (u32 (rotl 5 a + go_f i b c d + e + ring w' i + go_k i), a, rotl 30 b, c, d) ltac:(lia) Hw').
  destruct IH as [IH1 IH2]; [|exact Hr'|].
  { unfold words5, list5. repeat (apply Forall_cons || apply Forall_nil); try assumption; [apply u32_word|apply rotl_word; [lia|assumption]]. }
  split; [|exact IH2]. rewrite IH1. f_equal. cbn [list5 round]. rewrite Hri. rewrite (rotl_ROTL 5), (rotl_ROTL 30), f_eq, k_eq by (assumption || lia). unfold u32, W32. do 2 f_equal. lia.
Qed.
Lemma add5_spec x y : list5 (add5 x y) = sums (list5 x) (list5 y).
Proof. destruct x as [[[[a b] c] d] e], y as [[[[a' b'] c'] d'] e']. reflexivity. Qed.
Lemma add5_words x y : words5 (add5 x y).
Proof. destruct x as [[[[a b] c] d] e], y as [[[[a' b'] c'] d'] e']. unfold words5. cbn [list5 add5]. repeat (apply Forall_cons || apply Forall_nil); apply u32_word. Qed.
Lemma block1_spec h M : words5 h -> list5 (block1 h M) = sums (list5 h) (fold_left (round (sched M)) (seq 0 80) (list5 h)) /\ words5 (block1 h M).
Proof.
  intros Hh. unfold block1. rewrite add5_spec. split; [|apply add5_words]. f_equal. apply (rounds_spec M 80 0); [lia|apply load_len|exact Hh|]. intros j Hj. rewrite <- (sched_at M j 0) by lia. reflexivity.
Qed.
Lemma block_spec : forall n h p, words5 h -> List.length p = (64 * n)%nat -> hashes_to (list5 h) p (list5 (block n h p)) /\ words5 (block n h p).
Proof.
  induction n as [|n IH]; intros h p Hh Hp.
  - destruct p; [|cbn in Hp; lia]. split; [apply h_done|exact Hh].
  - cbn [block]. destruct (block1_spec h (firstn 64 p) Hh) as [H1 H2]. destruct (IH _ (skipn 64 p) H2) as [H3 H4]; [rewrite skipn_length; lia|]. split; [|exact H4].
    rewrite <- (firstn_skipn 64 p) at 1. assert (Hl : List.length (firstn 64 p) = 64%nat) by (rewrite firstn_length; lia). apply (h_block _ _ (sched (firstn 64 p))); [exact Hl|apply sched_ok, Hl|]. rewrite <- H1. exact H3.
Qed.

(** ** Writes *)
Definition holds (m : bytes) (d : digest) : Prop :=
  exists M n, m = M ++ dg_x d /\ List.length M = (64 * n)%nat /\ (List.length (dg_x d) < 64)%nat /\ dg_h d = block n sha_init M /\ dg_len d = u64 (zlen m).
Lemma block_app : forall n k h p q, List.length p = (64 * n)%nat -> block (n + k) h (p ++ q) = block k (block n h p) q.
Proof.
  induction n as [|n IH]; intros k h p q Hp; [destruct p; [reflexivity|cbn in Hp; lia]|]. cbn [Nat.add block]. rewrite firstn_app, skipn_app. replace (64 - List.length p)%nat with 0%nat by lia. rewrite firstn_O, skipn_O, app_nil_r. apply IH. rewrite skipn_length. lia.
Qed.
Lemma second M n p len : List.length M = (64 * n)%nat -> len = u64 (zlen (M ++ p)) ->
  holds (M ++ p) (let '(h, p) := if (64 <=? List.length p)%nat then let n' := (List.length p / 64)%nat in (block n' (block n sha_init M) (firstn (64 * n') p), skipn (64 * n') p) else (block n sha_init M, p) in
                  mkdig h (match p with [] => [] | _ => p end) len).
Proof.
  intros HM Hl. destruct (Nat.leb_spec 64 (List.length p)) as [H|H].
  - cbv beta iota zeta. set (k := (List.length p / 64)%nat) in *. pose proof (Nat.div_mod (List.length p) 64 ltac:(lia)) as Hd. fold k in Hd. pose proof (Nat.mod_upper_bound (List.length p) 64 ltac:(lia)) as Hm.
    assert (Er : forall l : bytes, match l with [] => [] | _ :: _ => l end = l) by (intros []; reflexivity). rewrite Er.
    exists (M ++ firstn (64 * k) p), (n + k)%nat. cbn [dg_h dg_x dg_len]. rewrite <- app_assoc, firstn_skipn. split; [reflexivity|]. split; [rewrite app_length, firstn_length; lia|]. split; [rewrite skipn_length; lia|]. split; [|exact Hl].
    symmetry. apply block_app, HM.
  - cbv beta iota zeta. assert (Er : forall l : bytes, match l with [] => [] | _ :: _ => l end = l) by (intros []; reflexivity). rewrite Er. exists M, n. cbn [dg_h dg_x dg_len]. repeat split; assumption.
Qed.
Lemma u64_add a b : u64 (u64 a + b) = u64 (a + b).
Proof. unfold u64. rewrite Zplus_mod_idemp_l. reflexivity. Qed.
Lemma zlen_app2 (a b : bytes) : zlen (a ++ b) = zlen a + zlen b.
Proof. unfold zlen. rewrite app_length. lia. Qed.
Lemma write_holds m d p : holds m d -> holds (m ++ p) (sha_Write d p).
Proof.
  intros (M & n & Hm & HM & Hx & Hh & Hl). unfold sha_Write. rewrite Hl, u64_add, <- zlen_app2. destruct (dg_x d) as [|b x] eqn:Ex.
  - rewrite app_nil_r in Hm. subst m. rewrite Hh. apply second; [exact HM|reflexivity].
  - rewrite <- Ex in *. assert (Hn : dg_x d <> []) by (rewrite Ex; discriminate). clear Ex b x. set (x := dg_x d) in *. set (k := Nat.min (64 - List.length x) (List.length p)). cbv zeta.
    destruct (Nat.eqb_spec (List.length (x ++ firstn k p)) 64) as [E|E].
    + rewrite Hh. replace (block 1 (block n sha_init M) (x ++ firstn k p)) with (block (n + 1) sha_init (M ++ x ++ firstn k p)) by (apply block_app, HM).
      replace (m ++ p) with ((M ++ x ++ firstn k p) ++ skipn k p) by (subst m; rewrite <- !app_assoc, firstn_skipn; reflexivity). apply second; [rewrite app_length, HM, E; lia|reflexivity].
    + rewrite app_length, firstn_length in E. assert (Hk : k = List.length p) by (unfold k in *; lia). rewrite Hk, skipn_all, firstn_all. cbn [List.length Nat.leb]. exists M, n. cbn [dg_h dg_x dg_len]. subst m. rewrite <- app_assoc. split; [reflexivity|].
      split; [exact HM|]. split; [rewrite app_length; unfold k in *; lia|]. auto.
Qed.
Lemma new_holds : holds [] sha_New.
Proof. exists [], 0%nat. cbn. repeat split. lia. Qed.
Lemma writes_hold ps : forall m d, holds m d -> holds (m ++ List.concat ps) (fold_left sha_Write ps d).
Proof. induction ps as [|p ps IH]; intros m d H; cbn [List.concat fold_left]; [rewrite app_nil_r; exact H|]. rewrite app_assoc. apply IH, write_holds, H. Qed.
(** A digest is determined by the bytes written. *)
Lemma holds_unique m d d' : holds m d -> holds m d' -> d = d'.
Proof.
  intros (M & n & Hm & HM & Hx & Hh & Hl) (M' & n' & Hm' & HM' & Hx' & Hh' & Hl').
  assert (Hlen : (List.length M + List.length (dg_x d) = List.length M' + List.length (dg_x d'))%nat) by (rewrite <- !app_length, <- Hm, <- Hm'; reflexivity).
  assert (n = n') by lia. subst n'. assert (M = M' /\ dg_x d = dg_x d').
  { assert (E : M ++ dg_x d = M' ++ dg_x d') by (rewrite <- Hm; exact Hm'). pose proof (f_equal (firstn (64 * n)) E) as E1. pose proof (f_equal (skipn (64 * n)) E) as E2.
    rewrite !firstn_app, !skipn_app, HM, HM', Nat.sub_diag, !firstn_O, !skipn_O, !app_nil_r in *. rewrite <- HM in E1 at 1. rewrite <- HM' in E1. rewrite !firstn_all in E1. rewrite <- HM in E2 at 1. rewrite <- HM' in E2. rewrite !skipn_all in E2. auto. }
  destruct H as [-> Hxx]. destruct d, d'. cbn in *. congruence.
Qed.

(** ** Padding *)
Definition pad_len (l : Z) : nat := if l mod 64 <? 56 then Z.to_nat (55 - l mod 64) else Z.to_nat (119 - l mod 64).
Definition pad_bytes (l : Z) : bytes := [x80] ++ repeat x00 (pad_len l) ++ be64 (u64 (u64 l * 8)).
Lemma firstn_repeat {A} (x : A) n m : firstn n (repeat x m) = repeat x (Nat.min n m).
Proof. revert m. induction n as [|n IH]; intros [|m]; cbn; try reflexivity. f_equal. apply IH. Qed.
Lemma u64_mod64 l : u64 l mod 64 = l mod 64.
Proof. unfold u64. symmetry. apply Zmod_div_mod; [lia|lia|]. exists (288230376151711744). reflexivity. Qed.
Lemma pad_holds m d : holds m d -> holds (m ++ pad_bytes (zlen m)) (sha_pad d).
Proof.
  intros H. pose proof H as (M & n & _ & _ & _ & _ & Hl). unfold sha_pad. rewrite Hl, u64_mod64. cbv zeta.
  assert (Hm : 0 <= zlen m mod 64 < 64) by (apply Z.mod_pos_bound; lia). unfold pad_bytes, pad_len. destruct (zlen m mod 64 <? 56) eqn:E.
  - replace (firstn (Z.to_nat (56 - zlen m mod 64)) (x80 :: repeat x00 63)) with ([x80] ++ repeat x00 (Z.to_nat (55 - zlen m mod 64))).
    + rewrite (app_assoc [x80]), (app_assoc m). apply write_holds, write_holds, H.
    + replace (Z.to_nat (56 - zlen m mod 64)) with (S (Z.to_nat (55 - zlen m mod 64))) by lia. cbn [firstn app]. rewrite firstn_repeat. do 2 f_equal. lia.
  - replace (firstn (Z.to_nat (64 + 56 - zlen m mod 64)) ((x80 :: repeat x00 63) ++ repeat x00 64)) with ([x80] ++ repeat x00 (Z.to_nat (119 - zlen m mod 64))).
    + rewrite (app_assoc [x80]), (app_assoc m). apply write_holds, write_holds, H.
    + replace (Z.to_nat (64 + 56 - zlen m mod 64)) with (S (Z.to_nat (119 - zlen m mod 64))) by lia. cbn [app firstn]. rewrite <- repeat_app, firstn_repeat. do 2 f_equal. lia.
Qed.
Lemma be64_len z : List.length (be64 z) = 8%nat.
Proof. reflexivity. Qed.
Lemma pad_whole m : exists q, List.length (m ++ pad_bytes (zlen m)) = (64 * q)%nat.
Proof.
  unfold pad_bytes, pad_len. rewrite !app_length, repeat_length, be64_len. cbn [List.length]. pose proof (Z.div_mod (zlen m) 64 ltac:(lia)) as Hd. assert (Hm : 0 <= zlen m mod 64 < 64) by (apply Z.mod_pos_bound; lia). assert (0 <= zlen m / 64) by (apply Z.div_pos; unfold zlen; lia).
  destruct (zlen m mod 64 <? 56) eqn:E; [exists (Z.to_nat (zlen m / 64 + 1))|exists (Z.to_nat (zlen m / 64 + 2))]; unfold zlen in *; lia.
Qed.
Lemma pad_done m d : holds m d -> dg_x (sha_pad d) = [] /\ exists q, List.length (m ++ pad_bytes (zlen m)) = (64 * q)%nat /\ dg_h (sha_pad d) = block q sha_init (m ++ pad_bytes (zlen m)).
Proof.
  intros H. apply pad_holds in H. destruct H as (M & n & Hm & HM & Hx & Hh & _). destruct (pad_whole m) as (q & Hq).
  assert (Hx0 : dg_x (sha_pad d) = []). { rewrite Hm, app_length in Hq. destruct (dg_x (sha_pad d)); [reflexivity|]. cbn [List.length] in *. lia. }
  split; [exact Hx0|]. exists n. rewrite Hx0, app_nil_r in Hm. rewrite Hm. auto.
Qed.
Definition out (v : Z * Z * Z * Z * Z) : bytes := let '(a, b, c, e, f) := v in be32 a ++ be32 b ++ be32 c ++ be32 e ++ be32 f.
Lemma sum_holds m d : holds m d -> exists q, List.length (m ++ pad_bytes (zlen m)) = (64 * q)%nat /\ sha_Sum d = out (block q sha_init (m ++ pad_bytes (zlen m))).
Proof. intros H. destruct (pad_done m d H) as (_ & q & Hq & Hh). exists q. split; [exact Hq|]. unfold sha_Sum. rewrite Hh. reflexivity. Qed.
Lemma sum_length d : List.length (sha_Sum d) = 20%nat.
Proof. unfold sha_Sum. destruct (dg_h (sha_pad d)) as [[[[a b] c] e] f]. reflexivity. Qed.

(** ** The standard *)
Lemma value_app a b : value (a ++ b) = value a * 256 ^ zlen b + value b.
Proof. induction a as [|x a IH]; cbn [app value]; [lia|]. rewrite IH, zlen_app2, Z.pow_add_r by (unfold zlen; lia). lia. Qed.
Lemma value_be32 w : value (be32 w) = u32 w.
Proof.
  unfold be32. cbn [value]. unfold zlen. cbn [List.length Z.of_nat Pos.of_succ_nat Pos.succ]. rewrite !b2z_z2b. change (256 ^ 3) with 16777216. change (256 ^ 2) with 65536. change (256 ^ 1) with 256. change (256 ^ 0) with 1. unfold u32.
  pose proof (Z.div_mod w 4294967296 ltac:(lia)). pose proof (Z.mod_pos_bound w 4294967296 ltac:(lia)). lia.
Qed.
Lemma value_be64 z : 0 <= z < 18446744073709551616 -> value (be64 z) = z.
Proof.
  intros H. unfold be64. rewrite value_app, !value_be32. change (256 ^ zlen (be32 z)) with 4294967296. unfold u32. rewrite (Z.mod_small (z / 4294967296)); [|split; [apply Z.div_pos; lia|apply Z.div_lt_upper_bound; lia]]. pose proof (Z.div_mod z 4294967296 ltac:(lia)). lia.
Qed.
Lemma value_range b : 0 <= value b < 256 ^ zlen b.
Proof.
  induction b as [|x b IH]; cbn [value]; [change (zlen (@nil byte)) with 0; lia|]. pose proof (b2z_range x). replace (zlen (x :: b)) with (1 + zlen b) by (unfold zlen; cbn [List.length]; lia). rewrite Z.pow_add_r by (unfold zlen; lia). change (256 ^ 1) with 256. nia.
Qed.
Lemma value_inj : forall a b, List.length a = List.length b -> value a = value b -> a = b.
Proof.
  induction a as [|x a IH]; intros [|y b] Hl E; try discriminate; [reflexivity|]. cbn [value] in E. injection Hl as Hl. assert (Hz : zlen a = zlen b) by (unfold zlen; lia). rewrite Hz in E. pose proof (value_range a). pose proof (value_range b). rewrite Hz in H.
  assert (Hx : b2z x = b2z y) by nia. apply b2z_inj in Hx. subst y. f_equal. apply IH; [exact Hl|]. lia.
Qed.
Lemma words_init : words5 sha_init.
Proof. unfold words5, sha_init. cbn [list5]. repeat (apply Forall_cons || apply Forall_nil); unfold word; lia. Qed.
Lemma out_values v i : words5 v -> (i < 5)%nat -> value (firstn 4 (skipn (4 * i) (out v))) = nth i (list5 v) 0.
Proof.
  destruct v as [[[[a b] c] d] e]. intros Hv Hi. unfold words5 in Hv. cbn [list5] in *. repeat (apply Forall_cons_iff in Hv; destruct Hv as [? Hv]). unfold word in *.
  do 5 (destruct i as [|i]; [cbn [nth Nat.mul Nat.add]; unfold out; match goal with |- value ?x = ?y => change x with (be32 y) end; rewrite value_be32; apply Z.mod_small; assumption|]). lia.
Qed.
Lemma standard_sum m d : holds m d -> zlen m < 2305843009213693952 -> sha1_of m (sha_Sum d).
Proof.
  intros H Hs. destruct (sum_holds m d H) as (q & Hq & E). rewrite E. pose proof (block_spec q sha_init (m ++ pad_bytes (zlen m)) words_init Hq) as [Hb Hw].
  exists (m ++ pad_bytes (zlen m)), (list5 (block q sha_init (m ++ pad_bytes (zlen m)))). split; [|split; [exact Hb|split; [destruct (block q sha_init _) as [[[[a b] c] e] f]; reflexivity|]]].
  - exists (pad_len (zlen m)), (be64 (u64 (u64 (zlen m) * 8))). assert (Hm : 0 <= zlen m mod 64 < 64) by (apply Z.mod_pos_bound; lia). split; [reflexivity|]. split; [unfold pad_len; destruct (_ <? _) eqn:El; lia|]. split; [apply be64_len|]. split; [|exists q; exact Hq].
    assert (0 <= zlen m) by (unfold zlen; lia). unfold u64. rewrite (Z.mod_small (zlen m)) by lia. rewrite Z.mod_small by lia. rewrite value_be64 by lia. lia.
  - intros i Hi. apply out_values; assumption.
Qed.
Lemma padded_unique m p p' : padded m p -> padded m p' -> p = p'.
Proof.
  intros (k & l & -> & Hk & Hl & Hv & q & Hq) (k' & l' & -> & Hk' & Hl' & Hv' & q' & Hq'). rewrite !app_length, repeat_length in Hq, Hq'. cbn [List.length] in *. assert (k = k') by lia. subst k'. rewrite (value_inj l l') by congruence. reflexivity.
Qed.
Lemma schedule_unique M W W' : schedule M W -> schedule M W' -> forall t, W t = W' t.
Proof.
  intros [H1 H2] [H1' H2'] t. induction t as [t IH] using lt_wf_ind. destruct (le_lt_dec 16 t) as [H|H]; [rewrite H2, H2' by exact H; rewrite !IH by lia; reflexivity|]. rewrite H1, H1' by exact H. reflexivity.
Qed.
Lemma round_ext W W' : (forall t, W t = W' t) -> forall l v, fold_left (round W) l v = fold_left (round W') l v.
Proof.
  intros H. induction l as [|t l IH]; intros v; [reflexivity|]. cbn [fold_left]. rewrite IH. f_equal. unfold round. destruct v as [|? [|? [|? [|? [|? [|]]]]]]; try reflexivity. rewrite H. reflexivity.
Qed.
Lemma hashes_unique H p X : hashes_to H p X -> forall Y, hashes_to H p Y -> X = Y.
Proof.
  induction 1 as [H|H M W rest X HM HW Hr IH]; intros Y HY.
  - inversion HY; subst; [reflexivity|]. destruct M; [discriminate|]. match goal with E : _ ++ _ = [] |- _ => discriminate E end.
  - inversion HY as [H' E1 E2 E3|H' M' W' rest' Y' HM' HW' Hr' E1 E2 E3]; subst.
    + destruct M; [discriminate|]. match goal with E : [] = _ |- _ => discriminate E | E : _ ++ _ = [] |- _ => discriminate E end.
    + assert (M' = M /\ rest' = rest) as [-> ->].
      { pose proof (f_equal (firstn 64) E2) as F1. pose proof (f_equal (skipn 64) E2) as F2. rewrite !firstn_app, !skipn_app, HM, HM', Nat.sub_diag, !firstn_O, !skipn_O, !app_nil_r in *. rewrite <- HM' in F1 at 1. rewrite <- HM in F1. rewrite !firstn_all in F1. rewrite <- HM' in F2 at 1. rewrite <- HM in F2. rewrite !skipn_all in F2. auto. }
      apply IH. rewrite (round_ext W W') by (apply (schedule_unique M); assumption). exact Hr'.
Qed.
Lemma five (a b : bytes) : List.length a = 20%nat -> List.length b = 20%nat -> (forall i, (i < 5)%nat -> value (firstn 4 (skipn (4 * i) a)) = value (firstn 4 (skipn (4 * i) b))) -> a = b.
Proof.
  intros Ha Hb H. assert (K : forall i, (i < 5)%nat -> firstn 4 (skipn (4 * i) a) = firstn 4 (skipn (4 * i) b)) by (intros i Hi; apply value_inj; [rewrite !firstn_length, !skipn_length; lia|apply H, Hi]).
  assert (S : forall l : bytes, List.length l = 20%nat -> l = firstn 4 (skipn (4 * 0) l) ++ firstn 4 (skipn (4 * 1) l) ++ firstn 4 (skipn (4 * 2) l) ++ firstn 4 (skipn (4 * 3) l) ++ firstn 4 (skipn (4 * 4) l)).
  { intros l Hl. do 20 (destruct l as [|? l]; [cbn in Hl; lia|]). destruct l; [reflexivity|cbn in Hl; lia]. }
  rewrite (S a Ha), (S b Hb), !K by lia. reflexivity.
Qed.
Lemma standard_unique m a b : sha1_of m a -> sha1_of m b -> a = b.
Proof.
  intros (p & H & Hp & Hh & Hl & Hv) (p' & H' & Hp' & Hh' & Hl' & Hv'). rewrite (padded_unique m p' p Hp' Hp) in Hh'. rewrite (hashes_unique _ _ _ Hh _ Hh') in Hv. apply five; [exact Hl|exact Hl'|]. intros i Hi. rewrite Hv, Hv' by exact Hi. reflexivity.
Qed.
