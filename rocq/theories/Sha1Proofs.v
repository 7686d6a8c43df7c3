(** Sha1Proofs.v: the SHA-1 of Sha1.v, on which the project's own torrents are run, is the one of the standard. *)
From Coq Require Import ZifyBool ZifyNat ZifyN NArith Lia.
From Verif Require Import Base ShaModel ShaSpec ShaProofs.
From Verif Require Sha1.

Lemma of_lor a b : Z.of_N (N.lor a b) = Z.lor (Z.of_N a) (Z.of_N b).
Proof. destruct a, b; reflexivity. Qed.
Lemma of_land a b : Z.of_N (N.land a b) = Z.land (Z.of_N a) (Z.of_N b).
Proof. destruct a, b; reflexivity. Qed.
Lemma of_lxor a b : Z.of_N (N.lxor a b) = Z.lxor (Z.of_N a) (Z.of_N b).
Proof. destruct a, b; reflexivity. Qed.
Lemma of_shiftl a k : Z.of_N (N.shiftl a k) = Z.shiftl (Z.of_N a) (Z.of_N k).
Proof. rewrite N.shiftl_mul_pow2, Z.shiftl_mul_pow2 by lia. rewrite N2Z.inj_mul, N2Z.inj_pow. reflexivity. Qed.
Lemma of_shiftr a k : Z.of_N (N.shiftr a k) = Z.shiftr (Z.of_N a) (Z.of_N k).
Proof. rewrite N.shiftr_div_pow2, Z.shiftr_div_pow2 by lia. rewrite N2Z.inj_div, N2Z.inj_pow. reflexivity. Qed.
Lemma of_w32 x : Z.of_N (Sha1.w32 x) = u32 (Z.of_N x).
Proof. unfold Sha1.w32, u32. rewrite of_land. change (Z.of_N 4294967295) with (Z.ones 32). rewrite Z.land_ones by lia. reflexivity. Qed.
Lemma of_rotl k x : (k <= 32)%N -> Z.of_N (Sha1.rotl k x) = rotl (Z.of_N k) (Z.of_N x).
Proof. intros H. unfold Sha1.rotl, rotl. rewrite of_lor, of_w32, of_shiftl, of_shiftr, N2Z.inj_sub by exact H. reflexivity. Qed.
Lemma of_byte b : Z.of_N (Byte.to_N b) = b2z b.
Proof. reflexivity. Qed.
Lemma of_word a b c d : Z.of_N (Sha1.word a b c d) = value [a; b; c; d].
Proof.
  unfold Sha1.word. rewrite !of_lor, !of_shiftl, !of_byte. change (Z.of_N 24) with 24. change (Z.of_N 16) with 16. change (Z.of_N 8) with 8. rewrite !Z.lor_assoc, be_word by apply b2z_range. cbn [value]. change (256 ^ zlen [b; c; d]) with 16777216. change (256 ^ zlen [c; d]) with 65536. change (256 ^ zlen [d]) with 256. change (256 ^ zlen []) with 1. lia.
Qed.
Lemma minus_lnot b : word b -> 4294967295 - b = Z.lnot b mod 2 ^ 32.
Proof. intros Hb. unfold Z.lnot. rewrite <- (Z.mod_add _ 1) by lia. unfold word in Hb. rewrite Z.mod_small; change (2 ^ 32) with 4294967296; lia. Qed.
Lemma ft_eq t b c d : word (Z.of_N b) -> word (Z.of_N d) -> Z.of_N (Sha1.ft t b c d) = f_t t (Z.of_N b) (Z.of_N c) (Z.of_N d).
Proof.
  intros Hb Hd. unfold Sha1.ft, f_t. replace (t <=? 19)%nat with (t <? 20)%nat by lia. replace (t <=? 39)%nat with (t <? 40)%nat by lia. replace (t <=? 59)%nat with (t <? 60)%nat by lia.
  destruct (t <? 20)%nat; [|destruct (t <? 40)%nat; [|destruct (t <? 60)%nat]]; rewrite ?of_lxor, ?of_lor, ?of_land, ?of_lxor, ?of_lor; try reflexivity.
  - rewrite <- ch_eq by exact Hb. rewrite minus_lnot by exact Hb. apply Z.bits_inj'. intros n Hn. rewrite Z.lxor_spec, Z.land_spec, Z.lxor_spec, Z.lor_spec, !Z.land_spec.
    destruct (Z_lt_ge_dec n 32) as [L|L].
    + rewrite Z.mod_pow2_bits_low, Z.lnot_spec by lia. destruct (Z.testbit (Z.of_N b) n), (Z.testbit (Z.of_N c) n), (Z.testbit (Z.of_N d) n); reflexivity.
    + rewrite (high (Z.of_N b)), (high (Z.of_N d)) by (assumption || lia). rewrite andb_false_r. reflexivity.
  - rewrite <- maj_eq. apply Z.bits_inj'. intros n Hn. rewrite !Z.lor_spec, !Z.land_spec, !Z.lor_spec. destruct (Z.testbit (Z.of_N b) n), (Z.testbit (Z.of_N c) n), (Z.testbit (Z.of_N d) n); reflexivity.
Qed.
Lemma kt_eq t : (t < 80)%nat -> Z.of_N (Sha1.kt t) = K_t t.
Proof. intros H. rewrite <- k_eq by exact H. unfold Sha1.kt, go_k. destruct (t <? 20)%nat, (t <? 40)%nat, (t <? 60)%nat; reflexivity. Qed.
Definition zs (s : Sha1.hstate) : list Z := [Z.of_N (Sha1.ha s); Z.of_N (Sha1.hb s); Z.of_N (Sha1.hc s); Z.of_N (Sha1.hd s); Z.of_N (Sha1.he s)].
Lemma nth_tl {A} (l : list A) x d j : nth j (tl l ++ [x]) d = if Nat.eqb (S j) (List.length l) then x else if Nat.eqb j 0 && Nat.eqb (List.length l) 0 then x else nth (S j) l d.
Proof.
  destruct l as [|a l]; cbn [tl app List.length]; [destruct j as [|[|j]]; reflexivity|]. rewrite andb_false_r. destruct (Nat.eqb_spec (S j) (S (List.length l))) as [E|E].
  - rewrite app_nth2 by lia. replace (j - List.length l)%nat with 0%nat by lia. reflexivity.
  - destruct (Nat.lt_ge_cases j (List.length l)); [rewrite app_nth1 by assumption; reflexivity|]. rewrite !nth_overflow; cbn [List.length]; rewrite ?app_length; cbn; try lia. reflexivity.
Qed.
Lemma rounds_std M : forall k t w s, (t + k <= 80)%nat -> List.length w = 16%nat -> Forall word (zs s) -> (forall j, (j < 16)%nat -> Z.of_N (nth j w 0%N) = sched M (t + j)) ->
  zs (Sha1.rounds k t w s) = fold_left (round (sched M)) (seq t k) (zs s).
Proof.
  induction k as [|k IH]; intros t w s Hk Hw Hs Hr; [reflexivity|]. cbn [Sha1.rounds seq fold_left]. cbv zeta.
  unfold zs in Hs. apply Forall_cons_iff in Hs. destruct Hs as [Ha Hs]. apply Forall_cons_iff in Hs. destruct Hs as [Hb Hs]. apply Forall_cons_iff in Hs. destruct Hs as [Hc Hs]. apply Forall_cons_iff in Hs. destruct Hs as [Hd Hs].
  assert (E5 : Z.of_N (Sha1.rotl 5 (Sha1.ha s)) = ROTL 5 (Z.of_N (Sha1.ha s))) by (rewrite of_rotl by lia; apply rotl_ROTL; [cbn; lia|exact Ha]).
  assert (E30 : Z.of_N (Sha1.rotl 30 (Sha1.hb s)) = ROTL 30 (Z.of_N (Sha1.hb s))) by (rewrite of_rotl by lia; apply rotl_ROTL; [cbn; lia|exact Hb]).
  rewrite IH.
  - f_equal. unfold zs at 1. cbn [Sha1.ha Sha1.hb Sha1.hc Sha1.hd Sha1.he]. unfold zs. cbn [round]. rewrite E30. f_equal. rewrite of_w32, !N2Z.inj_add, E5, ft_eq, kt_eq, Hr by (assumption || lia). rewrite Nat.add_0_r. reflexivity.
  - lia.
  - destruct w as [|x w]; [discriminate|]. cbn [tl]. rewrite app_length. cbn in *. lia.
  - unfold zs. cbn [Sha1.ha Sha1.hb Sha1.hc Sha1.hd Sha1.he]. repeat (apply Forall_cons || apply Forall_nil); try assumption; [rewrite of_w32; apply u32_word|rewrite of_rotl by lia; apply rotl_word; [cbn; lia|exact Hb]].
  - intros j Hj. rewrite nth_tl, Hw. destruct (Nat.eqb_spec (S j) 16) as [E|E].
    + unfold Sha1.next_word. rewrite of_rotl, !of_lxor, !Hr by lia. rewrite (sched_rec M (S t + j)) by lia. change (Z.of_N 1) with 1. f_equal. replace (S t + j - 3)%nat with (t + 13)%nat by lia. replace (S t + j - 8)%nat with (t + 8)%nat by lia. replace (S t + j - 14)%nat with (t + 2)%nat by lia. replace (S t + j - 16)%nat with (t + 0)%nat by lia. rewrite !Z.lxor_assoc. reflexivity.
    + rewrite andb_false_r. rewrite Hr by lia. f_equal. lia.
Qed.
Lemma words_app a b : (exists k, List.length a = (4 * k)%nat) -> Sha1.words (a ++ b) = Sha1.words a ++ Sha1.words b.
Proof.
  intros [k Hk]. revert a Hk. induction k as [|k IH]; intros a Hk; [destruct a; [reflexivity|discriminate]|]. destruct a as [|x [|y [|z [|u a]]]]; cbn in Hk; try lia. cbn [app Sha1.words]. rewrite IH by lia. reflexivity.
Qed.
Lemma words_len k : forall a, List.length a = (4 * k)%nat -> List.length (Sha1.words a) = k.
Proof. induction k as [|k IH]; intros a Hk; [destruct a; [reflexivity|discriminate]|]. destruct a as [|x [|y [|z [|u a]]]]; cbn in Hk; try lia. cbn [Sha1.words List.length]. rewrite IH by lia. reflexivity. Qed.
Lemma words_nth k : forall a j, List.length a = (4 * k)%nat -> (j < k)%nat -> Z.of_N (nth j (Sha1.words a) 0%N) = value (firstn 4 (skipn (4 * j) a)).
Proof.
  induction k as [|k IH]; intros a j Hk Hj; [lia|]. destruct a as [|x [|y [|z [|u a]]]]; cbn in Hk; try lia. destruct j as [|j].
  - cbn [Sha1.words nth]. rewrite of_word. reflexivity.
  - replace (4 * S j)%nat with (S (S (S (S (4 * j))))) by lia. cbn [Sha1.words nth skipn]. apply IH; lia.
Qed.
Lemma block_std s M : List.length M = 64%nat -> Forall word (zs s) -> zs (Sha1.block s (Sha1.words M)) = sums (zs s) (fold_left (round (sched M)) (seq 0 80) (zs s)) /\ Forall word (zs (Sha1.block s (Sha1.words M))).
Proof.
  intros HM Hs. unfold Sha1.block. cbv zeta. split.
  - rewrite <- (rounds_std M 80 0 (Sha1.words M) s); [|lia|apply words_len; exact HM|exact Hs|].
    + generalize (Sha1.rounds 80 0 (Sha1.words M) s). intros r. unfold zs at 1. cbn [Sha1.ha Sha1.hb Sha1.hc Sha1.hd Sha1.he]. rewrite !of_w32, !N2Z.inj_add. reflexivity.
    + intros j Hj. cbn [Nat.add]. rewrite (words_nth 16) by assumption. rewrite <- (sched_at M j 0) by lia. symmetry. apply load_nth; assumption.
  - unfold zs. cbn [Sha1.ha Sha1.hb Sha1.hc Sha1.hd Sha1.he]. repeat (apply Forall_cons || apply Forall_nil); rewrite of_w32; apply u32_word.
Qed.
Lemma blocks_std : forall n s p, List.length p = (64 * n)%nat -> Forall word (zs s) -> hashes_to (zs s) p (zs (Sha1.blocks n s (Sha1.words p))) /\ Forall word (zs (Sha1.blocks n s (Sha1.words p))).
Proof.
  induction n as [|n IH]; intros s p Hp Hs; [destruct p; [split; [constructor|exact Hs]|discriminate]|]. cbn [Sha1.blocks].
  rewrite <- (firstn_skipn 64 p). set (M := firstn 64 p). set (r := skipn 64 p). assert (HM : List.length M = 64%nat) by (unfold M; rewrite firstn_length; lia). assert (Hr : List.length r = (64 * n)%nat) by (unfold r; rewrite skipn_length; lia).
  rewrite words_app by (exists 16%nat; exact HM). pose proof (words_len 16 M HM) as HW.
  rewrite firstn_app, skipn_app, HW, Nat.sub_diag, firstn_O, skipn_O, app_nil_r, firstn_all2, skipn_all2 by lia. cbn [app].
  destruct (block_std s M HM Hs) as [E W]. destruct (IH _ r Hr W) as [A C]. split; [|exact C]. apply (h_block _ M (sched M)); [exact HM|apply sched_ok; exact HM|]. rewrite <- E. exact A.
Qed.
(** ** Numbers in bytes *)
Lemma be_bytes_S k z : Sha1.be_bytes (S k) z = z2b (z / 256 ^ Z.of_nat k) :: Sha1.be_bytes k z.
Proof.
  unfold Sha1.be_bytes. cbn [seq map]. f_equal; [do 3 f_equal; lia|]. rewrite <- seq_shift, map_map. apply map_ext. intros i. do 4 f_equal. lia.
Qed.
Lemma be_bytes_len k z : List.length (Sha1.be_bytes k z) = k.
Proof. unfold Sha1.be_bytes. rewrite map_length. apply seq_length. Qed.
Lemma be_bytes_value k z : 0 <= z -> value (Sha1.be_bytes k z) = z mod 256 ^ Z.of_nat k.
Proof.
  intros Hz. induction k as [|k IH]; [rewrite Z.mod_1_r; reflexivity|]. rewrite be_bytes_S. cbn [value]. unfold zlen. rewrite be_bytes_len, IH, b2z_z2b. rewrite Nat2Z.inj_succ, Z.pow_succ_r by lia. rewrite (Z.mul_comm 256). rewrite Z.rem_mul_r by lia. lia.
Qed.
Lemma padded_std m : zlen m < 2305843009213693952 -> padded m (Sha1.padded m).
Proof.
  intros H. exists (Sha1.pad_zeros (zlen m)), (Sha1.be_bytes 8 (8 * zlen m)). split; [reflexivity|]. unfold Sha1.pad_zeros. pose proof (Z.mod_pos_bound (55 - zlen m) 64 ltac:(lia)). split; [lia|]. split; [apply be_bytes_len|]. assert (0 <= zlen m) by (unfold zlen; lia). split.
  - rewrite be_bytes_value by lia. apply Z.mod_small. change (256 ^ Z.of_nat 8) with 18446744073709551616. lia.
  - unfold Sha1.padded. exists (Z.to_nat ((zlen m + 9 + (55 - zlen m) mod 64) / 64)). rewrite app_length. cbn [List.length]. rewrite app_length, repeat_length, be_bytes_len. unfold Sha1.pad_zeros.
    assert (E : (zlen m + 9 + (55 - zlen m) mod 64) mod 64 = 0). { rewrite <- Zplus_mod_idemp_r, Zmod_mod, Zplus_mod_idemp_r. replace (zlen m + 9 + (55 - zlen m)) with (1 * 64) by lia. apply Z.mod_mul. lia. }
    pose proof (Z.div_mod (zlen m + 9 + (55 - zlen m) mod 64) 64 ltac:(lia)). unfold zlen in *. lia.
Qed.
Lemma sha1_std m : zlen m < 2305843009213693952 -> sha1_of m (Sha1.sha1 m).
Proof.
  intros H. pose proof (padded_std m H) as P. exists (Sha1.padded m). destruct P as (k & len & P1 & P2 & P3 & P4 & q & Hq).
  assert (P : padded m (Sha1.padded m)) by (exists k, len; eauto 10).
  assert (HW : List.length (Sha1.words (Sha1.padded m)) = (16 * q)%nat) by (apply words_len; rewrite Hq; lia).
  assert (I0 : Forall word (zs Sha1.hinit)) by (repeat (apply Forall_cons || apply Forall_nil); unfold word; cbn; lia).
  destruct (blocks_std q Sha1.hinit (Sha1.padded m) Hq I0) as [A C]. exists (zs (Sha1.blocks q Sha1.hinit (Sha1.words (Sha1.padded m)))). split; [exact P|]. split; [exact A|].
  unfold Sha1.sha1. cbv zeta. rewrite HW. replace (16 * q / 16)%nat with q by (rewrite Nat.mul_comm, Nat.div_mul; lia). set (s := Sha1.blocks q Sha1.hinit (Sha1.words (Sha1.padded m))) in *. clearbody s.
  unfold Sha1.word_bytes. split; [rewrite !app_length, !be_bytes_len; reflexivity|]. intros i Hi.
  assert (V : forall x, word (Z.of_N x) -> value (Sha1.be_bytes 4 (Z.of_N x)) = Z.of_N x) by (intros x Hx; rewrite be_bytes_value by lia; apply Z.mod_small; exact Hx).
  unfold zs in C. apply Forall_cons_iff in C. destruct C as [Ca C]. apply Forall_cons_iff in C. destruct C as [Cb C]. apply Forall_cons_iff in C. destruct C as [Cc C]. apply Forall_cons_iff in C. destruct C as [Cd C]. apply Forall_cons_iff in C. destruct C as [Ce _].
  apply V in Ca, Cb, Cc, Cd, Ce. destruct i as [|[|[|[|[|i]]]]]; [| | | | |lia]; cbn [nth zs]; etransitivity; [|exact Ca| |exact Cb| |exact Cc| |exact Cd| |exact Ce]; reflexivity.
Qed.
Lemma sha1_agree m : zlen m < 2305843009213693952 -> Sha1.sha1 m = SHA1 m.
Proof. intros H. apply (standard_unique m); [exact (sha1_std m H)|]. apply standard_sum; [|exact H]. change m with ([] ++ m). apply write_holds, new_holds. Qed.
