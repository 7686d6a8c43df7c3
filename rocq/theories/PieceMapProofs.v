(** PieceMapProofs.v: lemmas about GetFiles, CalcNumPieces, MakePieceMap and NewTorInfo. *)
From Verif Require Import Base BencodeModel PathModel LayoutModel LayoutSpec LayoutProofs.
From Coq Require Import ZifyBool ZifyNat ZifyN.

(** ** GetFiles *)
Definition hits (p : Z) (e : entry) : bool := (en_sp e <=? p) && (p <=? en_ep e).

(** The span of a file with at least one byte, and of an empty one. *)
Lemma span_ep b P S0 : 1 <= eb_len b -> en_ep (span_entry b P S0) = (S0 + eb_len b - 1) / P.
Proof. intros. unfold span_entry. replace (eb_len b =? 0) with false by lia. reflexivity. Qed.
Lemma span_ep0 b P S0 : eb_len b = 0 -> en_ep (span_entry b P S0) = if P =? 1 then S0 / P - 1 else S0 / P.
Proof. intros H. unfold span_entry. rewrite H. cbn [Z.eqb]. destruct (P =? 1); reflexivity. Qed.

Lemma hits_iff_byte b P S0 p : 1 <= P -> 0 <= S0 -> 1 <= eb_len b ->
  hits p (span_entry b P S0) = true <-> exists x, S0 <= x < S0 + eb_len b /\ x / P = p.
Proof.
  intros HP HS HL. unfold hits. rewrite span_sp, span_ep by assumption. rewrite Bool.andb_true_iff, !Z.leb_le. split.
  - intros [A B]. exists (Z.max S0 (p * P)).
    pose proof (Z.div_mod S0 P ltac:(lia)). pose proof (Z.mod_pos_bound S0 P ltac:(lia)).
    pose proof (Z.div_mod (S0 + eb_len b - 1) P ltac:(lia)). pose proof (Z.mod_pos_bound (S0 + eb_len b - 1) P ltac:(lia)).
    assert (p * P <= S0 + eb_len b - 1) by nia. split; [lia|].
    destruct (Z.max_spec S0 (p * P)) as [[? ->]|[? ->]]; [apply Z.div_mul; lia|].
    assert (p <= S0 / P) by (apply Z.div_le_lower_bound; lia). lia.
  - intros (x & Hx & <-). split; apply Z.div_le_mono; lia.
Qed.

Lemma span_list_ge P (HP : 1 <= P) : forall bs S0, Forall (fun n => 0 <= n) (lens_of bs) ->
  Forall (fun e => S0 / P <= en_sp e) (span_list bs P S0).
Proof.
  induction bs as [|b bs IH]; intros S0 HF; [constructor|].
  cbn [lens_of map] in HF. inversion HF as [|? ? H1 H2]; subst. cbn [span_list]. constructor; [rewrite span_sp; lia|].
  eapply Forall_impl; [|apply (IH (S0 + eb_len b) H2)]. cbn. intros e He.
  assert (S0 / P <= (S0 + eb_len b) / P) by (apply Z.div_le_mono; lia). lia.
Qed.

Lemma no_hits_later p fl s : Forall (fun e => s <= en_sp e) fl -> p < s -> filter (hits p) fl = [].
Proof.
  induction 1 as [|e fl He _ IH]; intros; cbn [filter]; [reflexivity|].
  unfold hits at 1. replace (en_sp e <=? p) with false by lia. cbn [andb]. auto.
Qed.

Lemma loop_hit P p (HP : 1 <= P) : forall bs S0 i start n,
  Forall (fun x => 0 <= x) (lens_of bs) -> 0 <= S0 -> p <= S0 / P -> (P = 1 -> p < S0 / P) ->
  GetFiles_loop (span_list bs P S0) p i true start n = (start, (n + List.length (filter (hits p) (span_list bs P S0)))%nat) /\
  filter (hits p) (span_list bs P S0) = firstn (List.length (filter (hits p) (span_list bs P S0))) (span_list bs P S0).
Proof.
  induction bs as [|b bs IH]; intros S0 i start n HF HS Hp H1; cbn [span_list GetFiles_loop filter List.length firstn].
  - split; [f_equal; lia|reflexivity].
  - cbn [lens_of map] in HF. inversion HF as [|? ? HL HF']; subst.
    pose proof (Z.div_le_mono S0 (S0 + eb_len b) P ltac:(lia) ltac:(lia)) as Hmono.
    rewrite span_sp. destruct (Z.ltb_spec p (S0 / P)) as [B|B].
    + assert (Hno : hits p (span_entry b P S0) = false) by (unfold hits; rewrite span_sp; lia).
      rewrite Hno. rewrite (no_hits_later p _ ((S0 + eb_len b) / P)); [|apply span_list_ge; assumption|lia].
      split; [cbn [List.length]; f_equal; lia|reflexivity].
    + assert (Hyes : hits p (span_entry b P S0) = true).
      { unfold hits. rewrite span_sp. destruct (Z.eq_dec (eb_len b) 0) as [E|E].
        - rewrite span_ep0 by assumption. destruct (Z.eqb_spec P 1); lia.
        - rewrite span_ep by lia. assert (S0 / P <= (S0 + eb_len b - 1) / P) by (apply Z.div_le_mono; lia). lia. }
      pose proof Hyes as Hyes'. unfold hits in Hyes'. rewrite span_sp in Hyes'. rewrite Hyes', Hyes.
      destruct (IH (S0 + eb_len b) (S i) start (S n) HF' ltac:(lia) ltac:(lia) ltac:(intros X; specialize (H1 X); lia)) as [A B2].
      rewrite A. cbn [List.length firstn]. split; [f_equal; lia|]. f_equal. exact B2.
Qed.

Lemma loop_miss P p (HP : 1 <= P) : forall bs S0 pre, Forall (fun x => 0 <= x) (lens_of bs) -> 0 <= S0 ->
  let '(st, n) := GetFiles_loop (span_list bs P S0) p (List.length pre) false 0 0 in
  sub (pre ++ span_list bs P S0) st n = filter (hits p) (span_list bs P S0).
Proof.
  induction bs as [|b bs IH]; intros S0 pre HF HS; cbn [span_list GetFiles_loop filter].
  - reflexivity.
  - cbn [lens_of map] in HF. inversion HF as [|? ? HL HF']; subst.
    pose proof (Z.div_le_mono S0 (S0 + eb_len b) P ltac:(lia) ltac:(lia)) as Hmono.
    rewrite span_sp. destruct (Z.ltb_spec p (S0 / P)) as [B|B].
    + assert (Hno : hits p (span_entry b P S0) = false) by (unfold hits; rewrite span_sp; lia).
      rewrite Hno. rewrite (no_hits_later p _ ((S0 + eb_len b) / P)); [|apply span_list_ge; assumption|lia]. reflexivity.
    + change ((S0 / P <=? p) && (p <=? en_ep (span_entry b P S0))) with ((S0 / P <=? p) && (p <=? en_ep (span_entry b P S0)))%bool.
      destruct (hits p (span_entry b P S0)) eqn:Eh.
      * pose proof Eh as Eh'. unfold hits in Eh'. rewrite span_sp in Eh'. rewrite Eh'.
        assert (Hnext : p <= (S0 + eb_len b) / P /\ (P = 1 -> p < (S0 + eb_len b) / P)).
        { destruct (Z.eq_dec (eb_len b) 0) as [E|E].
          - rewrite span_ep0 in Eh' by assumption. rewrite E, Z.add_0_r. destruct (Z.eqb_spec P 1); lia.
          - rewrite span_ep in Eh' by lia.
            assert ((S0 + eb_len b - 1) / P <= (S0 + eb_len b) / P) by (apply Z.div_le_mono; lia). split; [lia|].
            intros ->. rewrite !Z.div_1_r in *. lia. }
        destruct (loop_hit P p HP bs (S0 + eb_len b) (S (List.length pre)) (List.length pre) 1 HF' ltac:(lia)) as [A B2]; try tauto.
        rewrite A. unfold sub. rewrite skipn_app, skipn_all, Nat.sub_diag. cbn [app skipn].
        change (1 + List.length (filter (hits p) (span_list bs P (S0 + eb_len b))))%nat
          with (S (List.length (filter (hits p) (span_list bs P (S0 + eb_len b))))).
        cbn [firstn]. f_equal. symmetry. exact B2.
      * pose proof Eh as Eh'. unfold hits in Eh'. rewrite span_sp in Eh'. rewrite Eh'.
        specialize (IH (S0 + eb_len b) (pre ++ [span_entry b P S0]) HF' ltac:(lia)).
        rewrite app_length in IH. cbn [List.length] in IH. rewrite Nat.add_1_r in IH.
        destruct (GetFiles_loop _ _ _ _ _ _) as [st n]. rewrite <- app_assoc in IH. exact IH.
Qed.

Lemma GetFiles_spec bs P p : sane P (lens_of bs) ->
  GetFiles (span_list bs P 0) p = filter (hits p) (span_list bs P 0).
Proof.
  intros (HP & HF & _). unfold GetFiles. pose proof (loop_miss P p ltac:(lia) bs 0 [] HF ltac:(lia)) as H.
  cbn [List.length app] in H. destruct (GetFiles_loop _ _ _ _ _ _). exact H.
Qed.

(** ** CalcNumPieces *)
Lemma sum64_spec bs : Forall (fun n => 0 <= n) (lens_of bs) -> zsum (lens_of bs) < big -> sum64 bs = zsum (lens_of bs).
Proof.
  intros HF HB. unfold sum64.
  enough (H : forall bs a, 0 <= a -> Forall (fun n => 0 <= n) (lens_of bs) -> a + zsum (lens_of bs) < big ->
    fold_left (fun l b => add64 l (eb_len b)) bs a = a + zsum (lens_of bs)) by (rewrite H; auto; lia).
  clear. induction bs as [|b bs IH]; intros a Ha HF HB; [cbn; lia|].
  cbn [lens_of map zsum fold_right fold_left] in *. inversion HF as [|? ? H1 H2]; subst.
  pose proof (zsum_nonneg _ H2) as Hn. fold (zsum (map eb_len bs)) in *. unfold add64 at 2.
  rewrite i64_big by (inrange; lia). rewrite IH; [unfold lens_of; lia|lia|assumption|unfold lens_of; lia].
Qed.

Lemma CalcNumPieces_spec bs P : sane P (lens_of bs) -> CalcNumPieces bs P = Ok (pieces_needed P (zsum (lens_of bs))).
Proof.
  intros (HP & HF & HB). unfold CalcNumPieces. rewrite sum64_spec by assumption.
  pose proof (zsum_nonneg _ HF) as Hn. set (T := zsum (lens_of bs)) in *. clearbody T.
  unfold div64, rem64. replace (P =? 0) with false by lia. cbn [bind]. rewrite Z.quot_div_nonneg, Z.rem_mod_nonneg by lia.
  pose proof (Z.div_mod T P ltac:(lia)) as D. pose proof (Z.mod_pos_bound T P ltac:(lia)) as M.
  assert (Q : 0 <= T / P <= T) by (split; [apply Z.div_pos; lia|apply Z.div_le_upper_bound; nia]).
  rewrite (i64_big (T / P)) by (inrange; lia). unfold pieces_needed, add64.
  destruct (Z.ltb_spec 0 (T mod P)) as [A|A]; f_equal.
  - rewrite i64_big by (inrange; lia). symmetry. apply div_unique_pos with (T mod P - 1); lia.
  - symmetry. apply div_unique_pos with (P - 1); lia.
Qed.

Lemma pieces_needed_spec P T : 1 <= P -> 0 <= T ->
  (T = 0 -> pieces_needed P T = 0) /\ (0 < T -> (pieces_needed P T - 1) * P < T <= pieces_needed P T * P).
Proof.
  intros HP HT. unfold pieces_needed. split.
  - intros ->. apply Z.div_small. lia.
  - intros H. pose proof (Z.div_mod (T + P - 1) P ltac:(lia)). pose proof (Z.mod_pos_bound (T + P - 1) P ltac:(lia)). nia.
Qed.

(** ** Tilings *)
Lemma tiles_app lens a b c l1 l2 : tiles lens l1 a b -> tiles lens l2 b c -> tiles lens (l1 ++ l2) a c.
Proof.
  revert a; induction l1 as [|l l1 IH]; intros a H1 H2; cbn [tiles app] in *; [now subst|].
  destruct H1 as (? & ? & ? & ? & ? & H). repeat split; auto.
Qed.

Lemma increasing_app lo hi l1 l : increasing lo l1 -> Forall (fun x => (pl_file x < hi)%nat) l1 -> (lo <= hi <= pl_file l)%nat ->
  increasing lo (l1 ++ [l]).
Proof.
  revert lo; induction l1 as [|x l1 IH]; intros lo H1 HF HL; cbn [increasing app] in *; [split; [lia|exact I]|].
  inversion HF; subst. split; [tauto|]. apply IH; [tauto|assumption|lia].
Qed.

(** The map while the cursor is at global byte x; in the current piece every listed file is
    below [hi]. *)
Definition pm_at (lens : list Z) (n P x : Z) (hi : nat) (pm : list (list ploc)) : Prop :=
  zlen pm = n /\
  forall j l, nth_error pm j = Some l ->
    increasing 0 l /\
    (Z.of_nat j < x / P -> tiles lens l (Z.of_nat j * P) ((Z.of_nat j + 1) * P)) /\
    (Z.of_nat j = x / P -> tiles lens l (Z.of_nat j * P) x /\ Forall (fun q => (pl_file q < hi)%nat) l) /\
    (x / P < Z.of_nat j -> l = []).

Lemma pm_at_weaken lens n P x hi hi' pm : (hi <= hi')%nat -> pm_at lens n P x hi pm -> pm_at lens n P x hi' pm.
Proof.
  intros H [H1 H2]. split; [assumption|]. intros j l Hj. destruct (H2 j l Hj) as (? & ? & HF & ?). repeat split; try tauto.
  eapply Forall_impl; [|apply HF; assumption]. cbn. lia.
Qed.

(** Adding to the current piece the part [x, x') of file k. *)
Lemma pm_at_step lens n P x x' k hi pm l : 1 <= P -> 0 <= x -> x <= x' -> x' <= (x / P + 1) * P ->
  (x' = (x / P + 1) * P \/ (S k <= hi)%nat) ->
  pm_at lens n P x k pm -> nth_error pm (Z.to_nat (x / P)) = Some l ->
  (k < List.length lens)%nat -> fstart lens k <= x -> x' <= fstart lens k + flen lens k ->
  pm_at lens n P x' hi (lupd pm (Z.to_nat (x / P)) (l ++ [mkpl k (mkpi (x - fstart lens k) (x' - x))])).
Proof.
  intros HP Hx Hle Hub Hhi [Hlen Hpm] Hl Hk Hs He.
  assert (Hxp : 0 <= x / P) by (apply Z.div_pos; lia).
  pose proof (Z.div_mod x P ltac:(lia)) as Dx. pose proof (Z.mod_pos_bound x P ltac:(lia)) as Mx.
  assert (Hx'cases : (x' = (x / P + 1) * P /\ x' / P = x / P + 1) \/ (x' < (x / P + 1) * P /\ x' / P = x / P)).
  { destruct (Z.eq_dec x' ((x / P + 1) * P)) as [E|E].
    - left. split; [assumption|]. rewrite E. apply Z.div_mul. lia.
    - right. split; [lia|]. symmetry. apply Z.div_unique with (x' - (x / P) * P); [left; nia|nia]. }
  split.
  - unfold zlen in *. rewrite lupd_length. assumption.
  - intros j lj Hj. rewrite nth_error_lupd in Hj.
    destruct (Nat.eqb_spec j (Z.to_nat (x / P))) as [E|E]; cbn [andb] in Hj.
    + assert (Hlt : (Z.to_nat (x / P) < List.length pm)%nat) by (apply nth_error_Some; congruence).
      replace (Nat.ltb (Z.to_nat (x / P)) (List.length pm)) with true in Hj by (symmetry; apply Nat.ltb_lt; assumption).
      injection Hj as <-. subst j. destruct (Hpm _ _ Hl) as (Hi & _ & Ht & _).
      rewrite Z2Nat.id in * by lia. destruct (Ht eq_refl) as [Ht' HF].
      assert (Htile : tiles lens (l ++ [mkpl k (mkpi (x - fstart lens k) (x' - x))]) (x / P * P) x').
      { eapply tiles_app; [exact Ht'|]. cbn [tiles pl_file pl_info SeekAmnt ReadAmnt]. repeat split; try lia. }
      split; [|split; [|split]].
      * apply increasing_app with k; [assumption|assumption|cbn; lia].
      * intros H. destruct Hx'cases as [[E1 E2]|[E1 E2]]; [rewrite <- E1; assumption|lia].
      * intros H. split; [assumption|]. assert (S k <= hi)%nat by lia.
        apply Forall_app. split; [eapply Forall_impl; [|exact HF]; cbn; lia|repeat constructor; cbn; lia].
      * intros H. lia.
    + destruct (Hpm _ _ Hj) as (Hi & H1 & H2 & H3).
      split; [assumption|].
      assert (Hne : Z.of_nat j <> x / P) by lia.
      split; [intros; apply H1; lia|]. split; [|intros; apply H3; lia].
      intros Hj'. assert (x / P < Z.of_nat j) by lia. specialize (H3 ltac:(lia)). subst lj. cbn [tiles]. split; [|constructor].
      rewrite Hj'. destruct Hx'cases as [[E1 E2]|[E1 E2]]; lia.
Qed.

Definition st_at (lens : list Z) (n P x : Z) (hi : nat) (s : pmstate) : Prop :=
  let '(pm, pidx, prem, tot) := s in
  pidx = x / P /\ prem = P - x mod P /\ tot = x /\ pm_at lens n P x hi pm.

Lemma piece_arith S0 L P x y m : 1 <= P -> x = P * y + m -> 0 <= m < P -> S0 <= x -> x < S0 + L -> (x = S0 \/ m = 0) ->
  Z.max 0 (y * P - S0) = x - S0 /\ Z.max S0 (y * P) = x /\
  x < Z.min (S0 + L) ((y + 1) * P) /\ Z.min (S0 + L) ((y + 1) * P) <= S0 + L /\
  (Z.min (S0 + L) ((y + 1) * P) = P * y + P \/
   (Z.min (S0 + L) ((y + 1) * P) = S0 + L /\ Z.min (S0 + L) ((y + 1) * P) < P * y + P)).
Proof. intros HP Dx Mx H1 H2 H3. replace (y * P) with (P * y) by ring. replace ((y + 1) * P) with (P * y + P) by ring. lia. Qed.

(** The inner loop over a non-empty file k, from position x inside it. *)
Lemma pm_inner_spec lens n P k b S0 : 1 <= P < big -> nth_error lens k = Some (eb_len b) -> S0 = fstart lens k -> 0 <= S0 ->
  1 <= eb_len b -> S0 + eb_len b < big -> 0 <= n ->
  forall fuel x s, S0 <= x <= S0 + eb_len b -> (x = S0 \/ x mod P = 0) ->
  (Z.to_nat (en_ep (span_entry b P S0) - x / P) + 2 <= fuel + (if (x <? S0 + eb_len b)%Z then 0 else 1))%nat -> x <= n * P ->
  st_at lens n P x k s ->
  (S0 + eb_len b <= n * P -> exists s', pm_inner fuel (span_entry b P S0) k P s = Ok s' /\ st_at lens n P (S0 + eb_len b) (S k) s') /\
  (n * P < S0 + eb_len b -> pm_inner fuel (span_entry b P S0) k P s = Panic).
Proof.
  intros HP Hnth HS0 HS0p HL HB Hn.
  assert (Hflen : flen lens k = eb_len b) by (unfold flen; apply nth_error_nth; assumption).
  assert (Hk : (k < List.length lens)%nat) by (apply nth_error_Some; congruence).
  rewrite span_ep by lia.
  pose proof (fun i => PieceInfo_spec b P S0 i HP HS0p HL HB) as HPI. cbv zeta in HPI.
  set (e := span_entry b P S0) in *. clearbody e. set (L := eb_len b) in *. clearbody L.
  induction fuel as [|fuel IH]; intros x [[[pm pidx] prem] tot] Hx Hxm Hf Hxn Hst; [destruct (x <? S0 + L); lia|].
  destruct Hst as (-> & -> & -> & Hpm).
  pose proof (Z.div_mod x P ltac:(lia)) as Dx. pose proof (Z.mod_pos_bound x P ltac:(lia)) as Mx.
  assert (Hxp : 0 <= x / P) by (apply Z.div_pos; lia).
  assert (Hxp2 : x / P <= x) by (apply Z.div_le_upper_bound; [lia|]; clear - HP Hx HS0p; nia).
  cbn [pm_inner]. rewrite HPI.
  destruct (Z.eq_dec x (S0 + L)) as [Ex|Ex].
  - (* finished exactly at a piece boundary *)
    assert (Hb0 : x mod P = 0) by (clear - Hxm Ex HL; lia).
    assert (Hgt : (S0 + L - 1) / P < x / P).
    { apply Z.div_lt_upper_bound; [lia|]. rewrite <- Ex. clear - Dx Hb0. lia. }
    replace ((S0 / P <=? x / P) && (x / P <=? (S0 + L - 1) / P)) with false by (clear - Hgt; lia).
    split; [|clear - Ex Hxn; lia]. intros _. eexists; split; [reflexivity|]. rewrite <- Ex. unfold st_at.
    split; [reflexivity|]. split; [reflexivity|]. split; [reflexivity|]. apply pm_at_weaken with k; [lia|assumption].
  - assert (Hin1 : S0 / P <= x / P) by (apply Z.div_le_mono; lia).
    assert (Hin2 : x / P <= (S0 + L - 1) / P) by (apply Z.div_le_mono; lia).
    replace ((S0 / P <=? x / P) && (x / P <=? (S0 + L - 1) / P)) with true by (clear - Hin1 Hin2; lia).
    assert (HxL : x < S0 + L) by (clear - Ex Hx; lia). clear Ex.
    replace (x <? S0 + L) with true in Hf by (clear - HxL; lia).
    destruct (piece_arith S0 L P x (x / P) (x mod P) (proj1 HP) Dx Mx (proj1 Hx) HxL Hxm) as (Hseek & Hmax & Hx1 & Hx2 & Hx3).
    rewrite Hseek, Hmax. set (x' := Z.min (S0 + L) ((x / P + 1) * P)) in *. clearbody x'. clear Hseek Hmax.
    replace (x / P <? 0) with false by (clear - Hxp; lia).
    assert (Hmul : (x / P + 1) * P = P * (x / P) + P) by ring.
    destruct (nth_error pm (Z.to_nat (x / P))) as [l|] eqn:El.
    2: { apply nth_error_None in El. assert (Hge : n <= x / P) by (destruct Hpm as [H _]; unfold zlen in H; clear - H El Hxp; lia).
         split; [|reflexivity]. intros Hbad. exfalso.
         assert (n * P <= x / P * P) by (apply Z.mul_le_mono_nonneg_r; [clear - HP; lia|assumption]).
         clear - H Hbad Dx Mx HxL. lia. }
    assert (Hlt : x / P < n).
    { assert (HH : (Z.to_nat (x / P) < List.length pm)%nat) by (apply nth_error_Some; congruence).
      destruct Hpm as [H0 _]; unfold zlen in H0; clear - HH H0; lia. }
    unfold sub64, add64. cbn [SeekAmnt ReadAmnt].
    rewrite (i64_big (P - x mod P - (x' - x))) by (inrange; clear - HP Mx Hx1 Hx2 HB HL HS0p Hx; lia).
    rewrite (i64_big (x + (x' - x))) by (inrange; clear - Hx Hx1 Hx2 HB HS0p; lia).
    replace (x + (x' - x)) with x' by (clear; lia).
    assert (Hstep : forall hi, (x' = (x / P + 1) * P \/ (S k <= hi)%nat) ->
      pm_at lens n P x' hi (lupd pm (Z.to_nat (x / P)) (l ++ [mkpl k (mkpi (x - S0) (x' - x))]))).
    { intros hi Hhi. rewrite HS0. eapply pm_at_step; eauto.
      - clear - HP; lia.
      - clear - Hx HS0p; lia.
      - clear - Hx1; lia.
      - rewrite Hmul. clear - Hx3. lia.
      - rewrite <- HS0. apply Hx.
      - rewrite <- HS0, Hflen. assumption. }
    destruct Hx3 as [Eb|[Ex' Eb]].
    + (* piece filled *)
      assert (Hx'm : x' mod P = 0) by (rewrite Eb, <- Hmul; apply Z.mod_mul; clear - HP; lia).
      assert (Hx'd : x' / P = x / P + 1) by (rewrite Eb, <- Hmul; apply Z.div_mul; clear - HP; lia).
      replace (P - x mod P - (x' - x) <=? 0) with true by (clear - Eb Dx; lia).
      rewrite (i64_big (x / P + 1)) by (inrange; clear - Hxp Hxp2 Hx HB; lia).
      apply (IH x').
      * clear - Hx Hx1 Hx2. lia.
      * right; assumption.
      * rewrite Hx'd. destruct (Z.ltb_spec x' (S0 + L)) as [Q|Q]; [|clear - Hf Hin2; lia].
        assert (Hdm : x' / P <= (S0 + L - 1) / P) by (apply Z.div_le_mono; [clear - HP; lia|clear - Q; lia]).
        rewrite Hx'd in Hdm. clear - Hf Hdm. lia.
      * rewrite Eb, <- Hmul. apply Z.mul_le_mono_nonneg_r; [clear - HP; lia|clear - Hlt; lia].
      * unfold st_at. rewrite Hx'd, Hx'm. split; [reflexivity|]. split; [clear; lia|]. split; [reflexivity|].
        apply Hstep. left. rewrite Hmul. assumption.
    + assert (Hx'd : x' / P = x / P) by (symmetry; apply Z.div_unique with (x' - P * (x / P)); [left|]; clear - Eb Dx Mx Hx1; lia).
      assert (Hx'm : x' mod P = x mod P + (x' - x)) by (rewrite Z.mod_eq, Hx'd by (clear - HP; lia); clear - Dx; lia).
      replace (P - x mod P - (x' - x) <=? 0) with false by (clear - Eb Dx; lia).
      split.
      * intros Hle. eexists; split; [reflexivity|]. rewrite <- Ex'. unfold st_at. rewrite Hx'd, Hx'm.
        split; [reflexivity|]. split; [clear; lia|]. split; [reflexivity|]. apply Hstep. right. lia.
      * intros Hgt. exfalso. rewrite <- Ex' in Hgt.
        assert ((x / P + 1) * P <= n * P) by (apply Z.mul_le_mono_nonneg_r; [clear - HP; lia|clear - Hlt; lia]).
        clear - H Hmul Eb Hgt. lia.
Qed.

Lemma pm_inner_empty lens n P k b S0 : 1 <= P < big -> nth_error lens k = Some (eb_len b) -> S0 = fstart lens k -> 0 <= S0 ->
  eb_len b = 0 -> S0 < big -> S0 < n * P ->
  forall s, st_at lens n P S0 k s ->
  exists s', pm_inner (pm_fuel (span_entry b P S0) (S0 / P)) (span_entry b P S0) k P s = Ok s' /\ st_at lens n P S0 (S k) s'.
Proof.
  intros HP Hnth HS0 HS0p HL HB Hn [[[pm pidx] prem] tot] (-> & -> & -> & Hpm).
  assert (Hk : (k < List.length lens)%nat) by (apply nth_error_Some; congruence).
  assert (Hflen : flen lens k = 0) by (unfold flen; rewrite <- HL; apply nth_error_nth; assumption).
  unfold pm_fuel. cbn [pm_inner]. rewrite PieceInfo_empty by assumption. rewrite Z.eqb_refl. cbn [andb].
  pose proof (Z.div_mod S0 P ltac:(lia)) as Dx. pose proof (Z.mod_pos_bound S0 P ltac:(lia)) as Mx.
  assert (Hxp : 0 <= S0 / P) by (apply Z.div_pos; lia).
  destruct (Z.eqb_spec P 1) as [P1|P1]; cbn [negb].
  - eexists; split; [reflexivity|]. unfold st_at. split; [reflexivity|]. split; [reflexivity|]. split; [reflexivity|].
    apply pm_at_weaken with k; [lia|assumption].
  - replace (S0 / P <? 0) with false by lia.
    assert (Hlt : S0 / P < n) by (apply Z.div_lt_upper_bound; lia).
    destruct (nth_error pm (Z.to_nat (S0 / P))) as [l|] eqn:El.
    2: { apply nth_error_None in El. destruct Hpm as [H _]. unfold zlen in H. lia. }
    unfold sub64, add64. cbn [ReadAmnt]. rewrite Z.sub_0_r, Z.add_0_r. rewrite !i64_big by (inrange; lia).
    replace (P - S0 mod P <=? 0) with false by lia. eexists; split; [reflexivity|].
    unfold st_at. split; [reflexivity|]. split; [reflexivity|]. split; [reflexivity|].
    replace (mkpi 0 0) with (mkpi (S0 - fstart lens k) (S0 - S0)) by (f_equal; lia).
    apply pm_at_step; auto; try lia.
Qed.

Definition st_tot (s : pmstate) : Z := snd s.
Definition st_pm (s : pmstate) : list (list ploc) := fst (fst (fst s)).

Lemma fstart_app pre l k : fstart (pre ++ l) (List.length pre + k) = zsum pre + fstart l k.
Proof. unfold fstart. rewrite firstn_app_2, zsum_app. reflexivity. Qed.

Lemma fstart_nonneg lens k : Forall (fun n => 0 <= n) lens -> 0 <= fstart lens k.
Proof. intros H. apply zsum_nonneg. apply Forall_forall. intros x Hx. rewrite Forall_forall in H. apply H. rewrite <- (firstn_skipn k lens). apply in_app_iff. auto. Qed.

Lemma fstart_le lens k : Forall (fun n => 0 <= n) lens -> fstart lens k <= zsum lens.
Proof.
  intros H. unfold fstart. rewrite <- (firstn_skipn k lens) at 2. rewrite zsum_app.
  assert (0 <= zsum (skipn k lens)); [|lia]. apply zsum_nonneg. apply Forall_forall. intros x Hx. rewrite Forall_forall in H. apply H.
  rewrite <- (firstn_skipn k lens). apply in_app_iff. auto.
Qed.

Lemma fstart_mono lens a b : Forall (fun n => 0 <= n) lens -> (a <= b)%nat -> fstart lens a <= fstart lens b.
Proof.
  intros H Hab. replace (fstart lens a) with (fstart (firstn b lens) a).
  - apply fstart_le. apply Forall_forall. intros x Hx. rewrite Forall_forall in H. apply H.
    rewrite <- (firstn_skipn b lens). apply in_app_iff. auto.
  - unfold fstart. rewrite firstn_firstn. f_equal. f_equal. lia.
Qed.

Lemma fstart_S lens k x : nth_error lens k = Some x -> fstart lens (S k) = fstart lens k + x.
Proof.
  unfold fstart. revert k; induction lens as [|y l IH]; intros [|k] H; try discriminate; cbn [nth_error] in H.
  - injection H as ->. cbn. lia.
  - specialize (IH k H). change (firstn (S (S k)) (y :: l)) with (y :: firstn (S k) l). change (firstn (S k) (y :: l)) with (y :: firstn k l).
    unfold zsum in *. cbn [fold_right]. lia.
Qed.

Lemma pm_outer_spec n P : 1 <= P < big -> 0 <= n -> forall rest pre s,
  let lens := pre ++ lens_of rest in
  Forall (fun x => 0 <= x) lens -> zsum lens < big -> zsum pre <= n * P ->
  st_at lens n P (zsum pre) (List.length pre) s ->
  let r := pm_outer (span_list rest P (zsum pre)) (List.length pre) n P s in
  (zsum lens <= n * P -> exists s', r = Ok s' /\ st_tot s' = zsum lens /\ pm_at lens n P (zsum lens) (List.length lens) (st_pm s')) /\
  (n * P < zsum lens ->
     (file_boundary lens (n * P) -> exists s', r = Ok s' /\ st_tot s' = n * P) /\
     (~ file_boundary lens (n * P) -> r = Panic)).
Proof.
  intros HP Hn. induction rest as [|b rest IH]; intros pre s lens HF HB Hle Hst.
  - cbn [lens_of map] in lens. assert (El : lens = pre) by (unfold lens; apply app_nil_r).
    rewrite El in *. cbn [span_list pm_outer]. cbv zeta. split; [|lia]. intros _. exists s.
    destruct s as [[[pm pidx] prem] tot]. destruct Hst as (-> & -> & -> & Hpm). cbn [st_tot st_pm fst snd]. auto.
  - set (S0 := zsum pre) in *.
    assert (HS0 : S0 = fstart lens (List.length pre)).
    { unfold lens. pose proof (fstart_app pre (lens_of (b :: rest)) 0) as H. rewrite Nat.add_0_r in H. rewrite H. unfold fstart. cbn. lia. }
    assert (Hnth : nth_error lens (List.length pre) = Some (eb_len b)).
    { unfold lens. rewrite nth_error_app2, Nat.sub_diag by lia. reflexivity. }
    assert (HS0p : 0 <= S0) by (rewrite HS0; apply fstart_nonneg; assumption).
    assert (HL : 0 <= eb_len b) by (rewrite Forall_forall in HF; apply HF; eapply nth_error_In; eassumption).
    assert (HSL : S0 + eb_len b <= zsum lens) by (rewrite HS0, <- (fstart_S _ _ _ Hnth); apply fstart_le; assumption).
    assert (Hpre : zsum (pre ++ [eb_len b]) = S0 + eb_len b) by (rewrite zsum_app; cbn; lia).
    assert (Hlenp : List.length (pre ++ [eb_len b]) = S (List.length pre)) by (rewrite app_length; cbn; lia).
    assert (Hlens' : (pre ++ [eb_len b]) ++ lens_of rest = lens) by (unfold lens; rewrite <- app_assoc; reflexivity).
    specialize (IH (pre ++ [eb_len b])). rewrite Hlens', Hpre, Hlenp in IH. cbv zeta in IH.
    assert (Hk : (List.length pre < List.length lens)%nat) by (apply nth_error_Some; congruence).
    cbv zeta. cbn [span_list pm_outer]. destruct s as [[[pm pidx] prem] tot].
    pose proof Hst as (Epi & _ & Etot & Hpm). subst pidx.
    destruct (Z.eqb_spec (S0 / P) n) as [Estop|Estop].
    + assert (ES : S0 = n * P).
      { pose proof (Z.div_mod S0 P ltac:(lia)). pose proof (Z.mod_pos_bound S0 P ltac:(lia)). nia. }
      split.
      * intros HT. assert (Hall : zsum lens = S0) by lia.
        eexists; split; [reflexivity|]. cbn [st_tot st_pm fst snd]. rewrite Hall. split; [assumption|].
        apply pm_at_weaken with (List.length pre); [lia|assumption].
      * intros HT. split.
        -- intros _. eexists; split; [reflexivity|]. cbn [st_tot snd]. lia.
        -- intros Hno. exfalso. apply Hno. exists (List.length pre). split; [lia|lia].
    + assert (HSn : S0 < n * P).
      { assert (S0 <> n * P); [|lia]. intros E. apply Estop. rewrite E. apply Z.div_mul. lia. }
      destruct (Z.eq_dec (eb_len b) 0) as [E0|E0].
      * destruct (pm_inner_empty lens n P (List.length pre) b S0 HP Hnth HS0 HS0p E0 ltac:(lia) HSn _ Hst) as (s' & Hs' & Hst').
        rewrite Hs'. cbn [bind]. rewrite E0, Z.add_0_r in *. apply IH; auto.
      * assert (HL1 : 1 <= eb_len b) by lia.
        assert (Hfuel : (Z.to_nat (en_ep (span_entry b P S0) - S0 / P) + 2 <=
           pm_fuel (span_entry b P S0) (S0 / P) + (if (S0 <? S0 + eb_len b)%Z then 0 else 1))%nat) by (unfold pm_fuel; lia).
        assert (Hrange : S0 <= S0 <= S0 + eb_len b) by lia. assert (HSLb : S0 + eb_len b < big) by lia.
        destruct (pm_inner_spec lens n P (List.length pre) b S0 HP Hnth HS0 HS0p HL1 HSLb Hn _ S0 _ Hrange (or_introl eq_refl) Hfuel Hle Hst) as [H1 H2].
        destruct (Z_le_gt_dec (S0 + eb_len b) (n * P)) as [Q|Q].
        -- destruct (H1 Q) as (s' & Hs' & Hst'). rewrite Hs'. cbn [bind]. apply IH; auto.
        -- rewrite H2 by lia. cbn [bind]. split; [lia|]. intros HT. split; [|reflexivity].
           intros (j & Hj & Ej). exfalso.
           destruct (le_lt_dec j (List.length pre)) as [C|C].
           ++ pose proof (fstart_mono lens j (List.length pre) HF C). lia.
           ++ pose proof (fstart_mono lens (S (List.length pre)) j HF ltac:(lia)) as Hm. rewrite (fstart_S _ _ _ Hnth) in Hm. lia.
Qed.

Lemma MakePieceMap_spec bs n P : sane P (lens_of bs) -> 0 <= n ->
  let lens := lens_of bs in let T := zsum lens in
  let r := MakePieceMap (span_list bs P 0) n P T in
  (T <= n * P -> exists pm, r = Ok pm /\ pm_at lens n P T (List.length lens) pm) /\
  (n * P < T -> (file_boundary lens (n * P) -> r = Err EInvalid) /\ (~ file_boundary lens (n * P) -> r = Panic)).
Proof.
  intros (HP & HF & HB) Hn lens T. unfold MakePieceMap.
  assert (Hinit : st_at lens n P 0 0 (repeat [] (Z.to_nat n), 0, P, 0)).
  { unfold st_at. rewrite Z.div_0_l, Z.mod_0_l by lia. split; [reflexivity|]. split; [lia|]. split; [reflexivity|].
    split; [unfold zlen; rewrite repeat_length; lia|]. intros j l Hj. apply nth_error_In, repeat_spec in Hj. subst l.
    rewrite Z.div_0_l by lia. cbn [tiles increasing]. split; [exact I|]. split; [lia|]. split; [|reflexivity].
    intros E. split; [lia|constructor]. }
  assert (Hnp : 0 <= n * P) by (apply Z.mul_nonneg_nonneg; lia).
  destruct (pm_outer_spec n P HP Hn bs [] _ HF HB Hnp Hinit) as [H1 H2].
  cbn [app List.length] in H1, H2. fold lens in H1, H2. change (zsum []) with 0 in H1, H2. fold T in H1, H2. cbv zeta. split.
  - intros HT. destruct (H1 HT) as ([[[pm pidx] prem] tot] & Hs & Ht & Hpm). rewrite Hs. cbn [bind]. cbn [st_tot st_pm fst snd] in *.
    rewrite Ht, Z.eqb_refl. eauto.
  - intros HT. destruct (H2 HT) as [A B]. split.
    + intros Hb. destruct (A Hb) as ([[[pm pidx] prem] tot] & Hs & Ht). rewrite Hs. cbn [bind]. cbn [st_tot snd] in Ht.
      replace (tot =? T) with false by lia. reflexivity.
    + intros Hb. rewrite (B Hb). reflexivity.
Qed.

(** ** Reading through a tiling *)
Lemma skipn_add {A} (l : list A) a b : skipn a (skipn b l) = skipn (b + a) l.
Proof. revert b; induction l as [|x l IH]; intros [|b]; cbn [skipn]; try reflexivity; [now rewrite !skipn_nil|apply IH]. Qed.

Lemma sub_split {A} (l : list A) a n m : sub l a (n + m) = sub l a n ++ sub l (a + n) m.
Proof.
  unfold sub. rewrite <- (skipn_add l n a). generalize (skipn a l) as r. clear. intros r. revert r.
  induction n as [|n IH]; intros r; cbn [Nat.add firstn skipn]; [reflexivity|].
  destruct r as [|x r]; cbn [firstn app skipn]; [now destruct m|]. f_equal. apply IH.
Qed.

Lemma concat_start (cs : list bytes) k : zsum (firstn k (map zlen cs)) = zlen (List.concat (firstn k cs)).
Proof.
  revert k; induction cs as [|c cs IH]; intros [|k]; cbn [firstn map List.concat]; try reflexivity.
  rewrite zlen_app. rewrite <- IH. reflexivity.
Qed.

Lemma sub_concat (cs : list bytes) k seek n : (k < List.length cs)%nat -> 0 <= seek -> 0 <= n ->
  seek + n <= zlen (nth k cs []) ->
  sub (nth k cs []) (Z.to_nat seek) (Z.to_nat n) =
  sub (List.concat cs) (Z.to_nat (fstart (map zlen cs) k + seek)) (Z.to_nat n).
Proof.
  intros Hk Hs Hn Hb. unfold fstart. rewrite concat_start.
  set (p := List.concat (firstn k cs)). set (f := nth k cs []) in *.
  assert (E : List.concat cs = p ++ f ++ List.concat (skipn (S k) cs)).
  { unfold p, f. rewrite <- (firstn_skipn k cs) at 1. rewrite concat_app. f_equal.
    clear - Hk. revert k Hk; induction cs as [|c cs IH]; intros [|k] Hk; cbn [List.length] in Hk; try lia; cbn [skipn nth]; [reflexivity|].
    apply IH. lia. }
  rewrite E. replace (Z.to_nat (zlen p + seek)) with (List.length p + Z.to_nat seek)%nat by (unfold zlen; lia).
  unfold sub. rewrite <- skipn_add. rewrite (skipn_app (List.length p)), skipn_all, Nat.sub_diag. cbn [skipn app].
  rewrite skipn_app, firstn_app.
  assert (Hz : (Z.to_nat n - List.length (skipn (Z.to_nat seek) f) = 0)%nat) by (rewrite skipn_length; unfold zlen in Hb; lia).
  rewrite Hz. cbn [firstn]. now rewrite app_nil_r.
Qed.

Lemma tiles_le lens locs : forall a b, tiles lens locs a b -> a <= b.
Proof. induction locs as [|l r IH]; intros a b H; cbn [tiles] in H; [lia|]. destruct H as (_ & _ & ? & _ & _ & H). apply IH in H. lia. Qed.

Lemma tiles_read cs : forall locs a b, 0 <= a -> tiles (map zlen cs) locs a b ->
  read_locs cs locs = range (List.concat cs) a b.
Proof.
  induction locs as [|l r IH]; intros a b Ha H; unfold read_locs; cbn [flat_map]; cbn [tiles] in H.
  - subst. unfold range, sub. rewrite Z.sub_diag. reflexivity.
  - destruct H as (Hk & Hs & Hn & Hb & Hst & Ht). rewrite map_length in Hk.
    pose proof (tiles_le _ _ _ _ Ht) as Hle.
    fold (read_locs cs r). assert (Ha' : 0 <= a + ReadAmnt (pl_info l)) by lia. rewrite (IH _ _ Ha' Ht).
    rewrite sub_concat; auto.
    + rewrite Hst. unfold range. replace (Z.to_nat (b - a)) with (Z.to_nat (ReadAmnt (pl_info l)) + Z.to_nat (b - (a + ReadAmnt (pl_info l))))%nat by lia.
      rewrite sub_split. f_equal. f_equal. lia.
    + unfold flen in Hb. replace 0 with (zlen (@nil byte)) in Hb by reflexivity. rewrite map_nth in Hb. exact Hb.
Qed.

(** What the map says at the end, for every piece. *)
Lemma pm_at_final lens n P hi pm j l : 1 <= P -> let T := zsum lens in 0 <= T -> pm_at lens n P T hi pm -> nth_error pm j = Some l ->
  increasing 0 l /\ tiles lens l (Z.min (Z.of_nat j * P) T) (Z.min ((Z.of_nat j + 1) * P) T).
Proof.
  intros HP T HT [_ Hpm] Hj. destruct (Hpm j l Hj) as (Hi & H1 & H2 & H3). split; [assumption|].
  pose proof (Z.div_mod T P ltac:(lia)) as D. pose proof (Z.mod_pos_bound T P ltac:(lia)) as M.
  assert (Hm : (Z.of_nat j + 1) * P = Z.of_nat j * P + P) by ring.
  destruct (Z.lt_trichotomy (Z.of_nat j) (T / P)) as [C|[C|C]].
  - assert (Hle : (Z.of_nat j + 1) * P <= T / P * P) by (apply Z.mul_le_mono_nonneg_r; lia).
    rewrite !Z.min_l by lia. apply H1; assumption.
  - rewrite Z.min_l, Z.min_r by (rewrite ?Hm, C; lia). apply H2; assumption.
  - assert (Hle : (T / P + 1) * P <= Z.of_nat j * P) by (apply Z.mul_le_mono_nonneg_r; lia).
    rewrite !Z.min_r by lia. rewrite (H3 C). reflexivity.
Qed.

(** ** NewTorInfo *)
Lemma NewTorInfo_bad_hashes name P hashes files : zlen hashes mod 20 <> 0 -> NewTorInfo name P hashes files = Err EInvalid.
Proof. intros H. unfold NewTorInfo. replace (zlen hashes mod 20 =? 0) with false by lia. reflexivity. Qed.

Definition built (name : bytes) (P : Z) (hashes : bytes) (files : list ebase) (pm : list (list ploc)) : torinfo :=
  mkti name P hashes (zlen hashes / 20) (zsum (lens_of files)) (span_list files P 0) (Nat.eqb (List.length files) 1) pm
    (sub64 P (sub64 (mul64 (zlen hashes / 20) P) (zsum (lens_of files)))).

Lemma NewTorInfo_spec name P hashes files : sane P (lens_of files) -> zlen hashes mod 20 = 0 ->
  let lens := lens_of files in let T := zsum lens in let n := zlen hashes / 20 in
  (T <= n * P -> exists pm, NewTorInfo name P hashes files = Ok (built name P hashes files pm) /\ pm_at lens n P T (List.length lens) pm) /\
  (n * P < T -> (file_boundary lens (n * P) -> NewTorInfo name P hashes files = Err EInvalid) /\
                (~ file_boundary lens (n * P) -> NewTorInfo name P hashes files = Panic)).
Proof.
  intros HS H20 lens T n. pose proof HS as (HP & HF & HB). unfold NewTorInfo. rewrite H20. cbn [Z.eqb negb].
  rewrite MakeFileList_spec by assumption. rewrite sum64_spec by assumption. cbn [bind]. fold n.
  assert (Hn : 0 <= n) by (unfold n; apply Z.div_pos; [apply zlen_nonneg|lia]).
  destruct (MakePieceMap_spec files n P HS Hn) as [H1 H2]. fold lens T in H1, H2 |- *. split.
  - intros HT. destruct (H1 HT) as (pm & Hpm & Hat). rewrite Hpm. cbn [bind]. exists pm. split; [reflexivity|assumption].
  - intros HT. destruct (H2 HT) as [A B]. split; intros Hb; [rewrite (A Hb)|rewrite (B Hb)]; reflexivity.
Qed.

(** ** Statements used by the property file *)

Lemma MakeFileList_entries bs P : sane P (lens_of bs) ->
  exists es, MakeFileList bs P = Ok es /\ List.length es = List.length bs /\
  forall k b e, nth_error bs k = Some b -> nth_error es k = Some e ->
    let S0 := fstart (lens_of bs) k in let L := eb_len b in
    en_base e = b /\ en_sp e = S0 / P /\ en_so e = S0 mod P /\
    (1 <= L -> en_ep e = (S0 + L - 1) / P /\ en_eo e = (S0 + L - 1) mod P) /\
    (L = 0 -> 2 <= P -> en_ep e = S0 / P /\ en_eo e = S0 mod P - 1) /\
    (L = 0 -> P = 1 -> en_ep e = S0 - 1 /\ en_eo e = 0).
Proof.
  intros H. exists (span_list bs P 0). split; [apply MakeFileList_spec; assumption|]. split; [apply span_list_length|].
  intros k b e Hb He. rewrite (span_list_nth P bs 0 k b Hb) in He. injection He as <-. cbv zeta.
  change (0 + fstart (lens_of bs) k) with (fstart (lens_of bs) k).
  rewrite span_base, span_sp, span_so. split; [reflexivity|]. split; [reflexivity|]. split; [reflexivity|].
  unfold span_entry. split; [|split].
  - intros HL. replace (eb_len b =? 0) with false by lia. split; reflexivity.
  - intros HL HP. rewrite HL. cbn [Z.eqb]. replace (P =? 1) with false by lia. split; reflexivity.
  - intros HL HP. rewrite HL, HP. cbn [Z.eqb Pos.eqb]. cbn [en_ep en_eo]. rewrite Z.div_1_r. split; reflexivity.
Qed.

(** Adding an empty file in the middle leaves the spans of all other files unchanged. *)
Lemma span_list_app P : forall a b S0, span_list (a ++ b) P S0 = span_list a P S0 ++ span_list b P (S0 + zsum (lens_of a)).
Proof.
  induction a as [|x a IH]; intros b S0; cbn [app span_list lens_of map zsum fold_right]; [now rewrite Z.add_0_r|].
  rewrite IH. unfold zsum, lens_of. do 3 f_equal. lia.
Qed.

Lemma sane_insert P a z b : sane P (lens_of (a ++ b)) -> eb_len z = 0 -> sane P (lens_of (a ++ z :: b)).
Proof.
  unfold sane, lens_of. rewrite !map_app. cbn [map]. intros (H1 & H2 & H3) Hz. rewrite Hz. apply Forall_app in H2.
  split; [assumption|]. split; [apply Forall_app; split; [tauto|constructor; [lia|tauto]]|].
  rewrite zsum_app in *. unfold zsum in *. cbn [fold_right]. lia.
Qed.

Lemma MakeFileList_empty_file P a z b es : sane P (lens_of (a ++ b)) -> eb_len z = 0 -> MakeFileList (a ++ b) P = Ok es ->
  exists ez, MakeFileList (a ++ z :: b) P = Ok (firstn (List.length a) es ++ ez :: skipn (List.length a) es).
Proof.
  intros HS Hz. rewrite (MakeFileList_spec _ _ HS). rewrite (MakeFileList_spec _ _ (sane_insert _ _ z _ HS Hz)).
  intros H. injection H as <-. rewrite !span_list_app. cbn [span_list]. rewrite Hz, Z.add_0_r.
  exists (span_entry z P (0 + zsum (lens_of a))).
  rewrite firstn_app, skipn_app, span_list_length, Nat.sub_diag, firstn_all2, skipn_all2 by (rewrite span_list_length; lia).
  cbn [firstn skipn app]. now rewrite app_nil_r.
Qed.

Lemma flist_nth bs P es k b e : sane P (lens_of bs) -> MakeFileList bs P = Ok es -> nth_error bs k = Some b -> nth_error es k = Some e ->
  e = span_entry b P (fstart (lens_of bs) k) /\ 0 <= fstart (lens_of bs) k /\ 0 <= eb_len b /\ fstart (lens_of bs) k + eb_len b < big.
Proof.
  intros HS HM Hb He. rewrite (MakeFileList_spec _ _ HS) in HM. injection HM as <-.
  rewrite (span_list_nth P bs 0 k b Hb) in He. injection He as <-.
  change (0 + fstart (lens_of bs) k) with (fstart (lens_of bs) k). split; [reflexivity|].
  destruct HS as (HP & HF & HB). split; [apply fstart_nonneg; assumption|].
  assert (Hl : nth_error (lens_of bs) k = Some (eb_len b)) by (unfold lens_of; rewrite nth_error_map, Hb; reflexivity).
  split; [rewrite Forall_forall in HF; apply HF; eapply nth_error_In; eassumption|].
  rewrite <- (fstart_S _ _ _ Hl). pose proof (fstart_le (lens_of bs) (S k) HF). lia.
Qed.

Lemma PieceInfo_range bs P es k b e i : sane P (lens_of bs) -> MakeFileList bs P = Ok es ->
  nth_error bs k = Some b -> nth_error es k = Some e -> 1 <= eb_len b ->
  let S0 := fstart (lens_of bs) k in let L := eb_len b in
  let lo := Z.max S0 (i * P) in let hi := Z.min (S0 + L) ((i + 1) * P) in
  (lo < hi -> PieceInfo e i P = Ok (mkpi (lo - S0) (hi - lo))) /\
  (hi <= lo -> PieceInfo e i P = Err EBounds).
Proof.
  intros HS HM Hb He HL S0 L lo hi. destruct (flist_nth _ _ _ _ _ _ HS HM Hb He) as (-> & HS0 & _ & HB).
  destruct HS as (HP & _). rewrite PieceInfo_spec by assumption. cbv zeta. fold S0 L.
  assert (Hmul : (i + 1) * P = i * P + P) by ring.
  assert (A : (S0 / P <=? i) = (S0 <? (i + 1) * P)).
  { pose proof (Z.div_mod S0 P ltac:(lia)). pose proof (Z.mod_pos_bound S0 P ltac:(lia)).
    destruct (Z.leb_spec (S0 / P) i) as [Q|Q]; symmetry; [apply Z.ltb_lt|apply Z.ltb_ge].
    - assert (S0 / P * P <= i * P) by (apply Z.mul_le_mono_nonneg_r; lia). lia.
    - assert ((i + 1) * P <= S0 / P * P) by (apply Z.mul_le_mono_nonneg_r; lia). lia. }
  assert (B : (i <=? (S0 + L - 1) / P) = (i * P <? S0 + L)).
  { pose proof (Z.div_mod (S0 + L - 1) P ltac:(lia)). pose proof (Z.mod_pos_bound (S0 + L - 1) P ltac:(lia)).
    destruct (Z.leb_spec i ((S0 + L - 1) / P)) as [Q|Q]; symmetry; [apply Z.ltb_lt|apply Z.ltb_ge].
    - assert (i * P <= (S0 + L - 1) / P * P) by (apply Z.mul_le_mono_nonneg_r; lia). lia.
    - assert (((S0 + L - 1) / P + 1) * P <= i * P) by (apply Z.mul_le_mono_nonneg_r; lia). lia. }
  rewrite A, B. fold L in HL. split; intros H; unfold lo, hi in *.
  - replace (S0 <? (i + 1) * P) with true by lia. replace (i * P <? S0 + L) with true by lia. cbn [andb].
    f_equal. f_equal. lia.
  - replace ((S0 <? (i + 1) * P) && (i * P <? S0 + L)) with false by lia. reflexivity.
Qed.

Lemma GetFiles_sublist bs P es p : sane P (lens_of bs) -> MakeFileList bs P = Ok es ->
  GetFiles es p = filter (fun e => (en_sp e <=? p) && (p <=? en_ep e)) es.
Proof. intros HS HM. rewrite (MakeFileList_spec _ _ HS) in HM. injection HM as <-. apply GetFiles_spec. assumption. Qed.

Lemma GetFiles_bytes bs P es p k b e : sane P (lens_of bs) -> MakeFileList bs P = Ok es ->
  nth_error bs k = Some b -> nth_error es k = Some e -> 1 <= eb_len b ->
  (((en_sp e <=? p) && (p <=? en_ep e) = true) <->
   exists x, fstart (lens_of bs) k <= x < fstart (lens_of bs) k + eb_len b /\ x / P = p).
Proof.
  intros HS HM Hb He HL. destruct (flist_nth _ _ _ _ _ _ HS HM Hb He) as (-> & HS0 & _ & HB).
  apply hits_iff_byte; auto. apply HS.
Qed.

Lemma CalcNumPieces_ceil bs P : sane P (lens_of bs) ->
  exists n, CalcNumPieces bs P = Ok n /\
  (zsum (lens_of bs) = 0 -> n = 0) /\ (0 < zsum (lens_of bs) -> (n - 1) * P < zsum (lens_of bs) <= n * P).
Proof.
  intros HS. eexists. split; [apply CalcNumPieces_spec; assumption|]. destruct HS as (HP & HF & _).
  apply pieces_needed_spec; [lia|apply zsum_nonneg; assumption].
Qed.

Lemma needed_ge P T : 1 <= P -> 0 <= T -> T <= pieces_needed P T * P.
Proof. intros HP HT. destruct (pieces_needed_spec P T HP HT) as [A B]. destruct (Z.eq_dec T 0) as [->|]; [rewrite A by reflexivity|apply B]; lia. Qed.

Lemma needed_lt P T n : 1 <= P -> 0 <= T -> (n < pieces_needed P T <-> n * P < T).
Proof.
  intros HP HT. destruct (pieces_needed_spec P T HP HT) as [A B]. destruct (Z.eq_dec T 0) as [->|E].
  - rewrite A by reflexivity. split; nia.
  - assert (HB : 0 < T) by lia. specialize (B HB). split; intros H.
    + assert (n * P <= (pieces_needed P T - 1) * P) by (apply Z.mul_le_mono_nonneg_r; lia). lia.
    + assert (n * P < pieces_needed P T * P) by lia. apply Z.mul_lt_mono_pos_r in H0; lia.
Qed.

Lemma PieceLookup_built name P hashes files pm i l : sane P (lens_of files) -> pm_at (lens_of files) (zlen hashes / 20) P (zsum (lens_of files)) (List.length (lens_of files)) pm ->
  (0 <= i < zlen hashes / 20 <-> exists l, PieceLookup (built name P hashes files pm) i = Ok l) /\
  (~ (0 <= i < zlen hashes / 20) -> PieceLookup (built name P hashes files pm) i = Err EBounds) /\
  (PieceLookup (built name P hashes files pm) i = Ok l ->
    increasing 0 l /\ tiles (lens_of files) l (Z.min (i * P) (zsum (lens_of files))) (Z.min ((i + 1) * P) (zsum (lens_of files)))).
Proof.
  intros (HP & HF & HB) Hat. unfold PieceLookup, built. cbn [ti_npieces ti_pm]. set (n := zlen hashes / 20) in *.
  pose proof Hat as [Hlen _]. unfold zlen in Hlen.
  destruct (Z.ltb_spec i 0) as [A|A].
  { split; [split; [lia|intros [? H]; discriminate]|]. split; [reflexivity|discriminate]. }
  destruct (Z.leb_spec n i) as [C|C].
  { split; [split; [lia|intros [? H]; discriminate]|]. split; [reflexivity|discriminate]. }
  destruct (nth_error pm (Z.to_nat i)) as [l'|] eqn:E.
  2: { apply nth_error_None in E. lia. }
  split; [split; [eauto|lia]|]. split; [lia|]. intros H. injection H as <-.
  pose proof (pm_at_final (lens_of files) n P (List.length (lens_of files)) pm (Z.to_nat i) l' ltac:(lia) (zsum_nonneg _ HF) Hat E) as Hf.
  rewrite Z2Nat.id in Hf by lia. exact Hf.
Qed.

Lemma NewTorInfo_partition name P hashes files :
  sane P (lens_of files) -> zlen hashes = 20 * pieces_needed P (zsum (lens_of files)) ->
  exists ti, NewTorInfo name P hashes files = Ok ti /\
    ti_npieces ti = pieces_needed P (zsum (lens_of files)) /\
    forall i,
      (0 <= i < ti_npieces ti <-> exists locs, PieceLookup ti i = Ok locs) /\
      (~ (0 <= i < ti_npieces ti) -> PieceLookup ti i = Err EBounds) /\
      forall locs, PieceLookup ti i = Ok locs ->
        increasing 0 locs /\
        tiles (lens_of files) locs (i * P) (Z.min ((i + 1) * P) (zsum (lens_of files))) /\
        forall contents, map zlen contents = lens_of files -> read_locs contents locs = piece_bytes P contents i.
Proof.
  intros HS Hh. pose proof HS as (HP & HF & HB). pose proof (zsum_nonneg _ HF) as HT0.
  assert (Hn : zlen hashes / 20 = pieces_needed P (zsum (lens_of files))) by (rewrite Hh, Z.mul_comm; apply Z.div_mul; lia).
  assert (Hm : zlen hashes mod 20 = 0) by (rewrite Hh, Z.mul_comm; apply Z.mod_mul; lia).
  destruct (NewTorInfo_spec name P hashes files HS Hm) as [H1 _].
  destruct H1 as (pm & Hnew & Hat); [rewrite Hn; apply needed_ge; lia|].
  eexists. split; [exact Hnew|]. split; [exact Hn|]. intros i. cbn [ti_npieces built].
  split; [apply (PieceLookup_built name P hashes files pm i [] HS Hat)|].
  split; [apply (PieceLookup_built name P hashes files pm i [] HS Hat)|].
  intros locs Hl. destruct (PieceLookup_built name P hashes files pm i locs HS Hat) as (Hr & _ & Hok).
  specialize (Hok Hl). assert (Hin : 0 <= i < zlen hashes / 20) by (apply Hr; eauto). destruct Hok as [Hi Ht].
  assert (Hlt : i * P < zsum (lens_of files)) by (apply needed_lt; lia).
  split; [assumption|]. rewrite (Z.min_l (i * P)) in Ht by lia. split; [assumption|].
  intros contents Hc. unfold piece_bytes.
  assert (Htot : zlen (List.concat contents) = zsum (lens_of files)).
  { rewrite <- Hc. rewrite <- (firstn_all contents) at 1. rewrite <- concat_start. f_equal.
    rewrite <- (map_length zlen contents) at 1. apply firstn_all. }
  rewrite Htot. rewrite (Z.min_l (i * P)) by lia. apply tiles_read; [nia|]. rewrite Hc. assumption.
Qed.

(** The pieces of [pieces_needed] put together are the whole content. *)
Lemma range_app (l : bytes) a b c : 0 <= a <= b -> b <= c -> range l a b ++ range l b c = range l a c.
Proof.
  intros H1 H2. unfold range. replace (Z.to_nat (c - a)) with (Z.to_nat (b - a) + Z.to_nat (c - b))%nat by lia.
  rewrite sub_split. do 2 f_equal. lia.
Qed.

Lemma pieces_cover P contents n : 1 <= P -> zlen (List.concat contents) <= Z.of_nat n * P ->
  List.concat (map (fun i => piece_bytes P contents (Z.of_nat i)) (seq 0 n)) = List.concat contents.
Proof.
  intros HP Hn. set (T := zlen (List.concat contents)) in *.
  assert (HT : 0 <= T) by apply zlen_nonneg.
  assert (G : forall k, List.concat (map (fun i => piece_bytes P contents (Z.of_nat i)) (seq 0 k)) = range (List.concat contents) 0 (Z.min (Z.of_nat k * P) T)).
  { induction k as [|k IH].
    - cbn [seq map List.concat Z.of_nat]. rewrite Z.mul_0_l, Z.min_l by lia. reflexivity.
    - rewrite seq_S, map_app, concat_app, IH. cbn [map List.concat Nat.add]. rewrite app_nil_r. unfold piece_bytes. fold T.
      assert (0 <= Z.of_nat k * P) by nia.
      rewrite range_app by lia. f_equal. rewrite Nat2Z.inj_succ. unfold Z.succ. lia. }
  rewrite G. rewrite Z.min_r by lia. unfold range. cbn [Z.to_nat]. rewrite Z.sub_0_r. unfold T, zlen. rewrite Nat2Z.id. apply sub_all.
Qed.

Lemma NewTorInfo_count name P hashes files :
  sane P (lens_of files) -> zlen hashes mod 20 = 0 ->
  let T := zsum (lens_of files) in let n := zlen hashes / 20 in
  (pieces_needed P T <= n <-> exists ti, NewTorInfo name P hashes files = Ok ti) /\
  (n < pieces_needed P T -> file_boundary (lens_of files) (n * P) -> NewTorInfo name P hashes files = Err EInvalid) /\
  (n < pieces_needed P T -> ~ file_boundary (lens_of files) (n * P) -> NewTorInfo name P hashes files = Panic).
Proof.
  intros HS Hm T n. pose proof HS as (HP & HF & HB). pose proof (zsum_nonneg _ HF) as HT0. fold T in HT0.
  destruct (NewTorInfo_spec name P hashes files HS Hm) as [H1 H2]. fold T n in H1, H2.
  pose proof (needed_lt P T n ltac:(lia) HT0) as Hlt.
  split; [split|split].
  - intros Hle. destruct H1 as (pm & Hpm & _); [lia|eauto].
  - intros [ti Hti]. destruct (Z_lt_le_dec n (pieces_needed P T)) as [C|C]; [|lia]. exfalso.
    destruct H2 as [A B]; [lia|].
    assert (D : file_boundary (lens_of files) (n * P) \/ ~ file_boundary (lens_of files) (n * P)).
    { unfold file_boundary. clear. generalize (List.length (lens_of files)) as m. induction m as [|m [[k [Hk E]]|IH]].
      - destruct (Z.eq_dec (fstart (lens_of files) 0) (n * P)) as [E|E]; [left; exists 0%nat; split; [lia|assumption]|].
        right. intros (k & Hk & Ek). assert (k = 0)%nat by lia. subst k. contradiction.
      - left. exists k. split; [lia|assumption].
      - destruct (Z.eq_dec (fstart (lens_of files) (S m)) (n * P)) as [E|E]; [left; exists (S m); split; [lia|assumption]|].
        right. intros (k & Hk & Ek). destruct (Nat.eq_dec k (S m)) as [->|]; [contradiction|]. apply IH. exists k. split; [lia|assumption]. }
    destruct D as [D|D]; [rewrite (A D) in Hti|rewrite (B D) in Hti]; discriminate.
  - intros C D. apply H2; [lia|assumption].
  - intros C D. apply H2; [lia|assumption].
Qed.

Lemma lastlen_exact name P hashes files ti :
  sane P (lens_of files) -> zlen hashes = 20 * pieces_needed P (zsum (lens_of files)) -> 0 < zsum (lens_of files) ->
  NewTorInfo name P hashes files = Ok ti ->
  1 <= ti_lastlen ti <= P /\ ti_lastlen ti = zsum (lens_of files) - (ti_npieces ti - 1) * P.
Proof.
  intros HS Hh Hpos Hti. pose proof HS as (HP & HF & HB). set (T := zsum (lens_of files)) in *.
  assert (Hn : zlen hashes / 20 = pieces_needed P T) by (rewrite Hh, Z.mul_comm; apply Z.div_mul; lia).
  assert (Hm : zlen hashes mod 20 = 0) by (rewrite Hh, Z.mul_comm; apply Z.mod_mul; lia).
  destruct (NewTorInfo_spec name P hashes files HS Hm) as [H1 _]. fold T in H1. rewrite Hn in H1.
  destruct H1 as (pm & Hnew & Hat); [apply needed_ge; lia|]. rewrite Hnew in Hti. injection Hti as <-.
  cbn [built ti_lastlen ti_npieces]. fold T. rewrite Hn. unfold mul64, sub64.
  destruct (pieces_needed_spec P T ltac:(lia) ltac:(lia)) as [_ B]. specialize (B Hpos).
  assert (Hmul : (pieces_needed P T - 1) * P = pieces_needed P T * P - P) by ring.
  rewrite (i64_big (pieces_needed P T * P)) by (inrange; lia).
  rewrite (i64_big (pieces_needed P T * P - T)) by (inrange; lia). rewrite i64_big by (inrange; lia). lia.
Qed.

Lemma surplus_hashes name P hashes files ti :
  sane P (lens_of files) -> zlen hashes mod 20 = 0 ->
  let T := zsum (lens_of files) in let n := zlen hashes / 20 in
  pieces_needed P T < n -> n * P < 2 * big -> NewTorInfo name P hashes files = Ok ti ->
  ti_lastlen ti <= 0 /\
  forall i locs, pieces_needed P T <= i < n -> PieceLookup ti i = Ok locs -> Forall (fun l => ReadAmnt (pl_info l) = 0) locs.
Proof.
  intros HS Hm T n Hsur Hb Hti. pose proof HS as (HP & HF & HB). pose proof (zsum_nonneg _ HF) as HT0. fold T in HT0.
  pose proof (needed_ge P T ltac:(lia) HT0) as Hge.
  destruct (NewTorInfo_spec name P hashes files HS Hm) as [H1 _]. fold T n in H1.
  assert (Hnp : (pieces_needed P T + 1) * P <= n * P) by (apply Z.mul_le_mono_nonneg_r; lia).
  destruct H1 as (pm & Hnew & Hat); [lia|]. rewrite Hnew in Hti. injection Hti as <-. split.
  - cbn [built ti_lastlen]. fold T n. unfold mul64, sub64. rewrite (i64_big (n * P)) by (inrange; lia).
    rewrite (i64_big (n * P - T)) by (inrange; lia). rewrite i64_id by (inrange; lia). lia.
  - intros i locs Hi Hl. destruct (PieceLookup_built name P hashes files pm i locs HS Hat) as (_ & _ & H).
    destruct (H Hl) as [_ Ht]. fold T in Ht.
    assert (pieces_needed P T * P <= i * P) by (apply Z.mul_le_mono_nonneg_r; lia).
    rewrite !Z.min_r in Ht by lia. clear - Ht.
    enough (G : forall a, T <= a -> tiles (lens_of files) locs a T -> Forall (fun l => ReadAmnt (pl_info l) = 0) locs) by (apply (G T); [lia|assumption]).
    clear Ht. induction locs as [|l r IH]; intros a Ha Ht; [constructor|]. cbn [tiles] in Ht.
    destruct Ht as (_ & _ & Hn & _ & _ & Ht). pose proof (tiles_le _ _ _ _ Ht). constructor; [lia|]. eapply IH; [|exact Ht]. lia.
Qed.

Lemma zero_piece_length name hashes files : zlen hashes mod 20 = 0 -> files <> [] -> NewTorInfo name 0 hashes files = Panic.
Proof.
  intros Hm Hf. unfold NewTorInfo. rewrite Hm. cbn [Z.eqb negb]. destruct files as [|b r]; [contradiction|]. reflexivity.
Qed.

Lemma PieceHash_spec ti i : zlen (ti_hashes ti) = 20 * ti_npieces ti -> zlen (ti_hashes ti) < big -> -100000000000000000 <= i <= 100000000000000000 ->
  PieceHash ti i = if (0 <=? i) && (i <? ti_npieces ti) then Ok (range (ti_hashes ti) (20 * i) (20 * i + 20)) else Panic.
Proof.
  intros Hl Hb Hi. unfold PieceHash, mul64, add64. unfold big in Hb. rewrite (i64_id (i * 20)) by (unfold min64, max64; lia).
  rewrite (i64_id (i * 20 + 20)) by (unfold min64, max64; lia). rewrite Hl.
  destruct ((0 <=? i) && (i <? ti_npieces ti)) eqn:E.
  - replace ((0 <=? i * 20) && (i * 20 <=? i * 20 + 20) && (i * 20 + 20 <=? 20 * ti_npieces ti)) with true by lia.
    unfold range. do 2 f_equal; lia.
  - replace ((0 <=? i * 20) && (i * 20 <=? i * 20 + 20) && (i * 20 + 20 <=? 20 * ti_npieces ti)) with false by lia. reflexivity.
Qed.
