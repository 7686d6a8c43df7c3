(** LayoutProofs.v: lemmas about the layout model. *)
From Verif Require Import Base BencodeModel PathModel LayoutModel LayoutSpec.
From Coq Require Import ZifyBool ZifyNat ZifyN.

Ltac inrange := unfold big, min64, max64 in *.

Lemma i64_big z : - big <= z <= 2 * big - 1 -> i64 z = z.
Proof. intros. apply i64_id. inrange. lia. Qed.

Lemma zsum_nonneg l : Forall (fun n => 0 <= n) l -> 0 <= zsum l.
Proof. induction 1; cbn [zsum fold_right]; [lia|]. unfold zsum in *. lia. Qed.

Lemma zsum_app a b : zsum (a ++ b) = zsum a + zsum b.
Proof. unfold zsum. rewrite fold_right_app. induction a as [|x a IH]; cbn [fold_right]; [lia|]. unfold zsum in *. lia. Qed.

Lemma div_unique_pos a b q r : 0 <= r < b -> a = b * q + r -> a / b = q.
Proof. intros H E. symmetry. apply Z.div_unique with r; [left; lia|assumption]. Qed.
Lemma mod_unique_pos a b q r : 0 <= r < b -> a = b * q + r -> a mod b = r.
Proof. intros H E. symmetry. apply Z.mod_unique with q; [left; lia|assumption]. Qed.

Lemma step_div P i o q r L' S0 k e : S0 = P * i + o -> L' = P * q + r -> 0 <= e < P -> o + r = P * k + e ->
  (S0 + L') / P = i + q + k /\ (S0 + L') mod P = e.
Proof.
  intros -> -> He E.
  assert (X : P * i + o + (P * q + r) = P * (i + q + k) + e).
  { replace (P * i + o + (P * q + r)) with (P * i + P * q + (o + r)) by ring. rewrite E. ring. }
  split; [apply div_unique_pos with e|apply mod_unique_pos with (i + q + k)]; assumption.
Qed.
Lemma step_div1 P i o q r L S0 k e : S0 = P * i + o -> L - 1 = P * q + r -> 0 <= e < P -> o + r + 1 = P * k + e ->
  (S0 + L) / P = i + q + k /\ (S0 + L) mod P = e.
Proof. intros ES EL He E. apply step_div with (o := o) (r := r + 1); lia. Qed.

(** ** MakeFileList *)

(** The entry of a file of length L starting at global byte S0. *)
Definition span_entry (b : ebase) (P S0 : Z) : entry :=
  if eb_len b =? 0 then
    (if P =? 1 then mken b (S0 / P) (S0 / P - 1) (S0 mod P) 0
     else mken b (S0 / P) (S0 / P) (S0 mod P) (S0 mod P - 1))
  else mken b (S0 / P) ((S0 + eb_len b - 1) / P) (S0 mod P) ((S0 + eb_len b - 1) mod P).

Lemma file_step_spec b P S0 : 1 <= P < big -> 0 <= S0 -> 0 <= eb_len b -> S0 + eb_len b < big ->
  file_step b P (S0 / P) (S0 mod P) = Ok (span_entry b P S0, (S0 + eb_len b) / P, (S0 + eb_len b) mod P).
Proof.
  intros HP HS HL HB. set (L := eb_len b) in *.
  pose proof (Z.div_mod S0 P ltac:(lia)) as DS. pose proof (Z.mod_pos_bound S0 P ltac:(lia)) as MS.
  assert (QS : 0 <= S0 / P <= S0) by (split; [apply Z.div_pos; lia|apply Z.div_le_upper_bound; nia]).
  set (i := S0 / P) in *. set (o := S0 mod P) in *.
  unfold file_step. fold L. unfold div64, rem64. replace (P =? 0) with false by lia. cbn [bind].
  unfold sub64. rewrite (i64_big (L - 1)) by (inrange; lia).
  destruct (Z.eqb_spec L 0) as [L0|L0].
  - rewrite L0 in *. replace (0 - 1) with (-(1)) by lia. rewrite Z.quot_opp_l, Z.rem_opp_l by lia.
    unfold span_entry. fold L. rewrite L0. cbn [Z.eqb].
    destruct (Z.eqb_spec P 1) as [P1|P1].
    + subst P. rewrite Z.quot_1_r, Z.rem_1_r. change (- (1)) with (-1). change (-0) with 0.
      rewrite (i64_big (-1)) by (inrange; lia). unfold add64. rewrite (i64_big (i + -1)), (i64_big (o + 0)) by (inrange; lia).
      assert (o = 0) by lia. replace (1 <=? o + 0) with false by lia. cbn [bind].
      rewrite (i64_big (o + 0 + 1)) by (inrange; lia). replace (o + 0 + 1 =? 1) with true by lia.
      rewrite (i64_big (i + -1 + 1)) by (inrange; lia). rewrite (Z.add_0_r S0). fold i o.
      replace (i + -1) with (i - 1) by lia. replace (o + 0) with 0 by lia.
      replace (i - 1 + 1) with i by lia. congruence.
    + rewrite Z.quot_small, Z.rem_small by lia. change (-0) with 0. rewrite (i64_big 0) by (inrange; lia).
      unfold add64. rewrite (i64_big (i + 0)), (i64_big (o + - (1))) by (inrange; lia).
      replace (P <=? o + - (1)) with false by lia. cbn [bind].
      rewrite (i64_big (o + - (1) + 1)) by (inrange; lia).
      replace (o + - (1) + 1) with o by lia. replace (o =? P) with false by lia. rewrite !Z.add_0_r. fold i o.
      replace (o + - (1)) with (o - 1) by lia. reflexivity.
  - assert (HL1 : 0 <= L - 1) by lia.
    rewrite Z.quot_div_nonneg, Z.rem_mod_nonneg by lia.
    pose proof (Z.div_mod (L - 1) P ltac:(lia)) as DL. pose proof (Z.mod_pos_bound (L - 1) P ltac:(lia)) as ML.
    assert (QL : 0 <= (L - 1) / P <= L - 1) by (split; [apply Z.div_pos; lia|apply Z.div_le_upper_bound; nia]).
    set (q := (L - 1) / P) in *. set (r := (L - 1) mod P) in *.
    rewrite (i64_big q) by (inrange; lia). unfold add64.
    rewrite (i64_big (i + q)), (i64_big (o + r)) by (inrange; lia).
    unfold span_entry. fold L. replace (L =? 0) with false by lia. fold i o.
    destruct (Z.leb_spec P (o + r)) as [C|C].
    + assert (D2 : Z.quot (o + r) P = 1) by (rewrite Z.quot_div_nonneg by lia; apply div_unique_pos with (o + r - P); lia).
      assert (R2 : Z.rem (o + r) P = o + r - P) by (rewrite Z.rem_mod_nonneg by lia; apply mod_unique_pos with 1; lia).
      rewrite D2, R2. clear D2 R2. cbn [bind].
      destruct (step_div P i o q r (L - 1) S0 1 (o + r - P) DS DL ltac:(lia) ltac:(lia)) as [E1 E2].
      destruct (step_div1 P i o q r L S0 1 (o + r - P + 1) DS DL ltac:(lia) ltac:(lia)) as [E3 E4].
      replace (S0 + (L - 1)) with (S0 + L - 1) in E1, E2 by lia. rewrite E1, E2, E3, E4. clearbody i o q r. clear E1 E2 E3 E4 DS DL.
      rewrite (i64_big 1), (i64_big (i + q + 1)), (i64_big (o + r - P + 1)) by (inrange; lia).
      destruct (Z.eqb_spec (o + r - P + 1) P) as [F|F]; [lia|]. reflexivity.
    + cbn [bind]. 
      destruct (step_div P i o q r (L - 1) S0 0 (o + r) DS DL ltac:(lia) ltac:(lia)) as [E1 E2].
      replace (S0 + (L - 1)) with (S0 + L - 1) in E1, E2 by lia. rewrite E1, E2.
      rewrite (i64_big (o + r + 1)) by (inrange; lia).
      destruct (Z.eqb_spec (o + r + 1) P) as [F|F].
      * destruct (step_div1 P i o q r L S0 1 0 DS DL ltac:(lia) ltac:(lia)) as [E3 E4]. rewrite E3, E4.
        clearbody i o q r. clear E1 E2 E3 E4 DS DL.
        rewrite (i64_big (i + q + 1)) by (inrange; lia). rewrite Z.add_0_r. reflexivity.
      * destruct (step_div1 P i o q r L S0 0 (o + r + 1) DS DL ltac:(lia) ltac:(lia)) as [E3 E4]. rewrite E3, E4.
        rewrite !Z.add_0_r. reflexivity.
Qed.

(** The entries for files starting at S0. *)
Fixpoint span_list (bs : list ebase) (P S0 : Z) : list entry :=
  match bs with [] => [] | b :: r => span_entry b P S0 :: span_list r P (S0 + eb_len b) end.

Lemma MakeFileList_loop_spec P : 1 <= P < big -> forall bs S0, 0 <= S0 ->
  Forall (fun n => 0 <= n) (lens_of bs) -> S0 + zsum (lens_of bs) < big ->
  MakeFileList_loop bs P (S0 / P) (S0 mod P) = Ok (span_list bs P S0).
Proof.
  intros HP. induction bs as [|b bs IH]; intros S0 HS HF HB; [reflexivity|].
  cbn [lens_of map] in HF, HB. inversion HF as [|? ? H1 H2]; subst. cbn [zsum fold_right] in HB. fold (zsum (map eb_len bs)) in HB.
  pose proof (zsum_nonneg _ H2). cbn [MakeFileList_loop]. rewrite file_step_spec by lia. cbn [bind].
  rewrite IH; [reflexivity|lia|assumption|unfold lens_of; lia].
Qed.

Lemma MakeFileList_spec bs P : sane P (lens_of bs) -> MakeFileList bs P = Ok (span_list bs P 0).
Proof.
  intros (HP & HF & HB). unfold MakeFileList.
  pose proof (MakeFileList_loop_spec P HP bs 0 ltac:(lia) HF ltac:(lia)) as H.
  rewrite Z.div_0_l, Z.mod_0_l in H by lia. exact H.
Qed.

Lemma span_list_length bs P S0 : List.length (span_list bs P S0) = List.length bs.
Proof. revert S0; induction bs; intros; cbn; auto. Qed.

Lemma span_list_nth P : forall bs S0 k b, nth_error bs k = Some b ->
  nth_error (span_list bs P S0) k = Some (span_entry b P (S0 + fstart (lens_of bs) k)).
Proof.
  induction bs as [|b0 bs IH]; intros S0 [|k] b H; try discriminate; cbn [span_list nth_error] in *.
  - injection H as ->. unfold fstart. cbn [firstn zsum fold_right]. now rewrite Z.add_0_r.
  - rewrite (IH _ _ _ H). unfold fstart. cbn [lens_of map firstn zsum fold_right]. do 2 f_equal.
    unfold zsum, lens_of. lia.
Qed.

Lemma span_base b P S0 : en_base (span_entry b P S0) = b.
Proof. unfold span_entry. destruct (_ =? 0); [destruct (_ =? 1)|]; reflexivity. Qed.
Lemma span_sp b P S0 : en_sp (span_entry b P S0) = S0 / P.
Proof. unfold span_entry. destruct (_ =? 0); [destruct (_ =? 1)|]; reflexivity. Qed.
Lemma span_so b P S0 : en_so (span_entry b P S0) = S0 mod P.
Proof. unfold span_entry. destruct (_ =? 0); [destruct (_ =? 1)|]; reflexivity. Qed.

(** ** PieceInfo *)

Lemma seek_loop_spec P : 1 <= P < big -> forall n seek off,
  0 <= off < P -> 0 <= seek -> seek + Z.of_nat n * P < big ->
  seek_loop n P seek off = match n with O => (seek, off) | S _ => (seek + Z.of_nat n * P - off, 0) end.
Proof.
  intros HP. induction n as [|n IH]; intros seek off Ho Hs Hb; [reflexivity|].
  assert (HN : 0 <= Z.of_nat n * P) by (apply Z.mul_nonneg_nonneg; lia).
  rewrite Nat2Z.inj_succ, Z.mul_succ_l in Hb |- *.
  cbn [seek_loop]. unfold add64, sub64. rewrite (i64_big (P - off)) by (inrange; lia).
  rewrite i64_big by (inrange; lia). rewrite IH by lia. destruct n; [cbn [Z.of_nat]|]; f_equal; lia.
Qed.

(** A non-empty file. *)
Lemma PieceInfo_spec b P S0 i : 1 <= P < big -> 0 <= S0 -> 1 <= eb_len b -> S0 + eb_len b < big ->
  let L := eb_len b in
  PieceInfo (span_entry b P S0) i P =
    if (S0 / P <=? i) && (i <=? (S0 + L - 1) / P)
    then Ok (mkpi (Z.max 0 (i * P - S0)) (Z.min (S0 + L) ((i + 1) * P) - Z.max S0 (i * P)))
    else Err EBounds.
Proof.
  intros HP HS HL HB L. unfold PieceInfo, span_entry. fold L. replace (L =? 0) with false by lia.
  cbn [en_sp en_ep en_so en_eo].
  destruct (Z.leb_spec (S0 / P) i) as [A|A]; cbn [andb]; [|replace (i <? S0 / P) with true by lia; reflexivity].
  replace (i <? S0 / P) with false by lia. cbn [orb].
  destruct (Z.leb_spec i ((S0 + L - 1) / P)) as [A2|A2]; [|replace ((S0 + L - 1) / P <? i) with true by lia; reflexivity].
  replace ((S0 + L - 1) / P <? i) with false by lia.
  pose proof (Z.div_mod S0 P ltac:(lia)) as DS. pose proof (Z.mod_pos_bound S0 P ltac:(lia)) as MS.
  pose proof (Z.div_mod (S0 + L - 1) P ltac:(lia)) as DE. pose proof (Z.mod_pos_bound (S0 + L - 1) P ltac:(lia)) as ME.
  set (si := S0 / P) in *. set (so := S0 mod P) in *. set (ei := (S0 + L - 1) / P) in *. set (eo := (S0 + L - 1) mod P) in *.
  assert (Hsi : 0 <= si) by (apply Z.div_pos; lia).
  assert (HiP : i * P <= S0 + L - 1) by nia.
  assert (HseP : (i - si) * P < big) by nia.
  rewrite seek_loop_spec by lia.
  destruct (Z.to_nat (i - si)) as [|n] eqn:En.
  - assert (i = si) by lia. subst i.
    assert (HR : (if si <? ei then sub64 P so else add64 (sub64 eo so) 1) = Z.min (S0 + L) ((si + 1) * P) - Z.max S0 (si * P)).
    { unfold sub64, add64. destruct (Z.ltb_spec si ei) as [Q|Q].
      - rewrite i64_big by (inrange; lia). assert ((si + 1) * P <= S0 + L) by nia. lia.
      - assert (si = ei) by lia. rewrite !i64_big by (inrange; rewrite ?i64_big by (inrange; lia); lia). nia. }
    rewrite HR. f_equal. f_equal. nia.
  - rewrite <- En. rewrite Z2Nat.id by lia. assert (Hlt : si < i) by lia.
    assert (Hge : S0 < i * P) by nia.
    assert (HR : (if i <? ei then sub64 P 0 else add64 (sub64 eo 0) 1) = Z.min (S0 + L) ((i + 1) * P) - Z.max S0 (i * P)).
    { unfold sub64, add64. destruct (Z.ltb_spec i ei) as [Q|Q].
      - rewrite i64_big by (inrange; lia). assert ((i + 1) * P <= S0 + L) by nia. lia.
      - assert (i = ei) by lia. rewrite !i64_big by (inrange; rewrite ?i64_big by (inrange; lia); lia). nia. }
    rewrite HR. f_equal. f_equal. lia.
Qed.

Lemma PieceInfo_empty b P S0 i : 1 <= P < big -> 0 <= S0 -> eb_len b = 0 -> S0 < big ->
  PieceInfo (span_entry b P S0) i P =
    if (i =? S0 / P) && negb (P =? 1) then Ok (mkpi 0 0) else Err EBounds.
Proof.
  intros HP HS HL HB. unfold PieceInfo, span_entry. rewrite HL. cbn [Z.eqb].
  pose proof (Z.mod_pos_bound S0 P ltac:(lia)) as MS.
  destruct (Z.eqb_spec P 1) as [P1|P1]; cbn [en_sp en_ep en_so en_eo negb].
  - rewrite Bool.andb_false_r. destruct (Z.ltb_spec i (S0 / P)); [reflexivity|].
    replace (S0 / P - 1 <? i) with true by lia. reflexivity.
  - rewrite Bool.andb_true_r. destruct (Z.eqb_spec i (S0 / P)) as [E|E].
    + subst i. rewrite Z.ltb_irrefl. cbn [orb]. rewrite Z.sub_diag. cbn [Z.to_nat seek_loop]. unfold sub64, add64.
      rewrite !i64_big by (inrange; rewrite ?i64_big by (inrange; lia); lia).
      f_equal. f_equal. lia.
    + replace ((i <? S0 / P) || (S0 / P <? i)) with true by lia. reflexivity.
Qed.
