(** FlagProofs.v: lemmas about the command line. *)
From Verif Require Import Base UtilsModel FsModel FsSpec StartModel StartSpec StartProofs FlagModel FlagSpec.
From Coq Require Import ZifyBool ZifyNat ZifyN.

(** ** Numbers *)
Lemma hexdigit_value c d : hexdigit c d -> digit_value c = Some d /\ 0 <= d < 16 /\ Byte.eqb c "_"%byte = false.
Proof. unfold hexdigit, digit_value. destruct c; cbn; intros [[? ->]|[[? ->]|[? ->]]]; try lia; repeat split; lia. Qed.
Lemma value_hexdigit c d base : base <= 16 -> digit_value c = Some d -> d < base -> hexdigit c d.
Proof.
  unfold hexdigit, digit_value. intros Hb. destruct ((48 <=? b2z c) && (b2z c <=? 57)) eqn:E1; [intros [= <-] _; left; lia|].
  destruct ((97 <=? b2z c) && (b2z c <=? 122)) eqn:E2; [intros [= <-] Hd; right; left; lia|].
  destruct ((65 <=? b2z c) && (b2z c <=? 90)) eqn:E3; [intros [= <-] Hd; right; right; lia|discriminate].
Qed.
Definition from (base n : Z) (ps : list place) : Z := fold_left (fun n p => n * base + p_val p) ps n.
Lemma from_le base ps : 2 <= base -> all_digits base ps -> forall n, 0 <= n -> n <= from base n ps.
Proof.
  intros Hb. induction 1 as [|p ps [Hd Hl] Hps IH]; intros n Hn; cbn [from fold_left]; [lia|]. apply hexdigit_value in Hd.
  change (n <= from base (n * base + p_val p) ps). specialize (IH (n * base + p_val p) ltac:(nia)). nia.
Qed.
Lemma loop_spell base ps : 2 <= base <= 16 -> all_digits base ps -> forall n us, 0 <= n <= max_uint64 ->
  uint_loop base (spell ps) n us = if from base n ps <=? max_uint64 then Some (from base n ps, us || existsb p_under ps) else None.
Proof.
  intros Hb. induction 1 as [|p ps [Hd Hl] Hps IH]; intros n us Hn; cbn [spell flat_map].
  - cbn. rewrite orb_false_r. replace (n <=? max_uint64) with true by lia. reflexivity.
  - destruct (hexdigit_value _ _ Hd) as (Hv & Hr & Hne).
    assert (Hs : forall us, uint_loop base ([p_char p] ++ spell ps) n us = if from base n (p :: ps) <=? max_uint64 then Some (from base n (p :: ps), us || existsb p_under ps) else None).
    { intros us'. cbn [app uint_loop]. rewrite Hne, Hv. replace (base <=? p_val p) with false by lia.
      change (from base n (p :: ps)) with (from base (n * base + p_val p) ps). pose proof (from_le base ps ltac:(lia) Hps (n * base + p_val p) ltac:(nia)) as Hge.
      pose proof (Z.div_mod max_uint64 base ltac:(lia)) as Hdm. pose proof (Z.mod_pos_bound max_uint64 base ltac:(lia)) as Hmb. set (q := max_uint64 / base) in *.
      destruct (Z.leb_spec (q + 1) n) as [Hc|Hc].
      - assert (max_uint64 < n * base) by nia. replace (from base (n * base + p_val p) ps <=? max_uint64) with false by lia. reflexivity.
      - assert (Hnb : 0 <= n * base <= max_uint64) by nia. assert (E1 : u64 (n * base) = n * base) by (unfold u64; apply Z.mod_small; unfold max_uint64 in *; lia).
        cbv zeta. rewrite E1. destruct (Z.leb_spec (n * base + p_val p) max_uint64) as [Hle|Hgt].
        + assert (E2 : u64 (n * base + p_val p) = n * base + p_val p) by (unfold u64; apply Z.mod_small; unfold max_uint64 in *; lia).
          rewrite E2. replace (n * base + p_val p <? n * base) with false by lia. rewrite (IH (n * base + p_val p) us') by lia. reflexivity.
        + assert (E2 : u64 (n * base + p_val p) = n * base + p_val p - 18446744073709551616).
          { unfold u64. symmetry. apply Z.mod_unique with 1; [left; unfold max_uint64 in *; lia|lia]. }
          rewrite E2. replace (n * base + p_val p - 18446744073709551616 <? n * base) with true by lia.
          replace (from base (n * base + p_val p) ps <=? max_uint64) with false by lia. reflexivity. }
    fold (spell ps). destruct (p_under p) eqn:Eu.
    + change (["_"%byte; p_char p] ++ spell ps) with ("_"%byte :: ([p_char p] ++ spell ps)).
      change (uint_loop base ("_"%byte :: ([p_char p] ++ spell ps)) n us) with (uint_loop base ([p_char p] ++ spell ps) n true).
      rewrite (Hs true). cbn [existsb]. rewrite Eu. cbn [orb]. now rewrite orb_true_r.
    + rewrite (Hs us). cbn [existsb]. rewrite Eu. reflexivity.
Qed.

Definition okchar (base : Z) (c : byte) : Prop := c = "_"%byte \/ exists d, hexdigit c d /\ d < base.
Lemma loop_chars base s : base <= 16 -> forall n us n' us', uint_loop base s n us = Some (n', us') -> Forall (okchar base) s /\ (us' = false -> us = false /\ ~ In "_"%byte s).
Proof.
  intros Hb. induction s as [|c s IH]; intros n us n' us' H; cbn [uint_loop] in H.
  - injection H as <- <-. split; [constructor|]. intros ->. split; [reflexivity|]. intros [].
  - destruct (Byte.eqb c "_"%byte) eqn:E.
    + apply Byte_eqb_eq in E. subst c. destruct (IH _ _ _ _ H) as [H1 H2]. split; [constructor; [now left|exact H1]|]. intros Hu. destruct (H2 Hu). discriminate.
    + destruct (digit_value c) as [d|] eqn:Ed; [|discriminate]. destruct (Z.leb_spec base d); [discriminate|]. destruct (_ <=? n); [discriminate|].
      cbv zeta in H. destruct (_ <? _) in H; [discriminate|]. destruct (IH _ _ _ _ H) as [H1 H2]. split.
      * constructor; [right; exists d; split; [eapply value_hexdigit; eassumption|lia]|exact H1].
      * intros Hu. destruct (H2 Hu) as [H3 H4]. split; [exact H3|]. intros [->|Hin]; [|now apply H4]. rewrite (proj2 (Byte_eqb_eq _ _) eq_refl) in E. discriminate.
Qed.

Definition digit_seen (hex : bool) (c : byte) : bool := let z := b2z c in ((48 <=? z) && (z <=? 57)) || (hex && (((97 <=? z) && (z <=? 102)) || ((65 <=? z) && (z <=? 70)))).
Lemma under_cons hex c r saw : under_loop hex (c :: r) saw = if digit_seen hex c then under_loop hex r SDigit
    else if Byte.eqb c "_"%byte then match saw with SDigit => under_loop hex r SUnder | _ => false end else match saw with SUnder => false | _ => under_loop hex r SOther end.
Proof. reflexivity. Qed.
Lemma seen_digit hex base c d : (hex = true \/ base <= 10) -> hexdigit c d -> d < base -> digit_seen hex c = true.
Proof. unfold hexdigit, digit_seen. intros [->|Hb] H Hd; lia. Qed.
Lemma seen_under hex : digit_seen hex "_"%byte = false.
Proof. destruct hex; reflexivity. Qed.

Lemma under_spell hex base ps : (hex = true \/ base <= 10) -> all_digits base ps -> under_loop hex (spell ps) SDigit = true.
Proof.
  intros Hh. induction 1 as [|p ps [Hd Hl] Hps IH]; [reflexivity|]. cbn [spell flat_map]. fold (spell ps). destruct (p_under p); cbn [app].
  - rewrite under_cons, seen_under. change (Byte.eqb "_" "_") with true. cbv iota. rewrite under_cons, (seen_digit hex base _ _ Hh Hd Hl). exact IH.
  - rewrite under_cons, (seen_digit hex base _ _ Hh Hd Hl). exact IH.
Qed.
Lemma spell_under hex base s : (hex = true \/ base <= 10) -> Forall (okchar base) s ->
  (under_loop hex s SDigit = true -> exists ps, s = spell ps /\ all_digits base ps) /\
  (under_loop hex s SUnder = true -> exists p ps, "_"%byte :: s = spell (p :: ps) /\ all_digits base (p :: ps)).
Proof.
  intros Hh. induction 1 as [|c s Hc Hs IH].
  - split; [exists []; split; [reflexivity|constructor]|discriminate].
  - destruct IH as [IH1 IH2]. destruct Hc as [->|(d & Hd & Hl)].
    + rewrite !under_cons, seen_under. change (Byte.eqb "_" "_") with true. cbv iota. split; [|discriminate]. intros H. destruct (IH2 H) as (p & ps & E1 & E2). exists (p :: ps). auto.
    + rewrite !under_cons, (seen_digit hex base _ _ Hh Hd Hl). split; intros H; destruct (IH1 H) as (ps & -> & E2).
      * exists (mkpl false c d :: ps). split; [reflexivity|]. constructor; [split; assumption|exact E2].
      * exists (mkpl true c d), ps. split; [reflexivity|]. constructor; [split; assumption|exact E2].
Qed.
Lemma no_under hex base s : (hex = true \/ base <= 10) -> Forall (okchar base) s -> ~ In "_"%byte s -> under_loop hex s SDigit = true.
Proof.
  intros Hh. induction 1 as [|c s Hc Hs IH]; intros Hn; [reflexivity|]. destruct Hc as [->|(d & Hd & Hl)]; [destruct Hn; now left|].
  rewrite under_cons, (seen_digit hex base _ _ Hh Hd Hl). apply IH. intros Hx. apply Hn. now right.
Qed.

Lemma core hex base r n us : 2 <= base <= 16 -> (hex = true \/ base <= 10) -> uint_loop base r 0 false = Some (n, us) -> (us = true -> under_loop hex r SDigit = true) ->
  exists ps, r = spell ps /\ all_digits base ps /\ n = numeral base ps /\ n < 2 ^ 64.
Proof.
  intros Hb Hh H Hu. destruct (loop_chars base r ltac:(lia) _ _ _ _ H) as [Hc Hn].
  assert (Hok : under_loop hex r SDigit = true) by (destruct us; [now apply Hu|apply (no_under hex base r Hh Hc), (Hn eq_refl)]).
  destruct (proj1 (spell_under hex base r Hh Hc) Hok) as (ps & -> & Hd). exists ps. split; [reflexivity|]. split; [exact Hd|].
  rewrite (loop_spell base ps Hb Hd 0 false) in H by (unfold max_uint64; lia). change (from base 0 ps) with (numeral base ps) in H.
  destruct (Z.leb_spec (numeral base ps) max_uint64); [|discriminate]. injection H as <- _. split; [reflexivity|]. unfold max_uint64 in *. lia.
Qed.
Lemma core_back base ps : 2 <= base <= 16 -> all_digits base ps -> numeral base ps < 2 ^ 64 -> exists us, uint_loop base (spell ps) 0 false = Some (numeral base ps, us).
Proof.
  intros Hb Hd Hn. rewrite (loop_spell base ps Hb Hd 0 false) by (unfold max_uint64; lia). change (from base 0 ps) with (numeral base ps).
  replace (numeral base ps <=? max_uint64) with true by (unfold max_uint64; lia). eauto.
Qed.

Lemma ci_eq b x : 97 <= b2z x <= 122 -> is_ci b x = true -> b2z b = b2z x \/ b2z b = b2z x - 32.
Proof. unfold is_ci. intros Hx H. apply orb_true_iff in H. destruct H as [H|H]; [apply Byte_eqb_eq in H; subst; auto|lia]. Qed.
Lemma ci_letter b x : 97 <= b2z x <= 122 -> is_ci b x = true -> (97 <= b2z b <= 122 \/ 65 <= b2z b <= 90) /\ b <> "_"%byte.
Proof. intros Hx H. destruct (ci_eq b x Hx H) as [E|E]; (split; [lia|]); intros ->; change (b2z "_"%byte) with 95 in E; lia. Qed.
Definition is_prefix (b : byte) : bool := is_ci b "b"%byte || is_ci b "o"%byte || is_ci b "x"%byte.
Lemma prefix_letter b : is_prefix b = true -> ~ okchar 8 b.
Proof.
  unfold is_prefix. intros H.
  assert (Hl : (97 <= b2z b <= 122 \/ 65 <= b2z b <= 90) /\ b <> "_"%byte).
  { apply orb_true_iff in H. destruct H as [H|H]; [apply orb_true_iff in H; destruct H as [H|H]|]; (eapply ci_letter; [|exact H]); cbn; lia. }
  destruct Hl as [Hl Hne]. intros [->|(d & Hd & Hlt)]; [now apply Hne|]. unfold hexdigit in Hd. lia.
Qed.
Lemma underscore_plain s : (forall b r, s = "0"%byte :: b :: r -> is_prefix b = false) -> underscoreOK s = under_loop false s SBegin.
Proof.
  intros H. unfold underscoreOK. destruct s as [|a [|b r]]; try reflexivity. destruct (Byte.eqb a "0"%byte) eqn:E; [|reflexivity]. apply Byte_eqb_eq in E. subst a.
  fold (is_prefix b). now rewrite (H b r eq_refl).
Qed.
Lemma underscore_pre b r : is_prefix b = true -> underscoreOK ("0"%byte :: b :: r) = under_loop (is_ci b "x"%byte) r SDigit.
Proof. intros H. unfold underscoreOK. fold (is_prefix b). now rewrite H. Qed.
Lemma ci_x_base b : is_ci b "x"%byte = true -> is_ci b "b"%byte = false /\ is_ci b "o"%byte = false.
Proof. destruct b; try discriminate; now split. Qed.

Lemma prefix_base b c r : is_prefix b = true -> exists base, uint_base ("0"%byte :: b :: c :: r) = (base, c :: r) /\ 2 <= base <= 16 /\ (is_ci b "x"%byte = true \/ base <= 10) /\
  In ([ "0"%byte; b ], base) [(B "0b", 2); (B "0B", 2); (B "0o", 8); (B "0O", 8); (B "0x", 16); (B "0X", 16)].
Proof.
  destruct b; try discriminate; intros _; eexists; (split; [reflexivity|]); (split; [lia|]); (split; [first [left; reflexivity|right; lia]|]); cbn [In]; tauto.
Qed.
Lemma plain_base r : (forall b c r', r = b :: c :: r' -> is_prefix b = false) -> uint_base ("0"%byte :: r) = (8, r).
Proof.
  intros H. unfold uint_base. change (Byte.eqb "0" "0") with true. cbv iota. destruct r as [|b [|c r]]; try reflexivity.
  specialize (H b c r eq_refl). unfold is_prefix in H. apply orb_false_iff in H. destruct H as [H Hx]. apply orb_false_iff in H. destruct H as [Hb Ho]. now rewrite Hb, Ho, Hx.
Qed.
Lemma in_prefixes x base : In (x, base) [(B "0b", 2); (B "0B", 2); (B "0o", 8); (B "0O", 8); (B "0x", 16); (B "0X", 16)] -> exists b, x = ["0"%byte; b] /\ is_prefix b = true /\
  2 <= base <= 16 /\ (is_ci b "x"%byte = true \/ base <= 10) /\ forall c r, uint_base ("0"%byte :: b :: c :: r) = (base, c :: r).
Proof.
  cbn [In]. intros [H|[H|[H|[H|[H|[H|[]]]]]]]; injection H as <- <-; eexists; (split; [reflexivity|]); (split; [reflexivity|]); (split; [lia|]); (split; [first [left; reflexivity|right; lia]|reflexivity]).
Qed.

Lemma spell_nonempty ps : ps <> [] -> exists c r, spell ps = c :: r.
Proof. destruct ps as [|p ps]; [easy|]. intros _. cbn [spell flat_map]. destruct (p_under p); cbn [app]; eauto. Qed.
Lemma spell_chars base ps : all_digits base ps -> Forall (okchar base) (spell ps).
Proof.
  induction 1 as [|p ps [Hd Hl] Hps IH]; [constructor|]. cbn [spell flat_map]. fold (spell ps). assert (Hc : okchar base (p_char p)) by (right; eauto).
  destruct (p_under p); cbn [app]; repeat (apply Forall_cons; [first [exact Hc|now left]|]); exact IH.
Qed.

Lemma ParseUint_iff s n : ParseUint s = Some n <-> port_number s n.
Proof.
  split.
  - unfold ParseUint. destruct s as [|a r]; [discriminate|]. intros H. destruct (Byte.eqb a "0"%byte) eqn:Ea.
    + apply Byte_eqb_eq in Ea. subst a.
      assert (Hcase : (exists b c r', r = b :: c :: r' /\ is_prefix b = true) \/ (forall b c r', r = b :: c :: r' -> is_prefix b = false)).
      { destruct r as [|b [|c r']]; [right; discriminate|right; discriminate|]. destruct (is_prefix b) eqn:E; [left; eauto 6|right]. intros b0 c0 r0 [= <- <- <-]. exact E. }
      destruct Hcase as [(b & c & r' & -> & Hp)|Hp].
      * destruct (prefix_base b c r' Hp) as (base & E & Hb & Hx & Hin). rewrite E in H. destruct (uint_loop base (c :: r') 0 false) as [[n0 us]|] eqn:El; [|discriminate].
        destruct (us && negb (underscoreOK _)) eqn:Eu; [discriminate|]. injection H as ->.
        destruct (core (is_ci b "x"%byte) base _ _ _ Hb Hx El) as (ps & E1 & E2 & E3 & E4).
        { intros ->. rewrite <- (underscore_pre b (c :: r') Hp). destruct (underscoreOK ("0"%byte :: b :: c :: r')); [reflexivity|discriminate]. }
        split; [|exact E4]. rewrite E1. change ("0"%byte :: b :: spell ps) with (["0"%byte; b] ++ spell ps). rewrite E3. apply num_pre; [exact Hin| |exact E2]. intros ->. discriminate.
      * rewrite (plain_base r Hp) in H. destruct (uint_loop 8 r 0 false) as [[n0 us]|] eqn:El; [|discriminate]. destruct (us && negb (underscoreOK _)) eqn:Eu; [discriminate|]. injection H as ->.
        destruct (core false 8 _ _ _ ltac:(lia) ltac:(right; lia) El) as (ps & E1 & E2 & E3 & E4).
        { intros ->. destruct (loop_chars 8 r ltac:(lia) _ _ _ _ El) as [Hc _].
          assert (Hpl : underscoreOK ("0"%byte :: r) = under_loop false ("0"%byte :: r) SBegin).
          { apply underscore_plain. intros b r' [= ->]. destruct (is_prefix b) eqn:E; [|reflexivity]. destruct (prefix_letter b E). now inversion Hc. }
          rewrite Hpl in Eu. change (under_loop false ("0"%byte :: r) SBegin) with (under_loop false r SDigit) in Eu. destruct (under_loop false r SDigit); [reflexivity|discriminate]. }
        split; [|exact E4]. rewrite E1, E3. exact (num_oct ps E2).
    + assert (Eb : uint_base (a :: r) = (10, a :: r)) by (unfold uint_base; now rewrite Ea). rewrite Eb in H.
      destruct (uint_loop 10 (a :: r) 0 false) as [[n0 us]|] eqn:El; [|discriminate]. destruct (us && negb (underscoreOK _)) eqn:Eu; [discriminate|]. injection H as ->.
      destruct (loop_chars 10 (a :: r) ltac:(lia) _ _ _ _ El) as [Hc Hn].
      assert (Hpl : underscoreOK (a :: r) = under_loop false (a :: r) SBegin).
      { apply underscore_plain. intros b r' [= -> ->]. discriminate. }
      assert (Ha : exists d, hexdigit a d /\ d < 10).
      { inversion Hc as [|? ? Hca]; subst. destruct Hca as [->|Hd]; [|exact Hd]. exfalso. rewrite Hpl in Eu. change (under_loop false ("_"%byte :: r) SBegin) with false in Eu.
        destruct us; [discriminate|]. apply (proj2 (Hn eq_refl)). now left. }
      destruct Ha as (d & Hd & Hlt).
      assert (Hsee : under_loop false (a :: r) SBegin = under_loop false r SDigit) by (rewrite under_cons, (seen_digit false 10 a d ltac:(right; lia) Hd Hlt); reflexivity).
      destruct (core false 10 (a :: r) n us ltac:(lia) ltac:(right; lia) El) as (ps & E1 & E2 & E3 & E4).
      { intros ->. rewrite Hpl, Hsee in Eu. rewrite under_cons, (seen_digit false 10 a d ltac:(right; lia) Hd Hlt). destruct (under_loop false r SDigit); [reflexivity|discriminate]. }
      destruct ps as [|p ps]; [discriminate|]. cbn [spell flat_map] in E1. fold (spell ps) in E1. inversion E2 as [|? ? [Hpd Hpl2] Hps]; subst.
      destruct (p_under p) eqn:Ep; cbn [app] in E1.
      { injection E1 as -> _. exfalso. destruct (hexdigit_value _ _ Hd) as (_ & _ & Hx). discriminate. }
      injection E1 as -> ->. split; [|exact E4]. destruct p as [pu pc pv]. cbn [p_under p_char p_val] in *. subst pu.
      apply num_dec; [exact Hpd| |exact Hps]. split; [|exact Hpl2]. destruct (hexdigit_value _ _ Hpd) as (_ & Hr & _). destruct (Z.eq_dec pv 0) as [->|]; [|lia].
      exfalso. apply Byte_eqb_neq in Ea. apply Ea. apply b2z_inj. unfold hexdigit in Hpd. change (b2z "0"%byte) with 48. lia.
  - intros [H Hmax]. destruct H as [c d ps Hd Hr Hps|ps Hps|x base ps Hin Hne Hps].
    + destruct (hexdigit_value _ _ Hd) as (Hv & _ & Hu). assert (Hall : all_digits 10 (mkpl false c d :: ps)) by (constructor; [split; [exact Hd|cbn; lia]|exact Hps]).
      destruct (core_back 10 _ ltac:(lia) Hall Hmax) as [us El]. change (spell (mkpl false c d :: ps)) with (c :: spell ps) in El.
      assert (Ec : Byte.eqb c "0"%byte = false).
      { apply Byte_eqb_neq. intros ->. unfold hexdigit in Hd. change (b2z "0"%byte) with 48 in Hd. lia. }
      unfold ParseUint, uint_base. rewrite Ec, El. rewrite underscore_plain by (intros b r [= -> _]; discriminate).
      rewrite under_cons, (seen_digit false 10 c d ltac:(right; lia) Hd ltac:(lia)), (under_spell false 10 ps ltac:(right; lia) Hps). cbn [negb]. now rewrite andb_false_r.
    + destruct (core_back 8 _ ltac:(lia) Hps Hmax) as [us El]. pose proof (spell_chars 8 ps Hps) as Hc.
      change (B "0" ++ spell ps) with ("0"%byte :: spell ps). unfold ParseUint. rewrite plain_base.
      2:{ intros b c r' E. rewrite E in Hc. destruct (is_prefix b) eqn:Eb; [|reflexivity]. destruct (prefix_letter b Eb). now inversion Hc. }
      rewrite El. rewrite underscore_plain.
      2:{ intros b r' [= E]. rewrite E in Hc. destruct (is_prefix b) eqn:Eb; [|reflexivity]. destruct (prefix_letter b Eb). now inversion Hc. }
      change (under_loop false ("0"%byte :: spell ps) SBegin) with (under_loop false (spell ps) SDigit). rewrite (under_spell false 8 ps ltac:(right; lia) Hps). cbn [negb]. now rewrite andb_false_r.
    + destruct (in_prefixes x base Hin) as (b & -> & Hp & Hb & Hx & Eb). destruct (core_back base ps Hb Hps Hmax) as [us El]. destruct (spell_nonempty ps Hne) as (c & r & Es).
      cbn [app]. unfold ParseUint. rewrite Es, Eb, <- Es, El, (underscore_pre b _ Hp), (under_spell _ base ps Hx Hps). cbn [negb]. now rewrite andb_false_r.
Qed.

(** ** Arguments *)
Lemma cut_eq_spec s : forall n v, cut_eq s = (n, v) -> s = n ++ match v with Some x => B "=" ++ x | None => [] end.
Proof.
  induction s as [|c s IH]; intros n v H; cbn [cut_eq] in H; [injection H as <- <-; reflexivity|]. destruct (Byte.eqb c "="%byte) eqn:E.
  - injection H as <- <-. apply Byte_eqb_eq in E. subst c. reflexivity.
  - destruct (cut_eq s) as [n0 v0]. injection H as <- <-. cbn [app]. f_equal. now apply IH.
Qed.
Lemma classify_flag s n v : classify s = AFlag n v -> exists d, dashes d /\ s = d ++ n ++ match v with Some x => B "=" ++ x | None => [] end.
Proof.
  unfold classify. destruct s as [|a [|b r]]; try discriminate. destruct (Byte.eqb a "-"%byte) eqn:Ea; cbn [negb]; [|discriminate]. apply Byte_eqb_eq in Ea. subst a.
  destruct (Byte.eqb b "-"%byte) eqn:Eb.
  - apply Byte_eqb_eq in Eb. subst b. destruct r as [|c r]; [discriminate|]. cbn [andb beqb]. destruct (Byte.eqb c "-"%byte || Byte.eqb c "="%byte); [discriminate|].
    cbn [split_name]. destruct (cut_eq r) as [n0 v0] eqn:E. intros [= <- <-]. exists (B "--"). split; [now right|]. rewrite (cut_eq_spec _ _ _ E) at 1. reflexivity.
  - cbn [andb]. destruct (Byte.eqb b "-"%byte || Byte.eqb b "="%byte); [discriminate|]. cbn [split_name]. destruct (cut_eq r) as [n0 v0] eqn:E. intros [= <- <-].
    exists (B "-"). split; [now left|]. rewrite (cut_eq_spec _ _ _ E) at 1. reflexivity.
Qed.
Lemma classify_two d n : dashes d -> In n (flag_names ++ [B "h"; B "help"]) -> classify (d ++ n) = AFlag n None.
Proof. intros [-> | ->] H; cbn in H; repeat (destruct H as [<-|H]; [reflexivity|]); destruct H. Qed.
Lemma classify_one d n v : dashes d -> In n (flag_names ++ [B "h"; B "help"]) -> classify (d ++ n ++ B "=" ++ v) = AFlag n (Some v).
Proof. intros [-> | ->] H; cbn in H; repeat (destruct H as [<-|H]; [reflexivity|]); destruct H. Qed.
Lemma classify_notflag s : classify s = ANotFlag <-> zlen s < 2 \/ exists c r, s = c :: r /\ c <> "-"%byte.
Proof.
  unfold classify. destruct s as [|a [|b r]].
  - split; [intros _; left; cbn; lia|reflexivity].
  - split; [intros _; left; cbn; lia|reflexivity].
  - destruct (Byte.eqb a "-"%byte) eqn:E; cbn [negb].
    + split; [|intros [H|(c & r' & [= -> ->] & H)]; [unfold zlen in H; cbn [List.length] in H; lia|apply Byte_eqb_eq in E; congruence]].
      intros H. exfalso. destruct (Byte.eqb b "-"%byte); [destruct r as [|c r]; [discriminate|]|]; cbn [andb beqb] in H.
      * destruct (Byte.eqb c "-"%byte || Byte.eqb c "="%byte); [discriminate|]. destruct (split_name (c :: r)). discriminate.
      * destruct (Byte.eqb b "-"%byte || Byte.eqb b "="%byte); [discriminate|]. destruct (split_name (b :: r)). discriminate.
    + split; [intros _; right; exists a, (b :: r); split; [reflexivity|now apply Byte_eqb_neq]|reflexivity].
Qed.
Lemma classify_dashes s : classify s = ADashes <-> s = B "--".
Proof.
  split; [|intros ->; reflexivity]. unfold classify. destruct s as [|a [|b r]]; try discriminate. destruct (Byte.eqb a "-"%byte) eqn:Ea; cbn [negb]; [|discriminate].
  destruct (Byte.eqb b "-"%byte) eqn:Eb.
  - destruct r as [|c r]; [intros _; apply Byte_eqb_eq in Ea, Eb; now subst|]. cbn [andb beqb]. destruct (Byte.eqb c "-"%byte || Byte.eqb c "="%byte); [discriminate|]. destruct (split_name (c :: r)). discriminate.
  - cbn [andb]. destruct (Byte.eqb b "-"%byte || Byte.eqb b "="%byte); [discriminate|]. destruct (split_name (b :: r)). discriminate.
Qed.

Lemma set_flag_defined o n v : set_flag o n v <> NotDefined <-> In n flag_names.
Proof.
  unfold set_flag. cbn [flag_names In].
  destruct (beqb n (B "i")) eqn:E1; [apply beqb_eq in E1; subst n; split; [now left|discriminate]|].
  destruct (beqb n (B "w")) eqn:E2; [apply beqb_eq in E2; subst n; split; [intros; right; now left|discriminate]|].
  destruct (beqb n (B "p")) eqn:E3; [apply beqb_eq in E3; subst n; split; [intros; right; right; now left|destruct (ParseUint v); discriminate]|].
  destruct (beqb n (B "cmd")) eqn:E4; [apply beqb_eq in E4; subst n; split; [intros; do 3 right; now left|discriminate]|].
  destruct (beqb n (B "u")) eqn:E5; [apply beqb_eq in E5; subst n; split; [intros; do 4 right; now left|discriminate]|].
  destruct (beqb n (B "d")) eqn:E6; [apply beqb_eq in E6; subst n; split; [intros; do 5 right; now left|discriminate]|].
  split; [congruence|]. apply beqb_neq in E1, E2, E3, E4, E5, E6. intuition congruence.
Qed.
Lemma help_iff n : is_help n = true <-> In n [B "h"; B "help"].
Proof. unfold is_help. rewrite orb_true_iff, !beqb_eq. cbn [In]. intuition congruence. Qed.

(** All the settings, one after the other. *)
Fixpoint set_all (o : Opts) (ss : list (bytes * bytes)) : option Opts :=
  match ss with [] => Some o | (n, v) :: r => match set_flag o n v with Set_ o' => set_all o' r | _ => None end end.

Lemma parse_spelled args ss : spelled args ss -> forall o rest, flag_parse o (args ++ rest) = match set_all o ss with Some o' => flag_parse o' rest | None => FExit 2 end.
Proof.
  induction 1 as [|d n v args ss Hd Hn Hs IH|d n v args ss Hd Hn Hs IH]; intros o rest; [reflexivity| |].
  - cbn [app flag_parse]. rewrite (classify_two d n Hd) by (apply in_or_app; now left). pose proof (proj2 (set_flag_defined o n []) Hn) as Hdef.
    cbn [set_all]. destruct (set_flag o n []) eqn:E; try congruence; destruct (set_flag o n v); try reflexivity; apply IH.
  - cbn [app flag_parse]. rewrite (classify_one d n v Hd) by (apply in_or_app; now left). pose proof (proj2 (set_flag_defined o n []) Hn) as Hdef.
    cbn [set_all]. destruct (set_flag o n []) eqn:E; try congruence; destruct (set_flag o n v); try reflexivity; apply IH.
Qed.
Lemma parse_ends o rest : ends rest -> exists r, flag_parse o rest = Flags o r.
Proof.
  destruct rest as [|a rest]; [cbn; eauto|]. cbn [ends flag_parse]. intros [->|H]; [cbn; eauto|]. rewrite (proj2 (classify_notflag a) H). eauto.
Qed.
Lemma parse_back : forall k args o, (List.length args <= k)%nat ->
  match flag_parse o args with
  | Flags o' _ => exists a ss rest, args = a ++ rest /\ spelled a ss /\ set_all o ss = Some o' /\ ends rest
  | FExit st => (st = 0 /\ exists a ss o1 b rest, args = a ++ b :: rest /\ spelled a ss /\ set_all o ss = Some o1 /\ asks_help b) \/ st = 2
  end.
Proof.
  induction k as [|k IH]; intros args o Hk.
  { destruct args; [|cbn in Hk; lia]. cbn. exists [], [], []. repeat split; constructor. }
  destruct args as [|s args]; [cbn; exists [], [], []; repeat split; constructor|]. cbn [flag_parse]. destruct (classify s) as [| | |n v] eqn:Ec.
  - exists [], [], (s :: args). repeat split; [constructor|]. right. now apply classify_notflag.
  - exists [], [], (s :: args). repeat split; [constructor|]. left. now apply classify_dashes.
  - now right.
  - destruct (classify_flag _ _ _ Ec) as (d & Hd & Es). destruct (set_flag o n []) eqn:E0.
    { destruct (is_help n) eqn:Eh; [|now right]. left. split; [reflexivity|]. exists [], [], o, s, args. repeat split; [constructor|]. apply help_iff in Eh.
      exists d, n, (match v with Some x => B "=" ++ x | None => [] end). repeat split; auto. destruct v; eauto. }
    all: assert (Hn : In n flag_names) by (apply (proj1 (set_flag_defined o n [])); congruence).
    all: destruct v as [v|].
    1,3: destruct (set_flag o n v) as [| |o1] eqn:E1; [now right|now right|]; specialize (IH args o1 ltac:(cbn in Hk; lia)); destruct (flag_parse o1 args) as [o2 r|st];
      [destruct IH as (a & ss & rest & -> & H1 & H2 & H3); exists (s :: a), ((n, v) :: ss), rest; repeat split;
         [rewrite Es; now constructor|cbn [set_all]; now rewrite E1|exact H3]
      |destruct IH as [(-> & a & ss & o2 & b & rest & -> & H1 & H2 & H3)|]; [|now right]; left; split; [reflexivity|];
         exists (s :: a), ((n, v) :: ss), o2, b, rest; repeat split; [rewrite Es; now constructor|cbn [set_all]; now rewrite E1|exact H3]].
    all: destruct args as [|v args]; [now right|]; rewrite app_nil_r in Es.
    all: destruct (set_flag o n v) as [| |o1] eqn:E1; [now right|now right|]; specialize (IH args o1 ltac:(cbn in Hk; lia)); destruct (flag_parse o1 args) as [o2 r|st];
      [destruct IH as (a & ss & rest & -> & H1 & H2 & H3); exists (s :: v :: a), ((n, v) :: ss), rest; repeat split;
         [rewrite Es; now constructor|cbn [set_all]; now rewrite E1|exact H3]
      |destruct IH as [(-> & a & ss & o2 & b & rest & -> & H1 & H2 & H3)|]; [|now right]; left; split; [reflexivity|];
         exists (s :: v :: a), ((n, v) :: ss), o2, b, rest; repeat split; [rewrite Es; now constructor|cbn [set_all]; now rewrite E1|exact H3]].
Qed.

(** What the settings amount to. *)
Lemma set_all_means ss : forall o o' p0, port_number p0 (o_port o) -> set_all o ss = Some o' -> ports_good ss /\
  o_input o' = chosen (B "i") ss (o_input o) /\ o_wd o' = chosen (B "w") ss (o_wd o) /\ port_number (chosen (B "p") ss p0) (o_port o') /\
  o_cmd o' = chosen (B "cmd") ss (o_cmd o) /\ o_upstr o' = chosen (B "u") ss (o_upstr o) /\ o_dnstr o' = chosen (B "d") ss (o_dnstr o) /\ o_uplim o' = o_uplim o /\ o_dnlim o' = o_dnlim o.
Proof.
  induction ss as [|[n v] ss IH]; intros o o' p0 Hp H; cbn [set_all] in H. { injection H as <-. repeat split; try apply Hp. intros v []. }
  destruct (set_flag o n v) as [| |o1] eqn:E; try discriminate. unfold set_flag in E. cbn [chosen].
  destruct (beqb n (B "i")) eqn:E1.
  { apply beqb_eq in E1. subst n. injection E as <-. pose proof (fun Hq => IH _ _ p0 Hq H) as HH. destruct (HH Hp) as (H1 & H2). split; [intros v' [[= Hx]|Hin]; auto|exact H2]. }
  destruct (beqb n (B "w")) eqn:E2.
  { apply beqb_eq in E2. subst n. injection E as <-. pose proof (fun Hq => IH _ _ p0 Hq H) as HH. destruct (HH Hp) as (H1 & H2). split; [intros v' [[= Hx]|Hin]; auto|exact H2]. }
  destruct (beqb n (B "p")) eqn:E3.
  { apply beqb_eq in E3. subst n. destruct (ParseUint v) as [k|] eqn:Ek; [|discriminate]. injection E as <-. apply ParseUint_iff in Ek.
    pose proof (fun Hq => IH _ _ v Hq H) as HH. destruct (HH Ek) as (H1 & H2). split; [intros v' [[= <-]|Hin]; eauto|exact H2]. }
  destruct (beqb n (B "cmd")) eqn:E4.
  { apply beqb_eq in E4. subst n. injection E as <-. pose proof (fun Hq => IH _ _ p0 Hq H) as HH. destruct (HH Hp) as (H1 & H2). split; [intros v' [[= Hx]|Hin]; auto|exact H2]. }
  destruct (beqb n (B "u")) eqn:E5.
  { apply beqb_eq in E5. subst n. injection E as <-. pose proof (fun Hq => IH _ _ p0 Hq H) as HH. destruct (HH Hp) as (H1 & H2). split; [intros v' [[= Hx]|Hin]; auto|exact H2]. }
  destruct (beqb n (B "d")) eqn:E6; [|discriminate].
  apply beqb_eq in E6. subst n. injection E as <-. pose proof (fun Hq => IH _ _ p0 Hq H) as HH. destruct (HH Hp) as (H1 & H2). split; [intros v' [[= Hx]|Hin]; auto|exact H2].
Qed.
Lemma set_all_some ss : (forall n v, In (n, v) ss -> In n flag_names) -> ports_good ss -> forall o, exists o', set_all o ss = Some o'.
Proof.
  induction ss as [|[n v] ss IH]; intros Hn Hp o; [cbn; eauto|]. cbn [set_all].
  assert (Hx : exists o1, set_flag o n v = Set_ o1).
  { pose proof (proj2 (set_flag_defined o n v) (Hn n v (or_introl eq_refl))) as Hd. unfold set_flag in *.
    destruct (beqb n (B "i")); [eauto|]. destruct (beqb n (B "w")); [eauto|]. destruct (beqb n (B "p")) eqn:E3.
    - apply beqb_eq in E3. subst n. destruct (Hp v (or_introl eq_refl)) as [k Hk]. apply ParseUint_iff in Hk. rewrite Hk. eauto.
    - destruct (beqb n (B "cmd")); [eauto|]. destruct (beqb n (B "u")); [eauto|]. destruct (beqb n (B "d")); [eauto|]. congruence. }
  destruct Hx as [o1 ->]. apply IH; [intros; eapply Hn; right; eassumption|intros v' Hin; apply Hp; now right].
Qed.
Lemma spelled_names args ss : spelled args ss -> forall n v, In (n, v) ss -> In n flag_names.
Proof. induction 1; intros n' v' Hin; [destruct Hin| |]; destruct Hin as [[= <- <-]|Hin]; eauto. Qed.
Lemma default_port : port_number (B "60666") (o_port default_opts).
Proof. apply ParseUint_iff. reflexivity. Qed.

Lemma reads_top args ss rest : spelled args ss -> ports_good ss -> ends rest -> exists o r, flag_parse default_opts (args ++ rest) = Flags o r /\ means ss o.
Proof.
  intros Hs Hp He. destruct (set_all_some ss (spelled_names _ _ Hs) Hp default_opts) as [o Ho]. rewrite (parse_spelled _ _ Hs), Ho. destruct (parse_ends o rest He) as [r ->].
  exists o, r. split; [reflexivity|]. exact (proj2 (set_all_means ss _ _ _ default_port Ho)).
Qed.
Lemma only_top args o r : flag_parse default_opts args = Flags o r -> exists a ss rest, args = a ++ rest /\ spelled a ss /\ ports_good ss /\ ends rest /\ means ss o.
Proof.
  intros H. pose proof (parse_back _ args default_opts (le_n _)) as Hb. rewrite H in Hb. destruct Hb as (a & ss & rest & E & Hs & Ho & He). exists a, ss, rest.
  destruct (set_all_means ss _ _ _ default_port Ho) as [H1 H2]. auto.
Qed.
Lemma help_top args : flag_parse default_opts args = FExit 0 <-> exists a ss b rest, args = a ++ b :: rest /\ spelled a ss /\ ports_good ss /\ asks_help b.
Proof.
  split.
  - intros H. pose proof (parse_back _ args default_opts (le_n _)) as Hb. rewrite H in Hb. destruct Hb as [(_ & a & ss & o1 & b & rest & E & Hs & Ho & Hh)|Hx]; [|discriminate].
    exists a, ss, b, rest. destruct (set_all_means ss _ _ _ default_port Ho) as [H1 _]. auto.
  - intros (a & ss & b & rest & -> & Hs & Hp & (d & n & v & Hd & Hn & Hv & ->)). destruct (set_all_some ss (spelled_names _ _ Hs) Hp default_opts) as [o Ho].
    rewrite (parse_spelled _ _ Hs), Ho. cbn [flag_parse].
    assert (Ec : exists x, classify (d ++ n ++ v) = AFlag n x).
    { destruct Hv as [->|[x ->]]; [rewrite app_nil_r; exists None; apply classify_two|exists (Some x); apply classify_one]; auto; apply in_or_app; now right. }
    destruct Ec as [x ->]. assert (Hu : set_flag o n [] = NotDefined) by (cbn [In] in Hn; destruct Hn as [<-|[<-|[]]]; reflexivity).
    rewrite Hu, (proj2 (help_iff n) Hn). reflexivity.
Qed.
Lemma status_top args st : flag_parse default_opts args = FExit st -> st = 0 \/ st = 2.
Proof. intros H. pose proof (parse_back _ args default_opts (le_n _)) as Hb. rewrite H in Hb. tauto. Qed.

(** Uniqueness: a command line has one meaning. *)
Lemma number_det s n m : port_number s n -> port_number s m -> n = m.
Proof. intros H1 H2. apply ParseUint_iff in H1, H2. congruence. Qed.
Lemma means_det ss o o' : means ss o -> means ss o' -> o = o'.
Proof.
  intros (A1 & A2 & A3 & A4 & A5 & A6 & A7 & A8) (B1 & B2 & B3 & B4 & B5 & B6 & B7 & B8). pose proof (number_det _ _ _ A3 B3) as E.
  destruct o, o'. cbv [UtilsModel.o_input UtilsModel.o_wd UtilsModel.o_port UtilsModel.o_cmd UtilsModel.o_upstr UtilsModel.o_dnstr UtilsModel.o_uplim UtilsModel.o_dnlim] in A1, A2, A4, A5, A6, A7, A8, B1, B2, B4, B5, B6, B7, B8, E. congruence.
Qed.
Lemma gotor_runs uni sha1 n src fuel sp args w s l w' : gotor uni sha1 n src fuel sp args w = (Running s l, w') <->
  exists a ss rest o u d, args = a ++ rest /\ spelled a ss /\ ports_good ss /\ ends rest /\ means ss o /\
    o_input o <> [] /\ o_cmd o = B "swarm" /\ parseSizeUnits uni (o_upstr o) = Ok u /\ parseSizeUnits uni (o_dnstr o) = Ok d /\
    NewSwarm sha1 n src fuel sp (set_dnlim (set_uplim o u) d) w = (Ok s, w') /\ l = GListener :: GLimiter :: map GPeer (sw_peers s).
Proof.
  unfold gotor. split.
  - intros H. destruct (flag_parse default_opts args) as [o r|st] eqn:E; [|discriminate]. destruct (only_top _ _ _ E) as (a & ss & rest & H1 & H2 & H3 & H4 & H5).
    apply main_swarm in H. destruct H as (u & d & H). exists a, ss, rest, o, u, d. tauto.
  - intros (a & ss & rest & o & u & d & -> & H2 & H3 & H4 & H5 & H). destruct (reads_top _ _ _ H2 H3 H4) as (o' & r & -> & Hm). rewrite (means_det _ _ _ Hm H5).
    apply main_swarm. exists u, d. exact H.
Qed.
Lemma gotor_means uni sha1 n src fuel sp a ss rest o w : spelled a ss -> ports_good ss -> ends rest -> means ss o -> gotor uni sha1 n src fuel sp (a ++ rest) w = main uni sha1 n src fuel sp o w.
Proof.
  intros H2 H3 H4 H5. unfold gotor. destruct (reads_top _ _ _ H2 H3 H4) as (o' & r & -> & Hm). now rewrite (means_det _ _ _ Hm H5).
Qed.
Lemma gotor_refused uni sha1 n src fuel sp args w : (forall a ss rest, args = a ++ rest -> spelled a ss -> ports_good ss -> ~ ends rest) ->
  (gotor uni sha1 n src fuel sp args w = (Exit 0, w) /\ exists a ss b rest, args = a ++ b :: rest /\ spelled a ss /\ ports_good ss /\ asks_help b) \/
  (gotor uni sha1 n src fuel sp args w = (Exit 2, w) /\ ~ exists a ss b rest, args = a ++ b :: rest /\ spelled a ss /\ ports_good ss /\ asks_help b).
Proof.
  intros H. unfold gotor. destruct (flag_parse default_opts args) as [o r|st] eqn:E.
  - destruct (only_top _ _ _ E) as (a & ss & rest & H1 & H2 & H3 & H4 & H5). destruct (H a ss rest H1 H2 H3 H4).
  - destruct (status_top _ _ E) as [-> | ->]; [left|right]; (split; [reflexivity|]).
    + now apply help_top.
    + intros Hh. apply help_top in Hh. congruence.
Qed.
