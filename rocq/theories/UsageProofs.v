(** UsageProofs.v: lemmas for C118. *)
From Verif Require Import Base BencodeModel BencodeSpec BencodeProofs DecimalProofs PeerModel UtilsModel UtilsSpec UtilsProofs FsModel StartModel FlagModel FlagSpec FlagProofs PrintModel DiagModel DiagSpec DiagProofs UsageModel UsageSpec.
From Coq Require Import ZifyBool ZifyNat ZifyN.

(** ** The same as without reasons *)
Lemma loopT_eq base s : forall n us, uint_loop base s n us = match uint_loopT base s n us with Reads x => Some x | _ => None end.
Proof.
  induction s as [|c s IH]; intros n us; [reflexivity|]. cbn [uint_loop uint_loopT]. destruct (Byte.eqb c "_"); [apply IH|]. destruct (digit_value c); [|reflexivity].
  destruct (base <=? z); [reflexivity|]. destruct (_ <=? n); [reflexivity|]. cbv zeta. destruct (_ <? _); [reflexivity|apply IH].
Qed.
Lemma ParseUintT_eq s : ParseUint s = match ParseUintT s with Reads n => Some n | _ => None end.
Proof.
  unfold ParseUint, ParseUintT. destruct s; [reflexivity|]. destruct (uint_base _) as [base r]. rewrite loopT_eq. destruct (uint_loopT base r 0 false) as [[n us]| |]; [|reflexivity..].
  destruct (_ && _); reflexivity.
Qed.
Lemma parseT_eq k : forall args o, (List.length args <= k)%nat -> flag_parse o args = match flag_parseT o args with Parsed o' r => Flags o' r | Stopped t => FExit (status t) end.
Proof.
  induction k as [|k IH]; intros args o Hk; [destruct args; [reflexivity|cbn in Hk; lia]|]. destruct args as [|s args]; [reflexivity|]. cbn [flag_parse flag_parseT].
  destruct (classify s) as [| | |n v]; [reflexivity..|]. destruct (set_flag o n []) eqn:E0; [destruct (is_help n); reflexivity| |];
    (destruct v as [v|]; [destruct (set_flag o n v) eqn:E; [reflexivity..|apply IH; cbn in Hk; lia]|]; destruct args as [|v args]; [reflexivity|]; destruct (set_flag o n v) eqn:E; [reflexivity..|apply IH; cbn in Hk; lia]).
Qed.
Lemma parse_same args o : flag_parse o args = match flag_parseT o args with Parsed o' r => Flags o' r | Stopped t => FExit (status t) end.
Proof. exact (parseT_eq _ args o (le_n _)). Qed.

(** ** Numbers that are too big *)
Lemma loopT_us base k s : forall n us, exists us', uint_loopT base (repeat "_"%byte k ++ s) n us = uint_loopT base s n us'.
Proof. induction k as [|k IH]; intros n us; [exists us; reflexivity|]. cbn [repeat app uint_loopT]. apply IH. Qed.
Lemma big_back base ps rest : 2 <= base <= 16 -> all_digits base (map snd ps) -> forall n us, 0 <= n <= max_uint64 -> 2 ^ 64 <= from base n (map snd ps) ->
  uint_loopT base (loose ps ++ rest) n us = TooBig.
Proof.
  intros Hb. induction ps as [|[k p] ps IH]; intros Hd n us Hn Hbig; [cbn in Hbig; unfold max_uint64 in Hn; lia|]. cbn [map snd] in *. inversion Hd as [|? ? [Hh Hl] Hd']; subst.
  cbn [loose flat_map fst snd]. fold (loose ps). rewrite <- !app_assoc. destruct (loopT_us base k ([p_char p] ++ loose ps ++ rest) n us) as [us' ->].
  destruct (hexdigit_value _ _ Hh) as (Hv & Hr & Hne). cbn [app uint_loopT]. rewrite Hne, Hv. replace (base <=? p_val p) with false by lia.
  change (from base n (p :: map snd ps)) with (from base (n * base + p_val p) (map snd ps)) in Hbig.
  pose proof (Z.div_mod max_uint64 base ltac:(lia)) as Hdm. pose proof (Z.mod_pos_bound max_uint64 base ltac:(lia)) as Hmb. set (q := max_uint64 / base) in *.
  destruct (Z.leb_spec (q + 1) n) as [Hc|Hc]; [reflexivity|]. assert (Hnb : 0 <= n * base <= max_uint64) by nia.
  assert (E1 : u64 (n * base) = n * base) by (unfold u64; apply Z.mod_small; unfold max_uint64 in *; lia). cbv zeta. rewrite E1.
  destruct (Z.leb_spec (n * base + p_val p) max_uint64) as [Hle|Hgt].
  - assert (E2 : u64 (n * base + p_val p) = n * base + p_val p) by (unfold u64; apply Z.mod_small; unfold max_uint64 in *; lia).
    rewrite E2. replace (n * base + p_val p <? n * base) with false by lia. apply IH; [exact Hd'|lia|exact Hbig].
  - assert (E2 : u64 (n * base + p_val p) = n * base + p_val p - 18446744073709551616).
    { unfold u64. symmetry. apply Z.mod_unique with 1; [left; unfold max_uint64 in *; lia|lia]. }
    rewrite E2. replace (n * base + p_val p - 18446744073709551616 <? n * base) with true by lia. reflexivity.
Qed.
Lemma big_forth base s : 2 <= base <= 16 -> forall n us, 0 <= n <= max_uint64 -> uint_loopT base s n us = TooBig ->
  exists ps rest, s = loose ps ++ rest /\ all_digits base (map snd ps) /\ 2 ^ 64 <= from base n (map snd ps).
Proof.
  intros Hb. induction s as [|c s IH]; intros n us Hn H; cbn [uint_loopT] in H; [discriminate|]. destruct (Byte.eqb c "_"%byte) eqn:Eu.
  - apply Byte_eqb_eq in Eu. subst c. destruct (IH n true Hn H) as (ps & rest & -> & Hd & Hbig). destruct ps as [|[k p] ps]; [cbn in Hbig; unfold max_uint64 in Hn; lia|].
    exists ((S k, p) :: ps), rest. split; [reflexivity|]. split; [exact Hd|exact Hbig].
  - destruct (digit_value c) as [d|] eqn:Ev; [|discriminate]. destruct (Z.leb_spec base d) as [|Hl]; [discriminate|]. pose proof (value_hexdigit c d base ltac:(lia) Ev Hl) as Hh.
    destruct (hexdigit_value _ _ Hh) as (_ & Hr & _).
    pose proof (Z.div_mod max_uint64 base ltac:(lia)) as Hdm. pose proof (Z.mod_pos_bound max_uint64 base ltac:(lia)) as Hmb. set (q := max_uint64 / base) in *.
    assert (Hone : 2 ^ 64 <= n * base + d -> exists ps rest, c :: s = loose ps ++ rest /\ all_digits base (map snd ps) /\ 2 ^ 64 <= from base n (map snd ps)).
    { intros Hx. exists [(0%nat, mkpl false c d)], s. split; [reflexivity|]. split; [constructor; [split; assumption|apply Forall_nil]|exact Hx]. }
    destruct (Z.leb_spec (q + 1) n) as [Hc|Hc]; [apply Hone; unfold max_uint64 in *; nia|]. assert (Hnb : 0 <= n * base <= max_uint64) by nia.
    assert (E1 : u64 (n * base) = n * base) by (unfold u64; apply Z.mod_small; unfold max_uint64 in *; lia). cbv zeta in H. rewrite E1 in H.
    destruct (Z.leb_spec (n * base + d) max_uint64) as [Hle|Hgt]; [|apply Hone; unfold max_uint64 in *; lia].
    assert (E2 : u64 (n * base + d) = n * base + d) by (unfold u64; apply Z.mod_small; unfold max_uint64 in *; lia).
    rewrite E2 in H. replace (n * base + d <? n * base) with false in H by lia. destruct (IH (n * base + d) us ltac:(lia) H) as (ps & rest & -> & Hd & Hbig).
    exists ((0%nat, mkpl false c d) :: ps), rest. split; [reflexivity|]. split; [constructor; [split; assumption|exact Hd]|exact Hbig].
Qed.
Lemma loop_big base s : 2 <= base <= 16 -> uint_loopT base s 0 false = TooBig <-> loosely_big base s.
Proof.
  intros Hb. unfold loosely_big. split.
  - intros H. exact (big_forth base s Hb 0 false ltac:(unfold max_uint64; lia) H).
  - intros (ps & rest & -> & Hd & Hbig). apply (big_back base ps rest Hb Hd 0 false); [unfold max_uint64; lia|exact Hbig].
Qed.
Lemma big_nonempty base s : loosely_big base s -> exists c r, s = c :: r /\ okchar base c.
Proof.
  intros (ps & rest & -> & Hd & Hbig). destruct ps as [|[k p] ps]; [cbn in Hbig; lia|]. cbn [map snd] in Hd. inversion Hd as [|? ? [Hh Hl] _]; subst.
  destruct k as [|k]; cbn; eexists _, _; (split; [reflexivity|]); [right; eauto|left; reflexivity].
Qed.
Lemma ParseUintT_big s : ParseUintT s = TooBig <-> too_big s.
Proof.
  assert (HP : forall c r, ParseUintT (c :: r) = TooBig <-> let (base, t) := uint_base (c :: r) in uint_loopT base t 0 false = TooBig).
  { intros c r. unfold ParseUintT. destruct (uint_base (c :: r)) as [base t]. destruct (uint_loopT base t 0 false) as [[n us]| |]; [destruct (_ && _)|..]; intuition discriminate. }
  destruct s as [|c r].
  { split; [discriminate|]. intros [(_ & H)|[(r & H & _)|(x & base & r & Hin & H & _)]]; [destruct (big_nonempty _ _ H) as (? & ? & ? & _); discriminate|discriminate|].
    destruct (in_prefixes x base Hin) as (b & -> & _). discriminate. }
  rewrite HP. destruct (Byte.eqb c "0"%byte) eqn:Ec.
  - apply Byte_eqb_eq in Ec. subst c. destruct (match r with b :: _ :: _ => is_prefix b | _ => false end) eqn:Ep.
    + destruct r as [|b [|d r]]; try discriminate. destruct (prefix_base b d r Ep) as (base & -> & Hb & _ & Hin). rewrite (loop_big base _ Hb). split.
      * intros H. right. right. exists ["0"%byte; b], base, (d :: r). auto.
      * intros [(H & _)|[(r' & [= <-] & H)|(x & base' & r' & Hin' & E & H)]]; [destruct (H _ eq_refl)| |].
        -- exfalso. destruct (big_nonempty _ _ H) as (c' & t & [= <- <-] & Hc). exact (prefix_letter b Ep Hc).
        -- destruct (in_prefixes x base' Hin') as (b' & -> & _ & _ & _ & Eb'). cbn [app] in E. injection E as <- <-.
           destruct (in_prefixes _ _ Hin) as (b2 & [= <-] & _ & _ & _ & Eb). specialize (Eb d r). specialize (Eb' d r). rewrite Eb in Eb'. injection Eb' as <-. exact H.
    + rewrite plain_base by (intros b d r' ->; exact Ep). rewrite (loop_big 8) by lia. split.
      * intros H. right. left. eauto.
      * intros [(H & _)|[(r' & [= <-] & H)|(x & base' & r' & Hin' & E & H)]]; [destruct (H _ eq_refl)|exact H|].
        exfalso. destruct (in_prefixes x base' Hin') as (b' & -> & Hp & _). cbn [app] in E. injection E as ->. destruct (big_nonempty _ _ H) as (c' & t & -> & _). cbn in Ep. congruence.
  - assert (Eb : uint_base (c :: r) = (10, c :: r)) by (unfold uint_base; now rewrite Ec). rewrite Eb, (loop_big 10) by lia. apply Byte_eqb_neq in Ec. split.
    + intros H. left. split; [intros r' [= E _]; congruence|exact H].
    + intros [(_ & H)|[(r' & [= E _] & H)|(x & base' & r' & Hin' & E & H)]]; [exact H|congruence|]. destruct (in_prefixes x base' Hin') as (b' & -> & _). injection E as E _. congruence.
Qed.
Lemma is_big_iff v : is_big v = true <-> too_big v.
Proof. rewrite <- ParseUintT_big. unfold is_big. destruct (ParseUintT v); intuition discriminate. Qed.

(** ** Arguments *)
Lemma cut_eq_none s : forall n v, cut_eq s = (n, v) -> ~ In "="%byte n.
Proof.
  induction s as [|c s IH]; intros n v H; cbn [cut_eq] in H; [injection H as <- <-; easy|]. destruct (Byte.eqb c "="%byte) eqn:E; [injection H as <- <-; easy|].
  destruct (cut_eq s) as [n0 v0]. injection H as <- <-. apply Byte_eqb_neq in E. intros [X|X]; [congruence|]. exact (IH _ _ eq_refl X).
Qed.
Lemma cut_eq_app n v : ~ In "="%byte n -> cut_eq (n ++ match v with Some x => B "=" ++ x | None => [] end) = (n, v).
Proof.
  induction n as [|c n IH]; intros H; [destruct v; reflexivity|]. cbn [app cut_eq]. destruct (Byte.eqb c "="%byte) eqn:E; [apply Byte_eqb_eq in E; subst c; destruct H; now left|].
  rewrite IH; [reflexivity|]. intros X. apply H. now right.
Qed.
Lemma classify_name c r : c <> "-"%byte -> c <> "="%byte -> forall d, dashes d -> classify (d ++ c :: r) = let (n, v) := cut_eq r in AFlag (c :: n) v.
Proof.
  intros H1 H2 d Hd. apply Byte_eqb_neq in H1, H2. unfold classify. destruct Hd as [-> | ->]; cbn -[cut_eq]; rewrite ?H1, ?H2; cbn [andb orb negb split_name]; rewrite ?H1, ?H2; cbn [orb];
    destruct (cut_eq r); reflexivity.
Qed.
Lemma flagged_iff s n v : classify s = AFlag n v <-> flagged s n v.
Proof.
  split.
  - intros H. destruct (classify_flag _ _ _ H) as (d & Hd & Es). exists d. split; [exact Hd|]. split; [exact Es|].
    unfold classify in H. destruct s as [|a [|b r]]; try discriminate. destruct (negb (Byte.eqb a "-")); [discriminate|]. destruct (Byte.eqb b "-" && beqb r [])%bool; [discriminate|].
    destruct (if Byte.eqb b "-" then r else b :: r) as [|c t]; [discriminate|]. destruct (Byte.eqb c "-" || Byte.eqb c "=")%bool eqn:Ec; [discriminate|]. apply orb_false_iff in Ec.
    rewrite !Byte_eqb_neq in Ec. destruct Ec as [Ec1 Ec2]. cbn [split_name] in H. destruct (cut_eq t) as [n0 v0] eqn:E. injection H as <- <-. split; [|eauto].
    intros [X|X]; [congruence|]. exact (cut_eq_none _ _ _ E X).
  - intros (d & Hd & -> & Hne & c & r & -> & Hc). cbn [app]. rewrite (classify_name c _ Hc); [|intros ->; apply Hne; now left|exact Hd].
    rewrite cut_eq_app; [reflexivity|]. intros X. apply Hne. now right.
Qed.
Lemma bad_iff s : classify s = ABad <-> exists x, s = B "-=" ++ x \/ s = B "--=" ++ x \/ s = B "---" ++ x.
Proof.
  split; [|intros (x & [-> | [-> | ->]]); reflexivity]. unfold classify. destruct s as [|a [|b r]]; try discriminate. destruct (Byte.eqb a "-"%byte) eqn:Ea; cbn [negb]; [|discriminate].
  apply Byte_eqb_eq in Ea. subst a. destruct (Byte.eqb b "-"%byte) eqn:Eb.
  - apply Byte_eqb_eq in Eb. subst b. destruct r as [|c r]; [discriminate|]. cbn [andb beqb]. destruct (Byte.eqb c "-"%byte) eqn:E1; [intros _; apply Byte_eqb_eq in E1; subst c; exists r; right; right; reflexivity|].
    destruct (Byte.eqb c "="%byte) eqn:E2; [intros _; apply Byte_eqb_eq in E2; subst c; exists r; right; left; reflexivity|]. cbn [orb]. destruct (split_name (c :: r)). discriminate.
  - cbn [andb]. rewrite Eb. destruct (Byte.eqb b "="%byte) eqn:E2; [intros _; apply Byte_eqb_eq in E2; subst b; exists r; left; reflexivity|]. cbn [orb]. destruct (split_name (b :: r)). discriminate.
Qed.
Lemma help_flagged s : asks_help s <-> exists n v, flagged s n v /\ In n [B "h"; B "help"].
Proof.
  split.
  - intros (d & n & v & Hd & Hn & Hv & ->). assert (HP : ~ In "="%byte n /\ exists c r, n = c :: r /\ c <> "-"%byte).
    { cbn [In] in Hn. destruct Hn as [<-|[<-|[]]]; (split; [cbn; intuition discriminate|]); cbn; eexists _, _; (split; [reflexivity|discriminate]). }
    exists n. destruct Hv as [->|[x ->]]; [exists None|exists (Some x)]; (split; [exists d; auto|exact Hn]).
  - intros (n & v & (d & Hd & -> & _) & Hn). exists d, n, (match v with Some x => B "=" ++ x | None => [] end). split; [exact Hd|]. split; [exact Hn|]. split; [|reflexivity]. destruct v; eauto.
Qed.
Lemma set_flag_fails o n v : In n flag_names -> (forall o', set_flag o n v <> Set_ o') <-> n = B "p" /\ forall k, ~ port_number v k.
Proof.
  intros Hn. assert (HP : forall k, ParseUint v = Some k <-> port_number v k) by (intros; apply ParseUint_iff). cbn [flag_names In] in Hn. unfold set_flag.
  destruct Hn as [<-|[<-|[<-|[<-|[<-|[<-|[]]]]]]]; cbn [beqb]; try (split; [intros H; exfalso; eapply H; reflexivity|intros [X _]; discriminate X]).
  change (beqb (B "p") (B "i")) with false. change (beqb (B "p") (B "w")) with false. change (beqb (B "p") (B "p")) with true. cbv iota. destruct (ParseUint v) as [k|].
  - split; [intros H; exfalso; eapply H; reflexivity|intros [_ X]; exfalso; apply (X k), HP; reflexivity].
  - split; [intros _; split; [reflexivity|intros k X; apply HP in X; discriminate]|discriminate].
Qed.
Lemma undefined_iff o n : set_flag o n [] = NotDefined <-> ~ In n flag_names.
Proof. rewrite <- (set_flag_defined o n []). destruct (set_flag o n []); intuition discriminate. Qed.

Lemma parse_spelledT args ss : spelled args ss -> forall o o' rest, set_all o ss = Some o' -> flag_parseT o (args ++ rest) = flag_parseT o' rest.
Proof.
  induction 1 as [|d n v args ss Hd Hn Hs IH|d n v args ss Hd Hn Hs IH]; intros o o' rest Ho; [injection Ho as <-; reflexivity| |].
  - cbn [app flag_parseT]. rewrite (classify_two d n Hd) by (apply in_or_app; now left). pose proof (proj2 (set_flag_defined o n []) Hn) as Hdef.
    cbn [set_all] in Ho. destruct (set_flag o n []) eqn:E; try congruence; destruct (set_flag o n v); try discriminate; apply IH; exact Ho.
  - cbn [app flag_parseT]. rewrite (classify_one d n v Hd) by (apply in_or_app; now left). pose proof (proj2 (set_flag_defined o n []) Hn) as Hdef.
    cbn [set_all] in Ho. destruct (set_flag o n []) eqn:E; try congruence; destruct (set_flag o n v); try discriminate; apply IH; exact Ho.
Qed.
Lemma amiss_stops o b rest t : amiss b rest t -> flag_parseT o (b :: rest) = Stopped t.
Proof.
  intros H. cbn [flag_parseT]. destruct t as [|s|n|n|n v big]; cbn [amiss] in H.
  - apply help_flagged in H. destruct H as (n & v & Hf & Hn). apply flagged_iff in Hf. rewrite Hf.
    rewrite (proj2 (undefined_iff o n)) by (cbn [In] in Hn; destruct Hn as [<-|[<-|[]]]; cbn; intuition discriminate). rewrite (proj2 (help_iff n) Hn). reflexivity.
  - destruct H as (-> & H). apply bad_iff in H. rewrite H. reflexivity.
  - destruct H as (v & Hf & Hn). apply flagged_iff in Hf. rewrite Hf. rewrite in_app_iff in Hn. rewrite (proj2 (undefined_iff o n)) by tauto.
    destruct (is_help n) eqn:E; [|reflexivity]. apply help_iff in E. tauto.
  - destruct H as (Hn & Hf & ->). apply flagged_iff in Hf. rewrite Hf. pose proof (proj2 (set_flag_defined o n []) Hn). destruct (set_flag o n []); [congruence|reflexivity..].
  - destruct H as (-> & Hf & Hk & Hb). assert (Hn : In (B "p") flag_names) by (cbn; tauto). pose proof (proj2 (set_flag_defined o (B "p") []) Hn) as Hd.
    pose proof (proj2 (set_flag_fails o (B "p") v Hn) (conj eq_refl Hk)) as Hs. assert (Eb : is_big v = big) by (apply eq_true_iff_eq; rewrite is_big_iff; symmetry; exact Hb).
    destruct Hf as [Hf|(Hf & r & ->)]; apply flagged_iff in Hf; rewrite Hf, Eb; (destruct (set_flag o (B "p") []); [congruence| |]); (destruct (set_flag o (B "p") v) as [| |o'] eqn:Ev; [reflexivity|reflexivity|destruct (Hs o' eq_refl)]).
Qed.
Lemma stops_amiss : forall k args o t, (List.length args <= k)%nat -> flag_parseT o args = Stopped t ->
  exists a ss o1 b rest, args = a ++ b :: rest /\ spelled a ss /\ set_all o ss = Some o1 /\ amiss b rest t.
Proof.
  induction k as [|k IH]; intros args o t Hk H. { destruct args; [discriminate|cbn in Hk; lia]. }
  destruct args as [|s args]; [discriminate|]. cbn [flag_parseT] in H.
  assert (Hhere : forall t, amiss s args t -> exists a ss o1 b rest, s :: args = a ++ b :: rest /\ spelled a ss /\ set_all o ss = Some o1 /\ amiss b rest t).
  { intros t' Ha. exists [], [], o, s, args. repeat split; [constructor|exact Ha]. }
  destruct (classify s) as [| | |n v] eqn:Ec; try discriminate.
  - injection H as <-. apply Hhere. split; [reflexivity|]. apply bad_iff. exact Ec.
  - pose proof (proj1 (flagged_iff _ _ _) Ec) as Hf. destruct (set_flag o n []) eqn:E0.
    { apply undefined_iff in E0. destruct (is_help n) eqn:Eh; injection H as <-; apply Hhere; cbn [amiss].
      - apply help_flagged. exists n, v. split; [exact Hf|]. apply help_iff. exact Eh.
      - exists v. split; [exact Hf|]. rewrite in_app_iff. intros [X|X]; [tauto|]. apply help_iff in X. congruence. }
    all: assert (Hn : In n flag_names) by (apply (proj1 (set_flag_defined o n [])); congruence); clear E0.
    all: destruct Hf as (d & Hd & Es & Hf').
    all: destruct v as [v|].
    1,3: destruct (set_flag o n v) as [| |o1] eqn:E1;
      [injection H as <-; destruct (proj1 (set_flag_fails o n v Hn)) as (-> & Hk'); [congruence|]; apply Hhere; split; [reflexivity|]; split; [left; exists d; auto|split; [exact Hk'|apply is_big_iff]]
      |injection H as <-; destruct (proj1 (set_flag_fails o n v Hn)) as (-> & Hk'); [congruence|]; apply Hhere; split; [reflexivity|]; split; [left; exists d; auto|split; [exact Hk'|apply is_big_iff]]
      |destruct (IH args o1 t ltac:(cbn in Hk; lia) H) as (a & ss & o2 & b & rest & -> & H1 & H2 & H3); exists (s :: a), ((n, v) :: ss), o2, b, rest;
       repeat split; [rewrite Es; now constructor|cbn [set_all]; now rewrite E1|exact H3]].
    all: destruct args as [|v args]; [injection H as <-; apply Hhere; split; [exact Hn|]; split; [exists d; auto|reflexivity]|].
    all: destruct (set_flag o n v) as [| |o1] eqn:E1;
      [injection H as <-; destruct (proj1 (set_flag_fails o n v Hn)) as (-> & Hk'); [congruence|]; apply Hhere; split; [reflexivity|]; split; [right; split; [exists d; auto|eauto]|split; [exact Hk'|apply is_big_iff]]
      |injection H as <-; destruct (proj1 (set_flag_fails o n v Hn)) as (-> & Hk'); [congruence|]; apply Hhere; split; [reflexivity|]; split; [right; split; [exists d; auto|eauto]|split; [exact Hk'|apply is_big_iff]]
      |destruct (IH args o1 t ltac:(cbn in Hk; lia) H) as (a & ss & o2 & b & rest & -> & H1 & H2 & H3); exists (s :: v :: a), ((n, v) :: ss), o2, b, rest;
       repeat split; [rewrite Es, app_nil_r; now constructor|cbn [set_all]; now rewrite E1|exact H3]].
Qed.
Lemma flag_first args t : flag_parseT default_opts args = Stopped t <-> first_amiss args t.
Proof.
  split.
  - intros H. destruct (stops_amiss _ args default_opts t (le_n _) H) as (a & ss & o1 & b & rest & E & Hs & Ho & Ha). exists a, ss, b, rest.
    destruct (set_all_means ss _ _ _ default_port Ho) as [H1 _]. auto.
  - intros (a & ss & b & rest & -> & Hs & Hp & Ha). destruct (set_all_some ss (spelled_names _ _ Hs) Hp default_opts) as [o Ho].
    rewrite (parse_spelledT _ _ Hs _ _ _ Ho). apply amiss_stops, Ha.
Qed.

(** ** Limits *)
Lemma trouble_same uni s : match parse_trouble uni s with None => exists v, parseSizeUnits uni s = Ok v | Some _ => exists e, parseSizeUnits uni s = Err e end.
Proof.
  unfold parse_trouble, parseSizeUnits. destruct (ToUpper uni s) as [|c r]; [eauto|]. cbv zeta. destruct (span_digits _) as [ds tail]. unfold atoi. destruct ds as [|x ds]; [cbn; eauto|].
  destruct (_ <=? _); cbn [bind]; [|eauto]. destruct tail as [|u [|u' tail]]; [eauto| |eauto].
  destruct (Byte.eqb u "B"); [cbn; eauto|]. destruct (Byte.eqb u "K"); [cbn; eauto|]. destruct (Byte.eqb u "M"); [cbn; eauto|]. destruct (Byte.eqb u "G"); cbn; eauto.
Qed.
Lemma valid_same uni o : match ValidateT uni o with None => exists o', initOpts uni o = Ok o' | Some _ => initOpts uni o = Panic end.
Proof.
  unfold ValidateT, initOpts, ValidateOpts. cbn [set_uplim set_dnlim o_input o_cmd o_upstr o_dnstr]. destruct (beqb (o_input o) []); [reflexivity|]. destruct (negb _); [reflexivity|].
  pose proof (trouble_same uni (o_upstr o)) as H1. destruct (parse_trouble uni (o_upstr o)); destruct H1 as [? ->]; [reflexivity|].
  pose proof (trouble_same uni (o_dnstr o)) as H2. destruct (parse_trouble uni (o_dnstr o)); destruct H2 as [? ->]; [reflexivity|]. eauto.
Qed.
Lemma up_digit b : is_digit (upper b) = is_digit b.
Proof. destruct b; reflexivity. Qed.
Lemma up_id b : is_digit b = true -> upper b = b.
Proof. destruct b; try discriminate; reflexivity. Qed.
Lemma up_minus b : Byte.eqb (upper b) "-"%byte = Byte.eqb b "-"%byte.
Proof. destruct b; reflexivity. Qed.
Lemma up_unit u : (Byte.eqb (upper u) "B" || Byte.eqb (upper u) "K" || Byte.eqb (upper u) "M" || Byte.eqb (upper u) "G")%bool = true <-> In u (B "bkmgBKMG").
Proof. destruct u; vm_compute; intuition discriminate. Qed.
Lemma span_upper s : span_digits (map upper s) = let (d, t) := span_digits s in (d, map upper t).
Proof.
  induction s as [|b s IH]; [reflexivity|]. cbn [map span_digits]. rewrite up_digit. destruct (is_digit b) eqn:E; [|reflexivity]. rewrite IH, (up_id b E). destruct (span_digits s); reflexivity.
Qed.
Lemma span_max s d t : span_digits s = (d, t) -> forall b r, t = b :: r -> is_digit b = false.
Proof.
  revert d t. induction s as [|x s IH]; intros d t H b r E; cbn [span_digits] in H; [injection H as <- <-; discriminate|]. destruct (is_digit x) eqn:Ex.
  - destruct (span_digits s) as [d' t']. injection H as <- <-. exact (IH _ _ eq_refl b r E).
  - injection H as <- <-. injection E as <- <-. exact Ex.
Qed.
Lemma plain_upper uni s : plain s -> ToUpper uni s = map upper s.
Proof. intros H. unfold ToUpper. replace (forallb _ s) with true; [reflexivity|]. symmetry. apply forallb_forall. intros x Hx. unfold plain in H. rewrite Forall_forall in H. specialize (H x Hx). lia. Qed.
(** The parts of a limit. *)
Definition parts (s : bytes) : bytes * bytes := span_digits (match s with c :: r => if Byte.eqb c "-"%byte then r else s | [] => [] end).
Lemma plain_trouble uni s : plain s -> parse_trouble uni s =
  match s with [] => Some SEmpty | _ =>
    let (ds, tail) := parts s in
    match atoi ds with
    | Ok _ => match tail with [] => None | [u] => if Byte.eqb (upper u) "B" || Byte.eqb (upper u) "K" || Byte.eqb (upper u) "M" || Byte.eqb (upper u) "G" then None else Some SUnits | _ => Some SFormat end
    | _ => Some (SNumber ds)
    end
  end.
Proof.
  intros H. unfold parse_trouble, parts. rewrite (plain_upper uni s H). destruct s as [|c r]; [reflexivity|]. cbn [map]. rewrite up_minus.
  cbv zeta. replace (span_digits (if Byte.eqb c "-" then map upper r else upper c :: map upper r)) with (span_digits (map upper (if Byte.eqb c "-" then r else c :: r))) by (destruct (Byte.eqb c "-"); reflexivity).
  rewrite span_upper. destruct (span_digits _) as [ds tail]. destruct tail as [|u [|u' t]]; reflexivity.
Qed.
Lemma parts_spec s ds tail : s <> [] -> (parts s = (ds, tail) <->
  exists sign, s = sign ++ ds ++ tail /\ (sign = B "-" \/ (sign = [] /\ forall r, s <> "-"%byte :: r)) /\
    Forall (fun d => 48 <= b2z d <= 57) ds /\ (forall b r, tail = b :: r -> ~ 48 <= b2z b <= 57)).
Proof.
  intros Hne. unfold parts. destruct s as [|c r]; [congruence|]. split.
  - intros H. pose proof (span_max _ _ _ H) as Hm. destruct (span_digits_spec _ _ _ H) as [E Hd].
    assert (Hm' : forall b r, tail = b :: r -> ~ 48 <= b2z b <= 57) by (intros b r' Et X; specialize (Hm b r' Et); apply is_digit_iff in X; congruence).
    destruct (Byte.eqb c "-"%byte) eqn:Ec.
    + apply Byte_eqb_eq in Ec. subst c. exists (B "-"). split; [change (B "-" ++ ds ++ tail) with ("-"%byte :: ds ++ tail); now rewrite <- E|]. split; [now left|]. split; assumption.
    + apply Byte_eqb_neq in Ec. exists []. split; [exact E|]. split; [right; split; [reflexivity|intros r' [= X _]; congruence]|]. split; assumption.
  - intros (sign & E & Hs & Hd & Hm). assert (HX : span_digits (ds ++ tail) = (ds, tail)).
    { apply span_digits_app; [exact Hd|]. intros b r' Et. specialize (Hm b r' Et). destruct (is_digit b) eqn:X; [|reflexivity]. apply is_digit_iff in X. tauto. }
    destruct Hs as [->|[-> Hn]].
    + change (B "-" ++ ds ++ tail) with ("-"%byte :: ds ++ tail) in E. injection E as -> ->. change (Byte.eqb "-" "-") with true. exact HX.
    + cbn [app] in E. destruct (Byte.eqb c "-"%byte) eqn:Ec; [apply Byte_eqb_eq in Ec; subst c; destruct (Hn r eq_refl)|]. rewrite E. exact HX.
Qed.
Lemma atoi_fails ds : (forall v, atoi ds <> Ok v) <-> ~ (ds <> [] /\ dvalue ds <= max64).
Proof.
  split; [intros H (H1 & H2); apply (H (dvalue ds)), atoi_iff; auto|]. intros H v Hv. apply atoi_iff in Hv. tauto.
Qed.
Lemma size_iff uni s t : plain s -> (parse_trouble uni s = Some t <-> size_amiss s t).
Proof.
  intros Hp. rewrite (plain_trouble uni s Hp). destruct s as [|c r].
  { destruct t; cbn [size_amiss]; [tauto|..]; (split; [discriminate|]); intros (? & ? & ? & _ & H & _); congruence. }
  set (s := c :: r) in *. assert (Hne : s <> []) by discriminate. destruct (parts s) as [ds tail] eqn:E. pose proof (proj1 (parts_spec s ds tail Hne) E) as (sign & Es & Hs & Hd & Hm).
  assert (HU : forall (P : bytes -> bytes -> Prop), (exists sign ds tail, s = sign ++ ds ++ tail /\ s <> [] /\ (sign = B "-" \/ (sign = [] /\ forall r, s <> "-"%byte :: r)) /\
      Forall (fun d => 48 <= b2z d <= 57) ds /\ (forall b r, tail = b :: r -> ~ 48 <= b2z b <= 57) /\ P ds tail) <-> P ds tail).
  { intros P. split.
    - intros (sign' & ds' & tail' & E1 & _ & E2 & E3 & E4 & HP). assert (X : parts s = (ds', tail')) by (apply parts_spec; [exact Hne|exists sign'; auto]). rewrite E in X. injection X as -> ->. exact HP.
    - intros HP. exists sign, ds, tail. auto 10. }
  destruct (atoi ds) as [v|e| |] eqn:Ea.
  1: assert (HN : ds <> [] /\ dvalue ds <= max64) by (apply atoi_iff in Ea; tauto).
  2,3,4: assert (HN : ~ (ds <> [] /\ dvalue ds <= max64)) by (apply atoi_fails; intros v X; congruence).
  2,3,4: destruct t; cbn [size_amiss]; [split; [discriminate|intros X; congruence]|rewrite (HU (fun ds tail => _ = ds /\ _)); intuition congruence|rewrite (HU (fun ds tail => _ /\ 2 <= zlen tail)); intuition discriminate
    |rewrite (HU (fun ds tail => _ /\ exists u, tail = [u] /\ _)); intuition discriminate].
  destruct t; cbn [size_amiss].
  - split; [|intros X; congruence]. destruct tail as [|u [|]]; [discriminate| |discriminate]. destruct (_ || _)%bool; discriminate.
  - rewrite (HU (fun ds tail => _ = ds /\ _)). split; [|tauto]. destruct tail as [|u [|]]; [discriminate| |discriminate]. destruct (_ || _)%bool; discriminate.
  - rewrite (HU (fun ds tail => _ /\ 2 <= zlen tail)). destruct tail as [|u [|u' tail]].
    + split; [discriminate|]. intros [_ X]. unfold zlen in X; cbn in X; lia.
    + split; [destruct (_ || _)%bool; discriminate|]. intros [_ X]. unfold zlen in X; cbn in X; lia.
    + split; [intros _; split; [exact HN|]; unfold zlen; cbn [List.length]; lia|reflexivity].
  - rewrite (HU (fun ds tail => _ /\ exists u, tail = [u] /\ _)). destruct tail as [|u [|u' tail]].
    + split; [discriminate|]. intros [_ (u & X & _)]. discriminate.
    + pose proof (up_unit u) as Hu. destruct (_ || _)%bool eqn:Eu.
      * split; [discriminate|]. intros [_ (u' & [= <-] & X)]. destruct X. apply Hu. reflexivity.
      * split; [|reflexivity]. intros _. split; [exact HN|]. exists u. split; [reflexivity|]. intros X. apply Hu in X. discriminate.
    + split; [discriminate|]. intros [_ (u0 & X & _)]. discriminate.
Qed.
Lemma unicode_id : unicode_ok (fun s => s).
Proof. intros s (b & H1 & H2). exists b. auto. Qed.
Lemma size_fine uni s : plain s -> parse_trouble uni s = None <-> exists n, size_text s n.
Proof.
  intros Hp. replace (parse_trouble uni s) with (parse_trouble (fun s => s) s) by (rewrite !plain_trouble by exact Hp; reflexivity). pose proof (trouble_same (fun s => s) s) as H.
  destruct (parse_trouble (fun s => s) s).
  - split; [discriminate|]. intros (n & Hn). destruct H as [e He]. rewrite (parseSizeUnits_complete _ _ _ Hn) in He. discriminate.
  - split; [|reflexivity]. intros _. destruct H as [v Hv]. destruct (parseSizeUnits_sound _ _ _ unicode_id Hv) as (n & Hn & _). eauto.
Qed.
Lemma opts_iff uni o t : plain (o_upstr o) -> plain (o_dnstr o) -> (ValidateT uni o = Some t <-> opts_amiss o t).
Proof.
  intros Hu Hd. unfold ValidateT. destruct (beqb (o_input o) []) eqn:Ei.
  { apply beqb_eq in Ei. destruct t; cbn [opts_amiss]; [tauto|split; [discriminate|tauto]|split; [discriminate|tauto]]. }
  apply beqb_neq in Ei. destruct (beqb (o_cmd o) (B "swarm") || beqb (o_cmd o) (B "info"))%bool eqn:Ec; cbn [negb].
  2:{ assert (HC : ~ a_command (o_cmd o)) by (unfold a_command; rewrite orb_false_iff, !beqb_neq in Ec; tauto).
      destruct t as [|c|st]; cbn [opts_amiss]; [split; [discriminate|congruence]| |split; [discriminate|tauto]]. split; [intros [= <-]; auto|intros (_ & _ & ->); reflexivity]. }
  assert (HC : a_command (o_cmd o)) by (unfold a_command; rewrite orb_true_iff, !beqb_eq in Ec; tauto).
  destruct t as [|c|st]; cbn [opts_amiss].
  - split; [|congruence]. destruct (parse_trouble uni (o_upstr o)); [discriminate|]. destruct (parse_trouble uni (o_dnstr o)); discriminate.
  - split; [|tauto]. destruct (parse_trouble uni (o_upstr o)); [discriminate|]. destruct (parse_trouble uni (o_dnstr o)); discriminate.
  - rewrite <- (size_iff uni (o_upstr o) st Hu), <- (size_iff uni (o_dnstr o) st Hd), <- (size_fine uni (o_upstr o) Hu).
    destruct (parse_trouble uni (o_upstr o)); [intuition congruence|]. destruct (parse_trouble uni (o_dnstr o)); intuition congruence.
Qed.

(** ** Texts *)
Fixpoint prefixb (a b : bytes) : bool := match a, b with [], _ => true | x :: a, y :: b => Byte.eqb x y && prefixb a b | _, [] => false end.
Definition all_bytes : list byte := map (fun n => z2b (Z.of_nat n)) (seq 0 256).
Lemma all_bytes_in b : In b all_bytes.
Proof. unfold all_bytes. apply in_map_iff. exists (Z.to_nat (b2z b)). pose proof (b2z_range b). split; [rewrite Z2Nat.id by lia; apply z2b_b2z|apply in_seq; lia]. Qed.
Lemma esc_apart_b : forallb (fun a => forallb (fun b => Byte.eqb a b || negb (prefixb (esc a) (esc b))) all_bytes) all_bytes = true.
Proof. vm_compute. reflexivity. Qed.
Lemma prefixb_app a b x y : a ++ x = b ++ y -> prefixb a b = true \/ prefixb b a = true.
Proof.
  revert b. induction a as [|c a IH]; intros b H; [now left|]. destruct b as [|d b]; [now right|]. cbn [app] in H. injection H as -> H. cbn [prefixb].
  replace (Byte.eqb d d) with true by (symmetry; apply Byte_eqb_eq; reflexivity). cbn [andb]. exact (IH b H).
Qed.
Lemma esc_apart a b x y : esc a ++ x = esc b ++ y -> a = b.
Proof.
  intros H. pose proof esc_apart_b as HF. rewrite forallb_forall in HF. apply prefixb_app in H.
  destruct H as [H|H].
  - specialize (HF a (all_bytes_in a)). rewrite forallb_forall in HF. specialize (HF b (all_bytes_in b)). rewrite H in HF. cbn [negb] in HF. rewrite orb_false_r in HF. apply Byte_eqb_eq. exact HF.
  - specialize (HF b (all_bytes_in b)). rewrite forallb_forall in HF. specialize (HF a (all_bytes_in a)). rewrite H in HF. cbn [negb] in HF. rewrite orb_false_r in HF. apply Byte_eqb_eq in HF. congruence.
Qed.
Lemma esc_quote b x y : esc b ++ x <> x22 :: y.
Proof. destruct b; vm_compute; discriminate. Qed.
Lemma esc_inj a : forall b x y, flat_map esc a ++ x22 :: x = flat_map esc b ++ x22 :: y -> a = b.
Proof.
  induction a as [|c a IH]; intros b x y H; destruct b as [|d b]; [reflexivity| | |].
  - exfalso. cbn [flat_map app] in H. rewrite <- app_assoc in H. symmetry in H. exact (esc_quote _ _ _ H).
  - exfalso. cbn [flat_map app] in H. rewrite <- app_assoc in H. exact (esc_quote _ _ _ H).
  - cbn [flat_map] in H. rewrite <- !app_assoc in H. pose proof (esc_apart _ _ _ _ H) as ->. apply app_inv_head in H. f_equal. exact (IH b x y H).
Qed.
Definition plain_trouble_of (t : trouble) : Prop := match t with TValue _ v _ => plain v | _ => True end.
Definition of_flags (t : trouble) : Prop := match t with TValue n _ _ => n = B "p" | _ => True end.
Lemma plain_b s : plain s -> forallb (fun b => b2z b <? 128) s = true.
Proof. intros H. apply forallb_forall. intros x Hx. unfold plain in H. rewrite Forall_forall in H. specialize (H x Hx). lia. Qed.
Lemma line_inj uniq uniq' t t' : of_flags t -> of_flags t' -> plain_trouble_of t -> plain_trouble_of t' -> trouble_line uniq t = trouble_line uniq' t' -> t = t'.
Proof.
  intros F F' Hp Hp' H. destruct t as [|s|n|n|n v big], t' as [|s'|n'|n'|n' v' big']; try reflexivity; try discriminate H.
  - cbn [trouble_line] in H. apply app_inv_head in H. apply app_inv_tail in H. congruence.
  - cbn [trouble_line] in H. apply app_inv_head in H. apply app_inv_tail in H. congruence.
  - cbn [trouble_line] in H. apply app_inv_head in H. apply app_inv_tail in H. congruence.
  - cbn [of_flags] in F, F'. subst n n'. cbn [trouble_line] in H. apply app_inv_head in H. unfold quote in H. cbn [plain_trouble_of] in Hp, Hp'. rewrite (plain_b v Hp), (plain_b v' Hp') in H.
    cbn [app] in H. injection H as H. rewrite <- !app_assoc in H. cbn [app] in H. pose proof (esc_inj _ _ _ _ H) as ->. apply app_inv_head in H. f_equal. destruct big, big'; [reflexivity|discriminate H..|reflexivity].
Qed.
Lemma flag_tells uniq uniq' prog t t' : of_flags t -> of_flags t' -> plain_trouble_of t -> plain_trouble_of t' -> flag_text uniq prog t = flag_text uniq' prog t' -> t = t'.
Proof. intros F F' Hp Hp' H. unfold flag_text in H. apply app_inv_tail in H. exact (line_inj _ _ _ _ F F' Hp Hp' H). Qed.
Lemma first_flags args t : first_amiss args t -> of_flags t.
Proof. intros (a & ss & b & rest & _ & _ & _ & H). destruct t; cbn in *; tauto. Qed.
Lemma opt_tells t t' : opt_text t = opt_text t' -> (forall ds, t = OSize (SNumber ds) -> digits ds) -> (forall ds, t' = OSize (SNumber ds) -> digits ds) -> t = t'.
Proof.
  intros H D D'. destruct t as [|c|[|ds| |]], t' as [|c'|[|ds'| |]]; try reflexivity; try discriminate H.
  - cbn [opt_text] in H. apply app_inv_head, app_inv_tail in H. congruence.
  - cbn [opt_text] in H. apply num_inj in H; [congruence|auto|auto].
Qed.

(** ** The program *)
Lemma size_digits s t ds : size_amiss s t -> t = SNumber ds -> digits ds.
Proof.
  intros H ->. destruct H as (sign & d & tail & _ & _ & _ & Hd & _ & -> & _). unfold digits. rewrite Forall_forall in *. intros x Hx. apply is_digit_iff. exact (Hd x Hx).
Qed.
Lemma opts_digits o t ds : opts_amiss o t -> t = OSize (SNumber ds) -> digits ds.
Proof. intros H ->. destruct H as (_ & _ & [H|[_ H]]); exact (size_digits _ _ ds H eq_refl). Qed.
Lemma complaint_opt_tells o o' t t' trace : opts_amiss o t -> opts_amiss o' t' -> panic_text t trace = panic_text t' trace -> t = t'.
Proof.
  intros H H' E. unfold panic_text in E. apply app_inv_head, app_inv_tail in E. apply opt_tells; [exact E|intros ds; exact (opts_digits _ _ ds H)|intros ds; exact (opts_digits _ _ ds H')].
Qed.
Lemma complain_flags uniq uni prog trace args t sha1 n src fuel sp w : first_amiss args t ->
  complaint uniq uni prog trace args = Some (flag_text uniq prog t) /\ gotor uni sha1 n src fuel sp args w = (Exit (status t), w).
Proof. intros H. apply flag_first in H. unfold complaint, gotor. rewrite parse_same, H. split; reflexivity. Qed.
Lemma parsed_means a ss rest o : spelled a ss -> ports_good ss -> ends rest -> means ss o -> exists r, flag_parseT default_opts (a ++ rest) = Parsed o r.
Proof.
  intros H1 H2 H3 H4. destruct (reads_top a ss rest H1 H2 H3) as (o' & r & E & Hm). rewrite parse_same in E. destruct (flag_parseT default_opts (a ++ rest)) as [o1 r1|t]; [|discriminate]. injection E as -> ->. exists r. f_equal.
  eapply means_det; eassumption.
Qed.
Lemma complain_opts uniq uni prog trace a ss rest o t sha1 n src fuel sp w : spelled a ss -> ports_good ss -> ends rest -> means ss o -> plain (o_upstr o) -> plain (o_dnstr o) -> opts_amiss o t ->
  complaint uniq uni prog trace (a ++ rest) = Some (panic_text t trace) /\ gotor uni sha1 n src fuel sp (a ++ rest) w = (Crash, w).
Proof.
  intros H1 H2 H3 H4 Hu Hd H. apply (opts_iff uni o t Hu Hd) in H. destruct (parsed_means a ss rest o H1 H2 H3 H4) as [r E]. unfold complaint. rewrite E, H. split; [reflexivity|].
  rewrite (gotor_means uni sha1 n src fuel sp a ss rest o w H1 H2 H3 H4). unfold main. pose proof (valid_same uni o) as X. rewrite H in X. rewrite X. reflexivity.
Qed.
Lemma complain_only uniq uni prog trace args x : complaint uniq uni prog trace args = Some x ->
  (exists t, first_amiss args t /\ x = flag_text uniq prog t) \/
  exists a ss rest o t, args = a ++ rest /\ spelled a ss /\ ports_good ss /\ ends rest /\ means ss o /\ initOpts uni o = Panic /\ (plain (o_upstr o) -> plain (o_dnstr o) -> opts_amiss o t) /\ x = panic_text t trace.
Proof.
  unfold complaint. destruct (flag_parseT default_opts args) as [o r|t] eqn:E; intros H.
  - right. pose proof (valid_same uni o) as V. destruct (ValidateT uni o) as [t|] eqn:Et; [|discriminate]. injection H as <-. pose proof (fun Hu Hd => proj1 (opts_iff uni o t Hu Hd) Et) as Ho.
    assert (E' : flag_parse default_opts args = Flags o r) by (rewrite parse_same, E; reflexivity). destruct (only_top args o r E') as (a & ss & rest & X). exists a, ss, rest, o, t. tauto.
  - left. injection H as <-. exists t. split; [apply flag_first; exact E|reflexivity].
Qed.
Lemma complain_none uniq uni prog trace args : complaint uniq uni prog trace args = None <->
  exists a ss rest o u d, args = a ++ rest /\ spelled a ss /\ ports_good ss /\ ends rest /\ means ss o /\ o_input o <> [] /\ a_command (o_cmd o) /\ parseSizeUnits uni (o_upstr o) = Ok u /\ parseSizeUnits uni (o_dnstr o) = Ok d.
Proof.
  split.
  - unfold complaint. destruct (flag_parseT default_opts args) as [o r|t] eqn:E; [|discriminate]. intros H. destruct (ValidateT uni o) eqn:V; [discriminate|].
    assert (E' : flag_parse default_opts args = Flags o r) by (rewrite parse_same, E; reflexivity). destruct (only_top args o r E') as (a & ss & rest & X).
    unfold ValidateT in V. destruct (beqb (o_input o) []) eqn:Ei; [discriminate|]. destruct (_ || _)%bool eqn:Ec; [|discriminate]. cbn [negb] in V.
    pose proof (trouble_same uni (o_upstr o)) as T1. destruct (parse_trouble uni (o_upstr o)); [discriminate|]. pose proof (trouble_same uni (o_dnstr o)) as T2. destruct (parse_trouble uni (o_dnstr o)); [discriminate|].
    destruct T1 as [u Hu], T2 as [d Hd]. exists a, ss, rest, o, u, d. rewrite orb_true_iff, !beqb_eq in Ec. apply beqb_neq in Ei. unfold a_command. tauto.
  - intros (a & ss & rest & o & u & d & -> & H1 & H2 & H3 & H4 & Hi & Hc & Hu & Hd). destruct (parsed_means a ss rest o H1 H2 H3 H4) as [r E]. unfold complaint. rewrite E. unfold ValidateT.
    apply beqb_neq in Hi. rewrite Hi. replace (beqb (o_cmd o) (B "swarm") || beqb (o_cmd o) (B "info"))%bool with true by (symmetry; unfold a_command in Hc; rewrite orb_true_iff, !beqb_eq; exact Hc). cbn [negb].
    pose proof (trouble_same uni (o_upstr o)) as T1. destruct (parse_trouble uni (o_upstr o)); [destruct T1; congruence|]. pose proof (trouble_same uni (o_dnstr o)) as T2. destruct (parse_trouble uni (o_dnstr o)); [destruct T2; congruence|]. reflexivity.
Qed.
Lemma kinds_differ uniq prog t t' trace : flag_text uniq prog t <> panic_text t' trace.
Proof. destruct t; discriminate. Qed.

(** ** The usage text *)
Lemma names_same n : In n (map f_name declared) <-> In n flag_names.
Proof. cbn. tauto. Qed.
Lemma defaults_same f : In f declared -> set_flag default_opts (f_name f) (f_default f) = Set_ default_opts.
Proof. intros H. cbn [In declared] in H. repeat (destruct H as [<-|H]; [vm_compute; reflexivity|]). destruct H. Qed.
Lemma usage_names prog f : In f declared -> exists p s, usage_text prog = p ++ decl_text f ++ s.
Proof.
  intros H. destruct (in_split _ _ H) as (l1 & l2 & E). unfold usage_text. rewrite E, flat_map_app. cbn [flat_map]. exists (B "Usage of " ++ prog ++ B ":" ++ nl ++ flat_map decl_text l1), (flat_map decl_text l2).
  rewrite <- !app_assoc. reflexivity.
Qed.
Lemma usage_form ds u : Forall (fun d => 48 <= b2z d <= 57) ds -> ds <> [] -> dvalue ds <= max64 -> In u (B "BKMG") -> forall uni, parse_trouble uni (ds ++ [u]) = None.
Proof.
  intros Hd Hn Hv Hu uni. assert (Hp : plain (ds ++ [u])).
  { unfold plain. apply Forall_app. split; [eapply Forall_impl; [|exact Hd]; cbn; lia|]. constructor; [|constructor]. cbn in Hu. destruct Hu as [<-|[<-|[<-|[<-|[]]]]]; reflexivity. }
  destruct (parse_trouble uni (ds ++ [u])) as [t|] eqn:E; [|reflexivity]. exfalso. rewrite plain_trouble in E by exact Hp. destruct ds as [|d ds]; [congruence|]. cbn [app] in E.
  assert (X : parts (d :: ds ++ [u]) = (d :: ds, [u])).
  { apply parts_spec; [discriminate|]. exists []. split; [reflexivity|]. split; [right; split; [reflexivity|]; intros r [= X _]; apply Forall_inv in Hd; subst d; cbn in Hd; lia|]. split; [exact Hd|].
    intros b r [= <- _]. cbn in Hu. destruct Hu as [<-|[<-|[<-|[<-|[]]]]]; cbn; lia. }
  rewrite X in E. replace (atoi (d :: ds)) with (Ok (dvalue (d :: ds))) in E by (symmetry; apply atoi_iff; auto). destruct (_ || _)%bool eqn:Eu; [discriminate|].
  cbn in Hu. destruct Hu as [<-|[<-|[<-|[<-|[]]]]]; discriminate Eu.
Qed.
Lemma usage_read ds u : Forall (fun d => 48 <= b2z d <= 57) ds -> ds <> [] -> dvalue ds <= max64 -> In u (B "BKMG") -> forall uni, exists v, parseSizeUnits uni (ds ++ [u]) = Ok v.
Proof. intros H1 H2 H3 H4 uni. pose proof (trouble_same uni (ds ++ [u])) as H. rewrite (usage_form ds u H1 H2 H3 H4 uni) in H. exact H. Qed.
(** ** The working directory *)
Definition but_wd (o o' : Opts) : Prop := o_input o = o_input o' /\ o_port o = o_port o' /\ o_cmd o = o_cmd o' /\ o_upstr o = o_upstr o' /\ o_dnstr o = o_dnstr o'.
Lemma set_but o o' n v : but_wd o o' -> match set_flag o n v, set_flag o' n v with Set_ a, Set_ b => but_wd a b | NotDefined, NotDefined | BadValue, BadValue => True | _, _ => False end.
Proof.
  intros (H1 & H2 & H3 & H4 & H5). unfold set_flag. destruct (beqb n (B "i")); [repeat split; assumption|]. destruct (beqb n (B "w")); [repeat split; assumption|].
  destruct (beqb n (B "p")); [destruct (ParseUint v); [repeat split; assumption|exact I]|]. destruct (beqb n (B "cmd")); [repeat split; assumption|]. destruct (beqb n (B "u")); [repeat split; assumption|]. destruct (beqb n (B "d")); [repeat split; assumption|exact I].
Qed.
Lemma parse_but args : forall o o', but_wd o o' -> match flag_parseT o args, flag_parseT o' args with Parsed a r, Parsed b r' => but_wd a b | Stopped t, Stopped t' => t = t' | _, _ => False end.
Proof.
  remember (List.length args) as k eqn:Hk. assert (Hle : (List.length args <= k)%nat) by lia. clear Hk. revert args Hle.
  induction k as [|k IH]; intros args Hle o o' H; (destruct args as [|s rest]; [exact H|]); [cbn in Hle; lia|]. cbn [List.length] in Hle. cbn [flag_parseT]. destruct (classify s) as [| | |n v]; [exact H|exact H|reflexivity|].
  pose proof (set_but o o' n [] H) as H0. destruct (set_flag o n []) eqn:E1, (set_flag o' n []) eqn:E2; try (exfalso; exact H0); try (destruct (is_help n); reflexivity).
  - destruct v as [v|].
    + pose proof (set_but o o' n v H) as Hv. destruct (set_flag o n v), (set_flag o' n v); try (exfalso; exact Hv); try reflexivity. apply IH; [lia|exact Hv].
    + destruct rest as [|v rest']; [reflexivity|]. pose proof (set_but o o' n v H) as Hv. destruct (set_flag o n v), (set_flag o' n v); try (exfalso; exact Hv); try reflexivity. apply IH; [cbn in Hle; lia|exact Hv].
  - destruct v as [v|].
    + pose proof (set_but o o' n v H) as Hv. destruct (set_flag o n v), (set_flag o' n v); try (exfalso; exact Hv); try reflexivity. apply IH; [lia|exact Hv].
    + destruct rest as [|v rest']; [reflexivity|]. pose proof (set_but o o' n v H) as Hv. destruct (set_flag o n v), (set_flag o' n v); try (exfalso; exact Hv); try reflexivity. apply IH; [cbn in Hle; lia|exact Hv].
Qed.
Lemma valid_but uni o o' : but_wd o o' -> ValidateT uni o = ValidateT uni o'.
Proof. intros (H1 & H2 & H3 & H4 & H5). unfold ValidateT. rewrite H1, H3, H4, H5. reflexivity. Qed.
Lemma complain_wd uniq uni prog trace x args : complaint uniq uni prog trace (B "-w" :: x :: args) = complaint uniq uni prog trace args.
Proof.
  unfold complaint. change (flag_parseT default_opts (B "-w" :: x :: args)) with (flag_parseT (mkopts [] x 60666 (B "swarm") (B "-1B") (B "-1B") 0 0) args).
  pose proof (parse_but args (mkopts [] x 60666 (B "swarm") (B "-1B") (B "-1B") 0 0) default_opts ltac:(repeat split)) as H.
  destruct (flag_parseT (mkopts _ _ _ _ _ _ _ _) args), (flag_parseT default_opts args); try (exfalso; exact H); [rewrite (valid_but uni _ _ H); reflexivity|congruence].
Qed.
Lemma never_wd t : opt_text t <> B "missing argument 'working directory'".
Proof. destruct t as [|c|[|ds| |]]; discriminate. Qed.
(** ** What cannot be told *)
Fixpoint infixb (a s : bytes) : bool := prefixb a s || match s with [] => false | _ :: r => infixb a r end.
Lemma prefixb_self a s : prefixb a (a ++ s) = true.
Proof. induction a as [|c a IH]; [reflexivity|]. cbn [prefixb app]. rewrite IH, andb_true_r. apply Byte_eqb_eq. reflexivity. Qed.
Lemma infixb_in a p s : infixb a (p ++ a ++ s) = true.
Proof.
  induction p as [|c p IH]; cbn [app].
  - pose proof (prefixb_self a s) as H. destruct (a ++ s); cbn [infixb]; rewrite H; reflexivity.
  - cbn [infixb]. rewrite IH. apply orb_true_r.
Qed.
Lemma tells_flags uniq uniq' prog args args' t t' : first_amiss args t -> first_amiss args' t' -> (forall n v big, t = TValue n v big -> plain v) -> (forall n v big, t' = TValue n v big -> plain v) ->
  flag_text uniq prog t = flag_text uniq' prog t' -> t = t'.
Proof.
  intros H H' P P' E. apply (flag_tells uniq uniq' prog); [eapply first_flags; eassumption|eapply first_flags; eassumption| | |exact E].
  - destruct t; cbn; eauto.
  - destruct t'; cbn; eauto.
Qed.

(** ** The texts in full *)
Lemma hexc_nth z : 0 <= z < 16 -> nth_error (B "0123456789abcdef") (Z.to_nat z) = Some (hexc z).
Proof.
  intros H. assert (D : In z (map Z.of_nat (seq 0 16))) by (apply in_map_iff; exists (Z.to_nat z); split; [lia|apply in_seq; lia]).
  cbn [seq map] in D. repeat (destruct D as [D|D]; [subst z; reflexivity|]). exact (False_ind _ D).
Qed.
Lemma esc_quoted b : b2z b < 128 -> quoted_byte b (esc b).
Proof.
  intros H. pose proof (b2z_range b) as R. unfold quoted_byte, esc. cbv zeta.
  assert (L : forall l, In (b2z b, l) letter_escapes -> exists l', In (b2z b, l') letter_escapes /\ [x5c; l] = [x5c; l']) by (intros l Hl; exists l; auto).
  destruct (Z.eqb_spec (b2z b) 34) as [E|E]; cbn [orb]; [right; left; split; [left; apply b2z_inj; exact E|reflexivity]|].
  destruct (Z.eqb_spec (b2z b) 92) as [E'|E']; [right; left; split; [right; apply b2z_inj; exact E'|reflexivity]|].
  destruct ((32 <=? b2z b) && (b2z b <=? 126))%bool eqn:P; [left; repeat split; try lia; intros ->; cbn in *; lia|].
  destruct (Z.eqb_spec (b2z b) 7) as [A|A1]; [right; right; left; rewrite A; apply (ex_intro _ "a"%byte); cbn; tauto|].
  destruct (Z.eqb_spec (b2z b) 8) as [A|A2]; [right; right; left; rewrite A; apply (ex_intro _ "b"%byte); cbn; tauto|].
  destruct (Z.eqb_spec (b2z b) 9) as [A|A3]; [right; right; left; rewrite A; apply (ex_intro _ "t"%byte); cbn; tauto|].
  destruct (Z.eqb_spec (b2z b) 10) as [A|A4]; [right; right; left; rewrite A; apply (ex_intro _ "n"%byte); cbn; tauto|].
  destruct (Z.eqb_spec (b2z b) 11) as [A|A5]; [right; right; left; rewrite A; apply (ex_intro _ "v"%byte); cbn; tauto|].
  destruct (Z.eqb_spec (b2z b) 12) as [A|A6]; [right; right; left; rewrite A; apply (ex_intro _ "f"%byte); cbn; tauto|].
  destruct (Z.eqb_spec (b2z b) 13) as [A|A7]; [right; right; left; rewrite A; apply (ex_intro _ "r"%byte); cbn; tauto|].
  destruct (Z.eqb_spec (b2z b) 127) as [A|A8]; [do 4 right; split; [exact A|reflexivity]|].
  right; right; right; left. assert (32 > b2z b) by lia. split; [lia|]. split; [cbn; lia|]. exists (hexc (b2z b / 16)), (hexc (b2z b mod 16)). split; [apply hexc_nth; lia|]. split; [apply hexc_nth; lia|reflexivity].
Qed.
Lemma quote_top uniq v : plain v -> quoted v (quote uniq v).
Proof.
  intros H. unfold quote. replace (forallb _ v) with true by (symmetry; apply forallb_forall; unfold plain in H; rewrite Forall_forall in H; intros x Hx; specialize (H x Hx); lia).
  exists (map esc v). rewrite flat_map_concat_map. split; [|reflexivity]. induction H as [|b v Hb _ IH]; cbn; constructor; [apply esc_quoted, Hb|exact IH].
Qed.
Lemma letters_range z l : In (z, l) letter_escapes -> 7 <= z <= 13.
Proof. cbn. intros H. repeat (destruct H as [H|H]; [injection H as <- _; lia|]). destruct H. Qed.
Lemma letters_det z l l' : In (z, l) letter_escapes -> In (z, l') letter_escapes -> l = l'.
Proof. cbn. intros H H'. repeat (destruct H as [H|H]; [injection H as <- <-; repeat (destruct H' as [H'|H']; [first [injection H' as <-; reflexivity|discriminate H']|]); destruct H'|]). destruct H. Qed.
Lemma quoted_byte_det b s s' : quoted_byte b s -> quoted_byte b s' -> s = s'.
Proof.
  assert (S : b = x22 \/ b = x5c -> b2z b = 34 \/ b2z b = 92) by (intros [-> | ->]; cbn; lia).
  unfold quoted_byte.
  intros [(H1 & H2 & H3 & ->)|[(H1 & ->)|[(l & H1 & ->)|[(H1 & H2 & h & l & H3 & H4 & ->)|[H1 ->]]]]]
         [(K1 & K2 & K3 & ->)|[(K1 & ->)|[(l' & K1 & ->)|[(K1 & K2 & h' & l' & K3 & K4 & ->)|[K1 ->]]]]];
    try reflexivity; try (exfalso; first [tauto|lia|apply S in H1; lia|apply S in K1; lia]).
  all: try (apply letters_range in H1; exfalso; first [lia|apply S in K1; lia]).
  all: try (apply letters_range in K1; exfalso; first [lia|apply S in H1; lia]).
  - rewrite (letters_det _ _ _ H1 K1). reflexivity.
  - exfalso. apply K2. exact (in_map fst _ _ H1).
  - exfalso. apply H2. exact (in_map fst _ _ K1).
  - congruence.
Qed.
Lemma says_top uniq prog t : flag_text uniq prog t = as_lines (trouble_says t (match t with TValue _ v _ => quote uniq v | _ => [] end) ++ [B "Usage of " ++ prog ++ B ":"] ++ usage_lines).
Proof.
  assert (U : flat_map decl_text declared = as_lines usage_lines) by (vm_compute; reflexivity).
  unfold flag_text, usage_text, as_lines. rewrite !flat_map_app. fold (as_lines usage_lines). rewrite <- U. f_equal; [|cbn [flat_map]; unfold nl; rewrite <- !app_assoc; reflexivity].
  destruct t as [|a|n|n|n v [|]]; cbn [trouble_line trouble_says flat_map]; unfold nl; rewrite ?app_nil_r, <- ?app_assoc; reflexivity.
Qed.
