(** LenientProofs.v: the decoder reads exactly the language of LenientSpec.v. *)
From Verif Require Import Base BencodeModel BencodeSpec DecimalProofs BencodeProofs LenientSpec.
From Coq Require Import ZifyBool ZifyNat ZifyN.

Scheme lenient_mut := Induction for lenient Sort Prop
  with lenient_seq_mut := Induction for lenient_seq Sort Prop
  with lenient_pairs_mut := Induction for lenient_pairs Sort Prop.
Combined Scheme lenient_mutind from lenient_mut, lenient_seq_mut, lenient_pairs_mut.

(** ** Soundness *)

Lemma digit_loop_text stop e rest acc ds r :
  digit_loop stop e rest acc = Ok (ds, r) ->
  exists mid, ds = acc ++ mid /\ Forall (fun d => 48 <= b2z d <= 57) mid /\ rest = mid ++ stop :: r.
Proof.
  revert acc; induction rest as [|b rest IH]; intros acc; cbn [digit_loop]; [discriminate|].
  destruct (is_digit b) eqn:E.
  - intros H. apply IH in H. destruct H as (mid & -> & Hf & ->). exists (b :: mid).
    rewrite <- app_assoc. split; [reflexivity|]. split; [|reflexivity].
    constructor; [now apply is_digit_iff|assumption].
  - destruct (Byte.eqb b stop) eqn:Es; [|discriminate]. apply Byte_eqb_eq in Es. subst b.
    intros H. injection H as <- <-. exists []. rewrite app_nil_r. repeat split. constructor.
Qed.

Lemma atoi_text ds n : atoi ds = Ok n -> ds <> [] /\ dvalue ds = n /\ n <= max64.
Proof.
  destruct ds as [|d ds]; cbn [atoi]; [discriminate|].
  destruct (Z.leb_spec (digits_val (d :: ds)) max64); [|discriminate].
  intros H0. injection H0 as <-. rewrite <- digits_val_dvalue. repeat split; [discriminate|assumption].
Qed.

(** A string either lies in the visible bytes or uses them all up. *)
Lemma decodeString_text sp rest s r :
  decodeString sp rest = Ok (s, r) ->
  (exists t, lenient (VStr s) t /\ rest = t ++ r) \/
  (r = [] /\ exists ds s1 s2 s3, digits ds /\ s = s1 ++ s2 /\ s2 <> [] /\ sp = s2 ++ s3 /\
     dvalue ds = zlen s /\ zlen s <= max64 /\ rest = ds ++ [":"%byte] ++ s1).
Proof.
  unfold decodeString. destruct (digit_loop _ _ rest []) as [[ds r0]|?| |] eqn:E; cbn [bind]; try discriminate.
  apply digit_loop_text in E. destruct E as (mid & -> & Hf & ->). cbn [app].
  destruct (atoi mid) as [n|?| |] eqn:En; cbn [bind]; try discriminate.
  pose proof (atoi_range _ _ Hf En) as Hr.
  apply atoi_text in En. destruct En as (Hne & Hv & Hm).
  destruct (Z.leb_spec n (zlen r0 + zlen sp)) as [Hl|]; [|discriminate].
  intros H. injection H as <- <-. unfold zlen in *.
  destruct (Z.le_gt_cases n (zlen r0)) as [Hc|Hc]; unfold zlen in Hc.
  - left. exists (mid ++ [":"%byte] ++ firstn (Z.to_nat n) r0).
    assert (Hfn : firstn (Z.to_nat n) (r0 ++ sp) = firstn (Z.to_nat n) r0).
    { rewrite firstn_app. replace (Z.to_nat n - List.length r0)%nat with 0%nat by lia. cbn [firstn]. apply app_nil_r. }
    rewrite Hfn. split.
    + constructor; unfold zlen; rewrite ?firstn_length; try lia. split; assumption.
    + rewrite <- !app_assoc. cbn [app]. now rewrite firstn_skipn.
  - right. split; [apply skipn_all2; lia|].
    exists mid, r0, (firstn (Z.to_nat n - List.length r0) sp), (skipn (Z.to_nat n - List.length r0) sp).
    assert (Hfn : firstn (Z.to_nat n) (r0 ++ sp) = r0 ++ firstn (Z.to_nat n - List.length r0) sp).
    { rewrite firstn_app. now rewrite firstn_all2 by lia. }
    rewrite Hfn. split; [split; assumption|]. split; [reflexivity|].
    assert (HL : (List.length (firstn (Z.to_nat n - List.length r0) sp) = Z.to_nat n - List.length r0)%nat).
    { rewrite firstn_length. lia. }
    split; [intros H0; rewrite H0 in HL; cbn [List.length] in HL; lia|].
    split; [now rewrite firstn_skipn|]. unfold zlen. rewrite app_length, HL. repeat split; lia.
Qed.

Lemma int_body_text r2 ds r :
  int_body r2 = Ok (ds, r) -> ds <> [] -> int_digits ds /\ r2 = ds ++ "e"%byte :: r.
Proof.
  unfold int_body. destruct r2 as [|z r']; [discriminate|].
  destruct (Byte.eqb z "0") eqn:Ez.
  - apply Byte_eqb_eq in Ez. subst z. destruct r' as [|y r'']; [discriminate|].
    destruct (Byte.eqb y "e") eqn:Ey; cbn [negb]; [|discriminate].
    apply Byte_eqb_eq in Ey. subst y. cbn [digit_loop]. change (is_digit "e"%byte) with false.
    rewrite Byte_eqb_refl. intros H _. injection H as <- <-. split; [|reflexivity].
    split; [split; [discriminate|repeat constructor; vm_compute; discriminate]|].
    intros d r E _. now injection E.
  - intros H Hne. apply digit_loop_text in H. destruct H as (mid & -> & Hf & E). cbn [app] in *.
    split; [|assumption]. split; [split; assumption|].
    intros d q Ed H0. subst mid. cbn [app] in E. injection E as -> ->. exfalso.
    assert (d = "0"%byte); [|subst; discriminate].
    clear -H0. destruct d; try reflexivity; vm_compute in H0; discriminate.
Qed.

Lemma decodeInt_text rest z r :
  decodeInt rest = Ok (z, r) -> exists t, lenient (VInt KInt64 z) t /\ rest = t ++ r.
Proof.
  destruct rest as [|b [|c r1]]; [discriminate|cbn; destruct (Byte.eqb b "i"); discriminate|].
  rewrite decodeInt_unfold. destruct (Byte.eqb b "i") eqn:Eb; cbn [negb]; [|discriminate].
  apply Byte_eqb_eq in Eb. subst b. cbv zeta.
  destruct (int_body _) as [[ds r3]|?| |] eqn:E; cbn [bind]; try discriminate.
  destruct (atoi ds) as [n|?| |] eqn:En; cbn [bind]; try discriminate.
  pose proof (atoi_text _ _ En) as (Hne & Hv & Hm).
  apply int_body_text in E; [|assumption]. destruct E as [Hd E].
  assert (0 <= n) by (eapply atoi_range; [apply Hd|eassumption]).
  intros H0. injection H0 as <- <-. subst n. destruct (Byte.eqb c "-") eqn:Ec.
  - apply Byte_eqb_eq in Ec. subst c r1. replace (dvalue ds * -1) with (- dvalue ds) by lia.
    rewrite i64_id by (unfold min64, max64 in *; lia).
    eexists. split; [apply ln_neg; assumption|]. cbn [app]. now rewrite <- app_assoc.
  - rewrite Z.mul_1_r, E. rewrite i64_id by (unfold min64, max64 in *; lia).
    eexists. split; [apply ln_pos; assumption|]. cbn [app]. now rewrite <- app_assoc.
Qed.

Definition putall (ps acc : list (bytes * gval)) := fold_left (fun a kv => dput (fst kv) (snd kv) a) ps acc.

Lemma putall_get k ps acc :
  dget k (putall ps acc) = match last_binding k ps with Some v => Some v | None => dget k acc end.
Proof.
  revert acc; induction ps as [|[q m] ps IH]; intros acc; cbn [putall fold_left last_binding]; [reflexivity|].
  cbn [fst snd]. fold (putall ps (dput q m acc)). rewrite IH.
  destruct (last_binding k ps); [reflexivity|]. rewrite dget_dput. destruct (bytes_dec k q); reflexivity.
Qed.

Lemma putall_nodup ps acc : NoDup (map fst acc) -> NoDup (map fst (putall ps acc)).
Proof.
  revert acc; induction ps as [|[q m] ps IH]; intros acc H; [exact H|].
  apply IH. now apply dput_nodup.
Qed.

Lemma putall_last_map ps : last_map ps (putall ps []).
Proof.
  assert (HN : NoDup (map fst (putall ps []))) by (apply putall_nodup; constructor).
  split; [exact HN|]. intros k v. rewrite <- (dget_in k v _ HN), putall_get.
  destruct (last_binding k ps); [reflexivity|]. cbn [dget]. split; discriminate.
Qed.

(** Past the end, every continuation inside a container panics. *)
Lemma decVal_nil f sp v r : decVal f sp [] <> Ok (v, r).
Proof. destruct f; cbn; discriminate. Qed.
Lemma decList_nil f sp acc v r : decList f sp [] acc <> Ok (v, r).
Proof. destruct f; cbn; discriminate. Qed.
Lemma decDict_nil f sp acc v r : decDict f sp [] acc <> Ok (v, r).
Proof. destruct f; cbn; discriminate. Qed.

Definition overruns (sp rest : bytes) (v : gval) (r : bytes) : Prop :=
  r = [] /\ exists ds s1 s2 s3, digits ds /\ v = VStr (s1 ++ s2) /\ s2 <> [] /\ sp = s2 ++ s3 /\
     dvalue ds = zlen (s1 ++ s2) /\ zlen (s1 ++ s2) <= max64 /\ rest = ds ++ [":"%byte] ++ s1.

Lemma dec_sound f :
  (forall sp rest v r, decVal f sp rest = Ok (v, r) ->
     (exists t, lenient v t /\ rest = t ++ r) \/ overruns sp rest v r) /\
  (forall sp rest acc d r, decDict f sp rest acc = Ok (d, r) ->
     exists ps t, lenient_pairs ps t /\ rest = t ++ "e"%byte :: r /\ d = putall ps acc) /\
  (forall sp rest acc l r, decList f sp rest acc = Ok (l, r) ->
     exists l' t, lenient_seq l' t /\ rest = t ++ "e"%byte :: r /\ l = acc ++ l').
Proof.
  induction f as [|f (IHv & IHd & IHl)]; [split; [|split]; discriminate|].
  split; [|split].
  - intros sp [|b rest] v r; cbn [decVal]; [discriminate|].
    destruct (Byte.eqb b "d") eqn:Ed.
    { apply Byte_eqb_eq in Ed. subst b.
      destruct (decDict _ _ _ _) as [[d r']|?| |] eqn:E; cbn [bind]; try discriminate.
      intros H. assert (v = VDict d) by congruence. assert (r' = r) by congruence. subst. clear H.
      apply IHd in E. destruct E as (ps & t & Hp & -> & ->). left.
      eexists. split; [apply (ln_dict ps); [exact Hp|apply putall_last_map]|].
      cbn [app]. now rewrite <- app_assoc. }
    destruct (Byte.eqb b "l") eqn:El.
    { apply Byte_eqb_eq in El. subst b.
      destruct (decList _ _ _ _) as [[d r']|?| |] eqn:E; cbn [bind]; try discriminate.
      intros H. assert (v = VList d) by congruence. assert (r' = r) by congruence. subst. clear H.
      apply IHl in E. destruct E as (l' & t & Hp & -> & ->). left.
      eexists. split; [apply ln_list; exact Hp|]. cbn [app]. now rewrite <- app_assoc. }
    destruct (Byte.eqb b "i").
    { destruct (decodeInt _) as [[d r']|?| |] eqn:E; cbn [bind]; try discriminate.
      intros H. assert (v = VInt KInt64 d) by congruence. assert (r' = r) by congruence. subst. clear H.
      left. now apply decodeInt_text in E. }
    destruct (decodeString _ _) as [[d r']|?| |] eqn:E; cbn [bind]; try discriminate.
    intros H. assert (v = VStr d) by congruence. assert (r' = r) by congruence. subst. clear H.
    apply decodeString_text in E. destruct E as [E|(-> & ds & s1 & s2 & s3 & H1 & -> & H)]; [auto|].
    right. split; [reflexivity|]. exists ds, s1, s2, s3. tauto.
  - intros sp [|b rest] acc d r; cbn [decDict]; [discriminate|].
    destruct (Byte.eqb b "e") eqn:Ee.
    { apply Byte_eqb_eq in Ee. subst b. intros H. injection H as <- <-.
      exists [], []. split; [constructor|]. split; reflexivity. }
    destruct (decodeString _ _) as [[k r1]|?| |] eqn:E1; cbn [bind]; try discriminate.
    destruct (decVal _ _ _) as [[w r2]|?| |] eqn:E2; cbn [bind]; try discriminate.
    intros H. apply decodeString_text in E1.
    destruct E1 as [(tk & Hk & Ek)|(-> & _)]; [|exfalso; eapply decVal_nil, E2].
    apply IHv in E2. destruct E2 as [(tv & Hv & ->)|(-> & _)]; [|exfalso; eapply decDict_nil, H].
    apply IHd in H. destruct H as (ps & t & Hp & -> & ->).
    exists ((k, w) :: ps), (tk ++ tv ++ t). split; [constructor; assumption|].
    split; [|reflexivity]. rewrite Ek, <- !app_assoc. reflexivity.
  - intros sp [|b rest] acc d r; cbn [decList]; [discriminate|].
    destruct (Byte.eqb b "e") eqn:Ee.
    { apply Byte_eqb_eq in Ee. subst b. intros H. injection H as <- <-.
      exists [], []. split; [constructor|]. split; [reflexivity|now rewrite app_nil_r]. }
    destruct (decVal _ _ _) as [[w r2]|?| |] eqn:E2; cbn [bind]; try discriminate.
    intros H. apply IHv in E2. destruct E2 as [(tv & Hv & E2)|(-> & _)]; [|exfalso; eapply decList_nil, H].
    apply IHl in H. destruct H as (l' & t & Hp & -> & ->).
    exists (w :: l'), (tv ++ t). split; [constructor; assumption|].
    split; [rewrite E2, <- app_assoc; reflexivity|now rewrite <- app_assoc].
Qed.

Lemma Decode_reads data w :
  Decode data = Ok w ->
  (exists t junk, lenient w t /\ vis data = t ++ junk) \/
  (exists ds s1 s2 s3, digits ds /\ dvalue ds = zlen (s1 ++ s2) /\ zlen (s1 ++ s2) <= max64 /\ s2 <> [] /\
     vis data = ds ++ [":"%byte] ++ s1 /\ spare data = s2 ++ s3 /\ w = VStr (s1 ++ s2)).
Proof.
  unfold Decode. destruct (decVal _ _ _) as [[v r]|?| |] eqn:E; try discriminate.
  intros H. assert (v = w) by congruence. subst v.
  apply (proj1 (dec_sound _)) in E. destruct E as [(t & Hl & E)|(-> & ds & s1 & s2 & s3 & H1)]; [eauto|].
  right. exists ds, s1, s2, s3. tauto.
Qed.

(** ** Completeness *)

Lemma decodeString_lenient s t sp r : lenient (VStr s) t -> decodeString sp (t ++ r) = Ok (s, r).
Proof.
  intros Hc. inversion Hc as [? ds [Hne Hf] Hv Hl| | | |]; subst.
  unfold decodeString. rewrite <- !app_assoc. cbn [app].
  rewrite digit_loop_ok by (assumption || reflexivity). cbn [bind app].
  assert (HA : atoi ds = Ok (zlen s)).
  { unfold atoi. destruct ds as [|d ds]; [congruence|]. rewrite digits_val_dvalue, Hv.
    replace (zlen s <=? max64) with true by lia. reflexivity. }
  rewrite HA. cbn [bind].
  rewrite zlen_app. pose proof (zlen_nonneg r). pose proof (zlen_nonneg sp).
  replace (zlen s <=? zlen s + zlen r + zlen sp) with true by lia.
  unfold zlen. rewrite Nat2Z.id, <- app_assoc.
  rewrite firstn_app, Nat.sub_diag, firstn_all, skipn_app, Nat.sub_diag, skipn_all. cbn [firstn skipn app].
  now rewrite app_nil_r.
Qed.

Lemma int_body_lenient ds r : int_digits ds -> int_body (ds ++ "e"%byte :: r) = Ok (ds, r).
Proof.
  intros [[Hne Hf] Hz]. destruct ds as [|d ds]; [congruence|]. cbn [app int_body].
  inversion Hf as [|? ? Hd Hf']; subst. destruct (Byte.eqb d "0") eqn:E.
  - apply Byte_eqb_eq in E. subst d. specialize (Hz _ _ eq_refl eq_refl). subst ds.
    cbn [app]. rewrite Byte_eqb_refl. cbn [negb]. reflexivity.
  - exact (digit_loop_ok "e"%byte EBadInt (d :: ds) r [] Hf eq_refl).
Qed.

Lemma decodeInt_lenient z t r : lenient (VInt KInt64 z) t -> decodeInt (t ++ r) = Ok (z, r).
Proof.
  intros Hc.
  assert (HA : forall ds, int_digits ds -> dvalue ds <= max64 -> atoi ds = Ok (dvalue ds) /\ 0 <= dvalue ds).
  { intros ds [[Hne Hf] _] Hm. assert (HA : atoi ds = Ok (dvalue ds)).
    { unfold atoi. destruct ds as [|d ds]; [congruence|]. rewrite digits_val_dvalue.
      replace (dvalue (d :: ds) <=? max64) with true by lia. reflexivity. }
    split; [exact HA|]. now apply atoi_range in HA. }
  inversion Hc as [|ds Hd Hm|ds Hd Hm| |]; subst; destruct (HA ds Hd Hm) as [Ha H0].
  - assert (Hx : exists c r1, ds ++ "e"%byte :: r = c :: r1 /\ Byte.eqb c "-" = false).
    { destruct Hd as [[Hne Hf] _]. destruct ds as [|d ds]; [congruence|]. inversion Hf; subst.
      do 2 eexists. split; [reflexivity|]. now apply not_digit_neq. }
    destruct Hx as (c & r1 & Ex & Ec).
    cbn [app]. rewrite <- app_assoc. cbn [app]. rewrite Ex. rewrite decodeInt_unfold, Byte_eqb_refl.
    cbn [negb]. cbv zeta. rewrite Ec, <- Ex, int_body_lenient by assumption. cbn [bind]. rewrite Ha. cbn [bind].
    rewrite Z.mul_1_r, i64_id by (unfold min64, max64 in *; lia). reflexivity.
  - cbn [app]. rewrite <- app_assoc. cbn [app]. rewrite decodeInt_unfold, !Byte_eqb_refl.
    cbn [negb]. cbv zeta. rewrite int_body_lenient by assumption. cbn [bind]. rewrite Ha. cbn [bind].
    rewrite i64_id by (unfold min64, max64 in *; lia). do 2 f_equal. lia.
Qed.

Lemma lenient_str_head s t : lenient (VStr s) t -> exists b r, t = b :: r /\ not_stop b.
Proof.
  intros Hc. inversion Hc as [? ds [Hne Hf]| | | |]; subst.
  destruct ds as [|d ds]; [congruence|]. inversion Hf; subst. cbn [app].
  do 2 eexists. split; [reflexivity|]. repeat split; now apply not_digit_neq.
Qed.

Lemma lenient_head m t : lenient m t -> exists b r, t = b :: r /\ Byte.eqb b "e"%byte = false.
Proof.
  destruct m as [s| | | |]; intros Hc.
  - destruct (lenient_str_head _ _ Hc) as (b & r & -> & H). exists b, r. split; [reflexivity|apply H].
  - inversion Hc; subst; do 2 eexists; split; reflexivity.
  - inversion Hc; subst; do 2 eexists; split; reflexivity.
  - inversion Hc; subst; do 2 eexists; split; reflexivity.
  - inversion Hc.
Qed.

Definition same_entry (a b : bytes * gval) : Prop := fst a = fst b /\ gperm (snd a) (snd b).

Lemma last_binding_F2 k ps qs :
  Forall2 same_entry ps qs ->
  match last_binding k ps, last_binding k qs with
  | Some v, Some w => gperm v w
  | None, None => True
  | _, _ => False
  end.
Proof.
  induction 1 as [|[a v] [b w] ps qs [E Hg] _ IH]; cbn [last_binding]; [exact I|].
  cbn [fst snd] in *. subst b. destruct (last_binding k ps), (last_binding k qs); try tauto.
  destruct (bytes_dec k a); tauto.
Qed.

(** Two maps with distinct keys whose entries correspond: one is a reordering of the other. *)
Lemma entries_perm (d e : list (bytes * gval)) :
  NoDup (map fst d) -> NoDup (map fst e) ->
  (forall k v, In (k, v) d -> exists w, In (k, w) e /\ gperm v w) ->
  (forall k w, In (k, w) e -> exists v, In (k, v) d) ->
  exists d', Permutation d d' /\ Forall2 same_entry d' e.
Proof.
  revert d; induction e as [|[k w] e IH]; intros d Hd He H1 H2.
  - exists []. destruct d as [|[k v] d]; [split; constructor|].
    destruct (H1 k v (or_introl eq_refl)) as (w & [] & _).
  - destruct (H2 k w (or_introl eq_refl)) as (v & Hv).
    destruct (in_split _ _ Hv) as (d1 & d2 & ->).
    inversion He as [|? ? Hni He']; subst.
    rewrite map_app in Hd. cbn [map fst] in Hd.
    pose proof (NoDup_remove_1 _ _ _ Hd) as Hd1. pose proof (NoDup_remove_2 _ _ _ Hd) as Hd2.
    rewrite <- map_app in Hd1, Hd2.
    assert (Hg : gperm v w).
    { destruct (H1 k v Hv) as (w' & [E|Hi] & Hg); [congruence|].
      exfalso. apply Hni. now apply (in_map fst) in Hi. }
    destruct (IH (d1 ++ d2)) as (d' & Hp & HF); try assumption.
    + intros k' v' Hi. destruct (H1 k' v') as (w' & [E|Hi'] & Hg').
      * apply in_app_or in Hi. apply in_or_app. cbn [In]. tauto.
      * injection E as <- <-. exfalso. apply Hd2. now apply (in_map fst) in Hi.
      * eauto.
    + intros k' w' Hi. destruct (H2 k' w' (or_intror Hi)) as (v' & Hi').
      exists v'. apply in_app_or in Hi'. apply in_or_app. destruct Hi' as [Hi'|[E|Hi']]; auto.
      injection E as <- <-. exfalso. apply Hni. now apply (in_map fst) in Hi.
    + exists ((k, v) :: d'). split; [|constructor; [split; [reflexivity|exact Hg]|exact HF]].
      rewrite <- Hp. symmetry. apply Permutation_middle.
Qed.

Lemma last_map_gperm ps d qs e :
  Forall2 same_entry ps qs -> last_map ps d -> last_map qs e -> gperm (VDict d) (VDict e).
Proof.
  intros HF [Hd Hl] [He Hm].
  destruct (entries_perm d e Hd He) as (d' & Hp & HF').
  - intros k v Hi. apply Hl in Hi. pose proof (last_binding_F2 k ps qs HF) as HX. rewrite Hi in HX.
    destruct (last_binding k qs) as [w|] eqn:E; [|destruct HX]. exists w. split; [now apply Hm|exact HX].
  - intros k w Hi. apply Hm in Hi. pose proof (last_binding_F2 k ps qs HF) as HX. rewrite Hi in HX.
    destruct (last_binding k ps) as [v|] eqn:E; [|destruct HX]. exists v. now apply Hl.
  - exact (gp_dict d d' e Hp HF').
Qed.

Lemma dec_complete :
  (forall v t, lenient v t -> forall sp junk f, (2 * List.length t + 1 <= f)%nat ->
     exists w, decVal f sp (t ++ junk) = Ok (w, junk) /\ gperm v w) /\
  (forall l t, lenient_seq l t -> forall sp junk f acc, (2 * List.length t + 2 <= f)%nat ->
     exists l', decList f sp (t ++ "e"%byte :: junk) acc = Ok (acc ++ l', junk) /\ Forall2 gperm l l') /\
  (forall ps t, lenient_pairs ps t -> forall sp junk f acc, (2 * List.length t + 2 <= f)%nat ->
     exists qs, decDict f sp (t ++ "e"%byte :: junk) acc = Ok (putall qs acc, junk) /\ Forall2 same_entry ps qs).
Proof.
  apply lenient_mutind.
  - intros s ds Hd Hv Hl sp junk f Hf. destruct f as [|f]; [lia|].
    pose proof (ln_str s ds Hd Hv Hl) as Hc. destruct (lenient_str_head _ _ Hc) as (b & r & E & H1 & H2 & H3 & H4).
    exists (VStr s). split; [|constructor].
    cbn [decVal]. rewrite E at 1. cbn [app]. rewrite H1, H2, H3.
    rewrite (decodeString_lenient s) by assumption. reflexivity.
  - intros ds Hd Hm sp junk f Hf. destruct f as [|f]; [lia|]. pose proof (ln_pos ds Hd Hm) as Hc.
    exists (VInt KInt64 (dvalue ds)). split; [|constructor].
    assert (HX := decodeInt_lenient _ _ junk Hc). revert HX. cbn [app decVal].
    replace (Byte.eqb "i"%byte "d"%byte) with false by reflexivity.
    replace (Byte.eqb "i"%byte "l"%byte) with false by reflexivity.
    rewrite Byte_eqb_refl. intros HX. rewrite HX. reflexivity.
  - intros ds Hd Hm sp junk f Hf. destruct f as [|f]; [lia|]. pose proof (ln_neg ds Hd Hm) as Hc.
    exists (VInt KInt64 (- dvalue ds)). split; [|constructor].
    assert (HX := decodeInt_lenient _ _ junk Hc). revert HX. cbn [app decVal].
    replace (Byte.eqb "i"%byte "d"%byte) with false by reflexivity.
    replace (Byte.eqb "i"%byte "l"%byte) with false by reflexivity.
    rewrite Byte_eqb_refl. intros HX. rewrite HX. reflexivity.
  - intros l t Hc IH sp junk f Hf. destruct f as [|f]; [lia|]. cbn [decVal app].
    replace (Byte.eqb "l"%byte "d"%byte) with false by reflexivity. rewrite Byte_eqb_refl.
    rewrite <- app_assoc. cbn [app]. rewrite !app_length in Hf. cbn [List.length] in Hf.
    destruct (IH sp junk f [] ltac:(lia)) as (l' & -> & HF). exists (VList l'). split; [reflexivity|].
    constructor. exact HF.
  - intros ps d t Hc IH Hl sp junk f Hf. destruct f as [|f]; [lia|]. cbn [decVal app]. rewrite Byte_eqb_refl.
    rewrite <- app_assoc. cbn [app]. rewrite !app_length in Hf. cbn [List.length] in Hf.
    destruct (IH sp junk f [] ltac:(lia)) as (qs & -> & HF). eexists. split; [reflexivity|].
    eapply last_map_gperm; [exact HF|exact Hl|apply putall_last_map].
  - intros sp junk f acc Hf. destruct f as [|f]; [cbn in Hf; lia|]. cbn [decList app].
    rewrite Byte_eqb_refl. exists []. rewrite app_nil_r. split; [reflexivity|constructor].
  - intros v l tv tl Hv IHv Hl IHl sp junk f acc Hf. rewrite app_length in Hf.
    destruct f as [|f]; [lia|]. rewrite <- app_assoc.
    destruct (lenient_head _ _ Hv) as (b & r & E & He).
    assert (0 < List.length tv)%nat by (rewrite E; cbn; lia).
    destruct (IHv sp (tl ++ "e"%byte :: junk) f ltac:(lia)) as (w & Hw & Hg).
    destruct (IHl sp junk f (acc ++ [w]) ltac:(lia)) as (l' & Hl' & HF).
    exists (w :: l'). split; [|constructor; assumption].
    cbn [decList]. rewrite E at 1. cbn [app]. rewrite He, Hw. cbn [bind].
    rewrite Hl', <- app_assoc. reflexivity.
  - intros sp junk f acc Hf. destruct f as [|f]; [cbn in Hf; lia|]. cbn [decDict app].
    rewrite Byte_eqb_refl. exists []. split; [reflexivity|constructor].
  - intros k v m tk tv tm Hk _ Hv IHv Hm IHm sp junk f acc Hf. rewrite !app_length in Hf.
    destruct f as [|f]; [lia|]. rewrite <- !app_assoc.
    destruct (lenient_head _ _ Hk) as (b & r & E & He).
    assert (0 < List.length tk)%nat by (rewrite E; cbn; lia).
    destruct (IHv sp (tm ++ "e"%byte :: junk) f ltac:(lia)) as (w & Hw & Hg).
    destruct (IHm sp junk f (dput k w acc) ltac:(lia)) as (qs & Hq & HF).
    exists ((k, w) :: qs). split; [|constructor; [split; [reflexivity|exact Hg]|exact HF]].
    cbn [decDict]. rewrite E at 1. cbn [app]. rewrite He.
    rewrite (decodeString_lenient k) by assumption. cbn [bind]. rewrite Hw. cbn [bind]. exact Hq.
Qed.

Lemma Decode_complete v t junk sp :
  lenient v t -> exists w, Decode (mkslice (t ++ junk) sp) = Ok w /\ gperm v w.
Proof.
  intros Hc. unfold Decode. cbn [vis spare].
  destruct (proj1 dec_complete v t Hc sp junk (2 * List.length (t ++ junk) + 2)%nat) as (w & -> & Hg);
    [rewrite app_length; lia|]. eauto.
Qed.

Lemma Decode_overrun ds s1 s2 s3 :
  digits ds -> dvalue ds = zlen (s1 ++ s2) -> zlen (s1 ++ s2) <= max64 ->
  Decode (mkslice (ds ++ [":"%byte] ++ s1) (s2 ++ s3)) = Ok (VStr (s1 ++ s2)).
Proof.
  intros [Hne Hf] Hv Hm. unfold Decode. cbn [vis spare].
  set (F := (2 * _ + 2)%nat). assert (HF : exists f, F = S f) by (unfold F; exists (2 * List.length (ds ++ [":"%byte] ++ s1) + 1)%nat; lia).
  destruct HF as [f HF]. rewrite HF. clear F HF.
  assert (HS : decodeString (s2 ++ s3) (ds ++ [":"%byte] ++ s1) = Ok (s1 ++ s2, [])).
  { unfold decodeString. cbn [app]. rewrite digit_loop_ok by (assumption || reflexivity). cbn [bind app].
    assert (HA : atoi ds = Ok (zlen (s1 ++ s2))).
    { unfold atoi. destruct ds as [|d ds]; [congruence|]. rewrite digits_val_dvalue, Hv.
      replace (zlen (s1 ++ s2) <=? max64) with true by lia. reflexivity. }
    rewrite HA. cbn [bind]. rewrite !zlen_app. pose proof (zlen_nonneg s3).
    replace (zlen s1 + zlen s2 <=? zlen s1 + (zlen s2 + zlen s3)) with true by lia.
    rewrite <- zlen_app. unfold zlen. rewrite Nat2Z.id, (app_assoc s1 s2 s3).
    rewrite firstn_app, Nat.sub_diag, firstn_all. cbn [firstn]. rewrite app_nil_r.
    rewrite skipn_all2 by (rewrite app_length; lia). reflexivity. }
  destruct ds as [|d ds]; [congruence|]. inversion Hf; subst.
  cbn [decVal app]. rewrite (not_digit_neq "d"%byte), (not_digit_neq "l"%byte), (not_digit_neq "i"%byte) by (reflexivity || assumption).
  cbn [app] in HS. rewrite HS. reflexivity.
Qed.

(** The value of a text is unique up to map order, and no text is a proper prefix of another. *)
Lemma lenient_unique v v' t t' junk junk' :
  lenient v t -> lenient v' t' -> t ++ junk = t' ++ junk' ->
  t = t' /\ junk = junk' /\ exists w, gperm v w /\ gperm v' w.
Proof.
  intros H H' E.
  destruct (proj1 dec_complete v t H [] junk (2 * List.length (t ++ junk) + 2)%nat) as (w & Hw & Hg);
    [rewrite app_length; lia|].
  destruct (proj1 dec_complete v' t' H' [] junk' (2 * List.length (t ++ junk) + 2)%nat) as (w' & Hw' & Hg');
    [rewrite E, app_length; lia|].
  rewrite <- E in Hw'. rewrite Hw in Hw'. assert (junk = junk') by congruence. assert (w = w') by congruence.
  subst. apply app_inv_tail in E. subst. eauto.
Qed.
