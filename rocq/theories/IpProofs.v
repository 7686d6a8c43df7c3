(** IpProofs.v: net.ParseIP reads exactly the texts of addresses. *)
From Coq Require Import ZifyBool ZifyNat ZifyN.
From Verif Require Import Base BencodeModel BencodeSpec DecimalProofs PeerModel AddrSpec AddrProofs IpModel IpSpec.

Lemma beq_true a b : Byte.eqb a b = true -> a = b.
Proof. apply Byte.byte_dec_bl. Qed.
(** ** Numbers *)
Section Toi.
Context (base : Z) (dig : byte -> option Z) (Hb : 1 <= base) (Hd : forall b d, dig b = Some d -> 0 <= d).
Definition stops (r : bytes) : Prop := match r with [] => True | b :: _ => dig b = None end.
Definition folded (ds : list Z) (n : Z) : Z := fold_left (fun a d => a * base + d) ds n.
Lemma folded_ge ds : Forall (fun d => 0 <= d) ds -> forall n, 0 <= n -> n <= folded ds n.
Proof. induction 1 as [|d ds H _ IH]; intros n Hn; unfold folded; cbn [fold_left]; [lia|]. assert (n <= n * base + d) by nia. specialize (IH (n * base + d) ltac:(lia)). unfold folded in IH. lia. Qed.
Lemma toi_loop_sound s : forall n i m c, toi_loop base dig s n i = Some (m, c) ->
  exists t r ds, s = t ++ r /\ Forall2 (fun b d => dig b = Some d) t ds /\ stops r /\ m = folded ds n /\ c = (i + List.length t)%nat /\ (t <> [] -> m < 16777215).
Proof.
  induction s as [|b s IH]; intros n i m c H; cbn [toi_loop] in H.
  - injection H as <- <-. exists [], [], []. split; [reflexivity|]. split; [constructor|]. split; [exact I|]. split; [reflexivity|]. split; [cbn; lia|congruence].
  - destruct (dig b) as [d|] eqn:E.
    + destruct (16777215 <=? n * base + d) eqn:E2; [discriminate|]. destruct (IH _ _ _ _ H) as (t & r & ds & -> & H1 & H2 & H3 & H4 & H5). exists (b :: t), r, (d :: ds).
      split; [reflexivity|]. split; [constructor; assumption|]. split; [exact H2|]. split; [exact H3|]. split; [cbn; lia|]. intros _. destruct t as [|x t]; [|apply H5; discriminate].
      inversion H1; subst. cbn in *. lia.
    + injection H as <- <-. exists [], (b :: s), []. split; [reflexivity|]. split; [constructor|]. split; [exact E|]. split; [reflexivity|]. split; [cbn; lia|congruence].
Qed.
Lemma toi_loop_complete t r ds : Forall2 (fun b d => dig b = Some d) t ds -> stops r -> forall n i, 0 <= n -> folded ds n < 16777215 -> toi_loop base dig (t ++ r) n i = Some (folded ds n, (i + List.length t)%nat).
Proof.
  intros H Hs. induction H as [|b d t ds Hbd HF IH]; intros n i Hn Hm; cbn [app toi_loop].
  - destruct r as [|b r]; cbn [toi_loop folded fold_left List.length]; [|cbn in Hs; rewrite Hs]; rewrite Nat.add_0_r; reflexivity.
  - rewrite Hbd. pose proof (Hd _ _ Hbd). assert (HF' : Forall (fun d => 0 <= d) ds). { clear - HF Hd. induction HF; constructor; eauto. }
    assert (0 <= n * base + d) by nia. pose proof (folded_ge ds HF' (n * base + d) ltac:(lia)) as G. unfold folded in *. cbn [fold_left] in *.
    replace (16777215 <=? n * base + d) with false by lia. rewrite IH by lia. do 2 f_equal. cbn. lia.
Qed.
Lemma toi_iff s n c : toi base dig s = Some (n, c) <->
  exists t r ds, s = t ++ r /\ t <> [] /\ Forall2 (fun b d => dig b = Some d) t ds /\ stops r /\ n = folded ds 0 /\ c = List.length t /\ n < 16777215.
Proof.
  unfold toi. split.
  - destruct (toi_loop base dig s 0 0) as [[m k]|] eqn:E; [|discriminate]. destruct k as [|k]; [discriminate|]. intros H. injection H as <- <-.
    destruct (toi_loop_sound _ _ _ _ _ E) as (t & r & ds & H1 & H2 & H3 & H4 & H5 & H6). assert (t <> []) by (intros ->; cbn in H5; lia). exists t, r, ds. do 6 (split; [assumption|]). now apply H6.
  - intros (t & r & ds & -> & Ht & HF & Hs & -> & -> & Hn). rewrite (toi_loop_complete t r ds HF Hs 0 0) by lia. destruct t; [congruence|reflexivity].
Qed.
End Toi.
Lemma dec_pos b d : dec_dig b = Some d -> 0 <= d.
Proof. unfold dec_dig. destruct (_ && _) eqn:E; [|discriminate]. intros H. injection H as <-. lia. Qed.
Lemma hex_iff b d : hex_dig b = Some d <-> hexchar b d.
Proof.
  unfold hex_dig, hexchar. cbv zeta. destruct ((48 <=? b2z b) && (b2z b <=? 57)) eqn:E1; [|destruct ((97 <=? b2z b) && (b2z b <=? 102)) eqn:E2; [|destruct ((65 <=? b2z b) && (b2z b <=? 70)) eqn:E3]].
  all: split; intros H; [try (injection H as <-); try discriminate; lia|try f_equal; lia].
Qed.
Lemma hex_pos b d : hex_dig b = Some d -> 0 <= d.
Proof. rewrite hex_iff. unfold hexchar. lia. Qed.
Lemma dec_iff b d : dec_dig b = Some d <-> 48 <= b2z b <= 57 /\ d = b2z b - 48.
Proof. unfold dec_dig. cbv zeta. destruct ((48 <=? b2z b) && (b2z b <=? 57)) eqn:E; split; intros H; [injection H as <-; lia|f_equal; lia|discriminate|lia]. Qed.
Lemma folded_16 ds : forall a, folded 16 ds a = fold_left (fun a d => 16 * a + d) ds a.
Proof. induction ds as [|d ds IH]; intros a; [reflexivity|]. unfold folded in *. cbn [fold_left]. rewrite IH. f_equal. lia. Qed.
Lemma folded_10 t : forall ds a, Forall2 (fun b d => dec_dig b = Some d) t ds -> folded 10 ds a = fold_left (fun a d => 10 * a + (b2z d - 48)) t a.
Proof.
  induction t as [|b t IH]; intros ds a H; inversion H as [|? d ? ds' Hb HF]; subst; [reflexivity|]. apply dec_iff in Hb. destruct Hb as [_ ->]. unfold folded in *. cbn [fold_left].
  rewrite (IH ds' (a * 10 + (b2z b - 48)) HF). f_equal. lia.
Qed.
Lemma dec_digits t : (exists ds, Forall2 (fun b d => dec_dig b = Some d) t ds) <-> Forall (fun d => 48 <= b2z d <= 57) t.
Proof.
  induction t as [|b t IH]; split.
  - constructor.
  - exists []. constructor.
  - intros (ds & H). inversion H; subst. constructor; [match goal with X : dec_dig _ = _ |- _ => apply dec_iff in X; lia end|apply IH; eauto].
  - intros H. inversion H as [|? ? H1 H2]; subst. apply IH in H2. destruct H2 as (ds & H2). exists (b2z b - 48 :: ds). constructor; [apply dec_iff; lia|exact H2].
Qed.
(** A decimal octet at the start of the text. *)
Definition octet_at (s : bytes) (n : Z) (c : nat) : Prop := dtoi s = Some (n, c) /\ (255 <? n) = false /\ ((1 <? c)%nat && match s with z :: _ => Byte.eqb z "0" | [] => false end) = false.
Lemma octet_iff s n c : octet_at s n c <-> exists t r, s = t ++ r /\ decimal t n /\ n < 256 /\ stops dec_dig r /\ c = List.length t.
Proof.
  unfold octet_at, dtoi. rewrite (toi_iff 10 dec_dig ltac:(lia) dec_pos). split.
  - intros ((t & r & ds & -> & Ht & HF & Hs & Hn & Hc & _) & H1 & H2). exists t, r. split; [reflexivity|]. split; [|split; [lia|split; [exact Hs|exact Hc]]].
    split; [exact Ht|]. split; [apply dec_digits; eauto|]. split; [|rewrite Hn; symmetry; now apply folded_10].
    intros d r' -> Hz. subst c. cbn [app] in H2. assert (d = "0"%byte) by (apply b2z_inj; rewrite Hz; reflexivity). subst d.
    destruct r'; [reflexivity|]. cbn in H2. discriminate.
  - intros (t & r & -> & (Ht & HD & Hz & Hv) & Hn & Hs & ->). apply dec_digits in HD. destruct HD as (ds & HF). split; [|split; [lia|]].
    + exists t, r, ds. repeat (split; [assumption || reflexivity|]). split; [rewrite (folded_10 t ds 0 HF); symmetry; exact Hv|]. split; [reflexivity|lia].
    + destruct t as [|b t]; [congruence|]. cbn [app]. destruct (Byte.eqb b "0") eqn:E; [|apply andb_false_r]. apply beq_true in E. subst b. rewrite (Hz _ _ eq_refl eq_refl). reflexivity.
Qed.
(** ** Four decimals *)
Definition dotj (ts : list bytes) : bytes := flat_map (fun t => "."%byte :: t) ts.
Definition octets (ts : list bytes) (ns : list Z) : Prop := Forall2 (fun t n => decimal t n /\ n < 256) ts ns.
Lemma dotj_stops ts : stops dec_dig (dotj ts).
Proof. destruct ts; [exact I|reflexivity]. Qed.
Lemma octet_step k s acc q : (match dtoi s with
        | None => None
        | Some (n, c) =>
          if 255 <? n then None
          else if (1 <? c)%nat && match s with z :: _ => Byte.eqb z "0" | [] => false end then None
          else v4_loop k false (skipn c s) (acc ++ [z2b n])
        end) = Some q <-> exists t n r, s = t ++ r /\ decimal t n /\ n < 256 /\ stops dec_dig r /\ v4_loop k false r (acc ++ [z2b n]) = Some q.
Proof.
  split.
  - destruct (dtoi s) as [[n c]|] eqn:E; [|discriminate]. destruct (255 <? n) eqn:E1; [discriminate|]. destruct (_ && _) eqn:E2; [discriminate|]. intros H.
    destruct (proj1 (octet_iff s n c) (conj E (conj E1 E2))) as (t & r & -> & Hd & Hn & Hs & ->). rewrite skipn_app, skipn_all, Nat.sub_diag in H. cbn [skipn app] in H. exists t, n, r. auto.
  - intros (t & n & r & -> & Hd & Hn & Hs & H). destruct (proj2 (octet_iff (t ++ r) n (List.length t))) as (E & E1 & E2); [exists t, r; auto|]. rewrite E, E1, E2. rewrite skipn_app, skipn_all, Nat.sub_diag. exact H.
Qed.
Lemma v4_more k : forall s acc q, v4_loop k false s acc = Some q <-> exists ts ns, List.length ns = k /\ octets ts ns /\ s = dotj ts /\ q = acc ++ map z2b ns.
Proof.
  induction k as [|k IH]; intros s acc q; cbn [v4_loop].
  - split.
    + destruct s; [|discriminate]. intros H. injection H as <-. exists [], []. repeat split; [constructor|]. cbn. now rewrite app_nil_r.
    + intros (ts & ns & Hl & HF & -> & ->). destruct ns; [|discriminate]. inversion HF; subst. cbn. now rewrite app_nil_r.
  - split.
    + destruct s as [|b r]; [discriminate|]. cbn [negb andb]. destruct (Byte.eqb b ".") eqn:E; cbn [negb]; [|discriminate]. apply beq_true in E. subst b. rewrite octet_step.
      intros (t & n & r' & -> & Hd & Hn & Hs & H). apply IH in H. destruct H as (ts & ns & Hl & HF & -> & ->). exists (t :: ts), (n :: ns). split; [cbn; lia|]. split; [constructor; auto|]. split; [reflexivity|].
      cbn [map]. now rewrite <- app_assoc.
    + intros (ts & ns & Hl & HF & -> & ->). destruct ns as [|n ns]; [discriminate|]. inversion HF as [|t ? ts' ? [Hd Hn] HF']; subst. cbn [dotj flat_map app negb andb]. rewrite (proj2 (Byte_eqb_eq _ _) eq_refl). cbn [negb]. apply octet_step.
      exists t, n, (dotj ts'). split; [reflexivity|]. split; [exact Hd|]. split; [exact Hn|]. split; [apply dotj_stops|]. apply IH. exists ts', ns. split; [cbn in Hl; lia|]. split; [exact HF'|]. split; [reflexivity|]. cbn [map]. now rewrite <- app_assoc.
Qed.
Lemma quad_octets s a b c d : quad s a b c d <-> exists ta tb tc td, octets [ta; tb; tc; td] [a; b; c; d] /\ s = ta ++ dotj [tb; tc; td].
Proof.
  unfold quad, octets. split.
  - intros (Ha & Hb & Hc & Hd & ta & tb & tc & td & Da & Db & Dc & Dd & ->). exists ta, tb, tc, td. split; [do 4 (apply Forall2_cons; [split; assumption|]); apply Forall2_nil|]. cbn [dotj flat_map app]. now rewrite app_nil_r.
  - intros (ta & tb & tc & td & HF & ->). repeat match goal with H : Forall2 _ _ _ |- _ => inversion H; clear H; subst end. repeat match goal with H : _ /\ _ |- _ => destruct H end.
    repeat (split; [assumption|]). exists ta, tb, tc, td. repeat (split; [assumption|]). cbn [dotj flat_map app]. now rewrite app_nil_r.
Qed.
Lemma parseIPv4_iff s q : parseIPv4 s = Some q <-> exists a b c d, quad s a b c d /\ q = [z2b a; z2b b; z2b c; z2b d].
Proof.
  unfold parseIPv4. assert (E : v4_loop 4 true s [] = Some q <-> exists t n r, s = t ++ r /\ decimal t n /\ n < 256 /\ stops dec_dig r /\ v4_loop 3 false r ([] ++ [z2b n]) = Some q).
  { rewrite <- octet_step. destruct s as [|b s]; [|reflexivity]. reflexivity. }
  rewrite E. split.
  - intros (t & n & r & -> & Hd & Hn & Hs & H). apply v4_more in H. destruct H as (ts & ns & Hl & HF & -> & ->). destruct ns as [|b [|c [|d [|? ?]]]]; try discriminate.
    unfold octets in HF. inversion HF as [|tb ? ts1 ? Hb HF1]; subst. inversion HF1 as [|tc ? ts2 ? Hc HF2]; subst. inversion HF2 as [|td ? ts3 ? Hd' HF3]; subst. inversion HF3; subst.
    exists n, b, c, d. split; [|reflexivity]. apply quad_octets. exists t, tb, tc, td. split; [apply Forall2_cons; [split; assumption|]; do 3 (apply Forall2_cons; [assumption|]); apply Forall2_nil|reflexivity].
  - intros (a & b & c & d & Hq & ->). apply quad_octets in Hq. destruct Hq as (ta & tb & tc & td & HF & ->). unfold octets in HF. inversion HF as [|? ? ? ? [Da La] HF1]; subst.
    exists ta, a, (dotj [tb; tc; td]). split; [reflexivity|]. split; [exact Da|]. split; [exact La|]. split; [reflexivity|]. apply v4_more. exists [tb; tc; td], [b; c; d]. repeat (split; [reflexivity || assumption|]). reflexivity.
Qed.
