(** Ip6Proofs.v: net.ParseIP on IPv6 text. *)
From Coq Require Import ZifyBool ZifyNat ZifyN.
From Verif Require Import Base BencodeModel BencodeSpec DecimalProofs PeerModel AddrSpec AddrProofs IpModel IpSpec IpProofs.

(** ** Groups as bytes *)
Definition pair16 (z : Z) : bytes := [z2b (z / 256); z2b (z mod 256)].
Definition gbytes (gs : list Z) : bytes := flat_map pair16 gs.
Definition group16 (z : Z) : Prop := 0 <= z < 65536.
Lemma gbytes_len gs : List.length (gbytes gs) = (2 * List.length gs)%nat.
Proof. induction gs as [|g gs IH]; [reflexivity|]. unfold gbytes in *. cbn [flat_map pair16 app List.length]. lia. Qed.
Lemma gbytes_app a b : gbytes (a ++ b) = gbytes a ++ gbytes b.
Proof. apply flat_map_app. Qed.
Lemma gbytes_zero k : gbytes (repeat 0 k) = repeat x00 (2 * k).
Proof. induction k as [|k IH]; [reflexivity|]. replace (2 * S k)%nat with (S (S (2 * k))) by lia. cbn [repeat]. rewrite <- IH. reflexivity. Qed.
Lemma gbytes_groups gs : Forall group16 gs -> groups_of (gbytes gs) gs.
Proof.
  induction 1 as [|g gs Hg _ [H1 H2]]; [split; [reflexivity|cbn; lia]|]. split; [apply gbytes_len|]. intros i Hi. destruct i as [|i].
  - unfold group16 in Hg. cbn [Nat.mul Nat.add gbytes flat_map pair16 app nth]. rewrite !b2z_z2b by (Z.div_mod_to_equations; lia). Z.div_mod_to_equations. lia.
  - replace (2 * S i)%nat with (S (S (2 * i))) by lia. cbn [Nat.add]. unfold gbytes in *. cbn [flat_map pair16 app nth]. apply H2. cbn in Hi. lia.
Qed.
Lemma hexgroup_range t z : hexgroup t z -> group16 z.
Proof.
  intros (_ & Hz & ds & HF & ->). split; [|exact Hz]. clear Hz. rewrite <- folded_16. apply (folded_ge 16 hex_dig ltac:(lia) hex_pos); [|lia]. induction HF as [|c d t ds H _ IH]; constructor; [|exact IH]. unfold hexchar in H. lia.
Qed.
Lemma quad_range q a b c d : quad q a b c d -> 0 <= a < 256 /\ 0 <= b < 256 /\ 0 <= c < 256 /\ 0 <= d < 256.
Proof. intros (Ha & Hb & Hc & Hd & ta & tb & tc & td & Da & Db & Dc & Dd & _). apply decimal_nonneg in Da, Db, Dc, Dd. lia. Qed.
Lemma quad_bytes q a b c d : quad q a b c d -> gbytes [256 * a + b; 256 * c + d] = [z2b a; z2b b; z2b c; z2b d].
Proof. intros H. apply quad_range in H. unfold gbytes, pair16. cbn [flat_map app]. repeat f_equal; Z.div_mod_to_equations; lia. Qed.
Lemma groups_range s gs : groups_text s gs -> Forall group16 gs.
Proof.
  assert (HH : forall ts hs, Forall2 hexgroup ts hs -> Forall group16 hs). { induction 1; constructor; eauto using hexgroup_range. }
  intros [(ts & HF & _)|(ts & hs & q & a & b & c & d & HF & Hq & _ & ->)]; [eauto|]. apply quad_range in Hq. apply Forall_app. split; [eauto|]. repeat constructor; unfold group16; lia.
Qed.
(** ** Groups as text *)
Lemma colons_cons t ts : ts <> [] -> colons (t :: ts) = t ++ ":"%byte :: colons ts.
Proof. destruct ts; [congruence|reflexivity]. Qed.
Lemma gt_one t n : hexgroup t n -> groups_text t [n].
Proof. intros H. left. exists [t]. split; [constructor; [exact H|constructor]|reflexivity]. Qed.
Lemma gt_quad q a b c d : quad q a b c d -> groups_text q [256 * a + b; 256 * c + d].
Proof. intros H. right. exists [], [], q, a, b, c, d. split; [constructor|]. split; [exact H|]. split; reflexivity. Qed.
Lemma gt_cons t n r gs : hexgroup t n -> groups_text r gs -> r <> [] -> groups_text (t ++ ":"%byte :: r) (n :: gs).
Proof.
  intros Ht [(ts & HF & ->)|(ts & hs & q & a & b & c & d & HF & Hq & -> & ->)] Hr.
  - left. exists (t :: ts). split; [constructor; assumption|]. rewrite colons_cons; [reflexivity|]. intros ->. now elim Hr.
  - right. exists (t :: ts), (n :: hs), q, a, b, c, d. split; [constructor; assumption|]. split; [exact Hq|]. split; [|reflexivity]. cbn [app]. rewrite colons_cons; [reflexivity|]. now destruct ts.
Qed.
Lemma hg_one t n : hexgroup t n -> hex_groups t [n].
Proof. intros H. exists [t]. split; [constructor; [exact H|constructor]|reflexivity]. Qed.
Lemma hg_cons t n r gs : hexgroup t n -> hex_groups r gs -> r <> [] -> hex_groups (t ++ ":"%byte :: r) (n :: gs).
Proof. intros Ht (ts & HF & ->) Hr. exists (t :: ts). split; [constructor; assumption|]. rewrite colons_cons; [reflexivity|]. intros ->. now elim Hr. Qed.
Definition clean (s : bytes) : Prop := match s with [] => False | b :: _ => b <> ":"%byte end.
Lemma hexgroup_clean t n r : hexgroup t n -> clean (t ++ r).
Proof.
  intros (Ht & _ & ds & HF & _). destruct t as [|b t]; [congruence|]. inversion HF as [|? d ? ds' Hb _]; subst. cbn. intros ->. unfold hexchar in Hb. cbn in Hb. lia.
Qed.
Lemma quad_clean q a b c d : quad q a b c d -> clean q.
Proof.
  intros (_ & _ & _ & _ & ta & tb & tc & td & (Ht & HD & _) & _ & _ & _ & ->). destruct ta as [|x t]; [congruence|]. inversion HD as [|? ? Hx _]; subst. cbn. intros ->. cbn in Hx. lia.
Qed.
Lemma gt_view s gs : groups_text s gs -> (s = [] /\ gs = []) \/
  (exists n, hexgroup s n /\ gs = [n]) \/ (exists a b c d, quad s a b c d /\ gs = [256 * a + b; 256 * c + d]) \/
  (exists t n r gs', hexgroup t n /\ groups_text r gs' /\ clean r /\ s = t ++ ":"%byte :: r /\ gs = n :: gs').
Proof.
  intros [(ts & HF & ->)|(ts & hs & q & a & b & c & d & HF & Hq & -> & ->)].
  - destruct HF as [|t n ts ns Ht HF]; [left; split; reflexivity|]. right. destruct HF as [|u m ts ns Hu HF]; [left; exists n; split; [exact Ht|reflexivity]|]. right. right.
    exists t, n, (colons (u :: ts)), (m :: ns). split; [exact Ht|]. split; [left; exists (u :: ts); split; [constructor; assumption|reflexivity]|]. split; [|split; [rewrite colons_cons by discriminate; reflexivity|reflexivity]].
    destruct ts; [cbn [colons]; rewrite <- (app_nil_r u)|rewrite colons_cons by discriminate]; eapply hexgroup_clean; exact Hu.
  - right. right. destruct HF as [|t n ts ns Ht HF]; [left; exists a, b, c, d; split; [exact Hq|reflexivity]|]. right.
    exists t, n, (colons (ts ++ [q])), (ns ++ [256 * a + b; 256 * c + d]). split; [exact Ht|]. split; [right; exists ts, ns, q, a, b, c, d; auto|]. split; [|split; [cbn [app]; rewrite colons_cons by (now destruct ts); reflexivity|reflexivity]].
    destruct HF as [|u m ts ns Hu HF]; [exact (quad_clean _ _ _ _ _ Hq)|]. cbn [app]. rewrite colons_cons by (now destruct ts). eapply hexgroup_clean; exact Hu.
Qed.
Lemma hg_view s gs : hex_groups s gs -> (s = [] /\ gs = []) \/ (exists n, hexgroup s n /\ gs = [n]) \/
  (exists t n r gs', hexgroup t n /\ hex_groups r gs' /\ clean r /\ gs' <> [] /\ s = t ++ ":"%byte :: r /\ gs = n :: gs').
Proof.
  intros (ts & HF & ->). destruct HF as [|t n ts ns Ht HF]; [left; split; reflexivity|]. right. destruct HF as [|u m ts ns Hu HF]; [left; exists n; split; [exact Ht|reflexivity]|]. right.
  exists t, n, (colons (u :: ts)), (m :: ns). split; [exact Ht|]. split; [exists (u :: ts); split; [constructor; assumption|reflexivity]|]. split; [|split; [discriminate|split; [rewrite colons_cons by discriminate; reflexivity|reflexivity]]].
  destruct ts; [cbn [colons]; rewrite <- (app_nil_r u)|rewrite colons_cons by discriminate]; eapply hexgroup_clean; exact Hu.
Qed.
(** ** One number *)
Lemma group_iff s n c : xtoi s = Some (n, c) /\ (65535 <? n) = false <-> exists t r, s = t ++ r /\ hexgroup t n /\ stops hex_dig r /\ c = List.length t.
Proof.
  unfold xtoi. rewrite (toi_iff 16 hex_dig ltac:(lia) hex_pos). split.
  - intros ((t & r & ds & -> & Ht & HF & Hs & Hn & Hc & _) & H). exists t, r. split; [reflexivity|]. split; [|split; assumption]. split; [exact Ht|]. split; [lia|]. exists ds. split; [|rewrite Hn; apply folded_16].
    clear - HF. induction HF as [|b d t ds H _ IH]; constructor; [now apply hex_iff|exact IH].
  - intros (t & r & -> & (Ht & Hn & ds & HF & Hv) & Hs & ->). split; [|lia]. exists t, r, ds. split; [reflexivity|]. split; [exact Ht|]. split; [clear - HF; induction HF as [|b d t ds H _ IH]; constructor; [now apply hex_iff|exact IH]|].
    split; [exact Hs|]. split; [rewrite Hv; symmetry; apply folded_16|]. split; [reflexivity|lia].
Qed.
Definition after (room : nat) (s : bytes) (n : Z) (rest acc : bytes) (ell : option nat) : option (bytes * option nat * bytes) :=
  match rest with
  | [] => Some (acc ++ pair16 n, ell, [])
  | d :: r =>
    if Byte.eqb d "." then
      if match ell with None => negb (List.length acc =? 12)%nat | Some _ => false end || (16 <? List.length acc + 4)%nat then None
      else match parseIPv4 s with None => None | Some q => Some (acc ++ q, ell, []) end
    else if negb (Byte.eqb d ":") || (List.length rest =? 1)%nat then None
    else
      match r with
      | e :: r' => if Byte.eqb e ":" then
                     match ell with
                     | Some _ => None
                     | None => match r' with [] => Some (acc ++ pair16 n, Some (List.length (acc ++ pair16 n)), []) | _ => v6_loop room r' (acc ++ pair16 n) (Some (List.length (acc ++ pair16 n))) end
                     end
                   else v6_loop room r (acc ++ pair16 n) ell
      | [] => None
      end
  end.
Lemma loop_step room s acc ell x : v6_loop (S room) s acc ell = Some x <-> exists t n r, s = t ++ r /\ hexgroup t n /\ stops hex_dig r /\ after room s n r acc ell = Some x.
Proof.
  cbn [v6_loop]. split.
  - destruct (xtoi s) as [[n c]|] eqn:E; [|discriminate]. destruct (65535 <? n) eqn:E1; [discriminate|]. intros H. destruct (proj1 (group_iff s n c) (conj E E1)) as (t & r & Es & Ht & Hs & ->).
    exists t, n, r. split; [exact Es|]. split; [exact Ht|]. split; [exact Hs|]. rewrite Es in H at 1. cbv zeta in H. assert (Ek : skipn (List.length t) (t ++ r) = r) by (rewrite skipn_app, skipn_all, Nat.sub_diag; reflexivity).
    rewrite <- Es in H. assert (Ek' : skipn (List.length t) s = r) by (rewrite Es; exact Ek). rewrite Ek' in H. exact H.
  - intros (t & n & r & Es & Ht & Hs & H). destruct (proj2 (group_iff s n (List.length t)) (ex_intro _ t (ex_intro _ r (conj Es (conj Ht (conj Hs eq_refl)))))) as [E E1]. rewrite E, E1.
    assert (Ek' : skipn (List.length t) s = r) by (rewrite Es, skipn_app, skipn_all, Nat.sub_diag; reflexivity). cbv zeta. rewrite Ek'. exact H.
Qed.
(** ** The loop takes addresses only *)
Definition taken (s acc : bytes) (ell : option nat) (acc' : bytes) (ell' : option nat) : Prop :=
  (ell' = ell /\ exists R, groups_text s R /\ acc' = acc ++ gbytes R) \/
  (ell = None /\ exists l r L R, L <> [] /\ hex_groups l L /\ groups_text r R /\ s = l ++ B "::" ++ r /\ ell' = Some (List.length (acc ++ gbytes L)) /\ acc' = acc ++ gbytes L ++ gbytes R).
Lemma nil_groups : groups_text [] [].
Proof. left. exists []. split; [constructor|reflexivity]. Qed.
Lemma loop_sound room : forall s acc ell acc' ell', s <> [] -> v6_loop room s acc ell = Some (acc', ell', []) -> taken s acc ell acc' ell'.
Proof.
  induction room as [|room IH]; intros s acc ell acc' ell' Hs H; [cbn in H; congruence|]. apply loop_step in H. destruct H as (t & n & r & Es & Ht & Hst & H).
  assert (EB : gbytes [n] = pair16 n) by reflexivity. unfold after in H. destruct r as [|d r].
  - injection H as <- <-. left. split; [reflexivity|]. exists [n]. rewrite app_nil_r in Es. subst t. split; [now apply gt_one|reflexivity].
  - destruct (Byte.eqb d ".").
    + destruct (_ || _); [discriminate|]. destruct (parseIPv4 s) as [q|] eqn:Eq; [|discriminate]. injection H as <- <-. apply parseIPv4_iff in Eq. destruct Eq as (a & b & c & e & Hq & ->).
      left. split; [reflexivity|]. exists [256 * a + b; 256 * c + e]. split; [now apply gt_quad|]. f_equal. symmetry. exact (quad_bytes _ _ _ _ _ Hq).
    + destruct (Byte.eqb d ":") eqn:Ed; cbn [negb orb] in H; [|discriminate]. apply beq_true in Ed. subst d. destruct (_ =? 1)%nat; [discriminate|]. destruct r as [|e r]; [discriminate|]. destruct (Byte.eqb e ":") eqn:Ee.
      * apply beq_true in Ee. subst e. destruct ell; [discriminate|]. right. split; [reflexivity|]. destruct r as [|x r].
        -- injection H as <- <-. exists t, [], [n], []. split; [discriminate|]. split; [now apply hg_one|]. split; [apply nil_groups|]. split; [exact Es|]. split; [reflexivity|]. cbn [gbytes flat_map app]. rewrite !app_nil_r. reflexivity.
        -- apply IH in H; [|discriminate]. destruct H as [[-> (R & HR & ->)]|[? _]]; [|discriminate]. exists t, (x :: r), [n], R. split; [discriminate|]. split; [now apply hg_one|]. split; [exact HR|].
           split; [exact Es|]. split; [reflexivity|]. rewrite EB. now rewrite <- app_assoc.
      * apply IH in H; [|discriminate]. destruct H as [[-> (R & HR & ->)]|[-> (l & r' & L & R & HL & Hl & HR & Er & -> & ->)]].
        -- left. split; [reflexivity|]. exists (n :: R). split; [rewrite Es; apply gt_cons; [assumption|assumption|discriminate]|]. unfold gbytes. cbn [flat_map]. now rewrite <- app_assoc.
        -- right. split; [reflexivity|]. exists (t ++ ":"%byte :: l), r', (n :: L), R. split; [discriminate|]. assert (l <> []). { intros ->. destruct Hl as (ts & HF & El). destruct HF as [|u m ts ns Hu _]; [now elim HL|]. destruct Hu as (Hu & _). destruct ts; [cbn in El; congruence|]. rewrite colons_cons in El by discriminate. symmetry in El. apply app_eq_nil in El. tauto. }
           split; [now apply hg_cons|]. split; [exact HR|]. split; [rewrite Es, Er, <- app_assoc; reflexivity|]. unfold gbytes. cbn [flat_map]. rewrite <- !app_assoc. split; reflexivity.
Qed.
(** ** The loop takes every address *)
Lemma decimal_hex t a : decimal t a -> a < 256 -> exists h, hexgroup t h.
Proof.
  intros Hd Ha. pose proof (decimal_nonneg _ _ Hd) as H0. pose proof (decimal_itoa _ _ Hd) as ->. 
  assert (HS : forallb (fun k => match xtoi (itoa (Z.of_nat k)) with Some (n, c) => negb (65535 <? n) && (c =? List.length (itoa (Z.of_nat k)))%nat | None => false end) (seq 0 256) = true) by (vm_compute; reflexivity).
  rewrite forallb_forall in HS. specialize (HS (Z.to_nat a) ltac:(apply in_seq; lia)). rewrite Z2Nat.id in HS by lia. destruct (xtoi (itoa a)) as [[n c]|] eqn:E; [|discriminate].
  apply andb_prop in HS. destruct HS as [H1 H2]. apply negb_true_iff in H1. destruct (proj1 (group_iff _ _ _) (conj E H1)) as (u & r & Eu & Hg & _ & Hc).
  assert (r = []). { apply (f_equal (@List.length byte)) in Eu. rewrite app_length in Eu. destruct r; [reflexivity|cbn in Eu; lia]. } subst r. rewrite app_nil_r in Eu. rewrite Eu. now exists n.
Qed.
Lemma loop_complete room : forall s R acc ell, groups_text s R -> s <> [] -> (List.length R <= room)%nat -> (2 * room + List.length acc = 16)%nat -> ell <> None \/ List.length R = room ->
  v6_loop room s acc ell = Some (acc ++ gbytes R, ell, []).
Proof.
  induction room as [|room IH]; intros s R acc ell HR Hs HL HA He; destruct (gt_view s R HR) as [[? _]|[(n & Ht & ->)|[(a & b & c & d & Hq & ->)|(t & n & r & R' & Ht & HR' & Hc & -> & ->)]]]; try congruence; try (cbn in HL; lia).
  - apply loop_step. exists s, n, []. split; [now rewrite app_nil_r|]. split; [exact Ht|]. split; [exact I|]. reflexivity.
  - apply loop_step. pose proof Hq as (La & _ & _ & _ & ta & tb & tc & td & Da & _ & _ & _ & Es). destruct (decimal_hex ta a Da La) as (h & Hh). exists ta, h, (B "." ++ tb ++ B "." ++ tc ++ B "." ++ td).
    split; [exact Es|]. split; [exact Hh|]. split; [reflexivity|]. change (B "." ++ tb ++ B "." ++ tc ++ B "." ++ td) with ("."%byte :: tb ++ B "." ++ tc ++ B "." ++ td). unfold after. replace (Byte.eqb "." ".") with true by reflexivity. cbv iota.
    replace (match ell with None => negb (List.length acc =? 12)%nat | Some _ => false end || (16 <? List.length acc + 4)%nat)%bool with false.
    2: { symmetry. cbn [List.length] in *. destruct ell; [lia|]. destruct He as [He|He]; [congruence|]. lia. }
    rewrite (proj2 (parseIPv4_iff s [z2b a; z2b b; z2b c; z2b d])) by (exists a, b, c, d; auto). rewrite (quad_bytes _ _ _ _ _ Hq). reflexivity.
  - apply loop_step. exists t, n, (":"%byte :: r). split; [reflexivity|]. split; [exact Ht|]. split; [reflexivity|]. destruct r as [|e r]; [contradiction|]. cbn in Hc. unfold after. cbn [List.length Nat.eqb orb].
    replace (Byte.eqb ":" ".") with false by reflexivity. replace (Byte.eqb ":" ":") with true by reflexivity. cbn [negb orb]. rewrite (proj2 (Byte_eqb_neq _ _) Hc). cbn [List.length] in *.
    rewrite (IH (e :: r) R'); [unfold gbytes; cbn [flat_map]; now rewrite <- app_assoc|exact HR'|discriminate|lia|rewrite app_length; cbn [pair16 List.length]; lia|]. destruct He; [now left|right; lia].
Qed.
Lemma gt_nil R : groups_text [] R -> R = [].
Proof.
  intros H. destruct (gt_view _ _ H) as [[_ ?]|[(n & Ht & _)|[(a & b & c & d & Hq & _)|(t & n & r & R' & _ & _ & _ & E & _)]]]; [assumption| | |].
  - destruct Ht as (Ht & _). congruence.
  - now apply quad_clean in Hq.
  - destruct t; discriminate.
Qed.
Lemma loop_gap room : forall l L r R acc, hex_groups l L -> L <> [] -> groups_text r R -> (List.length L + List.length R <= room)%nat -> (2 * room + List.length acc = 16)%nat ->
  v6_loop room (l ++ B "::" ++ r) acc None = Some (acc ++ gbytes L ++ gbytes R, Some (List.length (acc ++ gbytes L)), []).
Proof.
  induction room as [|room IH]; intros l L r R acc Hl HL HR HN HA; (destruct (hg_view l L Hl) as [[_ ?]|[(n & Ht & ->)|(t & n & l' & L' & Ht & Hl' & Hc & HL' & -> & ->)]]; [congruence| |]); try (cbn in HN; lia).
  - apply loop_step. exists l, n, (B "::" ++ r). split; [reflexivity|]. split; [exact Ht|]. split; [reflexivity|]. unfold after. change (B "::" ++ r) with (":"%byte :: ":"%byte :: r). cbv iota.
    replace (Byte.eqb ":" ".") with false by reflexivity. replace (Byte.eqb ":" ":") with true by reflexivity. cbn [negb orb List.length Nat.eqb]. change (gbytes [n]) with (pair16 n).
    destruct r as [|x r]; [apply gt_nil in HR; subst R; cbn [gbytes flat_map]; now rewrite app_nil_r|]. rewrite (loop_complete room (x :: r) R); [now rewrite <- app_assoc|exact HR|discriminate|cbn in HN; lia|rewrite app_length; cbn [pair16 List.length]; lia|left; discriminate].
  - apply loop_step. exists t, n, (":"%byte :: l' ++ B "::" ++ r). split; [now rewrite <- app_assoc|]. split; [exact Ht|]. split; [reflexivity|]. destruct l' as [|e l']; [contradiction|]. cbn in Hc. unfold after. cbn [app].
    replace (Byte.eqb ":" ".") with false by reflexivity. replace (Byte.eqb ":" ":") with true by reflexivity. cbn [negb orb List.length Nat.eqb]. rewrite (proj2 (Byte_eqb_neq _ _) Hc). cbn [List.length] in *.
    change (e :: l' ++ ":"%byte :: ":"%byte :: r) with ((e :: l') ++ B "::" ++ r).
    rewrite (IH (e :: l') L' r R); [unfold gbytes; cbn [flat_map]; now rewrite <- !app_assoc|exact Hl'|exact HL'|exact HR|lia|rewrite app_length; cbn [pair16 List.length]; lia].
Qed.
(** ** The whole text *)
Lemma clean_no_colons s : clean s -> parseIPv6 s = v6_finish (v6_loop 8 s [] None).
Proof. destruct s as [|a [|b s]]; intros H; [contradiction|reflexivity|]. cbn in H. cbn [parseIPv6]. rewrite (proj2 (Byte_eqb_neq _ _) H). reflexivity. Qed.
Lemma gt_clean s R : groups_text s R -> s <> [] -> clean s.
Proof.
  intros H Hs. destruct (gt_view s R H) as [[? _]|[(n & Ht & ->)|[(a & b & c & d & Hq & ->)|(t & n & r & R' & Ht & HR' & Hc & -> & ->)]]]; [congruence| | |].
  - rewrite <- (app_nil_r s). eapply hexgroup_clean; exact Ht.
  - eapply quad_clean; exact Hq.
  - eapply hexgroup_clean; exact Ht.
Qed.
Lemma gt_empty s R : groups_text s R -> R <> [] -> s <> [].
Proof. intros H HR ->. apply gt_nil in H. congruence. Qed.
Lemma hg_gt s R : hex_groups s R -> groups_text s R.
Proof. now left. Qed.
Lemma finish_gap L R : (List.length (L ++ R) < 8)%nat ->
  v6_finish (Some (gbytes L ++ gbytes R, Some (List.length (gbytes L)), [])) = gbytes (L ++ repeat 0 (8 - List.length (L ++ R)) ++ R).
Proof.
  intros H. unfold v6_finish. rewrite app_length in H. replace (List.length (gbytes L ++ gbytes R) <? 16)%nat with true by (rewrite app_length, !gbytes_len; lia).
  rewrite firstn_app, skipn_app, firstn_all, skipn_all, Nat.sub_diag, firstn_O, app_nil_r. cbn [skipn app]. rewrite !gbytes_app, gbytes_zero. f_equal. f_equal. f_equal. rewrite !app_length, !gbytes_len. lia.
Qed.
Lemma ip6_range s gs : ip6 s gs -> Forall group16 gs /\ List.length gs = 8%nat.
Proof.
  intros [[H HL]|(l & r & ls & rs & Hl & Hr & _ & HN & ->)]; [split; [eapply groups_range; exact H|exact HL]|]. apply hg_gt, groups_range in Hl. apply groups_range in Hr. split.
  - apply Forall_app. split; [exact Hl|]. apply Forall_app. split; [|exact Hr]. clear. induction (8 - _)%nat; constructor; [unfold group16; lia|assumption].
  - rewrite !app_length, repeat_length in *. lia.
Qed.
Lemma v6_complete s gs : ip6 s gs -> parseIPv6 s = gbytes gs.
Proof.
  intros [[H HL]|(l & r & ls & rs & Hl & Hr & -> & HN & ->)].
  - assert (Hs : s <> []) by (eapply gt_empty; [exact H|destruct gs; discriminate]). rewrite clean_no_colons by (eapply gt_clean; eassumption). rewrite (loop_complete 8 s gs [] None H Hs) by (cbn; lia).
    cbn [app v6_finish]. rewrite gbytes_len, HL. reflexivity.
  - destruct (hg_view l ls Hl) as [[-> ->]|HV].
    + cbn [app]. change (B "::" ++ r) with (":"%byte :: ":"%byte :: r). cbn [parseIPv6]. replace (Byte.eqb ":" ":") with true by reflexivity. cbn [andb]. destruct r as [|x r].
      * apply gt_nil in Hr. subst rs. reflexivity.
      * rewrite (loop_complete 8 (x :: r) rs [] (Some 0%nat) Hr) by (first [discriminate|left; discriminate|cbn in HN |- *; lia]). exact (finish_gap [] rs HN).
    + assert (HL : ls <> []) by (destruct HV as [(n & _ & ->)|(t & n & r' & gs & _ & _ & _ & _ & _ & ->)]; discriminate).
      assert (Hc : clean (l ++ B "::" ++ r)). { destruct HV as [(n & Ht & _)|(t & n & r' & gs & Ht & _ & _ & _ & -> & _)]; [eapply hexgroup_clean; exact Ht|rewrite <- app_assoc; eapply hexgroup_clean; exact Ht]. }
      rewrite clean_no_colons by exact Hc. rewrite (loop_gap 8 l ls r rs [] Hl HL Hr) by (rewrite app_length in HN; cbn; lia). cbn [app]. now apply finish_gap.
Qed.
Lemma finish_some x : v6_finish x <> [] -> exists acc ell, x = Some (acc, ell, []) /\
  ((ell = None /\ v6_finish x = acc /\ (16 <= List.length acc)%nat) \/ exists e, ell = Some e /\ (List.length acc < 16)%nat).
Proof.
  destruct x as [[[acc ell] rest]|]; [|now intros H]. destruct rest as [|y rest]; [|now intros H]. intros H. exists acc, ell. split; [reflexivity|]. cbn [v6_finish] in *. destruct (_ <? 16)%nat eqn:E.
  - right. destruct ell; [|congruence]. eexists. split; [reflexivity|lia].
  - left. destruct ell; [congruence|]. split; [reflexivity|]. split; [reflexivity|lia].
Qed.
Lemma loop_len room : forall s acc ell acc' ell', (2 * room + List.length acc = 16)%nat -> v6_loop room s acc ell = Some (acc', ell', []) -> (List.length acc' <= 16)%nat.
Proof.
  induction room as [|room IH]; intros s acc ell acc' ell' HA H; [cbn in H; injection H as <- _ _; lia|]. apply loop_step in H. destruct H as (t & n & r & Es & Ht & Hst & H).
  assert (HB : (2 * room + List.length (acc ++ pair16 n) = 16)%nat) by (rewrite app_length; cbn [pair16 List.length]; lia).
  unfold after in H. destruct r as [|d r]; [injection H as <- _; lia|]. destruct (Byte.eqb d ".").
  - destruct (_ || _) eqn:Eg; [discriminate|]. destruct (parseIPv4 s) as [q|] eqn:Eq; [|discriminate]. injection H as <- _. apply parseIPv4_iff in Eq. destruct Eq as (a & b & c & e & _ & ->). rewrite app_length. cbn [List.length]. destruct ell; lia.
  - destruct (_ || _); [discriminate|]. destruct r as [|e r]; [discriminate|]. destruct (Byte.eqb e ":"); [|eapply IH; [exact HB|exact H]]. destruct ell; [discriminate|]. destruct r as [|x r]; [injection H as <- _; lia|]. eapply IH; [exact HB|exact H].
Qed.
Lemma v6_sound s : parseIPv6 s <> [] -> exists gs, ip6 s gs.
Proof.
  intros H. destruct s as [|a s]; [now elim H|].
  assert (HG : v6_finish (v6_loop 8 (a :: s) [] None) <> [] -> exists gs, ip6 (a :: s) gs).
  { clear H. intros H. destruct (finish_some _ H) as (acc & ell & E & HC). pose proof (loop_len 8 _ [] _ _ _ eq_refl E) as HLen. apply loop_sound in E; [|discriminate].
    destruct E as [[-> (R & HR & ->)]|[_ (l & r & L & R & HL & Hl & HR & Es & -> & ->)]].
    - destruct HC as [(_ & _ & HC)|(e & He & _)]; [|discriminate]. exists R. left. split; [exact HR|]. cbn [app] in *. rewrite gbytes_len in *. lia.
    - destruct HC as [(? & _)|(e & He & HC)]; [discriminate|]. cbn [app] in HC. rewrite app_length, !gbytes_len in HC. eexists. right. exists l, r, L, R. split; [exact Hl|]. split; [exact HR|]. split; [exact Es|]. split; [rewrite app_length; lia|reflexivity]. }
  destruct s as [|b s]; [exact (HG H)|]. cbn [parseIPv6] in H. destruct (Byte.eqb a ":" && Byte.eqb b ":") eqn:E; [|exact (HG H)]. clear HG. apply andb_prop in E. destruct E as [Ea Eb]. apply beq_true in Ea, Eb. subst a b.
  assert (HN : hex_groups [] []) by (exists []; split; [constructor|reflexivity]). destruct s as [|x s].
  - eexists. right. exists [], [], [], []. split; [exact HN|]. split; [apply nil_groups|]. split; [reflexivity|]. split; [cbn; lia|reflexivity].
  - destruct (finish_some _ H) as (acc & ell & E & HC). apply loop_sound in E; [|discriminate]. destruct E as [[-> (R & HR & ->)]|[? _]]; [|discriminate].
    destruct HC as [(? & _)|(e & He & HC)]; [discriminate|]. cbn [app] in HC. rewrite gbytes_len in HC. eexists. right. exists [], (x :: s), [], R. split; [exact HN|]. split; [exact HR|]. split; [reflexivity|]. split; [cbn [app]; lia|reflexivity].
Qed.
(** ** Which of the two *)
Definition markless (t : bytes) : Prop := ~ In "."%byte t /\ ~ In ":"%byte t.
Lemma first_mark_app t r : markless t -> first_mark (t ++ r) = first_mark r.
Proof.
  intros [H1 H2]. induction t as [|b t IH]; [reflexivity|]. cbn [app first_mark]. rewrite (proj2 (Byte_eqb_neq b ".")) by (intros ->; apply H1; now left). rewrite (proj2 (Byte_eqb_neq b ":")) by (intros ->; apply H2; now left).
  apply IH; intros Hi; [apply H1|apply H2]; now right.
Qed.
Lemma hexgroup_markless t n : hexgroup t n -> markless t.
Proof.
  intros (_ & _ & ds & HF & _). assert (HA : forall c, In c t -> exists d, hexchar c d). { clear - HF. induction HF as [|c d t ds H _ IH]; [intros ? []|]. intros x [<-|Hx]; eauto. }
  split; intros Hi; destruct (HA _ Hi) as (d & Hd); unfold hexchar in Hd; cbn in Hd; lia.
Qed.
Lemma decimal_markless t n : decimal t n -> markless t.
Proof. intros (_ & HD & _). rewrite Forall_forall in HD. split; intros Hi; apply HD in Hi; cbn in Hi; lia. Qed.
Lemma quad_mark q a b c d : quad q a b c d -> first_mark q = Some "."%byte.
Proof. intros (_ & _ & _ & _ & ta & tb & tc & td & Da & _ & _ & _ & ->). rewrite first_mark_app by (eapply decimal_markless; exact Da). reflexivity. Qed.
Lemma ip6_mark s gs : ip6 s gs -> first_mark s = Some ":"%byte.
Proof.
  intros [[H HL]|(l & r & ls & rs & Hl & Hr & -> & HN & ->)].
  - destruct (gt_view s gs H) as [[_ ->]|[(n & _ & ->)|[(a & b & c & d & _ & ->)|(t & n & r & R' & Ht & _ & _ & -> & ->)]]]; try discriminate. rewrite first_mark_app by (eapply hexgroup_markless; exact Ht). reflexivity.
  - destruct (hg_view l ls Hl) as [[-> ->]|[(n & Ht & _)|(t & n & r' & gs & Ht & _ & _ & _ & -> & _)]]; [reflexivity| |].
    + rewrite first_mark_app by (eapply hexgroup_markless; exact Ht). reflexivity.
    + rewrite <- app_assoc. rewrite first_mark_app by (eapply hexgroup_markless; exact Ht). reflexivity.
Qed.
Lemma v4prefix_mapped a b c d : IPv4 a b c d = mapped ++ [a; b; c; d].
Proof. reflexivity. Qed.
Lemma parse_complete s p : stands_for s p -> ParseIP s = p.
Proof.
  intros [(a & b & c & d & Hq & ->)|(gs & H & Hp)]; unfold ParseIP.
  - rewrite (quad_mark _ _ _ _ _ Hq). replace (Byte.eqb "." ".") with true by reflexivity. rewrite (proj2 (parseIPv4_iff s [z2b a; z2b b; z2b c; z2b d])) by (exists a, b, c, d; auto). apply v4prefix_mapped.
  - rewrite (ip6_mark _ _ H). replace (Byte.eqb ":" ".") with false by reflexivity. rewrite (v6_complete _ _ H). eapply groups_of_inj; [|exact Hp]. apply gbytes_groups. now apply ip6_range in H.
Qed.
Lemma parse_sound s : ParseIP s <> [] -> stands_for s (ParseIP s).
Proof.
  intros H. unfold ParseIP in H. destruct (first_mark s) as [b|] eqn:E; [|now elim H]. destruct (Byte.eqb b ".").
  - destruct (parseIPv4 s) as [q|] eqn:Eq; [|now elim H]. apply parseIPv4_iff in Eq. destruct Eq as (x & y & z & w & Hq & ->).
    assert (HS : stands_for s (mapped ++ [z2b x; z2b y; z2b z; z2b w])) by (left; exists x, y, z, w; auto). now rewrite (parse_complete _ _ HS).
  - destruct (v6_sound s H) as (gs & Hg). assert (HS : stands_for s (gbytes gs)) by (right; exists gs; split; [exact Hg|apply gbytes_groups; now apply ip6_range in Hg]). now rewrite (parse_complete _ _ HS).
Qed.
Lemma stands_len s p : stands_for s p -> zlen p = 16.
Proof.
  intros [(a & b & c & d & Hq & ->)|(gs & H & [Hp _])]; [reflexivity|]. apply ip6_range in H. unfold zlen. lia.
Qed.
Lemma parse_iff s p : p <> [] -> (ParseIP s = p <-> stands_for s p).
Proof. intros Hp. split; [intros <-; now apply parse_sound|apply parse_complete]. Qed.
Lemma parse_none s : ParseIP s = [] <-> forall p, ~ stands_for s p.
Proof.
  split.
  - intros H p Hs. pose proof (stands_len _ _ Hs) as HL. rewrite <- (parse_complete _ _ Hs), H in HL. discriminate.
  - intros H. destruct (ParseIP s) as [|b p] eqn:E; [reflexivity|]. elim (H (ParseIP s)). apply parse_sound. rewrite E. discriminate.
Qed.
(** ** Round trip *)
Lemma itoa_octet a : decimal (itoa (b2z a)) (b2z a) /\ b2z a < 256.
Proof. pose proof (b2z_range a). split; [apply itoa_decimal; lia|lia]. Qed.
Lemma dotted_quad a b c d : quad (dotted a b c d) (b2z a) (b2z b) (b2z c) (b2z d).
Proof.
  destruct (itoa_octet a) as [Da La], (itoa_octet b) as [Db Lb], (itoa_octet c) as [Dc Lc], (itoa_octet d) as [Dd Ld]. do 4 (split; [assumption|]). exists (itoa (b2z a)), (itoa (b2z b)), (itoa (b2z c)), (itoa (b2z d)).
  do 4 (split; [assumption|]). reflexivity.
Qed.
Lemma quad_dotted q a b c d : quad q a b c d -> q = dotted (z2b a) (z2b b) (z2b c) (z2b d).
Proof.
  intros H. pose proof (quad_range _ _ _ _ _ H) as HR. destruct H as (_ & _ & _ & _ & ta & tb & tc & td & Da & Db & Dc & Dd & ->). apply decimal_itoa in Da, Db, Dc, Dd. subst. unfold dotted. rewrite !b2z_z2b. rewrite !Z.mod_small by lia. reflexivity.
Qed.
Lemma hextext_group z t : 0 <= z < 65536 -> hextext z t -> hexgroup t z.
Proof.
  intros Hz (Ht & Hv & _). split; [exact Ht|]. split; [lia|]. clear Ht. assert (HG : forall t acc, hex_val acc t = Some z -> exists ds, Forall2 hexchar t ds /\ z = fold_left (fun a d => 16 * a + d) ds acc).
  { clear. induction t as [|b t IH]; intros acc H; cbn [hex_val] in H; [injection H as <-; exists []; split; [constructor|reflexivity]|]. destruct (digit_val b) as [d|] eqn:E; [|discriminate]. destruct (IH _ H) as (ds & HF & Hz).
    exists (d :: ds). split; [constructor; [|exact HF]|exact Hz]. unfold digit_val in E. cbv zeta in E. unfold hexchar. destruct (_ && _) eqn:E1; [injection E as <-; lia|]. destruct ((97 <=? b2z b) && _) eqn:E2; [injection E as <-; lia|discriminate]. }
  exact (HG t 0 Hv).
Qed.
Lemma hextexts_groups g ts : Forall group16 g -> Forall2 hextext g ts -> Forall2 hexgroup ts g.
Proof. intros HR HF. induction HF as [|z t g ts H _ IH]; [constructor|]. inversion HR; subst. constructor; [now apply hextext_group|auto]. Qed.
Lemma groups_of_range p g : groups_of p g -> Forall group16 g.
Proof.
  intros [HL H]. apply Forall_forall. intros z Hz. destruct (In_nth g z 0 Hz) as (i & Hi & <-). rewrite H by exact Hi. pose proof (b2z_range (nth (2 * i) p x00)). pose proof (b2z_range (nth (2 * i + 1) p x00)). unfold group16. lia.
Qed.
Lemma rfc_ip6 g t : Forall group16 g -> List.length g = 8%nat -> rfc5952 g t -> ip6 t g.
Proof.
  intros HR HL (ts & HF & [[_ ->]|(i & n & Hn & Hz & _ & ->)]).
  - left. split; [|exact HL]. left. exists ts. split; [now apply hextexts_groups|reflexivity].
  - right. exists (colons (firstn i ts)), (colons (skipn (i + n) ts)), (firstn i g), (skipn (i + n) g). pose proof (hextexts_groups g ts HR HF) as HG.
    split; [exists (firstn i ts); split; [now apply Forall2_firstn_|reflexivity]|]. split; [left; exists (skipn (i + n) ts); split; [now apply Forall2_skipn_|reflexivity]|]. split; [reflexivity|].
    pose proof (proj1 Hz) as Hzl. rewrite app_length, firstn_length, skipn_length. split; [lia|]. rewrite (zero_run_split g i n Hz) at 1. do 3 f_equal. lia.
Qed.
Lemma parse_string p : zlen p = 16 -> ParseIP (IPString p) = p.
Proof.
  intros HL. apply parse_complete. destruct (addr_kind p (or_intror HL)) as [(a & b & c & d & H4)|H6].
  - rewrite (IPString_v4 _ _ _ _ _ H4). left. exists (b2z a), (b2z b), (b2z c), (b2z d). split; [apply dotted_quad|]. destruct H4 as [-> | ->]; [discriminate|]. rewrite !z2b_b2z. reflexivity.
  - right. destruct (IPString_v6_text p H6) as (g & Hg & HG & Hr). exists g. split; [|exact Hg]. apply rfc_ip6; [eapply groups_of_range; exact Hg|exact HG|exact Hr].
Qed.
Lemma parse_string4 a b c d : ParseIP (IPString [a; b; c; d]) = mapped ++ [a; b; c; d].
Proof.
  apply parse_complete. rewrite (IPString_v4 [a; b; c; d] a b c d) by (now left). left. exists (b2z a), (b2z b), (b2z c), (b2z d). split; [apply dotted_quad|]. rewrite !z2b_b2z. reflexivity.
Qed.
(** ** Dialling *)
Lemma dial_text id t port : text_dialled t port (SplitHostPort (Addr (MakePeer id (ParseIP t) port))).
Proof.
  destruct (ParseIP t) as [|x y] eqn:E.
  - right. right. right. split; [now apply parse_none|]. apply dial_nil.
  - rewrite <- E. assert (HS : stands_for t (ParseIP t)) by (apply parse_sound; rewrite E; discriminate). clear E x y. pose proof (stands_len _ _ HS) as HL. destruct HS as [(a & b & c & d & Hq & Ep)|(gs & Hg & Hp)].
    + left. exists a, b, c, d. split; [exact Hq|]. rewrite Ep. rewrite (dial_v4form id _ port (z2b a) (z2b b) (z2b c) (z2b d)) by (now right). now rewrite <- (quad_dotted t a b c d Hq).
    + right. destruct (addr_kind _ (or_intror HL)) as [(a & b & c & d & H4)|H6].
      * left. exists gs, (b2z a), (b2z b), (b2z c), (b2z d), (dotted a b c d). split; [exact Hg|]. rewrite !z2b_b2z. split; [|split; [apply dotted_quad|now apply dial_v4form]].
        destruct H4 as [H4|H4]; [rewrite H4 in HL; discriminate|]. now rewrite <- H4.
      * right. left. exists gs, (ParseIP t). split; [exact Hg|]. split; [exact Hp|]. split; [exact H6|]. now apply dial_v6form.
Qed.
