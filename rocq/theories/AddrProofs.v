(** AddrProofs.v: the text of an address follows RFC 5952 and determines the address. *)
From Verif Require Import Base BencodeModel PeerModel PeerProofs AddrSpec.
From Coq Require Import ZifyBool ZifyNat ZifyN.

(** ** Bytes *)
Lemma To4_v4 p a b c d : To4 p = Some (a, b, c, d) <-> v4form p a b c d.
Proof.
  unfold v4form. split.
  - intros H. destruct p as [|x0 [|x1 [|x2 [|x3 [|x4 p]]]]]; try discriminate; [left; cbn in H; congruence|]. right. set (q := x0 :: x1 :: x2 :: x3 :: x4 :: p) in *.
    assert (Hq : (if (zlen q =? 16) && beqb (firstn 12 q) v4prefix then match skipn 12 q with [a; b; c; d] => Some (a, b, c, d) | _ => None end else None) = Some (a, b, c, d)) by exact H.
    clear H. destruct (zlen q =? 16) eqn:E16; [|discriminate]. destruct (beqb (firstn 12 q) v4prefix) eqn:Ep; [|discriminate]. apply beqb_eq in Ep.
    rewrite <- (firstn_skipn 12 q), Ep. cbn [andb] in Hq. destruct (skipn 12 q) as [|y0 [|y1 [|y2 [|y3 [|]]]]]; try discriminate. inversion Hq. reflexivity.
  - intros [-> | ->]; reflexivity.
Qed.
Lemma To4_v6 p : zlen p = 16 -> (To4 p = None <-> v6form p).
Proof.
  intros HL. assert (HL' : List.length p = 16%nat) by (unfold zlen in HL; lia). unfold v6form. split.
  - intros H. split; [exact HL|]. intros Hm. assert (Hs : exists a b c d, skipn 12 p = [a; b; c; d]).
    { assert (List.length (skipn 12 p) = 4%nat) by (rewrite skipn_length; lia). destruct (skipn 12 p) as [|y0 [|y1 [|y2 [|y3 [|]]]]]; try discriminate. eauto. }
    destruct Hs as (a & b & c & d & Hs). assert (v4form p a b c d) by (right; rewrite <- (firstn_skipn 12 p), Hm, Hs; reflexivity). apply To4_v4 in H0. congruence.
  - intros [_ H]. destruct (To4 p) as [[[[a b] c] d]|] eqn:E; [|reflexivity]. apply To4_v4 in E. destruct E as [-> | ->]; [discriminate|]. now elim H.
Qed.

(** ** Hexadecimal *)
Lemma digit_hex z : 0 <= z < 16 -> digit_val (hexdigit z) = Some z.
Proof.
  intros H. assert (Hs : forallb (fun n => match digit_val (hexdigit (Z.of_nat n)) with Some v => v =? Z.of_nat n | None => false end) (seq 0 16) = true) by (vm_compute; reflexivity).
  rewrite forallb_forall in Hs. specialize (Hs (Z.to_nat z) ltac:(apply in_seq; lia)). rewrite Z2Nat.id in Hs by lia. destruct (digit_val _); [|discriminate]. f_equal. lia.
Qed.
Lemma hexdigit_zero z : 0 <= z < 16 -> hexdigit z = "0"%byte -> z = 0.
Proof. intros H E. pose proof (digit_hex z H) as D. rewrite E in D. cbn in D. congruence. Qed.
Lemma hex16_text z : 0 <= z < 65536 -> hextext z (hex16 z).
Proof.
  intros H. unfold hex16. pose proof (Z.mod_pos_bound (z / 256) 16 ltac:(lia)). pose proof (Z.mod_pos_bound (z / 16) 16 ltac:(lia)). pose proof (Z.mod_pos_bound z 16 ltac:(lia)).
  assert (0 <= z / 4096 < 16) by (split; [apply Z.div_pos; lia|apply Z.div_lt_upper_bound; lia]).
  destruct (4096 <=? z) eqn:E1; [replace (256 <=? z) with true by lia; replace (16 <=? z) with true by lia|].
  { cbn [app]. split; [discriminate|]. split.
    - cbn [hex_val]. rewrite !digit_hex by assumption. cbn [hex_val]. f_equal. Z.div_mod_to_equations. lia.
    - intros r E. pose proof (f_equal (hd x00) E) as E0. cbn [hd] in E0. apply hexdigit_zero in E0; [|assumption]. exfalso. Z.div_mod_to_equations. lia. }
  destruct (256 <=? z) eqn:E2; [replace (16 <=? z) with true by lia|].
  { cbn [app]. split; [discriminate|]. split.
    - cbn [hex_val]. rewrite !digit_hex by assumption. cbn [hex_val]. f_equal. Z.div_mod_to_equations. lia.
    - intros r E. pose proof (f_equal (hd x00) E) as E0. cbn [hd] in E0. apply hexdigit_zero in E0; [|assumption]. exfalso. Z.div_mod_to_equations. lia. }
  destruct (16 <=? z) eqn:E3.
  { cbn [app]. split; [discriminate|]. split.
    - cbn [hex_val]. rewrite !digit_hex by assumption. cbn [hex_val]. f_equal. Z.div_mod_to_equations. lia.
    - intros r E. pose proof (f_equal (hd x00) E) as E0. cbn [hd] in E0. apply hexdigit_zero in E0; [|assumption]. exfalso. Z.div_mod_to_equations. lia. }
  cbn [app]. split; [discriminate|]. split.
  - cbn [hex_val]. rewrite !digit_hex by assumption. cbn [hex_val]. f_equal. Z.div_mod_to_equations. lia.
  - intros r E. inversion E. reflexivity.
Qed.

(** ** Zero runs *)
Lemma zrun_len g : (zrun g <= List.length g)%nat.
Proof. induction g as [|z g IH]; cbn [zrun List.length]; [lia|]. destruct z; cbn [List.length]; lia. Qed.
Lemma zrun_zero g k : (k < zrun g)%nat -> nth k g 1 = 0.
Proof. revert k. induction g as [|z g IH]; intros k H; cbn [zrun] in H; [lia|]. destruct z; [|lia|lia]. destruct k; [reflexivity|]. cbn [nth]. apply IH. lia. Qed.
Lemma zrun_max g n : (n <= List.length g)%nat -> (forall k, (k < n)%nat -> nth k g 1 = 0) -> (n <= zrun g)%nat.
Proof.
  revert g. induction n as [|n IH]; intros g Hn H; [lia|]. destruct g as [|z g]; cbn [List.length] in Hn; [lia|]. pose proof (H 0%nat ltac:(lia)) as H0. cbn [nth] in H0. subst z. cbn [zrun].
  assert (n <= zrun g)%nat; [|lia]. apply IH; [lia|]. intros k Hk. exact (H (S k) ltac:(lia)).
Qed.
Lemma nth_skipn {A} (d : A) i : forall k l, nth k (skipn i l) d = nth (i + k) l d.
Proof. induction i as [|i IH]; intros k l; [reflexivity|]. destruct l as [|x l]; [now destruct k|]. cbn [skipn Nat.add nth]. apply IH. Qed.
Lemma zero_run_iff g i n : (i <= List.length g)%nat -> (zero_run g i n <-> (n <= zrun (skipn i g))%nat).
Proof.
  intros Hi. unfold zero_run. split.
  - intros [H1 H2]. apply zrun_max; [rewrite skipn_length; lia|]. intros k Hk. rewrite nth_skipn. auto.
  - intros H. pose proof (zrun_len (skipn i g)) as HL. rewrite skipn_length in HL. split; [lia|]. intros k Hk. rewrite <- nth_skipn. apply zrun_zero. lia.
Qed.
Lemma skipn_skipn_ {A} a b (l : list A) : skipn a (skipn b l) = skipn (a + b) l.
Proof. revert l. induction b as [|b IH]; intros l; [now rewrite Nat.add_0_r|]. rewrite Nat.add_succ_r. destruct l as [|x l]; [now rewrite !skipn_nil|]. cbn [skipn]. apply IH. Qed.
Lemma skipn_cons_drop {A} (l : list A) i x r : skipn i l = x :: r -> skipn (S i) l = r.
Proof. intros H. replace (S i) with (1 + i)%nat by lia. rewrite <- skipn_skipn_. now rewrite H. Qed.
Lemma best_run_spec g0 : forall g pos b, skipn pos g0 = g -> (pos <= List.length g0)%nat ->
  (snd b = 0%nat \/ (fst b < pos)%nat /\ zrun (skipn (fst b) g0) = snd b) ->
  (forall j, (j < pos)%nat -> (zrun (skipn j g0) < snd b)%nat \/ zrun (skipn j g0) = snd b /\ (snd b = 0 \/ fst b <= j)%nat) ->
  let r := best_run g pos b in
  (snd r = 0%nat \/ (fst r < List.length g0)%nat /\ zrun (skipn (fst r) g0) = snd r) /\
  (forall j, (j < List.length g0)%nat -> (zrun (skipn j g0) < snd r)%nat \/ zrun (skipn j g0) = snd r /\ (snd r = 0 \/ fst r <= j)%nat).
Proof.
  induction g as [|x g IH]; intros pos b Hg Hpos H1 H2; cbn [best_run].
  - assert (pos = List.length g0) by (assert (List.length (skipn pos g0) = 0%nat) by (now rewrite Hg); rewrite skipn_length in H; lia). subst pos. cbv zeta. split; [exact H1|exact H2].
  - assert (Hlt : (pos < List.length g0)%nat) by (assert (List.length (skipn pos g0) = S (List.length g)) by (now rewrite Hg); rewrite skipn_length in H; lia).
    apply IH; [now apply skipn_cons_drop in Hg|lia| |].
    + rewrite <- Hg. destruct (snd b <? zrun (skipn pos g0))%nat eqn:E; cbn [fst snd]; [right; split; [lia|reflexivity]|]. destruct H1 as [H1|[H1 H1']]; [left; exact H1|right; split; [lia|exact H1']].
    + intros j Hj. rewrite <- Hg. destruct (snd b <? zrun (skipn pos g0))%nat eqn:E; cbn [fst snd].
      * destruct (Nat.eq_dec j pos) as [-> |Hne]; [right; split; [reflexivity|right; lia]|]. left. destruct (H2 j ltac:(lia)) as [H|[H _]]; lia.
      * destruct (Nat.eq_dec j pos) as [-> |Hne]; [|apply H2; lia]. destruct (Nat.eq_dec (zrun (skipn pos g0)) (snd b)); [|left; lia]. right. split; [assumption|]. destruct H1 as [H1|[H1 _]]; [left; exact H1|right; lia].
Qed.

(** ** Printing *)
Definition tj (g : list Z) : bytes := flat_map (fun x => ":"%byte :: hex16 x) g.
Lemma colons_tj x g : colons (map hex16 (x :: g)) = hex16 x ++ tj g.
Proof.
  revert x. induction g as [|y g IH]; intros x; [cbn; now rewrite app_nil_r|]. change (map hex16 (x :: y :: g)) with (hex16 x :: map hex16 (y :: g)).
  change (colons (hex16 x :: map hex16 (y :: g))) with (hex16 x ++ ":"%byte :: colons (map hex16 (y :: g))). rewrite IH. unfold tj. cbn [flat_map]. reflexivity.
Qed.
Lemma print6_after g : forall pos e0 e1, (0 < pos)%nat -> (e1 < pos \/ e1 <= e0)%nat -> (e1 <= pos)%nat -> print6 g pos e0 e1 = tj g.
Proof.
  induction g as [|x g IH]; intros pos e0 e1 Hp Hc He; [reflexivity|]. cbn [print6 tj flat_map].
  replace ((e0 <=? pos)%nat && (pos <? e1)%nat)%bool with false by lia. replace ((pos =? 0)%nat || ((pos =? e1)%nat && (e0 <? e1)%nat))%bool with false by lia.
  rewrite IH by lia. cbn [app B]. reflexivity.
Qed.
Lemma print6_at g e0 e1 : (e0 < e1)%nat -> print6 g e1 e0 e1 = colons (map hex16 g).
Proof.
  intros He. destruct g as [|x g]; [reflexivity|]. rewrite colons_tj. cbn [print6]. replace ((e0 <=? e1)%nat && (e1 <? e1)%nat)%bool with false by lia.
  replace ((e1 =? 0)%nat || ((e1 =? e1)%nat && (e0 <? e1)%nat))%bool with true by lia. rewrite print6_after by lia. reflexivity.
Qed.
Lemma print6_skip e0 e1 : forall n g pos, (e0 < pos)%nat -> (pos + n = e1)%nat -> (n <= List.length g)%nat -> print6 g pos e0 e1 = colons (map hex16 (skipn n g)).
Proof.
  induction n as [|n IH]; intros g pos Hp Hn HL; [rewrite Nat.add_0_r in Hn; subst pos; now apply print6_at|].
  destruct g as [|x g]; cbn [List.length] in HL; [lia|]. cbn [print6 skipn]. replace ((e0 <=? pos)%nat && (pos <? e1)%nat)%bool with true by lia. replace (pos =? e0)%nat with false by lia.
  cbn [app]. apply IH; lia.
Qed.
Lemma print6_gap e0 e1 g : (e0 < e1)%nat -> (e1 - e0 <= List.length g)%nat -> print6 g e0 e0 e1 = B "::" ++ colons (map hex16 (skipn (e1 - e0) g)).
Proof.
  intros He HL. destruct (e1 - e0)%nat as [|n] eqn:En; [lia|]. destruct g as [|x g]; cbn [List.length] in HL; [lia|]. cbn [print6 skipn].
  replace ((e0 <=? e0)%nat && (e0 <? e1)%nat)%bool with true by lia. rewrite Nat.eqb_refl. rewrite (print6_skip e0 e1 n) by lia. reflexivity.
Qed.
Lemma print6_before e0 e1 : (e0 < e1)%nat -> forall n g pos, (0 < pos)%nat -> (pos + n = e0)%nat -> (n + (e1 - e0) <= List.length g)%nat ->
  print6 g pos e0 e1 = tj (firstn n g) ++ B "::" ++ colons (map hex16 (skipn (n + (e1 - e0)) g)).
Proof.
  intros He. induction n as [|n IH]; intros g pos Hp Hn HL; [rewrite Nat.add_0_r in Hn; subst pos; cbn [firstn tj flat_map app Nat.add]; now apply print6_gap|].
  destruct g as [|x g]; cbn [List.length] in HL; [lia|]. cbn [print6 firstn Nat.add skipn tj flat_map]. replace ((e0 <=? pos)%nat && (pos <? e1)%nat)%bool with false by lia.
  replace ((pos =? 0)%nat || ((pos =? e1)%nat && (e0 <? e1)%nat))%bool with false by lia. rewrite (IH g (S pos)) by lia. unfold tj. rewrite <- app_assoc. cbn [app B]. reflexivity.
Qed.
Lemma print6_run g e0 e1 : (e0 < e1)%nat -> (e1 <= List.length g)%nat ->
  print6 g 0 e0 e1 = colons (firstn e0 (map hex16 g)) ++ B "::" ++ colons (skipn e1 (map hex16 g)).
Proof.
  intros He HL. rewrite firstn_map, skipn_map. destruct e0 as [|e0]; [cbn [firstn map colons app]; rewrite print6_gap by lia; now rewrite Nat.sub_0_r|].
  destruct g as [|x g]; cbn [List.length] in HL; [lia|]. destruct e1 as [|e1]; [lia|]. cbn [print6]. replace ((S e0 <=? 0)%nat && (0 <? S e1)%nat)%bool with false by lia.
  rewrite Nat.eqb_refl. cbn [orb app]. rewrite (print6_before (S e0) (S e1) ltac:(lia) e0 g 1) by lia. cbn [firstn]. rewrite colons_tj. rewrite <- app_assoc. f_equal. f_equal. f_equal.
  cbn [skipn]. do 3 f_equal. lia.
Qed.
Lemma print6_plain g : print6 g 0 0 0 = colons (map hex16 g).
Proof. destruct g as [|x g]; [reflexivity|]. rewrite colons_tj. cbn [print6]. rewrite Nat.ltb_irrefl, andb_false_r. rewrite Nat.eqb_refl. cbn [orb app]. rewrite print6_after by lia. reflexivity. Qed.
Lemma groups16_of n : forall p, List.length p = (2 * n)%nat -> groups_of p (groups16 p) /\ List.length (groups16 p) = n.
Proof.
  induction n as [|n IH]; intros p HL; [destruct p; [|discriminate]; split; [split; [reflexivity|cbn; lia]|reflexivity]|].
  destruct p as [|a [|b p]]; cbn [List.length] in HL; try lia. destruct (IH p ltac:(lia)) as [[H1 H2] H3]. cbn [groups16]. split; [|cbn [List.length]; lia].
  split; [cbn [List.length]; lia|]. intros i Hi. cbn [List.length] in Hi. destruct i as [|i]; [cbn [nth Nat.mul Nat.add]; lia|].
  replace (2 * S i)%nat with (S (S (2 * i))) by lia. replace (S (S (2 * i)) + 1)%nat with (S (S (2 * i + 1))) by lia. cbn [nth]. apply H2. lia.
Qed.
Lemma String6_rfc p n : List.length p = (2 * n)%nat -> (0 < n)%nat -> exists g, groups_of p g /\ List.length g = n /\ rfc5952 g (String6 p).
Proof.
  intros HL Hn. destruct (groups16_of n p HL) as [Hg HG]. exists (groups16 p). split; [exact Hg|]. split; [exact HG|].
  pose proof (groups16_range _ p (le_n _)) as HR. set (g := groups16 p) in *. exists (map hex16 g). split.
  { clear - HR. induction HR as [|x g Hx _ IH]; cbn [map]; constructor; [now apply hex16_text|exact IH]. }
  unfold String6. fold g. pose proof (best_run_spec g g 0 (0, 0)%nat eq_refl ltac:(lia) (or_introl eq_refl)) as HB.
  specialize (HB ltac:(intros j Hj; lia)). cbv zeta in HB. destruct (best_run g 0 (0, 0)%nat) as [e0 len]. cbn [fst snd] in HB. destruct HB as [HB1 HB2].
  assert (Hall : forall j m, zero_run g j m -> (m < len)%nat \/ m = len /\ (len = 0 \/ e0 <= j)%nat).
  { intros j m Hz. pose proof Hz as [Hjm _]. destruct (Nat.eq_dec j (List.length g)) as [-> |Hj]; [assert (m = 0%nat) by lia; destruct len; [right; auto|left; lia]|].
    apply zero_run_iff in Hz; [|lia]. destruct (HB2 j ltac:(lia)) as [H|[H H']]; [left; lia|]. destruct (Nat.eq_dec m len); [right; auto|left; lia]. }
  destruct (2 <=? len)%nat eqn:E2.
  - right. exists e0, len. destruct HB1 as [HB1|[HB1 HB1']]; [lia|]. assert (Hz : zero_run g e0 len) by (apply zero_run_iff; lia). split; [lia|]. split; [exact Hz|]. split.
    + intros j m H. destruct (Hall j m H) as [H1|[H1 [H2|H2]]]; lia.
    + apply print6_run; [lia|]. destruct Hz as [Hz _]. exact Hz.
  - left. split; [|apply print6_plain]. intros j m H. destruct (Hall j m H) as [H1|[H1 _]]; lia.
Qed.

(** ** The text determines the groups *)
Fixpoint fields (t : bytes) : list bytes :=
  match t with [] => [[]] | b :: r => if Byte.eqb b ":" then [] :: fields r else match fields r with f :: q => (b :: f) :: q | [] => [[b]] end end.
Definition nocolon (t : bytes) : Prop := ~ In ":"%byte t.
Lemma fields_nocolon t : nocolon t -> fields t = [t].
Proof.
  induction t as [|b t IH]; intros H; [reflexivity|]. cbn [fields]. replace (Byte.eqb b ":") with false by (symmetry; apply Byte_eqb_neq; intros ->; apply H; now left).
  rewrite IH by (intros Hi; apply H; now right). reflexivity.
Qed.
Lemma fields_app t u : nocolon t -> fields (t ++ ":"%byte :: u) = t :: fields u.
Proof.
  induction t as [|b t IH]; intros H; [reflexivity|]. cbn [app fields]. replace (Byte.eqb b ":") with false by (symmetry; apply Byte_eqb_neq; intros ->; apply H; now left).
  rewrite IH by (intros Hi; apply H; now right). reflexivity.
Qed.
Definition ftexts (ts : list bytes) : list bytes := match ts with [] => [[]] | _ => ts end.
Lemma fields_colons ts : Forall nocolon ts -> fields (colons ts) = ftexts ts.
Proof.
  induction 1 as [|t ts Ht Hts IH]; [reflexivity|]. destruct ts as [|u ts]; [cbn [colons ftexts]; now apply fields_nocolon|].
  change (colons (t :: u :: ts)) with (t ++ ":"%byte :: colons (u :: ts)). rewrite fields_app by assumption. rewrite IH. reflexivity.
Qed.
Lemma fields_colons_app ts u : Forall nocolon ts -> fields (colons ts ++ ":"%byte :: u) = ftexts ts ++ fields u.
Proof.
  induction 1 as [|t ts Ht Hts IH]; [reflexivity|]. destruct ts as [|v ts]; [cbn [colons ftexts app]; now apply fields_app|].
  change (colons (t :: v :: ts)) with (t ++ ":"%byte :: colons (v :: ts)). rewrite <- app_assoc. cbn [app]. rewrite fields_app by assumption. rewrite IH. reflexivity.
Qed.
Lemma fields_gap ts us : Forall nocolon ts -> Forall nocolon us -> fields (colons ts ++ B "::" ++ colons us) = ftexts ts ++ [] :: ftexts us.
Proof. intros H1 H2. change (B "::" ++ colons us) with (":"%byte :: ":"%byte :: colons us). rewrite fields_colons_app by assumption. cbn [fields]. now rewrite fields_colons. Qed.
(** the non-empty fields before the first empty one; the non-empty fields after it *)
Fixpoint lead (f : list bytes) : list bytes := match f with [] :: _ => [] | t :: r => t :: lead r | [] => [] end.
Fixpoint rest_of (f : list bytes) : list bytes := match f with [] :: r => filter (fun t => match t with [] => false | _ => true end) r | _ :: r => rest_of r | [] => [] end.
Definition full (t : bytes) : Prop := t <> [].
Lemma lead_app ts r : Forall full ts -> lead (ts ++ [] :: r) = ts.
Proof. induction 1 as [|t ts Ht _ IH]; [reflexivity|]. destruct t; [now elim Ht|]. cbn [app lead]. now rewrite IH. Qed.
Lemma rest_app ts r : Forall full ts -> rest_of (ts ++ [] :: r) = filter (fun t => match t with [] => false | _ => true end) r.
Proof. induction 1 as [|t ts Ht _ IH]; [reflexivity|]. destruct t; [now elim Ht|]. cbn [app rest_of]. exact IH. Qed.
Lemma filter_full ts : Forall full ts -> filter (fun t : bytes => match t with [] => false | _ => true end) ts = ts.
Proof. induction 1 as [|t ts Ht _ IH]; [reflexivity|]. destruct t; [now elim Ht|]. cbn [filter]. now rewrite IH. Qed.
Lemma filter_ftexts ts : Forall full ts -> filter (fun t : bytes => match t with [] => false | _ => true end) (ftexts ts) = ts.
Proof. intros H. destruct ts; [reflexivity|]. now apply filter_full. Qed.
Lemma gap_parts ts us : Forall full ts -> Forall full us -> lead (ftexts ts ++ [] :: ftexts us) = ts /\ rest_of (ftexts ts ++ [] :: ftexts us) = us.
Proof.
  intros H1 H2. destruct ts as [|t ts].
  - split; [reflexivity|]. cbn [ftexts app rest_of filter]. now apply filter_ftexts.
  - change (ftexts (t :: ts)) with (t :: ts). rewrite lead_app, rest_app by assumption. split; [reflexivity|]. now apply filter_ftexts.
Qed.
Lemma hextext_ok z t : hextext z t -> full t /\ nocolon t.
Proof.
  intros (H1 & H2 & _). split; [exact H1|]. intros Hi. clear H1. revert H2. generalize 0 as acc. induction t as [|b t IH]; intros acc H; [contradiction|]. cbn [hex_val] in H.
  destruct Hi as [-> |Hi]; [discriminate|]. destruct (digit_val b); [|discriminate]. exact (IH Hi _ H).
Qed.
Lemma hextexts_ok g ts : Forall2 hextext g ts -> Forall full ts /\ Forall nocolon ts.
Proof. induction 1 as [|z t g ts H _ [IH1 IH2]]; [split; constructor|]. apply hextext_ok in H. split; constructor; tauto. Qed.
Lemma hextexts_inj g g' ts : Forall2 hextext g ts -> Forall2 hextext g' ts -> g = g'.
Proof.
  intros H. revert g'. induction H as [|z t g ts Ht _ IH]; intros g' H'; inversion H' as [|z' ? g2 ? Ht' Hts']; subst; [reflexivity|]. f_equal; [|now apply IH].
  destruct Ht as (_ & E & _), Ht' as (_ & E' & _). congruence.
Qed.
Lemma Forall_firstn_ {A} (P : A -> Prop) n l : Forall P l -> Forall P (firstn n l).
Proof. intros H. revert n. induction H; intros [|n]; cbn [firstn]; constructor; auto. Qed.
Lemma Forall_skipn_ {A} (P : A -> Prop) n l : Forall P l -> Forall P (skipn n l).
Proof. intros H. revert n. induction H; intros [|n]; cbn [skipn]; try constructor; auto. Qed.
Lemma Forall2_firstn_ {A C} (R : A -> C -> Prop) n l m : Forall2 R l m -> Forall2 R (firstn n l) (firstn n m).
Proof. intros H. revert n. induction H; intros [|n]; cbn [firstn]; constructor; auto. Qed.
Lemma Forall2_skipn_ {A C} (R : A -> C -> Prop) n l m : Forall2 R l m -> Forall2 R (skipn n l) (skipn n m).
Proof. intros H. revert n. induction H; intros [|n]; cbn [skipn]; try constructor; auto. Qed.
Lemma zero_run_split g i n : zero_run g i n -> g = firstn i g ++ repeat 0 n ++ skipn (i + n) g.
Proof.
  intros [HL H]. rewrite <- (firstn_skipn i g) at 1. f_equal. rewrite <- (firstn_skipn n (skipn i g)) at 1. rewrite skipn_skipn_. replace (n + i)%nat with (i + n)%nat by lia. f_equal.
  apply nth_ext with (d := 1) (d' := 1); [rewrite firstn_length, skipn_length, repeat_length; lia|]. intros k Hk. rewrite firstn_length, skipn_length in Hk.
  assert (Hr : nth k (repeat 0 n) 1 = 0) by (clear - Hk; assert (Hk2 : (k < n)%nat) by lia; clear Hk; revert k Hk2; induction n as [|n IH]; intros [|k] Hk2; cbn; try lia; apply IH; lia). rewrite Hr. assert (E : nth k (firstn n (skipn i g)) 1 = nth k (skipn i g) 1).
  { rewrite <- (firstn_skipn n (skipn i g)) at 2. rewrite app_nth1; [reflexivity|rewrite firstn_length, skipn_length; lia]. }
  rewrite E, nth_skipn. apply H. lia.
Qed.
Lemma rfc_inj g g' t : List.length g = List.length g' -> rfc5952 g t -> rfc5952 g' t -> g = g'.
Proof.
  intros HL (ts & HF & H) (ts' & HF' & H'). destruct (hextexts_ok g ts HF) as [Hf Hn]. destruct (hextexts_ok g' ts' HF') as [Hf' Hn'].
  destruct H as [[_ Et]|(i & n & H2 & Hz & _ & Et)], H' as [[_ Et']|(i' & n' & H2' & Hz' & _ & Et')]; rewrite Et in Et'.
  - apply (f_equal fields) in Et'. rewrite !fields_colons in Et' by assumption. destruct ts as [|x ts], ts' as [|x' ts'].
    + inversion HF; inversion HF'; subst; reflexivity.
    + inversion HF; subst. inversion HF'; subst. discriminate.
    + inversion HF'; subst. inversion HF; subst. discriminate.
    + cbn [ftexts] in Et'. rewrite <- Et' in HF'. eapply hextexts_inj; eassumption.
  - exfalso. apply (f_equal fields) in Et'. rewrite fields_colons in Et' by assumption. rewrite fields_gap in Et' by (try apply Forall_firstn_; try apply Forall_skipn_; assumption).
    destruct ts as [|x ts]; [destruct g; [|inversion HF]; destruct Hz' as [Hz' _]; cbn [List.length] in HL; lia|]. cbn [ftexts] in Et'. rewrite Et' in Hf.
    apply Forall_app in Hf. destruct Hf as [_ Hf]. inversion Hf as [|? ? Hx]; subst. now apply Hx.
  - exfalso. apply (f_equal fields) in Et'. rewrite (fields_colons ts') in Et' by assumption. rewrite fields_gap in Et' by (try apply Forall_firstn_; try apply Forall_skipn_; assumption).
    destruct ts' as [|x ts']; [destruct g'; [|inversion HF']; destruct Hz as [Hz _]; cbn [List.length] in HL; lia|]. cbn [ftexts] in Et'. rewrite <- Et' in Hf'.
    apply Forall_app in Hf'. destruct Hf' as [_ Hf']. inversion Hf' as [|? ? Hx]; subst. now apply Hx.
  - apply (f_equal fields) in Et'. rewrite !fields_gap in Et' by (try apply Forall_firstn_; try apply Forall_skipn_; assumption).
    destruct (gap_parts (firstn i ts) (skipn (i + n) ts) ltac:(now apply Forall_firstn_) ltac:(now apply Forall_skipn_)) as [L1 R1].
    destruct (gap_parts (firstn i' ts') (skipn (i' + n') ts') ltac:(now apply Forall_firstn_) ltac:(now apply Forall_skipn_)) as [L2 R2].
    rewrite Et' in L1, R1. rewrite L2 in L1. rewrite R2 in R1.
    assert (E1 : firstn i g = firstn i' g') by (eapply hextexts_inj; [apply Forall2_firstn_; eassumption|rewrite <- L1; apply Forall2_firstn_; eassumption]).
    assert (E2 : skipn (i + n) g = skipn (i' + n') g') by (eapply hextexts_inj; [apply Forall2_skipn_; eassumption|rewrite <- R1; apply Forall2_skipn_; eassumption]).
    assert (Hi : i = i') by (apply (f_equal (@List.length Z)) in E1; rewrite !firstn_length in E1; destruct Hz, Hz'; lia). subst i'.
    assert (Hnn : n = n') by (apply (f_equal (@List.length Z)) in E2; rewrite !skipn_length in E2; destruct Hz, Hz'; lia). subst n'.
    rewrite (zero_run_split g i n Hz), (zero_run_split g' i n Hz'). now rewrite E1, E2.
Qed.
Lemma groups_of_inj p q g : groups_of p g -> groups_of q g -> p = q.
Proof.
  intros [HL H] [HL' H']. apply nth_ext with (d := x00) (d' := x00); [lia|]. intros k Hk.
  pose proof (Nat.div_mod k 2 ltac:(lia)) as Hkd. pose proof (Nat.mod_upper_bound k 2 ltac:(lia)) as Hkm. set (i := (k / 2)%nat) in *. assert (Hi : (i < List.length g)%nat) by lia.
  pose proof (H i Hi) as E. rewrite (H' i Hi) in E.
  pose proof (b2z_range (nth (2 * i) p x00)). pose proof (b2z_range (nth (2 * i + 1) p x00)). pose proof (b2z_range (nth (2 * i) q x00)). pose proof (b2z_range (nth (2 * i + 1) q x00)).
  assert (Ea : b2z (nth (2 * i) p x00) = b2z (nth (2 * i) q x00)) by lia. assert (Eb : b2z (nth (2 * i + 1) p x00) = b2z (nth (2 * i + 1) q x00)) by lia.
  apply b2z_inj in Ea, Eb. destruct (k mod 2)%nat as [|[|]] eqn:Em; [|replace k with (2 * i + 1)%nat by lia; exact Eb|lia]. replace k with (2 * i)%nat by lia. exact Ea.
Qed.

(** ** Addresses *)
Lemma IPString_v4 p a b c d : v4form p a b c d -> IPString p = dotted a b c d.
Proof. intros H. apply To4_string. now apply To4_v4. Qed.
Lemma IPString_v6 p : v6form p -> IPString p = String6 p.
Proof.
  intros H. pose proof H as [HL _]. apply To4_v6 in H; [|exact HL]. unfold IPString. destruct p as [|b p]; [discriminate|]. rewrite H, HL. reflexivity.
Qed.
Lemma IPString_v6_text p : v6form p -> exists g, groups_of p g /\ List.length g = 8%nat /\ rfc5952 g (IPString p).
Proof. intros H. rewrite IPString_v6 by assumption. destruct H as [HL _]. apply String6_rfc; unfold zlen in HL; lia. Qed.
Lemma v6_colon p : v6form p -> In ":"%byte (IPString p).
Proof.
  intros H. rewrite IPString_v6 by assumption. destruct H as [HL _]. destruct p as [|b0 [|b1 [|b2 [|b3 p]]]]; try (exfalso; unfold zlen in HL; cbn in HL; lia).
  unfold String6. cbn [groups16]. destruct (best_run _ _ _) as [e0 len]. destruct (2 <=? len)%nat; apply print6_colon.
Qed.
Lemma v4_no_colon a b c d : ~ In ":"%byte (dotted a b c d).
Proof. intros Hi. apply dotted_chars in Hi. destruct Hi as [Hi|Hi]; [cbn in Hi; lia|discriminate]. Qed.
Lemma addr_kind p : zlen p = 4 \/ zlen p = 16 -> (exists a b c d, v4form p a b c d) \/ v6form p.
Proof.
  intros [H|H].
  - left. destruct p as [|a [|b [|c [|d [|]]]]]; try (exfalso; unfold zlen in H; cbn in H; lia). exists a, b, c, d. now left.
  - destruct (To4 p) as [[[[a b] c] d]|] eqn:E; [left; exists a, b, c, d; now apply To4_v4|right; now apply To4_v6].
Qed.
Lemma IPString_inj p q : zlen p = 4 \/ zlen p = 16 -> zlen q = 4 \/ zlen q = 16 -> (IPString p = IPString q <-> same_addr p q).
Proof.
  intros Hp Hq. split.
  - intros E. destruct (addr_kind p Hp) as [(a & b & c & d & P4)|P6], (addr_kind q Hq) as [(a' & b' & c' & d' & Q4)|Q6].
    + rewrite (IPString_v4 _ _ _ _ _ P4), (IPString_v4 _ _ _ _ _ Q4) in E. apply dotted_inj in E. destruct E as (-> & -> & -> & ->). right. exists a', b', c', d'. auto.
    + exfalso. rewrite (IPString_v4 _ _ _ _ _ P4) in E. apply (v4_no_colon a b c d). rewrite E. now apply v6_colon.
    + exfalso. rewrite (IPString_v4 _ _ _ _ _ Q4) in E. apply (v4_no_colon a' b' c' d'). rewrite <- E. now apply v6_colon.
    + left. destruct (IPString_v6_text p P6) as (g & G & GL & GR), (IPString_v6_text q Q6) as (g' & G' & GL' & GR'). rewrite E in GR.
      assert (g = g') by (eapply rfc_inj; [congruence|exact GR|exact GR']). subst g'. eapply groups_of_inj; eassumption.
  - intros [-> |(a & b & c & d & P4 & Q4)]; [reflexivity|]. now rewrite (IPString_v4 _ _ _ _ _ P4), (IPString_v4 _ _ _ _ _ Q4).
Qed.
Lemma Key_same id p port id' p' port' : zlen p = 4 \/ zlen p = 16 -> zlen p' = 4 \/ zlen p' = 16 ->
  (Key (MakePeer id p port) = Key (MakePeer id' p' port') <-> id = id' /\ same_addr p p' /\ port = port').
Proof. intros H H'. rewrite Key_inj. now rewrite IPString_inj. Qed.
Lemma dial_v4form id p port a b c d : v4form p a b c d -> SplitHostPort (Addr (MakePeer id p port)) = Ok (dotted a b c d, itoa port).
Proof. intros H. apply dial_v4. now apply To4_v4. Qed.
Lemma dial_v6form id p port : v6form p -> SplitHostPort (Addr (MakePeer id p port)) = Err EInvalid.
Proof. intros H. pose proof H as [HL _]. apply dial_v6; [exact HL|]. now apply To4_v6. Qed.
Lemma dial_nil id port : SplitHostPort (Addr (MakePeer id [] port)) = Ok (B "<nil>", itoa port).
Proof.
  destruct (Addr_head id [] port) as (x & r & E & Hx). unfold SplitHostPort.
  assert (HS : split_last_colon (Addr (MakePeer id [] port)) = Some (IPString [], itoa port)) by exact (split_addr [] port). rewrite HS. rewrite E at 1. cbv iota. rewrite Hx.
  change (has ":" (IPString [])) with false. cbv iota.
  replace (has "[" _ || has "]" _)%bool with false; [reflexivity|]. symmetry. apply orb_false_iff. rewrite !has_not.
  split; rewrite Addr_id, !in_app_iff; intros [Hi|[Hi|Hi]].
  - exact (IPString_no [] "["%byte eq_refl Hi).
  - destruct Hi as [Hi|[]]; discriminate.
  - apply itoa_no in Hi; [exact Hi|cbn; lia|discriminate].
  - exact (IPString_no [] "]"%byte eq_refl Hi).
  - destruct Hi as [Hi|[]]; discriminate.
  - apply itoa_no in Hi; [exact Hi|cbn; lia|discriminate].
Qed.

(** ** SplitHostPort *)
Lemma split_last_some s : forall h p, split_last_colon s = Some (h, p) -> s = h ++ ":"%byte :: p /\ ~ In ":"%byte p.
Proof.
  induction s as [|b s IH]; intros h p H; [discriminate|]. cbn [split_last_colon] in H. destruct (split_last_colon s) as [[x y]|] eqn:E.
  - injection H as <- <-. destruct (IH x y eq_refl) as [-> Hn]. split; [reflexivity|exact Hn].
  - destruct (Byte.eqb b ":") eqn:Eb; [|discriminate]. injection H as <- <-. apply Byte_eqb_eq in Eb. subst b. split; [reflexivity|].
    intros Hi. apply in_split in Hi. destruct Hi as (l1 & l2 & ->). clear - E.
    assert (G : forall l1, split_last_colon (l1 ++ ":"%byte :: l2) <> None).
    { clear. induction l1 as [|a l1 IH]; cbn [app split_last_colon].
      - destruct (split_last_colon l2) as [[? ?]|]; [discriminate|]. cbn. discriminate.
      - destruct (split_last_colon (l1 ++ ":"%byte :: l2)) as [[? ?]|]; [discriminate|contradiction]. }
    exact (G l1 E).
Qed.
Lemma upto_some c s : forall x y, upto c s = Some (x, y) -> s = x ++ c :: y /\ ~ In c x.
Proof.
  induction s as [|b s IH]; intros x y H; [discriminate|]. cbn [upto] in H. destruct (Byte.eqb b c) eqn:E.
  - injection H as <- <-. apply Byte_eqb_eq in E. subst b. split; [reflexivity|intros []].
  - destruct (upto c s) as [[x' y']|]; [|discriminate]. injection H as <- <-. destruct (IH _ _ eq_refl) as [-> Hn]. split; [reflexivity|].
    intros [Hi|Hi]; [|exact (Hn Hi)]. subst b. apply Byte_eqb_neq in E. now apply E.
Qed.
Lemma upto_first c x y : ~ In c x -> upto c (x ++ c :: y) = Some (x, y).
Proof.
  induction x as [|b x IH]; intros H; cbn [app upto].
  - replace (Byte.eqb c c) with true by (symmetry; now apply Byte_eqb_eq). reflexivity.
  - replace (Byte.eqb b c) with false by (symmetry; apply Byte_eqb_neq; intros ->; apply H; now left).
    rewrite IH by (intros Hi; apply H; now right). reflexivity.
Qed.
Lemma split_host_port s : (forall h p, SplitHostPort s = Ok (h, p) <-> host_port s h p) /\
  ((forall h p, ~ host_port s h p) -> SplitHostPort s = Err EInvalid).
Proof.
  assert (HA : forall h p, host_port s h p -> SplitHostPort s = Ok (h, p)).
  { intros h p ((Hc & Ho & Hl) & [(-> & Hhc & Hho & Hhl)|(-> & Hho & Hhl)]); unfold SplitHostPort.
    - change (B ":" ++ p) with (":"%byte :: p). rewrite split_last by exact Hc.
      assert (HO : has "[" (h ++ ":"%byte :: p) = false).
      { apply has_not. rewrite in_app_iff. intros [X|[X|X]]; [exact (Hho X)|discriminate|exact (Ho X)]. }
      assert (HL : has "]" (h ++ ":"%byte :: p) = false).
      { apply has_not. rewrite in_app_iff. intros [X|[X|X]]; [exact (Hhl X)|discriminate|exact (Hl X)]. }
      destruct (h ++ ":"%byte :: p) as [|b r] eqn:E; [destruct h; discriminate|].
      replace (Byte.eqb b "[") with false; [|symmetry; apply Byte_eqb_neq; intros ->; apply has_not in HO; apply HO; now left].
      apply has_not in Hhc. rewrite Hhc, HO, HL. reflexivity.
    - change (B "[" ++ h ++ B "]:" ++ p) with ("["%byte :: h ++ ("]"%byte :: ":"%byte :: p)).
      assert (E : "["%byte :: h ++ "]"%byte :: ":"%byte :: p = ("["%byte :: h ++ ["]"%byte]) ++ ":"%byte :: p) by (cbn [app]; now rewrite <- app_assoc).
      replace (split_last_colon ("["%byte :: h ++ "]"%byte :: ":"%byte :: p)) with (Some ("["%byte :: h ++ ["]"%byte], p)) by (rewrite E; symmetry; apply split_last; exact Hc).
      change (Byte.eqb "[" "[") with true. cbv iota. rewrite upto_first by exact Hhl. rewrite beqb_refl. cbn [andb].
      change (Byte.eqb ":" ":") with true. cbn [andb]. apply has_not in Hho, Ho, Hl. rewrite Hho, Ho, Hl. reflexivity. }
  assert (HB : SplitHostPort s = Err EInvalid \/ exists h p, host_port s h p).
  { unfold SplitHostPort. destruct (split_last_colon s) as [[h p]|] eqn:E; [|left; reflexivity].
    destruct (split_last_some _ _ _ E) as [Es Hc]. destruct s as [|b r]; [left; reflexivity|].
    destruct (Byte.eqb b "[") eqn:Eb.
    - destruct (upto "]" r) as [[host rest]|] eqn:Eu; [|left; reflexivity]. destruct rest as [|c p']; [left; reflexivity|].
      destruct (Byte.eqb c ":" && beqb p' p)%bool eqn:Ec; [|left; reflexivity].
      destruct (has "[" host || has "[" p || has "]" p)%bool eqn:Eh; [left; reflexivity|]. right.
      apply andb_true_iff in Ec. destruct Ec as [Ec Ep]. apply Byte_eqb_eq in Ec, Eb. apply beqb_eq in Ep. subst c p' b.
      apply orb_false_iff in Eh. destruct Eh as [Eh H3]. apply orb_false_iff in Eh. destruct Eh as [H1 H2].
      apply has_not in H1, H2, H3. destruct (upto_some _ _ _ _ Eu) as [-> Hn].
      exists host, p. split; [split; [exact Hc|split; assumption]|]. right. split; [reflexivity|split; assumption].
    - destruct (has ":" h) eqn:E1; [left; reflexivity|]. destruct (has "[" (b :: r) || has "]" (b :: r))%bool eqn:E2; [left; reflexivity|].
      right. exists h, p. apply orb_false_iff in E2. destruct E2 as [H2 H3]. apply has_not in E1, H2, H3. rewrite Es in *.
      rewrite in_app_iff in H2, H3. split; [|left; split; [reflexivity|]].
      + split; [exact Hc|]. split; intros Hi; [apply H2|apply H3]; right; now right.
      + split; [exact E1|]. split; intros Hi; [apply H2|apply H3]; now left. }
  split; [|intros H; destruct HB as [X|(h & p & X)]; [exact X|destruct (H h p X)]].
  intros h p. split; [|apply HA]. intros H. destruct HB as [X|(h' & p' & X)]; [congruence|]. pose proof (HA _ _ X) as Y. rewrite H in Y. injection Y as -> ->. exact X.
Qed.
