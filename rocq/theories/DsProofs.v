(** DsProofs.v: proofs about the linked list and the keyed set. *)
From Coq Require Import ZifyBool ZifyNat ZifyN Permutation.
From Verif Require Import Base DsModel DsSpec.

Lemma F2_len {A C} (R : A -> C -> Prop) a c : Forall2 R a c -> List.length a = List.length c.
Proof. induction 1; cbn; congruence. Qed.
Lemma F2_impl {A C} (R S : A -> C -> Prop) a c : (forall x y, R x y -> S x y) -> Forall2 R a c -> Forall2 S a c.
Proof. intros H. induction 1; constructor; auto. Qed.

Section LL.
Context {T : Type}.
Implicit Types (h : heap T) (l : list nat).

Definition first l (q : option nat) : option nat := match l with [] => q | a :: _ => Some a end.
Fixpoint lastp l (p : option nat) : option nat := match l with [] => p | a :: r => lastp r (Some a) end.
Fixpoint lseg h (p : option nat) l (q : option nat) : Prop :=
  match l with
  | [] => True
  | a :: r => (exists d, nth_error h a = Some (mknode d (first r q) p)) /\ lseg h (Some a) r q
  end.

Lemma lseg_app h p l1 l2 q : lseg h p (l1 ++ l2) q <-> lseg h p l1 (first l2 q) /\ lseg h (lastp l1 p) l2 q.
Proof.
  revert p; induction l1 as [|a l1 IH]; intros p; cbn [app lseg lastp]; [tauto|].
  rewrite IH. replace (first (l1 ++ l2) q) with (first l1 (first l2 q)) by (destruct l1; reflexivity). tauto.
Qed.

(** Same links at the nodes of l. *)
Definition same_links h h' (a : nat) : Prop :=
  forall d nx pv, nth_error h a = Some (mknode d nx pv) -> exists d', nth_error h' a = Some (mknode d' nx pv).

Lemma lseg_frame h h' p l q : lseg h p l q -> (forall a, In a l -> same_links h h' a) -> lseg h' p l q.
Proof.
  revert p; induction l as [|a l IH]; intros p; cbn; [auto|]. intros [[d Hd] Hl] Hf. split.
  - exact (Hf a (or_introl eq_refl) _ _ _ Hd).
  - apply IH; auto.
Qed.

Lemma lupd_other h a f b : a <> b -> nth_error (lupd h a f) b = nth_error h b.
Proof. intros H. rewrite nth_error_lupd. destruct (Nat.eqb_spec b a); [congruence|]. reflexivity. Qed.
Lemma lupd_this h a f n : nth_error h a = Some n -> nth_error (lupd h a f) a = Some f.
Proof.
  intros H. rewrite nth_error_lupd, Nat.eqb_refl. cbn [andb].
  assert (a < List.length h)%nat by (apply nth_error_Some; congruence).
  destruct (Nat.ltb_spec a (List.length h)); [reflexivity|lia].
Qed.

Lemma same_links_other h a f b : a <> b -> same_links h (lupd h a f) b.
Proof. intros H d nx pv E. exists d. now rewrite lupd_other. Qed.
Lemma same_links_trans h1 h2 h3 a : same_links h1 h2 a -> same_links h2 h3 a -> same_links h1 h3 a.
Proof. intros A C d nx pv E. destruct (A _ _ _ E) as [d' E']. exact (C _ _ _ E'). Qed.

Definition rep h (ll : llist) l : Prop := lhead ll = first l None /\ lsize ll = zlen l /\ NoDup l /\ lseg h None l None.

(** Data of every node, unchanged by list operations. *)
Definition datas h : list T := map ndata h.
Lemma datas_lupd h a n f : nth_error h a = Some n -> ndata f = ndata n -> datas (lupd h a f) = datas h.
Proof.
  unfold datas. revert a; induction h as [|x h IH]; intros [|a] E Ef; cbn in *; try discriminate.
  - injection E as ->. now rewrite Ef.
  - now rewrite (IH a).
Qed.

Lemma hput_ok h a n f : nth_error h a = Some n -> hput h a f = Ok (lupd h a (f n)).
Proof. unfold hput. now intros ->. Qed.

(** What an operation on one list may do to the heap. *)
Definition touches h h' (S : list nat) : Prop :=
  datas h' = datas h /\ forall b, ~ In b S -> nth_error h' b = nth_error h b.

Lemma touches_lupd h a n f S : nth_error h a = Some n -> ndata f = ndata n -> In a S -> touches h (lupd h a f) S.
Proof. intros E Ef Ha. split; [now apply datas_lupd with n|]. intros b Hb. apply lupd_other. congruence. Qed.
Lemma touches_trans h1 h2 h3 S : touches h1 h2 S -> touches h2 h3 S -> touches h1 h3 S.
Proof. intros [A A'] [C C']. split; [congruence|]. intros b Hb. rewrite C', A'; auto. Qed.
Lemma touches_refl h S : touches h h S.
Proof. split; auto. Qed.

Lemma AddNodeFront_spec h ll l n nd : rep h ll l -> nth_error h n = Some nd -> ~ In n l ->
  exists h' ll', AddNodeFront h ll n = Ok (h', ll') /\ rep h' ll' (n :: l) /\ touches h h' (n :: l).
Proof.
  intros (Hh & Hs & Hn & Hl) En Hni. unfold AddNodeFront. rewrite Hs.
  destruct l as [|x r].
  - cbn [zlen List.length Z.of_nat Z.eqb]. rewrite (hput_ok _ _ _ _ En). cbn [bind].
    pose proof (lupd_this h n (put_prev None nd) nd En) as E1.
    rewrite (hput_ok _ _ _ _ E1). cbn [bind]. eexists _, _. split; [reflexivity|]. split.
    + split; [reflexivity|]. split; [cbn; reflexivity|]. split; [repeat constructor; auto|].
      cbn. split; [|exact I]. eexists. rewrite (lupd_this _ _ _ _ E1). reflexivity.
    + eapply touches_trans; [|eapply touches_lupd; [exact E1|reflexivity|now left]]; eapply touches_lupd; [exact En|reflexivity|now left].
  - assert (Hz : (zlen (x :: r) =? 0) = false) by (rewrite zlen_cons; pose proof (zlen_nonneg r); lia). rewrite Hz.
    rewrite (hput_ok _ _ _ _ En). cbn [bind].
    pose proof (lupd_this h n (put_next (lhead ll) nd) nd En) as E1.
    rewrite (hput_ok _ _ _ _ E1). cbn [bind]. rewrite Hh. cbn [first hputo].
    pose proof (lupd_this _ n (put_prev None (put_next (lhead ll) nd)) _ E1) as E2.
    cbn in Hl. destruct Hl as [[d Ed] Hl].
    assert (Hnx : n <> x) by (intros ->; apply Hni; now left).
    rewrite Hh in *. cbn [first] in *.
    assert (E3 : nth_error (lupd (lupd h n (put_next (Some x) nd)) n (put_prev None (put_next (Some x) nd))) x = Some (mknode d (first r None) None))
      by (rewrite !lupd_other by auto; exact Ed).
    rewrite (hput_ok _ _ _ _ E3). cbn [bind]. eexists _, _. split; [reflexivity|]. split.
    + split; [reflexivity|]. split; [cbn [lsize]; rewrite (zlen_cons n); lia|]. split; [now constructor|].
      inversion Hn as [|? ? Hxr Hnr]; subst.
      cbn [lseg first]. split; [|split].
      * eexists. rewrite lupd_other by auto. rewrite E2. reflexivity.
      * eexists. rewrite (lupd_this _ _ _ _ E3). reflexivity.
      * apply (lseg_frame h); [exact Hl|]. intros a Ha.
        assert (a <> n) by (intros ->; apply Hni; now right). assert (a <> x) by congruence.
        eapply same_links_trans; [|apply same_links_other; congruence].
        eapply same_links_trans; [|apply same_links_other; congruence].
        apply same_links_other; congruence.
    + eapply touches_trans; [|eapply touches_lupd; [exact E3|reflexivity|right; now left]].
      eapply touches_trans; [|eapply touches_lupd; [exact E1|reflexivity|now left]].
      eapply touches_lupd; [exact En|reflexivity|now left].
Qed.

Lemma without_notin n l : ~ In n l -> without n l = l.
Proof.
  unfold without. induction l as [|x l IH]; cbn; [auto|]. intros H. destruct (Nat.eqb_spec x n) as [->|Hx]; cbn.
  - exfalso; apply H; auto.
  - rewrite IH; auto.
Qed.
Lemma without_mid n l1 l2 : NoDup (l1 ++ n :: l2) -> without n (l1 ++ n :: l2) = l1 ++ l2.
Proof.
  intros H. unfold without. rewrite filter_app. cbn. rewrite Nat.eqb_refl. cbn.
  apply NoDup_remove_2 in H. fold (without n l1) (without n l2). rewrite !without_notin; auto; intros Hx; apply H, in_or_app; auto.
Qed.
Lemma In_without n m l : In m (without n l) <-> In m l /\ m <> n.
Proof.
  unfold without. rewrite filter_In. destruct (Nat.eqb_spec m n); cbn; intuition congruence.
Qed.
Lemma NoDup_without n l : NoDup l -> NoDup (without n l).
Proof. apply NoDup_filter. Qed.

Lemma lastp_in l p a : lastp l p = Some a -> p = Some a \/ In a l.
Proof.
  revert p; induction l as [|x l IH]; intros p H; cbn in *; [auto|].
  destruct (IH _ H) as [E|E]; [injection E as ->|]; auto.
Qed.
Lemma lastp_snoc l x p : lastp (l ++ [x]) p = Some x.
Proof. revert p; induction l as [|y l IH]; intros p; cbn; auto. Qed.

Lemma Remove_spec h ll l n : rep h ll l -> In n l ->
  exists h' ll', Remove h ll n = Ok (h', ll') /\ rep h' ll' (without n l) /\ touches h h' l.
Proof.
  intros (Hh & Hs & Hn & Hl) Hin. unfold Remove. rewrite Hs.
  destruct (in_split _ _ Hin) as (l1 & l2 & ->).
  assert (Hz : (zlen (l1 ++ n :: l2) =? 0) = false) by (rewrite zlen_app, zlen_cons; pose proof (zlen_nonneg l1); pose proof (zlen_nonneg l2); lia).
  rewrite Hz. rewrite without_mid by exact Hn.
  pose proof Hl as Hl0. apply lseg_app in Hl. destruct Hl as [Hl1 Hl2]. cbn [first lseg] in Hl1, Hl2. destruct Hl2 as [[d Ed] Hl2].
  destruct (Z.eqb_spec (zlen (l1 ++ n :: l2)) 1) as [Ho|Ho].
  - rewrite zlen_app, zlen_cons in Ho. assert (l1 = [] /\ l2 = []) as [-> ->].
    { destruct l1; [|rewrite zlen_cons in Ho; pose proof (zlen_nonneg l1); pose proof (zlen_nonneg l2); lia].
      destruct l2; [auto|]. rewrite zlen_nil, zlen_cons in Ho. pose proof (zlen_nonneg l2). lia. }
    rewrite (hput_ok _ _ _ _ Ed). cbn [bind].
    pose proof (lupd_this h n (put_prev None (mknode d (first [] None) (lastp [] None))) _ Ed) as E1.
    rewrite (hput_ok _ _ _ _ E1). cbn [bind]. eexists _, _. split; [reflexivity|]. split.
    + repeat split; constructor.
    + eapply touches_trans; [|eapply touches_lupd; [exact E1|reflexivity|now left]]; eapply touches_lupd; [exact Ed|reflexivity|now left].
  - unfold Next at 1, Prev at 1. rewrite Ed. cbn [bind nnext nprev].
    set (pv := lastp l1 None) in *. set (nx := first l2 None) in *.
    pose proof (NoDup_remove_1 _ _ _ Hn) as Hn12. pose proof (NoDup_remove_2 _ _ _ Hn) as Hnn.
    (* head *)
    assert (Hhd : (if match lhead ll with Some p => Nat.eqb n p | None => false end then nx else lhead ll) = first (l1 ++ l2) None).
    { rewrite Hh. destruct l1 as [|x l1']; cbn [app first].
      - rewrite Nat.eqb_refl. reflexivity.
      - destruct (Nat.eqb_spec n x) as [->|]; [|reflexivity]. exfalso. apply Hnn. now left. }
    rewrite Hhd.
    (* first write *)
    assert (Hw1 : exists h1, match pv with Some p => do nx1 <- Next h n; hput h p (put_next nx1) | None => Ok h end = Ok h1 /\
      touches h h1 (l1 ++ n :: l2) /\ nth_error h1 n = Some (mknode d nx pv) /\
      lseg h1 None l1 nx /\ lseg h1 (Some n) l2 None).
    { unfold pv. destruct (list_eq_dec Nat.eq_dec l1 []) as [->|Hne].
      - cbn [lastp]. exists h. split; [reflexivity|]. split; [apply touches_refl|]. split; [exact Ed|]. split; [exact I|exact Hl2].
      - destruct (exists_last Hne) as (l1' & y & ->). rewrite lastp_snoc. unfold Next. rewrite Ed. cbn [bind nnext].
        rewrite <- app_assoc in Hl0. cbn [app] in Hl0. apply lseg_app in Hl0. destruct Hl0 as [Ha Hb]. cbn [lseg first] in Ha, Hb. destruct Hb as [[dy Ey] _].
        assert (Hyn : y <> n) by (intros ->; apply Hnn, in_or_app; left; apply in_or_app; right; now left).
        rewrite (hput_ok _ _ _ _ Ey). eexists. split; [reflexivity|].
        split; [eapply touches_lupd; [exact Ey|reflexivity|apply in_or_app; left; apply in_or_app; right; now left]|].
        split; [rewrite lupd_other by auto; rewrite Ed; unfold pv; rewrite lastp_snoc; reflexivity|].
        rewrite <- app_assoc in Hn12. cbn in Hn12. pose proof (NoDup_remove_2 _ _ _ Hn12) as Hyy.
        split.
        + apply lseg_app. cbn [first lseg]. split.
          * apply (lseg_frame h); [exact Ha|]. intros a Haa. apply same_links_other. intros <-. apply Hyy, in_or_app; auto.
          * split; [|exact I]. eexists. rewrite (lupd_this _ _ _ _ Ey). reflexivity.
        + apply (lseg_frame h); [exact Hl2|]. intros a Haa. apply same_links_other. intros <-. apply Hyy, in_or_app; auto. }
    destruct Hw1 as (h1 & -> & Ht1 & E1 & Hs1 & Hs2). cbn [bind].
    unfold Next, Prev. rewrite E1. cbn [bind nnext nprev].
    assert (Hw2 : exists h2, match nx with Some q => hput h1 q (put_prev pv) | None => Ok h1 end = Ok h2 /\
      touches h1 h2 (l1 ++ n :: l2) /\ lseg h2 None l1 nx /\ lseg h2 pv l2 None).
    { unfold nx. destruct l2 as [|z l2'].
      - cbn [first]. exists h1. split; [reflexivity|]. split; [apply touches_refl|]. split; [exact Hs1|exact I].
      - cbn [first bind]. cbn [lseg] in Hs2. destruct Hs2 as [[dz Ez] Hs2].
        rewrite (hput_ok _ _ _ _ Ez). eexists. split; [reflexivity|].
        split; [eapply touches_lupd; [exact Ez|reflexivity|apply in_or_app; right; right; now left]|].
        pose proof (NoDup_remove_2 _ _ _ Hn12) as Hzz. split; [|split].
        + apply (lseg_frame h1); [exact Hs1|]. intros a Haa. apply same_links_other. intros <-. apply Hzz, in_or_app; auto.
        + eexists. rewrite (lupd_this _ _ _ _ Ez). reflexivity.
        + apply (lseg_frame h1); [exact Hs2|]. intros a Haa. apply same_links_other. intros <-. apply Hzz, in_or_app; auto. }
    destruct Hw2 as (h2 & -> & Ht2 & Hs1' & Hs2'). cbn [bind].
    eexists _, _. split; [reflexivity|]. split; [|eapply touches_trans; eassumption].
    split; [reflexivity|]. split; [cbn [lsize]; rewrite !zlen_app, zlen_cons; lia|]. split; [exact Hn12|].
    apply lseg_app. split; [exact Hs1'|exact Hs2'].
Qed.

(** Observations: walking forward, and Prev inverse to Next. *)
Lemma walk_lseg h p l fuel : lseg h p l None -> (List.length l <= fuel)%nat -> walk fuel h (first l None) = Ok l.
Proof.
  revert p fuel; induction l as [|a l IH]; intros p fuel Hl Hf; cbn [first].
  - destruct fuel; reflexivity.
  - destruct fuel as [|fuel]; [cbn in Hf; lia|]. cbn [walk]. cbn [lseg] in Hl. destruct Hl as [[d Ed] Hl].
    unfold Next. rewrite Ed. cbn [bind nnext]. rewrite (IH (Some a)); [reflexivity|exact Hl|cbn in Hf; lia].
Qed.

Lemma lseg_links h p l q : lseg h p l q -> forall i a, nth_error l i = Some a ->
  Next h a = Ok (match nth_error l (S i) with Some b => Some b | None => q end) /\
  Prev h a = Ok (match i with O => p | S j => nth_error l j end).
Proof.
  revert p; induction l as [|x l IH]; intros p Hl i a Hi; [destruct i; discriminate|].
  cbn [lseg] in Hl. destruct Hl as [[d Ed] Hl]. destruct i as [|i].
  - cbn in Hi. injection Hi as <-. unfold Next, Prev. rewrite Ed. split; [|reflexivity]. cbn. destruct l; reflexivity.
  - cbn in Hi. destruct (IH _ Hl _ _ Hi) as [A C]. split; [exact A|]. rewrite C. destruct i; reflexivity.
Qed.

Lemma rep_bound h ll l : rep h ll l -> (List.length l <= List.length h)%nat.
Proof.
  intros (_ & _ & Hn & Hl). rewrite <- (seq_length (List.length h) 0). apply NoDup_incl_length; [exact Hn|].
  intros a Ha. apply in_seq. split; [lia|]. cbn. destruct (In_nth_error _ _ Ha) as [i Hi].
  destruct (lseg_links _ _ _ _ Hl _ _ Hi) as [A _]. unfold Next in A. destruct (nth_error h a) eqn:E; [|discriminate].
  apply nth_error_Some. congruence.
Qed.

(** ** Several lists over one heap *)
Definition mrep h (lls : list llist) (abs : list (list nat)) : Prop := Forall2 (rep h) lls abs /\ NoDup (List.concat abs).

Lemma rep_frame h h' ll l : rep h ll l -> (forall b, In b l -> nth_error h' b = nth_error h b) -> rep h' ll l.
Proof.
  intros (A & C & D & E) Hf. repeat split; auto. apply (lseg_frame h); [exact E|]. intros a Ha d nx pv E'. exists d. now rewrite Hf.
Qed.

Lemma concat_mid (abs : list (list nat)) k l : nth_error abs k = Some l ->
  exists a1 a2, abs = a1 ++ l :: a2 /\ List.length a1 = k.
Proof. apply nth_error_split. Qed.
Lemma lupd_mid {X} (a1 a2 : list X) x y : lupd (a1 ++ x :: a2) (List.length a1) y = a1 ++ y :: a2.
Proof. induction a1 as [|z a1 IH]; cbn; [reflexivity|]. now rewrite IH. Qed.

Lemma NoDup_app_iff {X} (a b : list X) : NoDup (a ++ b) <-> NoDup a /\ NoDup b /\ forall x, In x a -> ~ In x b.
Proof.
  induction a as [|x a IH]; cbn.
  - split; [intros H; repeat split; auto; constructor|tauto].
  - rewrite !NoDup_cons_iff, IH, in_app_iff. split.
    + intros (H1 & H2 & H3 & H4). repeat split; auto. intros y [<-|Hy]; auto.
    + intros ((H1 & H2) & H3 & H4). repeat split; auto. intros [Hx|Hx]; [tauto|]. exact (H4 x (or_introl eq_refl) Hx).
Qed.

(** Replace list k by l' over h', when only nodes S were touched, S inside l and fresh nodes. *)
Lemma mrep_update h lls abs k ll l h' ll' l' S : mrep h lls abs -> nth_error lls k = Some ll -> nth_error abs k = Some l ->
  rep h' ll' l' -> (forall b, ~ In b S -> nth_error h' b = nth_error h b) ->
  (forall b, In b S -> In b l \/ ~ In b (List.concat abs)) -> (forall b, In b l' -> In b l \/ ~ In b (List.concat abs)) ->
  mrep h' (lupd lls k ll') (lupd abs k l').
Proof.
  intros [HF HN] Ek El Hr Hsame HS Hl'.
  destruct (nth_error_split _ _ El) as (a1 & a2 & -> & Hla). subst k.
  apply Forall2_app_inv_r in HF. destruct HF as (b1 & b2' & HF1 & HF2 & ->).
  inversion HF2 as [|y ? b2 ? Hry HFr]; subst. assert (Hlen : List.length b1 = List.length a1) by (eapply F2_len; eassumption).
  rewrite <- Hlen in Ek at 1. rewrite nth_error_app2 in Ek by lia. rewrite Nat.sub_diag in Ek. cbn in Ek. injection Ek as ->.
  rewrite lupd_mid. rewrite <- Hlen, lupd_mid. rewrite concat_app in HN, HS, Hl'. cbn [List.concat] in *.
  apply NoDup_app_iff in HN. destruct HN as (N1 & N2 & N3). apply NoDup_app_iff in N2. destruct N2 as (N4 & N5 & N6).
  assert (Hfr : forall x b, In x a1 \/ In x a2 -> In b x -> nth_error h' b = nth_error h b).
  { intros x b Hx Hb. apply Hsame. intros HbS. destruct (HS _ HbS) as [Hbl|Hbn].
    - destruct Hx as [Hx|Hx].
      + apply (N3 b); [apply in_concat; eauto|apply in_or_app; auto].
      + apply (N6 b Hbl). apply in_concat; eauto.
    - apply Hbn. apply in_or_app. destruct Hx as [Hx|Hx]; [left; apply in_concat; eauto|].
      right. apply in_or_app. right. apply in_concat; eauto. }
  split.
  - apply Forall2_app; [|constructor; [exact Hr|]].
    + assert (Hall : Forall2 (fun x y => rep h x y /\ In y a1) b1 a1).
      { clear -HF1. induction HF1; constructor; [split; auto; now left|]. eapply F2_impl; [|exact IHHF1]. cbn; intuition. }
      eapply F2_impl; [|exact Hall]. cbn. intros x y [Hx Hy]. apply (rep_frame h); eauto.
    + assert (Hall : Forall2 (fun x y => rep h x y /\ In y a2) b2 a2).
      { clear -HFr. induction HFr; constructor; [split; auto; now left|]. eapply F2_impl; [|exact IHHFr]. cbn; intuition. }
      eapply F2_impl; [|exact Hall]. cbn. intros x y' [Hx Hy]. apply (rep_frame h); eauto.
  - rewrite concat_app. cbn [List.concat]. destruct Hr as (_ & _ & Hnl & _).
    assert (D1 : forall b, In b l' -> ~ In b (List.concat a1) /\ ~ In b (List.concat a2)).
    { intros b Hb. destruct (Hl' b Hb) as [Hbl|Hbn].
      - split; [intros Hx; apply (N3 b Hx), in_or_app; auto|exact (N6 b Hbl)].
      - split; intros Hx; apply Hbn, in_or_app; auto. right. apply in_or_app; auto. }
    apply NoDup_app_iff. split; [exact N1|]. split.
    + apply NoDup_app_iff. split; [exact Hnl|]. split; [exact N5|]. intros b Hb. apply D1, Hb.
    + intros b Hb Hb'. apply in_app_or in Hb'. destruct Hb' as [Hb'|Hb']; [exact (proj1 (D1 b Hb') Hb)|].
      apply (N3 b Hb), in_or_app; auto.
Qed.

Lemma mrep_nth h lls abs k l : mrep h lls abs -> nth_error abs k = Some l -> exists ll, nth_error lls k = Some ll /\ rep h ll l.
Proof.
  intros [HF _]. revert k; induction HF as [|ll x lls abs Hr HF IH]; intros k Ek; [destruct k; discriminate|].
  destruct k as [|k]; cbn in *; [injection Ek as <-; eauto|auto].
Qed.
Lemma mrep_length h lls abs : mrep h lls abs -> List.length lls = List.length abs.
Proof. intros [HF _]. eapply F2_len; eassumption. Qed.
Lemma in_concat_nth (abs : list (list nat)) k l b : nth_error abs k = Some l -> In b l -> In b (List.concat abs).
Proof. intros E Hb. apply in_concat. exists l. split; [eapply nth_error_In; eassumption|exact Hb]. Qed.

Lemma madd h lls abs k l n nd : mrep h lls abs -> nth_error abs k = Some l -> nth_error h n = Some nd -> ~ In n (List.concat abs) ->
  exists ll h' ll', nth_error lls k = Some ll /\ AddNodeFront h ll n = Ok (h', ll') /\ mrep h' (lupd lls k ll') (lupd abs k (n :: l)) /\ datas h' = datas h.
Proof.
  intros Hm El En Hni. destruct (mrep_nth _ _ _ _ _ Hm El) as (ll & Ek & Hr).
  destruct (AddNodeFront_spec h ll l n nd Hr En) as (h' & ll' & Ha & Hr' & [Hd Ht]); [intros Hx; apply Hni; eapply in_concat_nth; eassumption|].
  exists ll, h', ll'. split; [exact Ek|]. split; [exact Ha|]. split; [|exact Hd].
  apply (mrep_update h lls abs k ll l h' ll' (n :: l) (n :: l)); auto; intros b [<-|Hb]; auto.
Qed.

Lemma mremove h lls abs k l n : mrep h lls abs -> nth_error abs k = Some l -> In n l ->
  exists ll h' ll', nth_error lls k = Some ll /\ Remove h ll n = Ok (h', ll') /\ mrep h' (lupd lls k ll') (lupd abs k (without n l)) /\ datas h' = datas h.
Proof.
  intros Hm El Hin. destruct (mrep_nth _ _ _ _ _ Hm El) as (ll & Ek & Hr).
  destruct (Remove_spec h ll l n Hr Hin) as (h' & ll' & Ha & Hr' & [Hd Ht]).
  exists ll, h', ll'. split; [exact Ek|]. split; [exact Ha|]. split; [|exact Hd].
  apply (mrep_update h lls abs k ll l h' ll' (without n l) l); auto. intros b Hb. apply In_without in Hb. left. tauto.
Qed.

Lemma lseg_ext h x p l q : lseg h p l q -> lseg (h ++ [x]) p l q.
Proof.
  intros H. apply (lseg_frame h); [exact H|]. intros a _ d nx pv E. exists d. rewrite nth_error_app1; [exact E|].
  apply nth_error_Some. congruence.
Qed.
Lemma mrep_ext h x lls abs : mrep h lls abs -> mrep (h ++ [x]) lls abs.
Proof.
  intros [HF HN]. split; [|exact HN]. eapply F2_impl; [|exact HF]. intros ll l (A & C & D & E). repeat split; auto. now apply lseg_ext.
Qed.
Lemma mrep_inside h lls abs b : mrep h lls abs -> In b (List.concat abs) -> (b < List.length h)%nat.
Proof.
  intros Hm Hb. apply in_concat in Hb. destruct Hb as (l & Hl & Hb). apply In_nth_error in Hl. destruct Hl as [k Ek].
  destruct (mrep_nth _ _ _ _ _ Hm Ek) as (ll & _ & (_ & _ & _ & Hs)). apply In_nth_error in Hb. destruct Hb as [i Hi].
  destruct (lseg_links _ _ _ _ Hs _ _ Hi) as [A _]. unfold Next in A. destruct (nth_error h b) eqn:E; [|discriminate].
  apply nth_error_Some. congruence.
Qed.

Definition sim (s : heap T * list llist) (a : alists T) : Prop := mrep (fst s) (snd s) (al_seqs a) /\ datas (fst s) = al_data a.

Lemma seq_of_nth (a : alists T) k : (k < List.length (al_seqs a))%nat -> nth_error (al_seqs a) k = Some (seq_of a k).
Proof. intros H. unfold seq_of. now apply nth_error_nth'. Qed.

Lemma sim_step s a o : sim s a -> avalid a o -> exists s', lstep s o = Ok s' /\ sim s' (astep a o).
Proof.
  destruct s as [h ls]. intros [Hm Hd] Hv. cbn [fst snd] in *.
  assert (Hlen : List.length h = List.length (al_data a)) by (rewrite <- Hd; unfold datas; now rewrite map_length).
  destruct o as [k d|k n|k n|k]; cbn [avalid] in Hv; cbn [lstep astep].
  - pose proof (seq_of_nth _ _ Hv) as El.
    destruct (madd (h ++ [mknode d None None]) ls (al_seqs a) k _ (List.length h) (mknode d None None) (mrep_ext _ _ _ _ Hm) El) as (ll & h' & ll' & Ek & Ha & Hm' & Hd').
    + rewrite nth_error_app2, Nat.sub_diag by lia. reflexivity.
    + intros Hx. pose proof (mrep_inside _ _ _ _ Hm Hx). lia.
    + rewrite Ek. unfold AddDataFront. rewrite Ha. cbn [bind]. eexists. split; [reflexivity|]. split; cbn [fst snd al_seqs al_data].
      * rewrite <- Hlen. exact Hm'.
      * rewrite Hd'. unfold datas. rewrite map_app. cbn. unfold datas in Hd. now rewrite Hd.
  - destruct Hv as (Hk & Hn & Hni). pose proof (seq_of_nth _ _ Hk) as El.
    destruct (nth_error h n) as [nd|] eqn:En; [|apply nth_error_None in En; lia].
    destruct (madd h ls _ k _ n nd Hm El En Hni) as (ll & h' & ll' & Ek & Ha & Hm' & Hd').
    rewrite Ek, Ha. cbn [bind]. eexists. split; [reflexivity|]. split; [exact Hm'|]. exact (eq_trans Hd' Hd).
  - destruct Hv as (Hk & Hn). pose proof (seq_of_nth _ _ Hk) as El.
    destruct (mremove h ls _ k _ n Hm El Hn) as (ll & h' & ll' & Ek & Ha & Hm' & Hd').
    rewrite Ek, Ha. cbn [bind]. eexists. split; [reflexivity|]. split; [exact Hm'|]. exact (eq_trans Hd' Hd).
  - pose proof (seq_of_nth _ _ Hv) as El. destruct (mrep_nth _ _ _ _ _ Hm El) as (ll & Ek & Hr). rewrite Ek.
    eexists. split; [reflexivity|]. split; [|exact Hd]. cbn [fst snd al_seqs].
    apply (mrep_update h ls (al_seqs a) k ll (seq_of a k) h (Clear ll) [] []); auto; try (intros b []).
    repeat split; constructor.
Qed.

Lemma sim_run ops : forall s a, sim s a -> avalid_all a ops -> exists s', lrun s ops = Ok s' /\ sim s' (arun a ops).
Proof.
  induction ops as [|o ops IH]; intros s a Hs Hv; cbn [lrun arun fold_left].
  - eauto.
  - destruct Hv as [Hv Hr]. destruct (sim_step _ _ _ Hs Hv) as (s1 & -> & Hs1). cbn [bind]. exact (IH _ _ Hs1 Hr).
Qed.

Lemma sim_init k : sim ([], repeat MakeList k) (mkal [] (repeat [] k)).
Proof.
  split; [|reflexivity]. cbn [fst snd al_seqs]. split.
  - induction k; cbn; constructor; [repeat split; constructor|exact IHk].
  - induction k; cbn; [constructor|exact IHk].
Qed.

Lemma lists_top k ops : let a := arun (mkal [] (repeat [] k)) ops in
  avalid_all (mkal [] (repeat [] k)) ops ->
  exists h ls, lrun ([], repeat MakeList k) ops = Ok (h, ls) /\ List.length ls = k /\ map ndata h = al_data a /\ NoDup (List.concat (al_seqs a)) /\
    forall j ll, nth_error ls j = Some ll ->
      walk (List.length h) h (lhead ll) = Ok (seq_of a j) /\ lsize ll = zlen (seq_of a j) /\
      (forall i n, nth_error (seq_of a j) i = Some n ->
        Next h n = Ok (nth_error (seq_of a j) (S i)) /\ Prev h n = Ok (match i with O => None | S i' => nth_error (seq_of a j) i' end)).
Proof.
  intros a Hv. destruct (sim_run ops _ _ (sim_init k) Hv) as ((h & ls) & Hr & Hm & Hd). cbn [fst snd] in *. fold a in Hm, Hd.
  exists h, ls. split; [exact Hr|]. split.
  { rewrite (mrep_length _ _ _ Hm). unfold a. clear. assert (H : forall s : alists T, List.length (al_seqs (arun s ops)) = List.length (al_seqs s)).
    { induction ops as [|o ops IH]; intros s; cbn; [reflexivity|]. unfold arun in IH. rewrite IH. destruct o; cbn; now rewrite lupd_length. }
    rewrite H. cbn. apply repeat_length. }
  split; [exact Hd|]. split; [exact (proj2 Hm)|].
  intros j ll Ej. assert (Hj : (j < List.length (al_seqs a))%nat) by (rewrite <- (mrep_length _ _ _ Hm); apply nth_error_Some; congruence).
  destruct (mrep_nth _ _ _ _ _ Hm (seq_of_nth _ _ Hj)) as (ll' & Ej' & Hrp). assert (ll' = ll) by congruence. subst ll'.
  pose proof (rep_bound _ _ _ Hrp) as Hb. destruct Hrp as (Hh & Hs & Hn & Hl).
  split; [rewrite Hh; exact (walk_lseg _ _ _ _ Hl Hb)|]. split; [exact Hs|]. intros i n Hi.
  destruct (lseg_links _ _ _ _ Hl _ _ Hi) as [A C]. split; [|exact C]. rewrite A. destruct (nth_error (seq_of a j) (S i)); reflexivity.
Qed.
End LL.

(** ** Keyed set *)
Section KS.
Context {T : Type} (key : T -> bytes).
Implicit Types s : kset T.
Definition kwf s : Prop := NoDup (map fst s) /\ Forall (fun e => fst e = key (snd e)) s.

Lemma kget_some s k x : kget s k = Some x -> In (k, x) s.
Proof.
  unfold kget. destruct (find _ s) as [[k' y]|] eqn:E; [|discriminate]. intros H; injection H as <-.
  apply find_some in E. destruct E as [E1 E2]. cbn in *. apply beqb_eq in E2. now subst.
Qed.
Lemma kget_none s k : kget s k = None <-> ~ In k (map fst s).
Proof.
  unfold kget. destruct (find _ s) as [e|] eqn:E; split; intros H; try discriminate; try reflexivity.
  - exfalso. apply H. apply find_some in E. destruct E as [E1 E2]. apply beqb_eq in E2. subst k. now apply in_map.
  - intros Hin. apply in_map_iff in Hin. destruct Hin as (e & <- & He). pose proof (find_none _ _ E e He) as Hf. cbn in Hf. now rewrite beqb_refl in Hf.
Qed.
Lemma kget_in s k x : NoDup (map fst s) -> In (k, x) s -> kget s k = Some x.
Proof.
  intros Hn Hin. destruct (kget s k) as [y|] eqn:E.
  - apply kget_some in E. f_equal. clear -Hn Hin E. induction s as [|[k' z] s IH]; [contradiction|]. cbn in Hn. inversion Hn as [|? ? H1 H2]; subst.
    destruct Hin as [Hin|Hin], E as [E|E].
    + congruence.
    + injection Hin as -> ->. exfalso; apply H1. change k with (fst (k, y)). now apply in_map.
    + injection E as -> ->. exfalso; apply H1. change k with (fst (k, x)). now apply in_map.
    + auto.
  - exfalso. apply kget_none in E. apply E. change k with (fst (k, x)). now apply in_map.
Qed.

Lemma Has_spec s x : Has key s x = true <-> kget s (key x) <> None.
Proof. unfold Has. destruct (kget s (key x)); split; congruence. Qed.
Lemma Has_in s x : Has key s x = true <-> In (key x) (map fst s).
Proof.
  rewrite Has_spec. pose proof (kget_none s (key x)) as H. destruct (in_dec bytes_dec (key x) (map fst s)) as [Hd|Hd].
  - split; [auto|]. intros _ E. now apply H in E.
  - split; [|tauto]. intros Hk. exfalso. apply Hk. now apply H.
Qed.

Lemma Add_wf s x : kwf s -> kwf (snd (Add key s x)).
Proof.
  intros [Hn Hf]. unfold Add. destruct (Has key s x) eqn:E; cbn; [now split|]. split.
  - rewrite map_app. cbn. apply NoDup_app_iff. split; [exact Hn|]. split; [repeat constructor; auto|].
    intros k Hk [<-|[]]. apply Has_in in Hk. congruence.
  - apply Forall_app. split; [exact Hf|]. repeat constructor.
Qed.
Lemma Rem_wf s x : kwf s -> kwf (snd (SetRemove key s x)).
Proof.
  intros [Hn Hf]. unfold SetRemove. destruct (Has key s x) eqn:E; cbn; [|now split]. split.
  - clear -Hn. induction s as [|e s IH]; cbn in *; [constructor|]. inversion Hn; subst. destruct (beqb (fst e) (key x)); cbn; [auto|].
    constructor; [|auto]. intros Hin. apply in_map_iff in Hin. destruct Hin as (e' & E1 & E2). apply filter_In in E2. apply H1. rewrite <- E1. now apply in_map.
  - rewrite Forall_forall in *. intros e He. apply filter_In in He. apply Hf. tauto.
Qed.

Lemma find_app {X} (f : X -> bool) a b : find f (a ++ b) = match find f a with Some x => Some x | None => find f b end.
Proof. induction a as [|x a IH]; cbn; [reflexivity|]. destruct (f x); auto. Qed.

Lemma Add_get s x k : kget (snd (Add key s x)) k = match kget s k with Some y => Some y | None => if beqb (key x) k then Some x else None end.
Proof.
  unfold Add. destruct (Has key s x) eqn:E; cbn [negb snd].
  - destruct (kget s k) eqn:Ek; [reflexivity|]. destruct (beqb (key x) k) eqn:Eb; [|reflexivity]. apply beqb_eq in Eb. subst k.
    apply Has_spec in E. congruence.
  - unfold kget at 1. rewrite find_app. cbn [find fst]. fold (kget s k). unfold kget. destruct (find (fun e => beqb (fst e) k) s); [reflexivity|].
    destruct (beqb (key x) k); reflexivity.
Qed.
Lemma kget_filter s k0 k : kget (filter (fun e => negb (beqb (fst e) k0)) s) k = if beqb k0 k then None else kget s k.
Proof.
  induction s as [|[k' y] s IH]; cbn [filter fst].
  - destruct (beqb k0 k); reflexivity.
  - destruct (beqb k' k0) eqn:E0; cbn [negb].
    + rewrite IH. apply beqb_eq in E0. subst k'. unfold kget. cbn [find fst]. destruct (beqb k0 k); reflexivity.
    + unfold kget in *. cbn [find fst]. destruct (beqb k' k) eqn:Ek.
      * apply beqb_eq in Ek. subst k'. destruct (beqb k0 k) eqn:E1; [|reflexivity]. apply beqb_eq in E1. subst. rewrite beqb_refl in E0. discriminate.
      * exact IH.
Qed.
Lemma Rem_get s x k : kget (snd (SetRemove key s x)) k = if beqb (key x) k then None else kget s k.
Proof.
  unfold SetRemove. destruct (Has key s x) eqn:E; cbn [snd]; [apply kget_filter|].
  destruct (beqb (key x) k) eqn:Eb; [|reflexivity]. apply beqb_eq in Eb. subst k. unfold Has in E. destruct (kget s (key x)); [discriminate|reflexivity].
Qed.

Lemma srun_snoc ops o : srun key (ops ++ [o]) = snd (sstep key (srun key ops) o).
Proof. unfold srun. now rewrite fold_left_app. Qed.
Lemma srun_inv ops : kwf (srun key ops) /\ forall k, kget (srun key ops) k = held key (rev ops) k.
Proof.
  induction ops as [|o ops [IHw IHg]] using rev_ind.
  - split; [split; constructor|reflexivity].
  - rewrite srun_snoc, rev_app_distr. cbn [rev app]. destruct o as [x|x]; cbn [sstep held].
    + split; [now apply Add_wf|]. intros k. rewrite Add_get, IHg. reflexivity.
    + split; [now apply Rem_wf|]. intros k. rewrite Rem_get, IHg. reflexivity.
Qed.

Lemma Add_flag s x : fst (Add key s x) = negb (Has key s x).
Proof. unfold Add. destruct (Has key s x); reflexivity. Qed.
Lemma Rem_flag s x : fst (SetRemove key s x) = Has key s x.
Proof. unfold SetRemove. destruct (Has key s x); reflexivity. Qed.

Lemma set_top ops : let s := srun key ops in let have k := held key (rev ops) k in
  (forall x, Has key s x = true <-> have (key x) <> None) /\
  (forall x, fst (Add key s x) = true <-> have (key x) = None) /\
  (forall x, fst (SetRemove key s x) = true <-> have (key x) <> None) /\
  (exists ks, NoDup ks /\ (forall k, In k ks <-> have k <> None) /\ Size s = zlen ks).
Proof.
  cbn zeta. destruct (srun_inv ops) as [[Hn Hf] Hg].
  assert (H1 : forall x, Has key (srun key ops) x = true <-> held key (rev ops) (key x) <> None) by (intros x; rewrite Has_spec, Hg; tauto).
  split; [exact H1|]. split; [|split].
  - intros x. rewrite Add_flag. specialize (H1 x). destruct (Has key (srun key ops) x); cbn; destruct (held key (rev ops) (key x)); intuition congruence.
  - intros x. rewrite Rem_flag. apply H1.
  - exists (map fst (srun key ops)). split; [exact Hn|]. split; [|unfold Size, zlen; now rewrite map_length].
    intros k. rewrite <- Hg. pose proof (kget_none (srun key ops) k) as Hx. destruct (in_dec bytes_dec k (map fst (srun key ops))) as [Hd|Hd].
    + split; [|auto]. intros _ E. now apply Hx in E.
    + split; [tauto|]. intros Hk. exfalso. apply Hk. now apply Hx.
Qed.

Lemma items_top zero order ops : (forall l : list T, Permutation (order l) l) -> let s := srun key ops in
  exists xs, Items zero order s = repeat zero (Z.to_nat (Size s)) ++ xs /\ zlen xs = Size s /\
    (forall x, In x xs <-> held key (rev ops) (key x) = Some x) /\ NoDup (map key xs).
Proof.
  intros Ho s. destruct (srun_inv ops) as [[Hn Hf] Hg]. fold s in Hn, Hf, Hg.
  assert (Hp : Permutation (order (map snd s)) (map snd s)) by apply Ho.
  exists (order (map snd s)). split; [unfold Items, Size, zlen; now rewrite Nat2Z.id|]. split; [|split].
  - unfold zlen, Size, zlen. rewrite (Permutation_length Hp), map_length. reflexivity.
  - intros x. rewrite Forall_forall in Hf. split.
    + intros Hx. apply (Permutation_in _ Hp) in Hx. apply in_map_iff in Hx. destruct Hx as ([k y] & E & Hin). cbn in E. subst y.
      rewrite <- Hg. pose proof (Hf _ Hin) as E. cbn in E. subst k. now apply kget_in.
    + intros Hx. apply (Permutation_in _ (Permutation_sym Hp)). rewrite <- Hg in Hx. apply kget_some in Hx. apply (in_map snd) in Hx. exact Hx.
  - apply (Permutation_NoDup (l := map key (map snd s))); [now apply Permutation_map, Permutation_sym|].
    rewrite map_map. replace (map (fun x => key (snd x)) s) with (map fst s); [exact Hn|]. apply map_ext_in. rewrite Forall_forall in Hf. exact Hf.
Qed.
End KS.
