(** PptProofs.v: proofs about the peer piece tracker. *)
From Coq Require Import ZifyBool ZifyNat ZifyN.
From Verif Require Import Base BitfieldModel BitfieldSpec BitfieldProofs WireModel WireSpec WireProofs LayoutModel DsModel DsSpec DsProofs PptModel PptSpec.

Definition shape (t : ppt) (D : list piece) (abs : list (list nat)) : Prop :=
  mrep (t_heap t) (t_buckets t) abs /\ datas (t_heap t) = D /\ List.length abs = 64%nat /\ t_nodes t = seq 0 (List.length D).

Lemma datas_nth {T} (h : heap T) a : nth_error (datas h) a = match nth_error h a with Some n => Some (ndata n) | None => None end.
Proof. unfold datas. rewrite nth_error_map. destruct (nth_error h a); reflexivity. Qed.

Lemma node_data_ok t D abs a p : shape t D abs -> nth_error D a = Some p -> node_data t a = Ok p.
Proof.
  intros (_ & HD & _) E. subst D. rewrite datas_nth in E. unfold node_data. destruct (nth_error (t_heap t) a); [|discriminate]. congruence.
Qed.

Lemma nth_lt {X} (l : list (list X)) j b : In b (nth j l []) -> nth_error l j = Some (nth j l []).
Proof. intros H. destruct (nth_error l j) eqn:E. - now rewrite (nth_error_nth _ _ [] E). - apply nth_error_None in E. rewrite nth_overflow in H by lia. contradiction. Qed.
Lemma nth_ok {X} (l : list (list X)) j : (j < List.length l)%nat -> nth_error l j = Some (nth j l []).
Proof. intros H. now apply nth_error_nth'. Qed.

Lemma disjoint_seqs (abs : list (list nat)) : NoDup (List.concat abs) -> forall j j' b, In b (nth j abs []) -> In b (nth j' abs []) -> j = j'.
Proof.
  induction abs as [|l abs IH]; intros Hn j j' b Hj Hj'; [destruct j; contradiction|].
  cbn [List.concat] in Hn. apply NoDup_app_iff in Hn. destruct Hn as (H1 & H2 & H3).
  assert (Hc : forall k, In b (nth k abs []) -> In b (List.concat abs)) by (intros k Hk; eapply in_concat_nth; [eapply nth_lt; exact Hk|exact Hk]).
  destruct j as [|j], j' as [|j']; cbn [nth] in Hj, Hj'; auto.
  - exfalso. exact (H3 b Hj (Hc _ Hj')).
  - exfalso. exact (H3 b Hj' (Hc _ Hj)).
  - f_equal. eapply IH; eassumption.
Qed.

(** After taking a out of its list it is nowhere. *)
Lemma concat_lupd_in (abs : list (list nat)) k l b : In b (List.concat (lupd abs k l)) -> (In b l /\ (k < List.length abs)%nat) \/ exists j, j <> k /\ In b (nth j abs []).
Proof.
  intros H. apply in_concat in H. destruct H as (x & Hx & Hb). apply In_nth_error in Hx. destruct Hx as [j Hj]. rewrite nth_error_lupd in Hj.
  destruct (Nat.eqb_spec j k) as [Hjk|Hne]; cbn [andb] in Hj.
  - subst j. destruct (Nat.ltb_spec k (List.length abs)); [injection Hj as <-; auto|]. apply nth_error_None in H. congruence.
  - right. exists j. split; [auto|]. now rewrite (nth_error_nth _ _ [] Hj).
Qed.

Lemma put_data_mrep (h : heap piece) lls abs a n d : mrep h lls abs -> nth_error h a = Some n -> mrep (lupd h a (put_data d n)) lls abs.
Proof.
  intros [HF HN] En. split; [|exact HN]. eapply F2_impl; [|exact HF]. intros ll l (A & C & D & E). repeat split; auto.
  apply (lseg_frame h); [exact E|]. intros b _ d0 nx pv Eb. destruct (Nat.eq_dec a b) as [<-|Hne].
  - rewrite En in Eb. injection Eb as ->. exists d. now rewrite (lupd_this _ _ _ _ En).
  - exists d0. now rewrite lupd_other.
Qed.
Lemma datas_put (h : heap piece) a n (d : piece) : nth_error h a = Some n -> datas (lupd h a (put_data d n)) = lupd (datas h) a d.
Proof.
  revert a; induction h as [|x h IH]; intros [|a] E; cbn in *; try discriminate.
  - injection E as ->. reflexivity.
  - f_equal. now apply IH.
Qed.

Lemma remove_from t D abs a c : shape t D abs -> In a (nth c abs []) ->
  exists t', on_bucket t (Z.of_nat c) (fun h l => Remove h l a) = Ok t' /\ shape t' D (lupd abs c (without a (nth c abs []))).
Proof.
  intros (Hm & HD & HL & HN) Hin. pose proof (nth_lt _ _ _ Hin) as El.
  destruct (mremove _ _ _ c _ a Hm El Hin) as (ll & h' & ll' & Ek & Hr & Hm' & Hd').
  unfold on_bucket. replace (Z.of_nat c <? 0) with false by lia. rewrite Nat2Z.id, Ek, Hr. cbn [bind]. eexists. split; [reflexivity|].
  split; [exact Hm'|]. split; [cbn [t_heap]; congruence|]. split; [now rewrite lupd_length|exact HN].
Qed.
Lemma add_to t D abs a c : shape t D abs -> (a < List.length D)%nat -> ~ In a (List.concat abs) -> (c < 64)%nat ->
  exists t', on_bucket t (Z.of_nat c) (fun h l => AddNodeFront h l a) = Ok t' /\ shape t' D (lupd abs c (a :: nth c abs [])).
Proof.
  intros (Hm & HD & HL & HN) Ha Hni Hc. assert (El : nth_error abs c = Some (nth c abs [])) by (apply nth_ok; lia).
  destruct (nth_error (t_heap t) a) as [nd|] eqn:En.
  2:{ apply nth_error_None in En. rewrite <- HD in Ha. unfold datas in Ha. rewrite map_length in Ha. lia. }
  destruct (madd _ _ _ c _ a nd Hm El En Hni) as (ll & h' & ll' & Ek & Hr & Hm' & Hd').
  unfold on_bucket. replace (Z.of_nat c <? 0) with false by lia. rewrite Nat2Z.id, Ek, Hr. cbn [bind]. eexists. split; [reflexivity|].
  split; [exact Hm'|]. split; [cbn [t_heap]; congruence|]. split; [now rewrite lupd_length|exact HN].
Qed.
Lemma set_peers t D abs a p s : shape t D abs -> nth_error D a = Some p ->
  exists t', put_peers t a s = Ok t' /\ shape t' (lupd D a (mkp (p_index p) (p_active p) s)) abs.
Proof.
  intros (Hm & HD & HL & HN) E. subst D. pose proof E as E0. rewrite datas_nth in E. destruct (nth_error (t_heap t) a) as [nd|] eqn:En; [|discriminate].
  injection E as <-. unfold put_peers. rewrite (hput_ok _ _ _ _ En). cbn [bind]. eexists. split; [reflexivity|].
  split; [apply put_data_mrep; assumption|]. split; [apply (datas_put _ _ _ _ En)|]. split; [exact HL|].
  cbn [t_nodes put_heap]. now rewrite lupd_length.
Qed.

Definition moved (abs : list (list nat)) (a c c' : nat) : list (list nat) :=
  let m := lupd abs c (without a (nth c abs [])) in lupd m c' (a :: nth c' m []).

Lemma nth_lupd_list (abs : list (list nat)) k l j : (k < List.length abs)%nat -> nth j (lupd abs k l) [] = if Nat.eqb j k then l else nth j abs [].
Proof. intros H. rewrite nth_lupd. destruct (Nat.ltb_spec k (List.length abs)); [|lia]. now rewrite andb_true_r. Qed.

Lemma moved_in abs a c c' : NoDup (List.concat abs) -> In a (nth c abs []) -> (c' < List.length abs)%nat -> forall b j,
  In b (nth j (moved abs a c c') []) <-> (b = a /\ j = c') \/ (b <> a /\ In b (nth j abs [])).
Proof.
  intros Hn Ha Hc' b j. unfold moved. assert (Hc : (c < List.length abs)%nat) by (apply nth_error_Some; rewrite (nth_lt _ _ _ Ha); congruence).
  rewrite nth_lupd_list by now rewrite lupd_length. rewrite !nth_lupd_list by auto.
  assert (HA : forall j, In a (nth j abs []) -> j = c) by (intros j0 Hj; eapply disjoint_seqs; eassumption).
  destruct (Nat.eqb_spec j c') as [->|Hj].
  - destruct (Nat.eqb_spec c' c) as [->|Hcc]; cbn [In]; [rewrite In_without|].
    + split; [intros [<-|[H1 H2]]; auto|intros [[-> _]|[H1 H2]]; auto].
    + destruct (Nat.eq_dec b a) as [->|Hb].
      * split; [auto|]. intros _. now left.
      * split; [intros [H|H]; [congruence|auto]|intros [[H _]|[_ H]]; [congruence|auto]].
  - destruct (Nat.eqb_spec j c) as [->|Hjc]; [rewrite In_without|].
    + split; [intros [H1 H2]; auto|intros [[_ H]|[H1 H2]]; [congruence|auto]].
    + split.
      * intros H. right. split; [|exact H]. intros ->. apply Hjc, HA, H.
      * intros [[_ H]|[_ H]]; [congruence|exact H].
Qed.

Lemma move_peers t D abs a p c c' s : shape t D abs -> nth_error D a = Some p -> In a (nth c abs []) -> (c' < 64)%nat ->
  exists t', (do t2 <- (do t1 <- on_bucket t (Z.of_nat c) (fun h l => Remove h l a); on_bucket t1 (Z.of_nat c') (fun h l => AddNodeFront h l a)); put_peers t2 a s) = Ok t' /\
    shape t' (lupd D a (mkp (p_index p) (p_active p) s)) (moved abs a c c').
Proof.
  intros Hs Ep Ha Hc'. destruct (remove_from _ _ _ _ _ Hs Ha) as (t1 & -> & Hs1). cbn [bind].
  assert (Hc : (c < List.length abs)%nat) by (apply nth_error_Some; rewrite (nth_lt _ _ _ Ha); congruence).
  destruct (add_to _ _ _ a c' Hs1) as (t2 & -> & Hs2).
  - apply nth_error_Some. congruence.
  - intros Hx. apply concat_lupd_in in Hx. destruct Hx as [[Hx _]|(j & Hj & Hx)].
    + apply In_without in Hx. tauto.
    + apply Hj. destruct Hs as ([_ HN] & _). eapply disjoint_seqs; eassumption.
  - exact Hc'.
  - cbn [bind]. destruct (set_peers _ _ _ a p s Hs2 Ep) as (t3 & -> & Hs3). exists t3. split; [reflexivity|exact Hs3].
Qed.

(** ** The invariant, for an arbitrary registration relation *)
Definition holdsp (abs : list (list nat)) (R : bytes -> Z -> Prop) (a : nat) (p : piece) : Prop :=
  p_index p = Z.of_nat a /\ p_active p = false /\ kwf h_key (p_peers p) /\ (forall k, In k (map fst (p_peers p)) <-> R k (Z.of_nat a)) /\
  In a (nth (List.length (p_peers p)) abs []).
Definition pinv (size : Z) (R : bytes -> Z -> Prop) (t : ppt) : Prop :=
  exists D abs, shape t D abs /\ zlen D = size /\ forall a p, nth_error D a = Some p -> holdsp abs R a p.

Lemma pinv_ext size R R' t : (forall k i, R k i <-> R' k i) -> pinv size R t -> pinv size R' t.
Proof.
  intros H (D & abs & Hs & Hz & Hp). exists D, abs. split; [exact Hs|]. split; [exact Hz|]. intros a p E.
  destruct (Hp a p E) as (H1 & H2 & H3 & H4 & H5). repeat split; auto; try apply H3. intros; apply H, H4; auto. intros; apply H4, H; auto.
Qed.

Lemma nth_seq n a : (a < n)%nat -> nth_error (seq 0 n) a = Some a.
Proof. intros H. rewrite nth_error_nth' with (d := 0%nat) by now rewrite seq_length. now rewrite seq_nth. Qed.

Lemma pget size R t i : pinv size R t -> 0 <= i < size -> exists D abs p, shape t D abs /\ zlen D = size /\ (forall a p, nth_error D a = Some p -> holdsp abs R a p) /\
  nth_error D (Z.to_nat i) = Some p /\ nth_error (t_nodes t) (Z.to_nat i) = Some (Z.to_nat i) /\ node_data t (Z.to_nat i) = Ok p /\ holdsp abs R (Z.to_nat i) p.
Proof.
  intros (D & abs & Hs & Hz & Hp) Hi. exists D, abs. destruct (nth_error D (Z.to_nat i)) as [p|] eqn:E.
  2:{ apply nth_error_None in E. unfold zlen in Hz. lia. }
  exists p. split; [exact Hs|]. split; [exact Hz|]. split; [exact Hp|]. split; [reflexivity|]. split.
  - destruct Hs as (_ & _ & _ & ->). apply nth_seq. unfold zlen in Hz. lia.
  - split; [eapply node_data_ok; eassumption|]. now apply Hp.
Qed.

Lemma count_lt64 t D abs R a p : shape t D abs -> holdsp abs R a p -> (List.length (p_peers p) < 64)%nat.
Proof.
  intros (_ & _ & HL & _) (_ & _ & _ & _ & H). rewrite <- HL. apply nth_error_Some. rewrite (nth_lt _ _ _ H). congruence.
Qed.

Lemma kAdd_keys (s : kset handler) w k : In k (map fst (snd (Add h_key s w))) <-> k = h_key w \/ In k (map fst s).
Proof.
  unfold Add. destruct (Has h_key s w) eqn:E; cbn [negb snd].
  - apply Has_in in E. split; [auto|]. intros [->|H]; auto.
  - rewrite map_app, in_app_iff. cbn. split; [intros [H|[H|[]]]; auto|intros [->|H]; auto].
Qed.
Lemma kRem_keys (s : kset handler) w k : In k (map fst (snd (SetRemove h_key s w))) <-> k <> h_key w /\ In k (map fst s).
Proof.
  unfold SetRemove. destruct (Has h_key s w) eqn:E; cbn [snd].
  - rewrite !in_map_iff. split.
    + intros (e & <- & He). apply filter_In in He. destruct He as [He1 He2]. split; [|eauto]. apply negb_true_iff, beqb_neq in He2. exact He2.
    + intros [Hk (e & <- & He)]. exists e. split; [reflexivity|]. apply filter_In. split; [exact He|]. apply negb_true_iff, beqb_neq. exact Hk.
  - split; [|tauto]. intros H. split; [|exact H]. intros ->. apply Has_in in H. congruence.
Qed.
Lemma kRem_length (s : kset handler) w : kwf h_key s -> Has h_key s w = true -> S (List.length (snd (SetRemove h_key s w))) = List.length s.
Proof.
  intros [Hn _] E. unfold SetRemove. rewrite E. cbn [snd]. apply Has_in in E. clear -Hn E.
  induction s as [|e s IH]; [contradiction|]. cbn [map filter] in *. inversion Hn as [|? ? H1 H2]; subst.
  destruct (beqb (fst e) (h_key w)) eqn:Eb; cbn [negb List.length].
  - f_equal. apply beqb_eq in Eb. rewrite Eb in H1. clear -H1. induction s as [|e' s IH]; [reflexivity|]. cbn [map filter] in *.
    destruct (beqb (fst e') (h_key w)) eqn:E; cbn [negb List.length]; [exfalso; apply H1; left; now apply beqb_eq|].
    f_equal. apply IH. intros H; apply H1; now right.
  - f_equal. apply IH; [exact H2|]. destruct E as [E|E]; [|exact E]. apply beqb_neq in Eb. congruence.
Qed.

Definition plus (R : bytes -> Z -> Prop) (w : handler) (i : Z) : bytes -> Z -> Prop := fun k j => (k = h_key w /\ j = i) \/ R k j.
Definition room (R : bytes -> Z -> Prop) : Prop := forall i ks, NoDup ks -> (forall k, In k ks -> R k i) -> zlen ks <= 63.

Lemma update_inv size R R' t' D abs a p s c c' :
  (forall b q, nth_error D b = Some q -> holdsp abs R b q) -> zlen D = size -> nth_error D a = Some p -> c = List.length (p_peers p) -> c' = List.length s ->
  shape t' (lupd D a (mkp (p_index p) (p_active p) s)) (moved abs a c c') -> NoDup (List.concat abs) -> (c' < List.length abs)%nat ->
  kwf h_key s -> (forall k, In k (map fst s) <-> R' k (Z.of_nat a)) -> (forall b k, b <> a -> (R' k (Z.of_nat b) <-> R k (Z.of_nat b))) ->
  pinv size R' t'.
Proof.
  intros Hp Hz Ep -> -> Hs' Hn Hlt Hk Hr Ho. exists (lupd D a (mkp (p_index p) (p_active p) s)), (moved abs a (List.length (p_peers p)) (List.length s)).
  split; [exact Hs'|]. split; [unfold zlen in *; now rewrite lupd_length|]. intros b q Eq. rewrite nth_error_lupd in Eq.
  destruct (Hp a p Ep) as (P1 & P2 & P3 & P4 & P5).
  assert (Hla : (a < List.length D)%nat) by (apply nth_error_Some; congruence).
  destruct (Nat.eqb_spec b a) as [->|Hne]; cbn [andb] in Eq.
  - destruct (Nat.ltb_spec a (List.length D)); [|lia]. injection Eq as <-. repeat split; cbn; auto; try apply Hk; try apply Hr.
    apply moved_in; auto.
  - destruct (Hp b q Eq) as (Q1 & Q2 & Q3 & Q4 & Q5). repeat split; auto; try apply Q3.
    + intros Hx. apply Ho; [auto|]. now apply Q4.
    + intros Hx. apply Q4, Ho; auto.
    + apply moved_in; auto.
Qed.

Lemma register_step size R t w i : pinv size R t -> 0 <= i < size -> room (plus R w i) ->
  exists t', register t w i = Ok t' /\ pinv size (plus R w i) t'.
Proof.
  intros Hi Hr Hroom. destruct (pget _ _ _ _ Hi Hr) as (D & abs & p & Hs & Hz & Hp & Ep & En & Ed & Hh).
  unfold register. rewrite En, Ed. cbn [bind]. pose proof Hh as (P1 & P2 & P3 & P4 & P5). rewrite Z2Nat.id in P4 by lia.
  destruct (Has h_key (p_peers p) w) eqn:E; cbn [negb].
  - exists t. split; [reflexivity|]. apply Has_in in E. apply (pinv_ext size R); [|exact Hi]. intros k j. unfold plus. split; [auto|].
    intros [[-> ->]|H]; [now apply P4|exact H].
  - pose proof (count_lt64 _ _ _ _ _ _ Hs Hh) as Hc. unfold Size, zlen, numBuckets.
    replace (Z.of_nat (List.length (p_peers p)) <? 64) with true by lia.
    set (c := List.length (p_peers p)) in *. set (s' := snd (Add h_key (p_peers p) w)).
    assert (Hl' : List.length s' = S c) by (unfold s', Add; rewrite E; cbn; rewrite app_length; cbn; fold c; lia).
    assert (Hc' : (S c < 64)%nat).
    { assert (zlen (map fst s') <= 63).
      { apply (Hroom i); [apply (Add_wf h_key); exact P3|]. intros k Hk. apply kAdd_keys in Hk. unfold plus. destruct Hk as [->|Hk]; [auto|]. right. now apply P4. }
      unfold zlen in H. rewrite map_length, Hl' in H. lia. }
    replace (Z.of_nat c + 1) with (Z.of_nat (S c)) by lia.
    destruct (move_peers t D abs (Z.to_nat i) p c (S c) s' Hs Ep P5 Hc') as (t' & Ht & Hs'). exists t'. split; [exact Ht|].
    assert (HL : List.length abs = 64%nat) by apply Hs.
    rewrite <- Hl' in Hs'.
    refine (update_inv size R (plus R w i) t' D abs (Z.to_nat i) p s' c (List.length s') Hp Hz Ep eq_refl eq_refl Hs' _ _ _ _ _).
    + apply Hs.
    + lia.
    + apply (Add_wf h_key); exact P3.
    + intros k. unfold s'. rewrite kAdd_keys, Z2Nat.id by lia. unfold plus. rewrite P4. tauto.
    + intros b k Hb. unfold plus. split; [|auto]. intros [[_ H]|H]; [lia|exact H].
Qed.

Lemma register_full size R t w i : pinv size R t -> 0 <= i < size -> ~ R (h_key w) i -> (forall ks, NoDup ks -> (forall k, In k ks <-> R k i) -> zlen ks = 63) ->
  register t w i = Panic.
Proof.
  intros Hi Hr Hnr Hfull. destruct (pget _ _ _ _ Hi Hr) as (D & abs & p & Hs & Hz & Hp & Ep & En & Ed & Hh).
  unfold register. rewrite En, Ed. cbn [bind]. pose proof Hh as (P1 & P2 & P3 & P4 & P5). rewrite Z2Nat.id in P4 by lia.
  destruct (Has h_key (p_peers p) w) eqn:E; cbn [negb].
  { apply Has_in in E. exfalso. now apply Hnr, P4. }
  assert (Hc : zlen (map fst (p_peers p)) = 63) by (apply Hfull; [apply P3|exact P4]). unfold zlen in Hc. rewrite map_length in Hc.
  unfold Size, zlen, numBuckets. rewrite Hc. cbn [Z.ltb Z.compare Pos.compare Pos.compare_cont].
  assert (Hc63 : List.length (p_peers p) = 63%nat) by lia. rewrite Hc63 in P5.
  destruct (remove_from t D abs (Z.to_nat i) 63 Hs P5) as (t1 & Ht1 & Hs1). change (Z.of_nat 63) with 63 in Ht1. rewrite Ht1. cbn [bind].
  unfold on_bucket. change (63 + 1 <? 0) with false. cbv iota. assert (HB : List.length (t_buckets t1) = 64%nat).
  { destruct Hs1 as (Hm & _ & HL & _). now rewrite (mrep_length _ _ _ Hm). }
  replace (nth_error (t_buckets t1) (Z.to_nat (63 + 1))) with (@None llist); [reflexivity|]. symmetry. apply nth_error_None. rewrite HB. vm_compute. lia.
Qed.

Definition plusl (R : bytes -> Z -> Prop) (w : handler) (is : list Z) : bytes -> Z -> Prop := fun k j => (h_key w = k /\ In j is) \/ R k j.
Lemma room_sub (R R' : bytes -> Z -> Prop) : (forall k i, R k i -> R' k i) -> room R' -> room R.
Proof. intros H Hr i ks Hn Hk. apply (Hr i ks Hn). auto. Qed.

Lemma Register_step size w is : forall R t, pinv size R t -> Forall (fun i => 0 <= i < size) is -> room (plusl R w is) ->
  exists t', Register t w is = Ok t' /\ pinv size (plusl R w is) t'.
Proof.
  induction is as [|i is IH]; intros R t Hi Hf Hr; cbn [Register].
  - exists t. split; [reflexivity|]. apply (pinv_ext size R); [|exact Hi]. unfold plusl. cbn. tauto.
  - inversion Hf as [|? ? H1 H2]; subst. destruct (register_step size R t w i Hi H1) as (t1 & -> & Hi1).
    { apply (room_sub _ (plusl R w (i :: is))); [|exact Hr]. intros k j [[-> ->]|H]; [left; cbn; auto|right; auto]. }
    cbn [bind]. assert (HX : forall k j, plusl (plus R w i) w is k j <-> plusl R w (i :: is) k j).
    { intros k j. unfold plusl, plus. cbn. intuition. }
    destruct (IH _ _ Hi1 H2) as (t2 & Ht & Hi2).
    { apply (room_sub _ (plusl R w (i :: is))); [|exact Hr]. intros; now apply HX. }
    exists t2. split; [exact Ht|]. exact (pinv_ext _ _ _ _ HX Hi2).
Qed.

Definition plusbf (R : bytes -> Z -> Prop) (w : handler) (bf : bitfield) (lo hi : Z) : bytes -> Z -> Prop :=
  fun k j => (h_key w = k /\ lo <= j < hi /\ Get bf j = Ok true) \/ R k j.
Lemma Get_dec bf i : 0 <= i < 8 * zlen (Data bf) -> exists b, Get bf i = Ok b.
Proof.
  intros H. unfold Get. destruct (Z.ltb_spec i 0); [lia|]. destruct (nth_error (bdat bf) (Z.to_nat (i / 8))) eqn:E; [eauto|].
  apply nth_error_None in E. unfold Data, zlen in H. exfalso. assert (i / 8 < Z.of_nat (List.length (bdat bf))) by (apply Z.div_lt_upper_bound; lia). lia.
Qed.
Lemma registerbf_step size w bf : size < 4294967296 -> forall n lo R t, pinv size R t -> 0 <= lo -> lo + Z.of_nat n <= size -> lo + Z.of_nat n <= 8 * zlen (Data bf) ->
  room (plusbf R w bf lo (lo + Z.of_nat n)) -> exists t', registerbf_loop t w bf n lo = Ok t' /\ pinv size (plusbf R w bf lo (lo + Z.of_nat n)) t'.
Proof.
  intros Hsz. induction n as [|n IH]; intros lo R t Hi Hlo Hb Hd Hr; cbn [registerbf_loop].
  - exists t. split; [reflexivity|]. apply (pinv_ext size R); [|exact Hi]. unfold plusbf. intros k i. split; [auto|]. intros [(_ & H & _)|H]; [lia|exact H].
  - destruct (Get_dec bf lo ltac:(lia)) as [b Eb]. rewrite Eb. cbn [bind].
    assert (HX : exists t1 R1, (if b then register t w (u32 lo) else Ok t) = Ok t1 /\ pinv size R1 t1 /\ (forall k j, plusbf R1 w bf (lo + 1) (lo + 1 + Z.of_nat n) k j <-> plusbf R w bf lo (lo + Z.of_nat (S n)) k j)).
    { destruct b.
      - unfold u32. rewrite Z.mod_small by lia. destruct (register_step size R t w lo Hi ltac:(lia)) as (t1 & Ht & Hi1).
        + apply (room_sub _ (plusbf R w bf lo (lo + Z.of_nat (S n)))); [|exact Hr]. intros k j [[-> ->]|H]; [left; repeat split; auto; lia|right; exact H].
        + exists t1, (plus R w lo). split; [exact Ht|]. split; [exact Hi1|]. intros k j. unfold plusbf, plus. split.
          * intros [(H1 & H2 & H3)|[[-> ->]|H]]; [left; repeat split; auto; lia|left; repeat split; auto; lia|auto].
          * intros [(H1 & H2 & H3)|H]; [|auto]. destruct (Z.eq_dec j lo) as [->|Hne]; [auto|]. left. repeat split; auto; lia.
      - exists t, R. split; [reflexivity|]. split; [exact Hi|]. intros k j. unfold plusbf. split.
        + intros [(H1 & H2 & H3)|H]; [left; repeat split; auto; lia|auto].
        + intros [(H1 & H2 & H3)|H]; [|auto]. destruct (Z.eq_dec j lo) as [->|Hne]; [congruence|]. left. repeat split; auto; lia. }
    destruct HX as (t1 & R1 & -> & Hi1 & HX). cbn [bind]. destruct (IH (lo + 1) R1 t1 Hi1) as (t2 & Ht2 & Hi2); try lia.
    { apply (room_sub _ (plusbf R w bf lo (lo + Z.of_nat (S n)))); [|exact Hr]. intros; now apply HX. }
    exists t2. split; [exact Ht2|]. exact (pinv_ext _ _ _ _ HX Hi2).
Qed.

Lemma RegisterBF_step size w bf R t : size < 4294967296 -> pinv size R t -> Nbits bf <= size -> Nbits bf <= 8 * zlen (Data bf) ->
  room (plusbf R w bf 0 (Nbits bf)) -> exists t', RegisterBF t w bf = Ok t' /\ pinv size (plusbf R w bf 0 (Nbits bf)) t'.
Proof.
  intros Hsz Hi Hb Hd Hr. unfold RegisterBF. destruct (Z.leb_spec 0 (Nbits bf)) as [Hp|Hp].
  - replace (Nbits bf) with (0 + Z.of_nat (Z.to_nat (Nbits bf))) in Hr by lia.
    destruct (registerbf_step size w bf Hsz (Z.to_nat (Nbits bf)) 0 R t Hi ltac:(lia) ltac:(lia) ltac:(lia) Hr) as (t' & Ht & Hi').
    exists t'. split; [exact Ht|]. replace (0 + Z.of_nat (Z.to_nat (Nbits bf))) with (Nbits bf) in Hi' by lia. exact Hi'.
  - replace (Z.to_nat (Nbits bf)) with 0%nat by lia. exists t. split; [reflexivity|]. apply (pinv_ext size R); [|exact Hi]. unfold plusbf.
    intros k i. split; [auto|]. intros [(_ & H & _)|H]; [lia|exact H].
Qed.

Definition minus (R : bytes -> Z -> Prop) (w : handler) (lo hi : Z) : bytes -> Z -> Prop := fun k j => R k j /\ (lo <= j < hi -> h_key w <> k).
Lemma unregister_step size R t w i : pinv size R t -> 0 <= i < size -> exists t', unregister1 t w (Z.to_nat i) = Ok t' /\ pinv size (minus R w i (i + 1)) t'.
Proof.
  intros Hi Hr. destruct (pget _ _ _ _ Hi Hr) as (D & abs & p & Hs & Hz & Hp & Ep & En & Ed & Hh).
  unfold unregister1. rewrite Ed. cbn [bind]. pose proof Hh as (P1 & P2 & P3 & P4 & P5). rewrite Z2Nat.id in P4 by lia.
  destruct (Has h_key (p_peers p) w) eqn:E; cbn [negb].
  - pose proof (count_lt64 _ _ _ _ _ _ Hs Hh) as Hc. unfold Size, zlen, numBuckets.
    replace (Z.of_nat (List.length (p_peers p)) <=? 64) with true by lia.
    set (c := List.length (p_peers p)) in *. set (s' := snd (SetRemove h_key (p_peers p) w)).
    assert (Hl' : S (List.length s') = c) by (apply kRem_length; assumption).
    replace (Z.of_nat c - 1) with (Z.of_nat (List.length s')) by lia.
    destruct (move_peers t D abs (Z.to_nat i) p c (List.length s') s' Hs Ep P5 ltac:(lia)) as (t' & Ht & Hs'). exists t'. split; [exact Ht|].
    assert (HL : List.length abs = 64%nat) by apply Hs.
    refine (update_inv size R (minus R w i (i + 1)) t' D abs (Z.to_nat i) p s' c (List.length s') Hp Hz Ep eq_refl eq_refl Hs' _ _ _ _ _).
    + apply Hs.
    + lia.
    + apply (Rem_wf h_key); exact P3.
    + intros k. unfold s'. rewrite kRem_keys, Z2Nat.id by lia. unfold minus. rewrite P4. split.
      * intros [H1 H2]. split; [exact H2|]. intros _ He. congruence.
      * intros [H1 H2]. split; [|exact H1]. intros ->. apply H2; [lia|reflexivity].
    + intros b k Hb. unfold minus. split; [tauto|]. intros H. split; [exact H|]. intros Hx. lia.
  - exists t. split; [reflexivity|]. apply (pinv_ext size R); [|exact Hi]. intros k j. unfold minus. split; [|tauto]. intros H. split; [exact H|].
    intros Hj He. assert (j = i) by lia. subst j k. assert (Has h_key (p_peers p) w = true) by (apply Has_in, P4; exact H). congruence.
Qed.
Lemma unregister_loop_step size w : forall n lo R t, pinv size R t -> 0 <= lo -> lo + Z.of_nat n <= size ->
  exists t', unregister_loop t w (seq (Z.to_nat lo) n) = Ok t' /\ pinv size (minus R w lo (lo + Z.of_nat n)) t'.
Proof.
  induction n as [|n IH]; intros lo R t Hi Hlo Hb; cbn [unregister_loop seq].
  - exists t. split; [reflexivity|]. apply (pinv_ext size R); [|exact Hi]. unfold minus. intros k j. split; [|tauto]. intros H. split; [exact H|]. lia.
  - destruct (unregister_step size R t w lo Hi ltac:(lia)) as (t1 & -> & Hi1). cbn [bind].
    replace (S (Z.to_nat lo)) with (Z.to_nat (lo + 1)) by lia. destruct (IH (lo + 1) _ _ Hi1) as (t2 & Ht & Hi2); try lia.
    exists t2. split; [exact Ht|]. revert Hi2. apply pinv_ext. intros k j. unfold minus. split.
    + intros [[H1 H2] H3]. split; [exact H1|]. intros Hj. destruct (Z.eq_dec j lo); [apply H2; lia|apply H3; lia].
    + intros [H1 H2]. split; [split; [exact H1|]|]; intros Hj; apply H2; lia.
Qed.

Lemma pinv_reqs size R t who l : pinv size R t -> pinv size R (put_reqs t who l).
Proof. intros (D & abs & (A & C & E & F) & Hz & Hp). exists D, abs. split; [repeat split; auto; apply A|auto]. Qed.

Lemma Unregister_step size R t w : pinv size R t -> (forall k i, R k i -> 0 <= i < size) -> exists t', Unregister t w = Ok t' /\ pinv size (fun k j => h_key w <> k /\ R k j) t'.
Proof.
  intros Hi Hin. unfold Unregister.
  pose proof (pinv_reqs _ _ _ (h_ptr w) (map (fun p => mkp (p_index p) false (p_peers p)) (reqs_of t (h_ptr w))) Hi) as Hi0.
  set (t0 := put_reqs t _ _) in *. pose proof Hi0 as (D & abs & (_ & _ & _ & HN) & Hz & _). rewrite HN.
  assert (Hsz : Z.of_nat (List.length D) = size) by exact Hz.
  destruct (unregister_loop_step size w (List.length D) 0 R t0 Hi0 ltac:(lia) ltac:(lia)) as (t' & Ht & Hi'). exists t'. split; [exact Ht|].
  apply (fun H => pinv_ext _ _ _ _ H Hi'). unfold minus. intros k j. split.
  - intros [H1 H2]. split; [|exact H1]. apply H2. specialize (Hin _ _ H1). lia.
  - intros [H1 H2]. split; [exact H2|]. auto.
Qed.

(** ** NextPiece *)
Definition wants (bf : bitfield) (w : handler) (p : piece) : bool :=
  match Get bf (p_index p) with Ok g => negb g | _ => false end && (negb (p_active p) && Has h_key (p_peers p) w).

Lemma next_in_bucket_spec t D bf w : datas (t_heap t) = D -> forall l q fuel, lseg (t_heap t) q l None -> (List.length l <= fuel)%nat ->
  (forall a, In a l -> exists p g, nth_error D a = Some p /\ Get bf (p_index p) = Ok g) ->
  exists r, next_in_bucket fuel t bf w (first l None) = Ok r /\
    match r with
    | Some p => exists a, In a l /\ nth_error D a = Some p /\ wants bf w p = true
    | None => forall a p, In a l -> nth_error D a = Some p -> wants bf w p = false
    end.
Proof.
  intros HD. induction l as [|a l IH]; intros q fuel Hl Hf Hg; cbn [first].
  - exists None. split; [destruct fuel; reflexivity|]. intros a p [].
  - destruct fuel as [|fuel]; [cbn in Hf; lia|]. cbn [next_in_bucket]. destruct (Hg a (or_introl eq_refl)) as (p & g & Ep & Eg).
    assert (End : node_data t a = Ok p).
    { subst D. rewrite datas_nth in Ep. unfold node_data. destruct (nth_error (t_heap t) a); [|discriminate]. congruence. }
    rewrite End. cbn [bind]. rewrite Eg. cbn [bind].
    assert (Hw : wants bf w p = negb g && (negb (p_active p) && Has h_key (p_peers p) w)) by (unfold wants; now rewrite Eg).
    rewrite <- Hw. destruct (wants bf w p) eqn:Ew.
    + exists (Some p). split; [reflexivity|]. exists a. cbn; auto.
    + cbn [lseg] in Hl. destruct Hl as [[d Ea] Hl]. unfold Next. rewrite Ea. cbn [bind nnext].
      destruct (IH (Some a) fuel Hl) as (r & -> & Hr); [cbn in Hf; lia|intros; apply Hg; now right|].
      exists r. split; [reflexivity|]. destruct r as [p'|].
      * destruct Hr as (a' & H1 & H2 & H3). exists a'. cbn; auto.
      * intros a' p' [<-|Hin] E'; [congruence|eauto].
Qed.

Lemma next_loop_spec t D bf w fuel : datas (t_heap t) = D -> forall buckets abs, Forall2 (rep (t_heap t)) buckets abs ->
  (List.length (t_heap t) <= fuel)%nat ->
  (forall a p, nth_error D a = Some p -> exists g, Get bf (p_index p) = Ok g) ->
  exists r, next_loop fuel t bf w buckets = Ok r /\
    match r with
    | Some p => exists j a, In a (nth j abs []) /\ nth_error D a = Some p /\ wants bf w p = true /\
                  forall j' a' p', (j' < j)%nat -> In a' (nth j' abs []) -> nth_error D a' = Some p' -> wants bf w p' = false
    | None => forall j a p, In a (nth j abs []) -> nth_error D a = Some p -> wants bf w p = false
    end.
Proof.
  intros HD buckets abs HF Hfuel Hg. induction HF as [|ll l buckets abs Hr HF IH]; cbn [next_loop].
  - exists None. split; [reflexivity|]. intros [|j] a p [].
  - pose proof (rep_bound _ _ _ Hr) as Hb. destruct Hr as (Hh & _ & _ & Hl). rewrite Hh.
    destruct (next_in_bucket_spec t D bf w HD l None fuel Hl ltac:(lia)) as (r & -> & Hres).
    { intros a Ha. destruct (In_nth_error _ _ Ha) as [i Hi]. destruct (lseg_links _ _ _ _ Hl _ _ Hi) as [A _]. unfold Next in A.
      destruct (nth_error (t_heap t) a) as [n|] eqn:En; [|discriminate]. assert (Ed : nth_error D a = Some (ndata n)) by (subst D; now rewrite datas_nth, En).
      destruct (Hg _ _ Ed) as [g Eg]. eauto. }
    cbn [bind]. destruct r as [p|].
    + exists (Some p). split; [reflexivity|]. destruct Hres as (a & H1 & H2 & H3). exists 0%nat, a. repeat split; auto. intros; lia.
    + destruct IH as (r & -> & Hr2). exists r. split; [reflexivity|]. destruct r as [p|].
      * destruct Hr2 as (j & a & H1 & H2 & H3 & H4). exists (S j), a. repeat split; auto. intros [|j'] a' p' Hlt Hin Ep; [eauto|]. eapply H4; [|exact Hin|exact Ep]. lia.
      * intros [|j] a p Hin Ep; [eauto|]. eapply Hr2; eassumption.
Qed.

Lemma NextPiece_spec size R t bf w : pinv size R t -> size <= 8 * zlen (Data bf) -> (forall k i, R k i -> 0 <= i < size) ->
  let cand i := 0 <= i < size /\ Get bf i = Ok false /\ R (h_key w) i in
  let count i n := exists ks, NoDup ks /\ (forall k, In k ks <-> R k i) /\ zlen ks = n in
  (exists i t', NextPiece t bf w = Ok (i, true, t') /\ pinv size R t' /\ cand i /\
     forall j n m, cand j -> count i n -> count j m -> n <= m) \/
  (NextPiece t bf w = Ok (0, false, t) /\ forall i, ~ cand i).
Proof.
  intros (D & abs & Hs & Hz & Hp) Hbf Hin cand count.
  assert (Hg : forall a p, nth_error D a = Some p -> exists g, Get bf (p_index p) = Ok g).
  { intros a p E. destruct (Hp a p E) as (-> & _). apply Get_dec. assert (a < List.length D)%nat by (apply nth_error_Some; congruence). unfold zlen in Hz. lia. }
  assert (Hw : forall a p, nth_error D a = Some p -> (wants bf w p = true <-> cand (Z.of_nat a))).
  { intros a p E. destruct (Hp a p E) as (P1 & P2 & P3 & P4 & P5). destruct (Hg a p E) as [g Eg].
    assert (Hla : (a < List.length D)%nat) by (apply nth_error_Some; congruence).
    unfold wants, cand. rewrite Eg, P2. cbn [negb andb]. rewrite P1 in Eg. rewrite andb_true_iff, negb_true_iff, Has_in, P4, Eg.
    unfold zlen in Hz. split.
    - intros [-> H]. repeat split; auto; lia.
    - intros (_ & H & H'). split; [congruence|exact H']. }
  assert (Hcand : forall i, cand i -> exists a p, i = Z.of_nat a /\ nth_error D a = Some p /\ wants bf w p = true).
  { intros i Hc. pose proof Hc as (Hr & _). destruct (nth_error D (Z.to_nat i)) as [p|] eqn:E.
    2:{ apply nth_error_None in E. unfold zlen in Hz. lia. }
    exists (Z.to_nat i), p. split; [lia|]. split; [exact E|]. apply (Hw _ _ E). now rewrite Z2Nat.id by lia. }
  assert (Hcnt : forall a p n, nth_error D a = Some p -> count (Z.of_nat a) n -> n = Z.of_nat (List.length (p_peers p))).
  { intros a p n E (ks & Hn & Hk & <-). destruct (Hp a p E) as (P1 & P2 & [P3 _] & P4 & P5). unfold zlen. f_equal.
    rewrite <- (map_length fst (p_peers p)). apply Nat.le_antisymm; apply NoDup_incl_length; auto; intros k Hx; [apply P4, Hk; exact Hx|apply Hk, P4; exact Hx]. }
  destruct Hs as (Hm & HD & HL & HN). destruct abs as [|l0 abs]; [discriminate|].
  destruct Hm as [HF HND]. inversion HF as [|b0 ? bs ? Hr0 HF' EB]; subst.
  assert (Hpos : forall a p, nth_error (datas (t_heap t)) a = Some p -> wants bf w p = true -> exists j, List.length (p_peers p) = S j).
  { intros a p E Ew. apply (Hw _ _ E) in Ew. destruct Ew as (_ & _ & HR). destruct (Hp a p E) as (_ & _ & _ & P4 & _).
    apply P4 in HR. destruct (p_peers p); [contradiction|]. cbn. eauto. }
  unfold NextPiece. rewrite <- EB. cbn [skipn].
  destruct (next_loop_spec t _ bf w (List.length (t_heap t)) eq_refl bs abs HF' (le_n _) Hg) as (r & -> & Hr). cbn [bind]. destruct r as [p|].
  - left. destruct Hr as (j & a & H1 & H2 & H3 & H4). destruct (Hp a p H2) as (P1 & P2 & P3 & P4 & P5).
    exists (p_index p). eexists. split; [reflexivity|]. split.
    { apply pinv_reqs. exists (datas (t_heap t)), (l0 :: abs). split; [repeat split; auto; rewrite <- EB; auto|]. split; [reflexivity|exact Hp]. }
    rewrite P1. split; [now apply (Hw _ _ H2)|]. intros i n m Hc Hn Hm'.
    destruct (Hcand i Hc) as (a' & p' & -> & E' & Ew'). rewrite (Hcnt _ _ _ H2 Hn), (Hcnt _ _ _ E' Hm').
    destruct (Hp a' p' E') as (Q1 & Q2 & Q3 & Q4 & Q5).
    assert (Hj : List.length (p_peers p) = S j) by (eapply disjoint_seqs; [exact HND|exact P5|exact H1]).
    destruct (Hpos _ _ E' Ew') as [j' Hj']. rewrite Hj, Hj'. rewrite Hj' in Q5. cbn [nth] in Q5.
    destruct (le_lt_dec j j') as [Hle|Hlt]; [lia|]. rewrite (H4 j' a' p' Hlt Q5 E') in Ew'. discriminate.
  - right. split; [reflexivity|]. intros i Hc. destruct (Hcand i Hc) as (a' & p' & -> & E' & Ew').
    destruct (Hp a' p' E') as (Q1 & Q2 & Q3 & Q4 & Q5). destruct (Hpos _ _ E' Ew') as [j' Hj']. rewrite Hj' in Q5. cbn [nth] in Q5.
    rewrite (Hr j' a' p' Q5 E') in Ew'. discriminate.
Qed.

(** NextPiece leaves nothing behind that a later NextPiece can see. *)
Lemma next_in_bucket_same t t' bf w : t_heap t = t_heap t' -> forall fuel cur, next_in_bucket fuel t bf w cur = next_in_bucket fuel t' bf w cur.
Proof.
  intros H. induction fuel as [|fuel IH]; intros [a|]; cbn [next_in_bucket]; try reflexivity.
  unfold node_data. rewrite H. destruct (nth_error (t_heap t') a); cbn [bind]; [|reflexivity].
  destruct (Get bf (p_index (ndata n))); cbn [bind]; try reflexivity. destruct (negb a0 && _); [reflexivity|].
  destruct (Next (t_heap t') a); cbn [bind]; try reflexivity. apply IH.
Qed.
Lemma next_loop_same t t' bf w fuel : t_heap t = t_heap t' -> forall bs, next_loop fuel t bf w bs = next_loop fuel t' bf w bs.
Proof. intros H. induction bs as [|l bs IH]; cbn [next_loop]; [reflexivity|]. rewrite (next_in_bucket_same t t' bf w H). destruct (next_in_bucket _ _ _ _ _) as [[p|]| | |]; cbn [bind]; auto. Qed.

Definition answer (r : res (Z * bool * ppt)) : res (Z * bool) := do '(i, ok, _) <- r; Ok (i, ok).
Lemma NextPiece_repeat t bf w i ok t' : NextPiece t bf w = Ok (i, ok, t') -> forall bf' w', answer (NextPiece t' bf' w') = answer (NextPiece t bf' w').
Proof.
  intros H bf' w'. assert (E : t_heap t = t_heap t' /\ t_buckets t = t_buckets t').
  { unfold NextPiece in H. destruct (next_loop _ _ _ _ _) as [[p|]| | |]; cbn [bind] in H; try discriminate; injection H as _ _ <-; auto. }
  destruct E as [E1 E2]. unfold NextPiece. rewrite <- E1, <- E2, (next_loop_same t t' bf' w' _ E1).
  destruct (next_loop _ _ _ _ _) as [[p|]| | |]; reflexivity.
Qed.

(** ** The initial state *)
Lemma new_loop_spec size : forall n i h b0 nodes, sim (h, [b0]) (mkal (map (fun a => mkp (Z.of_nat a) false MakeSet) (seq 0 i)) [rev (seq 0 i)]) ->
  nodes = seq 0 i -> (i + n)%nat = size -> exists h' b0', new_loop n (Z.of_nat i) h b0 nodes = Ok (h', b0', seq 0 size) /\
    sim (h', [b0']) (mkal (map (fun a => mkp (Z.of_nat a) false MakeSet) (seq 0 size)) [rev (seq 0 size)]).
Proof.
  induction n as [|n IH]; intros i h b0 nodes Hs Hn Hi; cbn [new_loop].
  - replace i with size in * by lia. subst. eauto.
  - destruct (sim_step _ _ (LAddData 0 (mkp (Z.of_nat i) false MakeSet)) Hs) as (s' & Hst & Hs'); [cbn; lia|].
    cbn [lstep nth_error] in Hst. assert (Hlen : List.length h = i).
    { destruct Hs as [_ Hd]. cbn [fst al_data] in Hd. apply (f_equal (@List.length piece)) in Hd. unfold datas in Hd. rewrite !map_length, seq_length in Hd. exact Hd. }
    unfold AddDataFront in *. destruct (AddNodeFront (h ++ _) b0 (List.length h)) as [[h1 b1]| | |]; cbn [bind] in *; try discriminate. injection Hst as <-.
    rewrite Hlen. replace (Z.of_nat i + 1) with (Z.of_nat (S i)) by lia.
    apply IH; [|subst nodes; rewrite seq_S; reflexivity|lia]. cbn [astep lupd al_seqs al_data seq_of nth] in Hs'.
    rewrite map_length, seq_length in Hs'. rewrite seq_S, map_app, rev_app_distr. cbn [rev map app plus]. exact Hs'.
Qed.

Lemma concat_nils {X} n : List.concat (repeat (@nil X) n) = [].
Proof. induction n; cbn; auto. Qed.
Lemma New_pinv size : 0 <= size -> exists t, NewPeerPieceTracker size = Ok t /\ pinv size (fun _ _ => False) t.
Proof.
  intros Hs. destruct (new_loop_spec (Z.to_nat size) (Z.to_nat size) 0 [] MakeList []) as (h & b0 & Hl & [Hm Hd]); [|reflexivity|lia|].
  { split; [|reflexivity]. split; [repeat constructor|constructor]. }
  unfold NewPeerPieceTracker. change (Z.of_nat 0) with 0 in Hl. rewrite Hl. cbn [bind]. eexists. split; [reflexivity|].
  cbn [fst snd al_seqs al_data] in Hm, Hd.
  exists (map (fun a => mkp (Z.of_nat a) false MakeSet) (seq 0 (Z.to_nat size))), (rev (seq 0 (Z.to_nat size)) :: repeat [] 63).
  split; [|split].
  - split; [|split; [exact Hd|split; [cbn [List.length]; now rewrite repeat_length|cbn [t_nodes]; now rewrite map_length, seq_length]]].
    cbn [t_heap t_buckets]. destruct Hm as [HF HN]. inversion HF as [|? ? ? ? Hr0 _]; subst. split.
    + constructor; [exact Hr0|]. change (Z.to_nat (numBuckets - 1)) with 63%nat. generalize 63%nat. intros n. induction n as [|n IHn]; cbn; constructor; [repeat split; constructor|exact IHn].
    + cbn [List.concat] in *. rewrite concat_nils. exact HN.
  - unfold zlen. rewrite map_length, seq_length. lia.
  - intros a p E. rewrite nth_error_map in E. assert (Ha : (a < Z.to_nat size)%nat).
    { destruct (nth_error (seq 0 (Z.to_nat size)) a) eqn:E'; [|discriminate]. rewrite <- (seq_length (Z.to_nat size) 0). apply nth_error_Some. congruence. }
    rewrite nth_seq in E by exact Ha. cbn in E. injection E as <-. repeat split; cbn; auto; try constructor; try contradiction.
    rewrite <- in_rev. apply in_seq. lia.
Qed.

(** ** Histories *)
Lemma registered_inside size hist : Forall (pdomain size) hist -> forall k i, registered hist k i -> 0 <= i < size.
Proof.
  induction 1 as [|o hist Ho _ IH]; intros k i H; cbn [registered] in H; [contradiction|]. destruct o as [w is|w bf|w|w bf]; cbn [pdomain] in Ho.
  - destruct H as [[_ H]|H]; [|eauto]. rewrite Forall_forall in Ho. exact (Ho _ H).
  - destruct H as [(_ & H & _)|H]; [lia|eauto].
  - destruct H as [_ H]. eauto.
  - eauto.
Qed.
Lemma prun_app a : forall t b, prun t (a ++ b) = do t' <- prun t a; prun t' b.
Proof. induction a as [|o a IH]; intros t b; cbn [app prun]; [reflexivity|]. destruct (pstep t o); cbn [bind]; auto. Qed.
Lemma never64_app a b : never64 (a ++ b) -> never64 a.
Proof.
  intros H n. destruct (le_lt_dec n (List.length a)) as [Hle|Hlt].
  - specialize (H n). rewrite firstn_app in H. replace (n - List.length a)%nat with 0%nat in H by lia. now rewrite firstn_O, app_nil_r in H.
  - rewrite firstn_all2 by lia. specialize (H (List.length a)). rewrite firstn_app, Nat.sub_diag, firstn_O, app_nil_r, firstn_all in H. exact H.
Qed.
Lemma never64_all a : never64 a -> at_most_63 (rev a).
Proof. intros H. specialize (H (List.length a)). now rewrite firstn_all in H. Qed.

Lemma run_pinv size ops : pvalid size ops -> exists t, (do t0 <- NewPeerPieceTracker size; prun t0 ops) = Ok t /\ pinv size (registered (rev ops)) t.
Proof.
  intros (Hsz & Hd & H64). destruct (New_pinv size (proj1 Hsz)) as (t0 & -> & Hi0). cbn [bind].
  induction ops as [|o ops IH] using rev_ind.
  - exists t0. split; [reflexivity|exact Hi0].
  - apply Forall_app in Hd. destruct Hd as [Hd Ho]. inversion Ho as [|? ? Ho' _]; subst.
    destruct (IH Hd (never64_app _ _ H64)) as (t & Ht & Hi). rewrite prun_app, Ht. cbn [bind prun].
    pose proof (never64_all _ H64) as Hr. rewrite rev_app_distr in Hr |- *. cbn [rev app] in Hr |- *.
    assert (Hin : forall k i, registered (rev ops) k i -> 0 <= i < size) by (apply registered_inside, Forall_rev, Hd).
    destruct o as [w is|w bf|w|w bf]; cbn [pstep pdomain registered] in *.
    + destruct (Register_step size w is _ _ Hi Ho' Hr) as (t' & -> & Hi'). exists t'. split; [reflexivity|exact Hi'].
    + destruct (RegisterBF_step size w bf _ _ (proj2 Hsz) Hi (proj1 Ho') (proj2 Ho') Hr) as (t' & -> & Hi'). exists t'. split; [reflexivity|exact Hi'].
    + destruct (Unregister_step size _ _ w Hi Hin) as (t' & -> & Hi'). exists t'. split; [reflexivity|exact Hi'].
    + destruct (NextPiece_spec size _ _ bf w Hi Ho' Hin) as [(i & t' & -> & Hi' & _)|[-> _]]; cbn [bind]; [exists t'|exists t]; split; auto.
Qed.

Lemma shape_bucket t D abs j : shape t D abs -> (j < 64)%nat -> (forall a p, nth_error D a = Some p -> p_index p = Z.of_nat a) ->
  bucket t (Z.of_nat j) = Ok (map Z.of_nat (nth j abs [])).
Proof.
  intros (Hm & HD & HL & HN) Hj Hidx. unfold bucket. rewrite Nat2Z.id.
  destruct (mrep_nth _ _ _ j _ Hm (nth_ok abs j ltac:(lia))) as (ll & -> & Hr). pose proof (rep_bound _ _ _ Hr) as Hb. destruct Hr as (Hh & _ & _ & Hl).
  rewrite Hh, (walk_lseg _ _ _ _ Hl Hb). cbn [bind].
  assert (Hall : forall a, In a (nth j abs []) -> exists n, nth_error (t_heap t) a = Some n).
  { intros a Ha. destruct (In_nth_error _ _ Ha) as [i Hi]. destruct (lseg_links _ _ _ _ Hl _ _ Hi) as [A _]. unfold Next in A.
    destruct (nth_error (t_heap t) a); [eauto|discriminate]. }
  clear -Hall HD Hidx. induction (nth j abs []) as [|a l IH]; cbn [indices_at map]; [reflexivity|].
  destruct (Hall a (or_introl eq_refl)) as [n En]. rewrite En, IH by (intros; apply Hall; now right). cbn [bind]. do 2 f_equal.
  apply Hidx. subst D. now rewrite datas_nth, En.
Qed.

Lemma pinv_count size R t D abs : shape t D abs -> zlen D = size -> (forall a p, nth_error D a = Some p -> holdsp abs R a p) ->
  forall i, 0 <= i < size -> exists p, nth_error D (Z.to_nat i) = Some p /\ (forall n, (exists ks, NoDup ks /\ (forall k, In k ks <-> R k i) /\ zlen ks = n) <-> n = Z.of_nat (List.length (p_peers p))).
Proof.
  intros Hs Hz Hp i Hi. destruct (nth_error D (Z.to_nat i)) as [p|] eqn:E; [|apply nth_error_None in E; unfold zlen in Hz; lia].
  exists p. split; [reflexivity|]. destruct (Hp _ _ E) as (P1 & P2 & [P3 _] & P4 & P5). rewrite Z2Nat.id in P4 by lia. intros n. split.
  - intros (ks & Hn & Hk & <-). unfold zlen. f_equal. rewrite <- (map_length fst (p_peers p)).
    apply Nat.le_antisymm; apply NoDup_incl_length; auto; intros k Hx; [apply P4, Hk; exact Hx|apply Hk, P4; exact Hx].
  - intros ->. exists (map fst (p_peers p)). split; [exact P3|]. split; [exact P4|]. unfold zlen. now rewrite map_length.
Qed.

Lemma pinv_lists size R t i k : pinv size R t -> 0 <= i < size -> (lists t i k <-> R k i).
Proof.
  intros Hi Hr. destruct (pget _ _ _ _ Hi Hr) as (D & abs & p & Hs & Hz & Hp & Ep & En & Ed & (P1 & P2 & P3 & P4 & P5)).
  rewrite Z2Nat.id in P4 by lia. rewrite <- P4. unfold node_data in Ed. destruct (nth_error (t_heap t) (Z.to_nat i)) as [n|] eqn:Eh; [|discriminate].
  injection Ed as Ed. unfold lists. split.
  - intros (a & n' & H1 & H2 & H3). rewrite En in H1. injection H1 as <-. rewrite Eh in H2. injection H2 as <-. rewrite Ed in H3.
    destruct (in_dec bytes_dec k (map fst (p_peers p))) as [Hd|Hd]; [exact Hd|]. apply kget_none in Hd. congruence.
  - intros H. exists (Z.to_nat i), n. split; [exact En|]. split; [exact Eh|]. rewrite Ed. intros Hx. apply kget_none in Hx. contradiction.
Qed.

Lemma bookkeeping_top size ops : pvalid size ops -> exists t, (do t0 <- NewPeerPieceTracker size; prun t0 ops) = Ok t /\
  (forall i, 0 <= i < size -> exists n, 0 <= n <= 63 /\ npeers (rev ops) i n /\ forall m, npeers (rev ops) i m -> m = n) /\
  (forall j, 0 <= j <= 63 -> exists l, bucket t j = Ok l /\ NoDup l /\ forall i, In i l <-> 0 <= i < size /\ npeers (rev ops) i j) /\
  (forall i k, 0 <= i < size -> (lists t i k <-> registered (rev ops) k i)).
Proof.
  intros Hv. destruct (run_pinv size ops Hv) as (t & Ht & Hi). exists t. split; [exact Ht|].
  pose proof Hi as (D & abs & Hs & Hz & Hp).
  split; [|split].
  - intros i Hr. destruct (pinv_count _ _ _ _ _ Hs Hz Hp i Hr) as (p & Ep & Hc). pose proof (count_lt64 _ _ _ _ _ _ Hs (Hp _ _ Ep)).
    exists (Z.of_nat (List.length (p_peers p))). split; [lia|]. split; [now apply Hc|]. intros m Hm. now apply Hc.
  - intros j Hj. assert (Hb : bucket t j = Ok (map Z.of_nat (nth (Z.to_nat j) abs []))).
    { rewrite <- (shape_bucket t D abs (Z.to_nat j) Hs ltac:(lia)); [now rewrite Z2Nat.id by lia|]. intros a p E. apply (Hp a p E). }
    eexists. split; [exact Hb|]. destruct Hs as ([HF HND] & HD & HL & HN). split.
    + assert (NoDup (nth (Z.to_nat j) abs [])).
      { assert (Hlt : (Z.to_nat j < List.length abs)%nat) by lia. destruct (mrep_nth _ _ _ _ _ (conj HF HND) (nth_ok abs _ Hlt)) as (ll & _ & (_ & _ & Hn & _)). exact Hn. }
      clear -H. induction H as [|x l Hx Hn IH]; cbn; constructor; [|exact IH]. intros Hin. apply in_map_iff in Hin. destruct Hin as (y & E & Hy). apply Nat2Z.inj in E. congruence.
    + assert (Hs : shape t D abs) by (repeat split; auto). intros i. rewrite in_map_iff. split.
      * intros (a & <- & Ha). assert (Hal : (a < List.length D)%nat).
        { assert (Hx : In a (List.concat abs)) by (eapply in_concat_nth; [eapply nth_lt; exact Ha|exact Ha]). pose proof (mrep_inside _ _ _ _ (conj HF HND) Hx) as Hlt.
          rewrite <- HD. unfold datas. now rewrite map_length. }
        assert (Hr : 0 <= Z.of_nat a < size) by (unfold zlen in Hz; lia). split; [exact Hr|].
        destruct (pinv_count _ _ _ _ _ Hs Hz Hp _ Hr) as (p & Ep & Hc). rewrite Nat2Z.id in Ep. apply Hc.
        destruct (Hp _ _ Ep) as (_ & _ & _ & _ & P5). rewrite <- (disjoint_seqs _ HND _ _ _ Ha P5). lia.
      * intros [Hr Hn]. destruct (pinv_count _ _ _ _ _ Hs Hz Hp _ Hr) as (p & Ep & Hc). apply Hc in Hn. exists (Z.to_nat i). split; [lia|].
        destruct (Hp _ _ Ep) as (_ & _ & _ & _ & P5). subst j. now rewrite Nat2Z.id.
  - intros i k Hr. now apply (pinv_lists size).
Qed.

Lemma valid_inside size ops : pvalid size ops -> forall k i, registered (rev ops) k i -> 0 <= i < size.
Proof. intros (_ & Hd & _). apply registered_inside, Forall_rev, Hd. Qed.

Lemma next_top size ops bf w : pvalid size ops -> size <= 8 * zlen (Data bf) -> exists t i ok t',
  (do t0 <- NewPeerPieceTracker size; prun t0 ops) = Ok t /\ NextPiece t bf w = Ok (i, ok, t') /\
  if ok then candidate size (rev ops) bf w i /\
             forall j n m, candidate size (rev ops) bf w j -> npeers (rev ops) i n -> npeers (rev ops) j m -> n <= m
  else i = 0 /\ forall j, ~ candidate size (rev ops) bf w j.
Proof.
  intros Hv Hb. destruct (run_pinv size ops Hv) as (t & Ht & Hi).
  destruct (NextPiece_spec size _ t bf w Hi Hb (valid_inside _ _ Hv)) as [(i & t' & Hn & _ & Hc & Hmin)|[Hn Hno]].
  - exists t, i, true, t'. auto.
  - exists t, 0, false, t. auto.
Qed.

Lemma valid_snoc size ops o : pvalid size ops -> pdomain size o -> at_most_63 (o :: rev ops) -> pvalid size (ops ++ [o]).
Proof.
  intros (Hsz & Hd & H64) Ho H63. split; [exact Hsz|]. split; [apply Forall_app; split; auto|]. intros n.
  destruct (le_lt_dec n (List.length ops)) as [Hle|Hlt].
  - rewrite firstn_app. replace (n - List.length ops)%nat with 0%nat by lia. rewrite firstn_O, app_nil_r. apply H64.
  - rewrite firstn_all2 by (rewrite app_length; cbn; lia). rewrite rev_app_distr. exact H63.
Qed.

Lemma sixtyfour_top size ops w i n : pvalid size ops -> 0 <= i < size -> ~ registered (rev ops) (h_key w) i -> npeers (rev ops) i n ->
  exists t, (do t0 <- NewPeerPieceTracker size; prun t0 ops) = Ok t /\ 0 <= n <= 63 /\
    (n = 63 -> Register t w [i] = Panic) /\ (n < 63 -> exists t', Register t w [i] = Ok t').
Proof.
  intros Hv Hr Hnr Hn. destruct (run_pinv size ops Hv) as (t & Ht & Hi). exists t. split; [exact Ht|].
  destruct Hn as (ks & N1 & N2 & N3). split; [|split].
  - split; [rewrite <- N3; apply zlen_nonneg|]. destruct Hv as (_ & _ & H64). rewrite <- N3. apply (never64_all _ H64 i ks N1). intros; now apply N2.
  - intros ->. cbn [Register]. rewrite (register_full size _ t w i Hi Hr Hnr); [reflexivity|]. intros ks' Hn' Hk'. rewrite <- N3. unfold zlen. f_equal.
    apply Nat.le_antisymm; apply NoDup_incl_length; auto; intros k Hx; [apply N2, Hk'; exact Hx|apply Hk', N2; exact Hx].
  - intros Hlt. cbn [Register]. destruct (register_step size _ t w i Hi Hr) as (t' & -> & _); [|cbn [bind]; eauto].
    intros j ks' Hn' Hk'. destruct (Z.eq_dec j i) as [->|Hne].
    + assert (Hle : (List.length ks' <= List.length (h_key w :: ks))%nat).
      { apply NoDup_incl_length; [exact Hn'|]. intros k Hx. destruct (Hk' k Hx) as [[-> _]|Hreg]; [now left|right; now apply N2]. }
      cbn [List.length] in Hle. unfold zlen in *. lia.
    + destruct Hv as (_ & _ & H64). apply (never64_all _ H64 j ks' Hn'). intros k Hx. destruct (Hk' k Hx) as [[_ H]|H]; [contradiction|exact H].
Qed.

Lemma unregister_top size ops w : pvalid size ops -> exists t t', (do t0 <- NewPeerPieceTracker size; prun t0 ops) = Ok t /\ Unregister t w = Ok t' /\
  (forall i k, 0 <= i < size -> (lists t' i k <-> k <> h_key w /\ lists t i k)) /\
  (forall bf, size <= 8 * zlen (Data bf) -> NextPiece t' bf w = Ok (0, false, t')).
Proof.
  intros Hv. destruct (run_pinv size ops Hv) as (t & Ht & Hi). destruct (Unregister_step size _ t w Hi (valid_inside _ _ Hv)) as (t' & Hu & Hi').
  exists t, t'. split; [exact Ht|]. split; [exact Hu|]. split.
  - intros i k Hr. rewrite (pinv_lists _ _ _ _ _ Hi' Hr), (pinv_lists _ _ _ _ _ Hi Hr). intuition.
  - intros bf Hb. destruct (NextPiece_spec size _ t' bf w Hi' Hb) as [(i & t2 & _ & _ & (_ & _ & [H _]) & _)|[Hn _]].
    + intros k i [_ H]. exact (valid_inside _ _ Hv _ _ H).
    + congruence.
    + exact Hn.
Qed.

(** ** Bitfield messages *)
Lemma SetNbits_keeps bf n : Nbytes bf = zlen (Data bf) -> Nbytes bf = bytes_for n -> 0 <= n -> exists bf', SetNbits bf n = Ok bf' /\ Nbits bf' = n /\ Data bf' = Data bf.
Proof.
  intros H1 H2 Hn. unfold SetNbits. unfold bytes_for, Nbytes in *. rewrite H2.
  assert (Hb : (n + 7) / 8 * 8 <= n + 7 < (n + 7) / 8 * 8 + 8) by (Z.div_mod_to_equations; lia).
  replace (n <? ((n + 7) / 8 - 1) * 8) with false by lia. replace ((n + 7) / 8 * 8 <? n) with false by lia. cbn [orb].
  unfold Data in H1. rewrite calcNset_ok by (unfold zlen in *; lia). eexists. split; [reflexivity|]. auto.
Qed.

Lemma Get_data bf bf' i : Data bf' = Data bf -> Get bf' i = Get bf i.
Proof. unfold Get, Data. now intros ->. Qed.

Lemma Get_bit bf i : 0 <= i < 8 * zlen (Data bf) -> Get bf i = Ok (nth (Z.to_nat i) (bits_of (Data bf)) false).
Proof.
  intros Hi. unfold Get, Data in *. replace (i <? 0) with false by lia.
  assert (Hl : (Z.to_nat i < List.length (bits_of (bdat bf)))%nat) by (rewrite bits_of_length; unfold zlen in Hi; lia).
  destruct (bits_of_nth (bdat bf) (Z.to_nat i) Hl) as (b & Hb & Ht & _).
  replace (Z.to_nat (i / 8)) with (Z.to_nat i / 8)%nat by (Z.div_mod_to_equations; pose proof (Nat.div_mod (Z.to_nat i) 8 ltac:(lia)); pose proof (Nat.mod_upper_bound (Z.to_nat i) 8 ltac:(lia)); lia). rewrite Hb.
  replace (i mod 8) with (Z.of_nat (Z.to_nat i mod 8)) by (rewrite Nat2Z.inj_mod, Z2Nat.id by lia; reflexivity). now rewrite Ht.
Qed.

Lemma handle_bf_top size ops own w old bf : pvalid size ops -> Nbytes own = bytes_for size -> Nbytes bf = zlen (Data bf) -> Nbytes bf = bytes_for size ->
  (forall i ks, NoDup ks -> (forall k, In k ks -> announced size (rev ops) w (bits_of (Data bf)) k i) -> zlen ks <= 63) ->
  exists t t' bf', (do t0 <- NewPeerPieceTracker size; prun t0 ops) = Ok t /\ handleBitfield t own size w old bf = (Ok tt, t', bf') /\
    (forall i k, 0 <= i < size -> (lists t' i k <-> announced size (rev ops) w (bits_of (Data bf)) k i)) /\
    Nbits bf' = size /\ Data bf' = Data bf /\
    pvalid size (ops ++ [PRegisterBF w bf']) /\ (do t0 <- NewPeerPieceTracker size; prun t0 (ops ++ [PRegisterBF w bf'])) = Ok t'.
Proof.
  intros Hv Ho H1 H2 H63. destruct (run_pinv size ops Hv) as (t & Ht & Hi).
  pose proof Hv as (Hsz & _). destruct (SetNbits_keeps bf size H1 H2 (proj1 Hsz)) as (bf' & Hn & Hnb & Hd).
  assert (HL : size <= 8 * zlen (Data bf')).
  { rewrite Hd, <- H1, H2. unfold bytes_for. Z.div_mod_to_equations. lia. }
  assert (HX : forall k i, (h_key w = k /\ 0 <= i < Nbits bf' /\ Get bf' i = Ok true) \/ registered (rev ops) k i <-> announced size (rev ops) w (bits_of (Data bf)) k i).
  { intros k i. unfold announced. rewrite Hnb. split; (intros [(A & C & E)|H]; [|auto]); left; (split; [exact A|]); (split; [exact C|]);
      rewrite Get_bit in * by lia; rewrite Hd in *; congruence. }
  assert (Hroom : room (plusbf (registered (rev ops)) w bf' 0 (Nbits bf'))).
  { intros i ks N K. apply (H63 i ks N). intros k Hk. apply HX. exact (K k Hk). }
  destruct (RegisterBF_step size w bf' _ t (proj2 Hsz) Hi ltac:(lia) ltac:(lia) Hroom) as (t' & Hr & Hi').
  exists t, t', bf'. split; [exact Ht|]. split.
  { unfold handleBitfield. rewrite Ho, H2, Z.eqb_refl. cbn [negb]. now rewrite Hn, Hr. }
  split; [intros i k Hri; rewrite (pinv_lists _ _ _ _ _ Hi' Hri); apply HX|]. split; [exact Hnb|]. split; [exact Hd|]. split.
  - apply valid_snoc; [exact Hv|cbn [pdomain]; lia|]. intros i ks N K. exact (Hroom i ks N K).
  - destruct (NewPeerPieceTracker size) as [t0| | |]; cbn [bind] in *; try discriminate. rewrite prun_app, Ht. cbn [bind prun pstep]. now rewrite Hr.
Qed.

Lemma handle_bf_bad t own size w old bf : Nbytes bf <> Nbytes own -> handleBitfield t own size w old bf = (Err EInvalid, t, old).
Proof. intros H. unfold handleBitfield. destruct (Z.eqb_spec (Nbytes bf) (Nbytes own)); [contradiction|reflexivity]. Qed.

Lemma handle_bf_wire size ops own w old bfp v sp : pvalid size ops -> 0 < size -> Nbytes own = bytes_for size ->
  agrees bfp v -> vn v = size -> zlen (vbits v) = 8 * bytes_for size -> List.length (bhdr bfp) = 5%nat ->
  (forall i ks, NoDup ks -> (forall k, In k ks -> announced size (rev ops) w (vbits v) k i) -> zlen ks <= 63) ->
  exists bf t t' bf', DecodeMsg (mkslice (EncodeMsg (MBitfield bfp)) sp) = Ok (mkdres (Some (MBitfield bf)) (zlen (EncodeMsg (MBitfield bfp))) None) /\
    (do t0 <- NewPeerPieceTracker size; prun t0 ops) = Ok t /\ handleBitfield t own size w old bf = (Ok tt, t', bf') /\
    (forall i k, 0 <= i < size -> (lists t' i k <-> announced size (rev ops) w (vbits v) k i)).
Proof.
  intros Hv Hp Ho (A1 & A2 & A3 & _) Hvn Hvl Hh H63. pose proof Hv as (Hsz & _).
  assert (HL : zlen (Data bfp) = bytes_for size).
  { rewrite <- A3 in Hvl. unfold zlen in *. rewrite bits_of_length in Hvl. lia. }
  assert (Hb : 0 < bytes_for size < 4294967291) by (unfold bytes_for; Z.div_mod_to_equations; lia).
  assert (Hok : msg_ok (MBitfield bfp)) by (cbn; repeat split; auto; lia).
  assert (Hlen : zlen (EncodeMsg (MBitfield bfp) ++ []) < 4294967296).
  { rewrite app_nil_r, Encode_wire by (try exact I; exact Hok). cbn [wire_of]. unfold frame. rewrite !zlen_app, HL. unfold zlen. cbn [be32 List.length]. unfold bytes_for in *. Z.div_mod_to_equations. lia. }
  destruct (Decode_Encode (MBitfield bfp) [] sp I Hok Hlen) as (m' & Hd & (bf & -> & (B1 & B2 & B3 & _) & B4)).
  rewrite app_nil_r in Hd. exists bf. cbn [vbits] in B3.
  destruct (handle_bf_top size ops own w old bf Hv Ho) as (t & t' & bf' & H1 & H2 & H3 & _).
  - exact B2.
  - rewrite B2, B4. exact HL.
  - rewrite B3, A3. exact H63.
  - exists t, t', bf'. rewrite B3, A3 in H3. auto.
Qed.

(** ** Requests *)
Lemma req_loop_diverges index length : 0 < length -> forall fuel msgs, req_loop fuel index 0 length msgs = NoFuel.
Proof. intros H. induction fuel as [|fuel IH]; intros msgs; cbn [req_loop]; replace (0 <? length) with true by lia; [reflexivity|]. apply IH. Qed.
Lemma createReq_diverges ti index : (if index =? ti_npieces ti - 1 then u32 (ti_lastlen ti) else u32 (ti_plen ti)) <> 0 ->
  forall fuel, createReqMessages fuel ti index = NoFuel.
Proof.
  intros H fuel. apply req_loop_diverges. unfold u32 in *. destruct (index =? ti_npieces ti - 1).
  - pose proof (Z.mod_pos_bound (ti_lastlen ti) 4294967296 ltac:(lia)). lia.
  - pose proof (Z.mod_pos_bound (ti_plen ti) 4294967296 ltac:(lia)). lia.
Qed.
Lemma createReq_empty ti index : (if index =? ti_npieces ti - 1 then u32 (ti_lastlen ti) else u32 (ti_plen ti)) = 0 ->
  forall fuel, createReqMessages fuel ti index = Ok [].
Proof. intros H fuel. unfold createReqMessages. rewrite H. destruct fuel; reflexivity. Qed.

(** ** Pieces the tracker does not have *)
Lemma no_node size R t i : pinv size R t -> 0 <= size -> size <= i -> forall w, register t w i = Panic.
Proof.
  intros (D & abs & (_ & _ & _ & HN) & Hz & _) Hs Hi w. unfold register. rewrite HN.
  replace (nth_error (seq 0 (List.length D)) (Z.to_nat i)) with (@None nat); [reflexivity|].
  symmetry. apply nth_error_None. rewrite seq_length. unfold zlen in Hz. lia.
Qed.
Lemma Register_app w b : forall a t, Register t w (a ++ b) = do t' <- Register t w a; Register t' w b.
Proof. induction a as [|i a IH]; intros t; cbn [app Register]; [reflexivity|]. destruct (register t w i); cbn [bind]; auto. Qed.
Lemma no_such_piece_top size ops w is i r : pvalid size (ops ++ [PRegister w is]) -> size <= i ->
  (do t0 <- NewPeerPieceTracker size; prun t0 (ops ++ [PRegister w (is ++ i :: r)])) = Panic.
Proof.
  intros Hv Hi. destruct (run_pinv _ _ Hv) as (t & Ht & Hp). destruct Hv as [[Hs _] _].
  destruct (NewPeerPieceTracker size) as [t0| | |]; try discriminate. cbn [bind] in *. rewrite prun_app in *.
  destruct (prun t0 ops) as [t1| | |]; try discriminate. cbn [bind prun pstep] in *. rewrite Register_app.
  destruct (Register t1 w is) as [t2| | |]; try discriminate. cbn [bind] in *. injection Ht as ->. cbn [Register].
  now rewrite (no_node _ _ _ _ Hp Hs Hi).
Qed.
Lemma registerbf_app w bf b : forall a t lo, registerbf_loop t w bf (a + b) lo = do t' <- registerbf_loop t w bf a lo; registerbf_loop t' w bf b (lo + Z.of_nat a).
Proof.
  induction a as [|a IH]; intros t lo; cbn [plus Nat.add registerbf_loop bind]; [now rewrite Z.add_0_r|].
  destruct (Get bf lo) as [g| | |]; cbn [bind]; auto. destruct (if g then register t w (u32 lo) else Ok t); cbn [bind]; auto.
  rewrite IH. replace (lo + 1 + Z.of_nat a) with (lo + Z.of_nat (S a)) by lia. reflexivity.
Qed.
Lemma registerbf_ext w bf bf' : Data bf' = Data bf -> forall n t lo, registerbf_loop t w bf' n lo = registerbf_loop t w bf n lo.
Proof.
  intros E. induction n as [|n IH]; intros t lo; cbn [registerbf_loop]; [reflexivity|]. rewrite (Get_data bf bf' lo E).
  destruct (Get bf lo) as [g| | |]; cbn [bind]; auto. destruct (if g then register t w (u32 lo) else Ok t); cbn [bind]; auto.
Qed.
Lemma registerbf_out size R t w bf : pinv size R t -> 0 <= size -> forall n lo i, size <= lo -> lo <= i < lo + Z.of_nat n -> lo + Z.of_nat n <= 4294967296 ->
  lo + Z.of_nat n <= 8 * zlen (Data bf) -> Get bf i = Ok true -> registerbf_loop t w bf n lo = Panic.
Proof.
  intros Hp Hs. induction n as [|n IH]; intros lo i Hlo Hi H32 Hd Hg; [lia|]. cbn [registerbf_loop].
  destruct (Get_dec bf lo ltac:(lia)) as [b Eb]. rewrite Eb. cbn [bind]. destruct b.
  - unfold u32. rewrite Z.mod_small by lia. now rewrite (no_node _ _ _ _ Hp Hs Hlo).
  - cbn [bind]. apply (IH (lo + 1) i); try lia; auto. assert (i <> lo) by congruence. lia.
Qed.
Lemma bit_outside_top size ops w bf bf' i : pvalid size (ops ++ [PRegisterBF w bf']) -> Data bf' = Data bf -> Nbits bf' = size ->
  size <= i < Nbits bf -> Nbits bf <= 4294967296 -> Nbits bf <= 8 * zlen (Data bf) -> Get bf i = Ok true ->
  (do t0 <- NewPeerPieceTracker size; prun t0 (ops ++ [PRegisterBF w bf])) = Panic.
Proof.
  intros Hv Ed En Hi H32 Hd Hg. destruct (run_pinv _ _ Hv) as (t & Ht & Hp). destruct Hv as [[Hs _] _].
  destruct (NewPeerPieceTracker size) as [t0| | |]; try discriminate. cbn [bind] in *. rewrite prun_app in *.
  destruct (prun t0 ops) as [t1| | |]; try discriminate. cbn [bind prun pstep] in *. unfold RegisterBF in *.
  replace (Z.to_nat (Nbits bf)) with (Z.to_nat size + Z.to_nat (Nbits bf - size))%nat by lia. rewrite registerbf_app.
  rewrite En, (registerbf_ext w bf bf' Ed) in Ht. destruct (registerbf_loop t1 w bf (Z.to_nat size) 0) as [t2| | |]; try discriminate. cbn [bind] in *.
  injection Ht as ->. rewrite (registerbf_out size _ t w bf Hp Hs _ _ i); auto; lia.
Qed.
