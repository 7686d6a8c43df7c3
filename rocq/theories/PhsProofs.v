(** PhsProofs.v: proofs about the slice of runListener. *)
From Coq Require Import ZifyBool ZifyNat ZifyN.
From Verif Require Import Base PhsModel PhsSpec.

Lemma xrun_app grow keep : forall a b s, xrun grow keep (a ++ b) s = match xrun grow keep a s with Some s' => xrun grow keep b s' | None => None end.
Proof. induction a as [|l a IH]; intros b s; cbn [app xrun]; [reflexivity|]. destruct (xstep grow keep l s); [reflexivity|reflexivity|apply IH]. Qed.
Lemma begun_app a b : begun (a ++ b) = (begun a + begun b)%nat.
Proof. unfold begun. rewrite filter_app, app_length. reflexivity. Qed.
Lemma Forall_lupd {A} (P : A -> Prop) l k b : Forall P l -> P b -> Forall P (lupd l k b).
Proof. revert k; induction l as [|x l IH]; intros [|k] H Hb; cbn; inversion H; subst; constructor; auto. Qed.
Lemma Forall_nth_error {A} (P : A -> Prop) l k a : Forall P l -> nth_error l k = Some a -> P a.
Proof. intros H E. rewrite Forall_forall in H. apply H. eapply nth_error_In; eauto. Qed.

Lemma XWent_inj a b : XWent a = XWent b -> b = a.
Proof. congruence. Qed.
(** ** What the number of stored lengths says *)
Definition stored1 (a : apc) : nat := match a with XDone => 1 | XStore _ _ _ _ _ _ true _ => 1 | _ => 0 end.
Fixpoint stored (l : list apc) : nat := match l with [] => 0 | a :: r => stored1 a + stored r end.
Lemma stored_lupd l k a b : nth_error l k = Some a -> (stored (lupd l k b) + stored1 a = stored l + stored1 b)%nat.
Proof.
  revert k; induction l as [|x l IH]; intros [|k] E; cbn [nth_error lupd stored] in *; try discriminate.
  - inversion E; subst. lia.
  - specialize (IH k E). lia.
Qed.
Lemma stored_app a b : stored (a ++ b) = (stored a + stored b)%nat.
Proof. induction a as [|x a IH]; cbn [app stored]; [reflexivity|]. rewrite IH. lia. Qed.
Lemma stored_le l : (stored l <= List.length l)%nat.
Proof. induction l as [|x l IH]; cbn [stored List.length]; [lia|]. assert (stored1 x <= 1)%nat by (destruct x as [| ? ? ? ? ? ? [|] ?|]; cbn; lia). lia. Qed.

Definition low (L : nat) (a : apc) : Prop := match a with XLoad _ (Some l) _ => (l <= L)%nat | XStore _ l _ _ _ _ false _ => (l <= L)%nat | _ => True end.
Definition linv (s : phs) : Prop := (x_len s <= stored (x_go s))%nat /\ Forall (low (stored (x_go s))) (x_go s).
Lemma low_mono a L L' : (L <= L')%nat -> low L a -> low L' a.
Proof. intros H. destruct a as [? [?|] ?| ? ? ? ? ? ? [|] ?|]; cbn; lia. Qed.
Lemma linv_upd h p n c go k a b s : linv s -> x_go s = go -> nth_error go k = Some a -> (stored1 a <= stored1 b)%nat -> low (stored (lupd go k b)) b -> (n <= stored (lupd go k b))%nat ->
  linv (mkphs h p n c (lupd go k b)).
Proof.
  intros [H1 H2] <- E Hs Hl Hn. split; cbn [x_len x_go]; [exact Hn|].
  apply Forall_lupd; [|exact Hl]. eapply Forall_impl; [|exact H2]. intros x Hx. eapply low_mono; [|exact Hx]. pose proof (stored_lupd _ _ _ b E). lia.
Qed.
Lemma linv_step grow keep l s s' : linv s -> xstep grow keep l s = XWent s' -> linv s' /\ List.length (x_go s') = (List.length (x_go s) + begun [l])%nat.
Proof.
  intros HI H. pose proof HI as [H1 H2]. destruct l as [|k o]; cbn [xstep] in H.
  - inversion H; subst; clear H. cbn. split; [|rewrite app_length; reflexivity]. unfold linv. cbn [x_len x_go]. rewrite stored_app. cbn. rewrite Nat.add_0_r. split; [exact H1|]. apply Forall_app. split; [exact H2|]. constructor; [exact I|constructor].
  - destruct (nth_error (x_go s) k) as [a|] eqn:E; [|discriminate]. pose proof (Forall_nth_error _ _ _ _ H2 E) as Ha.
    assert (G : forall h p n c b, XWent (mkphs h p n c (lupd (x_go s) k b)) = XWent s' -> (stored1 a <= stored1 b)%nat -> low (stored (lupd (x_go s) k b)) b -> (n <= stored (lupd (x_go s) k b))%nat ->
              linv s' /\ List.length (x_go s') = (List.length (x_go s) + begun [XGo k o])%nat).
    { intros h p n c b Hw Hs Hb Hn. inversion Hw; subst s'; clear Hw. split; [eapply linv_upd; eauto|]. cbn. rewrite lupd_length. lia. }
    unfold at_ in H. destruct a as [p l c|p l c g de dp dl dc|]; [| |discriminate].
    + destruct o; try discriminate.
      * destruct p; [discriminate|]. pose proof (stored_lupd _ _ _ (XLoad (Some (x_ptr s)) l c) E) as Q. cbn in Q. eapply G; [exact H|cbn; lia| |lia]. eapply low_mono; [|exact Ha]. lia.
      * destruct l; [discriminate|]. pose proof (stored_lupd _ _ _ (XLoad p (Some (x_len s)) c) E) as Q. cbn in Q. eapply G; [exact H|cbn; lia| |lia]. cbn. lia.
      * destruct c; [discriminate|]. pose proof (stored_lupd _ _ _ (XLoad p l (Some (x_cap s))) E) as Q. cbn in Q. eapply G; [exact H|cbn; lia| |lia]. eapply low_mono; [|exact Ha]. lia.
      * destruct p as [p|]; [|discriminate]. destruct l as [l|]; [|discriminate]. destruct c as [c|]; [|discriminate].
        destruct (Nat.ltb c (S l)).
        -- destruct (Nat.ltb _ l); [discriminate|].
           match type of H with context [lupd _ _ ?b] => pose proof (stored_lupd _ _ _ b E) as Q end. cbn [stored1] in Q. eapply G; [exact H|cbn; lia| |lia]. cbn. cbn in Ha. lia.
        -- match type of H with context [lupd _ _ ?b] => pose proof (stored_lupd _ _ _ b E) as Q end. cbn [stored1] in Q. eapply G; [exact H|cbn; lia| |lia]. cbn. cbn in Ha. lia.
    + destruct o; try discriminate.
      * destruct de; [discriminate|]. destruct (Nat.ltb l _); [|discriminate].
        match type of H with XWent (mkphs _ _ _ _ (lupd _ _ ?b)) = _ => pose proof (stored_lupd _ _ _ b E) as Q; eapply (G _ _ _ _ b); [exact H| | |] end; destruct dl; cbn in *; try exact I; lia.
      * destruct dp; [discriminate|]. match type of H with XWent (mkphs _ _ _ _ (lupd _ _ ?b)) = _ => pose proof (stored_lupd _ _ _ b E) as Q; eapply (G _ _ _ _ b); [exact H| | |] end; destruct dl; cbn in *; try exact I; lia.
      * destruct dl; [discriminate|]. match type of H with XWent (mkphs _ _ _ _ (lupd _ _ ?b)) = _ => pose proof (stored_lupd _ _ _ b E) as Q; eapply (G _ _ _ _ b); [exact H| | |] end; cbn in *; try exact I; lia.
      * destruct dc; [discriminate|]. match type of H with XWent (mkphs _ _ _ _ (lupd _ _ ?b)) = _ => pose proof (stored_lupd _ _ _ b E) as Q; eapply (G _ _ _ _ b); [exact H| | |] end; destruct dl; cbn in *; try exact I; lia.
      * destruct (de && dp && dl && dc)%bool eqn:Ed; [|discriminate]. apply Bool.andb_true_iff in Ed as [Ed _]. apply Bool.andb_true_iff in Ed as [_ Ed]. subst dl.
        match type of H with XWent (mkphs _ _ _ _ (lupd _ _ ?b)) = _ => pose proof (stored_lupd _ _ _ b E) as Q; eapply (G _ _ _ _ b); [exact H| | |] end; cbn in *; try exact I; lia.
Qed.
Lemma linv_run grow keep : forall ls s s', linv s -> xrun grow keep ls s = Some s' -> linv s' /\ List.length (x_go s') = (List.length (x_go s) + begun ls)%nat.
Proof.
  induction ls as [|l r IH]; intros s s' HI H; cbn [xrun] in H.
  - inversion H; subst. split; [exact HI|]. cbn. lia.
  - destruct (xstep grow keep l s) as [| |t] eqn:E; try discriminate. destruct (linv_step _ _ _ _ _ HI E) as [Ht Hl]. destruct (IH _ _ Ht H) as [A B]. split; [exact A|].
    change (l :: r) with ([l] ++ r). rewrite begun_app. lia.
Qed.
Lemma linv_made : linv made.
Proof. split; cbn; [lia|constructor]. Qed.
Lemma len_bound grow keep ls s : xrun grow keep ls made = Some s -> (x_len s <= begun ls)%nat.
Proof. intros H. destruct (linv_run _ _ _ _ _ linv_made H) as [[A _] B]. pose proof (stored_le (x_go s)). cbn in B. lia. Qed.

(** ** At most five connections *)
Definition early (a : apc) : Prop :=
  match a with
  | XLoad p l c => (p = None \/ p = Some 0%nat) /\ (c = None \/ c = Some 4%nat)
  | XStore p l c g _ _ _ _ => p = 0%nat /\ (l < 4)%nat /\ c = 4%nat /\ g = false
  | XDone => True
  end.
Definition late (h : list (list (option nat))) (a : apc) : Prop :=
  match a with XLoad _ _ _ => False | XStore p l _ _ _ _ _ _ => (l < List.length (nth p h []))%nat | XDone => True end.
Definition sinv (s : phs) : Prop :=
  (exists b, x_heap s = [b] /\ List.length b = 4%nat /\ x_ptr s = 0%nat /\ x_cap s = 4%nat /\ Forall early (x_go s)) \/
  (List.length (x_go s) = 5%nat /\ Forall (late (x_heap s)) (x_go s)).
Lemma late_after go k h : (5 <= S (stored go))%nat -> (List.length go <= 5)%nat -> (4 <= List.length (nth 0 h []))%nat -> Forall early go ->
  (exists a, nth_error go k = Some a /\ stored1 a = 0%nat) -> forall b, late h b -> List.length (lupd go k b) = 5%nat /\ Forall (late h) (lupd go k b).
Proof.
  intros Hs Hn Hh He [a [E Ha]] b Hb. pose proof (stored_le go).
  assert (Hz : forall l k x, nth_error l k = Some x -> stored1 x = 0%nat -> (stored l < List.length l)%nat).
  { clear. intros l. induction l as [|y l IH]; intros [|k] x E Z; cbn [nth_error stored List.length] in *; try discriminate.
    - inversion E; subst. pose proof (stored_le l). lia.
    - specialize (IH k x E Z). assert (stored1 y <= 1)%nat by (destruct y as [| ? ? ? ? ? ? [|] ?|]; cbn; lia). lia. }
  pose proof (Hz _ _ _ E Ha) as H1. split; [rewrite lupd_length; lia|].
  apply Forall_forall. intros x Hx. apply In_nth_error in Hx as [j Hj]. rewrite nth_error_lupd in Hj. destruct (Nat.eqb j k && _)%bool eqn:Ej; [inversion Hj; subst; exact Hb|].
  pose proof (Forall_nth_error _ _ _ _ He Hj) as Hx.
  destruct (stored1 x) as [|n] eqn:Sx.
  - exfalso. assert (Hjk : j <> k) by (intros ->; assert (k < List.length go)%nat by (apply nth_error_Some; congruence); lia).
    assert (Q : (S (S (stored go)) <= List.length go)%nat).
    { pose proof (stored_lupd _ _ _ XDone E) as Q. cbn [stored1] in Q. assert (E2 : nth_error (lupd go k XDone) j = Some x). { rewrite nth_error_lupd. destruct (Nat.eqb_spec j k); [contradiction|]. exact Hj. }
      pose proof (Hz _ _ _ E2 Sx) as Q2. rewrite lupd_length in Q2. lia. }
    lia.
  - destruct x as [| ? ? ? ? ? ? [|] ?|]; cbn in *; try discriminate; try exact I. destruct Hx as [-> [Hx _]]. lia.
Qed.
Lemma sinv_go grow keep (Hg : makes_room grow) k o s : linv s -> sinv s -> (List.length (x_go s) <= 5)%nat -> xstep grow keep (XGo k o) s <> XWild /\ forall s', xstep grow keep (XGo k o) s = XWent s' -> sinv s'.
Proof.
  intros [HL1 HL2] HS Hn. cbn [xstep]. destruct (nth_error (x_go s) k) as [a|] eqn:E; [|split; [discriminate|intros ? X; discriminate X]]. pose proof (Forall_nth_error _ _ _ _ HL2 E) as Hlow.
  destruct HS as [(b & Hh & Hb & Hp & Hc & He)|[Hn5 HF]].
  - pose proof (Forall_nth_error _ _ _ _ He E) as Ha.
    assert (G : forall b' a', List.length b' = 4%nat -> early a' -> sinv (mkphs [b'] 0 (x_len s) 4 (lupd (x_go s) k a'))).
    { intros b' a' X Y. left. exists b'. cbn. repeat split; auto. apply Forall_lupd; auto. }
    destruct a as [p l c|p l c g de dp dl dc|]; [| |split; [discriminate|intros ? X; discriminate X]].
    + destruct Ha as [Hp' Hc']. unfold at_. rewrite Hh, Hp, Hc. destruct o; try (split; [discriminate|intros ? X; discriminate X]).
      * destruct p; (split; [discriminate|]); intros s' X; inversion X; subst. apply G; [exact Hb|]. cbn. auto.
      * destruct l; (split; [discriminate|]); intros s' X; inversion X; subst. apply G; [exact Hb|]. cbn. auto.
      * destruct c; (split; [discriminate|]); intros s' X; inversion X; subst. apply G; [exact Hb|]. cbn. auto.
      * destruct p as [p|]; [|split; [discriminate|intros ? X; discriminate X]]. destruct l as [l|]; [|split; [discriminate|intros ? X; discriminate X]]. destruct c as [c|]; [|split; [discriminate|intros ? X; discriminate X]].
        assert (p = 0%nat) by (destruct Hp' as [Q|Q]; [discriminate|inversion Q; reflexivity]). assert (c = 4%nat) by (destruct Hc' as [Q|Q]; [discriminate|inversion Q; reflexivity]). subst p c.
        destruct (Nat.ltb_spec 4 (S l)) as [Hl|Hl].
        -- (* the fifth one *)
           cbn [nth]. rewrite Hb. cbn in Hlow. pose proof (stored_le (x_go s)) as Hs5.
           assert (Hl4 : l = 4%nat).
           { pose proof (stored_lupd _ _ _ XDone E) as Q. cbn [stored1] in Q. pose proof (stored_le (lupd (x_go s) k XDone)) as Q2. rewrite lupd_length in Q2. lia. }
           subst l. change (Nat.ltb 4 4) with false. cbv iota. split; [discriminate|]. intros s' X. apply XWent_inj in X. subst s'. right. cbn [x_go x_heap].
           apply late_after; [lia|lia| | |eexists; split; [exact E|reflexivity]|].
           ++ cbn. lia.
           ++ exact He.
           ++ change (Datatypes.length [b]) with 1%nat. cbn [late]. rewrite app_nth2 by (cbn [List.length]; lia). cbn [List.length Nat.sub nth]. rewrite app_length, firstn_length, repeat_length. pose proof (Hg 4%nat 5%nat). lia.
        -- split; [discriminate|]. intros s' X. inversion X; subst s'; clear X. apply G; [exact Hb|]. cbn. repeat split; lia.
    + destruct Ha as (-> & Hl & -> & ->). unfold at_. rewrite Hh, Hp, Hc. cbn [nth]. destruct o; try (split; [discriminate|intros ? X; discriminate X]).
      * destruct de; [split; [discriminate|intros ? X; discriminate X]|]. rewrite Hb. destruct (Nat.ltb_spec l 4) as [_|Q]; [|lia]. split; [discriminate|]. intros s' X. inversion X; subst s'; clear X. cbn [lupd]. apply G; [rewrite lupd_length; exact Hb|]. cbn. auto.
      * destruct dp; (split; [discriminate|]); intros s' X; inversion X; subst s'. apply G; [exact Hb|]. cbn. auto.
      * destruct dl; (split; [discriminate|]); intros s' X; inversion X; subst s'. left. exists b. cbn. repeat split; auto. apply Forall_lupd; cbn; auto.
      * destruct dc; (split; [discriminate|]); intros s' X; inversion X; subst s'. apply G; [exact Hb|]. cbn. auto.
      * destruct (de && dp && dl && dc)%bool; (split; [discriminate|]); intros s' X; inversion X; subst s'. apply G; [exact Hb|]. exact I.
  - pose proof (Forall_nth_error _ _ _ _ HF E) as Ha.
    assert (G : forall p n c a', late (x_heap s) a' -> sinv (mkphs (x_heap s) p n c (lupd (x_go s) k a'))).
    { intros p n c a' X. right. cbn. split; [rewrite lupd_length; exact Hn5|]. apply Forall_lupd; auto. }
    destruct a as [p l c|p l c g de dp dl dc|]; [destruct Ha| |split; [discriminate|intros ? X; discriminate X]]. cbn in Ha. unfold at_.
    destruct o; try (split; [discriminate|intros ? X; discriminate X]).
    + destruct de; [split; [discriminate|intros ? X; discriminate X]|]. destruct (Nat.ltb_spec l (List.length (nth p (x_heap s) []))) as [_|Q]; [|lia]. split; [discriminate|]. intros s' X. inversion X; subst s'; clear X.
      assert (HL : forall a', late (x_heap s) a' -> late (lupd (x_heap s) p (lupd (nth p (x_heap s) []) l (Some k))) a').
      { intros [| p2 l2 ? ? ? ? ? ?|]; cbn; auto. intros Q. rewrite nth_lupd. destruct (Nat.eqb p2 p && _)%bool eqn:Ep; [|exact Q]. apply Bool.andb_true_iff in Ep as [Ep _]. apply Nat.eqb_eq in Ep. subst p2. rewrite lupd_length. exact Q. }
      right. cbn [x_go x_heap]. split; [rewrite lupd_length; exact Hn5|]. apply Forall_lupd; [eapply Forall_impl; [exact HL|exact HF]|]. apply HL. cbn. exact Ha.
    + destruct dp; (split; [discriminate|]); intros s' X; inversion X; subst s'. apply G. exact Ha.
    + destruct dl; (split; [discriminate|]); intros s' X; inversion X; subst s'. apply G. exact Ha.
    + destruct dc; (split; [discriminate|]); intros s' X; inversion X; subst s'. apply G. exact Ha.
    + destruct (de && dp && dl && dc)%bool; (split; [discriminate|]); intros s' X; inversion X; subst s'. apply G. exact I.
Qed.
Lemma sinv_step grow keep (Hg : makes_room grow) l s : linv s -> sinv s -> (List.length (x_go s) + begun [l] <= 5)%nat -> xstep grow keep l s <> XWild /\ forall s', xstep grow keep l s = XWent s' -> sinv s'.
Proof.
  intros HI HS Hn. destruct l as [|k o].
  - cbn [xstep]. split; [discriminate|]. intros s' X. inversion X; subst s'; clear X. cbn in Hn. destruct HS as [(b & Hh & Hb & Hp & Hc & He)|[Hn5 HF]]; [|lia].
    left. exists b. cbn. repeat split; auto. apply Forall_app. split; [exact He|]. constructor; [cbn; auto|constructor].
  - apply sinv_go; auto. cbn in Hn. lia.
Qed.
Lemma sinv_run grow keep (Hg : makes_room grow) : forall ls s s', linv s -> sinv s -> (List.length (x_go s) + begun ls <= 5)%nat -> xrun grow keep ls s = Some s' -> sinv s'.
Proof.
  induction ls as [|l r IH]; intros s s' HI HS Hn H; cbn [xrun] in H.
  - inversion H; subst. exact HS.
  - change (l :: r) with ([l] ++ r) in Hn. rewrite begun_app in Hn. destruct (xstep grow keep l s) as [| |t] eqn:E; try discriminate. destruct (linv_step _ _ _ _ _ HI E) as [Ht Hl].
    destruct (sinv_step grow keep Hg l s HI HS ltac:(lia)) as [_ Q]. eapply IH; [exact Ht|exact (Q _ E)|lia|exact H].
Qed.
Lemma sinv_made : sinv made.
Proof. left. exists (repeat None 4). cbn. repeat split; auto. Qed.
Lemma five_safe grow keep ls l s : makes_room grow -> xrun grow keep ls made = Some s -> (begun (ls ++ [l]) <= 5)%nat -> xstep grow keep l s <> XWild.
Proof.
  intros Hg H Hn. rewrite begun_app in Hn. destruct (linv_run _ _ _ _ _ linv_made H) as [HI HL]. cbn in HL.
  apply sinv_step; [exact Hg|exact HI| |rewrite HL; exact Hn]. eapply (sinv_run grow keep Hg); [exact linv_made|exact sinv_made| |exact H]. cbn. lia.
Qed.

(** ** One after the other *)
Definition row (m : nat) : list (option nat) := map Some (seq 0 m).
Definition fine (s : phs) (m : nat) : Prop :=
  (x_ptr s < List.length (x_heap s))%nat /\ List.length (nth (x_ptr s) (x_heap s) []) = x_cap s /\ x_len s = m /\ (m <= x_cap s)%nat /\ firstn m (nth (x_ptr s) (x_heap s) []) = row m.
Definition busy (s : phs) (m : nat) (a : apc) : Prop :=
  match a with
  | XLoad p l c => fine s m /\ (p = None \/ p = Some (x_ptr s)) /\ (l = None \/ l = Some (x_len s)) /\ (c = None \/ c = Some (x_cap s))
  | XStore p l c g de dp dl dc =>
    l = m /\ (p < List.length (x_heap s))%nat /\ List.length (nth p (x_heap s) []) = c /\ (m < c)%nat /\ firstn m (nth p (x_heap s) []) = row m /\
    (de = true -> nth_error (nth p (x_heap s) []) m = Some (Some m)) /\ (dp = true -> x_ptr s = p) /\ (dl = true -> x_len s = S m) /\ (dc = true -> x_cap s = c)
  | XDone => False
  end.
Definition oinv (s : phs) : Prop := exists m, (x_go s = repeat XDone m /\ fine s m) \/ exists a, x_go s = repeat XDone m ++ [a] /\ busy s m a.
Lemma nth_error_tail {A} (x y : A) m k a : nth_error (repeat x m ++ [y]) k = Some a -> a <> x -> k = m /\ a = y.
Proof.
  intros E Hn. destruct (Nat.lt_ge_cases k m) as [Hk|Hk].
  - rewrite nth_error_app1 in E by (rewrite repeat_length; exact Hk). apply nth_error_In in E. apply repeat_spec in E. contradiction.
  - rewrite nth_error_app2, repeat_length in E by (rewrite repeat_length; exact Hk). destruct (k - m)%nat as [|j] eqn:Ek; cbn in E; [inversion E; split; [lia|reflexivity]|destruct j; discriminate].
Qed.
Lemma lupd_tail {A} (x y z : A) m : lupd (repeat x m ++ [y]) m z = repeat x m ++ [z].
Proof. induction m as [|m IH]; cbn; [reflexivity|]. rewrite IH. reflexivity. Qed.
Lemma repeat_snoc {A} (x : A) m : repeat x m ++ [x] = repeat x (S m).
Proof. induction m as [|m IH]; cbn; [reflexivity|]. rewrite IH. reflexivity. Qed.
Lemma row_S m : row (S m) = row m ++ [Some m].
Proof. unfold row. rewrite seq_S, map_app. reflexivity. Qed.
Lemma firstn_lupd_at {A} (l : list A) m v : firstn m (lupd l m v) = firstn m l.
Proof. revert m; induction l as [|x l IH]; intros [|m]; cbn; try reflexivity. rewrite IH. reflexivity. Qed.
Lemma firstn_snoc_at {A} (l : list A) m v : nth_error l m = Some v -> firstn (S m) l = firstn m l ++ [v].
Proof. revert m; induction l as [|x l IH]; intros [|m] E; cbn in *; try discriminate; [inversion E; reflexivity|]. rewrite (IH _ E). reflexivity. Qed.

Lemma oinv_go grow keep (Hg : makes_room grow) k o s : oinv s -> xstep grow keep (XGo k o) s <> XWild /\ forall s', xstep grow keep (XGo k o) s = XWent s' -> oinv s'.
Proof.
  intros [m HI]. cbn [xstep]. destruct (nth_error (x_go s) k) as [a|] eqn:E; [|split; [discriminate|intros ? X; discriminate X]].
  destruct HI as [[Hgo _]|[y [Hgo Hb]]].
  - rewrite Hgo in E. apply nth_error_In in E. apply repeat_spec in E. subst a. split; [discriminate|intros ? X; discriminate X].
  - destruct (match a with XDone => true | _ => false end) eqn:Ea; [destruct a; try discriminate; split; [discriminate|intros ? X; discriminate X]|].
    rewrite Hgo in E. destruct (nth_error_tail _ _ _ _ _ E ltac:(intros ->; discriminate)) as [-> ->]. clear E Ea. unfold at_. rewrite Hgo.
    assert (G : forall h p n c b, busy (mkphs h p n c (repeat XDone m ++ [b])) m b -> oinv (mkphs h p n c (lupd (repeat XDone m ++ [y]) m b))).
    { intros h p n c b Hbb. rewrite lupd_tail. exists m. right. exists b. split; [reflexivity|exact Hbb]. }
    destruct y as [p l c|p l c g de dp dl dc|]; [| |destruct Hb].
    + destruct Hb as (Hf & Hp & Hl & Hc). pose proof Hf as (F1 & F2 & F3 & F4 & F5). destruct o; try (split; [discriminate|intros ? X; discriminate X]).
      * destruct p; (split; [discriminate|]); intros s' X; inversion X; subst s'. apply G. split; [exact Hf|]. auto.
      * destruct l; (split; [discriminate|]); intros s' X; inversion X; subst s'. apply G. split; [exact Hf|]. auto.
      * destruct c; (split; [discriminate|]); intros s' X; inversion X; subst s'. apply G. split; [exact Hf|]. auto.
      * destruct p as [p|]; [|split; [discriminate|intros ? X; discriminate X]]. destruct l as [l|]; [|split; [discriminate|intros ? X; discriminate X]]. destruct c as [c|]; [|split; [discriminate|intros ? X; discriminate X]].
        assert (p = x_ptr s) by (destruct Hp as [Q|Q]; [discriminate|inversion Q; reflexivity]). assert (l = x_len s) by (destruct Hl as [Q|Q]; [discriminate|inversion Q; reflexivity]). assert (c = x_cap s) by (destruct Hc as [Q|Q]; [discriminate|inversion Q; reflexivity]). subst p l c. clear Hp Hl Hc.
        destruct (Nat.ltb_spec (x_cap s) (S (x_len s))) as [Hl|Hl].
        -- rewrite F2. destruct (Nat.ltb_spec (x_cap s) (x_len s)) as [Q|_]; [lia|]. split; [discriminate|]. intros s' X. inversion X; subst s'; clear X. apply G.
           pose proof (Hg (x_cap s) (S (x_len s))) as Hg'.
           assert (Hn : nth (List.length (x_heap s)) (x_heap s ++ [firstn (x_len s) (nth (x_ptr s) (x_heap s) []) ++ repeat None (grow (x_cap s) (S (x_len s)) - x_len s)]) [] = firstn (x_len s) (nth (x_ptr s) (x_heap s) []) ++ repeat None (grow (x_cap s) (S (x_len s)) - x_len s)).
           { rewrite app_nth2 by lia. rewrite Nat.sub_diag. reflexivity. }
           cbn [busy x_heap x_ptr x_len x_cap]. rewrite Hn, F3 in *. rewrite !app_length, firstn_length, repeat_length, F2. cbn [List.length].
           repeat split; try lia; try discriminate. rewrite firstn_app, firstn_firstn, firstn_length, F2. replace (Nat.min m m) with m by lia. replace (m - Nat.min m (x_cap s))%nat with 0%nat by lia. cbn [firstn]. rewrite app_nil_r. exact F5.
        -- split; [discriminate|]. intros s' X. inversion X; subst s'; clear X. apply G. cbn [busy x_heap x_ptr x_len x_cap]. rewrite F3 in *. repeat split; auto; try lia; try discriminate.
    + destruct Hb as (B1 & B2 & B3 & B4 & B5 & B6 & B7 & B8 & B9). destruct o; try (split; [discriminate|intros ? X; discriminate X]).
      * destruct de; [split; [discriminate|intros ? X; discriminate X]|]. subst l. rewrite B3. destruct (Nat.ltb_spec m c) as [_|Q]; [|lia]. split; [discriminate|]. intros s' X. inversion X; subst s'; clear X. apply G. cbn [busy x_heap x_ptr x_len x_cap].
        rewrite nth_lupd, lupd_length, Nat.eqb_refl. destruct (Nat.ltb_spec p (List.length (x_heap s))) as [_|Q]; [|lia]. cbn [andb]. rewrite lupd_length, firstn_lupd_at. repeat split; auto.
        intros _. rewrite nth_error_lupd, Nat.eqb_refl. destruct (Nat.ltb_spec m (List.length (nth p (x_heap s) []))); [reflexivity|lia].
      * destruct dp; (split; [discriminate|]); intros s' X; inversion X; subst s'. apply G. cbn [busy x_heap x_ptr x_len x_cap]. repeat split; auto.
      * destruct dl; (split; [discriminate|]); intros s' X; inversion X; subst s'. apply G. cbn [busy x_heap x_ptr x_len x_cap]. repeat split; auto.
      * destruct dc; (split; [discriminate|]); intros s' X; inversion X; subst s'. apply G. cbn [busy x_heap x_ptr x_len x_cap]. repeat split; auto.
      * destruct (de && dp && dl && dc)%bool eqn:Ed; (split; [discriminate|]); intros s' X; [|discriminate X]. inversion X; subst s'; clear X.
        apply Bool.andb_true_iff in Ed as [Ed ->]. apply Bool.andb_true_iff in Ed as [Ed ->]. apply Bool.andb_true_iff in Ed as [-> ->].
        rewrite lupd_tail, repeat_snoc. exists (S m). left. cbn [x_go]. split; [reflexivity|]. unfold fine. cbn [x_heap x_ptr x_len x_cap]. rewrite (B7 eq_refl), (B8 eq_refl), (B9 eq_refl). repeat split; auto; try lia.
        rewrite row_S, (firstn_snoc_at _ _ _ (B6 eq_refl)), B5. reflexivity.
Qed.
Lemma oinv_run grow keep (Hg : makes_room grow) : forall ls s, one_by_one grow keep ls -> xrun grow keep ls made = Some s -> oinv s.
Proof.
  induction ls as [|l ls IH] using rev_ind; intros s Ho H.
  - cbn in H. inversion H; subst. exists 0%nat. left. split; [reflexivity|]. unfold fine. cbn. repeat split; lia.
  - rewrite xrun_app in H. destruct (xrun grow keep ls made) as [t|] eqn:E; [|discriminate].
    assert (Ho' : one_by_one grow keep ls) by (intros a b u -> Hu; eapply (Ho a (b ++ [l])); [rewrite <- app_assoc; reflexivity|exact Hu]).
    specialize (IH t Ho' eq_refl). cbn [xrun] in H. destruct (xstep grow keep l t) as [| |u] eqn:El; try discriminate. inversion H; subst u; clear H.
    destruct l as [|k o]; [|exact (proj2 (oinv_go grow keep Hg k o t IH) _ El)].
    pose proof (Ho ls [] t eq_refl E) as Hq. destruct IH as [m [[Hgo Hf]|[a [Hgo Hb]]]].
    + cbn [xstep] in El. inversion El; subst s. exists m. right. exists (XLoad None None None). cbn [x_go]. rewrite Hgo. split; [reflexivity|]. cbn. auto.
    + exfalso. unfold quiet in Hq. rewrite Hgo in Hq. apply Forall_app in Hq as [_ Hq]. inversion Hq; subst. destruct Hb.
Qed.
Lemma serial_kept grow keep ls s : makes_room grow -> one_by_one grow keep ls -> xrun grow keep ls made = Some s -> quiet s -> listed s = map Some (seq 0 (begun ls)).
Proof.
  intros Hg Ho H Hq. destruct (linv_run _ _ _ _ _ linv_made H) as [_ Hn]. cbn in Hn. destruct (oinv_run grow keep Hg ls s Ho H) as [m [[Hgo Hf]|[a [Hgo Hb]]]].
  - rewrite Hgo, repeat_length in Hn. subst m. destruct Hf as (_ & _ & F3 & _ & F5). unfold listed. rewrite F3. exact F5.
  - exfalso. unfold quiet in Hq. rewrite Hgo in Hq. apply Forall_app in Hq as [_ Hq]. inversion Hq; subst. destruct Hb.
Qed.
Lemma serial_safe grow keep ls l s : makes_room grow -> one_by_one grow keep ls -> xrun grow keep ls made = Some s -> xstep grow keep l s <> XWild.
Proof. intros Hg Ho H. destruct l as [|k o]; [discriminate|]. apply (oinv_go grow keep Hg). eapply oinv_run; eauto. Qed.
(** Deciding one_by_one for a given run. *)
Definition quietb (s : phs) : bool := forallb (fun a => match a with XDone => true | _ => false end) (x_go s).
Fixpoint in_turn (grow : nat -> nat -> nat) (keep : bool) (ls : list xlabel) (s : phs) : bool :=
  match ls with
  | [] => true
  | l :: r => (match l with XStart => quietb s | _ => true end) && match xstep grow keep l s with XWent s' => in_turn grow keep r s' | _ => true end
  end.
Lemma in_turn_ok grow keep : forall ls s, in_turn grow keep ls s = true -> forall ls1 ls2 t, ls = ls1 ++ XStart :: ls2 -> xrun grow keep ls1 s = Some t -> quiet t.
Proof.
  induction ls as [|l r IH]; intros s H ls1 ls2 t E Hr; [destruct ls1; discriminate|].
  cbn [in_turn] in H. apply Bool.andb_true_iff in H as [H1 H2]. destruct ls1 as [|l1 ls1]; cbn [app] in E; inversion E; subst.
  - cbn in Hr. inversion Hr; subst. unfold quietb in H1. rewrite forallb_forall in H1. apply Forall_forall. intros a Ha. specialize (H1 a Ha). destruct a; try discriminate. reflexivity.
  - cbn [xrun] in Hr. destruct (xstep grow keep l1 s) as [| |u]; try discriminate. eapply IH; eauto.
Qed.

(** ** Every append ends *)
Definition unread (o : option nat) : nat := match o with None => 1 | _ => 0 end.
Definition todo (b : bool) : nat := if b then 0 else 1.
Definition left (a : apc) : nat :=
  match a with XLoad p l c => unread p + unread l + unread c + 6 | XStore _ _ _ _ de dp dl dc => todo de + todo dp + todo dl + todo dc + 1 | XDone => 0 end.
Lemma left_bound a : (left a <= 9)%nat.
Proof. destruct a as [[?|] [?|] [?|]|? ? ? ? [|] [|] [|] [|]|]; cbn; lia. Qed.
Lemma nth_lupd {A} : forall (l : list A) k a j b, nth_error l k = Some b -> nth_error (lupd l k a) j = if Nat.eqb j k then Some a else nth_error l j.
Proof.
  induction l as [|x l IH]; intros [|k] a [|j] b E; cbn [nth_error lupd] in *; try discriminate; try reflexivity. rewrite (IH k a j b E). reflexivity.
Qed.
(** A step of a goroutine's append leaves it with less to do, and leaves the others where they are. *)
Lemma step_left grow keep k o s s' : xstep grow keep (XGo k o) s = XWent s' ->
  exists a a', nth_error (x_go s) k = Some a /\ (left a' < left a)%nat /\ forall j, nth_error (x_go s') j = if Nat.eqb j k then Some a' else nth_error (x_go s) j.
Proof.
  cbn [xstep]. destruct (nth_error (x_go s) k) as [a|] eqn:E; [|discriminate]. intros H.
  assert (G : forall h p n c b, XWent (mkphs h p n c (lupd (x_go s) k b)) = XWent s' -> (left b < left a)%nat ->
    exists a0 a', Some a = Some a0 /\ (left a' < left a0)%nat /\ forall j, nth_error (x_go s') j = if Nat.eqb j k then Some a' else nth_error (x_go s) j).
  { intros h p n c b Hw Hl. apply XWent_inj in Hw. subst s'. exists a, b. split; [reflexivity|]. split; [exact Hl|]. intros j. cbn [x_go]. eapply nth_lupd. exact E. }
  unfold at_ in H. destruct a as [p l c|p l c g de dp dl dc|]; [| |discriminate]; destruct o; try discriminate.
  - destruct p; [discriminate|]. eapply G; [exact H|]. cbn. lia.
  - destruct l; [discriminate|]. eapply G; [exact H|]. cbn. lia.
  - destruct c; [discriminate|]. eapply G; [exact H|]. cbn. lia.
  - destruct p as [p|]; [|discriminate]. destruct l as [l|]; [|discriminate]. destruct c as [c|]; [|discriminate].
    destruct (Nat.ltb c (S l)); [destruct (Nat.ltb _ l); [discriminate|]|]; (eapply G; [exact H|]; destruct keep; cbn; lia).
  - destruct de; [discriminate|]. destruct (Nat.ltb l _); [|discriminate]. eapply G; [exact H|]. cbn. lia.
  - destruct dp; [discriminate|]. eapply G; [exact H|]. cbn. lia.
  - destruct dl; [discriminate|]. eapply G; [exact H|]. cbn. lia.
  - destruct dc; [discriminate|]. eapply G; [exact H|]. cbn. lia.
  - destruct (de && dp && dl && dc); [|discriminate]. eapply G; [exact H|]. cbn. lia.
Qed.
Lemma steps_left grow keep k : forall ls s s', xrun grow keep ls s = Some s' ->
  (steps_of k ls + match nth_error (x_go s') k with Some a => left a | None => 9 end <= match nth_error (x_go s) k with Some a => left a | None => 9 end)%nat.
Proof.
  induction ls as [|l ls IH]; intros s s' H; cbn [xrun] in H; [injection H as <-; reflexivity|].
  destruct (xstep grow keep l s) as [| |s1] eqn:E; try discriminate. specialize (IH s1 s' H). unfold steps_of in *. cbn [filter]. destruct l as [|j o].
  - cbn [xstep] in E. apply XWent_inj in E. subst s1. cbn [x_go] in IH. destruct (nth_error (x_go s) k) as [a|] eqn:Ek.
    + rewrite nth_error_app1 in IH by (apply nth_error_Some; congruence). rewrite Ek in IH. exact IH.
    + apply nth_error_None in Ek. rewrite nth_error_app2 in IH by exact Ek. destruct (k - List.length (x_go s))%nat as [|[|m]]; exact IH.
  - destruct (step_left _ _ _ _ _ _ E) as (a & a' & Ea & Hlt & Hn). rewrite Hn in IH. rewrite (Nat.eqb_sym j k). destruct (Nat.eqb k j) eqn:Ek.
    + apply Nat.eqb_eq in Ek. subst j. rewrite Ea. cbn [List.length]. lia.
    + exact IH.
Qed.
Lemma steps_nine grow keep ls s k : xrun grow keep ls made = Some s -> (steps_of k ls <= 9)%nat /\ (steps_of k ls = 9%nat -> nth_error (x_go s) k = Some XDone).
Proof.
  intros H. pose proof (steps_left grow keep k _ _ _ H) as B. replace (nth_error (x_go made) k) with (@None apc) in B by (now destruct k).
  split; [lia|]. intros E. rewrite E in B. destruct (nth_error (x_go s) k) as [a|]; [|lia]. destruct a as [? ? ?|? ? ? ? ? ? ? ?|]; cbn in B; [lia..|reflexivity].
Qed.
Lemma never_waits grow keep s k a : nth_error (x_go s) k = Some a -> a <> XDone -> exists o, xstep grow keep (XGo k o) s <> XBlocked.
Proof.
  intros E N. cbn [xstep]. rewrite E. destruct a as [p l c|p l c g de dp dl dc|]; [| |congruence].
  - destruct p as [p|]; [|exists XPtr; discriminate]. destruct l as [l|]; [|exists XLen; discriminate]. destruct c as [c|]; [|exists XCap; discriminate].
    exists XRoom. destruct (Nat.ltb c (S l)); [cbv zeta; destruct (Nat.ltb _ l)|]; discriminate.
  - destruct de; [|exists XPutElem; cbv zeta; destruct (Nat.ltb l _); discriminate]. destruct dp; [|exists XPutPtr; discriminate]. destruct dl; [|exists XPutLen; discriminate].
    destruct dc; [exists XRet; discriminate|exists XPutCap; discriminate].
Qed.
(** So where no access is wild, a goroutine left alone comes to its end. *)
Lemma finishes grow keep (ok : list xlabel -> Prop) k :
  (forall ls s o, ok ls -> xrun grow keep ls made = Some s -> xstep grow keep (XGo k o) s <> XWild) -> (forall ls o s s', ok ls -> xrun grow keep ls made = Some s -> xstep grow keep (XGo k o) s = XWent s' -> ok (ls ++ [XGo k o])) ->
  forall n ls s a, ok ls -> xrun grow keep ls made = Some s -> nth_error (x_go s) k = Some a -> (left a <= n)%nat ->
  exists ops s', xrun grow keep (map (XGo k) ops) s = Some s' /\ nth_error (x_go s') k = Some XDone.
Proof.
  intros Hw Hk. induction n as [|n IH]; intros ls s a Ho H Ea Hl.
  - exists [], s. split; [reflexivity|]. destruct a as [? ? ?|? ? ? ? ? ? ? ?|]; cbn in Hl; [lia..|exact Ea].
  - assert (D : a = XDone \/ a <> XDone) by (destruct a; [right; discriminate|right; discriminate|now left]). destruct D as [->|N]; [exists [], s; now split|].
    destruct (never_waits grow keep s k a Ea N) as (o & Hb). destruct (xstep grow keep (XGo k o) s) as [| |s1] eqn:E; [congruence|now destruct (Hw ls s o Ho H)|].
    destruct (step_left _ _ _ _ _ _ E) as (a0 & a1 & E0 & Hlt & Hn). assert (a0 = a) by congruence. subst a0.
    destruct (IH (ls ++ [XGo k o]) s1 a1) as (ops & s' & R & F).
    + eapply Hk; eassumption.
    + rewrite xrun_app, H. cbn [xrun]. now rewrite E.
    + rewrite Hn, Nat.eqb_refl. reflexivity.
    + lia.
    + exists (o :: ops), s'. split; [|exact F]. cbn [map xrun]. now rewrite E.
Qed.
Lemma five_finish grow keep ls s k : makes_room grow -> xrun grow keep ls made = Some s -> (begun ls <= 5)%nat -> (k < begun ls)%nat ->
  exists ops s', xrun grow keep (map (XGo k) ops) s = Some s' /\ nth_error (x_go s') k = Some XDone.
Proof.
  intros Hg H H5 Hk. destruct (linv_run grow keep ls made s linv_made H) as (_ & HL). cbn [made x_go List.length Nat.add] in HL.
  destruct (nth_error (x_go s) k) as [a|] eqn:E; [|apply nth_error_None in E; lia].
  apply (finishes grow keep (fun ls => (begun ls <= 5)%nat) k) with (n := 9%nat) (ls := ls) (a := a); [| |exact H5|exact H|exact E|apply left_bound].
  - intros l1 s1 o Ho H1. apply (five_safe grow keep l1); [exact Hg|exact H1|]. rewrite begun_app. cbn. lia.
  - intros l1 o s1 s2 Ho _ _. rewrite begun_app. cbn. lia.
Qed.
