(** LockProofs.v: lemmas about the tracker under its mutex. *)
From Verif Require Import Base BitfieldModel DsModel PptModel PptSpec PptProofs LockModel LockSpec.
From Coq Require Import ZifyBool ZifyNat ZifyN.

Lemma Ok_inj {A} (a b : A) : Ok a = Ok b -> a = b.
Proof. now intros [= ->]. Qed.

(** ** The walk of NextPiece needs no more steps than there are nodes *)
Definition found (bf : bitfield) (w : handler) (p : piece) (got : bool) : bool := negb got && (negb (p_active p) && Has h_key (p_peers p) w).
Inductive visits (t : ppt) (bf : bitfield) (w : handler) : option nat -> list nat -> option piece -> Prop :=
| v_end : visits t bf w None [] None
| v_hit : forall a p g, node_data t a = Ok p -> Get bf (p_index p) = Ok g -> found bf w p g = true -> visits t bf w (Some a) [a] (Some p)
| v_go : forall a p g nx vs x, node_data t a = Ok p -> Get bf (p_index p) = Ok g -> found bf w p g = false -> Next (t_heap t) a = Ok nx ->
    visits t bf w nx vs x -> visits t bf w (Some a) (a :: vs) x.

Lemma visits_of t bf w : forall fuel cur x, next_in_bucket fuel t bf w cur = Ok x -> exists vs, visits t bf w cur vs x.
Proof.
  induction fuel as [|f IH]; intros [a|] x H; cbn [next_in_bucket] in H; try discriminate.
  - apply Ok_inj in H. subst x. exists []. constructor.
  - destruct (node_data t a) as [p| | |] eqn:E1; try discriminate. cbn [bind] in H. destruct (Get bf (p_index p)) as [g| | |] eqn:E2; try discriminate. cbn [bind] in H.
    fold (found bf w p g) in H. destruct (found bf w p g) eqn:E3.
    + apply Ok_inj in H. subst x. exists [a]. econstructor; eassumption.
    + destruct (Next (t_heap t) a) as [nx| | |] eqn:E4; try discriminate. cbn [bind] in H. destruct (IH _ _ H) as [vs Hv]. exists (a :: vs). econstructor; eassumption.
  - apply Ok_inj in H. subst x. exists []. constructor.
Qed.
Lemma visits_run t bf w cur vs x : visits t bf w cur vs x -> forall fuel, (List.length vs <= fuel)%nat -> next_in_bucket fuel t bf w cur = Ok x.
Proof.
  induction 1 as [|a p g E1 E2 E3|a p g nx vs x E1 E2 E3 E4 Hv IH]; intros [|f] Hf; cbn [List.length] in Hf; try lia; cbn [next_in_bucket]; try reflexivity.
  - rewrite E1. cbn [bind]. rewrite E2. cbn [bind]. fold (found bf w p g). now rewrite E3.
  - rewrite E1. cbn [bind]. rewrite E2. cbn [bind]. fold (found bf w p g). rewrite E3, E4. cbn [bind]. apply IH. lia.
Qed.
Lemma visits_det t bf w cur vs x : visits t bf w cur vs x -> forall vs' x', visits t bf w cur vs' x' -> vs = vs'.
Proof.
  induction 1 as [|a p g E1 E2 E3|a p g nx vs x E1 E2 E3 E4 Hv IH]; intros vs' x' H; inversion H; subst; try congruence.
  f_equal. assert (nx0 = nx) by congruence. subst nx0. eauto.
Qed.
Lemma visits_suffix t bf w cur vs x : visits t bf w cur vs x -> forall a, In a vs -> exists vs2 x2, visits t bf w (Some a) vs2 x2 /\ (List.length vs2 <= List.length vs)%nat.
Proof.
  induction 1 as [|a p g E1 E2 E3|a p g nx vs x E1 E2 E3 E4 Hv IH]; intros b Hb; [destruct Hb| |].
  - destruct Hb as [->|[]]. exists [b], (Some p). split; [econstructor; eassumption|apply le_n].
  - destruct Hb as [->|Hb].
    + exists (b :: vs), x. split; [econstructor; eassumption|apply le_n].
    + destruct (IH b Hb) as (vs2 & x2 & H1 & H2). exists vs2, x2. split; [exact H1|]. cbn [List.length]. lia.
Qed.
Lemma visits_nodup t bf w cur vs x : visits t bf w cur vs x -> NoDup vs.
Proof.
  induction 1 as [|a p g E1 E2 E3|a p g nx vs x E1 E2 E3 E4 Hv IH]; [constructor|repeat constructor; intros []|].
  constructor; [|exact IH]. intros Hin. destruct (visits_suffix _ _ _ _ _ _ Hv a Hin) as (vs2 & x2 & H1 & H2).
  assert (H3 : visits t bf w (Some a) (a :: vs) x) by (econstructor; eassumption).
  rewrite <- (visits_det _ _ _ _ _ _ H3 _ _ H1) in H2. cbn [List.length] in H2. lia.
Qed.
Lemma visits_inside t bf w cur vs x : visits t bf w cur vs x -> forall a, In a vs -> (a < List.length (t_heap t))%nat.
Proof.
  assert (Hn : forall a p, node_data t a = Ok p -> (a < List.length (t_heap t))%nat).
  { intros a p E. unfold node_data in E. apply nth_error_Some. intros E'. rewrite E' in E. discriminate. }
  induction 1 as [|a p g E1 E2 E3|a p g nx vs x E1 E2 E3 E4 Hv IH]; intros b Hb; [destruct Hb| |].
  - destruct Hb as [->|[]]. eauto.
  - destruct Hb as [->|Hb]; eauto.
Qed.
Lemma next_enough t bf w fuel cur x : next_in_bucket fuel t bf w cur = Ok x -> next_in_bucket (List.length (t_heap t)) t bf w cur = Ok x.
Proof.
  intros H. destruct (visits_of _ _ _ _ _ _ H) as [vs Hv]. apply (visits_run _ _ _ _ _ _ Hv).
  rewrite <- (seq_length (List.length (t_heap t)) 0). apply NoDup_incl_length; [exact (visits_nodup _ _ _ _ _ _ Hv)|].
  intros a Ha. apply in_seq. split; [lia|]. cbn. exact (visits_inside _ _ _ _ _ _ Hv a Ha).
Qed.

(** ** What is left to do, in one go *)
Definition bnd (t : ppt) (w : handler) (x : option piece) : ppt * option (Z * bool) :=
  match x with
  | Some p => (put_reqs t (h_ptr w) (reqs_of t (h_ptr w) ++ [mkp (p_index p) true (p_peers p)]), Some (p_index p, true))
  | None => (t, Some (0, false))
  end.
Definition fuel_of (t : ppt) : nat := List.length (t_heap t).
Definition finish (t : ppt) (b : body) : res (ppt * option (Z * bool)) :=
  match b with
  | BRegister w is => do t' <- Register t w is; Ok (t', None)
  | BRegisterBF w bf n i => do t' <- registerbf_loop t w bf n i; Ok (t', None)
  | BUnregister w => do t' <- Unregister t w; Ok (t', None)
  | BNodes w nodes => do t' <- unregister_loop t w nodes; Ok (t', None)
  | BBucket w bf i => do x <- next_loop (fuel_of t) t bf w (skipn i (t_buckets t)); Ok (bnd t w x)
  | BNode w bf i cur => do x <- next_in_bucket (fuel_of t) t bf w cur;
                        match x with Some p => Ok (bnd t w (Some p)) | None => do y <- next_loop (fuel_of t) t bf w (skipn (S i) (t_buckets t)); Ok (bnd t w y) end
  | BReturn r => Ok (t, r)
  end.

Lemma finish_enter t o : finish t (enter o) = call_alone t o.
Proof.
  destruct o as [w is|w bf|w|w bf]; try reflexivity. cbn [enter finish call_alone]. unfold NextPiece, fuel_of.
  destruct (next_loop _ t bf w _) as [[p|]| | |]; reflexivity.
Qed.

Lemma skipn_nth {A} (l : list A) i x : nth_error l i = Some x -> skipn i l = x :: skipn (S i) l.
Proof. revert i; induction l as [|a l IH]; intros [|i] H; cbn in *; try discriminate; [congruence|]. now apply IH. Qed.

Lemma finish_step t b t' b' : body_step t b = Ok (t', b') -> forall x, finish t b = Ok x <-> finish t' b' = Ok x.
Proof.
  intros H x. destruct b as [w [|i is]|w bf [|n] i|w|w [|a r]|w bf i|w bf i [a|]|r]; cbn [body_step] in H.
  - apply Ok_inj in H. injection H as <- <-. reflexivity.
  - destruct (register t w i) as [t1| | |] eqn:E; try discriminate. cbn [bind] in H. apply Ok_inj in H. injection H as <- <-. cbn [finish Register]. rewrite E. reflexivity.
  - apply Ok_inj in H. injection H as <- <-. reflexivity.
  - destruct (Get bf i) as [g| | |] eqn:E; try discriminate. cbn [bind] in H.
    destruct (if g then register t w (u32 i) else Ok t) as [t1| | |] eqn:E1; try discriminate. cbn [bind] in H. apply Ok_inj in H. injection H as <- <-.
    cbn [finish registerbf_loop]. rewrite E. cbn [bind]. rewrite E1. reflexivity.
  - apply Ok_inj in H. injection H as <- <-. reflexivity.
  - apply Ok_inj in H. injection H as <- <-. reflexivity.
  - destruct (unregister1 t w a) as [t1| | |] eqn:E; try discriminate. cbn [bind] in H. apply Ok_inj in H. injection H as <- <-. cbn [finish unregister_loop]. rewrite E. reflexivity.
  - destruct (nth_error (t_buckets t) i) as [l|] eqn:E; apply Ok_inj in H; injection H as <- <-; cbn [finish].
    + rewrite (skipn_nth _ _ _ E). cbn [next_loop]. destruct (next_in_bucket (fuel_of t) t bf w (lhead l)) as [[p|]| | |]; reflexivity.
    + apply nth_error_None in E. rewrite skipn_all2 by exact E. reflexivity.
  - destruct (node_data t a) as [p| | |] eqn:E1; try discriminate. cbn [bind] in H. destruct (Get bf (p_index p)) as [g| | |] eqn:E2; try discriminate. cbn [bind] in H.
    fold (found bf w p g) in H. destruct (found bf w p g) eqn:E3.
    + apply Ok_inj in H. injection H as <- <-. cbn [finish].
      assert (Hx : next_in_bucket (fuel_of t) t bf w (Some a) = Ok (Some p)).
      { apply (next_enough t bf w 1). cbn [next_in_bucket]. rewrite E1. cbn [bind]. rewrite E2. cbn [bind]. fold (found bf w p g). now rewrite E3. }
      rewrite Hx. reflexivity.
    + destruct (Next (t_heap t) a) as [nx| | |] eqn:E4; try discriminate. cbn [bind] in H. apply Ok_inj in H. injection H as <- <-. cbn [finish].
      assert (Hx : forall y, next_in_bucket (fuel_of t) t bf w (Some a) = Ok y <-> next_in_bucket (fuel_of t) t bf w nx = Ok y).
      { assert (Hs : forall f, next_in_bucket (S f) t bf w (Some a) = next_in_bucket f t bf w nx).
        { intros f. cbn [next_in_bucket]. rewrite E1. cbn [bind]. rewrite E2. cbn [bind]. fold (found bf w p g). rewrite E3, E4. reflexivity. }
        intros y. split; intros Hy.
        - apply (next_enough t bf w (pred (fuel_of t))). destruct (fuel_of t) as [|f] eqn:Ef; [discriminate|]. rewrite Hs in Hy. exact Hy.
        - apply (next_enough t bf w (S (fuel_of t))). now rewrite Hs. }
      destruct (next_in_bucket (fuel_of t) t bf w (Some a)) as [y| | |] eqn:Ey.
      * rewrite (proj1 (Hx y) eq_refl). reflexivity.
      * destruct (next_in_bucket (fuel_of t) t bf w nx) as [y| | |]; try (split; discriminate). pose proof (proj2 (Hx y) eq_refl). discriminate.
      * destruct (next_in_bucket (fuel_of t) t bf w nx) as [y| | |]; try (split; discriminate). pose proof (proj2 (Hx y) eq_refl). discriminate.
      * destruct (next_in_bucket (fuel_of t) t bf w nx) as [y| | |]; try (split; discriminate). pose proof (proj2 (Hx y) eq_refl). discriminate.
  - apply Ok_inj in H. injection H as <- <-. cbn [finish]. destruct (fuel_of t); reflexivity.
  - discriminate.
Qed.

(** A body that can be finished in one go gets on, and gets there. *)
Inductive bsteps : ppt -> body -> nat -> ppt -> body -> Prop :=
| bs_here : forall t b, bsteps t b 0 t b
| bs_step : forall t b t1 b1 n t2 b2, (forall r, b <> BReturn r) -> body_step t b = Ok (t1, b1) -> bsteps t1 b1 n t2 b2 -> bsteps t b (S n) t2 b2.

Lemma gets_on t b x : finish t b = Ok x -> (forall r, b <> BReturn r) -> exists t' b', body_step t b = Ok (t', b').
Proof.
  intros H Hn. destruct b as [w [|i is]|w bf [|n] i|w|w [|a r]|w bf i|w bf i [a|]|r]; cbn [body_step]; try (eexists _, _; reflexivity).
  - cbn [finish Register] in H. destruct (register t w i); try discriminate. eexists _, _. reflexivity.
  - cbn [finish registerbf_loop] in H. destruct (Get bf i) as [g| | |]; try discriminate. cbn [bind] in *. destruct (if g then register t w (u32 i) else Ok t); try discriminate. eexists _, _. reflexivity.
  - cbn [finish unregister_loop] in H. destruct (unregister1 t w a); try discriminate. eexists _, _. reflexivity.
  - destruct (nth_error (t_buckets t) i); eexists _, _; reflexivity.
  - cbn [finish] in H. destruct (fuel_of t); [discriminate|]. cbn [next_in_bucket] in H. destruct (node_data t a) as [p| | |]; try discriminate. cbn [bind] in *.
    destruct (Get bf (p_index p)) as [g| | |]; try discriminate. cbn [bind] in *. destruct (negb g && _)%bool; [eexists _, _; reflexivity|].
    destruct (Next (t_heap t) a); try discriminate. eexists _, _. reflexivity.
  - now destruct (Hn r).
Qed.

Lemma after_step t b t1 b1 y r : body_step t b = Ok (t1, b1) -> (forall r, b <> BReturn r) -> (exists n, bsteps t1 b1 n y (BReturn r)) -> exists n, bsteps t b n y (BReturn r).
Proof. intros H Hn [n Hb]. exists (S n). econstructor; eassumption. Qed.

Lemma there_register w : forall is t t', Register t w is = Ok t' -> exists n, bsteps t (BRegister w is) n t' (BReturn None).
Proof.
  induction is as [|i is IH]; intros t t' H; cbn [Register] in H.
  - apply Ok_inj in H. subst t'. eapply after_step; [reflexivity|discriminate|]. exists 0%nat. constructor.
  - destruct (register t w i) as [t1| | |] eqn:E; try discriminate. eapply after_step; [cbn [body_step]; rewrite E; reflexivity|discriminate|]. now apply IH.
Qed.
Lemma there_bf w bf : forall n i t t', registerbf_loop t w bf n i = Ok t' -> exists k, bsteps t (BRegisterBF w bf n i) k t' (BReturn None).
Proof.
  induction n as [|n IH]; intros i t t' H; cbn [registerbf_loop] in H.
  - apply Ok_inj in H. subst t'. eapply after_step; [reflexivity|discriminate|]. exists 0%nat. constructor.
  - destruct (Get bf i) as [g| | |] eqn:E; try discriminate. cbn [bind] in H. destruct (if g then register t w (u32 i) else Ok t) as [t1| | |] eqn:E1; try discriminate. cbn [bind] in H.
    eapply after_step; [cbn [body_step]; rewrite E; cbn [bind]; rewrite E1; reflexivity|discriminate|]. now apply IH.
Qed.
Lemma there_nodes w : forall l t t', unregister_loop t w l = Ok t' -> exists k, bsteps t (BNodes w l) k t' (BReturn None).
Proof.
  induction l as [|a l IH]; intros t t' H; cbn [unregister_loop] in H.
  - apply Ok_inj in H. subst t'. eapply after_step; [reflexivity|discriminate|]. exists 0%nat. constructor.
  - destruct (unregister1 t w a) as [t1| | |] eqn:E; try discriminate. eapply after_step; [cbn [body_step]; rewrite E; reflexivity|discriminate|]. now apply IH.
Qed.
Lemma there_node w bf t i y r :
  forall fuel cur x, next_in_bucket fuel t bf w cur = Ok x ->
  match x with
  | Some p => exists k, bsteps t (BNode w bf i cur) k (fst (bnd t w x)) (BReturn (snd (bnd t w x)))
  | None => (exists k, bsteps t (BBucket w bf (S i)) k y (BReturn r)) -> exists k, bsteps t (BNode w bf i cur) k y (BReturn r)
  end.
Proof.
  induction fuel as [|f IH]; intros [a|] x H; cbn [next_in_bucket] in H; try discriminate.
  - apply Ok_inj in H. subst x. intros Hb. eapply after_step; [reflexivity|discriminate|exact Hb].
  - destruct (node_data t a) as [p| | |] eqn:E1; try discriminate. cbn [bind] in H. destruct (Get bf (p_index p)) as [g| | |] eqn:E2; try discriminate. cbn [bind] in H.
    fold (found bf w p g) in H. destruct (found bf w p g) eqn:E3.
    + apply Ok_inj in H. subst x. eapply after_step; [cbn [body_step]; rewrite E1; cbn [bind]; rewrite E2; cbn [bind]; fold (found bf w p g); rewrite E3; reflexivity|discriminate|].
      exists 0%nat. constructor.
    + destruct (Next (t_heap t) a) as [nx| | |] eqn:E4; try discriminate. cbn [bind] in H.
      assert (Hs : body_step t (BNode w bf i (Some a)) = Ok (t, BNode w bf i nx)) by (cbn [body_step]; rewrite E1; cbn [bind]; rewrite E2; cbn [bind]; fold (found bf w p g); rewrite E3, E4; reflexivity).
      specialize (IH nx x H). destruct x as [q|].
      * eapply after_step; [exact Hs|discriminate|exact IH].
      * intros Hb. eapply after_step; [exact Hs|discriminate|exact (IH Hb)].
  - apply Ok_inj in H. subst x. intros Hb. eapply after_step; [reflexivity|discriminate|exact Hb].
Qed.
Lemma there_bucket w bf t : forall m i x, (List.length (t_buckets t) - i <= m)%nat -> next_loop (fuel_of t) t bf w (skipn i (t_buckets t)) = Ok x ->
  exists k, bsteps t (BBucket w bf i) k (fst (bnd t w x)) (BReturn (snd (bnd t w x))).
Proof.
  induction m as [|m IH]; intros i x Hm H.
  - rewrite skipn_all2 in H by lia. apply Ok_inj in H. subst x. eapply after_step; [cbn [body_step]; rewrite (proj2 (nth_error_None _ _)) by lia; reflexivity|discriminate|].
    exists 0%nat. constructor.
  - destruct (nth_error (t_buckets t) i) as [l|] eqn:E.
    + rewrite (skipn_nth _ _ _ E) in H. cbn [next_loop] in H. assert (i < List.length (t_buckets t))%nat by (apply nth_error_Some; congruence).
      destruct (next_in_bucket (fuel_of t) t bf w (lhead l)) as [z| | |] eqn:E1; try discriminate. cbn [bind] in H.
      eapply after_step; [cbn [body_step]; rewrite E; reflexivity|discriminate|].
      pose proof (there_node w bf t i (fst (bnd t w x)) (snd (bnd t w x)) _ _ _ E1) as Hn. destruct z as [p|].
      * apply Ok_inj in H. subst x. exact Hn.
      * apply Hn. apply IH; [lia|exact H].
    + apply nth_error_None in E. rewrite skipn_all2 in H by lia. apply Ok_inj in H. subst x.
      eapply after_step; [cbn [body_step]; rewrite (proj2 (nth_error_None _ _)) by lia; reflexivity|discriminate|]. exists 0%nat. constructor.
Qed.
Lemma gets_there t b t' r : finish t b = Ok (t', r) -> exists n, bsteps t b n t' (BReturn r).
Proof.
  destruct b as [w is|w bf n i|w|w nodes|w bf i|w bf i cur|r']; cbn [finish]; intros H.
  - destruct (Register t w is) as [t1| | |] eqn:E; try discriminate. apply Ok_inj in H. injection H as <- <-. now apply there_register.
  - destruct (registerbf_loop t w bf n i) as [t1| | |] eqn:E; try discriminate. apply Ok_inj in H. injection H as <- <-. now apply there_bf.
  - destruct (Unregister t w) as [t1| | |] eqn:E; try discriminate. apply Ok_inj in H. injection H as <- <-. eapply after_step; [reflexivity|discriminate|]. now apply there_nodes.
  - destruct (unregister_loop t w nodes) as [t1| | |] eqn:E; try discriminate. apply Ok_inj in H. injection H as <- <-. now apply there_nodes.
  - destruct (next_loop (fuel_of t) t bf w (skipn i (t_buckets t))) as [x| | |] eqn:E; try discriminate. apply Ok_inj in H.
    destruct (there_bucket w bf t _ i x (le_n _) E) as [k Hk]. rewrite H in Hk. exists k. exact Hk.
  - destruct (next_in_bucket (fuel_of t) t bf w cur) as [x| | |] eqn:E; try discriminate. cbn [bind] in H. pose proof (there_node w bf t i t' r _ _ _ E) as Hn. destruct x as [p|].
    + apply Ok_inj in H. rewrite H in Hn. exact Hn.
    + destruct (next_loop (fuel_of t) t bf w (skipn (S i) (t_buckets t))) as [y| | |] eqn:E1; try discriminate. cbn [bind] in H. apply Ok_inj in H. apply Hn.
      destruct (there_bucket w bf t _ (S i) y (le_n _) E1) as [k Hk]. rewrite H in Hk. exists k. exact Hk.
  - apply Ok_inj in H. injection H as <- <-. exists 0%nat. constructor.
Qed.

(** ** The invariant *)
Lemma in_turn_app a : forall t b, in_turn t (a ++ b) = do '(t1, xs) <- in_turn t a; do '(t2, ys) <- in_turn t1 b; Ok (t2, xs ++ ys).
Proof.
  induction a as [|o a IH]; intros t b; cbn [app in_turn bind].
  - destruct (in_turn t b) as [[]| | |]; reflexivity.
  - destruct (call_alone t o) as [[t1 x]| | |]; try reflexivity. cbn [bind]. rewrite IH. destruct (in_turn t1 a) as [[t2 xs]| | |]; try reflexivity. cbn [bind].
    destruct (in_turn t2 b) as [[]| | |]; reflexivity.
Qed.
Lemma in_turn_one t o : in_turn t [o] = do '(t1, x) <- call_alone t o; Ok (t1, [x]).
Proof. cbn [in_turn]. destruct (call_alone t o) as [[]| | |]; reflexivity. Qed.

Definition linv (prog : nat -> pop) (t0 : ppt) (s : lst) : Prop :=
  exists tb rs, in_turn t0 (map prog (done s)) = Ok (tb, rs) /\ Forall2 (fun c r => call_at s c = COut r) (done s) rs /\ NoDup (done s) /\
    (forall c r, call_at s c = COut r -> In c (done s)) /\
    match mutex s with
    | None => tracker s = tb /\ forall c b, call_at s c <> CIn b
    | Some c => exists b, call_at s c = CIn b /\ (forall x, call_alone tb (prog c) = Ok x <-> finish (tracker s) b = Ok x) /\ forall d b', call_at s d = CIn b' -> d = c
    end.

Lemma linv_init prog t0 : linv prog t0 (lock_init t0).
Proof. exists t0, []. repeat split; try constructor; try discriminate. Qed.

Lemma put_other s c p d : d <> c -> put_call s c p d = call_at s d.
Proof. intros H. unfold put_call. now rewrite (proj2 (Nat.eqb_neq d c) H). Qed.
Lemma put_same s c p : put_call s c p c = p.
Proof. unfold put_call. now rewrite Nat.eqb_refl. Qed.

Lemma keep_results s c p ds rs : Forall2 (fun d r => call_at s d = COut r) ds rs -> (forall r, call_at s c <> COut r) -> Forall2 (fun d r => put_call s c p d = COut r) ds rs.
Proof.
  intros HF Hc. induction HF as [|d r ds rs H HF IH]; constructor; [|exact IH]. destruct (Nat.eq_dec d c) as [->|Hd]; [now destruct (Hc r)|]. now rewrite put_other.
Qed.

(** One action of a call that holds the mutex, with the body. *)
Lemma step_body prog s c b : call_at s c = CIn b -> (forall r, b <> BReturn r) ->
  lock_step prog s c = match body_step (tracker s) b with Ok (t', b') => LWent (mkl t' (mutex s) (put_call s c (CIn b')) (done s)) | _ => LDied end.
Proof. intros E Hn. unfold lock_step. rewrite E. destruct b; try reflexivity. now destruct (Hn r). Qed.
Lemma return_or b : (exists r, b = BReturn r) \/ (forall r, b <> BReturn r).
Proof. destruct b; try (right; discriminate). left. eauto. Qed.

Lemma linv_step prog t0 s c s' : linv prog t0 s -> lock_step prog s c = LWent s' -> linv prog t0 s'.
Proof.
  intros (tb & rs & Hr & HF & HN & HO & HM) H. destruct (call_at s c) as [|b|r] eqn:Ec.
  - unfold lock_step in H. rewrite Ec in H. destruct (mutex s) as [d|] eqn:Em; [discriminate|]. injection H as <-. destruct HM as [Ht Hn].
    exists tb, rs. cbn [done call_at mutex tracker]. split; [exact Hr|]. split; [apply keep_results; [exact HF|intros r Hx; congruence]|]. split; [exact HN|]. split.
    + intros d r Hd. destruct (Nat.eq_dec d c) as [->|Hne]; [rewrite put_same in Hd; discriminate|]. rewrite put_other in Hd by exact Hne. eauto.
    + exists (enter (prog c)). rewrite put_same. split; [reflexivity|]. split; [intros x; rewrite finish_enter, Ht; reflexivity|].
      intros d b' Hd. destruct (Nat.eq_dec d c) as [->|Hne]; [reflexivity|]. rewrite put_other in Hd by exact Hne. now destruct (Hn d b').
  - destruct (mutex s) as [d|] eqn:Em.
    2:{ destruct HM as [_ Hn]. now destruct (Hn c b). }
    destruct HM as (b0 & Hb0 & Hfin & Hu). pose proof (Hu _ _ Ec) as ->. rewrite Ec in Hb0. injection Hb0 as <-.
    destruct (return_or b) as [[r ->]|Hnr].
    + unfold lock_step in H. rewrite Ec in H. injection H as <-.
      assert (Hc : call_alone tb (prog d) = Ok (tracker s, r)) by (apply Hfin; reflexivity).
      exists (tracker s), (rs ++ [r]). cbn [done call_at mutex tracker].
      assert (Hnot : ~ In d (done s)).
      { intros Hin. clear -HF Hin Ec. induction HF as [|e x ds rs Hx HF IH]; [exact Hin|]. destruct Hin as [->|Hin]; [congruence|auto]. }
      split. { rewrite map_app. cbn [map]. rewrite in_turn_app, Hr. cbn [bind]. rewrite in_turn_one, Hc. reflexivity. }
      split. { apply Forall2_app; [apply keep_results; [exact HF|intros r' Hx; congruence]|]. constructor; [apply put_same|constructor]. }
      split. { apply NoDup_rev in HN. rewrite <- (rev_involutive (done s ++ [d])). apply NoDup_rev. rewrite rev_unit. constructor; [now rewrite <- in_rev|exact HN]. }
      split. { intros e r' He. apply in_or_app. destruct (Nat.eq_dec e d) as [->|Hne]; [right; left; reflexivity|]. rewrite put_other in He by exact Hne. left. eauto. }
      split; [reflexivity|]. intros e b He. destruct (Nat.eq_dec e d) as [->|Hne]; [rewrite put_same in He; discriminate|]. rewrite put_other in He by exact Hne. apply Hne. eauto.
    + rewrite (step_body prog s d b Ec Hnr) in H. destruct (body_step (tracker s) b) as [[t' b']| | |] eqn:Eb; try discriminate. injection H as <-.
      exists tb, rs. cbn [done call_at mutex tracker]. rewrite Em.
      split; [exact Hr|]. split; [apply keep_results; [exact HF|intros r Hx; congruence]|]. split; [exact HN|]. split.
      * intros e r He. destruct (Nat.eq_dec e d) as [->|Hne]; [rewrite put_same in He; discriminate|]. rewrite put_other in He by exact Hne. eauto.
      * exists b'. rewrite put_same. split; [reflexivity|]. split; [intros x; rewrite <- (finish_step _ _ _ _ Eb x); apply Hfin|].
        intros e b1 He. destruct (Nat.eq_dec e d) as [->|Hne]; [reflexivity|]. rewrite put_other in He by exact Hne. eauto.
  - unfold lock_step in H. rewrite Ec in H. discriminate.
Qed.
Lemma linv_run prog t0 cs : forall s s', linv prog t0 s -> lock_run prog s cs = Some s' -> linv prog t0 s'.
Proof.
  induction cs as [|c cs IH]; intros s s' Hi H; cbn [lock_run] in H; [congruence|]. destruct (lock_step prog s c) as [| |s1] eqn:E; try discriminate.
  eapply IH; [|exact H]. eapply linv_step; eassumption.
Qed.

(** ** The theorems *)
Lemma linear_top prog t0 cs s : lock_run prog (lock_init t0) cs = Some s ->
  exists tb rs, in_turn t0 (map prog (done s)) = Ok (tb, rs) /\ Forall2 (fun c r => call_at s c = COut r) (done s) rs /\ NoDup (done s) /\
    (forall c r, call_at s c = COut r -> In c (done s)) /\ (mutex s = None -> tracker s = tb) /\ (forall c d b b', call_at s c = CIn b -> call_at s d = CIn b' -> c = d /\ mutex s = Some c).
Proof.
  intros H. destruct (linv_run prog t0 cs _ _ (linv_init prog t0) H) as (tb & rs & H1 & H2 & H3 & H4 & H5). exists tb, rs. repeat (split; [assumption|]).
  destruct (mutex s) as [c|].
  - destruct H5 as (b & Hb & _ & Hu). split; [discriminate|]. intros c1 d b1 b2 E1 E2. rewrite (Hu _ _ E1), (Hu _ _ E2). auto.
  - destruct H5 as [Ht Hn]. split; [auto|]. intros c1 d b1 b2 E1. now destruct (Hn c1 b1).
Qed.
Lemma run_app prog a : forall s b, lock_run prog s (a ++ b) = match lock_run prog s a with Some s' => lock_run prog s' b | None => None end.
Proof. induction a as [|c a IH]; intros s b; cbn [app lock_run]; [reflexivity|]. destruct (lock_step prog s c); auto. Qed.
Lemma step_done prog s c s' : lock_step prog s c = LWent s' -> exists more, done s' = done s ++ more.
Proof.
  unfold lock_step. intros H. destruct (call_at s c) as [|b|r]; [|destruct b|discriminate].
  { destruct (mutex s); [discriminate|]. injection H as <-. exists []. symmetry. apply app_nil_r. }
  all: try (destruct (body_step _ _) as [[t' b']| | |]; try discriminate; injection H as <-; exists []; symmetry; apply app_nil_r).
  injection H as <-. exists [c]. reflexivity.
Qed.
Lemma order_top prog cs : forall s s', lock_run prog s cs = Some s' -> exists more, done s' = done s ++ more.
Proof.
  induction cs as [|c cs IH]; intros s s' H; cbn [lock_run] in H. { injection H as <-. exists []. symmetry. apply app_nil_r. }
  destruct (lock_step prog s c) as [| |s1] eqn:E; try discriminate. destruct (step_done _ _ _ _ E) as [m1 E1]. destruct (IH _ _ H) as [m2 E2].
  exists (m1 ++ m2). rewrite E2, E1. symmetry. apply app_assoc.
Qed.

(** A call that could be made now returns. *)
Lemma body_runs prog c t b n t2 b2 : bsteps t b n t2 b2 -> forall s, tracker s = t -> call_at s c = CIn b ->
  exists s', lock_run prog s (repeat c n) = Some s' /\ tracker s' = t2 /\ call_at s' c = CIn b2 /\ mutex s' = mutex s /\ done s' = done s.
Proof.
  induction 1 as [t b|t b t1 b1 n t2 b2 Hn Hb Hs IH]; intros s Et Ec; cbn [repeat lock_run]; [eauto 8|].
  rewrite (step_body prog s c b Ec Hn), Et, Hb. destruct (IH (mkl t1 (mutex s) (put_call s c (CIn b1)) (done s)) eq_refl (put_same _ _ _)) as (s' & H1 & H2 & H3 & H4 & H5).
  exists s'. auto.
Qed.
Lemma release_top prog t0 cs s c x : lock_run prog (lock_init t0) cs = Some s -> mutex s = Some c -> in_turn t0 (map prog (done s ++ [c])) = Ok x ->
  exists n s', lock_run prog s (repeat c n) = Some s' /\ mutex s' = None /\ done s' = done s ++ [c].
Proof.
  intros H Hm Hx. destruct (linv_run prog t0 cs _ _ (linv_init prog t0) H) as (tb & rs & H1 & _ & _ & _ & H5). rewrite Hm in H5. destruct H5 as (b & Hb & Hf & _).
  rewrite map_app in Hx. cbn [map] in Hx. rewrite in_turn_app, H1 in Hx. cbn [bind] in Hx. rewrite in_turn_one in Hx.
  destruct (call_alone tb (prog c)) as [[t' r]| | |] eqn:Ec; try discriminate. pose proof (proj1 (Hf _) eq_refl) as Hfin.
  destruct (gets_there _ _ _ _ Hfin) as [n Hn]. destruct (body_runs prog c _ _ _ _ _ Hn s eq_refl Hb) as (s1 & R1 & R2 & R3 & R4 & R5).
  exists (n + 1)%nat. rewrite repeat_app, run_app, R1. cbn [repeat lock_run]. unfold lock_step. rewrite R3. eexists. split; [reflexivity|]. cbn [mutex done]. rewrite R5. auto.
Qed.
Lemma dies_top prog t0 cs s c x : lock_run prog (lock_init t0) cs = Some s -> lock_step prog s c = LDied ->
  mutex s = Some c /\ in_turn t0 (map prog (done s ++ [c])) <> Ok x.
Proof.
  intros H Hd. destruct (linv_run prog t0 cs _ _ (linv_init prog t0) H) as (tb & rs & H1 & _ & _ & _ & H5).
  destruct (call_at s c) as [|b|r] eqn:Ec.
  - unfold lock_step in Hd. rewrite Ec in Hd. destruct (mutex s); discriminate.
  - destruct (mutex s) as [d|] eqn:Em. 2:{ destruct H5 as [_ Hn]. now destruct (Hn c b). }
    destruct H5 as (b0 & Hb & Hf & Hu). pose proof (Hu _ _ Ec) as ->. rewrite Ec in Hb. injection Hb as <-. split; [reflexivity|].
    intros Hx. rewrite map_app in Hx. cbn [map] in Hx. rewrite in_turn_app, H1 in Hx. cbn [bind] in Hx. rewrite in_turn_one in Hx.
    destruct (call_alone tb (prog d)) as [[t' r]| | |] eqn:Eca; try discriminate. pose proof (proj1 (Hf _) eq_refl) as Hfin.
    destruct (return_or b) as [[r' ->]|Hnr].
    + unfold lock_step in Hd. rewrite Ec in Hd. discriminate.
    + rewrite (step_body prog s d b Ec Hnr) in Hd. destruct (gets_on _ _ _ Hfin Hnr) as (t1 & b1 & E). rewrite E in Hd. discriminate.
  - unfold lock_step in Hd. rewrite Ec in Hd. discriminate.
Qed.
Lemma blocked_top prog t0 cs s c : lock_run prog (lock_init t0) cs = Some s ->
  (lock_step prog s c = LBlocked <-> (exists r, call_at s c = COut r) \/ (call_at s c = CStart /\ exists d, mutex s = Some d)).
Proof.
  intros H. unfold lock_step. destruct (call_at s c) as [|b|r].
  - destruct (mutex s) as [d|]; split; try discriminate; eauto. intros [[r Hr]|[_ [d Hd]]]; discriminate.
  - split; [|intros [[r Hr]|[Hr _]]; discriminate]. intros Hx. destruct b; try discriminate; destruct (body_step _ _) as [[]| | |]; discriminate.
  - split; eauto.
Qed.

(** With calls in the domain. *)
Lemma prun_in_turn os : forall t t' rs, in_turn t os = Ok (t', rs) -> prun t os = Ok t'.
Proof.
  induction os as [|o os IH]; intros t t' rs H; cbn [in_turn prun] in *; [apply Ok_inj in H; congruence|].
  destruct (call_alone t o) as [[t1 x]| | |] eqn:E; try discriminate. cbn [bind] in H. destruct (in_turn t1 os) as [[t2 xs]| | |] eqn:E1; try discriminate. cbn [bind] in H.
  apply Ok_inj in H. injection H as <- _. rewrite <- (IH _ _ _ E1). unfold call_alone in E. destruct o; cbn [pstep] in *.
  - destruct (Register t w is); try discriminate. apply Ok_inj in E. cbn [bind]. congruence.
  - destruct (RegisterBF t w bf); try discriminate. apply Ok_inj in E. cbn [bind]. congruence.
  - destruct (Unregister t w); try discriminate. apply Ok_inj in E. cbn [bind]. congruence.
  - destruct (NextPiece t bf w) as [[[i ok] t3]| | |]; try discriminate. cbn [bind] in *. apply Ok_inj in E. congruence.
Qed.
Lemma in_turn_prun os : forall t t', prun t os = Ok t' -> exists rs, in_turn t os = Ok (t', rs).
Proof.
  induction os as [|o os IH]; intros t t' H; cbn [in_turn prun] in *; [apply Ok_inj in H; subst; eauto|].
  destruct (pstep t o) as [t1| | |] eqn:E; try discriminate. cbn [bind] in H. destruct (IH _ _ H) as [rs E1].
  assert (Hx : exists x, call_alone t o = Ok (t1, x)).
  { destruct o; cbn [pstep call_alone] in *; try (rewrite E; cbn [bind]; eauto). destruct (NextPiece t bf w) as [[[i ok] t3]| | |]; try discriminate. cbn [bind] in *. apply Ok_inj in E. subst t3. eauto. }
  destruct Hx as [x ->]. cbn [bind]. rewrite E1. cbn [bind]. eauto.
Qed.
Lemma valid_prefix size a b : pvalid size (a ++ b) -> pvalid size a.
Proof. intros (H1 & H2 & H3). split; [exact H1|]. split; [exact (proj1 (proj1 (Forall_app _ _ _) H2))|exact (never64_app _ _ H3)]. Qed.
Lemma valid_turn size t0 os : NewPeerPieceTracker size = Ok t0 -> pvalid size os -> exists t rs, in_turn t0 os = Ok (t, rs).
Proof.
  intros Hn Hv. destruct (run_pinv size os Hv) as (t & Ht & _). rewrite Hn in Ht. cbn [bind] in Ht. destruct (in_turn_prun _ _ _ Ht) as [rs Hr]. eauto.
Qed.
Lemma safe_top size prog t0 cs s c : NewPeerPieceTracker size = Ok t0 -> lock_run prog (lock_init t0) cs = Some s -> mutex s = Some c -> pvalid size (map prog (done s ++ [c])) ->
  (forall d, lock_step prog s d <> LDied) /\ exists n s', lock_run prog s (repeat c n) = Some s' /\ mutex s' = None /\ done s' = done s ++ [c].
Proof.
  intros Hn H Hm Hv. destruct (valid_turn _ _ _ Hn Hv) as (t & rs & Ht). split.
  - intros d Hd. destruct (dies_top prog t0 cs s d (t, rs) H Hd) as [E Hx]. rewrite Hm in E. injection E as <-. now apply Hx.
  - exact (release_top prog t0 cs s c _ H Hm Ht).
Qed.
Lemma tracker_top size prog t0 cs s : NewPeerPieceTracker size = Ok t0 -> lock_run prog (lock_init t0) cs = Some s -> mutex s = None -> pvalid size (map prog (done s)) ->
  forall i k, 0 <= i < size -> (lists (tracker s) i k <-> registered (rev (map prog (done s))) k i).
Proof.
  intros Hn H Hm Hv i k Hi. destruct (bookkeeping_top size _ Hv) as (t & Ht & _ & _ & Hl). rewrite Hn in Ht. cbn [bind] in Ht.
  destruct (linear_top prog t0 cs s H) as (tb & rs & H1 & _ & _ & _ & H5 & _). rewrite (H5 Hm). assert (E : tb = t) by (apply prun_in_turn in H1; congruence). rewrite E. auto.
Qed.
Lemma turn_prefix t0 a b t rs : in_turn t0 (a ++ b) = Ok (t, rs) -> exists t1 r1 r2, in_turn t0 a = Ok (t1, r1) /\ in_turn t1 b = Ok (t, r2) /\ rs = r1 ++ r2.
Proof.
  rewrite in_turn_app. intros H. destruct (in_turn t0 a) as [[t1 r1]| | |]; try discriminate. cbn [bind] in H. destruct (in_turn t1 b) as [[t2 r2]| | |] eqn:E; try discriminate. cbn [bind] in H.
  apply Ok_inj in H. injection H as <- <-. exists t1, r1, r2. auto.
Qed.
Lemma turn_length os : forall t t' rs, in_turn t os = Ok (t', rs) -> List.length rs = List.length os.
Proof.
  induction os as [|o os IH]; intros t t' rs H; cbn [in_turn] in H; [apply Ok_inj in H; injection H as _ <-; reflexivity|].
  destruct (call_alone t o) as [[t1 x]| | |]; try discriminate. cbn [bind] in H. destruct (in_turn t1 os) as [[t2 xs]| | |] eqn:E; try discriminate. cbn [bind] in H.
  apply Ok_inj in H. injection H as _ <-. cbn [List.length]. f_equal. eauto.
Qed.
Lemma Forall2_mid {A B} (P : A -> B -> Prop) a x b : forall a' y b', List.length a = List.length a' -> Forall2 P (a ++ x :: b) (a' ++ y :: b') -> P x y.
Proof.
  induction a as [|z a IH]; intros [|z' a'] y b' Hl HF; cbn in *; try discriminate; inversion HF; subst; [assumption|]. eapply IH; [|eassumption]. congruence.
Qed.
Lemma next_result_top size prog t0 cs s pre c post w bf r : NewPeerPieceTracker size = Ok t0 -> lock_run prog (lock_init t0) cs = Some s -> done s = pre ++ c :: post ->
  prog c = PNext w bf -> call_at s c = COut r -> pvalid size (map prog pre) -> size <= 8 * zlen (Data bf) ->
  exists i ok, r = Some (i, ok) /\
    if ok then candidate size (rev (map prog pre)) bf w i /\
               forall j n m, candidate size (rev (map prog pre)) bf w j -> npeers (rev (map prog pre)) i n -> npeers (rev (map prog pre)) j m -> n <= m
    else i = 0 /\ forall j, ~ candidate size (rev (map prog pre)) bf w j.
Proof.
  intros Hn H Hd Hp Hc Hv Hb. destruct (next_top size _ bf w Hv Hb) as (t & i & ok & t' & Ht & Hx & Hres). rewrite Hn in Ht. cbn [bind] in Ht.
  destruct (linear_top prog t0 cs s H) as (tb & rs & H1 & H2 & _). rewrite Hd in H1, H2. rewrite map_app in H1. cbn [map] in H1.
  destruct (turn_prefix _ _ _ _ _ H1) as (t1 & r1 & r2 & E1 & E2 & ->). assert (E : t1 = t) by (apply prun_in_turn in E1; congruence). subst t1.
  cbn [in_turn] in E2. rewrite Hp in E2. cbn [call_alone] in E2. rewrite Hx in E2. cbn [bind] in E2. destruct (in_turn t' (map prog post)) as [[t2 xs]| | |]; try discriminate. cbn [bind] in E2.
  apply Ok_inj in E2. injection E2 as _ <-. exists i, ok. split; [|exact Hres].
  assert (Hlen : List.length pre = List.length r1) by (rewrite (turn_length _ _ _ _ E1), map_length; reflexivity).
  pose proof (Forall2_mid _ pre c post r1 _ xs Hlen H2) as Hm. cbn beta in Hm. congruence.
Qed.
