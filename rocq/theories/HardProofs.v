(** HardProofs.v: proofs about files with more than one name. *)
From Verif Require Import Base BencodeModel PathModel PathSpec LayoutModel LayoutSpec FsModel FsSpec LifeSpec OcatProofs InfoSpec InfoProofs LinkModel LinkSpec LinkProofs HardSpec.
From Coq Require Import ZifyBool ZifyNat ZifyN.

(** ** Calls on an open file change that file only *)
Definition touch (i : nat) (w w' : world) : Prop :=
  w_cwd w' = w_cwd w /\ w_names w' = w_names w /\ w_lfps w' = w_lfps w /\ List.length (w_inos w') = List.length (w_inos w) /\
  forall j, j <> i -> nth_error (w_inos w') j = nth_error (w_inos w) j.
Lemma touch_refl i w : touch i w w.
Proof. repeat split. Qed.
Lemma touch_trans i a b c : touch i a b -> touch i b c -> touch i a c.
Proof.
  intros (A1 & A2 & A3 & A4 & A5) (B1 & B2 & B3 & B4 & B5). repeat split; try congruence.
  intros j H. rewrite B5, A5 by assumption. reflexivity.
Qed.
Definition tch {A} (i : nat) (m : io A) : Prop := forall w r w', m w = (r, w') -> touch i w w'.
Lemma tch_ret {A} i (a : A) : tch i (ret a).
Proof. intros w r w' H. injection H as <- <-. apply touch_refl. Qed.
Lemma tch_lift {A} i (a : res A) : tch i (lift a).
Proof. intros w r w' H. injection H as <- <-. apply touch_refl. Qed.
Lemma tch_bind {A C} i (m : io A) (f : A -> io C) : tch i m -> (forall a, tch i (f a)) -> tch i (iobind m f).
Proof.
  intros Hm Hf w r w' H. unfold iobind in H. destruct (m w) as [[a|e| |] w1] eqn:E; pose proof (Hm _ _ _ E) as T;
    try (injection H as <- <-; exact T). exact (touch_trans _ _ _ _ T (Hf _ _ _ _ H)).
Qed.
Lemma tch_fault i : tch i fault.
Proof. intros w r w' H. unfold fault in H. destruct (w_flt w); injection H as <- <-; repeat split. Qed.
Lemma tch_content i j : tch i (content j).
Proof. intros w r w' H. injection H as <- <-. apply touch_refl. Qed.
Lemma tch_put i c : tch i (put_content i c).
Proof.
  intros w r w' H. injection H as <- <-. repeat split; cbn; [apply lupd_length|].
  intros j Hj. rewrite nth_error_lupd. destruct (Nat.eqb_spec j i); [contradiction|reflexivity].
Qed.
Lemma tch_syscall {A} i (m : io A) : tch i m -> tch i (syscall m).
Proof. intros H. apply tch_bind; [apply tch_fault|]. intros [k|]; [apply tch_lift|exact H]. Qed.
Lemma tch_size i j : tch i (os_size j).
Proof. apply tch_syscall, tch_bind; [apply tch_content|]. intros c. apply tch_ret. Qed.
Lemma tch_truncate i n : tch i (os_truncate i n).
Proof. apply tch_syscall. destruct (n <? 0); [apply tch_lift|]. apply tch_bind; [apply tch_content|]. intros c. apply tch_put. Qed.
Lemma tch_write i off d : tch i (os_write i off d).
Proof.
  apply tch_bind; [apply tch_fault|]. intros f. apply tch_bind; [apply tch_content|]. intros c.
  destruct f; [|apply tch_put]. apply tch_bind; [apply tch_put|]. intros u. apply tch_lift.
Qed.
Lemma tch_zeros i : forall f pos left, tch i (zeros_loop f i pos left).
Proof.
  induction f as [|f IH]; intros pos left; cbn [zeros_loop]; [apply tch_lift|].
  destruct (left =? 0); [apply tch_ret|]. destruct (writeSize <? left); [apply tch_bind; [apply tch_write|intros u; apply IH]|].
  destruct (left <? 0); [apply tch_lift|]. apply tch_bind; [apply tch_write|intros u; apply IH].
Qed.
Lemma tch_append i n : tch i (AppendZeros i n).
Proof. apply tch_bind; [apply tch_size|]. intros pos. apply tch_zeros. Qed.
Lemma tch_WriteAt h d off : tch (h_ino h) (WriteAt h d off).
Proof.
  unfold WriteAt. destruct (off <? 0); [apply tch_lift|]. destruct d; [apply tch_ret|]. destruct (h_open h); [|apply tch_lift].
  apply tch_bind; [apply tch_write|]. intros u. apply tch_ret.
Qed.

(** ** What may happen when files are opened: S the files that may change, N the places that may get a file *)
Definition eff (S : nat -> Prop) (N : list bytes -> Prop) (w w' : world) : Prop :=
  w_cwd w' = w_cwd w /\ (forall q i, names w q i -> names w' q i) /\
  (forall q i, names w' q i -> names w q i \/ (N q /\ (List.length (w_inos w) <= i)%nat)) /\
  (List.length (w_inos w) <= List.length (w_inos w'))%nat /\
  (forall i, (i < List.length (w_inos w))%nat -> ~ S i -> nth_error (w_inos w') i = nth_error (w_inos w) i) /\
  (names_there w -> names_there w').
Lemma eff_refl S N w : eff S N w w.
Proof. repeat split; auto. Qed.
Lemma eff_touch (S : nat -> Prop) N i w w' : touch i w w' -> S i -> eff S N w w'.
Proof.
  intros (A1 & A2 & A3 & A4 & A5) Hi. unfold eff, names, names_there. rewrite A1, A2, A4. repeat split; auto.
  intros j _ Hj. apply A5. intros ->. contradiction.
Qed.
Lemma eff_trans (S S' : nat -> Prop) (N N' : list bytes -> Prop) a b c : eff S N a b -> eff S' N' b c ->
  (forall i, S' i -> S i \/ (List.length (w_inos a) <= i)%nat) -> (forall q, N' q -> N q) -> eff S N a c.
Proof.
  intros (A1 & A2 & A3 & A4 & A5 & A6) (B1 & B2 & B3 & B4 & B5 & B6) HS HN. split; [congruence|]. split; [auto|]. split.
  { intros q i H. destruct (B3 q i H) as [H1|[H1 H2]]; [exact (A3 q i H1)|]. right. split; [exact (HN q H1)|lia]. }
  split; [lia|]. split; [|auto].
  intros i Hi Hs. rewrite B5; [now apply A5|lia|]. intros X. destruct (HS i X); [contradiction|lia].
Qed.
Lemma pget_app {A} q (m : list (list bytes * A)) x : pget q (m ++ [x]) = match pget q m with Some v => Some v | None => if place_eqb q (fst x) then Some (snd x) else None end.
Proof. induction m as [|[k v] m IH]; cbn; [destruct x; reflexivity|]. destruct (place_eqb q k); [reflexivity|exact IH]. Qed.
Lemma place_eqb_eq a b : place_eqb a b = true -> a = b.
Proof. unfold place_eqb. destruct (list_eq_dec bytes_dec a b); [auto|discriminate]. Qed.
Lemma place_eqb_rf a : place_eqb a a = true.
Proof. unfold place_eqb. destruct (list_eq_dec bytes_dec a a); congruence. Qed.

(** The files that path p may change, and the place that it may give a file. *)
Definition S1 (L : links) (w : world) (p : bytes) (i : nat) : Prop := exists q, real L (w_cwd w) p = Some q /\ names w q i.
Definition N1 (L : links) (w : world) (p : bytes) (q : list bytes) : Prop := real L (w_cwd w) p = Some q.
(** What is open afterwards. *)
Definition got (L : links) (p : bytes) (w : world) (r : res nat) (w' : world) : Prop :=
  w_lfps w' = w_lfps w /\ forall i, r = Ok i -> (S1 L w p i \/ (List.length (w_inos w) <= i)%nat) /\ exists q, N1 L w p q /\ names w' q i.

Lemma flt_eff S N w f : eff S N w (mkw (w_cwd w) (w_names w) (w_inos w) f (w_lfps w)).
Proof. repeat split; auto. Qed.
Lemma syscall_cases {A} (m : io A) w r w' : syscall m w = (r, w') -> exists f,
  let w0 := mkw (w_cwd w) (w_names w) (w_inos w) f (w_lfps w) in (r = Err EIO /\ w' = w0) \/ m w0 = (r, w').
Proof.
  unfold syscall, iobind, fault. destruct w as [cwd ns is fl lf]. cbn. destruct fl as [|[k|] fl]; intros H.
  - exists []. right. exact H.
  - exists fl. left. injection H as <- <-. auto.
  - exists fl. right. exact H.
Qed.
Lemma open_got L p w r w' : l_open L p w = (r, w') -> eff (S1 L w p) (N1 L w p) w w' /\ got L p w r w'.
Proof.
  intros H. unfold l_open in H. destruct (syscall_cases _ _ _ _ H) as (f & [[-> ->]|K]).
  { split; [apply flt_eff|]. split; [reflexivity|discriminate]. }
  cbn beta iota zeta delta [w_cwd w_names w_inos w_flt w_lfps] in K. destruct (real L (w_cwd w) p) as [q|] eqn:Eq; [|injection K as <- <-; split; [apply flt_eff|]; split; [reflexivity|discriminate]].
  match type of K with context [@pget ?A ?a ?b] => destruct (@pget A a b) as [i|] eqn:Ei end; injection K as <- <-; (split; [apply flt_eff|]); (split; [reflexivity|]); intros j Hj; [|discriminate].
  injection Hj as <-. split; [left; exists q; split; [exact Eq|exact Ei]|]. exists q. split; [exact Eq|exact Ei].
Qed.
Lemma create_got L p w r w' : l_create L p w = (r, w') -> eff (S1 L w p) (N1 L w p) w w' /\ got L p w r w'.
Proof.
  intros H. unfold l_create in H. destruct (syscall_cases _ _ _ _ H) as (f & [[-> ->]|K]).
  { split; [apply flt_eff|]. split; [reflexivity|discriminate]. }
  cbn beta iota zeta delta [w_cwd w_names w_inos w_flt w_lfps] in K. destruct (real L (w_cwd w) p) as [q|] eqn:Eq; [|injection K as <- <-; split; [apply flt_eff|]; split; [reflexivity|discriminate]].
  match type of K with context [@pget ?A ?a ?b] => destruct (@pget A a b) as [i|] eqn:Ei end; injection K as <- <-.
  - split.
    + apply eff_trans with (S' := S1 L w p) (N' := N1 L w p) (b := mkw (w_cwd w) (w_names w) (w_inos w) f (w_lfps w)); [apply flt_eff| |auto|auto].
      apply eff_touch with (i := i); [|exists q; split; [exact Eq|exact Ei]].
      repeat split; cbn; [apply lupd_length|]. intros j Hj. rewrite nth_error_lupd. destruct (Nat.eqb_spec j i); [contradiction|reflexivity].
    + split; [reflexivity|]. intros j Hj. injection Hj as <-. split; [left; exists q; split; [exact Eq|exact Ei]|]. exists q. split; [exact Eq|exact Ei].
  - split.
    + unfold eff, names, names_there. cbn. rewrite app_length. cbn. split; [reflexivity|]. split; [intros q' i' X; rewrite pget_app, X; reflexivity|].
      split. { intros q' i' X. rewrite pget_app in X. destruct (pget q' (w_names w)); [left; exact X|]. cbn in X.
               destruct (place_eqb q' q) eqn:E; [|discriminate]. apply place_eqb_eq in E as ->. injection X as <-. right. split; [exact Eq|lia]. }
      split; [lia|]. split; [intros j Hj _; apply nth_error_app1; exact Hj|].
      intros X q' i' Y. rewrite pget_app in Y. destruct (pget q' (w_names w)) eqn:E; [injection Y as <-; specialize (X _ _ E); lia|].
      cbn in Y. destruct (place_eqb q' q); [injection Y as <-; lia|discriminate].
    + split; [reflexivity|]. intros j Hj. injection Hj as <-. split; [right; lia|]. exists q. split; [exact Eq|].
      unfold names. cbn. rewrite pget_app. match type of Ei with ?x = _ => change (match x with Some v => Some v | None => if place_eqb q q then Some (List.length (w_inos w)) else None end = Some (List.length (w_inos w))) end.
      rewrite Ei, place_eqb_rf. reflexivity.
Qed.
(** From what was got, calls on it go on. *)
Lemma got_then L p w r0 w1 {C} i (k : io C) r w' : eff (S1 L w p) (N1 L w p) w w1 -> got L p w r0 w1 -> r0 = Ok i -> tch i k -> k w1 = (r, w') ->
  eff (S1 L w p) (N1 L w p) w w' /\ w_lfps w' = w_lfps w /\ (S1 L w p i \/ (List.length (w_inos w) <= i)%nat) /\ exists q, N1 L w p q /\ names w' q i.
Proof.
  intros He [Hl Hg] Hr Hk E. destruct (Hg i Hr) as (G1 & q & G2 & G3). pose proof (Hk _ _ _ E) as T. split.
  { apply eff_trans with (S' := eq i) (N' := N1 L w p) (b := w1); [exact He|exact (eff_touch _ _ i w1 w' T eq_refl)| |auto]. intros j <-. exact G1. }
  destruct T as (T1 & T2 & T3 & _). split; [congruence|]. split; [exact G1|]. exists q. split; [exact G2|]. unfold names. rewrite T2. exact G3.
Qed.
Lemma S1_flt L w p f i : S1 L (mkw (w_cwd w) (w_names w) (w_inos w) f (w_lfps w)) p i <-> S1 L w p i.
Proof. reflexivity. Qed.
Lemma fresh_got L p n w r w' : l_CreateZeroFilledFile L p n w = (r, w') -> eff (S1 L w p) (N1 L w p) w w' /\ got L p w r w'.
Proof.
  intros H. unfold l_CreateZeroFilledFile in H. unfold iobind at 1 in H.
  assert (K : exists f r1, os_mkdirall p w = (r1, mkw (w_cwd w) (w_names w) (w_inos w) f (w_lfps w)) /\ (r1 = Err EIO \/ r1 = Ok tt)).
  { destruct (os_mkdirall p w) as [r1 w1] eqn:E. destruct (syscall_cases _ _ _ _ E) as (f & [[-> ->]|X]); [|injection X as <- <-]; exists f; eexists; (split; [reflexivity|]); auto. }
  destruct K as (f & r1 & K & K2). rewrite K in H. destruct K2 as [-> | ->].
  { injection H as <- <-. split; [apply flt_eff|]. split; [reflexivity|discriminate]. }
  set (w0 := mkw (w_cwd w) (w_names w) (w_inos w) f (w_lfps w)) in *. unfold iobind at 1 in H. destruct (l_create L p w0) as [r2 w2] eqn:E2.
  destruct (create_got L p w0 r2 w2 E2) as [He Hg]. change (eff (S1 L w p) (N1 L w p) w w2) in He. change (got L p w r2 w2) in Hg.
  destruct r2 as [i|e| |]; try (injection H as <- <-; split; [exact He|]; split; [exact (proj1 Hg)|discriminate]).
  destruct (got_then L p w (Ok i) w2 i (iobind (AppendZeros i n) (fun _ => ret i)) r w' He Hg eq_refl) as (A & C & D & q & F & G); [apply tch_bind; [apply tch_append|intros u; apply tch_ret]|exact H|].
  split; [exact A|]. split; [exact C|]. intros j Hj. unfold iobind in H. destruct (AppendZeros i n w2) as [[u|e| |] w3]; try (injection H as <- <-; discriminate).
  injection H as <- <-. injection Hj as <-. eauto.
Qed.
Lemma utils_got L p n w r w' : l_utils_OCAT L p n w = (r, w') -> eff (S1 L w p) (N1 L w p) w w' /\ got L p w r w'.
Proof.
  intros H. unfold l_utils_OCAT in H.
  assert (K : exists r1 w1, match l_open L p w with (Err _, w') => l_CreateZeroFilledFile L p n w' | r => r end = (r1, w1) /\ eff (S1 L w p) (N1 L w p) w w1 /\ got L p w r1 w1).
  { destruct (l_open L p w) as [r0 w0] eqn:E0. destruct (open_got L p w r0 w0 E0) as [He Hg]. destruct r0 as [i|e| |]; try (eexists _, _; split; [reflexivity|]; split; assumption).
    destruct (l_CreateZeroFilledFile L p n w0) as [r1 w1] eqn:E1. exists r1, w1. split; [reflexivity|].
    assert (X : exists f, w0 = mkw (w_cwd w) (w_names w) (w_inos w) f (w_lfps w)).
    { unfold l_open in E0. destruct (syscall_cases _ _ _ _ E0) as (f & [[_ ->]|X]); [exists f; reflexivity|]. exists f. cbn beta iota zeta delta [w_cwd w_names w_inos w_flt w_lfps] in X.
      destruct (real L (w_cwd w) p); [|injection X as _ <-; reflexivity].
      match type of X with context [@pget ?A ?a ?b] => destruct (@pget A a b) end; injection X as _ <-; reflexivity. }
    destruct X as (f & ->). exact (fresh_got L p n _ r1 w1 E1). }
  destruct K as (r1 & w1 & E & He & Hg). rewrite E in H. destruct r1 as [i|e| |]; try (injection H as <- <-; split; assumption).
  match type of H with ?k _ = _ => destruct (got_then L p w (Ok i) w1 i k r w' He Hg eq_refl) as (A & C & D & q & F & G) end; [|exact H|].
  { apply tch_bind; [apply tch_size|]. intros c. destruct (c =? n); [apply tch_ret|]. destruct (n <? c); apply tch_bind; try (intros u; apply tch_ret); [apply tch_truncate|apply tch_append]. }
  split; [exact A|]. split; [exact C|]. intros j Hj. assert (j = i) as ->; [|eauto].
  rewrite Hj in H. unfold iobind at 1 in H. destruct (os_size i w1) as [[c|e| |] w2]; try discriminate.
  destruct (c =? n); [injection H as <- _; reflexivity|]. unfold iobind in H. destruct (n <? c).
  - destruct (os_truncate i n w2) as [[u|e| |] w3]; try discriminate. injection H as <- _. reflexivity.
  - destruct (AppendZeros i (sub64 n c) w2) as [[u|e| |] w3]; try discriminate. injection H as <- _. reflexivity.
Qed.

(** ** All files *)
Definition SA (L : links) (w : world) (files : list entry) (i : nat) : Prop := exists q, opens_at L w files q /\ names w q i.
Lemma all_eff L : forall files w r w', l_OCATAll L files w = (r, w') -> eff (SA L w files) (opens_at L w files) w w'.
Proof.
  induction files as [|e files IH]; intros w r w' H; cbn [l_OCATAll] in H; [injection H as <- <-; apply eff_refl|].
  unfold iobind at 1 in H. destruct (l_OCAT L (eb_local (en_base e)) (en_len e) w) as [r1 w1] eqn:E1.
  assert (A : eff (SA L w (e :: files)) (opens_at L w (e :: files)) w w1).
  { unfold l_OCAT, iobind in E1. destruct (l_utils_OCAT L (eb_local (en_base e)) (en_len e) w) as [r0 w0] eqn:E0. apply utils_got in E0 as [He _].
    assert (X : eff (SA L w (e :: files)) (opens_at L w (e :: files)) w w0).
    { apply eff_trans with (a := w) (b := w) (S' := S1 L w (eb_local (en_base e))) (N' := N1 L w (eb_local (en_base e))); [apply eff_refl|exact He| |].
      - intros i (q & Q1 & Q2). left. exists q. split; [exists e; split; [left; reflexivity|exact Q1]|exact Q2].
      - intros q Q. exists e. split; [left; reflexivity|exact Q]. }
    destruct r0; injection E1 as _ <-; exact X. }
  destruct r1 as [u|er| |]; try (injection H as <- <-; exact A).
  pose proof (proj1 A) as Hc. apply eff_trans with (b := w1) (S' := SA L w1 files) (N' := opens_at L w1 files); [exact A|exact (IH _ _ _ H)| |].
  - intros i (q & (e' & Q0 & Q1) & Q2). rewrite Hc in Q1. destruct A as (_ & _ & A3 & _). destruct (A3 q i Q2) as [X|[_ X]]; [left|right; exact X].
    exists q. split; [exists e'; split; [right; exact Q0|exact Q1]|exact X].
  - intros q (e' & Q0 & Q1). rewrite Hc in Q1. exists e'. split; [right; exact Q0|exact Q1].
Qed.

Lemma file_in_names w q i : names w q i -> file_in w q = nth_error (w_inos w) i.
Proof. unfold names, file_in. intros ->. reflexivity. Qed.
Lemma hard_names L files w r w' : l_OCATAll L files w = (r, w') -> forall q i, names w q i -> names w' q i.
Proof. intros H. exact (proj1 (proj2 (all_eff _ _ _ _ _ H))). Qed.
Lemma hard_new L files w r w' : l_OCATAll L files w = (r, w') -> forall q i, names w' q i -> names w q i \/ opens_at L w files q.
Proof. intros H q i X. destruct (proj1 (proj2 (proj2 (all_eff _ _ _ _ _ H))) q i X) as [Y|[Y _]]; auto. Qed.
Lemma hard_kept L files w r w' : names_there w -> l_OCATAll L files w = (r, w') -> forall q i, names w q i ->
  (forall q', opens_at L w files q' -> ~ names w q' i) -> file_in w' q = file_in w q.
Proof.
  intros Hw H q i Hq Hn. destruct (all_eff _ _ _ _ _ H) as (_ & A2 & _ & _ & A5 & _). rewrite (file_in_names _ _ _ Hq), (file_in_names _ _ _ (A2 _ _ Hq)).
  apply A5; [exact (Hw _ _ Hq)|]. intros (q' & Q1 & Q2). exact (Hn q' Q1 Q2).
Qed.
Lemma hard_there L files w r w' : names_there w -> l_OCATAll L files w = (r, w') -> names_there w'.
Proof. intros Hw H. destruct (all_eff _ _ _ _ _ H) as (_ & _ & _ & _ & _ & A). exact (A Hw). Qed.
Lemma hard_outside info wd name L W ti w r w' :
  FromDict info wd = Ok ti -> GetString info (B "name") = Ok name -> plain_name name -> plain_paths info ->
  real L (w_cwd w) (Clean wd) = Some W -> none_inside L W -> names_there w -> not_shared W w ->
  l_OCATAll L (ti_files ti) w = (r, w') -> outside_same W w w'.
Proof.
  intros H1 H2 H3 H4 H5 H6 Hw Hs H q Hq.
  assert (I : forall q', opens_at L w (ti_files ti) q' -> below W q').
  { intros q' (e & X & Y). destruct (local_inside info wd name L (w_cwd w) W ti e H1 H2 H3 H4 H5 H6 X) as (q0 & Z & V). congruence. }
  match goal with |- file_in w' q = file_in w q => destruct (pget q (w_names w)) as [i|] eqn:E end.
  - apply (hard_kept _ _ _ _ _ Hw H q i E). intros q' X Y. exact (Hq (Hs q' q i Y E (I q' X))).
  - unfold file_in. rewrite E. match goal with |- context [pget q (w_names w')] => destruct (pget q (w_names w')) as [j|] eqn:E' end; [|reflexivity].
    destruct (hard_new _ _ _ _ _ H q j E') as [X|X]; [unfold names in X; congruence|]. exfalso. exact (Hq (I q X)).
Qed.

(** ** Writing *)
Definition held (ti : torinfo) (w : world) (i : nat) : Prop := exists e h, In e (ti_files ti) /\ aget (eb_local (en_base e)) (w_lfps w) = Some h /\ h_ino h = i.
Definition wrote (ti : torinfo) (w w' : world) : Prop :=
  w_cwd w' = w_cwd w /\ w_names w' = w_names w /\ w_lfps w' = w_lfps w /\ forall i, ~ held ti w i -> nth_error (w_inos w') i = nth_error (w_inos w) i.
Lemma wrote_trans ti a b c : wrote ti a b -> wrote ti b c -> wrote ti a c.
Proof.
  intros (A1 & A2 & A3 & A4) (B1 & B2 & B3 & B4). repeat split; try congruence. intros i Hi. rewrite B4; [apply A4; exact Hi|].
  unfold held in *. rewrite A3. exact Hi.
Qed.
Lemma locs_wrote ti data : forall locs off w r w', write_locs ti locs data off w = (r, w') -> wrote ti w w'.
Proof.
  induction locs as [|l locs IH]; intros off w r w' H; cbn [write_locs] in H; [injection H as <- <-; repeat split|].
  unfold iobind, lift in H. destruct (sslice data off (add64 off (ReadAmnt (pl_info l)))) as [sb|e| |]; try (injection H as <- <-; repeat split; fail).
  unfold loc_path in H. destruct (nth_error (ti_files ti) (pl_file l)) as [e|] eqn:E; [|injection H as <- <-; repeat split].
  destruct (fio_write (eb_local (en_base e)) (SeekAmnt (pl_info l)) (vis sb) w) as [r1 w1] eqn:E1.
  assert (A : wrote ti w w1).
  { unfold fio_write in E1. match type of E1 with context [aget ?a ?b] => destruct (aget a b) as [h|] eqn:Eh end; [|injection E1 as <- <-; repeat split].
    apply tch_WriteAt in E1. destruct E1 as (T1 & T2 & T3 & _ & T5). repeat split; auto. intros i Hi. apply T5. intros ->. apply Hi.
    exists e, h. split; [exact (nth_error_In _ _ E)|]. split; [exact Eh|reflexivity]. }
  destruct r1 as [n|er| |]; try (injection H as <- <-; exact A). exact (wrote_trans _ _ _ _ A (IH _ _ _ _ H)).
Qed.
Lemma WritePiece_wrote sha1 ti i d w r w' : WritePiece sha1 ti i d w = (r, w') -> wrote ti w w'.
Proof.
  intros H. unfold WritePiece, iobind, lift in H. destruct (PieceLookup ti i); try (injection H as <- <-; repeat split; fail).
  destruct (PieceHash ti i) as [k|e| |]; try (injection H as <- <-; repeat split; fail).
  destruct (negb (beqb (sha1 (vis d)) k)); [injection H as <- <-; repeat split|]. exact (locs_wrote _ _ _ _ _ _ _ H).
Qed.
Lemma hard_write sha1 ti i d w r w' : WritePiece sha1 ti i d w = (r, w') -> w_names w' = w_names w /\
  forall q j, names w q j -> (forall e h, In e (ti_files ti) -> aget (eb_local (en_base e)) (w_lfps w) = Some h -> h_ino h <> j) -> file_in w' q = file_in w q.
Proof.
  intros H. destruct (WritePiece_wrote _ _ _ _ _ _ _ H) as (A1 & A2 & A3 & A4). split; [exact A2|]. intros q j Hq Hn.
  rewrite (file_in_names _ _ _ Hq). unfold file_in. rewrite A2. unfold names in Hq. rewrite Hq. apply A4. intros (e & h & X & Y & Z). exact (Hn e h X Y Z).
Qed.

(** The FileIO holds, for each file that it opened, the file at that place. *)
Lemma aget_aput {A} k k' (v : A) m : aget k (aput k' v m) = if beqb k k' then Some v else aget k m.
Proof.
  induction m as [|[k1 v1] m IH]; cbn [aput aget]; [reflexivity|]. destruct (beqb k' k1) eqn:E; cbn [aget].
  - apply beqb_eq in E as ->. destruct (beqb k k1); reflexivity.
  - destruct (beqb k k1) eqn:E1; [|exact IH]. apply beqb_eq in E1 as ->. destruct (beqb k1 k') eqn:E2; [|reflexivity].
    apply beqb_eq in E2 as ->. exfalso. rewrite (proj2 (beqb_eq k' k')) in E by reflexivity. discriminate.
Qed.
Lemma hard_holds L : forall files w r w', l_OCATAll L files w = (r, w') ->
  forall p h, aget p (w_lfps w') = Some h -> aget p (w_lfps w) = Some h \/ exists q, real L (w_cwd w) p = Some q /\ names w' q (h_ino h).
Proof.
  induction files as [|e files IH]; intros w r w' H p h Hp; cbn [l_OCATAll] in H; [injection H as <- <-; left; exact Hp|].
  unfold iobind at 1 in H. destruct (l_OCAT L (eb_local (en_base e)) (en_len e) w) as [r1 w1] eqn:E1.
  assert (A : w_cwd w1 = w_cwd w /\ forall h, aget p (w_lfps w1) = Some h -> aget p (w_lfps w) = Some h \/ exists q, real L (w_cwd w) p = Some q /\ names w1 q (h_ino h)).
  { unfold l_OCAT, iobind in E1. destruct (l_utils_OCAT L (eb_local (en_base e)) (en_len e) w) as [r0 w0] eqn:E0. apply utils_got in E0 as [He [Hl Hg]].
    pose proof (proj1 He) as Hc. destruct r0 as [i|er| |]; injection E1 as <- <-; (split; [exact Hc|]); try (intros h1 X; left; rewrite Hl in X; exact X).
    intros h1 X. cbn in X. rewrite aget_aput in X. destruct (beqb p (eb_local (en_base e))) eqn:Ep; [|left; rewrite Hl in X; exact X].
    apply beqb_eq in Ep as ->. injection X as <-. right. destruct (Hg i eq_refl) as (_ & q & Q1 & Q2). exists q. split; [exact Q1|exact Q2]. }
  destruct A as [Hc A]. destruct r1 as [u|er| |]; try (injection H as <- <-; exact (A h Hp)).
  destruct (IH w1 r w' H p h Hp) as [X|(q & X & Y)]; [|right; exists q; rewrite <- Hc; split; assumption].
  destruct (A h X) as [Y|(q & Y & Z)]; [left; exact Y|]. right. exists q. split; [exact Y|]. exact (hard_names _ _ _ _ _ H _ _ Z).
Qed.

(** All names of a file see its new size. *)
Lemma hard_resized L p n w q i c : real L (w_cwd w) p = Some q -> names w q i -> nth_error (w_inos w) i = Some c -> 0 <= n <= max64 -> next_works w ->
  exists c' w' r, l_utils_OCAT L p n w = (r, w') /\ (forall q', names w q' i -> file_in w' q' = Some c') /\ keeps c n c' /\
    ((r = Ok i /\ resized c n c') \/ (r = Err EIO /\ ~ no_faults w)).
Proof.
  intros Hq Hi Hc Hn Hok. unfold l_utils_OCAT, l_open. rewrite syscall_ok by (unfold next_works in Hok; destruct (w_flt w) as [|[k|] fl]; [exact I|discriminate Hok|exact I]).
  change (w_cwd (no_flt w)) with (w_cwd w). rewrite Hq. change (w_names (no_flt w)) with (w_names w). unfold names in Hi. rewrite Hi.
  destruct (size_to_spec i c n (no_flt w) Hc Hn) as (c' & w' & r & E & A1 & A2 & A3 & A4 & A5 & A6 & A7).
  exists c', w', r. split; [exact E|]. cbn [no_flt w_cwd w_names w_lfps w_inos] in A2, A4. split.
  { intros q' H. unfold file_in. rewrite A2. unfold names in H. rewrite H, A4. apply lupd_nth_same. apply nth_error_Some. congruence. }
  split; [exact A5|]. destruct A6 as [X|[X Y]]; [left; exact X|right]. split; [exact X|]. intros Z. apply Y. now rewrite no_flt_id.
Qed.
