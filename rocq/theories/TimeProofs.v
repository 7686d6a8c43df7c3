(** TimeProofs.v: proofs about TimeModel. *)
From Coq Require Import ZifyBool ZifyNat ZifyN.
From Verif Require Import Base BitfieldModel HandshakeModel HandshakeSpec HandshakeProofs TimeModel TimeSpec.

(** ** One end *)
Definition inv1 (t0 : Z) (H : list Z) (s : state1) : Prop :=
  t0 <= now1 s /\ Forall (fun a => a <= now1 s) H /\
  match e_rd (end1 s) with
  | Busy => True
  | Reading u => t0 <= u <= now1 s /\ forall a, In a H -> a <= u \/ In a (e_in (end1 s))
  | Ended => two_quiet_minutes t0 (now1 s) H
  end.
Lemma inv1_step t0 H l s s' : l <> LDo EFail -> inv1 t0 H s -> step1 l s = Some s' -> inv1 t0 (H ++ arrivals (now1 s) [l]) s' /\ now1 s <= now1 s'.
Proof.
  intros Hl (H1 & H2 & H3) E. destruct s as [t e]. destruct l as [d|l|]; cbn [step1 now1 end1] in *.
  - destruct ((0 <=? d) && tick_ok (t + d) e) eqn:C; [|discriminate]. injection E as <-. cbn [arrivals now1]. rewrite app_nil_r. unfold inv1; cbn [now1 end1]. split; [|lia]. split; [lia|]. split.
    + eapply Forall_impl; [|exact H2]. cbv beta. intros; lia.
    + destruct (e_rd e); [exact I| |]; [split; [lia|apply H3]|]. destruct H3 as (u & A1 & A2 & A3). exists u. split; [lia|]. split; [lia|exact A3].
  - assert (EA : arrivals t [LDo l] = []) by (destruct l; reflexivity). rewrite EA, app_nil_r. destruct (estep t l e) as [e'|] eqn:Ee; [|discriminate]. injection E as <-. cbn [now1]. split; [|lia].
    unfold inv1; cbn [now1 end1]. split; [exact H1|]. split; [exact H2|]. unfold estep in Ee. destruct l as [|k| | | | |].
    + destruct (e_rd e); try discriminate. injection Ee as <-. cbn [e_rd e_in]. split; [lia|]. intros a Ha. left. rewrite Forall_forall in H2. exact (H2 _ Ha).
    + destruct (e_rd e); try discriminate. destruct (_ && _)%bool; [|discriminate]. injection Ee as <-. exact I.
    + destruct (e_rd e) as [|u|]; try discriminate. destruct ((u + GetKeepAlive <=? t) && forallb _ _) eqn:C; [|discriminate]. injection Ee as <-. cbn [e_rd]. apply andb_true_iff in C. destruct C as [C1 C2].
      rewrite forallb_forall in C2. destruct H3 as [A B]. exists u. change (120 * 1000000000) with GetKeepAlive. split; [lia|]. split; [lia|]. intros a Ha. destruct (B a Ha) as [|Hi]; [auto|]. right. specialize (C2 _ Hi). cbv beta in C2. lia.
    + congruence.
    + destruct (e_tick e) as [T|]; [|discriminate]. destruct (T =? t); [|discriminate]. injection Ee as <-. exact H3.
    + injection Ee as <-. exact H3.
    + destruct (e_rd e) eqn:Er; try discriminate. injection Ee as <-. cbn [e_rd]. exact H3.
  - injection E as <-. cbn [arrivals now1]. split; [|lia]. unfold inv1; cbn [now1 end1 e_rd e_in]. split; [exact H1|]. split; [apply Forall_app; split; [exact H2|repeat constructor; lia]|].
    destruct (e_rd e) as [|u|]; [exact I| |].
    + destruct H3 as [A B]. split; [exact A|]. intros a Ha. apply in_app_iff in Ha. destruct Ha as [Ha|[<- |[]]]; [destruct (B a Ha); [auto|right; apply in_app_iff; auto]|right; apply in_app_iff; right; left; reflexivity].
    + destruct H3 as (u & A1 & A2 & A3). exists u. split; [exact A1|]. split; [exact A2|]. intros a Ha. apply in_app_iff in Ha. destruct Ha as [Ha|[<- |[]]]; [auto|right; exact A2].
Qed.
Lemma step1_now l s s' r : step1 l s = Some s' -> arrivals (now1 s) (l :: r) = arrivals (now1 s) [l] ++ arrivals (now1 s') r.
Proof.
  destruct l as [d|l|]; cbn [step1]; intros E.
  - destruct (_ && _); [|discriminate]. injection E as <-. reflexivity.
  - destruct (estep _ l _); [|discriminate]. injection E as <-. destruct l; reflexivity.
  - injection E as <-. reflexivity.
Qed.
Lemma inv1_run t0 ls : forall H s s', sound1 ls -> inv1 t0 H s -> run1 ls s = Some s' -> inv1 t0 (H ++ arrivals (now1 s) ls) s'.
Proof.
  induction ls as [|l r IH]; intros H s s' Hs Hi E; cbn [run1] in E; [injection E as <-; cbn [arrivals]; now rewrite app_nil_r|].
  destruct (step1 l s) as [s1|] eqn:E1; [|discriminate]. rewrite (step1_now _ _ _ r E1), app_assoc. eapply IH; [|eapply inv1_step; [|exact Hi|exact E1]|exact E]; [intros X; apply Hs; right; exact X|intros ->; apply Hs; left; reflexivity].
Qed.
Lemma window t0 ls s : sound1 ls -> run1 ls (mk1 t0 (NewEnd t0)) = Some s -> e_rd (end1 s) = Ended -> two_quiet_minutes t0 (now1 s) (arrivals t0 ls).
Proof.
  intros Hs E He. assert (Hi : inv1 t0 [] (mk1 t0 (NewEnd t0))) by (split; [cbn; lia|]; split; [constructor|exact I]).
  destruct (inv1_run t0 ls [] _ _ Hs Hi E) as (_ & _ & H). rewrite He in H. exact H.
Qed.

(** ** Keep-alives *)
Lemma at_ticks_S t0 n : at_ticks t0 (S n) = at_ticks t0 n ++ [t0 + Z.of_nat (S n) * SendKeepAlive].
Proof. unfold at_ticks. change (60 * 1000000000) with SendKeepAlive. rewrite seq_S, map_app. reflexivity. Qed.
Lemma step1_pings l s s' r : step1 l s = Some s' -> pings (now1 s) (l :: r) = pings (now1 s) [l] ++ pings (now1 s') r.
Proof.
  destruct l as [d|l|]; cbn [step1]; intros E.
  - destruct (_ && _); [|discriminate]. injection E as <-. reflexivity.
  - destruct (estep _ l _); [|discriminate]. injection E as <-. destruct l; reflexivity.
  - injection E as <-. reflexivity.
Qed.
Definition inv_ping (t0 : Z) (n : nat) (s : state1) : Prop :=
  t0 + Z.of_nat n * SendKeepAlive <= now1 s /\ match e_tick (end1 s) with Some T => T = t0 + Z.of_nat (S n) * SendKeepAlive /\ now1 s <= T | None => True end.
Lemma inv_ping_step t0 n l s s' : inv_ping t0 n s -> step1 l s = Some s' -> exists m, inv_ping t0 m s' /\ at_ticks t0 m = at_ticks t0 n ++ pings (now1 s) [l] /\ (l <> LDo EKill -> e_tick (end1 s) <> None -> e_tick (end1 s') <> None).
Proof.
  intros [H1 H2] E. destruct s as [t e]. destruct l as [d|l|]; cbn [step1 now1 end1] in *.
  - destruct ((0 <=? d) && tick_ok (t + d) e) eqn:C; [|discriminate]. injection E as <-. exists n. cbn [pings now1 end1]. rewrite app_nil_r. split; [|split; [reflexivity|auto]]. unfold inv_ping; cbn [now1 end1]. apply andb_true_iff in C. destruct C as [C1 C2].
    split; [lia|]. unfold tick_ok in C2. destruct (e_tick e); [|exact I]. lia.
  - destruct (estep t l e) as [e'|] eqn:Ee; [|discriminate]. injection E as <-. cbn [end1]. unfold estep in Ee. destruct l as [|k| | | | |].
    + destruct (e_rd e); try discriminate. injection Ee as <-. exists n. cbn [pings]. rewrite app_nil_r. repeat split; auto.
    + destruct (e_rd e); try discriminate. destruct (_ && _)%bool; [|discriminate]. injection Ee as <-. exists n. cbn [pings]. rewrite app_nil_r. repeat split; auto.
    + destruct (e_rd e); try discriminate. destruct (_ && _)%bool; [|discriminate]. injection Ee as <-. exists n. cbn [pings]. rewrite app_nil_r. repeat split; auto.
    + destruct (e_rd e); try discriminate; injection Ee as <-; exists n; cbn [pings]; rewrite app_nil_r; repeat split; auto.
    + destruct (e_tick e) as [T|] eqn:ET; [|discriminate]. destruct (Z.eqb_spec T t); [|discriminate]. injection Ee as <-. exists (S n). destruct H2 as [H2 _]. cbn [pings now1]. split; [|split; [rewrite at_ticks_S; do 2 f_equal; lia|discriminate]].
      unfold inv_ping; cbn [now1 end1 e_tick]. unfold SendKeepAlive, second in *. lia.
    + injection Ee as <-. exists n. cbn [pings]. rewrite app_nil_r. repeat split; auto.
    + destruct (e_rd e); try discriminate. injection Ee as <-. exists n. cbn [pings]. rewrite app_nil_r. repeat split; auto.
  - injection E as <-. exists n. cbn [pings]. rewrite app_nil_r. repeat split; auto.
Qed.
Lemma inv_ping_run t0 ls : forall n s s', inv_ping t0 n s -> run1 ls s = Some s' -> exists m, inv_ping t0 m s' /\ at_ticks t0 m = at_ticks t0 n ++ pings (now1 s) ls /\ (~ In (LDo EKill) ls -> e_tick (end1 s) <> None -> e_tick (end1 s') <> None).
Proof.
  induction ls as [|l r IH]; intros n s s' Hi E; cbn [run1] in E; [injection E as <-; exists n; cbn [pings]; rewrite app_nil_r; auto|].
  destruct (step1 l s) as [s1|] eqn:E1; [|discriminate]. destruct (inv_ping_step _ _ _ _ _ Hi E1) as (m & Hm & Et & Hk). destruct (IH _ _ _ Hm E) as (m' & Hm' & Et' & Hk').
  exists m'. split; [exact Hm'|]. split; [rewrite (step1_pings _ _ _ r E1), app_assoc, <- Et; exact Et'|]. intros Hn Hx. apply Hk'; [intros X; apply Hn; right; exact X|]. apply Hk; [intros ->; apply Hn; left; reflexivity|exact Hx].
Qed.
Lemma pings_exact t0 ls s : run1 ls (mk1 t0 (NewEnd t0)) = Some s ->
  exists n, pings t0 ls = at_ticks t0 n /\ t0 + Z.of_nat n * SendKeepAlive <= now1 s /\ (~ In (LDo EKill) ls -> now1 s <= t0 + Z.of_nat (S n) * SendKeepAlive).
Proof.
  intros E. assert (Hi : inv_ping t0 0 (mk1 t0 (NewEnd t0))) by (unfold inv_ping, NewEnd, SendKeepAlive, second; cbn; lia).
  destruct (inv_ping_run t0 ls 0 _ _ Hi E) as (m & [H1 H2] & Et & Hk). exists m. split; [symmetry; exact Et|]. split; [exact H1|]. intros Hn. specialize (Hk Hn ltac:(discriminate)). destruct (e_tick (end1 s)); [lia|congruence].
Qed.

(** ** A silent peer *)
Lemma run1_app a : forall b s s1, run1 a s = Some s1 -> run1 (a ++ b) s = run1 b s1.
Proof. induction a as [|l a IH]; intros b s s1 E; cbn [run1 app] in *; [now injection E as ->|]. destruct (step1 l s) as [s2|]; [|discriminate]. now apply IH. Qed.
Lemma advance n : forall t rd i T d, 0 <= d -> t <= T -> t + d - T < Z.of_nat n * SendKeepAlive -> exists ls T', Forall quiet_label ls /\ run1 ls (mk1 t (mke rd i (Some T))) = Some (mk1 (t + d) (mke rd i (Some T'))) /\ t + d <= T'.
Proof.
  assert (D : forall t rd i T d, 0 <= d -> t + d <= T -> run1 [LDelay d] (mk1 t (mke rd i (Some T))) = Some (mk1 (t + d) (mke rd i (Some T)))).
  { intros t rd i T d Hd HT. cbn [run1 step1 now1 end1]. unfold tick_ok. cbn [e_tick]. replace ((0 <=? d) && (t + d <=? T)) with true by lia. reflexivity. }
  induction n as [|n IH]; intros t rd i T d Hd HT Hn.
  - exists [LDelay d], T. split; [repeat constructor|]. split; [apply D; lia|lia].
  - destruct (Z.le_gt_cases (t + d) T) as [H|H]; [exists [LDelay d], T; split; [repeat constructor|]; split; [now apply D|exact H]|].
    destruct (IH T rd i (T + SendKeepAlive) (t + d - T)) as (ls & T' & HF & E & HT'); [lia|unfold SendKeepAlive, second; lia|lia|].
    exists ([LDelay (T - t)] ++ [LDo ETick] ++ ls), T'. split; [repeat constructor; exact HF|]. split; [|lia].
    rewrite (run1_app [LDelay (T - t)] _ _ (mk1 (t + (T - t)) (mke rd i (Some T)))) by (apply D; lia). replace (t + (T - t)) with T by lia. cbn [app run1 step1 now1 end1 estep e_tick]. rewrite Z.eqb_refl. cbn [option_map e_rd e_in].
    rewrite E. do 2 f_equal. lia.
Qed.
Lemma silent_from t rd T : rd <> Ended -> (forall u, rd = Reading u -> u <= t) -> t <= T ->
  exists more s', Forall (fun l => quiet_label l \/ l = LDo ESet \/ l = LDo ETimeout) more /\ run1 more (mk1 t (mke rd [] (Some T))) = Some s' /\ e_rd (end1 s') = Ended /\ now1 s' <= t + GetKeepAlive.
Proof.
  intros Hr Hi1 Ht.
  assert (Main : forall u, u <= t -> exists more s', Forall (fun l => quiet_label l \/ l = LDo ESet \/ l = LDo ETimeout) more /\ run1 more (mk1 t (mke (Reading u) [] (Some T))) = Some s' /\ e_rd (end1 s') = Ended /\ now1 s' <= t + GetKeepAlive).
  { intros u Hu. destruct (advance 3 t (Reading u) [] T (Z.max 0 (u + GetKeepAlive - t))) as (ms & T' & HF & ER & _); [lia|lia|unfold GetKeepAlive, SendKeepAlive, second in *; lia|].
    exists (ms ++ [LDo ETimeout]), (mk1 (t + Z.max 0 (u + GetKeepAlive - t)) (mke Ended [] (Some T'))). split; [apply Forall_app; split; [eapply Forall_impl; [|exact HF]; cbv beta; auto|constructor; [right; right; reflexivity|constructor]]|].
    split; [|split; [reflexivity|cbn [now1]; unfold GetKeepAlive, second in *; lia]]. rewrite (run1_app _ _ _ _ ER). cbn [run1 step1 now1 end1 estep e_rd e_in forallb]. replace (u + GetKeepAlive <=? t + Z.max 0 (u + GetKeepAlive - t)) with true by lia. reflexivity. }
  destruct rd as [|u|]; [|apply Main; now apply Hi1|congruence].
  destruct (Main t ltac:(lia)) as (more & s' & HF & ER & H1 & H2). exists (LDo ESet :: more), s'. split; [constructor; [auto|exact HF]|]. split; [exact ER|]. auto.
Qed.
Lemma silent t0 ls s : run1 ls (mk1 t0 (NewEnd t0)) = Some s -> ~ In (LDo EKill) ls -> e_rd (end1 s) <> Ended -> e_in (end1 s) = [] ->
  exists more s', Forall (fun l => quiet_label l \/ l = LDo ESet \/ l = LDo ETimeout) more /\ run1 more s = Some s' /\ e_rd (end1 s') = Ended /\ now1 s' <= now1 s + GetKeepAlive.
Proof.
  intros E Hk Hr Hin. assert (Hi : inv_ping t0 0 (mk1 t0 (NewEnd t0))) by (unfold inv_ping, NewEnd, SendKeepAlive, second; cbn; lia).
  destruct (inv_ping_run t0 ls 0 _ _ Hi E) as (m & [_ Ht] & _ & HT). specialize (HT Hk ltac:(discriminate)).
  assert (Hi1 : forall H s s', run1 H s = Some s' -> forall u, (e_rd (end1 s) = Reading u -> u <= now1 s) -> e_rd (end1 s') = Reading u -> u <= now1 s').
  { clear. induction H as [|l r IH]; intros s s' E u H1 H2; cbn [run1] in E; [injection E as <-; auto|]. destruct (step1 l s) as [s1|] eqn:E1; [|discriminate]. apply (IH s1 s' E u); [|exact H2]. clear - H1 E1. intros H.
    destruct s as [t e]. destruct l as [d|l|]; cbn [step1 now1 end1] in *.
    - destruct ((0 <=? d) && _) eqn:C; [|discriminate]. injection E1 as <-. cbn [now1 end1] in *. specialize (H1 H). lia.
    - destruct (estep t l e) as [e'|] eqn:Ee; [|discriminate]. injection E1 as <-. cbn [now1 end1] in *. unfold estep in Ee. destruct l; destruct (e_rd e) eqn:Er; try discriminate; try (destruct (_ && _)%bool; [|discriminate]); try (destruct (e_tick e); [|discriminate]; destruct (_ =? _); [|discriminate]);
      injection Ee as <-; cbn [e_rd] in H; rewrite ?Er in H; try discriminate; auto. injection H as <-. lia.
    - injection E1 as <-. cbn [now1 end1 e_rd] in *. auto. }
  specialize (Hi1 _ _ _ E). destruct s as [t [rd i [T|]]]; cbn [now1 end1 e_rd e_in e_tick] in *; [|congruence]. subst i.
  apply silent_from; [exact Hr| |exact (proj2 Ht)]. intros u ->. apply (Hi1 u); [discriminate|reflexivity].
Qed.
Lemma no_early_end s t' : (exists u, e_rd (end1 s) = Reading u /\ e_in (end1 s) = [] /\ u + GetKeepAlive > now1 s) -> step1 (LDo ETimeout) s = Some t' -> False.
Proof. intros (u & Hr & Hi & Hn) E. cbn [step1 estep] in E. rewrite Hr in E. replace (u + GetKeepAlive <=? now1 s) with false in E by lia. discriminate. Qed.

(** ** Two ends *)
Definition link (delay t : Z) (X Y : endp) (f : list Z) : Prop :=
  exists T, e_tick Y = Some T /\ t <= T <= t + SendKeepAlive /\ Forall (fun x => t <= x) f /\
    match e_rd X with
    | Busy => True
    | Reading s => Exists (fun a => a < s + GetKeepAlive) (e_in X) \/ Exists (fun x => x < s + GetKeepAlive) f \/ T + delay < s + GetKeepAlive
    | Ended => False
    end.
(** The receiving end does something. *)
Lemma link_recv delay t l X X' Y f : 0 <= delay < SendKeepAlive -> l <> EFail -> link delay t X Y f -> estep t l X = Some X' -> link delay t X' Y f.
Proof.
  intros HD Hl (T & H1 & H2 & H3 & H4) E. exists T. split; [exact H1|]. split; [exact H2|]. split; [exact H3|]. unfold estep in E. destruct l as [|k| | | | |].
  - destruct (e_rd X); try discriminate. injection E as <-. cbn [e_rd e_in]. right. right. unfold SendKeepAlive, GetKeepAlive, second in *. lia.
  - destruct (e_rd X); try discriminate. destruct (_ && _)%bool; [|discriminate]. injection E as <-. exact I.
  - destruct (e_rd X) as [|s|] eqn:Er; try discriminate. destruct ((s + GetKeepAlive <=? t) && forallb _ _) eqn:C; [exfalso|discriminate]. apply andb_true_iff in C. destruct C as [C1 C2]. rewrite forallb_forall in C2.
    destruct H4 as [H4|[H4|H4]].
    + apply Exists_exists in H4. destruct H4 as (a & Ha & Hb). specialize (C2 _ Ha). cbv beta in C2. lia.
    + apply Exists_exists in H4. destruct H4 as (a & Ha & Hb). rewrite Forall_forall in H3. specialize (H3 _ Ha). cbv beta in H3. lia.
    + lia.
  - congruence.
  - destruct (e_tick X) as [u|]; [|discriminate]. destruct (u =? t); [|discriminate]. injection E as <-. exact H4.
  - injection E as <-. exact H4.
  - destruct (e_rd X); try discriminate. contradiction.
Qed.
(** The sending end does something; [nf]: it has not ended. *)
Lemma link_send delay t l X Y Y' f : 0 <= delay -> e_rd Y <> Ended -> link delay t X Y f -> estep t l Y = Some Y' -> link delay t X Y' (if sends l then f ++ [t + delay] else f).
Proof.
  intros HD Hn (T & H1 & H2 & H3 & H4) E. unfold estep in E. unfold link.
  assert (Grow : match e_rd X with Busy => True | Reading s => Exists (fun a => a < s + GetKeepAlive) (e_in X) \/ Exists (fun x => x < s + GetKeepAlive) (f ++ [t + delay]) \/ T + delay < s + GetKeepAlive | Ended => False end).
  { destruct (e_rd X); auto. destruct H4 as [|[|]]; auto. right. left. apply Exists_app. auto. }
  assert (F3 : Forall (fun x => t <= x) (f ++ [t + delay])) by (apply Forall_app; split; [exact H3|repeat constructor; lia]).
  destruct l as [|k| | | | |]; cbn [sends].
  - destruct (e_rd Y); try discriminate. injection E as <-. exists T. auto.
  - destruct (e_rd Y); try discriminate. destruct (_ && _)%bool; [|discriminate]. injection E as <-. exists T. auto.
  - destruct (e_rd Y); try discriminate. destruct (_ && _)%bool; [|discriminate]. injection E as <-. exists T. auto.
  - destruct (e_rd Y); try discriminate; injection E as <-; exists T; auto.
  - rewrite H1 in E. destruct (Z.eqb_spec T t) as [->|]; [|discriminate]. injection E as <-. exists (t + SendKeepAlive). cbn [e_tick]. split; [reflexivity|]. split; [unfold SendKeepAlive, second; lia|]. split; [exact F3|].
    destruct (e_rd X); auto. destruct H4 as [H4|[H4|H4]]; [auto|right; left; apply Exists_app; auto|right; left; apply Exists_app; right; constructor; exact H4].
  - injection E as <-. exists T. auto.
  - destruct (e_rd Y); try discriminate. congruence.
Qed.
Lemma Forall_drop P i : forall l, Forall P l -> Forall P (drop_nth i l).
Proof.
  intros l H. unfold drop_nth. apply Forall_app. split; [|]; rewrite Forall_forall in *; intros x Hx; apply H.
  - rewrite <- (firstn_skipn i l). apply in_app_iff. auto.
  - rewrite <- (firstn_skipn (S i) l). apply in_app_iff. auto.
Qed.
Lemma Exists_drop (P : Z -> Prop) i : forall l x, nth_error l i = Some x -> Exists P l -> P x \/ Exists P (drop_nth i l).
Proof.
  unfold drop_nth. induction i as [|i IH]; intros [|y l] x Hx H; try discriminate; cbn [nth_error firstn skipn app] in *.
  - injection Hx as ->. inversion H; auto.
  - inversion H as [? ? Hy|? ? Hl]; subst; [right; constructor; exact Hy|]. destruct (IH l x Hx Hl) as [|Hr]; [auto|]. right. apply Exists_cons_tl. exact Hr.
Qed.
Lemma link_arrive delay t i X Y f : (i < List.length f)%nat -> link delay t X Y f -> link delay t (arrive t X) Y (drop_nth i f).
Proof.
  intros Hi (T & H1 & H2 & H3 & H4). exists T. split; [exact H1|]. split; [exact H2|]. split; [now apply Forall_drop|]. unfold arrive. cbn [e_rd e_in]. destruct (e_rd X) as [|s|]; auto.
  destruct H4 as [H4|[H4|H4]]; [left; apply Exists_app; auto| |auto]. destruct (nth_error f i) as [x|] eqn:Ex; [|apply nth_error_None in Ex; lia].
  destruct (Exists_drop _ i f x Ex H4) as [Hx|Hx]; [|auto]. left. apply Exists_app. right. constructor. apply nth_error_In in Ex. rewrite Forall_forall in H3. specialize (H3 _ Ex). cbv beta in *. lia.
Qed.
Lemma link_same_in delay t X Y Y' f : e_tick Y = e_tick Y' -> link delay t X Y f -> link delay t X Y' f.
Proof. intros E (T & H1 & H). exists T. split; [congruence|exact H]. Qed.
Lemma link_delay delay t d X Y f : 0 <= d -> tick_ok (t + d) Y = true -> forallb (fun x => t + d <=? x) f = true -> link delay t X Y f -> link delay (t + d) X Y f.
Proof.
  intros Hd Ht Hf (T & H1 & H2 & H3 & H4). exists T. split; [exact H1|]. unfold tick_ok in Ht. rewrite H1 in Ht. split; [lia|]. split; [|exact H4]. rewrite forallb_forall in Hf. apply Forall_forall. intros x Hx. specialize (Hf _ Hx). cbv beta in Hf. lia.
Qed.
Definition both (delay : Z) (s : state2) : Prop := link delay (now2 s) (end_a s) (end_b s) (f_a s) /\ link delay (now2 s) (end_b s) (end_a s) (f_b s).
Lemma link_up delay t X Y f : link delay t X Y f -> e_rd X <> Ended /\ e_tick Y <> None.
Proof. intros (T & H1 & _ & _ & H4). rewrite H1. split; [intros E; rewrite E in H4; exact H4|discriminate]. Qed.
Lemma both_step delay l s s' : 0 <= delay < SendKeepAlive -> l <> TDoA EFail -> l <> TDoB EFail -> both delay s -> step2 delay l s = Some s' -> both delay s'.
Proof.
  intros HD N1 N2 [HA HB] E. destruct s as [t A B fa fb]; cbn [now2 end_a end_b f_a f_b] in *. destruct (link_up _ _ _ _ _ HA) as [UA _]. destruct (link_up _ _ _ _ _ HB) as [UB _].
  destruct l as [d|l|l|i|i]; cbn [step2 now2 end_a end_b f_a f_b] in E.
  - destruct ((0 <=? d) && _ && _ && _ && _) eqn:C; [|discriminate]. injection E as <-. repeat (apply andb_true_iff in C; destruct C as [C ?]). split; cbn [now2 end_a end_b f_a f_b]; apply link_delay; assumption || lia.
  - destruct (estep t l A) as [e|] eqn:Ee; [|discriminate]. injection E as <-. split; cbn [now2 end_a end_b f_a f_b]; [apply (link_recv delay t l A e B fa HD ltac:(congruence) HA Ee)|apply (link_send delay t l B A e fb ltac:(lia) UA HB Ee)].
  - destruct (estep t l B) as [e|] eqn:Ee; [|discriminate]. injection E as <-. split; cbn [now2 end_a end_b f_a f_b]; [apply (link_send delay t l A B e fa ltac:(lia) UB HA Ee)|apply (link_recv delay t l B e A fb HD ltac:(congruence) HB Ee)].
  - destruct (Nat.ltb_spec i (List.length fa)); [|discriminate]. injection E as <-. split; cbn [now2 end_a end_b f_a f_b]; [now apply link_arrive|]. eapply link_same_in; [|exact HB]. reflexivity.
  - destruct (Nat.ltb_spec i (List.length fb)); [|discriminate]. injection E as <-. split; cbn [now2 end_a end_b f_a f_b]; [|now apply link_arrive]. eapply link_same_in; [|exact HA]. reflexivity.
Qed.
Lemma both_run delay ls : forall s s', 0 <= delay < SendKeepAlive -> sound2 ls -> both delay s -> run2 delay ls s = Some s' -> both delay s'.
Proof.
  induction ls as [|l r IH]; intros s s' HD [S1 S2] Hb E; cbn [run2] in E; [now injection E as <-|]. destruct (step2 delay l s) as [s1|] eqn:E1; [|discriminate].
  apply (IH s1 s' HD); [split; intros X; [apply S1|apply S2]; right; exact X| |exact E]. eapply both_step; [exact HD| | |exact Hb|exact E1]; intros ->; [apply S1|apply S2]; left; reflexivity.
Qed.
Lemma two_ends delay tb ta s ls s' : 0 <= delay < 60 * 1000000000 -> joined delay tb ta s -> sound2 ls -> run2 delay ls s = Some s' ->
  e_rd (end_a s') <> Ended /\ e_rd (end_b s') <> Ended /\ e_tick (end_a s') <> None /\ e_tick (end_b s') <> None.
Proof.
  intros HD (rd & tick & -> & H1 & H2 & H3 & H4) HS E. change (60 * 1000000000) with SendKeepAlive in *. change (120 * 1000000000) with GetKeepAlive in *.
  assert (Hb : both delay (mk2 ta (NewEnd ta) (mke rd [] (Some tick)) [] [ta + delay])).
  { split; cbn [now2 end_a end_b f_a f_b].
    - exists tick. split; [reflexivity|]. split; [lia|]. split; [constructor|exact I].
    - exists (ta + SendKeepAlive). split; [reflexivity|]. split; [unfold SendKeepAlive, second; lia|]. split; [repeat constructor; lia|]. cbn [e_rd]. destruct rd as [|u|]; auto. right. left. constructor. lia. }
  destruct (both_run delay ls _ _ HD HS Hb E) as [HA HB]. destruct (link_up _ _ _ _ _ HA) as [? ?]. destruct (link_up _ _ _ _ _ HB) as [? ?]. auto.
Qed.

(** ** One end is left by the other *)
Lemma run2_app delay a : forall b s s1, run2 delay a s = Some s1 -> run2 delay (a ++ b) s = run2 delay b s1.
Proof. induction a as [|l a IH]; intros b s s1 E; cbn [run2 app] in *; [now injection E as ->|]. destruct (step2 delay l s) as [s2|]; [|discriminate]. now apply IH. Qed.
Definition inv_b (s : state2) : Prop := e_rd (end_b s) <> Ended -> (exists T, e_tick (end_b s) = Some T /\ now2 s <= T) /\ forall u, e_rd (end_b s) = Reading u -> u <= now2 s.
Lemma inv_b_step delay l s s' : inv_b s -> step2 delay l s = Some s' -> inv_b s'.
Proof.
  intros H E. destruct s as [t a b fa fb]. unfold inv_b in *. destruct l as [d|l|l|i|i]; cbn [step2 now2 end_a end_b f_a f_b] in *.
  - destruct (_ && _) eqn:C; [|discriminate]. injection E as <-. cbn [now2 end_b]. intros Hr. destruct (H Hr) as [(T & HT & Hn) Hu]. unfold tick_ok in C. rewrite HT in C.
    split; [exists T; split; [exact HT|lia]|]. intros u Hx. specialize (Hu u Hx). lia.
  - destruct (estep t l a); [|discriminate]. injection E as <-. exact H.
  - destruct (estep t l b) as [b'|] eqn:Ee; [|discriminate]. injection E as <-. cbn [now2 end_b]. destruct b as [rd i tk]. cbn [e_rd e_tick e_in] in *. intros Hr.
    unfold estep in Ee; destruct l; cbn [e_rd e_tick e_in] in Ee.
    + destruct rd; try discriminate. injection Ee as <-. cbn [e_rd e_tick] in *. destruct (H ltac:(discriminate)) as [HT _]. split; [exact HT|]. intros u Hu. injection Hu as <-. lia.
    + destruct rd; try discriminate. destruct (_ && _)%bool; [|discriminate]. injection Ee as <-. cbn [e_rd e_tick] in *. destruct (H ltac:(discriminate)) as [HT _]. split; [exact HT|]. intros u Hu. discriminate.
    + destruct rd; try discriminate. destruct (_ && _)%bool; [|discriminate]. injection Ee as <-. now destruct Hr.
    + destruct rd; try discriminate; injection Ee as <-; now destruct Hr.
    + destruct tk as [T|]; [|discriminate]. destruct (T =? t) eqn:C; [|discriminate]. injection Ee as <-. cbn [e_rd e_tick] in *. destruct (H Hr) as [(T' & HT & Hn) Hu]. injection HT as <-. split; [|exact Hu].
      eexists. split; [reflexivity|]. unfold SendKeepAlive, second. lia.
    + injection Ee as <-. auto.
    + destruct rd; try discriminate. injection Ee as <-. now destruct Hr.
  - destruct (Nat.ltb _ _); [|discriminate]. injection E as <-. exact H.
  - destruct (Nat.ltb _ _); [|discriminate]. injection E as <-. exact H.
Qed.
Lemma inv_b_run delay ls : forall s s', inv_b s -> run2 delay ls s = Some s' -> inv_b s'.
Proof. induction ls as [|l r IH]; intros s s' H E; cbn [run2] in E; [now injection E as <-|]. destruct (step2 delay l s) as [s1|] eqn:E1; [|discriminate]. eapply IH; [eapply inv_b_step; eassumption|exact E]. Qed.
Lemma drain_a delay : forall fa t a b fb, exists a', run2 delay (repeat (TArriveA 0) (List.length fa)) (mk2 t a b fa fb) = Some (mk2 t a' b [] fb) /\ e_tick a' = e_tick a.
Proof.
  induction fa as [|x fa IH]; intros t a b fb; [exists a; split; reflexivity|]. cbn [List.length repeat run2 step2 f_a]. cbn [Nat.ltb Nat.leb]. cbn [now2 end_a end_b f_b]. unfold drop_nth. cbn [firstn skipn app].
  destruct (IH t (arrive t a) b fb) as (a' & E & Ht). exists a'. split; [exact E|]. rewrite Ht. reflexivity.
Qed.
Lemma lift_b delay ls : forall t a b s', Forall (fun l => quiet_label l \/ l = LDo ESet \/ l = LDo ETimeout) ls -> e_tick a = None -> run1 ls (mk1 t b) = Some s' ->
  exists more a', Forall left_alone more /\ run2 delay more (mk2 t a b [] []) = Some (mk2 (now1 s') a' (end1 s') [] []).
Proof.
  induction ls as [|l r IH]; intros t a b s' HF Ha E; cbn [run1] in E; [injection E as <-; exists [], a; split; [constructor|reflexivity]|].
  destruct (step1 l (mk1 t b)) as [s1|] eqn:E1; [|discriminate]. inversion HF as [|? ? Hl HF']; subst. destruct l as [d|l|]; cbn [step1 now1 end1] in E1.
  - destruct (_ && _) eqn:C; [|discriminate]. injection E1 as <-. destruct (IH _ a _ _ HF' Ha E) as (more & a' & HM & EM). exists (TDelay d :: more), a'. split; [constructor; [exact I|exact HM]|].
    cbn [run2 step2 now2 end_a end_b f_a f_b forallb]. unfold tick_ok at 1. rewrite Ha. replace ((0 <=? d) && true && tick_ok (t + d) b && true && true) with true by (symmetry; rewrite !andb_true_r; exact C). exact EM.
  - destruct (estep t l b) as [b'|] eqn:Ee; [|discriminate]. injection E1 as <-. destruct l; try (exfalso; destruct Hl as [[]|[X|X]]; discriminate).
    + destruct (IH _ a _ _ HF' Ha E) as (more & a' & HM & EM). exists (TDoB ESet :: more), a'. split; [constructor; [exact I|exact HM]|]. cbn [run2 step2 now2 end_a end_b f_a f_b sends]. rewrite Ee. exact EM.
    + destruct (IH _ a _ _ HF' Ha E) as (more & a' & HM & EM). exists (TDoB ETimeout :: more), a'. split; [constructor; [exact I|exact HM]|]. cbn [run2 step2 now2 end_a end_b f_a f_b sends]. rewrite Ee. exact EM.
    + destruct (IH _ (arrive t a) _ _ HF' Ha E) as (more & a' & HM & EM). exists (TDoB ETick :: TArriveA 0 :: more), a'. split; [constructor; [exact I|constructor; [exact I|exact HM]]|].
      cbn [run2 step2 now2 end_a end_b f_a f_b sends]. rewrite Ee. cbn [run2 step2 now2 end_a end_b f_a f_b app List.length Nat.ltb Nat.leb]. exact EM.
  - exfalso. destruct Hl as [[]|[X|X]]; discriminate.
Qed.
Lemma left_behind delay tb ta s ls s' : joined delay tb ta s -> run2 delay ls s = Some s' -> e_tick (end_a s') = None -> e_rd (end_b s') <> Ended -> e_in (end_b s') = [] -> f_b s' = [] ->
  exists more s2, Forall left_alone more /\ run2 delay more s' = Some s2 /\ e_rd (end_b s2) = Ended /\ now2 s2 <= now2 s' + GetKeepAlive.
Proof.
  intros (rd & tick & -> & H1 & H2 & H3 & H4) E Ha Hr Hi Hf.
  assert (HB : inv_b s'). { eapply inv_b_run; [|exact E]. intros _. cbn [end_b now2 e_tick e_rd]. split; [exists tick; split; [reflexivity|lia]|]. intros u ->. lia. }
  destruct (HB Hr) as [(T & HT & HTn) Hu]. destruct s' as [t a [rb ib tkb] fa fb]. cbn [end_a end_b now2 f_b e_rd e_in e_tick] in *. subst ib fb tkb.
  destruct (silent_from t rb T Hr Hu HTn) as (more & s1 & HF & ER & HE & HN).
  destruct (drain_a delay fa t a (mke rb [] (Some T)) []) as (a1 & ED & Ha1). rewrite Ha in Ha1.
  destruct (lift_b delay more t a1 _ s1 HF Ha1 ER) as (m2 & a2 & HM & EM).
  exists (repeat (TArriveA 0) (List.length fa) ++ m2), (mk2 (now1 s1) a2 (end1 s1) [] []). split; [apply Forall_app; split; [|exact HM]|].
  - apply Forall_forall. intros x Hx. apply repeat_spec in Hx. subst x. exact I.
  - split; [rewrite (run2_app _ _ _ _ _ ED); exact EM|]. split; [exact HE|exact HN].
Qed.

(** ** The handshake *)
Lemma late_handshake ih id bf t0 c w : (forall a b, c = Some (a, b) -> t0 + HandshakeTimeout <= a) ->
  timed_accept ih id bf t0 c w = mkinc [] (Err EIO) /\ read_time t0 c = t0 + HandshakeTimeout /\ closes ih (timed_read t0 c) = false.
Proof.
  intros H. unfold timed_accept, timed_read, read_time, closes, FromIncoming. destruct c as [[a b]|]; [|auto]. specialize (H a b eq_refl). replace (a <? t0 + HandshakeTimeout) with false by lia. auto.
Qed.
Lemma timely_handshake ih id bf t0 a b w : a < t0 + HandshakeTimeout ->
  timed_accept ih id bf t0 (Some (a, b)) w = FromIncoming ih id bf (mkread b false) w /\ read_time t0 (Some (a, b)) < t0 + HandshakeTimeout.
Proof. intros H. unfold timed_accept, timed_read, read_time. replace (a <? t0 + HandshakeTimeout) with true by lia. split; [reflexivity|]. unfold HandshakeTimeout, second in *. lia. Qed.

Lemma closed_iff ih r : (List.length (rd_bytes r) <= 68)%nat ->
  (closes ih r = true <-> rd_err r = false /\ ~ is_handshake (pad68 (rd_bytes r)) ih).
Proof.
  intros HL. unfold closes. rewrite copy_at_pad by assumption. rewrite <- (Valid_iff _ []).
  destruct (Valid_total (pad68 (rd_bytes r)) [] ih) as [b ->]. destruct (rd_err r), b; cbn; intuition (discriminate || congruence).
Qed.
