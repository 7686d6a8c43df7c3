(** LoopProofs.v: proofs about PeerHandler.Loop. *)
From Coq Require Import ZifyBool ZifyNat ZifyN.
From Verif Require Import Base LoopModel LoopSpec.

Lemma run_inv c (P : st -> list ev -> Prop) : (forall s tr l s' e, P s tr -> step c s l = Some (s', e) -> P s' (tr ++ e)) ->
  forall ls s tr0 s' tr, P s tr0 -> run c s ls = Some (s', tr) -> P s' (tr0 ++ tr).
Proof.
  intros HS ls. induction ls as [|l ls IH]; intros s tr0 s' tr HP H; cbn [run] in H.
  - assert (s' = s /\ tr = []) as [-> ->] by (split; congruence). rewrite app_nil_r. exact HP.
  - destruct (step c s l) as [[s1 e1]|] eqn:E1; [|discriminate]. destruct (run c s1 ls) as [[s2 e2]|] eqn:E2; [|discriminate].
    assert (s' = s2 /\ tr = e1 ++ e2) as [-> ->] by (split; congruence). rewrite app_assoc. eapply IH; [eapply HS; eassumption|exact E2].
Qed.
Lemma run_inv0 c (P : st -> list ev -> Prop) ls s s' tr : (forall s tr l s' e, P s tr -> step c s l = Some (s', e) -> P s' (tr ++ e)) -> P s [] -> run c s ls = Some (s', tr) -> P s' tr.
Proof. intros HS HP H. exact (run_inv c P HS ls s [] s' tr HP H). Qed.
Ltac cases HS s l :=
  destruct s as [L P V Q n]; destruct l; cbn [step] in HS;
  repeat match type of HS with context [match ?x with _ => _ end] => is_var x; destruct x; try discriminate | context [if add_panics ?a ?b then _ else _] => destruct (add_panics a b) eqn:?; try discriminate | context [if wait_panics ?a ?b then _ else _] => destruct (wait_panics a b) eqn:?; try discriminate | context [if complete ?c then _ else _] => destruct (complete c) eqn:?; try discriminate | context [if made ?c then _ else _] => destruct (made c) eqn:?; try discriminate end;
  match type of HS with Some (?y, ?z) = Some (?s', ?e) => assert (s' = y /\ e = z) as [-> ->] by (split; congruence) end.

Lemma never_returns c ls s tr : made c = false -> run c init ls = Some (s, tr) -> loop s <> LEnd /\ ~ In EvReturned tr.
Proof.
  intros Hm. apply (run_inv0 c (fun s tr => loop s <> LEnd /\ ~ In EvReturned tr)); [|split; [discriminate|intros []]].
  intros s1 tr1 l s2 e (H1 & H2) HS. rewrite in_app_iff. cases HS s1 l; cbn [loop] in *; try (split; [assumption || discriminate|cbn; intuition discriminate]); congruence.
Qed.
Lemma procs_top c ls s tr : run c init ls = Some (s, tr) -> procs s = running s.
Proof.
  apply (run_inv0 c (fun s _ => procs s = running s)); [|reflexivity]. intros s1 tr1 l s2 e H HS. cases HS s1 l; try (destruct ok); unfold running in *; cbn [procs ping recv req] in *; subst; try lia; try reflexivity; destruct V; try discriminate; destruct Q; try discriminate; try lia; reflexivity.
Qed.
Lemma taken_app a b : taken (a ++ b) = (taken a + taken b)%nat. Proof. unfold taken. rewrite filter_app, app_length. reflexivity. Qed.
Lemma told_app a b : told (a ++ b) = (told a + told b)%nat. Proof. unfold told. rewrite filter_app, app_length. reflexivity. Qed.
Lemma one_top c ls s tr : run c init ls = Some (s, tr) -> taken tr = (match loop s with LSelect => 0 | _ => 1 end)%nat /\ told tr = (match loop s with LSelect | LSendDone => 0 | _ => 1 end)%nat.
Proof.
  apply (run_inv0 c (fun s tr => taken tr = (match loop s with LSelect => 0 | _ => 1 end)%nat /\ told tr = (match loop s with LSelect | LSendDone => 0 | _ => 1 end)%nat)); [|split; reflexivity].
  intros s1 tr1 l s2 e (H1 & H2) HS. rewrite taken_app, told_app, H1, H2. cases HS s1 l; cbn [loop]; try (destruct ok); split; try reflexivity; destruct L; reflexivity.
Qed.
(** A loop that wants to report an error when Loop has left its select wants to forever. *)
Lemma unheard c s ls s' tr : loop s <> LSelect -> run c s ls = Some (s', tr) -> loop s' <> LSelect /\ (ping s = PErr -> ping s' = PErr) /\ (recv s = VErr -> recv s' = VErr) /\ taken tr = 0%nat.
Proof.
  intros HL. apply (run_inv0 c (fun s' tr => loop s' <> LSelect /\ (ping s = PErr -> ping s' = PErr) /\ (recv s = VErr -> recv s' = VErr) /\ taken tr = 0%nat)); [|auto].
  intros s1 tr1 l s2 e (H1 & H2 & H3 & H4) HS. rewrite taken_app, H4. cases HS s1 l; cbn [loop ping recv] in *; repeat split; auto; try discriminate; try congruence; intros Hx; try (specialize (H2 Hx); discriminate); try (specialize (H3 Hx); discriminate).
Qed.
Lemma request_holds c s ls s' tr : complete c = false -> procs s = running s -> req s = QLoop -> waiting s -> run c s ls = Some (s', tr) -> req s' = QLoop /\ waiting s'.
Proof.
  intros Hc Hp Hq Hw H. assert (HP : procs s' = running s' /\ req s' = QLoop /\ waiting s'); [|tauto]. revert H.
  apply (run_inv0 c (fun s' _ => procs s' = running s' /\ req s' = QLoop /\ waiting s')); [|auto].
  intros s1 tr1 l s2 e (H1 & H2 & H3) HS. unfold waiting in *.
  cases HS s1 l; try (destruct ok); unfold running in *; cbn [procs ping recv req loop] in *; subst; try discriminate; try congruence; try (split; [|split; [reflexivity|first [exact H3|exact I]]]); try lia; try reflexivity; try contradiction; destruct V; lia.
Qed.
Lemma request_top c ls0 s0 tr0 ls s tr : complete c = false -> run c init ls0 = Some (s0, tr0) -> req s0 = QLoop -> waiting s0 -> run c s0 ls = Some (s, tr) -> req s = QLoop /\ waiting s.
Proof. intros Hc H0 Hq Hw H. exact (request_holds c s0 ls s tr Hc (procs_top _ _ _ _ H0) Hq Hw H). Qed.
Lemma deaf_closed c s ls s' tr : deaf s -> loop s = LSendDone -> run c s ls = Some (s', tr) -> loop s' = LSendDone /\ deaf s'.
Proof.
  intros Hd Hl. apply (run_inv0 c (fun s' _ => loop s' = LSendDone /\ deaf s')); [|auto].
  intros s1 tr1 l s2 e (H1 & H2) HS. unfold deaf in *. cases HS s1 l; cbn [loop ping recv] in *; try discriminate; auto; try tauto; destruct H2 as [[] _] || destruct H2 as [_ []].
Qed.
(** Nothing reports upwards, so Loop at its last send stays there. *)
Lemma nil_closed c s ls s' tr : made c = false -> loop s = LSendUp -> run c s ls = Some (s', tr) -> loop s' = LSendUp.
Proof.
  intros Hm Hl. apply (run_inv0 c (fun s' _ => loop s' = LSendUp)); [|auto]. intros s1 tr1 l s2 e H1 HS. cases HS s1 l; cbn [loop] in *; congruence.
Qed.
(** A quiet end of recvLoop does not reach Loop. *)
Lemma quiet_closed c s ls s' tr : loop s = LSelect -> recv s = VRet \/ recv s = VEnd -> (forall l, In l ls -> l <> PingTick false) -> ping s <> PErr -> run c s ls = Some (s', tr) -> loop s' = LSelect.
Proof.
  intros Hl Hv Hp Hpe. assert (HG : run c s ls = Some (s', tr) -> loop s' = LSelect /\ (recv s' = VRet \/ recv s' = VEnd) /\ ping s' <> PErr); [|tauto].
  revert s Hl Hv Hpe tr. induction ls as [|l ls IH]; intros s Hl Hv Hpe tr H; cbn [run] in H.
  - assert (s' = s) as -> by congruence. auto.
  - destruct (step c s l) as [[s1 e1]|] eqn:E1; [|discriminate]. destruct (run c s1 ls) as [[s2 e2]|] eqn:E2; [|discriminate]. assert (s2 = s') as -> by congruence.
    assert (Hn : l <> PingTick false) by (apply Hp; left; reflexivity). assert (Hls : forall l0, In l0 ls -> l0 <> PingTick false) by (intros l0 Hi; apply Hp; right; exact Hi).
    assert (Hs1 : loop s1 = LSelect /\ (recv s1 = VRet \/ recv s1 = VEnd) /\ ping s1 <> PErr).
    { clear IH E2 H. cases E1 s l; cbn [loop recv ping] in *; subst; try discriminate; try congruence; try (destruct Hv; discriminate); repeat split; auto; try discriminate. }
    destruct Hs1 as (A1 & A2 & A3). exact (IH Hls s1 A1 A2 A3 e2 E2).
Qed.
Lemma quiet_top c s ls s' tr : loop s = LSelect -> (forall l, In l ls -> l <> PingTick false) -> ping s <> PErr -> run c s (RecvQuiet :: ls) = Some (s', tr) -> loop s' = LSelect /\ (recv s' = VRet \/ recv s' = VEnd).
Proof.
  intros Hl Hp Hpe H. cbn [run] in H. destruct (step c s RecvQuiet) as [[s1 e1]|] eqn:E1; [|discriminate]. destruct (run c s1 ls) as [[s2 e2]|] eqn:E2; [|discriminate]. assert (s2 = s') as -> by congruence.
  assert (H1 : loop s1 = LSelect /\ recv s1 = VRet /\ ping s1 = ping s). { destruct s as [L P V Q n]. cbn [step] in E1. destruct V; try discriminate. assert (s1 = mkst L P VRet Q n) as -> by congruence. auto. }
  destruct H1 as (H1 & H2 & H3). split; [exact (quiet_closed c s1 ls s' e2 H1 (or_introl H2) Hp ltac:(congruence) E2)|].
  revert H2 E2. clear. intros H2. assert (HG : run c s1 ls = Some (s', e2) -> recv s' = VRet \/ recv s' = VEnd); [|exact HG].
  apply (run_inv0 c (fun s _ => recv s = VRet \/ recv s = VEnd)); [|auto]. intros s2 tr l s3 e H HS. cases HS s2 l; cbn [recv] in *; auto; destruct H; discriminate.
Qed.

(** ** The WaitGroup *)
Definition begun (s : st) : Prop :=
  match loop s with
  | LSelect => True
  | LSendDone => (match ping s with PRet | PEnd => True | _ => False end \/ match recv s with VRet | VEnd => True | _ => False end)
  | _ => ping s <> PNew /\ recv s <> VNew
  end.
Lemma begun_top c ls s tr : run c init ls = Some (s, tr) -> begun s.
Proof.
  apply (run_inv0 c (fun s _ => begun s)); [|exact I]. intros s1 tr1 l s2 e H HS. unfold begun in *.
  cases HS s1 l; try destruct ok; cbn [loop ping recv] in *; try exact I; try assumption; try (split; discriminate); try tauto; try (destruct L; cbn in *; intuition congruence);
    try (destruct V; split; try discriminate; tauto); try (destruct P; split; try discriminate; tauto); try (destruct n; intuition congruence).
Qed.
(** Past the wait pingLoop and recvLoop are over. *)
Definition over (s : st) : Prop := match loop s with LAwake | LSendUp | LEnd => ping s = PEnd /\ recv s = VEnd | _ => True end.
Lemma over_step c s l s' e : begun s -> procs s = running s -> over s -> step c s l = Some (s', e) -> over s'.
Proof.
  intros Hb Hp Ho HS. unfold over, begun, running in *. cases HS s l; try destruct ok; cbn [loop ping recv req procs] in *; try exact I; try assumption; try (destruct L; try exact I; destruct Ho; discriminate).
  all: destruct Hb; destruct P, V; try congruence; try discriminate; auto.
Qed.
Lemma all_top c ls s tr : run c init ls = Some (s, tr) -> begun s /\ procs s = running s /\ over s.
Proof.
  intros H. split; [exact (begun_top _ _ _ _ H)|]. split; [exact (procs_top _ _ _ _ H)|]. revert ls s tr H. enough (HG : forall ls s0 s tr, begun s0 -> procs s0 = running s0 -> over s0 -> (exists l0 t0, run c init l0 = Some (s0, t0)) -> run c s0 ls = Some (s, tr) -> over s).
  { intros ls s tr H. eapply (HG ls init); try eassumption; try exact I; try reflexivity. exists [], []. reflexivity. }
  induction ls as [|l ls IH]; intros s0 s tr Hb Hp Ho (l0 & t0 & H0) H; cbn [run] in H; [assert (s = s0) as -> by congruence; exact Ho|].
  destruct (step c s0 l) as [[s1 e1]|] eqn:E1; [|discriminate]. destruct (run c s1 ls) as [[s2 e2]|] eqn:E2; [|discriminate]. assert (s = s2) as -> by congruence.
  assert (H1 : run c init (l0 ++ [l]) = Some (s1, t0 ++ e1)).
  { clear - H0 E1. revert H0. generalize init t0. induction l0 as [|a l0 IH]; intros i t H; cbn [run app] in *; [assert (s0 = i /\ t = []) as [-> ->] by (split; congruence); rewrite E1; rewrite app_nil_r; reflexivity|].
    destruct (step c i a) as [[i1 x1]|]; [|discriminate]. destruct (run c i1 l0) as [[i2 x2]|] eqn:E; [|discriminate]. assert (s0 = i2 /\ t = x1 ++ x2) as [-> ->] by (split; congruence). rewrite (IH _ _ E), app_assoc. reflexivity. }
  eapply IH; [exact (begun_top _ _ _ _ H1)|exact (procs_top _ _ _ _ H1)|exact (over_step _ _ _ _ _ Hb Hp Ho E1)|eauto|exact E2].
Qed.
Lemma two_top c ls s tr : run c init ls = Some (s, tr) ->
  match loop s with
  | LSelect | LSendDone => True
  | LWait | LAsleep => ping s <> PNew /\ recv s <> VNew
  | _ => ping s = PEnd /\ recv s = VEnd
  end.
Proof. intros H. destruct (all_top _ _ _ _ H) as (Hb & _ & Ho). unfold begun, over in *. destruct (loop s); auto. Qed.
(** The WaitGroup panics because of requestLoop, and only when it starts late. *)
Lemma dies_top c ls s tr l : run c init ls = Some (s, tr) -> dies s l = true ->
  (l = ReqStart /\ req s = QNew /\ loop s = LAsleep /\ running s = 0%nat) \/ (l = LoopAwake /\ loop s = LAwake /\ ping s = PEnd /\ recv s = VEnd /\ (req s = QLoop \/ req s = QRet)).
Proof.
  intros H Hd. destruct (all_top _ _ _ _ H) as (Hb & Hp & Ho). unfold begun, over, running in *. destruct s as [L P V Q n]. cbn [loop ping recv req procs] in *.
  destruct l; cbn in Hd; try discriminate.
  - destruct P; try discriminate. destruct L; try discriminate. destruct Hb. congruence.
  - destruct V; try discriminate. destruct L; try discriminate. destruct Hb. congruence.
  - destruct Q; try discriminate. destruct L; try discriminate. destruct n; [|discriminate]. left. unfold running. cbn [ping recv req]. auto.
  - destruct L; try discriminate. destruct n; [discriminate|]. destruct Ho as [-> ->]. right. destruct Q; try discriminate; auto 8.
Qed.
(** If requestLoop has started before Loop is in Wait, nothing of the kind happens, and the wait is for all three. *)
Definition in_time (s : st) : Prop := procs s = running s /\ begun s /\ req s <> QNew /\ match loop s with LAwake | LSendUp | LEnd => ping s = PEnd /\ recv s = VEnd /\ req s = QEnd | _ => True end.
Lemma begun_step c s l s' e : begun s -> step c s l = Some (s', e) -> begun s'.
Proof.
  intros H HS. unfold begun in *.
  cases HS s l; try destruct ok; cbn [loop ping recv] in *; try exact I; try assumption; try (split; discriminate); try tauto; try (destruct L; cbn in *; intuition congruence);
    try (destruct V; split; try discriminate; tauto); try (destruct P; split; try discriminate; tauto); try (destruct n; intuition congruence).
Qed.
Lemma in_time_step c s l s' e : in_time s -> step c s l = Some (s', e) -> in_time s'.
Proof.
  intros (H1 & H2 & H3 & H4) HS. split; [|split; [exact (begun_step _ _ _ _ _ H2 HS)|]].
  - clear H2 H3 H4. cases HS s l; try (destruct ok); unfold running in *; cbn [procs ping recv req] in *; subst; try lia; try reflexivity; destruct V; try discriminate; destruct Q; try discriminate; try lia; reflexivity.
  - unfold begun, running in *. cases HS s l; try destruct ok; cbn [loop ping recv req procs] in *; (split; [assumption || congruence || discriminate|]); try exact I; try assumption; try (destruct L; try exact I; destruct H4 as (? & ? & ?); congruence).
    all: destruct H2; destruct P, V, Q; try congruence; try discriminate; auto.
Qed.
Lemma in_time_top c ls0 s0 tr0 ls s tr : run c init ls0 = Some (s0, tr0) -> req s0 <> QNew -> waiting s0 -> run c s0 ls = Some (s, tr) ->
  (forall l, dies s l = false) /\ (~ waiting s -> ping s = PEnd /\ recv s = VEnd /\ req s = QEnd).
Proof.
  intros H0 Hq Hw H. destruct (all_top _ _ _ _ H0) as (Hb & Hp & _).
  assert (Hi : in_time s). { revert H. apply (run_inv0 c (fun s _ => in_time s)); [intros s1 tr1 l s2 e; apply in_time_step|]. unfold in_time, waiting in *. destruct (loop s0); tauto. }
  destruct Hi as (I1 & I2 & I3 & I4). unfold begun, running, waiting in *. destruct s as [L P V Q n]. cbn [loop ping recv req procs] in *. split.
  - intros l. destruct l; cbn; try reflexivity.
    + destruct P; try reflexivity. destruct L; try reflexivity. destruct I2. congruence.
    + destruct V; try reflexivity. destruct L; try reflexivity. destruct I2. congruence.
    + destruct Q; try reflexivity. congruence.
    + destruct L; try reflexivity. destruct I4 as (-> & -> & ->). cbn in I1. subst n. reflexivity.
  - destruct L; tauto.
Qed.
(** A requestLoop that has not started yet can be the end of the process. *)
Lemma late_dies c s : loop s = LSelect -> ping s = PSelect -> recv s = VSelect -> req s = QNew -> procs s = 2%nat ->
  (exists s' tr, run c s [RecvFail; RecvErr; PingDone; LoopWait; RecvRet; PingRet] = Some (s', tr) /\ dies s' ReqStart = true) /\
  (exists s' tr, run c s [RecvFail; RecvErr; PingDone; LoopWait; RecvRet; PingRet; LoopRelease; ReqStart] = Some (s', tr) /\ dies s' LoopAwake = true).
Proof.
  destruct s as [L P V Q n]. cbn [loop ping recv req procs]. intros -> -> -> -> ->. split; eexists _, _; (split; [cbn; reflexivity|reflexivity]).
Qed.
