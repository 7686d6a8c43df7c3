(** ReadLoopProofs.v: proofs about the read loop. *)
From Coq Require Import ZifyBool ZifyNat ZifyN.
From Verif Require Import Base ReadLoopModel ReadLoopSpec.

Lemma run_inv (P : rl -> list ev -> Prop) : (forall s tr l s' e, P s tr -> step s l = Some (s', e) -> P s' (tr ++ e)) ->
  forall ls s tr0 s' tr, P s tr0 -> run s ls = Some (s', tr) -> P s' (tr0 ++ tr).
Proof.
  intros HS ls. induction ls as [|l ls IH]; intros s tr0 s' tr HP H; cbn [run] in H.
  - assert (s' = s /\ tr = []) as [-> ->] by (split; congruence). rewrite app_nil_r. exact HP.
  - destruct (step s l) as [[s1 e1]|] eqn:E1; [|discriminate]. destruct (run s1 ls) as [[s2 e2]|] eqn:E2; [|discriminate].
    assert (s' = s2 /\ tr = e1 ++ e2) as [-> ->] by (split; congruence). rewrite app_assoc. eapply IH; [eapply HS; eassumption|exact E2].
Qed.
Lemma run_inv0 (P : rl -> list ev -> Prop) ls s s' tr : (forall s tr l s' e, P s tr -> step s l = Some (s', e) -> P s' (tr ++ e)) -> P s [] -> run s ls = Some (s', tr) -> P s' tr.
Proof. intros HS HP H. exact (run_inv P HS ls s [] s' tr HP H). Qed.
Lemma run_app s l1 l2 s1 e1 s2 e2 : run s l1 = Some (s1, e1) -> run s1 l2 = Some (s2, e2) -> run s (l1 ++ l2) = Some (s2, e1 ++ e2).
Proof.
  revert s e1. induction l1 as [|l l1 IH]; intros s e1 H1 H2; cbn [run app] in *.
  - assert (s1 = s /\ e1 = []) as [-> ->] by (split; congruence). exact H2.
  - destruct (step s l) as [[s' e]|]; [|discriminate]. destruct (run s' l1) as [[s'' e'']|] eqn:E; [|discriminate].
    assert (s1 = s'' /\ e1 = e ++ e'') as [-> ->] by (split; congruence). rewrite (IH _ _ E H2), app_assoc. reflexivity.
Qed.

(** The phase invariant. While Run is not waiting, nothing is under way on the other side. While it waits, the chunk is in chBuf, being
    processed, or the answer is in chReady. *)
Definition quiet (s : rl) : Prop := chBuf s = None /\ chReady s = false /\ match con_at s with CProc _ | CReady _ | CFinish2 => False | _ => True end.
Definition phase (s : rl) : Prop :=
  match run_at s with
  | RTop | RRead | RSendBuf _ | RSendErr _ => quiet s
  | RSelect => (exists n, chBuf s = Some n /\ chReady s = false /\ match con_at s with CProc _ | CReady _ | CFinish2 => False | _ => True end)
            \/ (chBuf s = None /\ chReady s = false /\ match con_at s with CProc _ | CReady _ => True | _ => False end)
            \/ (chBuf s = None /\ chReady s = true /\ match con_at s with CProc _ | CReady _ | CFinish2 => False | _ => True end)
  | REnd => match con_at s with CSelect | CProc _ | CReady _ | CFinish1 => False | _ => True end
  end.
(** Chunks handed on, and the chunk still under way. *)
Definition pend (s : rl) (tr : list ev) : Prop := exists w, delivered tr = received tr ++ w /\
  match run_at s, chBuf s with
  | RSendBuf n, _ => w = [firstn n (buf s)]
  | REnd, Some n => w = [firstn n (buf s)]
  | _, Some n => w = [firstn n (buf s)]
  | _, None => w = []
  end.
(** The consumer's slice shows what it was handed last. *)
Definition shows (s : rl) (tr : list ev) : Prop := match con_at s with CProc n => last (received tr) [] = firstn n (buf s) /\ received tr <> [] | _ => True end.
Record I53 (s : rl) (tr : list ev) : Prop := {
  i_phase : phase s; i_pend : pend s tr; i_shows : shows s tr;
  i_look : forall a d b, tr = a ++ EvLook d :: b -> last (received a) [] = d /\ received a <> [];
  i_past : forall a b, tr = a ++ EvPastDeadline :: b -> In EvRunEnd a;
  i_end : In EvRunEnd tr <-> run_at s = REnd }.
Lemma delivered_app a b : delivered (a ++ b) = delivered a ++ delivered b. Proof. apply flat_map_app. Qed.
Lemma received_app a b : received (a ++ b) = received a ++ received b. Proof. apply flat_map_app. Qed.
Lemma snoc_split {A} (tr p q : list A) x y : tr ++ [x] = p ++ y :: q -> (p = tr /\ q = [] /\ x = y) \/ exists q', tr = p ++ y :: q'.
Proof.
  intros E. destruct q as [|z q] using rev_ind; [left|right].
  - apply app_inj_tail in E. destruct E as [-> ->]. auto.
  - clear IHq. rewrite app_comm_cons, app_assoc in E. apply app_inj_tail in E. destruct E as [-> _]. eauto.
Qed.
Lemma firstn_overwrite (b d : bytes) : firstn (List.length d) (overwrite b d) = d.
Proof. unfold overwrite. rewrite firstn_app, firstn_all, Nat.sub_diag. apply app_nil_r. Qed.
Lemma last_snoc {A} (l : list A) x d : last (l ++ [x]) d = x. Proof. apply last_last. Qed.
Lemma snoc_not_nil {A} (l : list A) x : l ++ [x] <> []. Proof. destruct l; discriminate. Qed.

Lemma I53_init b : I53 (init b) [].
Proof.
  split; try exact I.
  - cbn. repeat split.
  - exists []. split; reflexivity.
  - intros [|? a] d c H; discriminate.
  - intros [|? a] c H; discriminate.
  - cbn. split; [intros []|discriminate].
Qed.
(** Events other than the four that matter. *)
Lemma i_snoc s s' tr e : I53 s tr -> phase s' -> pend s' (tr ++ [e]) -> shows s' (tr ++ [e]) ->
  (forall d, e = EvLook d -> last (received tr) [] = d /\ received tr <> []) -> (e = EvPastDeadline -> In EvRunEnd tr) -> (In EvRunEnd (tr ++ [e]) <-> run_at s' = REnd) -> I53 s' (tr ++ [e]).
Proof.
  intros [_ _ _ H4 H5 H6] P1 P2 P3 P4 P5 P6. split; auto.
  - intros a d b E. destruct (snoc_split _ _ _ _ _ E) as [(-> & -> & Ex)|(q & E')]; [apply P4; exact Ex|exact (H4 _ _ _ E')].
  - intros a b E. destruct (snoc_split _ _ _ _ _ E) as [(-> & -> & Ex)|(q & E')]; [apply P5; exact Ex|exact (H5 _ _ E')].
Qed.
Lemma i_nil s s' tr : I53 s tr -> phase s' -> pend s' tr -> shows s' tr -> (run_at s = REnd <-> run_at s' = REnd) -> I53 s' tr.
Proof. intros [_ _ _ H4 H5 H6] P1 P2 P3 P4. split; auto. rewrite H6. exact P4. Qed.
Lemma end_snoc tr e : In EvRunEnd (tr ++ [e]) <-> In EvRunEnd tr \/ e = EvRunEnd.
Proof. rewrite in_app_iff. cbn. intuition. Qed.
Lemma I53_step s tr l s' e : I53 s tr -> step s l = Some (s', e) -> I53 s' (tr ++ e).
Proof.
  intros HI HS. pose proof HI as [Hph (w & Hw & Hpe) Hsh Hl Hp He].
  destruct s as [b cb cr ra ca]. unfold phase, quiet, shows in Hph, Hsh; cbn [buf chBuf chReady run_at con_at] in *.
  destruct l; cbn [step buf chBuf chReady run_at con_at] in HS.
  - (* SetDeadline *) destruct ra; try discriminate. assert (s' = mkrl b cb cr (if ok then RRead else RSendErr (Some EInvalid)) ca /\ e = []) as [-> ->] by (split; congruence). rewrite app_nil_r.
    destruct Hph as (-> & -> & Hc). split; auto; destruct ok; cbn [run_at] in *; try (repeat split; auto; fail); try (exists w; auto; fail); rewrite He; split; discriminate.
  - (* Scribble *) destruct ra; try discriminate. destruct (Nat.eqb _ _); [|discriminate]. assert (s' = mkrl b0 cb cr RRead ca /\ e = []) as [-> ->] by (split; congruence). rewrite app_nil_r.
    destruct Hph as (-> & -> & Hc). split; auto; [repeat split; auto|exists w; auto|]. unfold shows. cbn. destruct ca; auto; contradiction.
  - (* ReadRet *) destruct ra; try discriminate. destruct (Nat.leb_spec (List.length d) (List.length b)) as [Hle|]; [|discriminate]. destruct Hph as (-> & -> & Hc).
    assert (Hshow : forall s2, con_at s2 = ca -> shows s2 (tr ++ e)) by (intros s2 Hs2; unfold shows; rewrite Hs2; destruct ca; auto; contradiction).
    assert (Hno : ~ In EvRunEnd tr) by (rewrite He; discriminate).
    destruct d as [|d0 d], e0 as [x|].
    4: { assert (s' = mkrl (overwrite b (d0 :: d)) None false (RSendBuf (List.length (d0 :: d))) ca /\ e = [EvRead (d0 :: d)]) as [-> ->] by (split; congruence).
      apply (i_snoc _ _ _ _ HI); auto; try discriminate.
      - cbn. repeat split; auto.
      - exists [d0 :: d]. rewrite delivered_app, received_app, Hw, Hpe. cbn [delivered received flat_map app]. rewrite !app_nil_r. split; [reflexivity|]. cbn [run_at chBuf buf]. rewrite firstn_overwrite. reflexivity.
      - rewrite end_snoc. split; [intros [H|H]; [contradiction|discriminate]|discriminate]. }
    all: match type of HS with Some (?y, ?z) = _ => assert (s' = y /\ e = z) as [-> ->] by (split; congruence) end; apply (i_snoc _ _ _ _ HI); auto; try discriminate.
    all: try (cbn; repeat split; auto; fail).
    all: try (exists []; rewrite delivered_app, received_app, Hw, Hpe; cbn [delivered received flat_map app]; rewrite !app_nil_r; split; reflexivity).
    all: rewrite end_snoc; split; [intros [H|H]; [contradiction|discriminate]|discriminate].
  - (* PutBuf *) destruct ra; try discriminate. destruct cb; [discriminate|]. assert (s' = mkrl b (Some n) cr RSelect ca /\ e = []) as [-> ->] by (split; congruence). rewrite app_nil_r.
    destruct Hph as (_ & -> & Hc). apply (i_nil _ _ _ HI); [left; exists n; auto|exists w; auto|exact Hsh|split; discriminate].
  - (* TakeReady *) destruct ra; try discriminate. destruct cr; [|discriminate]. assert (s' = mkrl b cb false RTop ca /\ e = []) as [-> ->] by (split; congruence). rewrite app_nil_r.
    destruct Hph as [(n & _ & H & _)|[(_ & H & _)|(-> & _ & Hc)]]; try discriminate. apply (i_nil _ _ _ HI); [cbn; repeat split; auto|exists w; auto|exact Hsh|split; discriminate].
  - (* TakeDone *) destruct ra; try discriminate. destruct ca; try discriminate. assert (s' = mkrl b cb cr REnd CFinish2 /\ e = [EvRunEnd]) as [-> ->] by (split; congruence).
    apply (i_snoc _ _ _ _ HI); try exact I; try discriminate; [|rewrite end_snoc; split; auto].
    exists w. rewrite delivered_app, received_app, Hw, !app_nil_r. split; [reflexivity|]. exact Hpe.
  - (* PutErr *) destruct ra; try discriminate. destruct ca; try discriminate. match type of HS with Some (?y, ?z) = _ => assert (s' = y /\ e = z) as [-> ->] by (split; congruence) end.
    destruct Hph as (-> & -> & _). apply (i_snoc _ _ _ _ HI); try discriminate; [destruct e0; exact I| |destruct e0; exact I|rewrite end_snoc; split; auto].
    exists w. rewrite delivered_app, received_app, Hw, !app_nil_r. split; [reflexivity|]. exact Hpe.
  - (* TakeBuf *) destruct ca; try discriminate. destruct cb as [n|]; [|discriminate]. match type of HS with Some (?y, ?z) = _ => assert (s' = y /\ e = z) as [-> ->] by (split; congruence) end.
    destruct ra; try (destruct Hph as (H & _); discriminate); try contradiction. destruct Hph as [(m & _ & -> & _)|[(H & _)|(H & _)]]; try discriminate.
    apply (i_snoc _ _ _ _ HI); try discriminate.
    + right. left. repeat split.
    + exists []. rewrite delivered_app, received_app, Hw, Hpe. cbn [delivered received flat_map app]. rewrite !app_nil_r. split; reflexivity.
    + unfold shows. cbn [con_at buf]. rewrite received_app. cbn [received flat_map app]. split; [apply last_snoc|apply snoc_not_nil].
    + rewrite end_snoc, He. split; [intros [H|H]; discriminate|discriminate].
  - (* Look *) destruct ca; try discriminate. match type of HS with Some (?y, ?z) = _ => assert (s' = y /\ e = z) as [-> ->] by (split; congruence) end.
    apply (i_snoc _ _ _ _ HI); try discriminate.
    + exact Hph.
    + exists w. rewrite delivered_app, received_app, Hw, !app_nil_r. split; [reflexivity|]. exact Hpe.
    + unfold shows. cbn [con_at buf]. rewrite received_app, app_nil_r. exact Hsh.
    + intros d E. assert (d = firstn n b) as -> by congruence. exact Hsh.
    + rewrite end_snoc, He. split; [intros [H|H]; [exact H|discriminate]|auto].
  - (* Handled *) destruct ca; try discriminate. match type of HS with Some (?y, ?z) = _ => assert (s' = y /\ e = z) as [-> ->] by (split; congruence) end.
    destruct ra; try (destruct Hph as (_ & _ & []); fail); try contradiction. destruct Hph as [(m & _ & _ & [])|[(-> & -> & _)|(_ & _ & [])]].
    apply (i_snoc _ _ _ _ HI); try discriminate; try exact I.
    + right. left. repeat split.
    + exists w. rewrite delivered_app, received_app, Hw, !app_nil_r. split; [reflexivity|]. exact Hpe.
    + rewrite end_snoc, He. split; [intros [H|H]; discriminate|discriminate].
  - (* PutReady *) destruct ca; try discriminate. destruct cr; [discriminate|]. match type of HS with Some (?y, ?z) = _ => assert (s' = y /\ e = z) as [-> ->] by (split; congruence) end. rewrite app_nil_r.
    destruct ra; try (destruct Hph as (_ & _ & []); fail); try contradiction. destruct Hph as [(m & _ & _ & [])|[(-> & _ & _)|(_ & _ & [])]].
    apply (i_nil _ _ _ HI); [right; right; destruct e0; cbn; auto|exists w; auto|destruct e0; exact I|split; discriminate].
  - (* Kill *) destruct ca; try discriminate. match type of HS with Some (?y, ?z) = _ => assert (s' = y /\ e = z) as [-> ->] by (split; congruence) end. rewrite app_nil_r.
    apply (i_nil _ _ _ HI); [exact Hph|exists w; auto|exact I|reflexivity].
  - (* PastDeadline *) destruct ca; try discriminate. match type of HS with Some (?y, ?z) = _ => assert (s' = y /\ e = z) as [-> ->] by (split; congruence) end.
    assert (Hend : ra = REnd) by (destruct ra; try reflexivity; exfalso; try (destruct Hph as (_ & _ & []); fail); destruct Hph as [(m & _ & _ & [])|[(_ & _ & [])|(_ & _ & [])]]).
    subst ra. apply (i_snoc _ _ _ _ HI); try discriminate; try exact I.
    + exists w. rewrite delivered_app, received_app, Hw, !app_nil_r. split; [reflexivity|]. exact Hpe.
    + intros _. apply He. reflexivity.
    + rewrite end_snoc, He. split; auto.
  - (* Report *) destruct ca; try discriminate. match type of HS with Some (?y, ?z) = _ => assert (s' = y /\ e = z) as [-> ->] by (split; congruence) end.
    apply (i_snoc _ _ _ _ HI); try discriminate; try exact I.
    + exact Hph.
    + exists w. rewrite delivered_app, received_app, Hw, !app_nil_r. split; [reflexivity|]. exact Hpe.
    + rewrite end_snoc, He. split; [intros [H|H]; [exact H|discriminate]|auto].
Qed.

(** ** C53 *)
Lemma reach b ls s tr : run (init b) ls = Some (s, tr) -> I53 s tr.
Proof. intros H. exact (run_inv0 I53 ls (init b) s tr I53_step (I53_init b) H). Qed.
Lemma exclusive_top b ls s tr : run (init b) ls = Some (s, tr) -> ~ (reading s /\ processing s).
Proof. intros H (H1 & n & H2). pose proof (i_phase _ _ (reach _ _ _ _ H)) as Hp. unfold phase, quiet in Hp. rewrite H1, H2 in Hp. destruct Hp as (_ & _ & []). Qed.
Lemma order_top b ls s tr : run (init b) ls = Some (s, tr) -> exists w, delivered tr = received tr ++ w /\ (List.length w <= 1)%nat /\ (processing s -> w = []).
Proof.
  intros H. destruct (reach _ _ _ _ H) as [Hp (w & Hw & Hc) _ _ _ _]. exists w. split; [exact Hw|]. split.
  - destruct (run_at s), (chBuf s); subst w; cbn; lia.
  - intros (n & Hn). unfold phase, quiet in Hp. rewrite Hn in Hp. destruct (run_at s) eqn:Er; try (destruct Hp as (_ & _ & []); fail); [|contradiction].
    destruct Hp as [(m & _ & _ & [])|[(Hb & _)|(_ & _ & [])]]. rewrite Hb in Hc. exact Hc.
Qed.
Lemma looks_top b ls s tr : run (init b) ls = Some (s, tr) -> forall a d c, tr = a ++ EvLook d :: c -> exists r, received a = r ++ [d].
Proof.
  intros H a d c E. destruct (i_look _ _ (reach _ _ _ _ H) a d c E) as [H1 H2]. exists (removelast (received a)). rewrite <- H1. apply app_removelast_last. exact H2.
Qed.
(** Sends on the two buffered channels never wait. *)
Lemma noblock_top b ls s tr : run (init b) ls = Some (s, tr) -> (forall n, run_at s = RSendBuf n -> chBuf s = None) /\ (forall e, con_at s = CReady e -> chReady s = false).
Proof.
  intros H. pose proof (i_phase _ _ (reach _ _ _ _ H)) as Hp. unfold phase, quiet in Hp. split.
  - intros n Hn. rewrite Hn in Hp. apply Hp.
  - intros e He. rewrite He in Hp. destruct (run_at s); try (destruct Hp as (_ & _ & []); fail); [|contradiction]. destruct Hp as [(m & _ & _ & [])|[(_ & Hb & _)|(_ & _ & [])]]. exact Hb.
Qed.

(** ** C54 *)
Lemma past_top b ls s tr : run (init b) ls = Some (s, tr) -> forall a c, tr = a ++ EvPastDeadline :: c -> In EvRunEnd a.
Proof. intros H a c E. exact (i_past _ _ (reach _ _ _ _ H) a c E). Qed.
Lemma deadlock s e : run_at s = RSendErr e -> con_at s = CFinish1 -> forall ls s' tr, run s ls = Some (s', tr) -> ls = [] /\ s' = s.
Proof.
  intros Hr Hc [|l ls] s' tr H; [cbn in H; split; congruence|]. exfalso. cbn [run] in H.
  assert (HS : step s l = None) by (destruct l; cbn [step]; rewrite ?Hr, ?Hc; reflexivity). rewrite HS in H. discriminate.
Qed.
(** While a Read is pending and Finish has been called, Finish gets done only if that Read delivers data. *)
Lemma needs_data s ls s' tr : run_at s = RRead -> con_at s = CFinish1 -> run s ls = Some (s', tr) -> con_at s' <> CFinish1 -> delivered tr <> [].
Proof.
  intros Hr Hc H Hn.
  assert (HP : delivered tr <> [] \/ (con_at s' = CFinish1 /\ match run_at s' with RRead | RSendErr _ => True | _ => False end)).
  { refine (run_inv0 (fun s tr => delivered tr <> [] \/ (con_at s = CFinish1 /\ match run_at s with RRead | RSendErr _ => True | _ => False end)) ls s s' tr _ _ H); [|right; rewrite Hr, Hc; auto].
    intros s1 t1 l s2 e1 [IH|(IH1 & IH2)] HS; [left; rewrite delivered_app; destruct (delivered t1); [congruence|discriminate]|].
    destruct l; cbn [step] in HS; rewrite ?IH1 in HS; try discriminate; destruct (run_at s1) eqn:Er; try contradiction; try discriminate.
    - destruct (Nat.eqb _ _); [|discriminate]. match type of HS with Some (?y, _) = _ => assert (s2 = y) as -> by congruence end. right. cbn. auto.
    - destruct (Nat.leb _ _); [|discriminate]. destruct d as [|d0 d], e as [x|]; match type of HS with Some (?y, ?z) = _ => assert (s2 = y /\ e1 = z) as [-> ->] by (split; congruence) end; try (right; cbn; auto; fail).
      left. rewrite delivered_app. cbn. apply snoc_not_nil. }
  destruct HP as [HP|(HP & _)]; [exact HP|contradiction].
Qed.

(** ** Leaks *)
Lemma leak_closed s ls s' tr : leaving (con_at s) = true -> run_at s <> REnd -> run s ls = Some (s', tr) -> run_at s' <> REnd.
Proof.
  intros Hl Hr H.
  assert (HP : leaving (con_at s') = true /\ run_at s' <> REnd); [|tauto].
  refine (run_inv0 (fun s _ => leaving (con_at s) = true /\ run_at s <> REnd) ls s s' tr _ _ H); [|auto].
  intros [b1 cb1 cr1 ra1 ca1] t1 l s2 e1 (IH1 & IH2) HS. cbn [con_at run_at] in IH1, IH2.
  destruct l; cbn [step buf chBuf chReady run_at con_at] in HS; destruct ca1; try discriminate; destruct ra1; try discriminate; try contradiction.
  all: repeat match type of HS with context [if ?c then _ else _] => destruct c; try discriminate | context [match ?c with _ => _ end] => is_var c; destruct c; try discriminate end.
  all: match type of HS with Some (?y, _) = _ => assert (s2 = y) as -> by congruence end; cbn [run_at con_at]; split; try reflexivity; try discriminate; try (destruct ok; discriminate).
Qed.

(** The states in which nothing can happen any more. *)
Lemma stuck_top b ls s tr : run (init b) ls = Some (s, tr) -> (forall l, step s l = None) ->
  (run_at s = REnd /\ con_at s = CEnd) \/ ((exists e, run_at s = RSendErr e) /\ (con_at s = CFinish1 \/ con_at s = CEnd)) \/ (run_at s = RSelect /\ con_at s = CEnd).
Proof.
  intros H Hs. pose proof (i_phase _ _ (reach _ _ _ _ H)) as Hp. unfold phase, quiet in Hp.
  assert (Hc : con_at s = CFinish1 \/ con_at s = CEnd \/ exists e, con_at s = CReady e).
  { destruct (con_at s) eqn:E; eauto; exfalso.
    - specialize (Hs Kill). cbn in Hs. rewrite E in Hs. discriminate.
    - specialize (Hs Look). cbn in Hs. rewrite E in Hs. discriminate.
    - specialize (Hs Report). cbn in Hs. rewrite E in Hs. discriminate.
    - specialize (Hs PastDeadline). cbn in Hs. rewrite E in Hs. discriminate. }
  destruct Hc as [Hc|[Hc|(e & Hc)]].
  3:{ exfalso. pose proof (proj2 (noblock_top _ _ _ _ H) e Hc) as Hr. specialize (Hs PutReady). cbn in Hs. rewrite Hc, Hr in Hs. discriminate. }
  all: destruct (run_at s) as [| |n| |e|] eqn:E.
  all: try (exfalso; specialize (Hs (SetDeadline true)); cbn in Hs; rewrite E in Hs; discriminate).
  all: try (exfalso; specialize (Hs (ReadRet [] None)); cbn in Hs; rewrite E in Hs; discriminate).
  all: try (exfalso; pose proof (proj1 (noblock_top _ _ _ _ H) n E) as Hb; specialize (Hs PutBuf); cbn in Hs; rewrite E, Hb in Hs; discriminate).
  all: try (right; left; eauto; fail).
  - exfalso. specialize (Hs TakeDone). cbn in Hs. rewrite E, Hc in Hs. discriminate.
  - exfalso. rewrite Hc in Hp. exact Hp.
  - right. right. auto.
  - left. auto.
Qed.

(** The buffer keeps its length. *)
Lemma step_buf s l s' e : step s l = Some (s', e) -> List.length (buf s') = List.length (buf s).
Proof.
  destruct l as [ok|b|d x| | | | | | |h| | | |]; cbn [step]; intros H.
  2:{ destruct (run_at s); try discriminate. destruct (Nat.eqb _ _) eqn:E; [|discriminate]. apply Nat.eqb_eq in E. inversion H; subst. exact E. }
  2:{ destruct (run_at s); try discriminate. destruct (Nat.leb _ _) eqn:E; [|discriminate]. apply Nat.leb_le in E.
      assert (HO : List.length (overwrite (buf s) d) = List.length (buf s)) by (unfold overwrite; rewrite app_length, skipn_length; lia).
      destruct d, x; inversion H; subst; exact HO. }
  all: destruct (run_at s), (con_at s), (chBuf s), (chReady s); try discriminate; inversion H; subst; reflexivity.
Qed.
Lemma run_buf ls : forall s s' tr, run s ls = Some (s', tr) -> List.length (buf s') = List.length (buf s).
Proof.
  induction ls as [|l ls IH]; intros s s' tr H; cbn [run] in H.
  - inversion H; subst. reflexivity.
  - destruct (step s l) as [[s1 e]|] eqn:E; [|discriminate]. destruct (run s1 ls) as [[s2 e2]|] eqn:E2; [|discriminate]. inversion H; subst. rewrite (IH _ _ _ E2). exact (step_buf _ _ _ _ E).
Qed.
Lemma whole_buffer b ls s tr : run (init b) ls = Some (s, tr) -> run_at s = RRead -> forall d, d <> [] ->
  ((exists s' e, step s (ReadRet d None) = Some (s', e)) <-> (List.length d <= List.length b)%nat).
Proof.
  intros H HR d Hd. apply run_buf in H. cbn [init buf] in H. cbn [step]. rewrite HR, H. split.
  - intros (s' & e & E). destruct (Nat.leb _ _) eqn:EL; [|discriminate]. now apply Nat.leb_le.
  - intros Hle. apply Nat.leb_le in Hle. rewrite Hle. destruct d; [contradiction|]. eauto.
Qed.
