(** RaceInvProofs.v: the traces of the process. *)
From Coq Require Import ZifyBool ZifyNat ZifyN.
From Verif Require Import Base BitfieldModel WireModel HandshakeModel LayoutModel PptModel PeerModel FsModel SwarmModel SessionModel RunModel ProcModel ProcSpec ProcProofs RaceSpec RaceModel RaceProofs.
From Verif Require LoopModel ReadLoopModel ReadLoopSpec ReadLoopProofs TimeModel.

(** ** Steps, with what matters of the process *)
Definition fresh (g : gconn) : Prop := a_recv (g_a g) = VNew /\ c_read (g_c g) = ReadLoopModel.RTop /\ c_buf (g_c g) = None /\ c_ready (g_c g) = false /\ forall comp, jconn comp [] g.
Inductive moved (logs : bool) (pc : pconst) (s : rstate) : trace -> rstate -> Prop :=
| M_clock : forall p', p_conns p' = p_conns (r_p s) -> sh_lock (p_sh p') = sh_lock (p_sh (r_p s)) -> r_on s = false ->
    moved logs pc s (by_ GClock [Wr XRUsed; Wr XUsed]) (mkr p' true (r_next s) (r_wait s) (r_left s) (r_who s) (r_t s ++ by_ GClock [Wr XRUsed; Wr XUsed]))
| M_tick : forall p', p_conns p' = p_conns (r_p s) -> sh_lock (p_sh p') = sh_lock (p_sh (r_p s)) -> r_on s = true ->
    moved logs pc s (by_ GClock [At XUsed; At XRUsed]) (mkr p' true (r_next s) (r_wait s) (r_left s) (r_who s) (r_t s ++ by_ GClock [At XUsed; At XRUsed]))
| M_accept : forall p', p_conns p' = p_conns (r_p s) -> sh_lock (p_sh p') = sh_lock (p_sh (r_p s)) ->
    let es := lg logs GListen ++ by_ GListen [Rd XSwarm; Go (GIn (r_next s))] in
    moved logs pc s es (mkr p' (r_on s) (S (r_next s)) (r_wait s ++ [r_next s]) (r_left s) (r_who s) (r_t s ++ es))
| M_idle : forall p' g wait left es, p_conns p' = p_conns (r_p s) -> sh_lock (p_sh p') = sh_lock (p_sh (r_p s)) ->
    (es = [] /\ wait = r_wait s /\ left = r_left s) \/
    (exists j n a b, g = GIn n /\ nth_error (r_wait s) j = Some n /\ wait = without j (r_wait s) /\ left = r_left s /\ es = turned_away logs g a b) \/
    (exists j n, g = GOut n /\ nth_error (r_left s) j = Some n /\ left = without j (r_left s) /\ wait = r_wait s /\ es = by_ g [Rd XSwarm] ++ lg logs g) ->
    moved logs pc s es (mkr p' (r_on s) (r_next s) wait left (r_who s) (r_t s ++ es))
| M_new : forall p' g wait left es g0 u pre mid, p_conns p' = p_conns (r_p s) ++ [g0] -> sh_lock (p_sh p') = sh_lock (p_sh (r_p s)) -> fresh g0 ->
    let k := List.length (p_conns (r_p s)) in
    (exists j n, g = GIn n /\ nth_error (r_wait s) j = Some n /\ wait = without j (r_wait s) /\ left = r_left s /\ pre = by_ g [Rd XSwarm] ++ lg logs g ++ lg logs g ++ by_ g [Rd XSwarm; Wr XHead; Rd XHead] ++ lg logs g /\ mid = by_ g [Rd XPhs; Wr XPhs]) \/
    (exists j n, g = GOut n /\ nth_error (r_left s) j = Some n /\ left = without j (r_left s) /\ wait = r_wait s /\ pre = by_ g [Rd XSwarm] /\ mid = []) ->
    es = pre ++ made_by g k ++ mid ++ loop_starts logs g k u ->
    moved logs pc s es (mkr p' (r_on s) (r_next s) wait left (r_who s ++ [g]) (r_t s ++ es))
| M_conn : forall sh c w g g' gl, nth_error (r_who s) c = Some w -> nth_error (p_conns (r_p s)) c = Some g -> gstep pc c (p_sh (r_p s)) g gl = GWent sh g' ->
    let p := r_p s in let es := gevents logs pc w c g gl in
    moved logs pc s es (mkr (mkps sh (p_shake p) (p_drop p) (p_dial p) (lupd (p_conns p) c g')) (r_on s) (r_next s) (r_wait s) (r_left s) (r_who s) (r_t s ++ es)).

Lemma fresh_fresh c inc ptr key sent u g : fresh_conn c inc ptr key sent u = Ok g -> fresh g.
Proof.
  intros H. split; [eapply fresh_hold; eassumption|]. assert (HJ : forall comp, jconn comp [] g) by (intros; eapply fresh_jconn; eassumption).
  unfold fresh_conn in H. destruct (NewBitfield _); cbn [bind] in H; try discriminate. apply Ok_eq in H. subst g. auto.
Qed.
Lemma Some_inj {A} (x y : A) : Some x = Some y -> y = x. Proof. congruence. Qed.
Lemma PWent_inj x y : PWent x = PWent y -> y = x. Proof. congruence. Qed.
Lemma rstep_moved logs pc l s s' : rstep logs pc l s = Some s' -> exists es, moved logs pc s es s'.
Proof.
  intros H. destruct l as [|l j]; cbn [rstep] in H.
  - destruct (r_on s) eqn:E; [discriminate|]. apply Some_inj in H. subst s'. eexists. apply M_clock; [reflexivity..|exact E].
  - destruct (pstep pc l (r_p s)) as [| |p'] eqn:Ep; try discriminate. destruct l as [|q port r wr u|i okd hs u| | |c gl].
    + cbn [pstep] in Ep. destruct (Nat.ltb _ _); [|discriminate]. apply PWent_inj in Ep. subst p'. apply Some_inj in H. subst s'. eexists. apply M_accept; reflexivity.
    + destruct (nth_error (r_wait s) j) as [n|] eqn:Ej; [|discriminate]. cbn [pstep] in Ep. destruct (p_shake (r_p s)); [discriminate|]. cbv zeta in Ep. destruct (in_peer _) as [id|e| |]; try discriminate.
      * unfold new_handler in Ep. destruct (fresh_conn _ _ _ _ _ _) as [g0| | |] eqn:Eg; try discriminate. apply PWent_inj in Ep. subst p'. apply Some_inj in H. subst s'. eexists.
        eapply (M_new logs pc s _ (GIn n) _ _ _ g0 u); [reflexivity|reflexivity|eapply fresh_fresh; eassumption|left; exists j, n; repeat split; try reflexivity; exact Ej|].
        unfold greeted. rewrite <- !app_assoc. reflexivity.
      * apply PWent_inj in Ep. subst p'. apply Some_inj in H. subst s'. eexists. eapply (M_idle logs pc s _ (GIn n)); [reflexivity|reflexivity|]. right. left. eexists j, n, _, _. repeat split; try reflexivity. exact Ej.
    + destruct (nth_error (r_left s) i) as [n|] eqn:Ej; [|discriminate]. cbn [pstep] in Ep. destruct (nth_error (p_dial (r_p s)) i); [|discriminate]. cbv zeta in Ep.
      assert (HF : forall pp, p_conns pp = p_conns (r_p s) -> sh_lock (p_sh pp) = sh_lock (p_sh (r_p s)) -> p' = pp ->
        Some (mkr p' (r_on s) (r_next s) (r_wait s) (without i (r_left s)) (r_who s) (r_t s ++ by_ (GOut n) [Rd XSwarm] ++ lg logs (GOut n))) = Some s' -> exists es, moved logs pc s es s').
      { intros pp E1 E2 -> E. apply Some_inj in E. subst s'. eexists. eapply (M_idle logs pc s _ (GOut n)); [exact E1|exact E2|]. right. right. eexists i, n. repeat split; try reflexivity. exact Ej. }
      destruct okd; [|apply PWent_inj in Ep; eapply HF; [| |exact Ep|exact H]; reflexivity]. destruct (Nat.ltb _ _); [|discriminate]. destruct hs; [|apply PWent_inj in Ep; eapply HF; [| |exact Ep|exact H]; reflexivity].
      unfold new_handler in Ep. destruct (fresh_conn _ _ _ _ _ _) as [g0| | |] eqn:Eg; try discriminate. apply PWent_inj in Ep. subst p'. apply Some_inj in H. subst s'. eexists.
      eapply (M_new logs pc s _ (GOut n) _ _ _ g0 u); [reflexivity|reflexivity|eapply fresh_fresh; eassumption|right; exists i, n; repeat split; try reflexivity; exact Ej|reflexivity].
    + cbn [pstep] in Ep. destruct (p_drop (r_p s)); [discriminate|]. apply PWent_inj in Ep. subst p'. apply Some_inj in H. subst s'. exists []. rewrite <- (app_nil_r (r_t s)).
      apply (M_idle logs pc s _ GMain); [reflexivity|reflexivity|]. left. auto.
    + destruct (r_on s) eqn:E; [|discriminate]. cbn [pstep] in Ep. apply PWent_inj in Ep. subst p'. apply Some_inj in H. subst s'. eexists. apply M_tick; [reflexivity..|exact E].
    + destruct (nth_error (r_who s) c) as [w|] eqn:Ew; [|discriminate]. destruct (nth_error (p_conns (r_p s)) c) as [g|] eqn:Eg; [|discriminate]. apply Some_inj in H. subst s'.
      cbn [pstep] in Ep. rewrite Eg in Ep. destruct (gstep pc c (p_sh (r_p s)) g gl) as [| |sh g'] eqn:E; try discriminate. apply PWent_inj in Ep. subst p'. eexists.
      apply (M_conn logs pc s sh c w g g' gl); assumption.
Qed.
Lemma moved_t logs pc s es s' : moved logs pc s es s' -> r_t s' = r_t s ++ es.
Proof. intros H. inversion H; reflexivity. Qed.

(** ** Events of a step *)
Ltac ins := repeat match goal with
  | H : In _ (_ ++ _) |- _ => apply in_app_or in H; destruct H as [H|H]
  | H : In _ (by_ _ _) |- _ => unfold by_ in H; cbn [map] in H
  | H : In _ (lg ?l _) |- _ => unfold lg in H; destruct l
  | H : In _ [] |- _ => destruct H
  | H : In _ (_ :: _) |- _ => destruct H as [H|H]; [subst|]
  | H : In _ (match ?x with _ => _ end) |- _ => destruct x
  | H : In _ (if ?x then _ else _) |- _ => destruct x
  end.
Ltac hits := repeat match goal with
  | H : touches _ _ |- _ => unfold touches, access in H; cbn [snd] in H
  | H : _ \/ _ |- _ => destruct H as [H|H]
  | H : ?a _ = ?b _ |- _ => first [discriminate H | injection H as H]
  | H : ?a = _ |- _ => discriminate H
  end; subst.
(** Who acts in a step of connection c, and what it touches. *)
Definition actor (w : gid) (c : nat) (g : gid) : Prop := g = w \/ g = GPing c \/ g = GRecv c \/ g = GRead c \/ g = GReq c.
Lemma gev_actor logs pc w c g gl e : In e (gevents logs pc w c g gl) -> actor w c (fst e).
Proof.
  unfold actor. intros H. destruct gl; cbn [gevents] in H; try (ins; cbn; tauto).
  destruct (m_todo (g_m g)) as [|m r]; [destruct H|]. unfold handles in H. apply in_app_or in H. destruct H as [H|H]; [ins; cbn; tauto|]. destruct m; ins; cbn; tauto.
Qed.
Definition idx (x : loc) : option nat := match x with XPeer k | XBf k | XBuf k | XLoop k | XRecv k => Some k | _ => None end.
Lemma gev_idx logs pc w c g gl e x : In e (gevents logs pc w c g gl) -> touches x e -> idx x = None \/ idx x = Some c.
Proof.
  intros H Ht. destruct gl; cbn [gevents] in H; try (ins; hits; cbn; tauto).
  destruct (m_todo (g_m g)) as [|m r]; [destruct H|]. unfold handles in H. apply in_app_or in H. destruct H as [H|H]; [ins; hits; cbn; tauto|]. destruct m; ins; hits; cbn; tauto.
Qed.

(** ** Who is there *)
Definition alive (s : rstate) (g : gid) : Prop :=
  match g with
  | GMain | GListen | GClock => True
  | GIn n => In n (r_wait s) \/ In (GIn n) (r_who s)
  | GOut n => In n (r_left s) \/ In (GOut n) (r_who s)
  | GPing k | GRecv k | GReq k => (k < List.length (p_conns (r_p s)))%nat
  | GRead k => exists g, nth_error (p_conns (r_p s)) k = Some g /\ a_recv (g_a g) <> VNew
  end.
Definition whos (s : rstate) : Prop := forall w, In w (r_who s) -> (exists n, w = GIn n) \/ exists n, w = GOut n.
(** One connection. *)
Definition unlimited (v : vat) : Prop := match v with VLock | VSpin | VAdd => False | _ => True end.
Definition cok (pc : pconst) (g : gconn) : Prop :=
  (exists ds, jconn (Complete (sc_own (pc_c pc))) ds g) /\ (a_recv (g_a g) = VNew -> c_read (g_c g) = ReadLoopModel.RTop /\ c_buf (g_c g) = None /\ c_ready (g_c g) = false) /\
  (pc_rate pc = -1 -> unlimited (a_recv (g_a g))).
Definition conns_ok (pc : pconst) (s : rstate) : Prop := forall k g, nth_error (p_conns (r_p s)) k = Some g -> cok pc g.

Lemma fresh_cok pc g : fresh g -> cok pc g.
Proof. intros (H1 & H2 & H3 & H4 & H5). split; [eauto|]. split; [auto|]. rewrite H1. intros _. exact I. Qed.
Lemma new_step pc k sh g l sh' g' : gstep pc k sh g l = GWent sh' g' -> a_recv (g_a g') = VNew -> a_recv (g_a g) = VNew.
Proof.
  destruct g as [m [L P V Q n] h]. destruct l; cbn [gstep g_m g_a g_c a_loop a_ping a_recv a_req a_procs recv_at req_at]; cbv zeta; intros E; cases E; went E; cbn [g_a a_recv recv_at req_at]; intros E'; try discriminate; try assumption; try reflexivity.
  all: try match goal with H : context [match ?x with nil => VWork | cons _ _ => VWrite end] |- _ => destruct x end.
  all: try match goal with H : context [if ?x then VSend else VLock] |- _ => destruct x end.
  all: try match goal with H : context [match ?x with Some _ => _ | None => _ end] |- _ => destruct x end.
  all: discriminate.
Qed.
Lemma cok_step pc k sh g l sh' g' : gstep pc k sh g l = GWent sh' g' -> cok pc g -> cok pc g'.
Proof.
  intros H ((ds & HJ) & HN & HR). split; [exists (ds ++ decode_of g l); eapply jconn_step; eassumption|]. split.
  - intros E. pose proof (new_step _ _ _ _ _ _ _ H E) as E0. destruct (HN E0) as (A & B & C). clear HJ HN. destruct g as [m [L P V Q n] h]. cbn [g_a a_recv] in E0. subst V.
    destruct l; cbn [gstep g_m g_a g_c a_loop a_ping a_recv a_req a_procs recv_at req_at] in *; cbv zeta in H; rewrite ?A, ?B, ?C in H; try discriminate H; cases H; went H; cbn [g_a g_c a_recv recv_at req_at] in *; try discriminate; auto.
  - intros Er. specialize (HR Er). clear HJ HN. destruct g as [m [L P V Q n] h]. cbn [g_a a_recv] in HR.
    destruct l; cbn [gstep g_m g_a g_c a_loop a_ping a_recv a_req a_procs recv_at req_at] in *; cbv zeta in H; cases H; went H; cbn [g_a g_c a_recv recv_at req_at] in *; try exact I; try assumption; try destruct HR.
    all: try match goal with |- context [match ?x with nil => VWork | cons _ _ => VWrite end] => destruct x; exact I end.
    all: try match goal with |- context [match ?x with Some _ => _ | None => _ end] => destruct x; exact I end.
    all: match goal with H : (_ =? _) = false |- _ => rewrite Er in H; discriminate H end.
Qed.
Lemma without_in {A} : forall j (l : list A) x, In x (without j l) -> In x l.
Proof.
  unfold without. induction j as [|j IH]; intros [|a l] x H; cbn [firstn skipn app] in H; try exact H; [now right|]. destruct H as [H|H]; [now left|right; auto].
Qed.
(** The read loop acts only once it has been started. *)
Lemma gev_read logs pc w c sh g gl sh' g' e : gstep pc c sh g gl = GWent sh' g' -> cok pc g -> w <> GRead c -> In e (gevents logs pc w c g gl) -> fst e = GRead c -> a_recv (g_a g) <> VNew.
Proof.
  intros H (_ & HN & _) Hw Hin He Hv. destruct (HN Hv) as (A & B & C). destruct g as [m [L P V Q n] h]. cbn [g_a a_recv g_c] in *. subst V.
  destruct gl; cbn [gstep g_m g_a g_c a_loop a_ping a_recv a_req a_procs recv_at req_at] in H; cbv zeta in H; rewrite ?A, ?B, ?C in H; try discriminate H; cbn [gevents] in Hin; ins; cbn in He; congruence.
Qed.
Lemma acts_alive logs pc s es s' : moved logs pc s es s' -> List.length (r_who s) = List.length (p_conns (r_p s)) -> whos s -> conns_ok pc s -> forall e, In e es -> alive s (fst e).
Proof.
  intros H Hlen Hw Hc e Hin. destruct H as [p' E1 E2 E3|p' E1 E2 E3|p' E1 E2 es|p' g wait left es E1 E2 Hes|p' g wait left es g0 u pre mid E1 E2 Hf k Hes Ees|sh c w g g' gl Ew Eg Hg p es]; subst.
  - ins; exact I.
  - ins; exact I.
  - subst es. ins; exact I.
  - destruct Hes as [(-> & _)|[(j & n & a & b & -> & Hj & _ & _ & ->)|(j & n & -> & Hj & _ & _ & ->)]].
    + destruct Hin.
    + apply nth_error_In in Hj. unfold turned_away in Hin. ins; cbn; tauto.
    + apply nth_error_In in Hj. ins; cbn; tauto.
  - assert (Ha : alive s g) by (destruct Hes as [(j & n & -> & Hj & _)|(j & n & -> & Hj & _)]; apply nth_error_In in Hj; cbn; tauto).
    assert (He : fst e = g); [|rewrite He; exact Ha]. destruct Hes as [(j & n & -> & Hj & _ & _ & -> & ->)|(j & n & -> & Hj & _ & _ & -> & ->)]; unfold made_by, loop_starts in Hin; ins; reflexivity.
  - subst es p. pose proof (nth_lt _ _ _ Eg) as Hl. destruct (Hw w (nth_error_In _ _ Ew)) as [(n & Hn)|(n & Hn)];
    (destruct (gev_actor _ _ _ _ _ _ _ Hin) as [Ha|[Ha|[Ha|[Ha|Ha]]]]; [rewrite Ha, Hn; cbn; right; rewrite <- Hn; eapply nth_error_In; exact Ew|rewrite Ha; exact Hl|rewrite Ha; exact Hl| |rewrite Ha; exact Hl]);
    rewrite Ha; exists g; (split; [exact Eg|]); (eapply gev_read; [exact Hg|eapply Hc; exact Eg| |exact Hin|exact Ha]); congruence.
Qed.
(** Whoever is there now was there before or has just been started. *)
Lemma new_alive logs pc s es s' : moved logs pc s es s' -> List.length (r_who s) = List.length (p_conns (r_p s)) -> forall g, alive s' g -> alive s g \/ exists a, In (a, Go g) es.
Proof.
  intros H Hlen x Hx. destruct H as [p' E1 E2 E3|p' E1 E2 E3|p' E1 E2 es|p' g wait left es E1 E2 Hes|p' g wait left es g0 u pre mid E1 E2 Hf k Hes Ees|sh c w g g' gl Ew Eg Hg p es]; subst.
  - left. destruct x; cbn [alive r_wait r_who r_left r_p] in *; rewrite ?E1 in Hx; exact Hx.
  - left. destruct x; cbn [alive r_wait r_who r_left r_p] in *; rewrite ?E1 in Hx; exact Hx.
  - destruct x; cbn [alive r_wait r_who r_left r_p] in *; rewrite ?E1 in Hx; try (left; exact Hx). destruct Hx as [Hx|Hx]; [|left; now right]. apply in_app_or in Hx. destruct Hx as [Hx|[Hx|[]]]; [left; now left|].
    subst n. right. exists GListen. subst es. apply in_or_app. right. right. now left.
  - left. assert (Hi : forall n, In n wait -> In n (r_wait s)). { intros n Hn. destruct Hes as [(_ & -> & _)|[(j & m & a & b & _ & _ & -> & _)|(j & m & _ & _ & _ & -> & _)]]; try exact Hn. eapply without_in; exact Hn. }
    assert (Ho : forall n, In n left -> In n (r_left s)). { intros n Hn. destruct Hes as [(_ & _ & ->)|[(j & m & a & b & _ & _ & _ & -> & _)|(j & m & _ & _ & -> & _)]]; try exact Hn. eapply without_in; exact Hn. }
    destruct x; cbn [alive r_wait r_who r_left r_p] in *; rewrite ?E1 in Hx; try exact Hx; destruct Hx as [Hx|Hx]; auto.
  - assert (Hgo : forall y, y = GPing k \/ y = GRecv k \/ y = GReq k -> In (g, Go y) (pre ++ made_by g k ++ mid ++ loop_starts logs g k u)).
    { intros y Hy. do 3 (apply in_or_app; right). unfold loop_starts. do 2 (apply in_or_app; right). cbn. destruct Hy as [-> | [-> | ->]]; tauto. }
    assert (Hk : List.length (p_conns (r_p s)) = k) by reflexivity.
    destruct x; cbn [alive r_wait r_who r_left r_p] in *; try (left; exact I).
    + left. destruct Hx as [Hx|Hx].
      * left. destruct Hes as [(j & m & _ & _ & -> & _)|(j & m & _ & _ & _ & -> & _)]; try exact Hx. eapply without_in; exact Hx.
      * apply in_app_or in Hx. destruct Hx as [Hx|[Hx|[]]]; [now right|]. left. destruct Hes as [(j & m & E & Hj & _)|(j & m & E & _)]; [|congruence]. rewrite Hx in E. injection E as ->. eapply nth_error_In; exact Hj.
    + left. destruct Hx as [Hx|Hx].
      * left. destruct Hes as [(j & m & _ & _ & _ & -> & _)|(j & m & _ & _ & -> & _)]; try exact Hx. eapply without_in; exact Hx.
      * apply in_app_or in Hx. destruct Hx as [Hx|[Hx|[]]]; [now right|]. left. destruct Hes as [(j & m & E & _)|(j & m & E & Hj & _)]; [congruence|]. rewrite Hx in E. injection E as ->. eapply nth_error_In; exact Hj.
    + rewrite E1, app_length in Hx. cbn in Hx. destruct (Nat.eq_dec k0 k) as [->|Hne]; [right; exists g; apply Hgo; auto|left; lia].
    + rewrite E1, app_length in Hx. cbn in Hx. destruct (Nat.eq_dec k0 k) as [->|Hne]; [right; exists g; apply Hgo; auto|left; lia].
    + left. destruct Hx as (y & Hy & Hn). rewrite E1 in Hy. destruct (Nat.lt_ge_cases k0 k) as [Hl|Hl]; [rewrite nth_error_app1 in Hy by exact Hl; eauto|].
      rewrite nth_error_app2 in Hy by exact Hl. destruct (at_end (p_conns (r_p s)) _ _ _ Hl Hy) as [_ ->]. destruct Hf as [Hf _]. congruence.
    + rewrite E1, app_length in Hx. cbn in Hx. destruct (Nat.eq_dec k0 k) as [->|Hne]; [right; exists g; apply Hgo; auto|left; lia].
  - subst p. destruct x; cbn [alive r_wait r_who r_left r_p p_conns] in *; rewrite ?lupd_len in Hx; try (left; exact Hx).
    destruct Hx as (y & Hy & Hn). rewrite lupd_at in Hy. destruct (Nat.eqb k c) eqn:Ek; [|left; eauto]. apply Nat.eqb_eq in Ek. subst k. rewrite Eg in Hy. apply Some_inj in Hy. subst y.
    destruct (a_recv (g_a g)) eqn:Ev; try (left; exists g; split; [exact Eg|congruence]). right. exists (GRecv c). subst es.
    destruct g as [m [L P V Q n] h]. cbn [g_a a_recv] in Ev. subst V.
    destruct gl; cbn [gstep g_m g_a g_c a_loop a_ping a_recv a_req a_procs recv_at req_at] in Hg; cbv zeta in Hg; try discriminate Hg; cases Hg; went Hg; cbn [g_a a_recv recv_at req_at] in Hn; try (exfalso; apply Hn; reflexivity).
    cbn [gevents]. do 2 (apply in_or_app; right). cbn. tauto.
Qed.
