(** ProcProofs.v: the views of a process. *)
From Coq Require Import ZifyBool ZifyNat ZifyN.
From Verif Require Import Base BitfieldModel BitfieldSpec WireModel WireSpec HandshakeModel HandshakeProofs LayoutModel LayoutSpec DsModel PptModel PptSpec PptProofs PeerModel FsModel FsSpec SwarmModel SessionModel SessionSpec RunModel RunSpec RunProofs ProcModel ProcSpec.
From Verif Require LoopModel LoopSpec LoopProofs ReadLoopModel ReadLoopSpec ReadLoopProofs TimeModel.

(** ** Steps of one connection *)
Ltac cases E := repeat match type of E with
  | context [match ?x with _ => _ end] => let H := fresh "Ec" in destruct x eqn:H; try discriminate
  end.
Lemma GWent_inj a b a' b' : GWent a b = GWent a' b' -> a' = a /\ b' = b.
Proof. intros H. inversion H. auto. Qed.
Ltac went E := match type of E with GWent _ _ = GWent _ _ => apply GWent_inj in E; destruct E as [? ?]; subst end.
Ltac lv x := right; exists x; eexists; cbn; repeat match goal with H : LoopModel.add_panics _ _ = _ |- _ => cbn in H; rewrite H | H : LoopModel.wait_panics _ _ = _ |- _ => cbn in H; rewrite H end; reflexivity.
Lemma lv_step pc k sh g l sh' g' : gstep pc k sh g l = GWent sh' g' ->
  loop_view g' = loop_view g \/ exists l' e, LoopModel.step (LoopModel.NewSwarm_cfg (Complete (sc_own (pc_c pc)))) (loop_view g) l' = Some (loop_view g', e).
Proof.
  destruct g as [m [L P V Q n] h]. destruct l; cbn [gstep g_m g_a g_c a_loop a_ping a_recv a_req a_procs recv_at req_at]; cbv zeta; intros E; cases E; went E;
    unfold loop_view; cbn [g_m g_a g_c a_loop a_ping a_recv a_req a_procs recv_at req_at recv_view req_view]; try (left; reflexivity).
  all: try (first [lv LoopModel.LoopWait | lv LoopModel.LoopRelease | lv LoopModel.LoopAwake | lv LoopModel.PingStart | lv (LoopModel.PingTick false) | lv LoopModel.PingErr | lv LoopModel.PingDone | lv LoopModel.PingRet | lv LoopModel.RecvStart
    | lv LoopModel.RecvFail | lv LoopModel.RecvErr | lv LoopModel.RecvDone | lv LoopModel.RecvFinish | lv LoopModel.RecvRet | lv LoopModel.RecvQuiet | lv LoopModel.ReqStart | lv LoopModel.ReqRet]).
  lv LoopModel.ReqExit.
Qed.
Ltac rv x := right; exists x; eexists; split; [cbn; reflexivity|]; split; cbn; reflexivity.
(** What conn.Read returned and what recvLoop was handed, in this step. *)
Definition got_by (l : glabel) : list bytes := match l with GReadRet d e => match d, e with _ :: _, None => [d] | _, _ => [] end | _ => [] end.
Definition taken_by (l : glabel) (g' : gconn) : list bytes := match l with GTakeBuf => [firstn (c_len (g_c g')) (c_mem (g_c g'))] | _ => [] end.
Lemma rv_step pc k sh g l sh' g' : gstep pc k sh g l = GWent sh' g' ->
  c_got (g_c g') = c_got (g_c g) ++ got_by l /\
  ((read_view g' = read_view g /\ got_by l = [] /\ taken_by l g' = []) \/
   exists l' e, ReadLoopModel.step (read_view g) l' = Some (read_view g', e) /\ ReadLoopSpec.delivered e = got_by l /\ ReadLoopSpec.received e = taken_by l g').
Proof.
  destruct g as [m [L P V Q n] h]. destruct h as [b cb cr rd len got]. destruct l; cbn [gstep g_m g_a g_c a_loop a_ping a_recv a_req a_procs recv_at req_at c_got c_mem c_len c_buf c_ready c_read]; cbv zeta; intros E; cases E; went E;
    unfold read_view; cbn [g_m g_a g_c a_loop a_ping a_recv a_req a_procs recv_at req_at recv_view req_view].
  all: cbn [c_got c_mem c_len c_buf c_ready c_read got_by taken_by read_at con_view]; (split; [rewrite ?app_nil_r; reflexivity|]).
  all: try (left; repeat split; reflexivity).
  all: try (first [rv ReadLoopModel.TakeBuf | rv (ReadLoopModel.Handled None) | rv (ReadLoopModel.Handled (Some EIO)) | rv ReadLoopModel.PutReady | rv ReadLoopModel.Report | rv ReadLoopModel.Kill
    | rv ReadLoopModel.PastDeadline | rv (ReadLoopModel.SetDeadline true) | rv (ReadLoopModel.SetDeadline false) | rv ReadLoopModel.PutBuf | rv ReadLoopModel.TakeReady | rv ReadLoopModel.TakeDone | rv ReadLoopModel.PutErr]).
  all: try match goal with e : goerr |- _ => rv (ReadLoopModel.Handled (Some e)) end.
  - right. exists (ReadLoopModel.Scribble b0), []. cbn. rewrite Ec0. auto.
  - right. exists (ReadLoopModel.ReadRet [] e). eexists. cbn. repeat split; reflexivity.
  - right. match goal with H : Nat.leb (List.length ?d) _ = true |- context [ReadLoopModel.RSendErr (Some ?x)] => exists (ReadLoopModel.ReadRet d (Some x)) end. eexists. cbn in *. rewrite Ec0. repeat split; reflexivity.
  - right. match goal with H : Nat.leb (List.length ?d) _ = true |- _ => exists (ReadLoopModel.ReadRet d None) end. eexists. cbn in *. rewrite Ec0. repeat split; reflexivity.
Qed.

(** ** The memory of a connection agrees with where recvLoop is *)
Definition ok_conn (g : gconn) : Prop :=
  let m := g_m g in
  match a_recv (g_a g) with
  | VNew | VSelect | VGot | VReady None => m_todo m = [] /\ m_pend m = []
  | VWork => m_pend m = []
  | VWrite | VLock | VSpin | VAdd | VSend => m_pend m <> []
  | _ => True
  end.
Definition slab (k : nat) (g : gconn) (l : glabel) : option slabel :=
  match l with
  | GPingTick None => Some (SPing k)
  | GPingTick (Some n) => Some (SPingFail k n)
  | GDecode => Some (SDeliver k decode_fuel (mkslice (firstn (c_len (g_c g)) (c_mem (g_c g))) (skipn (c_len (g_c g)) (c_mem (g_c g)))))
  | GHandle => Some (SHandle k)
  | GSend None => Some (SWrite k)
  | GSend (Some n) => Some (SWriteFail k n)
  | GKill | GPutErr => Some (SEnd k)
  | GReqNext => Some (SNext k)
  | _ => None
  end.

Lemma lupd_same {A} : forall (l : list A) k x, nth_error l k = Some x -> lupd l k x = l.
Proof. induction l as [|a l IH]; intros [|k] x E; cbn in *; try discriminate; [congruence|]. f_equal. now apply IH. Qed.
Ltac dg := repeat match goal with |- match ?e with GBlocked => _ | GDied => _ | GWent _ _ => _ end => match e with context [match ?x with _ => _ end] => destruct x eqn:? end end.
(** A panic of the WaitGroup. *)
Definition wg_panic (g : gconn) (l : glabel) : Prop :=
  match l with
  | GPingStart => LoopModel.dies (loop_view g) LoopModel.PingStart = true
  | GRecvStart => LoopModel.dies (loop_view g) LoopModel.RecvStart = true
  | GReqStart => LoopModel.dies (loop_view g) LoopModel.ReqStart = true
  | GAwake => LoopModel.dies (loop_view g) LoopModel.LoopAwake = true
  | _ => False
  end.
Lemma sv_step pc k sh g l conns : nth_error conns k = Some (conn_view g) -> ok_conn g ->
  match gstep pc k sh g l with
  | GBlocked => True
  | GDied => (exists l', slab k g l = Some l' /\ sstep (pc_c pc) l' (mkss (sh_ppt sh) (sh_world sh) conns) = Died) \/ wg_panic g l
  | GWent sh' g' => ok_conn g' /\
    match slab k g l with
    | Some l' => sstep (pc_c pc) l' (mkss (sh_ppt sh) (sh_world sh) conns) = Went (mkss (sh_ppt sh') (sh_world sh') (lupd conns k (conn_view g')))
    | None => sh_ppt sh' = sh_ppt sh /\ sh_world sh' = sh_world sh /\ conn_view g' = conn_view g
    end
  end.
Proof.
  intros Hk Hok. destruct g as [m [L P V Q n] h]. destruct m as [mi mw mb mbuf mt md mp mu mo]. unfold ok_conn in Hok. cbn [g_m g_a a_recv m_todo m_pend] in Hok.
  unfold conn_view in Hk. cbn [g_m g_a m_in m_who m_bf m_buf m_todo m_done m_pend m_up m_out a_recv] in Hk.
  destruct l; cbn [gstep g_m g_a g_c a_loop a_ping a_recv a_req a_procs recv_at req_at m_in m_who m_bf m_buf m_todo m_done m_pend m_up m_out]; cbv zeta.
  all: dg; try exact I; try (right; subst; cbn; assumption || reflexivity); try match goal with |- _ \/ _ => left end; cbn [slab sstep ss_conns]; unfold ok_conn; cbn [ok_conn g_m g_a g_c a_recv m_todo m_pend m_done m_up recv_at req_at tx rx conn_view sh_ppt sh_world] in *.
  all: try (repeat split; try exact I; try tauto; try discriminate; fail).
  all: try (eexists; split; [reflexivity|]; cbn [sstep ss_conns]).
  all: try match type of Hok with _ /\ _ => destruct Hok as [-> ->] | ?x = [] => subst x end.
  all: rewrite ?Hk; cbn [receiving k_in k_who k_bf k_buf k_todo k_done k_pend k_recv k_up k_out]; unfold decode_one, handle_one, next_one; cbn [ss_ppt ss_world ss_conns k_in k_who k_bf k_buf k_todo k_done k_pend k_recv k_up k_out].
  all: repeat match goal with H : ?x = _ |- context [?x] => rewrite H end; cbn iota beta.
  all: try reflexivity. all: try (split; [try exact I; try tauto; try discriminate; try (split; congruence)|]).
  all: try (unfold put_conn; cbn [ss_ppt ss_world ss_conns]; reflexivity).
  all: try match goal with |- context [match ?x with nil => VWork | cons _ _ => VWrite end] => destruct x end.
  all: try match goal with |- context [if ?x then VSend else VLock] => destruct x end.
  all: try (exact I || assumption || discriminate || reflexivity || (repeat split; reflexivity)).
  all: try match goal with |- context [match ?x with Some _ => _ | None => _ end] => destruct x end; try exact I; try assumption; try (repeat split; reflexivity).
  all: f_equal; f_equal; symmetry; apply lupd_same; exact Hk.
Qed.

(** ** The whole process *)
Lemma map_lupd {A C} (f : A -> C) : forall l k x, map f (lupd l k x) = lupd (map f l) k (f x).
Proof. induction l as [|a l IH]; intros [|k] x; cbn; [reflexivity..|]. now rewrite IH. Qed.
Lemma lupd_at {A} : forall (l : list A) k x j, nth_error (lupd l k x) j = if Nat.eqb j k then match nth_error l k with Some _ => Some x | None => None end else nth_error l j.
Proof.
  induction l as [|a l IH]; intros [|k] x [|j]; cbn [lupd nth_error Nat.eqb]; try reflexivity. - destruct (Nat.eqb j k); reflexivity. - apply IH.
Qed.
Definition plab (s : pstate) (l : plabel) : option slabel :=
  match l with
  | PShake p port r wr u => Some (SAccept p port r wr u)
  | PDial i true true u => match nth_error (p_dial s) i with Some p => Some (SDial p u) | None => None end
  | PConn k l => match nth_error (p_conns s) k with Some g => slab k g l | None => None end
  | _ => None
  end.
Definition ok_all (s : pstate) : Prop := Forall ok_conn (p_conns s).
Lemma fresh_view c inc ptr key sent u :
  match fresh_conn c inc ptr key sent u with
  | Ok g => new_conn c inc ptr key sent u = Ok (conn_view g) /\ ok_conn g
  | Err e => new_conn c inc ptr key sent u = Err e
  | Panic => new_conn c inc ptr key sent u = Panic
  | NoFuel => new_conn c inc ptr key sent u = NoFuel
  end.
Proof. unfold fresh_conn, new_conn. destruct (NewBitfield _) as [bf| | |]; cbn [bind]; try reflexivity. split; [destruct u; reflexivity|]. cbn. auto. Qed.
Lemma pv_step pc l s : ok_all s ->
  match pstep pc l s with
  | PBlocked => True
  | PDied => (exists l', plab s l = Some l' /\ sstep (pc_c pc) l' (run_view s) = Died) \/ (l = PAccept /\ (pc_socks pc <= sockets s)%nat) \/
             exists k gl g, l = PConn k gl /\ nth_error (p_conns s) k = Some g /\ wg_panic g gl
  | PWent s' => ok_all s' /\ match plab s l with Some l' => sstep (pc_c pc) l' (run_view s) = Went (run_view s') | None => run_view s' = run_view s end
  end.
Proof.
  intros Hok. assert (Hnew : forall sk dl inc ptr key sent u, match new_handler s sk dl (fresh_conn (pc_c pc) inc ptr key sent u) with
    | PBlocked => True | PDied => add_conn (run_view s) (new_conn (pc_c pc) inc ptr key sent u) = Died
    | PWent s' => ok_all s' /\ add_conn (run_view s) (new_conn (pc_c pc) inc ptr key sent u) = Went (run_view s') end).
  { intros. pose proof (fresh_view (pc_c pc) inc ptr key sent u) as H. unfold new_handler. destruct (fresh_conn (pc_c pc) inc ptr key sent u) as [g| | |]; try exact I.
    - destruct H as [H1 H2]. rewrite H1. split; [apply Forall_app; auto|]. unfold run_view. cbn. rewrite map_app. reflexivity.
    - rewrite H. reflexivity. }
  destruct l as [|p port r wr u|i okd hs u| | |k l]; cbn [pstep plab]; cbv zeta.
  - destruct (Nat.ltb _ _) eqn:E; [split; [exact Hok|reflexivity]|]. right. left. split; [reflexivity|]. apply Nat.ltb_ge in E. exact E.
  - destruct (p_shake s) as [|n]; [exact I|]. cbn [sstep]. unfold accept_one. cbv zeta. destruct (in_peer _) as [id|e| |] eqn:E; try exact I.
    + specialize (Hnew n (p_dial s) true (List.length (p_conns s)) (Key (MakePeer id p port)) (in_sent (FromIncoming (sc_ih (pc_c pc)) (sc_id (pc_c pc)) (sc_own (pc_c pc)) r wr)) u).
      destruct (new_handler _ _ _ _); [exact I|left|]; cbn [ss_conns run_view]; rewrite ?map_length; [|exact Hnew].
      eexists; split; [reflexivity|]. cbn [sstep ss_conns]. unfold accept_one. cbv zeta. rewrite E. cbn [ss_conns run_view]. rewrite map_length. exact Hnew.
    + split; [exact Hok|reflexivity].
    + left. eexists. split; [reflexivity|]. cbn [sstep]. unfold accept_one. cbv zeta. rewrite E. reflexivity.
  - destruct (nth_error (p_dial s) i) as [p|] eqn:Ei; [|exact I]. destruct okd; [|split; [exact Hok|reflexivity]]. destruct (Nat.ltb _ _); [|exact I]. destruct hs; [|split; [exact Hok|reflexivity]].
    match goal with |- context [new_handler s ?a ?b (fresh_conn _ ?d ?e ?f ?g u)] => specialize (Hnew a b d e f g u) end. destruct (new_handler _ _ _ _); [exact I|left|]; cbn [sstep ss_conns run_view]; rewrite ?map_length; [|exact Hnew].
    eexists; split; [reflexivity|]. cbn [sstep ss_conns run_view]. rewrite map_length. exact Hnew.
  - destruct (p_drop s); [exact I|]. split; [exact Hok|reflexivity].
  - split; [exact Hok|reflexivity].
  - destruct (nth_error (p_conns s) k) as [g|] eqn:Ek; [|exact I]. pose proof (sv_step pc k (p_sh s) g l (map conn_view (p_conns s))) as H.
    rewrite nth_error_map, Ek in H. specialize (H eq_refl). assert (Hg : ok_conn g) by (apply nth_error_In in Ek; unfold ok_all in Hok; rewrite Forall_forall in Hok; auto). specialize (H Hg).
    destruct (gstep pc k (p_sh s) g l) as [| |sh g']; [exact I|destruct H as [H|H]; [left; exact H|right; right; exists k, l, g; auto]|]. destruct H as [H1 H2]. split.
    + unfold ok_all in *. cbn [p_conns]. rewrite Forall_forall in *. intros x Hx. apply In_nth_error in Hx. destruct Hx as [j Hj]. rewrite lupd_at in Hj. destruct (Nat.eqb j k).
      * rewrite Ek in Hj. inversion Hj; subst. assumption.
      * apply nth_error_In in Hj. auto.
    + destruct (slab k g l); unfold run_view; cbn [p_sh p_conns]; rewrite map_lupd; [exact H2|]. destruct H2 as (A1 & A2 & A3). rewrite A1, A2, A3. rewrite lupd_same; [reflexivity|]. rewrite nth_error_map, Ek. reflexivity.
Qed.

(** ** What is true of every connection of a run *)
Definition in_hand (g : gconn) : list bytes := match a_recv (g_a g) with VGot => [firstn (c_len (g_c g)) (c_mem (g_c g))] | _ => [] end.
Definition shown (ds : list (nat * gslice)) : list bytes := map (fun d => vis (snd d)) ds.
Definition jconn (comp : bool) (ds : list (nat * gslice)) (g : gconn) : Prop :=
  List.length (c_mem (g_c g)) = RecvBufSize /\
  (exists rls tr, ReadLoopModel.run (ReadLoopModel.init (FsModel.zeros (Z.of_nat RecvBufSize))) rls = Some (read_view g, tr) /\
    ReadLoopSpec.delivered tr = c_got (g_c g) /\ ReadLoopSpec.received tr = shown ds ++ in_hand g) /\
  exists lls ltr, LoopModel.run (LoopModel.NewSwarm_cfg comp) LoopModel.init lls = Some (loop_view g, ltr).
Lemma loop_run_app c l1 : forall s l2 s1 e1 s2 e2, LoopModel.run c s l1 = Some (s1, e1) -> LoopModel.run c s1 l2 = Some (s2, e2) -> LoopModel.run c s (l1 ++ l2) = Some (s2, e1 ++ e2).
Proof.
  induction l1 as [|a l1 IH]; intros s l2 s1 e1 s2 e2 H1 H2; cbn in *.
  - inversion H1; subst. exact H2.
  - destruct (LoopModel.step c s a) as [[s' e]|]; [|discriminate]. destruct (LoopModel.run c s' l1) as [[s'' e'']|] eqn:E; [|discriminate]. inversion H1; subst. rewrite (IH _ _ _ _ _ _ E H2), app_assoc. reflexivity.
Qed.
Lemma overwrite_length b d : (List.length d <= List.length b)%nat -> List.length (ReadLoopModel.overwrite b d) = List.length b.
Proof. intros H. unfold ReadLoopModel.overwrite. rewrite app_length, skipn_length. lia. Qed.
Lemma mem_step pc k sh g l sh' g' : gstep pc k sh g l = GWent sh' g' -> List.length (c_mem (g_c g')) = List.length (c_mem (g_c g)) /\
  (c_read (g_c g) <> ReadLoopModel.RRead -> c_mem (g_c g') = c_mem (g_c g)) /\ (l <> GTakeBuf -> c_len (g_c g') = c_len (g_c g)).
Proof.
  destruct g as [m [L P V Q n] h]. destruct l; cbn [gstep g_m g_a g_c a_loop a_ping a_recv a_req a_procs recv_at req_at]; cbv zeta; intros E; cases E; went E; cbn [g_c c_mem c_len c_read read_at]; try (split; [reflexivity|split; intros; (reflexivity || congruence)]).
  - split; [apply Nat.eqb_eq; assumption|]. split; [congruence|reflexivity].
  - split; [apply overwrite_length; apply Nat.leb_le; assumption|]. split; [congruence|reflexivity].
  - split; [apply overwrite_length; apply Nat.leb_le; assumption|]. split; [congruence|reflexivity].
Qed.
(** What is in recvLoop's hand. *)
Definition decode_of (g : gconn) (l : glabel) : list (nat * gslice) :=
  match l with GDecode => [(decode_fuel, mkslice (firstn (c_len (g_c g)) (c_mem (g_c g))) (skipn (c_len (g_c g)) (c_mem (g_c g))))] | _ => [] end.
Lemma hand_step pc k sh g l sh' g' : gstep pc k sh g l = GWent sh' g' -> (a_recv (g_a g) = VGot -> c_read (g_c g) <> ReadLoopModel.RRead) ->
  in_hand g ++ taken_by l g' = shown (decode_of g l) ++ in_hand g'.
Proof.
  intros H Hr. pose proof (mem_step _ _ _ _ _ _ _ H) as (_ & Hm & Hl). destruct g as [m [L P V Q n] h].
  destruct l; cbn [gstep g_m g_a g_c a_loop a_ping a_recv a_req a_procs recv_at req_at] in *; cbv zeta in H; cases H; went H;
    unfold in_hand; cbn [decode_of taken_by g_a g_c a_recv recv_at req_at shown map app snd vis c_mem c_len c_read read_at fst] in *;
    try match goal with v : vat |- _ => destruct v; try discriminate end; cbn [app]; try reflexivity; rewrite ?app_nil_r; try reflexivity; try (exfalso; apply Hr; (reflexivity || assumption)).
  all: try match goal with |- context [match ?x with nil => VWork | cons _ _ => VWrite end] => destruct x end.
  all: try match goal with |- context [if ?x then VSend else VLock] => destruct x end.
  all: try match goal with |- context [match ?x with Some _ => _ | None => _ end] => destruct x end.
  all: try reflexivity.
Qed.

Lemma jconn_step pc k sh g l sh' g' ds : gstep pc k sh g l = GWent sh' g' -> jconn (Complete (sc_own (pc_c pc))) ds g -> jconn (Complete (sc_own (pc_c pc))) (ds ++ decode_of g l) g'.
Proof.
  intros H (Hm & (rls & tr & Hr & Hd & Hc) & lls & ltr & Hl).
  assert (Hx : a_recv (g_a g) = VGot -> c_read (g_c g) <> ReadLoopModel.RRead).
  { intros Ev Er. apply (ReadLoopProofs.exclusive_top _ _ _ _ Hr). split; [exact Er|]. exists (c_len (g_c g)). unfold read_view. cbn. now rewrite Ev. }
  pose proof (mem_step _ _ _ _ _ _ _ H) as (Hm' & _). pose proof (hand_step _ _ _ _ _ _ _ H Hx) as Hh. split; [congruence|]. split.
  - destruct (rv_step _ _ _ _ _ _ _ H) as [Hg [(Hv & Hn & Ht)|(l' & e & Hs & He & Ht)]].
    + exists rls, tr. rewrite Hv. split; [exact Hr|]. rewrite Hg, Hn, app_nil_r. split; [exact Hd|]. rewrite Ht, app_nil_r in Hh. rewrite Hc, Hh. unfold shown. rewrite map_app, app_assoc. reflexivity.
    + exists (rls ++ [l']), (tr ++ e). split.
      * apply (ReadLoopProofs.run_app _ _ _ _ _ _ _ Hr). cbn. rewrite Hs, app_nil_r. reflexivity.
      * rewrite ReadLoopProofs.delivered_app, ReadLoopProofs.received_app, Hd, He, Hg, Hc, Ht. split; [reflexivity|]. rewrite <- app_assoc, Hh. unfold shown. rewrite map_app, app_assoc. reflexivity.
  - destruct (lv_step _ _ _ _ _ _ _ H) as [Hv|(l' & e & Hs)]; [rewrite Hv; eauto|]. exists (lls ++ [l']), (ltr ++ e). apply (loop_run_app _ _ _ _ _ _ _ _ Hl). cbn [LoopModel.run]. rewrite Hs, app_nil_r. reflexivity.
Qed.
Record pinv (pc : pconst) (t0 : ppt) (w0 : world) (ls' : list slabel) (s : pstate) : Prop := {
  v_ok : ok_all s;
  v_run : srun (pc_c pc) ls' (mkss t0 w0 []) = Some (run_view s);
  v_fair : Forall fair ls';
  v_conn : forall k g, nth_error (p_conns s) k = Some g -> jconn (Complete (sc_own (pc_c pc))) (RunSpec.delivered k ls') g;
  v_new : forall k, (List.length (p_conns s) <= k)%nat -> RunSpec.delivered k ls' = [] }.
Lemma Ok_eq {A} (x y : A) : Ok x = Ok y -> y = x.
Proof. intros E. inversion E. reflexivity. Qed.
Lemma fresh_jconn c inc ptr key sent u g comp : fresh_conn c inc ptr key sent u = Ok g -> jconn comp [] g.
Proof.
  unfold fresh_conn. destruct (NewBitfield _); cbn [bind]; try discriminate. intros E. apply Ok_eq in E. rewrite E. unfold jconn, read_view, loop_view, in_hand, shown. cbn [g_c c_mem g_a a_recv a_loop a_ping a_req a_procs c_buf c_ready c_read con_view recv_view req_view c_got].
  split; [unfold FsModel.zeros; rewrite repeat_length, Nat2Z.id; reflexivity|]. split; [exists [], []; repeat split; reflexivity|]. exists [], []. reflexivity.
Qed.
Lemma slab_deliver k g l k' f b : slab k g l = Some (SDeliver k' f b) -> k' = k /\ decode_of g l = [(f, b)].
Proof. destruct l; cbn; try discriminate. 1: destruct f0; discriminate. - intros E. inversion E; subst. auto. - destruct f0; discriminate. Qed.
Lemma slab_fair k g l l' : (List.length (c_mem (g_c g)) = RecvBufSize) -> slab k g l = Some l' -> fair l'.
Proof.
  intros Hm E. destruct l; try destruct f; cbn in E; inversion E; subst; try exact I. cbn [fair vis]. unfold zlen. rewrite firstn_length. pose proof (Nat.le_min_r (c_len (g_c g)) (List.length (c_mem (g_c g)))) as H. rewrite Hm in *.
  assert (Z.of_nat RecvBufSize < 4294967296) by (vm_compute; reflexivity). lia.
Qed.
Lemma slab_quiet k g l : delivered k match slab k g l with Some l' => [l'] | None => [] end = decode_of g l.
Proof. destruct l; try destruct f; cbn; try reflexivity. rewrite Nat.eqb_refl. reflexivity. Qed.
Lemma slab_other k g l j : j <> k -> delivered j match slab k g l with Some l' => [l'] | None => [] end = [].
Proof. intros H. destruct l; try destruct f; cbn; try reflexivity. destruct (Nat.eqb k j) eqn:E; [apply Nat.eqb_eq in E; congruence|reflexivity]. Qed.
Definition plabs (s : pstate) (l : plabel) : list slabel := match plab s l with Some l' => [l'] | None => [] end.
Lemma lupd_len {A} : forall (l : list A) k x, List.length (lupd l k x) = List.length l.
Proof. induction l as [|a l IH]; intros [|k] x; cbn; congruence. Qed.
Lemma pinv_step pc t0 w0 ls' s l s' : pinv pc t0 w0 ls' s -> pfair l -> pstep pc l s = PWent s' -> pinv pc t0 w0 (ls' ++ plabs s l) s'.
Proof.
  intros [Hok Hrun Hf Hc Hn] Hpf H. pose proof (pv_step pc l s Hok) as Hv. rewrite H in Hv. destruct Hv as [Hok' Hv].
  assert (Hrun' : srun (pc_c pc) (ls' ++ plabs s l) (mkss t0 w0 []) = Some (run_view s')).
  { rewrite srun_app, Hrun. unfold plabs. destruct (plab s l); cbn [srun]; [rewrite Hv; reflexivity|now rewrite Hv]. }
  destruct l as [|p port r wr u|i okd hs u| | |k l].
  - cbn [pstep] in H. destruct (Nat.ltb _ _); [|discriminate]. inversion H; subst. unfold plabs in *. cbn [plab] in *. rewrite app_nil_r in *. split; assumption.
  - assert (Hq : forall j, delivered j (ls' ++ plabs s (PShake p port r wr u)) = delivered j ls') by (intros j; rewrite delivered_app; cbn; apply app_nil_r).
    assert (Hf' : Forall fair (ls' ++ plabs s (PShake p port r wr u))) by (apply Forall_app; split; [assumption|constructor; [exact Hpf|constructor]]).
    cbn [pstep] in H. destruct (p_shake s) as [|n]; [discriminate|]. cbv zeta in H. destruct (in_peer _) as [id|e| |]; try discriminate.
    + unfold new_handler in H. destruct (fresh_conn _ _ _ _ _ _) as [g| | |] eqn:Eg; try discriminate. inversion H; subst. split; [assumption..| |]; intros j.
      * intros g' Ej. rewrite Hq. cbn [p_conns] in Ej. destruct (Nat.lt_ge_cases j (List.length (p_conns s))) as [Hj|Hj].
        -- rewrite nth_error_app1 in Ej by assumption. auto.
        -- rewrite nth_error_app2 in Ej by assumption. rewrite (Hn j Hj). destruct (j - List.length (p_conns s))%nat as [|x]; [|destruct x; discriminate]. inversion Ej; subst. eapply fresh_jconn; eassumption.
      * cbn [p_conns]. rewrite app_length. intros Hj. rewrite Hq. apply Hn. lia.
    + inversion H; subst. split; [assumption..| |]; intros j; rewrite Hq; [apply Hc|apply Hn].
  - assert (Hq : forall j, delivered j (ls' ++ plabs s (PDial i okd hs u)) = delivered j ls') by (intros j; rewrite delivered_app; unfold plabs; cbn; destruct okd, hs; try destruct (nth_error _ _); apply app_nil_r).
    assert (Hf' : Forall fair (ls' ++ plabs s (PDial i okd hs u))) by (apply Forall_app; split; [assumption|unfold plabs; cbn; destruct okd, hs; try destruct (nth_error _ _); repeat constructor]).
    cbn [pstep] in H. destruct (nth_error (p_dial s) i); [|discriminate]. cbv zeta in H. destruct okd.
    2: { inversion H; subst. split; [assumption..| |]; intros j; rewrite Hq; [apply Hc|apply Hn]. }
    destruct (Nat.ltb _ _); [|discriminate]. destruct hs.
    2: { inversion H; subst. split; [assumption..| |]; intros j; rewrite Hq; [apply Hc|apply Hn]. }
    unfold new_handler in H. destruct (fresh_conn _ _ _ _ _ _) as [g| | |] eqn:Eg; try discriminate. inversion H; subst. split; [assumption..| |]; intros j.
    * intros g' Ej. rewrite Hq. cbn [p_conns] in Ej. destruct (Nat.lt_ge_cases j (List.length (p_conns s))) as [Hj|Hj].
      -- rewrite nth_error_app1 in Ej by assumption. auto.
      -- rewrite nth_error_app2 in Ej by assumption. rewrite (Hn j Hj). destruct (j - List.length (p_conns s))%nat as [|x]; [|destruct x; discriminate]. inversion Ej; subst. eapply fresh_jconn; eassumption.
    * cbn [p_conns]. rewrite app_length. intros Hj. rewrite Hq. apply Hn. lia.
  - cbn [pstep] in H. destruct (p_drop s); [discriminate|]. inversion H; subst. unfold plabs in *. cbn [plab] in *. rewrite app_nil_r in *. split; assumption.
  - inversion H; subst. unfold plabs in *. cbn [plab] in *. rewrite app_nil_r in *. split; assumption.
  - unfold plabs in *. cbn [pstep plab] in *. destruct (nth_error (p_conns s) k) as [g|] eqn:Ek; [|discriminate]. destruct (gstep pc k (p_sh s) g l) as [| |sh g'] eqn:Eg; try discriminate. inversion H; subst.
    pose proof (Hc k g Ek) as Hj. split; [assumption..| | |].
    + apply Forall_app. split; [assumption|]. destruct (slab k g l) as [l'|] eqn:El; repeat constructor. apply (slab_fair k g l l'); [apply Hj|exact El].
    + cbn [p_conns]. intros j g1 E1. rewrite delivered_app. rewrite lupd_at in E1. destruct (Nat.eqb j k) eqn:Ejk.
      * apply Nat.eqb_eq in Ejk. subst j. rewrite Ek in E1. inversion E1; subst. rewrite slab_quiet. eapply jconn_step; eassumption.
      * apply Nat.eqb_neq in Ejk. rewrite (slab_other k g l j Ejk), app_nil_r. auto.
    + cbn [p_conns]. rewrite lupd_len. intros j Hj2. rewrite delivered_app, (Hn j Hj2). apply slab_other. intros ->. assert (nth_error (p_conns s) k = None) by (apply nth_error_None; lia). congruence.
Qed.
Lemma pinv_run pc t0 w0 : forall ls ls' s s', pinv pc t0 w0 ls' s -> Forall pfair ls -> prun pc ls s = Some s' -> exists ls2, pinv pc t0 w0 ls2 s'.
Proof.
  induction ls as [|l ls IH]; intros ls' s s' Hi Hf H; cbn in H; [inversion H; subst; eauto|]. inversion Hf; subst. destruct (pstep pc l s) as [| |s1] eqn:E; try discriminate. apply (IH _ _ _ (pinv_step _ _ _ _ _ _ _ Hi H2 E) H3 H).
Qed.
Lemma pinv_start pc t0 w0 peers : pinv pc t0 w0 [] (started t0 w0 peers).
Proof. split; [constructor|reflexivity|constructor|intros [|k]; discriminate|reflexivity]. Qed.

(** ** The lock *)
Definition hold (s : pstate) (k : nat) : bool := match nth_error (p_conns s) k with Some g => holding (a_recv (g_a g)) | None => false end.
Definition linv (s : pstate) : Prop := forall k, sh_lock (p_sh s) = Some k <-> hold s k = true.
Lemma lock_step pc k sh g l sh' g' : gstep pc k sh g l = GWent sh' g' ->
  (sh_lock sh' = sh_lock sh /\ holding (a_recv (g_a g')) = holding (a_recv (g_a g))) \/
  (sh_lock sh = None /\ sh_lock sh' = Some k /\ holding (a_recv (g_a g)) = false /\ holding (a_recv (g_a g')) = true) \/
  (sh_lock sh' = None /\ holding (a_recv (g_a g)) = true /\ holding (a_recv (g_a g')) = false).
Proof.
  destruct g as [m [L P V Q n] h]. destruct l; cbn [gstep g_m g_a g_c a_loop a_ping a_recv a_req a_procs recv_at req_at]; cbv zeta; intros E; cases E; went E; cbn [g_a a_recv recv_at req_at sh_lock];
    try (left; split; reflexivity); try (right; left; repeat split; (reflexivity || assumption)); try (right; right; repeat split; reflexivity).
  all: left; split; try reflexivity.
  all: try match goal with |- context [match ?x with nil => VWork | cons _ _ => VWrite end] => destruct x end.
  all: try match goal with |- context [if ?x then VSend else VLock] => destruct x end.
  all: try match goal with |- context [match ?x with Some _ => _ | None => _ end] => destruct x end.
  all: try reflexivity.
Qed.
Lemma linv_same s s' : linv s -> sh_lock (p_sh s') = sh_lock (p_sh s) -> (forall k, hold s' k = hold s k) -> linv s'.
Proof. intros H E1 E2 k. rewrite E1, E2. apply H. Qed.
Lemma hold_add s g sh a b c : holding (a_recv (g_a g)) = false -> forall k, hold (mkps sh a b c (p_conns s ++ [g])) k = hold s k.
Proof.
  intros Hg k. unfold hold. cbn [p_conns]. destruct (Nat.lt_ge_cases k (List.length (p_conns s))) as [Hk|Hk]; [rewrite nth_error_app1 by assumption; reflexivity|]. rewrite nth_error_app2 by assumption.
  assert (E : nth_error (p_conns s) k = None) by (apply nth_error_None; assumption). rewrite E. destruct (k - List.length (p_conns s))%nat as [|x]; cbn; [exact Hg|destruct x; reflexivity].
Qed.
Lemma fresh_hold c inc ptr key sent u g : fresh_conn c inc ptr key sent u = Ok g -> a_recv (g_a g) = VNew.
Proof. unfold fresh_conn. destruct (NewBitfield _); cbn [bind]; try discriminate. intros E. apply Ok_eq in E. rewrite E. reflexivity. Qed.
Lemma linv_step pc l s s' : linv s -> pstep pc l s = PWent s' -> linv s'.
Proof.
  intros Hi H. assert (Hnew : forall sk dl r, (forall g, r = Ok g -> a_recv (g_a g) = VNew) -> new_handler s sk dl r = PWent s' -> linv s').
  { intros sk dl r Hr E. unfold new_handler in E. destruct r as [g| | |]; try discriminate. inversion E; subst. apply (linv_same s); [exact Hi|reflexivity|]. apply hold_add. rewrite (Hr g eq_refl). reflexivity. }
  destruct l as [|p port r wr u|i okd hs u| | |k l]; cbn [pstep] in H; cbv zeta in H.
  - destruct (Nat.ltb _ _); [|discriminate]. inversion H; subst. exact Hi.
  - destruct (p_shake s); [discriminate|]. destruct (in_peer _); try discriminate; [|inversion H; subst; exact Hi]. eapply Hnew; [|exact H]. intros g. apply fresh_hold.
  - destruct (nth_error (p_dial s) i); [|discriminate]. destruct okd; [|inversion H; subst; exact Hi]. destruct (Nat.ltb _ _); [|discriminate]. destruct hs; [|inversion H; subst; exact Hi]. eapply Hnew; [|exact H]. intros g. apply fresh_hold.
  - destruct (p_drop s); [discriminate|]. inversion H; subst. exact Hi.
  - inversion H; subst. exact Hi.
  - destruct (nth_error (p_conns s) k) as [g|] eqn:Ek; [|discriminate]. destruct (gstep pc k (p_sh s) g l) as [| |sh g'] eqn:Eg; try discriminate. inversion H; subst. clear H Hnew.
    assert (Hh : forall j, hold {| p_sh := sh; p_shake := p_shake s; p_drop := p_drop s; p_dial := p_dial s; p_conns := lupd (p_conns s) k g' |} j = if Nat.eqb j k then holding (a_recv (g_a g')) else hold s j).
    { intros j. unfold hold. cbn [p_conns]. rewrite lupd_at, Ek. destruct (Nat.eqb j k); reflexivity. }
    assert (Hk : hold s k = holding (a_recv (g_a g))) by (unfold hold; rewrite Ek; reflexivity).
    intros j. rewrite Hh. cbn [p_sh]. pose proof (Hi j) as Hj. pose proof (Hi k) as Hik. rewrite Hk in Hik.
    destruct (lock_step _ _ _ _ _ _ _ Eg) as [(A & B)|[(A & B & C & D)|(A & B & C)]].
    + rewrite A, B. destruct (Nat.eqb j k) eqn:E; [|exact Hj]. apply Nat.eqb_eq in E. subst j. exact Hik.
    + rewrite B, D. rewrite A in Hj. destruct (Nat.eqb j k) eqn:E; [apply Nat.eqb_eq in E; subst; split; reflexivity|]. apply Nat.eqb_neq in E. split; [intros F; inversion F; congruence|]. intros F. apply Hj in F. discriminate.
    + rewrite A, C. apply Hik in B. split; [discriminate|]. destruct (Nat.eqb j k) eqn:E; [discriminate|]. apply Nat.eqb_neq in E. intros F. apply Hj in F. congruence.
Qed.
Lemma linv_run pc : forall ls s s', linv s -> prun pc ls s = Some s' -> linv s'.
Proof. induction ls as [|l ls IH]; intros s s' Hi H; cbn in H; [inversion H; subst; exact Hi|]. destruct (pstep pc l s) as [| |s1] eqn:E; try discriminate. exact (IH _ _ (linv_step _ _ _ _ Hi E) H). Qed.
Lemma linv_start t w peers : linv (started t w peers).
Proof. intros k. unfold hold, started. cbn. destruct k; split; discriminate. Qed.
Lemma prun_app pc l1 : forall s l2, prun pc (l1 ++ l2) s = match prun pc l1 s with Some s1 => prun pc l2 s1 | None => None end.
Proof. induction l1 as [|l l1 IH]; intros s l2; cbn; [reflexivity|]. destruct (pstep pc l s); auto. Qed.
