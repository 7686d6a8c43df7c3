(** LogTextProofs.v: the bytes of the log, and the log of NewSwarm. *)
From Coq Require Import ZifyBool ZifyNat ZifyN.
From Verif Require Import Base BencodeModel BitfieldModel BitfieldSpec WireModel WireSpec HandshakeModel LayoutModel DsModel PptModel PeerModel PeerProofs UtilsModel TrackerModel FsModel SwarmModel SessionModel RunModel ProcModel ProcSpec StartModel LogModel LogSpec LogProofs LogRunProofs.
From Verif Require LoopModel ReadLoopModel.
Local Opaque decode_fuel RecvBufSize.

(** ** Lines *)
Definition plainb (b : bytes) : bool := forallb (fun c => negb (Byte.eqb c x0a)) b.
Lemma plainb_ok b : plainb b = true -> plain b.
Proof. unfold plainb, plain. rewrite forallb_forall. intros H Hi. specialize (H _ Hi). rewrite (proj2 (Byte_eqb_eq _ _) eq_refl) in H. discriminate. Qed.
Lemma plain_app a b : plain a -> plain b -> plain (a ++ b).
Proof. unfold plain. rewrite in_app_iff. tauto. Qed.
Lemma plain_itoa z : plain (itoa z).
Proof. apply itoa_no; [left; reflexivity|discriminate]. Qed.
Lemma plain_ip p : plain (IPString p).
Proof. apply IPString_no. reflexivity. Qed.
Lemma plain_addr p port : plain (TCPAddrString p port).
Proof.
  unfold TCPAddrString. assert (H : plain match p with [] => [] | _ => IPString p end) by (destruct p; [intros []|apply plain_ip]). destruct (has _ _); repeat apply plain_app; try exact H; try apply plain_itoa; apply plainb_ok; reflexivity.
Qed.
Lemma plain_made i : made_peer i -> plain (Addr i) /\ (plain (pi_id i) -> plain (Key i)).
Proof.
  intros (id & p & port & ->). unfold Addr, Key, MakePeer. cbn [pi_addr pi_str pi_id]. split; [|intros H]; repeat apply plain_app; try exact H; try apply plain_ip; try apply plain_itoa; apply plainb_ok; reflexivity.
Qed.
(** A call's string is one line, with or without its end. *)
Lemma text_line k l : plain_looks k -> plain_line l -> exists b, plain b /\ (text k l = b \/ text k l = b ++ [x0a]).
Proof.
  intros [He Hp] Hl.
  assert (R : forall b, plain b -> exists x, plain x /\ (b = x \/ b = x ++ [x0a])) by (intros b Hb; exists b; auto).
  assert (L : forall a b, plain a -> (exists x, plain x /\ (b = x \/ b = x ++ [x0a])) -> exists x, plain x /\ (a ++ b = x \/ a ++ b = x ++ [x0a])).
  { intros a b Ha (x & Hx & Hb). exists (a ++ x). split; [apply plain_app; assumption|]. rewrite <- app_assoc. destruct Hb as [->| ->]; auto. }
  assert (E : exists x, plain x /\ ([x0a] = x \/ [x0a] = x ++ [x0a])) by (exists []; split; [intros []|auto]).
  destruct l; cbn [text plain_line] in *; repeat first [exact E | apply L; [first [exact Hl | apply He | apply Hp | apply plain_itoa | apply plainb_ok; reflexivity]|] | apply R; first [exact Hl | apply He | apply Hp | apply plain_itoa | apply plainb_ok; reflexivity]].
Qed.
Lemma rev_last (b : bytes) c : rev (b ++ [c]) = c :: rev b.
Proof. rewrite rev_app_distr. reflexivity. Qed.
Lemma plain_last b c r : plain b -> rev b = c :: r -> Byte.eqb c x0a = false.
Proof. intros H E. destruct (Byte.eqb c x0a) eqn:Eb; [|reflexivity]. apply Byte_eqb_eq in Eb. subst c. exfalso. apply H. apply in_rev. rewrite E. left. reflexivity. Qed.
Lemma output_line st k l : plain_looks k -> plain_line l -> plain st -> plain (st ++ own_line (text k l)) /\ output st (text k l) = (st ++ own_line (text k l)) ++ [x0a].
Proof.
  intros Hk Hl Hs. destruct (text_line k l Hk Hl) as (b & Hb & [-> | ->]); unfold output, own_line.
  - assert (H : match rev b with c :: r => if Byte.eqb c x0a then rev r else b | [] => b end = b). { destruct (rev b) eqn:E; [reflexivity|]. rewrite (plain_last _ _ _ Hb E). reflexivity. }
    rewrite H. split; [apply plain_app; assumption|]. rewrite <- app_assoc. do 2 f_equal. destruct (rev b) as [|c r] eqn:E; [reflexivity|]. pose proof (plain_last _ _ _ Hb E). destruct c; try reflexivity. discriminate.
  - rewrite rev_last. cbn [Byte.eqb]. replace (Byte.eqb x0a x0a) with true by reflexivity. rewrite rev_involutive. split; [apply plain_app; assumption|]. rewrite app_nil_r, <- app_assoc. reflexivity.
Qed.
Lemma lines_one : forall b r, plain b -> text_lines (b ++ x0a :: r) = b :: text_lines r.
Proof.
  induction b as [|c b IH]; intros r H; [reflexivity|]. cbn [app text_lines]. destruct (Byte.eqb c x0a) eqn:E; [exfalso; apply Byte_eqb_eq in E; apply H; left; exact E|].
  rewrite IH by (intros Hi; apply H; right; exact Hi). reflexivity.
Qed.
Lemma lines_top k : forall es stamps, plain_looks k -> Forall plain_line es -> Forall plain stamps -> text_lines (log_bytes k stamps es) = stamped k stamps es.
Proof.
  induction es as [|e es IH]; intros [|st q] Hk Hl Hs; try reflexivity. inversion Hl; inversion Hs; subst. cbn [log_bytes stamped]. destruct (output_line st k e) as [Hx ->]; try assumption.
  rewrite <- app_assoc. cbn [app]. rewrite lines_one by exact Hx. f_equal. apply IH; assumption.
Qed.
(** ** The lines of a run *)
Lemma glog_plain pc i a sh g l g' : plain (Addr i) -> plain (Key i) -> plain a -> Forall plain_line (glog pc i a sh g l g').
Proof.
  intros H1 H2 H3. unfold glog. apply Forall_app. split.
  - destruct l; try (repeat constructor; assumption).
    + destruct f; repeat constructor; assumption.
    + destruct (DecodeAll _ _) as [[]| | |]; repeat constructor; assumption.
    + destruct (m_todo (g_m g)) as [|[]]; try apply Forall_nil. destruct (handleBitfield _ _ _ _ _ _) as [[[]]]; repeat constructor.
    + destruct (a_recv (g_a g)); repeat constructor; assumption.
    + destruct (c_got (g_c g)); repeat constructor; assumption.
  - destruct (a_loop (g_a g)), (a_loop (g_a g')); repeat constructor; assumption.
Qed.
Lemma in_log_plain c p port r wr u : Forall plain_line (in_log c (TCPAddrString p port) r wr u).
Proof.
  pose proof (plain_addr p port) as H. unfold in_log, unchoking. destruct (in_peer _) as [id|e| |]; try apply Forall_nil.
  - destruct u; repeat constructor; exact H.
  - destruct e, (rd_err r), (w_handshake wr); repeat constructor; exact H.
Qed.
Lemma tagged_plain (x : option nat) l : Forall plain_line l -> Forall (fun e : entry => plain_line (snd e)) (map (pair x) l).
Proof. intros H. apply Forall_map. exact H. Qed.
Lemma drop_Forall {A} (P : A -> Prop) l i : Forall P l -> Forall P (firstn i l ++ skipn (S i) l).
Proof. rewrite !Forall_forall. intros H x Hx. apply H. apply in_app_or in Hx. destruct Hx as [Hx|Hx]; [rewrite <- (firstn_skipn i l)|rewrite <- (firstn_skipn (S i) l)]; apply in_or_app; auto. Qed.
Lemma wstep_plain pc l s s' e : wstep pc l s = WWent s' e -> Forall made_peer (p_dial (w_p s)) -> Forall (fun x => made_peer (fst x) /\ plain (snd x)) (w_who s) -> Forall (fun x => plain (pi_id (fst x))) (w_who s') ->
  Forall made_peer (p_dial (w_p s')) /\ Forall (fun x => made_peer (fst x) /\ plain (snd x)) (w_who s') /\ Forall (fun e => plain_line (snd e)) e /\ Forall (fun x => plain (pi_id (fst x))) (w_who s).
Proof.
  unfold wstep. destruct (pstep pc (erase l) (w_p s)) as [| |p'] eqn:Ep; try discriminate. intros H Hd Hw Hi.
  destruct l as [q port|l]; cbn [erase] in Ep.
  - apply WWent_eq in H. destruct H as [-> ->]. cbn [pstep] in Ep. destruct (Nat.ltb _ _); try discriminate. apply PWent_eq in Ep. rewrite Ep in *. cbn [w_p w_who p_dial] in *. repeat split; try assumption. repeat constructor. apply plain_addr.
  - destruct l; try discriminate.
    + cbn [pstep] in Ep. cbv zeta in Ep. destruct (p_shake (w_p s)) as [|m]; try discriminate. pose proof (in_log_plain (pc_c pc) p port r wr u) as Hl.
      destruct (in_peer _) as [id|er| |]; try discriminate.
      * unfold new_handler in Ep. destruct (fresh_conn _ _ _ _ _ _) as [g| | |] eqn:Ef; try discriminate. apply PWent_eq in Ep. apply WWent_eq in H. destruct H as [-> ->].
        cbn [w_p w_who] in *. rewrite Ep. cbn [p_dial]. apply Forall_app in Hi. destruct Hi as [Hi _]. split; [exact Hd|]. split; [|split; [apply tagged_plain; exact Hl|exact Hi]].
        apply Forall_app. split; [exact Hw|]. constructor; [|apply Forall_nil]. split; [do 3 eexists; reflexivity|apply plain_addr].
      * apply PWent_eq in Ep. apply WWent_eq in H. destruct H as [-> ->]. cbn [w_p w_who] in *. rewrite Ep. cbn [p_dial]. repeat split; try assumption. apply tagged_plain; exact Hl.
    + cbn [pstep] in Ep. destruct (nth_error (p_dial (w_p s)) i) as [d|] eqn:Ed; try discriminate. assert (Hm : made_peer d) by (rewrite Forall_forall in Hd; apply Hd; eapply nth_error_In; exact Ed). pose proof (drop_Forall _ _ i Hd) as Hr.
      assert (Hb : Forall (fun e : entry => plain_line (snd e)) (map (pair None) [LBootFail (Addr d) EIO])) by (repeat constructor; apply plain_made; exact Hm). destruct ok.
      * destruct (Nat.ltb _ _); try discriminate. destruct hs; cbn [andb] in H.
        -- unfold new_handler in Ep. destruct (fresh_conn _ _ _ _ _ _) as [g| | |] eqn:Ef; try discriminate. apply PWent_eq in Ep. apply WWent_eq in H. destruct H as [-> ->].
           cbn [w_p w_who] in *. rewrite Ep. cbn [p_dial]. apply Forall_app in Hi. destruct Hi as [Hi _]. split; [exact Hr|]. split; [|split; [apply tagged_plain; destruct u; repeat constructor|exact Hi]].
           apply Forall_app. split; [exact Hw|]. constructor; [|apply Forall_nil]. split; [exact Hm|apply plain_addr].
        -- apply PWent_eq in Ep. apply WWent_eq in H. destruct H as [-> ->]. cbn [w_p w_who] in *. rewrite Ep. cbn [p_dial]. repeat split; assumption.
      * apply PWent_eq in Ep. apply WWent_eq in H. destruct H as [-> ->]. cbn [w_p w_who] in *. rewrite Ep. cbn [p_dial]. repeat split; assumption.
    + cbn [pstep] in Ep. destruct (p_drop (w_p s)); try discriminate. apply PWent_eq in Ep. apply WWent_eq in H. destruct H as [-> ->]. cbn [w_p w_who] in *. rewrite Ep. cbn [p_dial]. repeat split; try assumption. apply Forall_nil.
    + cbn [pstep] in Ep. apply PWent_eq in Ep. apply WWent_eq in H. destruct H as [-> ->]. cbn [w_p w_who] in *. rewrite Ep. cbn [p_dial]. repeat split; try assumption. apply Forall_nil.
    + cbn [pstep] in Ep. destruct (nth_error (p_conns (w_p s)) k) as [g|] eqn:Eg; try discriminate. destruct (gstep _ _ _ _ _) as [| |sh' g'] eqn:Es; try discriminate. apply PWent_eq in Ep.
      destruct (nth_error (p_conns p') k) as [g1|]; try discriminate. destruct (nth_error (w_who s) k) as [[i a]|] eqn:Ew; try discriminate.
      apply WWent_eq in H. destruct H as [-> ->]. cbn [w_p w_who] in *. rewrite Ep. cbn [p_dial]. split; [exact Hd|]. split; [exact Hw|]. split; [|exact Hi]. apply nth_error_In in Ew. rewrite Forall_forall in Hw, Hi. destruct (Hw _ Ew) as [H1 H2]. specialize (Hi _ Ew). cbn [fst snd] in *.
      destruct (plain_made _ H1) as [H3 H4]. apply tagged_plain, glog_plain; auto.
Qed.
Lemma wrun_plain pc t w peers : Forall made_peer peers -> forall ls s es, wrun pc ls (wstarted t w peers) = Some (s, es) -> Forall (fun x => plain (pi_id (fst x))) (w_who s) ->
  Forall plain_line (map snd es) /\ Forall made_peer (p_dial (w_p s)) /\ Forall (fun x => made_peer (fst x) /\ plain (snd x)) (w_who s).
Proof.
  intros Hp. induction ls as [|l ls IH] using rev_ind; intros s es H Hi.
  - injection H as <- <-. repeat split; try exact Hp; apply Forall_nil.
  - apply wrun_snoc in H. destruct H as (s1 & e1 & e2 & H1 & H2 & ->).
    assert (Hi1 : Forall (fun x => plain (pi_id (fst x))) (w_who s1)). { destruct (wstep_went _ _ _ _ _ H2) as [_ [inc i a u sent g Hc Hw| |]]; try congruence. rewrite Hw in Hi. apply Forall_app in Hi. tauto. }
    destruct (IH _ _ H1 Hi1) as (A & B & C). destruct (wstep_plain _ _ _ _ _ H2 B C Hi) as (D1 & D2 & D3 & _). split; [|split; assumption]. rewrite map_app. apply Forall_app. split; [exact A|]. apply Forall_map. exact D3.
Qed.
Lemma lines_run k stamps pc t w peers ls s es : plain_looks k -> Forall plain stamps -> Forall made_peer peers -> wrun pc ls (wstarted t w peers) = Some (s, es) -> Forall (fun x => plain (pi_id (fst x))) (w_who s) ->
  text_lines (log_bytes k stamps (map snd es)) = stamped k stamps (map snd es).
Proof. intros Hk Hs Hp H Hi. apply lines_top; try assumption. eapply wrun_plain; eassumption. Qed.
(** ** NewSwarm *)
Lemma boot_log sha1 n src fuel sp o w r lg w' : NewSwarm_logged sha1 n src fuel sp o w = (r, lg, w') ->
  NewSwarm sha1 n src fuel sp o w = (r, w') /\
  (forall sw, r = Ok sw -> lg = [LReading (o_input o); LOpening; LHave (Nset (sw_bf sw)) (Nbits (sw_bf sw)); LGet (t_announce (sw_tor sw))]) /\
  exists a b u q, lg ++ q = [LReading (o_input o); LOpening; LHave a b; LGet u].
Proof.
  Local Ltac bail a b u q := let H := fresh in intros H; injection H as <- <- <-; split; [reflexivity|]; split; [discriminate|]; exists a, b, u, q; reflexivity.
  unfold NewSwarm_logged, NewSwarm. unfold lbind, quiet, say, iobind.
  pose (q4 := LGet []). pose (q3 := [LHave 0 0; q4]). pose (q2 := LOpening :: q3). pose (q1 := LReading (o_input o) :: q2).
  destruct (lift (NewPeerId src fuel) w) as [[id| | |] w1]; cbv beta iota; [|bail 0 0 (@nil byte) q1..].
  destruct (os_readfile (o_input o) sp w1) as [[fd| | |] w2]; cbv beta iota; [|bail 0 0 (@nil byte) q2..].
  destruct (lift (FromTorrentFile sha1 fd (o_wd o)) w2) as [[tor| | |] w3]; cbv beta iota; [|bail 0 0 (@nil byte) q2..].
  destruct (NewFileIO w3) as [[x3| | |] w4]; cbv beta iota; [|bail 0 0 (@nil byte) q2..].
  destruct (OCATAll (ti_files (t_info tor)) w4) as [[x4| | |] w5]; cbv beta iota; [|bail 0 0 (@nil byte) q3..].
  destruct (lift (NewBitfield (ti_npieces (t_info tor))) w5) as [[b0| | |] w6]; cbv beta iota; [|bail 0 0 (@nil byte) q3..].
  destruct (Validate sha1 (t_info tor) b0 w6) as [[b| | |] w7]; cbv beta iota zeta; [|bail 0 0 (@nil byte) q3..].
  destruct (lift (tracker_Get n tor (NewStats 0 0 0) (OptPort o) id) w7) as [[rs| | |] w8]; cbv beta iota; [|bail (Nset b) (Nbits b) (t_announce tor) (@nil logline)..].
  destruct (lift (NewPeerPieceTracker (u32 (ti_npieces (t_info tor)))) w8) as [[t| | |] w9]; cbv beta iota; [|bail (Nset b) (Nbits b) (t_announce tor) (@nil logline)..].
  unfold ret. intros H. injection H as <- <- <-. split; [reflexivity|]. split.
  - intros sw H. injection H as <-. reflexivity.
  - exists (Nset b), (Nbits b), (t_announce tor), []. reflexivity.
Qed.
