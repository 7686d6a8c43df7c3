(** RaceDoneProofs.v: proofs about RaceDoneSpec. *)
From Coq Require Import ZifyBool ZifyNat ZifyN.
From Verif Require Import Base BitfieldModel WireModel HandshakeModel HandshakeSpec HandshakeProofs LayoutModel PptModel PeerModel FsModel SwarmModel SessionModel RunModel ProcModel ProcSpec ProcProofs RaceSpec RaceModel RaceProofs RaceInvProofs RaceDoneSpec.
From Verif Require LoopModel ReadLoopModel TimeModel TimeProofs.

Lemma Some_eq {A} (a b : A) : Some a = Some b -> b = a.
Proof. congruence. Qed.
Lemma wrote_in g x es : In (g, Wr x) es -> wrote x es.
Proof. intros H. exists g. now left. Qed.
Lemma wrote_at g x es : In (g, At x) es -> wrote x es.
Proof. intros H. exists g. now right. Qed.
Lemma handle_writes logs c ti whom k m s r out s' : handle_msg (mkhc ti (sc_own c) whom) m s = (r, out, s') ->
  (hs_ppt s' <> hs_ppt s -> wrote XTrack (handles logs c k m)) /\ (hs_bf s' <> hs_bf s -> wrote (XBf k) (handles logs c k m)) /\ (hs_buf s' <> hs_buf s -> wrote (XBuf k) (handles logs c k m)).
Proof.
  assert (W : forall g x l r, In (Wr x) l -> wrote x ((by_ g l ++ r))) by (intros g x l q Hl; apply (wrote_in g); apply in_or_app; left; unfold by_; now apply (in_map (fun a => (g, a)))).
  assert (W2 : forall x a b, wrote x b -> wrote x (a ++ b)) by (intros x a b (g & [X|X]); exists g; [left|right]; apply in_or_app; now right).
  intros H. unfold handles. destruct m; cbn [handle_msg hc_ti hc_own hc_whom] in H; try (injection H as <- <- <-; repeat split; intros X; now destruct X).
  - unfold handleBitfield in H. destruct (Nbytes _ =? Nbytes _); cbn [negb] in H; cases H; inversion H; subst; repeat match goal with E : (_, _, _) = (_, _, _) |- _ => inversion E; subst; clear E end; cbn [hs_ppt hs_bf hs_buf] in *; repeat split; intros X; try (now destruct X); apply W2; apply W; cbn; tauto.
  - unfold handleRequest in H. destruct (if Complete (sc_own c) then _ else _) as [[|]| | |]; cases H; inversion H; subst; cbn [hs_ppt hs_bf hs_buf] in *; repeat split; intros X; try (now destruct X); apply W2; rewrite <- (app_nil_r (by_ _ _)); apply W; cbn; tauto.
Qed.

Definition grecorded (k : nat) (sh : shared) (g : gconn) (sh' : shared) (g' : gconn) (es : trace) : Prop :=
  (sh_ppt sh' <> sh_ppt sh -> wrote XTrack es) /\ (sh_used sh' <> sh_used sh -> wrote XUsed es) /\
  (m_bf (g_m g') <> m_bf (g_m g) -> wrote (XBf k) es) /\ (m_buf (g_m g') <> m_buf (g_m g) -> wrote (XBuf k) es) /\ (c_mem (g_c g') <> c_mem (g_c g) -> wrote (XRecv k) es).
Lemma gstep_recorded logs pc w k sh g l sh' g' : gstep pc k sh g l = GWent sh' g' -> grecorded k sh g sh' g' (gevents logs pc w k g l).
Proof.
  destruct g as [m [L P V Q n] h]. destruct l; cbn [gstep g_m g_a g_c a_loop a_ping a_recv a_req a_procs recv_at req_at]; cbv zeta; intros E; cases E; went E; unfold grecorded; cbn [g_m g_c m_bf m_buf tx rx sh_ppt sh_used c_mem read_at gevents a_procs g_a];
   try (split; [intros X; now destruct X|split; [intros X; now destruct X|split; [intros X; now destruct X|split; intros X; now destruct X]]]).
  all: try match goal with H : handle_msg _ _ _ = _, T : m_todo _ = _ |- _ => rewrite T; apply (handle_writes logs _ _ _ k) in H; cbn [hs_ppt hs_bf hs_buf] in H; destruct H as (A & B & C); split; [exact A|split; [intros X; now destruct X|split; [exact B|split; [exact C|intros X; now destruct X]]]] end.
  all: split; [|split; [|split; [|split]]]; intros X; try (now destruct X).
  all: unfold by_; cbn [map]; first [eapply wrote_at; left; reflexivity | eapply wrote_in; repeat first [left; reflexivity | right]].
Qed.
Lemma same_recorded s s' es : p_conns s' = p_conns s -> sh_ppt (p_sh s') = sh_ppt (p_sh s) -> (sh_used (p_sh s') <> sh_used (p_sh s) -> wrote XUsed es) -> recorded s s' es.
Proof.
  intros E1 E2 H. split; rewrite ?E1, ?E2; intros; try congruence; try (now apply H); try (exfalso; lia).
Qed.
Lemma new_recorded s s' es sk dl r : new_handler s sk dl r = PWent s' -> let k := List.length (p_conns s) in wrote (XPeer k) es -> wrote (XBf k) es -> wrote (XBuf k) es -> recorded s s' es.
Proof.
  intros H k A B C. unfold new_handler in H. destruct r as [g| | |]; try discriminate. inversion H; subst s'; clear H.
  assert (Hc : forall j x y, nth_error (p_conns s) j = Some x -> nth_error (p_conns s ++ [g]) j = Some y -> y = x).
  { intros j x y E1 E2. rewrite nth_error_app1 in E2 by (apply nth_error_Some; congruence). congruence. }
  split; cbn [p_sh p_conns]; intros; try congruence; try (match goal with E1 : nth_error _ ?j = Some ?x, E2 : nth_error _ ?j = Some ?y |- _ => rewrite (Hc _ _ _ E1 E2) in *; congruence end).
  match goal with X : (_ <= ?j < _)%nat |- _ => rewrite app_length in X; cbn [List.length] in X; replace j with k by (unfold k; lia) end. auto.
Qed.
Lemma wrote_app_l x a b : wrote x a -> wrote x (a ++ b).
Proof. intros (g & [X|X]); exists g; [left|right]; apply in_or_app; now left. Qed.
Lemma wrote_app_r x a b : wrote x b -> wrote x (a ++ b).
Proof. intros (g & [X|X]); exists g; [left|right]; apply in_or_app; now right. Qed.
Lemma made_wrote g k : wrote (XPeer k) (made_by g k) /\ wrote (XBf k) (made_by g k) /\ wrote (XBuf k) (made_by g k).
Proof. unfold made_by, by_. cbn [map]. repeat split; apply (wrote_in g); cbn; tauto. Qed.
Lemma rstep_recorded logs pc l s s' : rstep logs pc l s = Some s' -> exists es, r_t s' = r_t s ++ es /\ recorded (r_p s) (r_p s') es.
Proof.
  destruct l as [|l j]; cbn [rstep].
  - destruct (r_on s); [discriminate|]. intros H. injection H as <-. eexists. split; [reflexivity|]. apply same_recorded; try reflexivity. intros _. apply (wrote_in GClock). cbn. tauto.
  - destruct (pstep pc l (r_p s)) as [| |p'] eqn:E; try discriminate. destruct l as [|p port r wr u|i okd hs u| | |k l]; cbn [pstep] in E; cbv zeta in E; intros H.
    + destruct (Nat.ltb _ _); [|discriminate]. inversion E; subst p'. injection H as <-. eexists. split; [cbn [r_t]; reflexivity|]. apply same_recorded; try reflexivity. intros X; now destruct X.
    + destruct (nth_error (r_wait s) j) as [n|]; [|discriminate]. destruct (p_shake (r_p s)); [discriminate|]. destruct (in_peer _) as [id| | |] eqn:Ei; try discriminate; injection H as <-; (eexists; split; [cbn [r_t]; reflexivity|]); cbn [r_p].
      * eapply new_recorded; [exact E| | |]; unfold greeted; do 5 apply wrote_app_r; apply wrote_app_l; apply made_wrote.
      * inversion E; subst p'. apply same_recorded; try reflexivity. intros X; now destruct X.
    + destruct (nth_error (r_left s) i) as [n|]; [|discriminate]. destruct (nth_error (p_dial (r_p s)) i); [|discriminate]. destruct okd; cbn [andb] in H.
      * destruct (Nat.ltb _ _); [|discriminate]. destruct hs; apply Some_eq in H; subst s'; (eexists; split; [cbn [r_t]; reflexivity|]); cbn [r_p].
        -- eapply new_recorded; [exact E| | |]; apply wrote_app_r; apply wrote_app_l; apply made_wrote.
        -- inversion E; subst p'. apply same_recorded; try reflexivity. intros X; now destruct X.
      * injection H as <-. eexists. split; [cbn [r_t]; reflexivity|]. cbn [r_p]. inversion E; subst p'. apply same_recorded; try reflexivity. intros X; now destruct X.
    + destruct (p_drop (r_p s)); [discriminate|]. inversion E; subst p'. injection H as <-. exists []. split; [now rewrite app_nil_r|]. apply same_recorded; try reflexivity. intros X; now destruct X.
    + destruct (r_on s); [|discriminate]. inversion E; subst p'. injection H as <-. eexists. split; [cbn [r_t]; reflexivity|]. apply same_recorded; try reflexivity. intros _. apply (wrote_at GClock). cbn. tauto.
    + destruct (nth_error (r_who s) k) as [w|]; [|discriminate]. destruct (nth_error (p_conns (r_p s)) k) as [g|] eqn:Ek; [|discriminate]. injection H as <-. eexists. split; [cbn [r_t]; reflexivity|]. cbn [r_p].
      destruct (gstep pc k (p_sh (r_p s)) g l) as [| |sh g'] eqn:Eg; try discriminate. inversion E; subst p'. destruct (gstep_recorded logs pc w _ _ _ _ _ _ Eg) as (A1 & A2 & A3 & A4 & A5).
      split; cbn [p_sh p_conns]; [exact A1|exact A2| | | |rewrite lupd_length; intros; exfalso; lia];
        (intros c x y E1 E2 X; rewrite lupd_at, Ek in E2; destruct (Nat.eqb c k) eqn:Eq; [apply Nat.eqb_eq in Eq; subst c; injection E2 as <-; rewrite Ek in E1; injection E1 as <-; auto|rewrite E1 in E2; injection E2 as <-; now destruct X]).
Qed.
Lemma away_head logs g a b : wrote XHead (turned_away logs g a b) <-> a = true /\ b = true.
Proof.
  split.
  - intros (h & [X|X]); unfold turned_away in X; destruct a, b; ins; try congruence; auto.
  - intros [-> ->]. unfold turned_away. apply wrote_app_r, wrote_app_l, wrote_app_r, wrote_app_r. apply (wrote_in g). cbn. tauto.
Qed.
Lemma away_phs logs g a b : ~ wrote XPhs (turned_away logs g a b).
Proof. intros (h & [X|X]); unfold turned_away in X; destruct a, b; ins; congruence. Qed.
(** The first bytes of the swarm's bitfield are written when our bitfield is sent. *)
Lemma shake_head logs pc p port r wr u j s s' : (List.length (rd_bytes r) <= 68)%nat -> rstep logs pc (RStep (PShake p port r wr u) j) s = Some s' -> exists n es, nth_error (r_wait s) j = Some n /\ r_t s' = r_t s ++ es /\
  (forall e, In e es -> fst e = GIn n) /\
  (wrote XHead es <-> rd_err r = false /\ is_handshake (pad68 (rd_bytes r)) (sc_ih (pc_c pc)) /\ w_handshake wr = true) /\
  (wrote XPhs es <-> rd_err r = false /\ is_handshake (pad68 (rd_bytes r)) (sc_ih (pc_c pc)) /\ w_handshake wr = true /\ w_bitfield wr = true).
Proof.
  intros HL H. cbn [rstep] in H. destruct (pstep pc _ (r_p s)) as [| |p'] eqn:E; try discriminate. destruct (nth_error (r_wait s) j) as [n|]; [|discriminate]. exists n.
  destruct (in_peer _) as [id|e| |] eqn:Ei; apply Some_eq in H; subst s'; (eexists; split; [reflexivity|split; [cbn [r_t]; reflexivity|]]).
  - apply FromIncoming_iff in Ei; [|exact HL]. destruct Ei as (A1 & A2 & A3 & rsv & B1 & B2 & B3 & B4). assert (IH : is_handshake (pad68 (rd_bytes r)) (sc_ih (pc_c pc))) by (exists rsv, id; auto).
    split; [intros e He; unfold greeted, made_by, loop_starts in He; ins; reflexivity|]. split; (split; [auto|intros _]); unfold greeted.
    + do 3 apply wrote_app_r. apply wrote_app_l. apply (wrote_in (GIn n)). cbn. tauto.
    + do 6 apply wrote_app_r. apply wrote_app_l. apply (wrote_in (GIn n)). cbn. tauto.
  - pose proof (TimeProofs.closed_iff (sc_ih (pc_c pc)) r HL) as HC.
    assert (N : ~ (rd_err r = false /\ is_handshake (pad68 (rd_bytes r)) (sc_ih (pc_c pc)) /\ w_handshake wr = true /\ w_bitfield wr = true)).
    { intros (A1 & (rsv & id & B1 & B2 & B3 & B4) & A2 & A3). assert (X : in_peer (FromIncoming (sc_ih (pc_c pc)) (sc_id (pc_c pc)) (sc_own (pc_c pc)) r wr) = Ok id) by (apply FromIncoming_iff; [exact HL|]; split; [exact A1|split; [exact A2|split; [exact A3|exists rsv; auto]]]). congruence. }
    split; [intros x He; unfold turned_away in He; ins; reflexivity|]. rewrite away_head. split; [|split; [intros X; now apply away_phs in X|intros X; now destruct N]].
    unfold TimeModel.closes in *. rewrite copy_at_pad in * by assumption. rewrite <- (Valid_iff _ []) in *. destruct (Valid_total (pad68 (rd_bytes r)) [] (sc_ih (pc_c pc))) as [b Eb]. rewrite Eb. destruct (rd_err r), b, (w_handshake wr); cbn; intuition congruence.
  - exfalso. cbn [pstep] in E. cbv zeta in E. rewrite Ei in E. destruct (p_shake (r_p s)); discriminate.
  - exfalso. cbn [pstep] in E. cbv zeta in E. rewrite Ei in E. destruct (p_shake (r_p s)); discriminate.
Qed.
