(** LimitProofs.v: the write limit of the process. *)
From Coq Require Import ZifyBool ZifyNat ZifyN.
From Verif Require Import Base BitfieldModel WireModel WireSpec WireProofs HandshakeModel LayoutModel LayoutSpec DsModel PptModel PeerModel FsModel FsSpec FsProofs SwarmModel SessionModel RunModel ProcModel ProcSpec ProcProofs LimitSpec.
From Verif Require LoopModel ReadLoopModel.

(** ** The buffer keeps its size *)
Lemma ReadAt_short h n off w b e w' : ReadAt h n off w = (Ok (b, e), w') -> zlen b <= Z.max 0 n.
Proof.
  unfold ReadAt. destruct (off <? 0); [intros H; inversion H; cbn; lia|]. destruct (n <=? 0); [intros H; inversion H; cbn; lia|]. destruct (negb (h_open h)); [intros H; inversion H; cbn; lia|].
  unfold iobind. destruct (fault w) as [[f| | |] w1]; try discriminate. destruct (content (h_ino h) w1) as [[c| | |] w2]; try discriminate. cbv zeta.
  assert (Hs : zlen (sub c (Z.to_nat off) (Z.to_nat n)) <= Z.max 0 n) by (unfold zlen; rewrite sub_length; lia).
  destruct f as [k|]; [|destruct (_ <? n)]; intros H; inversion H; subst; [|exact Hs|exact Hs]. unfold zlen in *. rewrite firstn_length. lia.
Qed.
Lemma fio_read_short p off n w b e w' : fio_read p off n w = (Ok (b, e), w') -> zlen b <= Z.max 0 n.
Proof. unfold fio_read. destruct (aget p (w_lfps w)); [apply ReadAt_short|]. intros H. inversion H; subst. cbn. lia. Qed.
Lemma read_locs_cap ti : forall plocs buf off w r buf' w', read_locs_io ti plocs buf off w = (r, buf', w') -> scap buf' = scap buf.
Proof.
  induction plocs as [|l ls IH]; intros buf off w r buf' w' H; cbn [read_locs_io] in H; [inversion H; reflexivity|].
  destruct (sslice buf off (add64 off (ReadAmnt (pl_info l)))) as [sb| | |] eqn:Es; [|inversion H; reflexivity..].
  assert (Hs : 0 <= off /\ off + zlen (vis sb) <= scap buf).
  { unfold sslice in Es. destruct ((0 <=? off) && (off <=? add64 off (ReadAmnt (pl_info l))) && (add64 off (ReadAmnt (pl_info l)) <=? scap buf)) eqn:Eb; [|discriminate]. injection Es as <-. cbn [vis].
    split; [lia|]. unfold zlen at 1. rewrite sub_length. lia. }
  destruct (loc_path ti l); [|inversion H; reflexivity..]. destruct (fio_read _ _ _ w) as [[[b [e|]]| | |] w1] eqn:Ef; [| |inversion H; reflexivity..].
  - inversion H; subst. apply fio_read_short in Ef. pose proof (zlen_nonneg (vis sb)). apply splice_over; lia.
  - apply IH in H. rewrite H. apply fio_read_short in Ef. pose proof (zlen_nonneg (vis sb)). apply splice_over; lia.
Qed.
Lemma ReadPiece_cap ti i buf w r buf' w' : ReadPiece ti i buf w = (r, buf', w') -> scap buf' = scap buf.
Proof. unfold ReadPiece. destruct (PieceLookup ti i); [apply read_locs_cap|intros H; inversion H; reflexivity..]. Qed.
Lemma piece_length i b d : zlen (EncodeMsg (MPiece i b d)) = 13 + zlen d.
Proof. cbn [EncodeMsg]. unfold base. rewrite !zlen_app, !zlen_be32. change (zlen [z2b (Mtype (MPiece i b d))]) with 1. lia. Qed.
Lemma handle_out ti own who x t bf buf w r out s : handle_msg (mkhc ti own who) x (mkhs t bf buf w) = (r, out, s) ->
  scap (hs_buf s) = scap buf /\ Forall (fun f => zlen f <= scap buf + 13) out.
Proof.
  intros H. destruct x; cbn [handle_msg hc_ti hc_own hc_whom hs_buf hs_world hs_ppt hs_bf] in H; try (inversion H; subst; split; [reflexivity|constructor]).
  - destruct (handleBitfield _ _ _ _ _ _) as [[r0 t0] b0]. inversion H; subst. split; [reflexivity|constructor].
  - unfold handleRequest in H. destruct (if Complete own then _ else _) as [[|]| | |]; try (inversion H; subst; split; [reflexivity|constructor]).
    destruct (ReadPiece ti _ buf w) as [[r1 b1] w1] eqn:Er. pose proof (ReadPiece_cap _ _ _ _ _ _ _ Er) as Hc. destruct r1; try (inversion H; subst; split; [exact Hc|apply Forall_nil]).
    destruct (sslice b1 _ _) as [sb| | |] eqn:Es; try (inversion H; subst; split; [exact Hc|apply Forall_nil]). set (fr := EncodeMsg _) in H; assert (Hf : zlen fr = 13 + zlen (vis sb)) by apply piece_length; clearbody fr. injection H as <- <- <-. cbn [hs_buf]. split; [exact Hc|].
    constructor; [|constructor]. rewrite Hf. unfold sslice in Es. match type of Es with (if ?c then _ else _) = _ => destruct c eqn:Eb; [|discriminate] end. injection Es as <-. cbn [vis].
    unfold zlen. rewrite sub_length. lia.
Qed.

(** ** One step of a connection *)
Definition head_len (g : gconn) : Z := match m_pend (g_m g) with f :: _ => zlen f | [] => 0 end.
Definition owed (g : gconn) : Z := match a_recv (g_a g) with VSend => head_len g | _ => 0 end.
Definition passes (l : glabel) (g : gconn) : Z := match l with GAdd => head_len g | _ => 0 end.
Definition pinged (l : glabel) : Z := match l with GPingTick _ => 4 | _ => 0 end.
Lemma used_step pc k sh g l sh' g' : gstep pc k sh g l = GWent sh' g' -> sh_used sh' = sh_used sh + passes l g.
Proof.
  destruct g as [m [L P V Q n] h]. destruct l; cbn [gstep g_m g_a g_c a_loop a_ping a_recv a_req a_procs recv_at req_at]; cbv zeta; intros E; cases E; went E; unfold passes, head_len; cbn [sh_used g_m]; try lia.
  match goal with H : m_pend m = _ |- _ => rewrite H end. reflexivity.
Qed.
Lemma vadd_step pc k sh g l sh' g' : gstep pc k sh g l = GWent sh' g' -> a_recv (g_a g') = VAdd -> (a_recv (g_a g) = VAdd /\ passes l g = 0) \/ (sh_used sh < pc_rate pc /\ passes l g = 0).
Proof.
  destruct g as [m [L P V Q n] h]. destruct l; cbn [gstep g_m g_a g_c a_loop a_ping a_recv a_req a_procs recv_at req_at]; cbv zeta; intros E; cases E; went E; cbn [g_a a_recv recv_at req_at passes]; intros HV;
    try discriminate; try (left; split; [assumption|reflexivity]); try (right; split; [lia|reflexivity]).
  all: exfalso; repeat match type of HV with context [match ?x with _ => _ end] => destruct x end; discriminate.
Qed.
Lemma add_at pc k sh g sh' g' : gstep pc k sh g GAdd = GWent sh' g' -> a_recv (g_a g) = VAdd.
Proof. cbn [gstep]. destruct (a_recv (g_a g)); try discriminate. reflexivity. Qed.
Lemma zlen_firstn_le {A} n (l : list A) : zlen (firstn n l) <= zlen l.
Proof. unfold zlen. rewrite firstn_length. lia. Qed.
Lemma out_step pc k sh g l sh' g' : pc_rate pc <> -1 -> gstep pc k sh g l = GWent sh' g' ->
  zlen (m_out (g_m g')) + owed g' <= zlen (m_out (g_m g)) + owed g + passes l g + pinged l.
Proof.
  intros HR. destruct g as [m [L P V Q n] h]. destruct l; cbn [gstep g_m g_a g_c a_loop a_ping a_recv a_req a_procs recv_at req_at]; cbv zeta; intros E; cases E; went E;
    unfold owed, head_len, passes, pinged; cbn [g_m g_a a_recv recv_at req_at m_out m_pend tx rx]; try lia.
  all: repeat match goal with H : m_pend ?x = ?y |- context [m_pend ?x] => rewrite H end; rewrite ?zlen_app; change (zlen (@nil byte)) with 0.
  all: try match goal with |- context [zlen (firstn ?n ?l)] => pose proof (zlen_firstn_le n l) end; change (zlen keepalive) with 4 in *; try lia.
  all: try match goal with H : m_pend _ = ?b :: _ |- _ => pose proof (zlen_nonneg b) end; try lia.
  unfold head_len. cbn [g_m]. rewrite Ec0. lia.
Qed.
Lemma buf_step pc k sh g l sh' g' : gstep pc k sh g l = GWent sh' g' -> scap (m_buf (g_m g')) = scap (m_buf (g_m g)) /\
  (Forall (fun f => zlen f <= scap (m_buf (g_m g)) + 13) (m_pend (g_m g)) -> Forall (fun f => zlen f <= scap (m_buf (g_m g)) + 13) (m_pend (g_m g'))).
Proof.
  destruct g as [m [L P V Q n] h]. destruct l; cbn [gstep g_m g_a g_c a_loop a_ping a_recv a_req a_procs recv_at req_at]; cbv zeta; intros E; cases E; went E; cbn [g_m m_buf m_pend tx rx];
    try (split; [reflexivity|intros HF; exact HF]); try (split; [reflexivity|intros HF; apply Forall_nil]).
  all: try match goal with H : handle_msg _ _ _ = _ |- _ => apply handle_out in H; destruct H as [H1 H2]; split; [exact H1|intros _; exact H2] end.
  all: split; [reflexivity|]; repeat match goal with H : m_pend ?x = ?y |- context [m_pend ?x] => rewrite H end; intros HF; inversion HF; assumption.
Qed.

(** ** The process *)
Lemma zsum_lupd {A} (f : A -> Z) : forall l k a b, nth_error l k = Some a -> zsum (map f (lupd l k b)) = zsum (map f l) - f a + f b.
Proof.
  unfold zsum. induction l as [|x l IH]; intros [|k] a b E; cbn [nth_error lupd map fold_right] in *; try discriminate; [injection E as ->; lia|]. rewrite (IH k a b E). lia.
Qed.
Lemma zsum_snoc {A} (f : A -> Z) l a : zsum (map f (l ++ [a])) = zsum (map f l) + f a.
Proof. unfold zsum. induction l as [|x l IH]; cbn [app map fold_right]; [lia|]. rewrite IH. lia. Qed.
Section limit.
Variable pc : pconst.
Let P := ti_plen (sc_ti (pc_c pc)).
Let R := pc_rate pc.
Hypothesis HP : 0 <= P.
Hypothesis HR : 0 < R.
Definition ok_conn (g : gconn) : Prop := scap (m_buf (g_m g)) = P /\ Forall (fun f => zlen f <= P + 13) (m_pend (g_m g)).
Definition inv (s : pstate) : Prop :=
  linv s /\ Forall ok_conn (p_conns s) /\ (forall k g, nth_error (p_conns s) k = Some g -> a_recv (g_a g) = VAdd -> sh_used (p_sh s) < R) /\ 0 <= sh_used (p_sh s) <= R + P + 12.
Definition owed_all (s : pstate) : Z := zsum (map owed (p_conns s)).
Definition is_tick (l : plabel) : Z := match l with PTick => 1 | _ => 0 end.
Definition is_ping (l : plabel) : Z := match l with PConn _ (GPingTick _) => 1 | _ => 0 end.
Lemma fresh_ok inc ptr key sent u g : fresh_conn (pc_c pc) inc ptr key sent u = Ok g -> ok_conn g /\ a_recv (g_a g) = VNew /\ zlen (m_out (g_m g)) <= zlen sent + zlen (EncodeMsg MUnchoke) /\ owed g = 0.
Proof.
  unfold fresh_conn. destruct (NewBitfield _); cbn [bind]; try discriminate. intros E. apply Ok_eq in E. subst g. split.
  - split; cbn [g_m m_buf m_pend]; [|apply Forall_nil]. unfold scap. cbn [vis spare]. unfold FsModel.zeros, zlen. rewrite repeat_length. cbn [List.length]. lia.
  - split; [reflexivity|]. split; [|reflexivity]. cbn [g_m m_out]. rewrite zlen_app. destruct u as [n|]; [pose proof (zlen_firstn_le n (EncodeMsg MUnchoke)); lia|lia].
Qed.
Lemma in_sent_short r wr id : in_peer (FromIncoming (sc_ih (pc_c pc)) (sc_id (pc_c pc)) (sc_own (pc_c pc)) r wr) = Ok id ->
  in_sent (FromIncoming (sc_ih (pc_c pc)) (sc_id (pc_c pc)) (sc_own (pc_c pc)) r wr) = MakeHandshake (sc_ih (pc_c pc)) (sc_id (pc_c pc)) ++ EncodeMsg (MBitfield (sc_own (pc_c pc))).
Proof.
  unfold FromIncoming. destruct (rd_err r); [discriminate|]. cbv zeta. destruct (ValidHandshake _ _) as [[|]| | |]; try discriminate. destruct (negb (w_handshake wr)); [discriminate|]. destruct (negb (w_bitfield wr)); [discriminate|]. reflexivity.
Qed.
Lemma greet_le : zlen (greeting (pc_c pc)) = zlen (MakeHandshake (sc_ih (pc_c pc)) (sc_id (pc_c pc))) + zlen (EncodeMsg (MBitfield (sc_own (pc_c pc)))) + zlen (EncodeMsg MUnchoke).
Proof. unfold greeting. rewrite !zlen_app. lia. Qed.
Lemma limit_step l s s' : inv s -> pstep pc l s = PWent s' -> inv s' /\
  uploaded s' + owed_all s' + zlen (p_conns s) * zlen (greeting (pc_c pc)) <= uploaded s + owed_all s + lets_pass l s + 4 * is_ping l + zlen (p_conns s') * zlen (greeting (pc_c pc)) /\
  lets_pass l s + sh_used (p_sh s) <= is_tick l * (R + P + 12) + sh_used (p_sh s').
Proof.
  intros HI H. pose proof HI as (I1 & I2 & I3 & I4). pose proof (linv_step _ _ _ _ I1 H) as I1'.
  assert (Hlb : 0 <= zlen (EncodeMsg (MBitfield (sc_own (pc_c pc))))) by apply zlen_nonneg.
  assert (Hnew : forall sk dl r sent inc ptr key u, (r = fresh_conn (pc_c pc) inc ptr key sent u) -> zlen sent + zlen (EncodeMsg MUnchoke) <= zlen (greeting (pc_c pc)) -> lets_pass l s = 0 -> is_ping l = 0 -> is_tick l = 0 -> new_handler s sk dl r = PWent s' ->
    inv s' /\ uploaded s' + owed_all s' + zlen (p_conns s) * zlen (greeting (pc_c pc)) <= uploaded s + owed_all s + lets_pass l s + 4 * is_ping l + zlen (p_conns s') * zlen (greeting (pc_c pc)) /\
    lets_pass l s + sh_used (p_sh s) <= is_tick l * (R + P + 12) + sh_used (p_sh s')).
  { intros sk dl r sent inc ptr key u Er Hs L0 L1 L2 E. unfold new_handler in E. destruct r as [g| | |]; try discriminate. inversion E; subst s'. destruct (fresh_ok _ _ _ _ _ _ (eq_sym Er)) as (F1 & F2 & F3 & F4).
    rewrite L0, L1, L2. cbn [p_sh p_conns uploaded owed_all]. unfold uploaded, owed_all. cbn [p_conns]. rewrite !zsum_snoc, F4. split; [|split; [rewrite zlen_app; change (zlen [g]) with 1; lia|lia]].
    split; [exact I1'|]. cbn [p_sh p_conns]. split; [apply Forall_app; split; [exact I2|constructor; [exact F1|constructor]]|]. split; [|exact I4].
    intros k x Ek Hv. destruct (Nat.lt_ge_cases k (List.length (p_conns s))) as [Hk|Hk]; [rewrite nth_error_app1 in Ek by assumption; eauto|]. rewrite nth_error_app2 in Ek by assumption.
    destruct (k - List.length (p_conns s))%nat as [|[|j]]; cbn in Ek; try discriminate. injection Ek as <-. congruence. }
  assert (Hsame : p_sh s' = p_sh s -> p_conns s' = p_conns s -> lets_pass l s = 0 -> is_ping l = 0 -> is_tick l = 0 ->
    inv s' /\ uploaded s' + owed_all s' + zlen (p_conns s) * zlen (greeting (pc_c pc)) <= uploaded s + owed_all s + lets_pass l s + 4 * is_ping l + zlen (p_conns s') * zlen (greeting (pc_c pc)) /\
    lets_pass l s + sh_used (p_sh s) <= is_tick l * (R + P + 12) + sh_used (p_sh s')).
  { intros E1 E2 L0 L1 L2. rewrite L0, L1, L2. unfold inv, uploaded, owed_all. rewrite E1, E2. split; [split; [exact I1'|split; [exact I2|split; [exact I3|exact I4]]]|split; lia]. }
  destruct l as [|p port r wr u|i okd hs u| | |k l]; cbn [pstep] in H; cbv zeta in H.
  - destruct (Nat.ltb _ _); [|discriminate]. inversion H; subst. apply Hsame; reflexivity.
  - destruct (p_shake s); [discriminate|]. destruct (in_peer _) as [id| | |] eqn:Ei; try discriminate; [|inversion H; subst; apply Hsame; reflexivity].
    eapply Hnew; [reflexivity| |reflexivity|reflexivity|reflexivity|exact H]. rewrite (in_sent_short _ _ _ Ei), greet_le, zlen_app. lia.
  - destruct (nth_error (p_dial s) i); [|discriminate]. destruct okd; [|inversion H; subst; apply Hsame; reflexivity]. destruct (Nat.ltb _ _); [|discriminate]. destruct hs; [|inversion H; subst; apply Hsame; reflexivity].
    eapply Hnew; [reflexivity| |reflexivity|reflexivity|reflexivity|exact H]. rewrite greet_le. unfold FromBootstrap_sent. lia.
  - destruct (p_drop s); [discriminate|]. inversion H; subst. apply Hsame; reflexivity.
  - inversion H; subst. clear H Hnew Hsame. cbn [lets_pass is_ping is_tick p_sh p_conns sh_used]. unfold uploaded, owed_all. cbn [p_conns]. split; [|split; lia].
    split; [exact I1'|]. cbn [p_conns p_sh sh_used]. split; [exact I2|]. split; [|lia]. intros; lia.
  - destruct (nth_error (p_conns s) k) as [g|] eqn:Ek; [|discriminate]. destruct (gstep pc k (p_sh s) g l) as [| |sh g'] eqn:Eg; try discriminate. inversion H; subst s'. clear H Hnew Hsame.
    pose proof (used_step _ _ _ _ _ _ _ Eg) as U. pose proof (buf_step _ _ _ _ _ _ _ Eg) as (B1 & B2). assert (HRn : pc_rate pc <> -1) by (fold R; lia). pose proof (out_step _ _ _ _ _ _ _ HRn Eg) as O.
    assert (Hok : ok_conn g) by (eapply Forall_forall; [exact I2|eapply nth_error_In; exact Ek]). destruct Hok as [K1 K2].
    assert (LP : lets_pass (PConn k l) s = passes l g) by (destruct l; try reflexivity; cbn; now rewrite Ek).
    assert (LI : is_ping (PConn k l) * 4 = pinged l) by (destruct l; reflexivity). assert (LT : is_tick (PConn k l) = 0) by reflexivity.
    assert (HA : passes l g = 0 \/ (l = GAdd /\ a_recv (g_a g) = VAdd /\ 0 <= passes l g <= P + 13)).
    { destruct l; try (left; reflexivity). right. split; [reflexivity|]. split; [eapply add_at; exact Eg|]. cbn [passes]. unfold head_len. destruct (m_pend (g_m g)) as [|f fs]; [lia|]. inversion K2; subst. pose proof (zlen_nonneg f). lia. }
    assert (U2 : 0 <= sh_used sh <= R + P + 12).
    { destruct HA as [HA|(El & HV & HL)]; [lia|]. specialize (I3 k g Ek HV). lia. }
    split; [|split].
    + split; [exact I1'|]. cbn [p_sh p_conns]. split; [|split; [|exact U2]].
      * apply Forall_forall. intros x Hx. apply In_nth_error in Hx. destruct Hx as (j & Hj). rewrite lupd_at, Ek in Hj. destruct (Nat.eqb j k).
        -- injection Hj as <-. split; [congruence|]. rewrite <- K1. apply B2. rewrite K1. exact K2.
        -- eapply Forall_forall; [exact I2|eapply nth_error_In; exact Hj].
      * intros j x Hj Hv. rewrite lupd_at, Ek in Hj. destruct (Nat.eqb j k) eqn:Ejk.
        -- injection Hj as <-. destruct (vadd_step _ _ _ _ _ _ _ Eg Hv) as [[V1 V2]|[V1 V2]]; [specialize (I3 k g Ek V1); lia|fold R in V1; lia].
        -- destruct HA as [HA|(El & HV & HL)]; [specialize (I3 j x Hj Hv); lia|]. exfalso. apply Nat.eqb_neq in Ejk.
           assert (hold s j = true) by (unfold hold; rewrite Hj, Hv; reflexivity). assert (hold s k = true) by (unfold hold; rewrite Ek, HV; reflexivity).
           apply I1 in H. apply I1 in H0. congruence.
    + rewrite LP. unfold uploaded, owed_all. cbn [p_conns]. rewrite !(zsum_lupd _ _ _ _ _ Ek). replace (zlen (lupd (p_conns s) k g')) with (zlen (p_conns s)) by (unfold zlen; now rewrite lupd_length). lia.
    + rewrite LP, LT. cbn [p_sh]. lia.
Qed.

Lemma zlen_cons {A} (a : A) l : zlen (a :: l) = 1 + zlen l.
Proof. unfold zlen. cbn [List.length]. lia. Qed.
Lemma ticks_cons l r : ticks (l :: r) = is_tick l + ticks r.
Proof. unfold ticks. destruct l; cbn [filter is_tick]; rewrite ?zlen_cons; lia. Qed.
Lemma pings_cons l r : pings (l :: r) = is_ping l + pings r.
Proof. unfold pings. destruct l as [| | | | |k x]; cbn [filter is_ping]; try lia. destruct x; rewrite ?zlen_cons; lia. Qed.
Lemma limit_run : forall ls s s', inv s -> prun pc ls s = Some s' -> inv s' /\
  uploaded s' + owed_all s' + zlen (p_conns s) * zlen (greeting (pc_c pc)) <= uploaded s + owed_all s + passed pc ls s + 4 * pings ls + zlen (p_conns s') * zlen (greeting (pc_c pc)) /\
  passed pc ls s + sh_used (p_sh s) <= ticks ls * (R + P + 12) + sh_used (p_sh s').
Proof.
  induction ls as [|l r IH]; intros s s' HI H; cbn [prun passed] in *.
  - injection H as <-. split; [exact HI|]. unfold ticks, pings. cbn [filter zlen List.length]. change (zlen (@nil plabel)) with 0. split; lia.
  - destruct (pstep pc l s) as [| |s1] eqn:E; try discriminate. destruct (limit_step _ _ _ HI E) as (J1 & J2 & J3). destruct (IH _ _ J1 H) as (K1 & K2 & K3). rewrite ticks_cons, pings_cons. split; [exact K1|]. split; lia.
Qed.
Lemma inv_start t w peers : inv (started t w peers).
Proof. split; [apply linv_start|]. split; [apply Forall_nil|]. split; [intros [|k] g E; discriminate|]. change (sh_used (p_sh (started t w peers))) with 0. lia. Qed.
Lemma owed_nonneg g : 0 <= owed g.
Proof. unfold owed, head_len. pose proof (fun x : bytes => zlen_nonneg x). destruct (a_recv (g_a g)); try lia; try (destruct (m_pend (g_m g)) as [|f ?]; [lia|apply (H f)]). Qed.
Lemma owed_all_nonneg s : 0 <= owed_all s.
Proof. unfold owed_all, zsum. induction (p_conns s) as [|g l IH]; cbn [map fold_right]; [lia|]. pose proof (owed_nonneg g). lia. Qed.
Lemma limit_passed ls t w peers s : prun pc ls (started t w peers) = Some s -> passed pc ls (started t w peers) < (ticks ls + 1) * (R + P + 13).
Proof.
  intros H. destruct (limit_run _ _ _ (inv_start t w peers) H) as ((_ & _ & _ & B) & _ & K). change (sh_used (p_sh (started t w peers))) with 0 in K.
  assert (0 <= ticks ls) by apply zlen_nonneg. nia.
Qed.
Lemma limit_upload ls t w peers s : prun pc ls (started t w peers) = Some s ->
  uploaded s < (ticks ls + 1) * (R + P + 13) + zlen (p_conns s) * zlen (greeting (pc_c pc)) + 4 * pings ls.
Proof.
  intros H. destruct (limit_run _ _ _ (inv_start t w peers) H) as (_ & K & _). pose proof (limit_passed _ _ _ _ _ H). pose proof (owed_all_nonneg s).
  change (owed_all (started t w peers)) with 0 in K. change (uploaded (started t w peers)) with 0 in K. change (p_conns (started t w peers)) with (@nil gconn) in K. change (zlen (@nil gconn)) with 0 in K. lia.
Qed.
End limit.

(** The counter holds what has passed since the last tick. *)
Lemma used_run pc : forall ls s s', prun pc ls s = Some s' -> since_tick pc ls s (sh_used (p_sh s)) = sh_used (p_sh s').
Proof.
  induction ls as [|l r IH]; intros s s' H; cbn [prun since_tick] in *; [congruence|]. destruct (pstep pc l s) as [| |s1] eqn:E; try discriminate. rewrite <- (IH _ _ H). f_equal.
  assert (Hnew : forall sk dl r, new_handler s sk dl r = PWent s1 -> p_sh s1 = p_sh s) by (intros sk dl [g| | |] En; cbn in En; try discriminate; inversion En; reflexivity).
  destruct l as [|p port rd wr u|i okd hs u| | |k l]; cbn [pstep] in E; cbv zeta in E; cbn [lets_pass]; rewrite ?Z.add_0_r.
  - destruct (Nat.ltb _ _); [|discriminate]. inversion E; subst. reflexivity.
  - destruct (p_shake s); [discriminate|]. destruct (in_peer _); try discriminate; [now rewrite (Hnew _ _ _ E)|inversion E; subst; reflexivity].
  - destruct (nth_error (p_dial s) i); [|discriminate]. destruct okd; [|inversion E; subst; reflexivity]. destruct (Nat.ltb _ _); [|discriminate]. destruct hs; [|inversion E; subst; reflexivity]. now rewrite (Hnew _ _ _ E).
  - destruct (p_drop s); [discriminate|]. inversion E; subst. reflexivity.
  - inversion E; subst. reflexivity.
  - destruct (nth_error (p_conns s) k) as [g|] eqn:Ek; [|discriminate]. destruct (gstep pc k (p_sh s) g l) as [| |sh g'] eqn:Eg; try discriminate. inversion E; subst s1. cbn [p_sh]. rewrite (used_step _ _ _ _ _ _ _ Eg). destruct l; cbn [passes]; try reflexivity.
Qed.
