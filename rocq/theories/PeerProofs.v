(** PeerProofs.v: proofs about PeerModel. *)
From Coq Require Import ZifyBool ZifyNat ZifyN.
From Verif Require Import Base BencodeModel BencodeSpec DecimalProofs PeerModel.

Lemma last_sep (c : byte) (b b' : bytes) : ~ In c b -> ~ In c b' -> forall a a', a ++ c :: b = a' ++ c :: b' -> a = a' /\ b = b'.
Proof.
  intros Hb Hb'. induction a as [|x a IH]; intros [|y a'] E; cbn in E.
  - injection E as ->. auto.
  - exfalso. injection E as -> E. apply Hb. rewrite E. apply in_app_iff. right. left. reflexivity.
  - exfalso. injection E as <- E. apply Hb'. rewrite <- E. apply in_app_iff. right. left. reflexivity.
  - injection E as -> E. destruct (IH _ E) as [-> ->]. auto.
Qed.
Lemma itoa_chars z b : In b (itoa z) -> 48 <= b2z b <= 57 \/ b = "-"%byte.
Proof.
  intros H. destruct (Z.lt_ge_cases z 0) as [Hz|Hz].
  - destruct (itoa_neg z Hz) as (ds & E & (_ & Hd & _)). rewrite E in H. destruct H as [<-|H]; [auto|]. left. rewrite Forall_forall in Hd. auto.
  - left. pose proof (itoa_digits z ltac:(lia)) as Hd. rewrite Forall_forall in Hd. auto.
Qed.
Lemma itoa_no z c : (b2z c < 48 \/ 57 < b2z c) -> c <> "-"%byte -> ~ In c (itoa z).
Proof. intros Hc Hm H. apply itoa_chars in H. destruct H as [H|H]; [lia|congruence]. Qed.

Lemma dotted_chars a b c d x : In x (dotted a b c d) -> 48 <= b2z x <= 57 \/ x = "."%byte.
Proof.
  unfold dotted. assert (Hd : forall y, In x (itoa (b2z y)) -> 48 <= b2z x <= 57).
  { intros y Hy. pose proof (itoa_digits (b2z y) ltac:(pose proof (b2z_range y); lia)) as HF. rewrite Forall_forall in HF. auto. }
  intros H. change (B ".") with ["."%byte] in H. rewrite !in_app_iff in H. cbn [In] in H.
  destruct H as [H|[[H|[]]|[H|[[H|[]]|[H|[[H|[]]|H]]]]]]; eauto; right; symmetry; exact H.
Qed.
Lemma dotted_inj a b c d a' b' c' d' : dotted a b c d = dotted a' b' c' d' -> a = a' /\ b = b' /\ c = c' /\ d = d'.
Proof.
  assert (Hn : forall z, ~ In "."%byte (itoa z)) by (intros z; apply itoa_no; [cbn; lia|discriminate]).
  assert (Hi : forall x y, itoa (b2z x) = itoa (b2z y) -> x = y) by (intros x y E; apply b2z_inj, itoa_inj, E).
  unfold dotted. change (B ".") with ["."%byte]. cbn [app]. intros E.
  replace (itoa (b2z a) ++ "."%byte :: itoa (b2z b) ++ "."%byte :: itoa (b2z c) ++ "."%byte :: itoa (b2z d)) with
    ((itoa (b2z a) ++ "."%byte :: itoa (b2z b) ++ "."%byte :: itoa (b2z c)) ++ "."%byte :: itoa (b2z d)) in E by (rewrite <- !app_assoc; cbn [app]; rewrite <- !app_assoc; reflexivity).
  replace (itoa (b2z a') ++ "."%byte :: itoa (b2z b') ++ "."%byte :: itoa (b2z c') ++ "."%byte :: itoa (b2z d')) with
    ((itoa (b2z a') ++ "."%byte :: itoa (b2z b') ++ "."%byte :: itoa (b2z c')) ++ "."%byte :: itoa (b2z d')) in E by (rewrite <- !app_assoc; cbn [app]; rewrite <- !app_assoc; reflexivity).
  destruct (last_sep _ _ _ (Hn _) (Hn _) _ _ E) as [E1 Ed].
  replace (itoa (b2z a) ++ "."%byte :: itoa (b2z b) ++ "."%byte :: itoa (b2z c)) with ((itoa (b2z a) ++ "."%byte :: itoa (b2z b)) ++ "."%byte :: itoa (b2z c)) in E1 by (rewrite <- !app_assoc; reflexivity).
  replace (itoa (b2z a') ++ "."%byte :: itoa (b2z b') ++ "."%byte :: itoa (b2z c')) with ((itoa (b2z a') ++ "."%byte :: itoa (b2z b')) ++ "."%byte :: itoa (b2z c')) in E1 by (rewrite <- !app_assoc; reflexivity).
  destruct (last_sep _ _ _ (Hn _) (Hn _) _ _ E1) as [E2 Ec]. destruct (last_sep _ _ _ (Hn _) (Hn _) _ _ E2) as [Ea Eb]. auto.
Qed.

(** Bytes an address text may have. *)
Definition addr_byte (b : byte) : bool := is_digit b || ((97 <=? b2z b) && (b2z b <=? 102)) || Byte.eqb b ":" || Byte.eqb b "." || has b (B "<nil>?").
Lemma hexdigit_ok z : 0 <= z < 16 -> addr_byte (hexdigit z) = true /\ hexdigit z <> ":"%byte.
Proof.
  intros H. assert (Hs : forallb (fun n => addr_byte (hexdigit (Z.of_nat n)) && negb (Byte.eqb (hexdigit (Z.of_nat n)) ":")) (seq 0 16) = true) by (vm_compute; reflexivity).
  rewrite forallb_forall in Hs. specialize (Hs (Z.to_nat z) ltac:(apply in_seq; lia)). rewrite Z2Nat.id in Hs by lia. apply andb_true_iff in Hs. destruct Hs as [H1 H2]. split; [exact H1|].
  apply negb_true_iff, Byte_eqb_neq in H2. exact H2.
Qed.
Lemma hex16_ok z : 0 <= z < 65536 -> Forall (fun b => addr_byte b = true /\ b <> ":"%byte) (hex16 z).
Proof.
  intros H. unfold hex16. pose proof (Z.mod_pos_bound (z / 256) 16 ltac:(lia)). pose proof (Z.mod_pos_bound (z / 16) 16 ltac:(lia)). pose proof (Z.mod_pos_bound z 16 ltac:(lia)).
  assert (0 <= z / 4096 < 16) by (split; [apply Z.div_pos; lia|apply Z.div_lt_upper_bound; lia]).
  apply Forall_app. split; [destruct (4096 <=? z); [constructor; [apply hexdigit_ok; assumption|constructor]|constructor]|].
  apply Forall_app. split; [destruct (256 <=? z); [constructor; [apply hexdigit_ok; assumption|constructor]|constructor]|].
  apply Forall_app. split; [destruct (16 <=? z); [constructor; [apply hexdigit_ok; assumption|constructor]|constructor]|].
  constructor; [apply hexdigit_ok; assumption|constructor].
Qed.
Lemma groups16_range : forall n p, (List.length p <= n)%nat -> Forall (fun z => 0 <= z < 65536) (groups16 p).
Proof.
  induction n as [|n IH]; intros [|a [|b r]] H; cbn in H; try (constructor; fail); try lia. cbn [groups16]. constructor; [pose proof (b2z_range a); pose proof (b2z_range b); lia|]. apply IH. lia.
Qed.
Lemma print6_ok g : Forall (fun z => 0 <= z < 65536) g -> forall pos e0 e1, Forall (fun b => addr_byte b = true) (print6 g pos e0 e1).
Proof.
  induction 1 as [|x g Hx _ IH]; intros pos e0 e1; cbn [print6]; [constructor|]. destruct (_ && _)%bool.
  - apply Forall_app. split; [|apply IH]. destruct (pos =? e0)%nat; repeat constructor.
  - apply Forall_app. split; [destruct (_ || _)%bool; repeat constructor|]. apply Forall_app. split; [|apply IH]. eapply Forall_impl; [|exact (hex16_ok x Hx)]. intros b [H _]. exact H.
Qed.
Lemma String6_ok p : Forall (fun b => addr_byte b = true) (String6 p).
Proof. unfold String6. destruct (best_run _ _ _) as [e0 len]. destruct (2 <=? len)%nat; apply print6_ok, (groups16_range (List.length p)); lia. Qed.
Lemma hex8_ok b : Forall (fun b => addr_byte b = true) (hex8 b).
Proof.
  unfold hex8. pose proof (b2z_range b). pose proof (Z.mod_pos_bound (b2z b) 16 ltac:(lia)). assert (0 <= b2z b / 16 < 16) by (split; [apply Z.div_pos; lia|apply Z.div_lt_upper_bound; lia]).
  repeat constructor; apply hexdigit_ok; assumption.
Qed.
Lemma IPString_ok p : Forall (fun b => addr_byte b = true) (IPString p).
Proof.
  unfold IPString. destruct p as [|x p]; [repeat constructor|]. destruct (To4 (x :: p)) as [[[[a b] c] d]|].
  - apply Forall_forall. intros y Hy. apply dotted_chars in Hy. unfold addr_byte. destruct Hy as [Hy| ->]; [rewrite (proj2 (is_digit_iff y) Hy); reflexivity|reflexivity].
  - destruct (zlen (x :: p) =? 16); [apply String6_ok|]. apply Forall_app. split; [repeat constructor|]. apply Forall_forall. intros y Hy. apply in_flat_map in Hy. destruct Hy as (b & _ & Hy).
    pose proof (hex8_ok b) as HF. rewrite Forall_forall in HF. auto.
Qed.
Lemma IPString_no p c : addr_byte c = false -> ~ In c (IPString p).
Proof. intros Hc H. pose proof (IPString_ok p) as HF. rewrite Forall_forall in HF. specialize (HF c H). congruence. Qed.

(** ** Keys *)
Lemma Key_inj id p port id' p' port' : Key (MakePeer id p port) = Key (MakePeer id' p' port') <-> id = id' /\ IPString p = IPString p' /\ port = port'.
Proof.
  split; [|intros (-> & E & ->); unfold Key, MakePeer; cbn [pi_str]; rewrite E; reflexivity].
  unfold Key, MakePeer. cbn [pi_str]. change (B ":") with [":"%byte]. intros E.
  assert (Hn : forall z, ~ In ":"%byte (itoa z)) by (intros z; apply itoa_no; [cbn; lia|discriminate]).
  assert (Hs : forall q, ~ In " "%byte (IPString q)) by (intros q; apply IPString_no; reflexivity).
  assert (HA : forall i q z, i ++ B " @ " ++ IPString q ++ [":"%byte] ++ itoa z = (i ++ B " @ " ++ IPString q) ++ ":"%byte :: itoa z) by (intros; rewrite <- !app_assoc; reflexivity).
  rewrite !HA in E. destruct (last_sep _ _ _ (Hn _) (Hn _) _ _ E) as [E1 Ep].
  assert (HB : forall i q, i ++ B " @ " ++ IPString q = (i ++ [" "; "@"]%byte) ++ " "%byte :: IPString q) by (intros; rewrite <- !app_assoc; reflexivity).
  rewrite !HB in E1. destruct (last_sep _ _ _ (Hs _) (Hs _) _ _ E1) as [E2 Ei]. apply app_inv_tail in E2. apply itoa_inj in Ep. auto.
Qed.
Lemma To4_string p a b c d : To4 p = Some (a, b, c, d) -> IPString p = dotted a b c d.
Proof. intros H. unfold IPString. destruct p as [|x p]; [discriminate|]. rewrite H. reflexivity. Qed.
Lemma Key_inj4 id p port id' p' port' a b : To4 p = Some a -> To4 p' = Some b ->
  (Key (MakePeer id p port) = Key (MakePeer id' p' port') <-> id = id' /\ a = b /\ port = port').
Proof.
  intros Ha Hb. rewrite Key_inj. destruct a as [[[a1 a2] a3] a4], b as [[[b1 b2] b3] b4]. rewrite (To4_string _ _ _ _ _ Ha), (To4_string _ _ _ _ _ Hb).
  split; intros (H1 & H2 & H3); split; auto; split; auto.
  - apply dotted_inj in H2. destruct H2 as (-> & -> & -> & ->). reflexivity.
  - congruence.
Qed.
Lemma To4_IPv4 a b c d : To4 (IPv4 a b c d) = Some (a, b, c, d).
Proof. reflexivity. Qed.

(** ** Dialling *)
Lemma has_In c s : has c s = true <-> In c s.
Proof.
  unfold has. rewrite existsb_exists. split.
  - intros (x & Hx & E). apply Byte_eqb_eq in E. subst. exact Hx.
  - intros H. exists c. split; [exact H|]. apply Byte_eqb_eq. reflexivity.
Qed.
Lemma has_not c s : has c s = false <-> ~ In c s.
Proof. rewrite <- has_In. destruct (has c s); split; intros H; congruence || (exfalso; apply H; reflexivity). Qed.
Lemma split_last_none s : ~ In ":"%byte s -> split_last_colon s = None.
Proof.
  induction s as [|b s IH]; intros H; [reflexivity|]. cbn [split_last_colon]. rewrite IH by (intros Hi; apply H; right; exact Hi).
  replace (Byte.eqb b ":") with false; [reflexivity|]. symmetry. apply Byte_eqb_neq. intros ->. apply H. left. reflexivity.
Qed.
Lemma split_last h p : ~ In ":"%byte p -> split_last_colon (h ++ ":"%byte :: p) = Some (h, p).
Proof.
  intros Hp. induction h as [|b h IH]; cbn [app split_last_colon]; [rewrite (split_last_none p Hp); reflexivity|]. rewrite IH. reflexivity.
Qed.
Lemma split_addr p port : split_last_colon (Addr (MakePeer [] p port)) = Some (IPString p, itoa port).
Proof. apply split_last. apply itoa_no; [cbn; lia|discriminate]. Qed.
Lemma IPString_head p b r : IPString p = b :: r -> Byte.eqb b "[" = false.
Proof. intros E. apply Byte_eqb_neq. intros ->. apply (IPString_no p "["%byte eq_refl). rewrite E. left. reflexivity. Qed.
Lemma Addr_id id p port : Addr (MakePeer id p port) = IPString p ++ B ":" ++ itoa port.
Proof. reflexivity. Qed.
Lemma Addr_head id p port : exists b r, Addr (MakePeer id p port) = b :: r /\ Byte.eqb b "[" = false.
Proof.
  rewrite Addr_id. destruct (IPString p) as [|b r] eqn:E; [exists ":"%byte, (itoa port); split; reflexivity|]. exists b, (r ++ B ":" ++ itoa port). split; [reflexivity|]. exact (IPString_head p b r E).
Qed.
Lemma dial_v4 id p port a b c d : To4 p = Some (a, b, c, d) -> SplitHostPort (Addr (MakePeer id p port)) = Ok (dotted a b c d, itoa port).
Proof.
  intros H. destruct (Addr_head id p port) as (x & r & E & Hx). unfold SplitHostPort.
  assert (HS : split_last_colon (Addr (MakePeer id p port)) = Some (IPString p, itoa port)) by exact (split_addr p port). rewrite HS. rewrite E at 1. cbv iota. rewrite Hx. rewrite (To4_string _ _ _ _ _ H).
  replace (has ":" (dotted a b c d)) with false by (symmetry; apply has_not; intros Hi; apply dotted_chars in Hi; destruct Hi as [Hi|Hi]; [cbn in Hi; lia|discriminate]).
  replace (has "[" _ || has "]" _)%bool with false; [reflexivity|]. symmetry. apply orb_false_iff. rewrite !has_not.
  split; rewrite Addr_id, !in_app_iff; intros [Hi|[Hi|Hi]].
  - exact (IPString_no p "["%byte eq_refl Hi).
  - destruct Hi as [Hi|[]]; discriminate.
  - apply itoa_no in Hi; [exact Hi|cbn; lia|discriminate].
  - exact (IPString_no p "]"%byte eq_refl Hi).
  - destruct Hi as [Hi|[]]; discriminate.
  - apply itoa_no in Hi; [exact Hi|cbn; lia|discriminate].
Qed.
Lemma print6_colon x y g e0 e1 : In ":"%byte (print6 (x :: y :: g) 0 e0 e1).
Proof.
  cbn [print6]. destruct ((e0 <=? 0)%nat && (0 <? e1)%nat)%bool eqn:E0.
  - replace (0 =? e0)%nat with true by lia. apply in_app_iff. left. left. reflexivity.
  - apply in_app_iff. right. apply in_app_iff. right. destruct ((e0 <=? 1)%nat && (1 <? e1)%nat)%bool eqn:E1.
    + replace (1 =? e0)%nat with true by lia. apply in_app_iff. left. left. reflexivity.
    + replace ((1 =? 0)%nat || ((1 =? e1)%nat && (e0 <? e1)%nat))%bool with false by lia. apply in_app_iff. left. left. reflexivity.
Qed.
Lemma dial_v6 id p port : zlen p = 16 -> To4 p = None -> SplitHostPort (Addr (MakePeer id p port)) = Err EInvalid.
Proof.
  intros HL H4. destruct (Addr_head id p port) as (x & r & E & Hx). unfold SplitHostPort.
  assert (HS : split_last_colon (Addr (MakePeer id p port)) = Some (IPString p, itoa port)) by exact (split_addr p port). rewrite HS. rewrite E at 1. cbv iota. rewrite Hx.
  replace (has ":" (IPString p)) with true; [reflexivity|]. symmetry. apply has_In. unfold IPString. destruct p as [|b0 p]; [discriminate|]. rewrite H4, HL. cbn [Z.eqb Pos.eqb].
  destruct p as [|b1 [|b2 [|b3 p]]]; try (exfalso; unfold zlen in HL; cbn in HL; lia). unfold String6. cbn [groups16].
  destruct (best_run _ _ _) as [e0 len]. destruct (2 <=? len)%nat; apply print6_colon.
Qed.
