(** UrlProofs.v: net/url.Parse accepts exactly the grammar of UrlSpec. *)
From Coq Require Import ZifyBool ZifyNat ZifyN Wf_nat.
From Verif Require Import Base BencodeModel PeerModel TrackerModel LayoutModel StartModel UrlModel UrlSpec.

Definition okp {A} (r : res A) : Prop := exists t, r = Ok t.
Lemma beq_true a b : Byte.eqb a b = true -> a = b. Proof. apply Byte.byte_dec_bl. Qed.
Lemma beq_refl a : Byte.eqb a a = true. Proof. apply Byte.byte_dec_lb. reflexivity. Qed.
Lemma beq_false a b : a <> b -> Byte.eqb a b = false. Proof. intros H. destruct (Byte.eqb a b) eqn:E; [|reflexivity]. apply beq_true in E. congruence. Qed.

(** ** Bytes *)
Lemma unhex_spec x : TrackerModel.unhex x = if hexdig x then Some (UrlSpec.hexval x) else None. Proof. destruct x; vm_compute; reflexivity. Qed.
Lemma host_byte_spec x : host_byte x = name_char x. Proof. destruct x; vm_compute; reflexivity. Qed.
Lemma user_byte_spec x : user_byte x = user_char x. Proof. destruct x; vm_compute; reflexivity. Qed.
Lemma letter_spec x : isletter x = alpha x. Proof. destruct x; vm_compute; reflexivity. Qed.
Lemma digit_spec x : isdigit x = num x. Proof. reflexivity. Qed.
Lemma hexval_range x : hexdig x = true -> 0 <= UrlSpec.hexval x < 16. Proof. destruct x; vm_compute; intros H; try discriminate; split; congruence || reflexivity. Qed.
Lemma hexval_2 x : hexdig x = true -> Byte.eqb x "2" = (UrlSpec.hexval x =? 2). Proof. destruct x; vm_compute; intros H; try discriminate; reflexivity. Qed.
Lemma hexval_5 x : hexdig x = true -> Byte.eqb x "5" = (UrlSpec.hexval x =? 5). Proof. destruct x; vm_compute; intros H; try discriminate; reflexivity. Qed.
Lemma pct25_spec x y : hexdig x = true -> hexdig y = true -> pct25 x y = (16 * UrlSpec.hexval x + UrlSpec.hexval y =? 37).
Proof. intros Hx Hy. unfold pct25. rewrite (hexval_2 x Hx), (hexval_5 y Hy). pose proof (hexval_range x Hx). pose proof (hexval_range y Hy). lia. Qed.

(** ** Escapes *)
Definition okval (m : mode) : Z -> bool :=
  match m with Host => fun v => (128 <=? v) || (v =? 37) | Zone => fun v => (v =? 37) || (v =? 32) || name_char (z2b v) | Other => fun _ => true end.
Definition okraw (m : mode) : byte -> bool := match m with Other => fun _ => true | _ => fun c => (128 <=? b2z c) || name_char c end.
Lemma unescape_spec m : forall s, unescape m s = if escaped_as (okval m) (okraw m) s then Ok (meaning s) else Err EInvalid.
Proof.
  intros s. induction s as [s IH] using (induction_ltof1 _ (@List.length byte)). unfold ltof in IH. destruct s as [|b r]; [reflexivity|].
  assert (Hraw : negb (raw_refused m b) = okraw m b) by (unfold raw_refused, okraw; destruct m; try reflexivity; rewrite host_byte_spec; destruct (b2z b <? 128) eqn:E1, (128 <=? b2z b) eqn:E2, (name_char b); try reflexivity; lia).
  cbn [unescape escaped_as]. destruct (Byte.eqb b "%") eqn:Eb.
  - destruct r as [|x [|y r']]; [reflexivity..|]. rewrite !unhex_spec. destruct (hexdig x) eqn:Hx; [|reflexivity]. destruct (hexdig y) eqn:Hy; [|reflexivity]. cbn [andb].
    assert (Hv : negb (esc_refused m x y (UrlSpec.hexval x) (UrlSpec.hexval y)) = okval m (16 * UrlSpec.hexval x + UrlSpec.hexval y)).
    { pose proof (hexval_range x Hx). pose proof (hexval_range y Hy). unfold esc_refused, okval. destruct m; [| |reflexivity]; rewrite (pct25_spec x y Hx Hy), ?host_byte_spec; [lia|]. destruct (name_char _); lia. }
    destruct (esc_refused m x y _ _) eqn:Er; cbn [negb] in Hv; rewrite <- Hv; [reflexivity|]. cbn [andb]. rewrite IH by (cbn; lia). destruct (escaped_as _ _ r'); [|reflexivity]. cbn [bind meaning]. rewrite Eb. reflexivity.
  - destruct (raw_refused m b); cbn [negb] in Hraw; rewrite <- Hraw; [reflexivity|]. cbn [andb]. rewrite IH by (cbn; lia). destruct (escaped_as _ _ r); [|reflexivity]. cbn [bind meaning]. destruct r as [|x [|y r']]; rewrite ?Eb; reflexivity.
Qed.
Lemma unescape_ok m s : okp (unescape m s) <-> escaped_as (okval m) (okraw m) s = true.
Proof. rewrite unescape_spec. destruct (escaped_as _ _ s); split; intros H; [reflexivity|eexists; reflexivity|destruct H; discriminate|discriminate]. Qed.
(** A byte that is no hex digit and no % ends whatever escape there is. *)
Lemma escaped_split v w c y : hexdig c = false -> forall x, escaped_as v w (x ++ c :: y) = escaped_as v w x && escaped_as v w (c :: y).
Proof.
  intros Hc x. induction x as [x IH] using (induction_ltof1 _ (@List.length byte)). unfold ltof in IH. destruct x as [|b r]; [reflexivity|].
  cbn [app]. rewrite (eq_refl : escaped_as v w (b :: r) = if Byte.eqb b "%" then match r with x :: y :: r' => hexdig x && hexdig y && v (16 * UrlSpec.hexval x + UrlSpec.hexval y) && escaped_as v w r' | _ => false end else w b && escaped_as v w r).
  rewrite (eq_refl : escaped_as v w (b :: r ++ c :: y) = if Byte.eqb b "%" then match r ++ c :: y with x :: y :: r' => hexdig x && hexdig y && v (16 * UrlSpec.hexval x + UrlSpec.hexval y) && escaped_as v w r' | _ => false end else w b && escaped_as v w (r ++ c :: y)).
  destruct (Byte.eqb b "%").
  - destruct r as [|x1 [|x2 r']]; cbn [app].
    + destruct y as [|y1 y]; [reflexivity|]. rewrite Hc. reflexivity.
    + rewrite Hc, !andb_false_r. reflexivity.
    + rewrite IH by (cbn; lia). rewrite !andb_assoc. reflexivity.
  - rewrite IH by (cbn; lia). apply andb_assoc.
Qed.
Lemma escaped_cons v w c y : Byte.eqb c "%" = false -> escaped_as v w (c :: y) = w c && escaped_as v w y.
Proof. intros H. cbn [escaped_as]. rewrite H. reflexivity. Qed.
Lemma escaped_digits v w d : (forall c, num c = true -> w c = true) -> forallb num d = true -> escaped_as v w d = true.
Proof.
  intros Hw. induction d as [|c d IH]; intros H; [reflexivity|]. cbn [forallb] in H. apply andb_prop in H. destruct H as [H1 H2]. rewrite escaped_cons by (apply beq_false; intros ->; discriminate H1). rewrite Hw, IH by assumption. reflexivity.
Qed.

(** ** Cutting *)
Lemma cut_at c x y : without c x -> cut c (x ++ c :: y) = (x, y).
Proof. induction x as [|b x IH]; intros H; cbn [app cut]; [rewrite beq_refl; reflexivity|]. rewrite beq_false by (intros ->; apply H; left; reflexivity). rewrite IH; [reflexivity|]. intros Hi. apply H. right. exact Hi. Qed.
Lemma cut_none c x : without c x -> cut c x = (x, []).
Proof. induction x as [|b x IH]; intros H; cbn [cut]; [reflexivity|]. rewrite beq_false by (intros ->; apply H; left; reflexivity). rewrite IH; [reflexivity|]. intros Hi. apply H. right. exact Hi. Qed.
Lemma split_at (c : byte) s : without c s \/ exists x y, s = x ++ c :: y /\ without c x.
Proof.
  induction s as [|b s IH]; [left; intros []|]. destruct (Byte.eqb b c) eqn:E; [apply beq_true in E; subst; right; exists [], s; split; [reflexivity|intros []]|].
  assert (b <> c) by (intros ->; rewrite beq_refl in E; discriminate). destruct IH as [IH|(x & y & -> & IH)]; [left; intros [Hi|Hi]; auto|]. right. exists (b :: x), y. split; [reflexivity|]. intros [Hi|Hi]; auto.
Qed.
Lemma rcut_none c s : without c s -> rcut c s = None.
Proof. induction s as [|b s IH]; intros H; cbn [rcut]; [reflexivity|]. rewrite IH by (intros Hi; apply H; right; exact Hi). rewrite beq_false; [reflexivity|]. intros ->. apply H. left. reflexivity. Qed.
Lemma rcut_at c x y : without c y -> rcut c (x ++ c :: y) = Some (x, y).
Proof. intros H. induction x as [|b x IH]; cbn [app rcut]; [rewrite rcut_none, beq_refl by exact H; reflexivity|]. rewrite IH. reflexivity. Qed.
Lemma split_last (c : byte) s : without c s \/ exists x y, s = x ++ c :: y /\ without c y.
Proof.
  induction s as [|b s IH]; [left; intros []|]. destruct IH as [IH|(x & y & -> & IH)]; [|right; exists (b :: x), y; split; [reflexivity|exact IH]].
  destruct (Byte.eqb b c) eqn:E; [apply beq_true in E; subst; right; exists [], s; auto|]. left. intros [Hi|Hi]; [subst; rewrite beq_refl in E; discriminate|auto].
Qed.
Lemma slash_at x y : without "/" x -> slash (x ++ "/"%byte :: y) = (x, "/"%byte :: y).
Proof. induction x as [|b x IH]; intros H; cbn [app slash]; [reflexivity|]. rewrite beq_false by (intros ->; apply H; left; reflexivity). rewrite IH; [reflexivity|]. intros Hi. apply H. right. exact Hi. Qed.
Lemma slash_none x : without "/" x -> slash x = (x, []).
Proof. induction x as [|b x IH]; intros H; cbn [slash]; [reflexivity|]. rewrite beq_false by (intros ->; apply H; left; reflexivity). rewrite IH; [reflexivity|]. intros Hi. apply H. right. exact Hi. Qed.
Lemma slash_path a path : without "/" a -> path = [] \/ begins_with (B "/") path -> slash (a ++ path) = (a, path).
Proof. intros Ha [->|[r ->]]; [rewrite app_nil_r; apply slash_none; exact Ha|]. apply slash_at. exact Ha. Qed.
(** %25 *)
Lemma no_25_tail b s : no_25 (b :: s) -> no_25 s.
Proof. intros H x y ->. apply (H (b :: x) y). reflexivity. Qed.
Lemma cut25_head b s : (match s with x :: y :: _ => Byte.eqb b "%" && pct25 x y | _ => false end = true) <-> exists z, b :: s = B "%25" ++ z.
Proof.
  split.
  - destruct s as [|x [|y s]]; try discriminate. intros H. apply andb_prop in H. destruct H as [H1 H2]. apply andb_prop in H2. destruct H2 as [H2 H3]. apply beq_true in H1, H2, H3. subst. exists s. reflexivity.
  - intros (z & H). cbn in H. injection H as -> ->. reflexivity.
Qed.
Lemma cut25_none s : no_25 s -> cut25 s = None.
Proof.
  induction s as [|b s IH]; intros H; [reflexivity|]. cbn [cut25]. destruct (match s with x :: y :: _ => Byte.eqb b "%" && pct25 x y | _ => false end) eqn:E.
  - apply cut25_head in E. destruct E as [z E]. exfalso. exact (H [] z E).
  - rewrite IH; [reflexivity|]. exact (no_25_tail _ _ H).
Qed.
Lemma cut25_at z : forall x, no_25 x -> cut25 (x ++ B "%25" ++ z) = Some (x, B "%25" ++ z).
Proof.
  induction x as [|b x IH]; intros H; [reflexivity|]. cbn [app cut25]. rewrite IH by exact (no_25_tail _ _ H).
  destruct (match x ++ B "%25" ++ z with x0 :: y :: _ => Byte.eqb b "%" && pct25 x0 y | _ => false end) eqn:E; [|reflexivity].
  exfalso. apply cut25_head in E. destruct E as [t E]. destruct x as [|x1 [|x2 x]]; cbn in E; [discriminate|discriminate|]. injection E as -> -> -> _. exact (H [] x eq_refl).
Qed.
Lemma split_25 s : no_25 s \/ exists x z, s = x ++ B "%25" ++ z /\ no_25 x.
Proof.
  induction s as [|b s IH]; [left; intros x y H; destruct x; discriminate|].
  destruct (match s with x :: y :: _ => Byte.eqb b "%" && pct25 x y | _ => false end) eqn:E.
  - apply cut25_head in E. destruct E as [z E]. right. exists [], z. split; [exact E|]. intros x y H. destruct x; discriminate.
  - assert (Hh : forall z, b :: s <> B "%25" ++ z) by (intros z Hz; assert (He : exists z, b :: s = B "%25" ++ z) by eauto; apply cut25_head in He; congruence).
    assert (Hcons : forall t, (exists u, s = t ++ u) -> no_25 t -> no_25 (b :: t)).
    { intros t [u Hu] Ht x y Hxy. destruct x as [|x1 x]; [apply (Hh (y ++ u)); rewrite app_assoc, <- app_comm_cons in Hxy || idtac; subst s; rewrite app_comm_cons, Hxy; reflexivity|]. cbn in Hxy. injection Hxy as -> Hxy. exact (Ht x y Hxy). }
    destruct IH as [IH|(x & z & -> & IH)]; [left; apply Hcons; [exists []; rewrite app_nil_r; reflexivity|exact IH]|]. right. exists (b :: x), z. split; [reflexivity|]. apply Hcons; [eauto|exact IH].
Qed.

(** ** Hosts *)
Lemma num_host c : num c = true -> okraw Host c = true.
Proof. intros H. unfold okraw, name_char. rewrite H. rewrite orb_true_r. apply orb_true_r. Qed.
Lemma name_text_spec s : name_text s = escaped_as (okval Host) (okraw Host) s. Proof. reflexivity. Qed.
Lemma zone_text_spec s : zone_text s = escaped_as (okval Zone) (okraw Zone) s. Proof. reflexivity. Qed.
Lemma name_port h d : forallb num d = true -> name_text (h ++ ":"%byte :: d) = name_text h.
Proof. intros Hd. rewrite !name_text_spec, escaped_split by reflexivity. rewrite escaped_cons by reflexivity. rewrite (escaped_digits _ _ _ num_host Hd). apply andb_true_r. Qed.
Lemma name_portx p : port_text p -> name_text ("]"%byte :: p) = true.
Proof. intros [->|(d & -> & Hd)]; [reflexivity|]. rewrite name_text_spec, !escaped_cons by reflexivity. rewrite (escaped_digits _ _ _ num_host Hd). reflexivity. Qed.
Lemma port_spec p : validOptionalPort p = true <-> port_text p.
Proof.
  unfold validOptionalPort, port_text. destruct p as [|b d]; [tauto|]. split.
  - intros H. apply andb_prop in H. destruct H as [H1 H2]. apply beq_true in H1. subst. right. exists d. auto.
  - intros [H|(d' & H & Hd)]; [discriminate|]. injection H as -> ->. exact Hd.
Qed.
Lemma port_without p c : port_text p -> num c = false -> c <> ":"%byte -> without c p.
Proof.
  intros [->|(d & -> & Hd)] Hc Hn; [intros []|]. intros [Hi|Hi]; [congruence|]. rewrite forallb_forall in Hd. apply Hd in Hi. congruence.
Qed.
Lemma digits_without d c : forallb num d = true -> num c = false -> without c d.
Proof. intros Hd Hc Hi. rewrite forallb_forall in Hd. apply Hd in Hi. congruence. Qed.
Lemma bracket_25 x : no_25 x <-> no_25 ("["%byte :: x).
Proof. split; [|apply no_25_tail]. intros H a b E. destruct a as [|a1 a]; [discriminate|]. cbn in E. injection E as _ E. exact (H a b E). Qed.
Lemma bracket_name x : name_text ("["%byte :: x) = name_text x.
Proof. rewrite !name_text_spec, escaped_cons by reflexivity. reflexivity. Qed.
Lemma literal_name x p : port_text p -> name_text ("["%byte :: x ++ "]"%byte :: p) = name_text x.
Proof. intros Hp. rewrite bracket_name, !name_text_spec, escaped_split by reflexivity. pose proof (name_portx p Hp) as H. rewrite name_text_spec in H. rewrite H. apply andb_true_r. Qed.
Lemma parseHost_open h b : h = "["%byte :: b -> parseHost h = match rcut "]" h with
      | None => Err EInvalid
      | Some (x, tail) => if validOptionalPort tail then match cut25 x with
          | Some (h1, h2) => do a <- unescape Host h1; do b <- unescape Zone h2; do c <- unescape Host ("]"%byte :: tail); Ok (a ++ b ++ c)
          | None => unescape Host h end else Err EInvalid end.
Proof. intros ->. reflexivity. Qed.
Lemma parseHost_plain h : ~ begins_with (B "[") h -> parseHost h = match rcut ":" h with Some (_, port) => if forallb isdigit port then unescape Host h else Err EInvalid | None => unescape Host h end.
Proof. intros H. destruct h as [|b h]; [reflexivity|]. cbn [parseHost]. rewrite beq_false; [reflexivity|]. intros ->. apply H. exists h. reflexivity. Qed.
Lemma open_dec h : (exists r, h = "["%byte :: r) \/ ~ begins_with (B "[") h.
Proof. destruct h as [|b h]; [right; intros [r H]; discriminate|]. destruct (Byte.eqb b "[") eqn:E; [apply beq_true in E; subst; left; eauto|]. right. intros [r H]. cbn in H. injection H as -> _. rewrite beq_refl in E. discriminate. Qed.
Lemma parseHost_sound h : host_text h -> okp (parseHost h).
Proof.
  intros H. destruct H as [h Hb Hc Hn|h d Hb Hd Hn|x p H25 Hn Hp|x z p H25 Hn Hz Hp].
  - rewrite (parseHost_plain _ Hb), (rcut_none _ _ Hc). apply unescape_ok. exact Hn.
  - rewrite parseHost_plain. 2: { intros [r Hr]. destruct h as [|b h]; cbn in Hr; [discriminate|]. injection Hr as -> _. apply Hb. exists h. reflexivity. }
    rewrite rcut_at by (apply digits_without; [exact Hd|reflexivity]). rewrite (eq_refl : forallb isdigit d = forallb num d), Hd. apply unescape_ok. rewrite <- name_text_spec, name_port by exact Hd. exact Hn.
  - rewrite (parseHost_open _ _ eq_refl). rewrite app_comm_cons, rcut_at by (apply port_without; [exact Hp|reflexivity|discriminate]). rewrite (proj2 (port_spec p) Hp), cut25_none by (apply -> bracket_25; exact H25).
    apply unescape_ok. cbn [app]. rewrite <- name_text_spec, literal_name by exact Hp. exact Hn.
  - rewrite (parseHost_open _ _ eq_refl). rewrite app_assoc, app_comm_cons, rcut_at by (apply port_without; [exact Hp|reflexivity|discriminate]). rewrite (proj2 (port_spec p) Hp).
    rewrite app_comm_cons, cut25_at by (apply -> bracket_25; exact H25). rewrite !unescape_spec. rewrite <- !name_text_spec, <- zone_text_spec, bracket_name, Hn, Hz, name_portx by exact Hp. cbn [bind]. eexists. reflexivity.
Qed.
Lemma parseHost_complete h : okp (parseHost h) -> host_text h.
Proof.
  intros H. destruct (open_dec h) as [[b Eb]|Hb].
  - rewrite (parseHost_open _ _ Eb) in H. destruct (split_last "]" h) as [Hn|(x & p & E & Hp)]; [rewrite (rcut_none _ _ Hn) in H; destruct H; discriminate|].
    rewrite E in H at 1. rewrite (rcut_at _ _ _ Hp) in H. destruct (validOptionalPort p) eqn:Ep; [|destruct H; discriminate]. apply port_spec in Ep.
    destruct x as [|x0 x]; [subst h; discriminate|]. assert (x0 = "["%byte) as -> by (subst h; cbn in E; congruence). cbn [app] in E. destruct (split_25 x) as [H25|(y & z & -> & H25)].
    + rewrite cut25_none in H by (apply -> bracket_25; exact H25). rewrite E. apply host_literal; [exact H25| |exact Ep]. rewrite E in H. apply unescape_ok in H. rewrite <- name_text_spec, literal_name in H by exact Ep. exact H.
    + rewrite app_comm_cons, cut25_at in H by (apply -> bracket_25; exact H25). rewrite !unescape_spec in H. rewrite <- !name_text_spec, <- zone_text_spec, bracket_name in H.
      rewrite E, <- app_assoc. destruct (name_text y) eqn:E1; [|destruct H; discriminate]. cbn [bind] in H. destruct (zone_text _) eqn:E2; [|destruct H; discriminate]. apply host_zone; assumption.
  - rewrite (parseHost_plain _ Hb) in H. destruct (split_last ":" h) as [Hn|(x & d & -> & Hd)].
    + rewrite (rcut_none _ _ Hn) in H. apply unescape_ok in H. constructor; assumption.
    + rewrite (rcut_at _ _ _ Hd) in H. rewrite (eq_refl : forallb isdigit d = forallb num d) in H. destruct (forallb num d) eqn:Ed; [|destruct H; discriminate]. apply unescape_ok in H. rewrite <- name_text_spec, name_port in H by exact Ed.
      constructor; [|exact Ed|exact H]. intros [r ->]. apply Hb. exists (r ++ ":"%byte :: d). reflexivity.
Qed.
Lemma parseHost_iff h : okp (parseHost h) <-> host_text h. Proof. split; [apply parseHost_complete|apply parseHost_sound]. Qed.
(** What remains of a host that is not empty is not empty. *)
Lemma meaning_nil s : meaning s = [] <-> s = [].
Proof. split; [|intros ->; reflexivity]. destruct s as [|c [|x [|y r]]]; cbn [meaning]; try discriminate; [reflexivity|]. destruct (Byte.eqb c "%"); discriminate. Qed.
Lemma meaning_colon s : name_text s = true -> meaning s = B ":" <-> s = B ":".
Proof.
  intros Hn. split; [|intros ->; reflexivity]. destruct s as [|c [|x [|y r]]]; cbn [meaning]; try discriminate; [intros H; exact H|].
  intros H. destruct (Byte.eqb c "%") eqn:Ec.
  - exfalso. cbn [name_text escaped_as] in Hn. unfold name_text in Hn. cbn [escaped_as] in Hn. rewrite Ec in Hn. apply andb_prop in Hn. destruct Hn as [Hn _]. apply andb_prop in Hn. destruct Hn as [Hn Hv]. apply andb_prop in Hn. destruct Hn as [Hx Hy].
    pose proof (hexval_range _ Hx) as Rx. pose proof (hexval_range _ Hy) as Ry. injection H as H _. unfold decoded_byte in H. apply (f_equal b2z) in H. rewrite b2z_z2b in H. change (b2z ":") with 58 in H. rewrite Z.mod_small in H by lia. lia.
  - injection H as -> H. destruct r as [|z r]; [discriminate|]. destruct (Byte.eqb x "%"); discriminate.
Qed.

(** ** Authorities *)
Lemma parseHost_value h t : parseHost h = Ok t -> (t = [] <-> h = []) /\ (t = B ":" <-> h = B ":").
Proof.
  intros H. assert (Ht : host_text h) by (apply parseHost_iff; eexists; exact H). destruct (open_dec h) as [[b Eb]|Hb].
  - assert (Hf : exists t', t = "["%byte :: t'); [|destruct Hf as [t' ->]; subst h; split; split; discriminate].
    rewrite (parseHost_open _ _ Eb) in H. destruct (split_last "]" h) as [Hn|(x & p & E & Hp)]; [rewrite (rcut_none _ _ Hn) in H; discriminate|].
    rewrite E in H at 1. rewrite (rcut_at _ _ _ Hp) in H. destruct (validOptionalPort p); [|discriminate]. destruct x as [|x0 x]; [subst h; discriminate|]. assert (x0 = "["%byte) as -> by (subst h; cbn in E; congruence).
    assert (Hm : forall z, exists t', meaning ("["%byte :: z) = "["%byte :: t') by (intros [|z1 [|z2 z]]; eexists; reflexivity).
    destruct (split_25 x) as [H25|(y & z & -> & H25)].
    + rewrite cut25_none in H by (apply -> bracket_25; exact H25). rewrite unescape_spec in H. destruct (escaped_as _ _ h); [|discriminate]. destruct (Hm b) as [t' Et]. exists t'. rewrite <- Et, <- Eb. congruence.
    + rewrite app_comm_cons, cut25_at in H by (apply -> bracket_25; exact H25). rewrite !unescape_spec in H. destruct (escaped_as _ _ ("["%byte :: y)); [|discriminate]. cbn [bind] in H. destruct (escaped_as _ _ (B "%25" ++ z)); [|discriminate]. cbn [bind] in H.
      destruct (escaped_as _ _ ("]"%byte :: p)); [|discriminate]. cbn [bind] in H. destruct (Hm y) as [t' Et]. rewrite Et in H. eexists. injection H as <-. reflexivity.
  - assert (Hv : unescape Host h = Ok t).
    { rewrite (parseHost_plain _ Hb) in H. destruct (rcut ":" h) as [[x p]|]; [|exact H]. destruct (forallb isdigit p); [exact H|discriminate]. }
    rewrite unescape_spec in Hv. destruct (escaped_as _ _ h) eqn:En; [|discriminate]. rewrite <- name_text_spec in En. assert (t = meaning h) as -> by congruence. split; [apply meaning_nil|apply meaning_colon; exact En].
Qed.
Lemma user_spec u : forallb user_byte u = forallb user_char u. Proof. induction u as [|c u IH]; [reflexivity|]. cbn [forallb]. rewrite user_byte_spec, IH. reflexivity. Qed.
Lemma user_parts u : (let (name, pass) := cut ":" u in okp (unescape Other name) /\ okp (unescape Other pass)) <-> escaped u = true.
Proof.
  destruct (split_at ":" u) as [Hn|(x & y & -> & Hx)].
  - rewrite (cut_none _ _ Hn). rewrite !unescape_ok. split; [tauto|]. intros H. split; [exact H|reflexivity].
  - rewrite (cut_at _ _ _ Hx), !unescape_ok. unfold escaped. rewrite escaped_split by reflexivity. rewrite escaped_cons by reflexivity. cbn [andb]. rewrite andb_true_iff. reflexivity.
Qed.
Lemma parseAuthority_iff a : okp (parseAuthority a) <-> authority a.
Proof.
  unfold parseAuthority. destruct (split_last "@" a) as [Hn|(u & h & -> & Hh)].
  - rewrite (rcut_none _ _ Hn), parseHost_iff. split; [intros H; constructor; assumption|]. intros H. destruct H as [h _ H|u h]; [exact H|]. exfalso. apply Hn. apply in_or_app. right. left. reflexivity.
  - rewrite (rcut_at _ _ _ Hh), user_spec. pose proof (parseHost_iff h) as Hp. pose proof (user_parts u) as Hu. destruct (cut ":" u) as [name pass]. split.
    + intros [t H]. destruct (parseHost h) as [v| | |]; try discriminate. cbn [bind] in H. destruct (forallb user_char u) eqn:Eu; [|discriminate]. destruct (unescape Other name) as [v1| | |]; try discriminate. cbn [bind] in H. destruct (unescape Other pass) as [v2| | |]; try discriminate.
      constructor; [exact Eu|apply Hu; split; eexists; reflexivity|exact Hh|apply Hp; eexists; reflexivity].
    + intros H. assert (Hx : forallb user_char u = true /\ escaped u = true /\ host_text h).
      { remember (u ++ "@"%byte :: h) as a eqn:Ea. destruct H as [h' Hh' H|u' h' H1 H2 H3 H4]; [exfalso; apply Hh'; rewrite Ea; apply in_or_app; right; left; reflexivity|].
        assert (E : rcut "@" (u' ++ "@"%byte :: h') = rcut "@" (u ++ "@"%byte :: h)) by (rewrite Ea; reflexivity). rewrite !rcut_at in E by assumption. injection E as -> ->. auto. }
      destruct Hx as (H1 & H2 & H3). apply Hp in H3. destruct H3 as [t ->]. apply Hu in H2. destruct H2 as [[v1 ->] [v2 ->]]. rewrite H1. cbn [bind]. eexists. reflexivity.
Qed.
(** ** The scheme *)
Definition scheme_char (c : byte) : bool := alpha c || num c || among (B "+-.") c.
Lemma scheme_false : forall r, match scheme_from false r with
  | Ok (Some (x, y)) => r = x ++ ":"%byte :: y /\ forallb scheme_char x = true
  | Ok None => forall x y, forallb scheme_char x = true -> r <> x ++ ":"%byte :: y
  | _ => False end.
Proof.
  induction r as [|c r IH]; [cbn; intros [|? ?] y _; discriminate|]. cbn [scheme_from].
  assert (Hmore : scheme_char c = true -> match (match scheme_from false r with Ok (Some (x, y)) => Ok (Some (c :: x, y)) | e => e end) with
    | Ok (Some (x, y)) => c :: r = x ++ ":"%byte :: y /\ forallb scheme_char x = true
    | Ok None => forall x y, forallb scheme_char x = true -> c :: r <> x ++ ":"%byte :: y
    | _ => False end).
  { intros Hc. destruct (scheme_from false r) as [[[x y]|]| | |]; try exact IH.
    - destruct IH as [-> H]. split; [reflexivity|]. cbn [forallb]. rewrite Hc. exact H.
    - intros [|x0 x] y Hx E; cbn in E; [injection E as -> _; vm_compute in Hc; discriminate|]. injection E as -> ->. cbn [forallb] in Hx. apply andb_prop in Hx. exact (IH x y (proj2 Hx) eq_refl). }
  rewrite letter_spec, digit_spec. rewrite (eq_refl : existsb (Byte.eqb c) (B "+-.") = among (B "+-.") c). unfold scheme_char in Hmore at 1.
  destruct (alpha c) eqn:Ea; [apply Hmore; reflexivity|]. destruct (num c || among (B "+-.") c) eqn:En; [apply Hmore; cbn [orb]; exact En|].
  destruct (Byte.eqb c ":") eqn:Ec; [apply beq_true in Ec; subst; split; reflexivity|].
  intros [|x0 x] y Hx E; cbn in E; [injection E as -> _; rewrite beq_refl in Ec; discriminate|]. injection E as -> _. cbn [forallb] in Hx. apply andb_prop in Hx. destruct Hx as [Hx _]. unfold scheme_char in Hx. rewrite Ea in Hx. cbn [orb] in Hx. congruence.
Qed.
Lemma scheme_spec r : match scheme_from true r with
  | Ok (Some (x, y)) => r = x ++ ":"%byte :: y /\ scheme_text x
  | Ok None => forall x y, x = [] \/ scheme_text x -> r <> x ++ ":"%byte :: y
  | Err _ => exists y, r = ":"%byte :: y
  | _ => False end.
Proof.
  destruct r as [|c r]; [cbn; intros [|? ?] y _; discriminate|]. cbn [scheme_from]. rewrite letter_spec, digit_spec. rewrite (eq_refl : existsb (Byte.eqb c) (B "+-.") = among (B "+-.") c). pose proof (scheme_false r) as Hf.
  destruct (alpha c) eqn:Ea.
  - destruct (scheme_from false r) as [[[x y]|]| | |]; try (destruct Hf; fail).
    + destruct Hf as [-> H]. split; [reflexivity|]. exists c, x. auto.
    + intros x y [->|(c' & x' & -> & H1 & H2)] E; cbn in E; [injection E as -> _; discriminate|]. injection E as -> ->. exact (Hf x' y H2 eq_refl).
  - assert (Hno : c <> ":"%byte -> forall x y, x = [] \/ scheme_text x -> c :: r <> x ++ ":"%byte :: y).
    { intros Hc x y [->|(c' & x' & -> & H1 & H2)] E; cbn in E; [injection E as -> _; congruence|]. injection E as -> _. congruence. }
    destruct (num c || among (B "+-.") c) eqn:En; [apply Hno; intros ->; discriminate|]. destruct (Byte.eqb c ":") eqn:Ec; [apply beq_true in Ec; subst; eexists; reflexivity|]. apply Hno. intros ->. discriminate.
Qed.

(** ** The rest *)
Lemma starts_spec p s : starts p s = true <-> begins_with p s.
Proof.
  unfold starts. rewrite beqb_eq. split; [intros H; exists (skipn (List.length p) s); rewrite H at 1; symmetry; apply firstn_skipn|]. intros [r ->]. rewrite firstn_app, Nat.sub_diag, firstn_all. cbn. rewrite app_nil_r. reflexivity.
Qed.
Lemma starts_no p s : starts p s = false <-> ~ begins_with p s.
Proof. rewrite <- starts_spec. destruct (starts p s); split; congruence || tauto. Qed.
Lemma has_spec c s : has c s = false <-> without c s.
Proof.
  unfold has, without. split.
  - intros H Hi. assert (Ht : existsb (Byte.eqb c) s = true) by (apply existsb_exists; exists c; split; [exact Hi|apply beq_refl]). congruence.
  - intros H. destruct (existsb (Byte.eqb c) s) eqn:E; [|reflexivity]. apply existsb_exists in E. destruct E as (x & Hx & Ex). apply beq_true in Ex. subst. contradiction.
Qed.
(** url.go parse after the scheme and the query are off *)
Definition parse_hier (s rest q : bytes) : res url :=
    if starts (B "/") rest || beqb s [] then
      if negb (starts (B "/") rest) && has ":" (fst (cut "/" rest)) then Err EInvalid
      else if (negb (beqb s []) || negb (starts (B "///") rest)) && starts (B "//") rest then
        let (a, path) := slash (skipn 2 rest) in
        do h <- parseAuthority a;
        do p <- unescape Other path;
        Ok (mkurl s [] h p q)
      else
        do p <- unescape Other rest;
        Ok (mkurl s [] [] p q)
    else Ok (mkurl s rest [] [] q).
Lemma slash_split r : exists a path, r = a ++ path /\ without "/" a /\ (path = [] \/ begins_with (B "/") path).
Proof.
  destruct (split_at "/" r) as [H|(x & y & -> & H)]; [exists r, []; rewrite app_nil_r; auto|]. exists x, ("/"%byte :: y). split; [reflexivity|]. split; [exact H|]. right. exists y. reflexivity.
Qed.
Lemma begins_1 p : begins_with (B "//") p -> begins_with (B "/") p. Proof. intros [r ->]. exists ("/"%byte :: r). reflexivity. Qed.
Lemma begins_2 p : begins_with (B "///") p -> begins_with (B "//") p. Proof. intros [r ->]. exists ("/"%byte :: r). reflexivity. Qed.
Lemma net_3 a path : without "/" a -> path = [] \/ begins_with (B "/") path -> begins_with (B "///") (B "//" ++ a ++ path) <-> a = [] /\ path <> [].
Proof.
  intros Ha Hp. split.
  - intros [r H]. cbn in H. injection H as H. destruct a as [|a0 a]; [|exfalso; cbn in H; injection H as -> _; apply Ha; left; reflexivity]. split; [reflexivity|]. cbn in H. rewrite H. discriminate.
  - intros [-> Hn]. destruct Hp as [Hp|[r ->]]; [contradiction|]. exists r. reflexivity.
Qed.
Lemma parse_net s a path q : without "/" a -> path = [] \/ begins_with (B "/") path -> s <> [] \/ a <> [] \/ path = [] ->
  parse_hier s (B "//" ++ a ++ path) q = do h <- parseAuthority a; do p <- unescape Other path; Ok (mkurl s [] h p q).
Proof.
  intros Ha Hp Hc. unfold parse_hier. rewrite (proj2 (starts_spec (B "/") _)) by (eexists ("/"%byte :: _); reflexivity). cbn [orb negb andb].
  rewrite (proj2 (starts_spec (B "//") _)) by (eexists; reflexivity). rewrite andb_true_r.
  assert (E : negb (beqb s []) || negb (starts (B "///") (B "//" ++ a ++ path)) = true).
  { destruct (beqb s []) eqn:Es; [|reflexivity]. apply beqb_eq in Es. subst s. cbn [negb orb]. rewrite (proj2 (starts_no _ _)); [reflexivity|]. rewrite net_3 by assumption. intros [A C]. destruct Hc as [Hc|[Hc|Hc]]; congruence. }
  rewrite E. change (skipn 2 (B "//" ++ a ++ path)) with (a ++ path). rewrite slash_path by assumption. reflexivity.
Qed.
Lemma nonempty_b s : beqb s [] = false <-> s <> [].
Proof. destruct s; cbn; split; congruence || intros; congruence || reflexivity. Qed.
Lemma first_segment seg more : without "/" seg -> more = [] \/ begins_with (B "/") more -> fst (cut "/" (seg ++ more)) = seg.
Proof. intros H [->|[r ->]]; [rewrite app_nil_r, cut_none by exact H; reflexivity|]. change (B "/" ++ r) with ("/"%byte :: r). rewrite cut_at by exact H. reflexivity. Qed.
Lemma bind_ok {A C} (r : res A) (f : A -> C) : okp (do x <- r; Ok (f x)) <-> okp r.
Proof. unfold okp. destruct r; cbn [bind]; split; intros [t H]; try discriminate; eexists; reflexivity. Qed.
Lemma parse_hier_iff s rest q : okp (parse_hier s rest q) <-> hier (negb (beqb s [])) rest.
Proof.
  assert (Hs : negb (beqb s []) = true <-> s <> []) by (rewrite <- nonempty_b; destruct (beqb s []); cbn; split; congruence).
  assert (Hs' : negb (beqb s []) = false <-> s = []) by (rewrite <- beqb_eq; destruct (beqb s []); cbn; split; congruence).
  assert (Hnet : forall a path, without "/" a -> path = [] \/ begins_with (B "/") path -> s <> [] \/ a <> [] \/ path = [] -> okp (parse_hier s (B "//" ++ a ++ path) q) <-> authority a /\ escaped path = true).
  { intros a path Ha Hp Hc. rewrite parse_net by assumption. rewrite <- parseAuthority_iff. pose proof (unescape_ok Other path) as Hu. change (escaped_as (okval Other) (okraw Other) path) with (escaped path) in Hu. rewrite <- Hu. destruct (parseAuthority a) as [h| | |]; cbn [bind]; try (split; [intros [t H]; discriminate|intros [[t H] _]; discriminate]).
    rewrite (bind_ok (unescape Other path) (fun p => mkurl s [] h p q)). split; [intros H; split; [eexists; reflexivity|exact H]|tauto]. }
  assert (Habs : starts (B "/") rest || beqb s [] = true -> negb (starts (B "/") rest) && has ":" (fst (cut "/" rest)) = false -> (negb (beqb s []) || negb (starts (B "///") rest)) && starts (B "//") rest = false -> okp (parse_hier s rest q) <-> escaped rest = true).
  { intros H1 H2 H3. unfold parse_hier. rewrite H1, H2, H3. rewrite (bind_ok (unescape Other rest) (fun p => mkurl s [] [] p q)). apply unescape_ok. }
  destruct (starts (B "/") rest) eqn:E1.
  - destruct ((negb (beqb s []) || negb (starts (B "///") rest)) && starts (B "//") rest) eqn:E2.
    + apply andb_prop in E2. destruct E2 as [E2 E3]. apply starts_spec in E3. destruct E3 as [r ->]. destruct (slash_split r) as (a & path & -> & Ha & Hp).
      assert (Hc : s <> [] \/ a <> [] \/ path = []).
      { destruct (beqb s []) eqn:Es; [|left; apply nonempty_b; exact Es]. cbn [negb orb] in E2. apply negb_true_iff in E2. apply starts_no in E2. rewrite net_3 in E2 by assumption. right. destruct a; [|left; discriminate]. right. destruct path; [reflexivity|]. exfalso. apply E2. split; [reflexivity|discriminate]. }
      rewrite Hnet by assumption. split.
      * intros [H1 H2]. apply hier_net; try assumption. destruct Hc as [Hc|Hc]; [left; apply Hs; exact Hc|right; exact Hc].
      * intros H. remember (B "//" ++ a ++ path) as w eqn:Ew. destruct H as [a' path' Ha' Hp' Hc' H1 H2|p H1 H2 H3|p H1 H2|seg more H1 H2 H3 H4 H5 H6].
        -- assert (E : slash (a' ++ path') = slash (a ++ path)) by (cbn in Ew; injection Ew as ->; reflexivity). rewrite !slash_path in E by assumption. injection E as -> ->. auto.
        -- subst p. exfalso. destruct (H2 ltac:(eexists; reflexivity)) as [A C]. apply Hs' in A. rewrite net_3 in C by assumption. destruct C, Hc as [Hc|[Hc|Hc]]; contradiction.
        -- exfalso. apply H2. subst p. eexists ("/"%byte :: _). reflexivity.
        -- exfalso. apply H2. rewrite Ew. eexists ("/"%byte :: _). reflexivity.
    + rewrite Habs by (rewrite ?E1; reflexivity || exact E2). apply starts_spec in E1. split.
      * intros H. apply hier_abs; [exact E1| |exact H]. intros H2. pose proof (proj2 (starts_spec _ _) H2) as H3. rewrite H3, andb_true_r in E2. apply orb_false_iff in E2. destruct E2 as [A C]. split; [exact A|]. apply starts_spec. apply negb_false_iff in C. exact C.
      * intros H. destruct H as [a' path' Ha' Hp' Hc' H1 H2|p H1 H2 H3|p H1 H2|seg more H1 H2 H3 H4 H5 H6]; try assumption; try contradiction.
        exfalso. rewrite (proj2 (starts_spec (B "//") _)) in E2 by (eexists; reflexivity). rewrite andb_true_r in E2. apply orb_false_iff in E2. destruct E2 as [A C]. apply negb_false_iff in C. apply starts_spec in C. rewrite net_3 in C by assumption. destruct C as [C1 C2].
        rewrite A in Hc'. destruct Hc' as [X|[X|X]]; congruence.
  - pose proof (proj1 (starts_no _ _) E1) as N1. destruct (beqb s []) eqn:Es.
    + assert (E2 : (negb true || negb (starts (B "///") rest)) && starts (B "//") rest = false) by (apply andb_false_iff; right; apply starts_no; intros H; apply N1, begins_1, H).
      destruct (slash_split rest) as (seg & more & Er & Hg & Hm). destruct (has ":" (fst (cut "/" rest))) eqn:Eh.
      * split; [intros [t H]; unfold parse_hier in H; rewrite E1, Es, Eh in H; discriminate|]. intros H. exfalso. rewrite Er, first_segment in Eh by assumption. destruct H as [a' path' Ha' Hp' Hc' H1 H2|p H1 H2 H3|p H1 H2|seg' more' H1 H2 H3 H4 H5 H6].
        -- apply N1. eexists ("/"%byte :: _). reflexivity.
        -- contradiction.
        -- discriminate.
        -- assert (E : fst (cut "/" (seg' ++ more')) = fst (cut "/" (seg ++ more))) by (rewrite Er; reflexivity). rewrite !first_segment in E by assumption. subst seg'. apply has_spec in H4. congruence.
      * rewrite Habs by (rewrite ?E1, ?Es; reflexivity || exact E2 || exact Eh). split.
        -- intros H. rewrite Er in *. rewrite first_segment in Eh by assumption. apply hier_rel; try assumption; [reflexivity|apply has_spec; exact Eh].
        -- intros H. destruct H as [a' path' Ha' Hp' Hc' H1 H2|p H1 H2 H3|p H1 H2|seg' more' H1 H2 H3 H4 H5 H6]; try assumption; [|discriminate]. exfalso. apply N1. eexists ("/"%byte :: _). reflexivity.
    + split; [intros _; apply hier_opaque; [reflexivity|exact N1]|]. intros _. unfold parse_hier. rewrite E1, Es. eexists. reflexivity.
Qed.
Lemma visible_spec u : existsb ctl u = negb (visible u).
Proof.
  induction u as [|c u IH]; [reflexivity|]. unfold visible in *. cbn [existsb forallb]. rewrite IH, negb_andb, negb_involutive. f_equal. unfold ctl, between. pose proof (b2z_range c). f_equal. destruct (b2z c <? 32) eqn:E, (0 <=? b2z c) eqn:E1, (b2z c <=? 31) eqn:E2; try reflexivity; lia.
Qed.
Lemma parse_star : parse_hier [] (B "*") [] = Ok (mkurl [] [] [] (B "*") []). Proof. reflexivity. Qed.
Definition parse_rest (u : bytes) : res url :=
  do sr <- getScheme u;
  parse_hier (map lower (fst sr)) (fst (cut "?" (snd sr))) (snd (cut "?" (snd sr))).
Lemma parse_shape u : parse u = if visible u then parse_rest u else Err EInvalid.
Proof.
  unfold parse. rewrite visible_spec. destruct (visible u); [|reflexivity]. cbn [negb]. destruct (beqb u (B "*")) eqn:E; [apply beqb_eq in E; subst; reflexivity|]. unfold parse_rest. destruct (getScheme u) as [[s r]| | |]; cbn [bind]; try reflexivity. cbn [fst snd]. destruct (cut "?" r) as [x y]. reflexivity.
Qed.
Lemma map_nil {A C} (f : A -> C) l : map f l = [] <-> l = []. Proof. destruct l; cbn; split; congruence. Qed.
Lemma lower_empty s : beqb (map lower s) [] = beqb s []. Proof. destruct s; reflexivity. Qed.
Lemma query_split r : exists p q, r = p ++ q /\ without "?" p /\ query_text q.
Proof. destruct (split_at "?" r) as [H|(x & y & -> & H)]; [exists r, []; rewrite app_nil_r; split; [reflexivity|split; [exact H|left; reflexivity]]|]. exists x, ("?"%byte :: y). split; [reflexivity|]. split; [exact H|]. right. exists y. reflexivity. Qed.
Lemma query_cut p q : without "?" p -> query_text q -> cut "?" (p ++ q) = (p, tl q).
Proof. intros H [->|[r ->]]; [rewrite app_nil_r; apply cut_none; exact H|]. change (B "?" ++ r) with ("?"%byte :: r). apply cut_at. exact H. Qed.
Lemma scheme_letters s : scheme_text s -> s <> [] /\ without ":" s.
Proof.
  intros (c & r & -> & Hc & Hr). split; [discriminate|]. intros [->|Hi]; [discriminate Hc|]. rewrite forallb_forall in Hr. discriminate (Hr _ Hi).
Qed.
Lemma getScheme_with s r : scheme_text s -> getScheme (s ++ ":"%byte :: r) = Ok (s, r).
Proof.
  intros H. destruct (scheme_letters s H) as [Hn Hc]. pose proof (scheme_spec (s ++ ":"%byte :: r)) as Hs. unfold getScheme. destruct (scheme_from true (s ++ ":"%byte :: r)) as [[[x y]|]|e| |]; [| | |contradiction|contradiction].
  - destruct Hs as [E Hx]. destruct (scheme_letters x Hx) as [_ Hx']. pose proof (cut_at ":" s r Hc) as E1. pose proof (cut_at ":" x y Hx') as E2. rewrite E, E2 in E1. injection E1 as -> ->. reflexivity.
  - exfalso. exact (Hs s r (or_intror H) eq_refl).
  - exfalso. destruct Hs as [y E]. destruct s as [|s0 s]; [contradiction|]. injection E as -> _. apply Hc. left. reflexivity.
Qed.
Lemma getScheme_without u : (forall s r, s = [] \/ scheme_text s -> u <> s ++ ":"%byte :: r) -> getScheme u = Ok ([], u).
Proof.
  intros H. pose proof (scheme_spec u) as Hs. unfold getScheme. destruct (scheme_from true u) as [[[x y]|]|e| |]; [| | |contradiction|contradiction].
  - destruct Hs as [E Hx]. exfalso. exact (H x y (or_intror Hx) E).
  - reflexivity.
  - destruct Hs as [y E]. exfalso. exact (H [] y (or_introl eq_refl) E).
Qed.
Lemma scheme_cases u : (exists s r, scheme_text s /\ u = s ++ ":"%byte :: r) \/ (forall s r, s = [] \/ scheme_text s -> u <> s ++ ":"%byte :: r) \/ exists r, u = ":"%byte :: r /\ getScheme u = Err EInvalid.
Proof.
  pose proof (scheme_spec u) as Hs. unfold getScheme. destruct (scheme_from true u) as [[[x y]|]|e| |] eqn:E; [| | |contradiction|contradiction].
  - destruct Hs as [-> Hx]. left. eauto.
  - right. left. exact Hs.
  - destruct Hs as [y ->]. right. right. exists y. split; [reflexivity|]. cbn in E. injection E as <-. reflexivity.
Qed.
Lemma parse_rest_iff u : okp (parse_rest u) <-> body_text u.
Proof.
  unfold parse_rest. destruct (scheme_cases u) as [(s & r & Hs & ->)|[H|(r & -> & E)]].
  - rewrite getScheme_with by exact Hs. cbn [bind fst snd]. rewrite parse_hier_iff, lower_empty. destruct (scheme_letters s Hs) as [Hn Hc]. rewrite (proj2 (nonempty_b s) Hn). cbn [negb].
    destruct (query_split r) as (p & q & -> & Hp & Hq). rewrite query_cut by assumption. cbn [fst]. split.
    + intros H. left. exists s, p, q. auto.
    + intros [(s' & p' & q' & E & Hs' & Hp' & Hq' & H)|(p' & q' & E & H & _)]; [|exfalso; exact (H s (p ++ q) (or_intror Hs) eq_refl)].
      destruct (scheme_letters s' Hs') as [Hn' Hc']. pose proof (cut_at ":" s (p ++ q) Hc) as E1. rewrite E, (cut_at ":" s' _ Hc') in E1. injection E1 as _ E1.
      pose proof (query_cut p q Hp Hq) as E2. rewrite <- E1, query_cut in E2 by assumption. injection E2 as -> _. exact H.
  - rewrite getScheme_without by exact H. cbn [bind fst snd map]. rewrite parse_hier_iff. cbn [beqb negb]. destruct (query_split u) as (p & q & Eu & Hp & Hq). rewrite Eu at 1. rewrite query_cut by assumption. cbn [fst]. split.
    + intros Hh. right. exists p, q. auto.
    + intros [(s & p' & q' & E & Hs & _)|(p' & q' & E & _ & Hp' & Hq' & Hh)]; [exfalso; exact (H s (p' ++ q') (or_intror Hs) E)|].
      pose proof (query_cut p q Hp Hq) as E2. rewrite <- Eu, E, query_cut in E2 by assumption. injection E2 as -> _. exact Hh.
  - rewrite E. cbn [bind]. split; [intros [t H]; discriminate|]. intros [(s & p & q & E1 & Hs & _)|(p & q & E1 & H & _)]; exfalso.
    + destruct (scheme_letters s Hs) as [Hn Hc]. destruct s as [|s0 s]; [contradiction|]. injection E1 as <- _. apply Hc. left. reflexivity.
    + exact (H [] r (or_introl eq_refl) eq_refl).
Qed.
Lemma parse_iff u : okp (parse u) <-> visible u = true /\ body_text u.
Proof. rewrite parse_shape. destruct (visible u); [rewrite parse_rest_iff; tauto|]. split; [intros [t H]; discriminate|intros [H _]; discriminate]. Qed.
Lemma Parse_shape u f : without "#" u -> (Parse u = parse u) /\ (Parse (u ++ "#"%byte :: f) = do r <- parse u; do t <- unescape Other f; Ok r).
Proof.
  intros H. unfold Parse. rewrite cut_at, cut_none by exact H. split; [|reflexivity]. destruct (parse u); reflexivity.
Qed.
Lemma Parse_iff a : okp (Parse a) <-> url_text a.
Proof.
  destruct (split_at "#" a) as [H|(u & f & -> & H)].
  - rewrite (proj1 (Parse_shape a [] H)), parse_iff. split; [intros [H1 H2]; exists a, []; auto|]. intros (u & f & Hu & H1 & H2 & [->|[-> _]]); [auto|]. exfalso. apply H. apply in_or_app. right. left. reflexivity.
  - rewrite (proj2 (Parse_shape u f H)). pose proof (parse_iff u) as Hp. pose proof (unescape_ok Other f) as Hf. change (escaped_as (okval Other) (okraw Other) f) with (escaped f) in Hf. split.
    + intros [t E]. destruct (parse u) as [v| | |]; try discriminate. cbn [bind] in E. destruct (unescape Other f) as [w| | |]; try discriminate. exists u, f. destruct (proj1 Hp ltac:(eexists; reflexivity)). split; [exact H|]. split; [assumption|]. split; [assumption|]. right. split; [reflexivity|]. apply Hf. eexists. reflexivity.
    + intros (u' & f' & Hu & H1 & H2 & [E|[E Hf']]); [exfalso; apply Hu; rewrite <- E; apply in_or_app; right; left; reflexivity|].
      pose proof (cut_at "#" u f H) as E1. rewrite E, cut_at in E1 by exact Hu. injection E1 as -> ->. destruct (proj2 Hp (conj H1 H2)) as [t ->]. destruct (proj2 Hf Hf') as [w ->]. eexists. reflexivity.
Qed.

(** ** Values *)
Lemma meaning_app v w y : forall x, escaped_as v w x = true -> meaning (x ++ y) = meaning x ++ meaning y.
Proof.
  intros x. induction x as [x IH] using (induction_ltof1 _ (@List.length byte)). unfold ltof in IH. destruct x as [|b r]; [reflexivity|]. cbn [escaped_as]. destruct (Byte.eqb b "%") eqn:E.
  - destruct r as [|x0 [|y0 r]]; try discriminate. intros H. apply andb_prop in H. destruct H as [_ H]. change (meaning ((b :: x0 :: y0 :: r) ++ y)) with (if Byte.eqb b "%" then decoded_byte x0 y0 :: meaning (r ++ y) else b :: meaning (x0 :: y0 :: r ++ y)). change (meaning (b :: x0 :: y0 :: r)) with (if Byte.eqb b "%" then decoded_byte x0 y0 :: meaning r else b :: meaning (x0 :: y0 :: r)). rewrite E. cbn [app]. rewrite IH by (cbn [List.length] in *; lia || exact H). reflexivity.
  - intros H. apply andb_prop in H. destruct H as [_ H].
    assert (Hm : forall z, meaning (b :: z) = b :: meaning z) by (intros [|z1 [|z2 z]]; try reflexivity; cbn [meaning]; rewrite E; reflexivity).
    cbn [app]. rewrite !Hm, IH by (cbn [List.length] in *; lia || exact H). reflexivity.
Qed.
Lemma Ok_inj {A} (x y : A) : Ok x = Ok y -> x = y. Proof. intros H. injection H as H. exact H. Qed.
Lemma unescape_value m s t : unescape m s = Ok t -> t = meaning s /\ escaped_as (okval m) (okraw m) s = true.
Proof. rewrite unescape_spec. destruct (escaped_as _ _ s); [|discriminate]. intros H. apply Ok_inj in H. auto. Qed.
Lemma cut25_joined s : match cut25 s with Some (a, b) => s = a ++ b | None => True end.
Proof.
  induction s as [|c s IH]; [exact I|]. cbn [cut25]. destruct (match s with x :: y :: _ => _ | _ => false end); [reflexivity|]. destruct (cut25 s) as [[a b]|]; [cbn; congruence|exact I].
Qed.
Lemma rcut_joined c s : match rcut c s with Some (a, b) => s = a ++ c :: b /\ without c b | None => without c s end.
Proof. destruct (split_last c s) as [H|(x & y & -> & H)]; [rewrite rcut_none by exact H; exact H|]. rewrite rcut_at by exact H. auto. Qed.
Lemma parseHost_meaning h t : parseHost h = Ok t -> t = meaning h.
Proof.
  unfold parseHost. destruct h as [|b r]; [intros H; apply Ok_inj in H; exact (eq_sym H)|]. set (h := b :: r) in *. destruct (Byte.eqb b "[").
  - pose proof (rcut_joined "]" h) as Hj. destruct (rcut "]" h) as [[x tail]|]; [|discriminate]. destruct (validOptionalPort tail); [|discriminate].
    pose proof (cut25_joined x) as Hx. destruct (cut25 x) as [[h1 h2]|]; [|intros H; apply unescape_value in H; tauto].
    destruct (unescape Host h1) as [t1| | |] eqn:E1; try discriminate. destruct (unescape Zone h2) as [t2| | |] eqn:E2; try discriminate. cbn [bind]. destruct (unescape Host ("]"%byte :: tail)) as [t3| | |] eqn:E3; try discriminate. cbn [bind]. intros H. apply Ok_inj in H.
    apply unescape_value in E1, E2, E3. destruct E1 as [-> E1], E2 as [-> E2], E3 as [-> E3]. destruct Hj as [-> _]. rewrite Hx, <- app_assoc. rewrite (meaning_app _ _ _ _ E1), (meaning_app _ _ _ _ E2). symmetry. exact H.
  - destruct (rcut ":" h) as [[x port]|]; [|intros H; apply unescape_value in H; tauto]. destruct (forallb isdigit port); [|discriminate]. intros H; apply unescape_value in H; tauto.
Qed.
Lemma parseAuthority_value a t : parseAuthority a = Ok t -> exists u h, (a = h \/ a = u ++ "@"%byte :: h) /\ without "@" h /\ parseHost h = Ok t.
Proof.
  unfold parseAuthority. pose proof (rcut_joined "@" a) as Hj. destruct (rcut "@" a) as [[u h]|]; [|intros H; exists [], a; auto]. destruct Hj as [-> Hh].
  destruct (parseHost h) as [v| | |] eqn:E; try discriminate. cbn [bind]. destruct (forallb user_byte u); [|discriminate]. destruct (cut ":" u) as [n p]. destruct (unescape Other n); try discriminate. cbn [bind]. destruct (unescape Other p); try discriminate. cbn [bind]. intros H. apply Ok_inj in H. subst v. exists u, h. auto.
Qed.
Lemma auth_host_same u h u' h' : without "@" h -> without "@" h' -> (u = h \/ exists x, u = x ++ "@"%byte :: h) -> (u' = h' \/ exists x, u' = x ++ "@"%byte :: h') -> u = u' -> h = h'.
Proof.
  intros H H' [->|[x ->]] [->|[x' ->]] E; [exact E| | |].
  - exfalso. apply H. rewrite E. apply in_or_app. right. left. reflexivity.
  - exfalso. apply H'. rewrite <- E. apply in_or_app. right. left. reflexivity.
  - pose proof (rcut_at "@" x h H) as E1. rewrite E, rcut_at in E1 by exact H'. congruence.
Qed.
Lemma parse_hier_value s rest q u : parse_hier s rest q = Ok u -> u_scheme u = s /\ u_query u = q /\
  (u_host u = [] \/ exists a path, rest = B "//" ++ a ++ path /\ without "/" a /\ (path = [] \/ begins_with (B "/") path) /\ parseAuthority a = Ok (u_host u)).
Proof.
  unfold parse_hier. destruct (starts (B "/") rest || beqb s []); [|intros H; apply Ok_inj in H; subst u; cbn; auto].
  destruct (negb (starts (B "/") rest) && _); [discriminate|]. destruct ((_ || _) && starts (B "//") rest) eqn:E.
  - apply andb_prop in E. destruct E as [_ E]. apply starts_spec in E. destruct E as [r ->]. change (skipn 2 (B "//" ++ r)) with r. destruct (slash_split r) as (a & path & -> & Ha & Hp). rewrite slash_path by assumption.
    destruct (parseAuthority a) as [h| | |] eqn:Eh; try discriminate. cbn [bind]. destruct (unescape Other path); try discriminate. cbn [bind]. intros H. apply Ok_inj in H. subst u. cbn. split; [reflexivity|]. split; [reflexivity|]. right. exists a, path. auto.
  - destruct (unescape Other rest); try discriminate. cbn [bind]. intros H. apply Ok_inj in H. subst u. cbn. auto.
Qed.
Lemma without_app c x y : without c (x ++ y) <-> without c x /\ without c y.
Proof. unfold without. rewrite in_app_iff. tauto. Qed.
Lemma scheme_no c s : scheme_text s -> alpha c || num c || among (B "+-.") c = false -> without c s.
Proof.
  intros (b & r & -> & Hb & Hr) Hc [->|Hi]; [rewrite Hb in Hc; discriminate|]. rewrite forallb_forall in Hr. rewrite (Hr _ Hi) in Hc. discriminate.
Qed.
Lemma lower_small s : map lower s = map small s. Proof. apply map_ext. intros c. reflexivity. Qed.
Lemma Parse_parts a s h path q u : parts a s h path q -> Parse a = Ok u -> u = mkurl (map small s) [] (meaning h) (meaning path) (tl q) /\ parseHost h = Ok (meaning h).
Proof.
  intros (auth & user & f & -> & Hs & Hah & Hh & A1 & A2 & A3 & (P1 & P2 & P3) & Hq & Q1 & Hf).
  set (b := s ++ B "://" ++ auth ++ path ++ q).
  assert (Hb : without "#" b) by (unfold b; rewrite !without_app; split; [apply scheme_no; [exact Hs|reflexivity]|]; split; [intros [X|[X|[X|[]]]]; discriminate|tauto]).
  assert (Hp : forall u, parse b = Ok u -> u = mkurl (map small s) [] (meaning h) (meaning path) (tl q) /\ parseHost h = Ok (meaning h)).
  { clear u. intros u. rewrite parse_shape. destruct (visible b); [|discriminate]. unfold parse_rest, b. change (s ++ B "://" ++ auth ++ path ++ q) with (s ++ ":"%byte :: B "//" ++ auth ++ path ++ q). rewrite getScheme_with by exact Hs. cbn [bind fst snd].
    replace (B "//" ++ auth ++ path ++ q) with ((B "//" ++ auth ++ path) ++ q) by (rewrite <- !app_assoc; reflexivity).
    rewrite query_cut; [|rewrite !without_app; split; [intros [X|[X|[]]]; discriminate|tauto]|exact Hq]. cbn [fst snd].
    rewrite parse_net; [|exact A1|exact P1|left; rewrite map_nil; apply scheme_letters; exact Hs].
    destruct (parseAuthority auth) as [t| | |] eqn:Ea; try discriminate. cbn [bind]. destruct (unescape Other path) as [p| | |] eqn:Ep; try discriminate. cbn [bind]. intros H. apply Ok_inj in H. subst u.
    destruct (parseAuthority_value _ _ Ea) as (u' & h' & Hah' & Hh' & Et). pose proof (parseHost_meaning _ _ Et). apply unescape_value in Ep. destruct Ep as [-> _]. subst t.
    assert (h = h') as -> by (eapply (auth_host_same auth h auth h'); try assumption; try reflexivity; [destruct Hah; eauto|destruct Hah'; eauto]). rewrite lower_small. split; [reflexivity|exact Et]. }
  destruct Hf as [->|[f' ->]].
  - rewrite app_nil_r. fold b. rewrite (proj1 (Parse_shape b [] Hb)). apply Hp.
  - replace (s ++ B "://" ++ auth ++ path ++ q ++ B "#" ++ f') with (b ++ "#"%byte :: f') by (unfold b; rewrite <- !app_assoc; reflexivity). rewrite (proj2 (Parse_shape b f' Hb)).
    destruct (parse b) as [v| | |]; try discriminate. cbn [bind]. destruct (unescape Other f'); try discriminate. cbn [bind]. intros H. apply Ok_inj in H. subst v. apply Hp. reflexivity.
Qed.
(** ** Who is contacted *)
Lemma removeEmptyPort_nil h : removeEmptyPort h = [] <-> h = [] \/ h = B ":".
Proof.
  unfold removeEmptyPort. pose proof (rcut_joined ":" h) as Hj. destruct (rcut ":" h) as [[x [|y0 y]]|]; [destruct Hj as [-> _]| |].
  - destruct x; split; [right; reflexivity|reflexivity|discriminate|]. intros [H|H]; [discriminate|]. injection H as _ H. destruct x; discriminate.
  - destruct Hj as [-> _]. split; [destruct x; discriminate|]. intros [H|H]; [destruct x; discriminate|]. destruct x as [|x0 [|x1 x]]; discriminate.
  - split; [auto|]. intros [H|H]; [exact H|]. subst. exfalso. apply Hj. left. reflexivity.
Qed.
Lemma small_spelt w s : Forall (fun c => between 97 122 c = true) w -> map small s = w <-> spelt w s.
Proof.
  intros Hw. unfold spelt. revert s. induction Hw as [|x w Hx Hw IH]; intros s; (destruct s as [|c s]; cbn [map]; [split; [try discriminate; constructor|intros H; inversion H; reflexivity]|split; [|intros H; inversion H; subst]]); [discriminate| |].
  - intros H. injection H as H1 H2. constructor; [|apply IH; exact H2]. unfold small in H1. destruct (between 65 90 c) eqn:E; [right; split; [|reflexivity]|left; congruence]. subst x. rewrite b2z_z2b. unfold between in E. apply andb_prop in E. rewrite Z.mod_small by lia. reflexivity.
  - f_equal; [|apply IH; assumption]. unfold small. match goal with H : b2z c = b2z x \/ _ |- _ => destruct H as [H|[H E]] end.
    + assert (c = x) as -> by (apply b2z_inj; assumption). destruct (between 65 90 x) eqn:E; [|reflexivity]. unfold between in *. apply andb_prop in E, Hx. lia.
    + rewrite E. apply b2z_inj. rewrite b2z_z2b. unfold between in E. apply andb_prop in E. rewrite Z.mod_small by lia. assumption.
Qed.
Lemma http_scheme w s : w = B "http" \/ w = B "https" -> spelt w s -> scheme_text s /\ map small s = w.
Proof.
  intros Hw H. assert (Hl : Forall (fun c => between 97 122 c = true) w) by (destruct Hw; subst; repeat constructor).
  apply (small_spelt w s Hl) in H. split; [|exact H].
  assert (Ha : forall c, In (small c) w -> alpha c = true).
  { intros c Hc. rewrite Forall_forall in Hl. apply Hl in Hc. unfold small in Hc. unfold alpha. destruct (between 65 90 c); [apply orb_true_r|rewrite Hc; reflexivity]. }
  assert (Hall : forall c, In c s -> alpha c = true) by (intros c Hc; apply Ha; rewrite <- H; apply in_map; exact Hc).
  destruct s as [|c r]; [destruct Hw; subst; discriminate|]. exists c, r. split; [reflexivity|]. split; [apply Hall; left; reflexivity|]. apply forallb_forall. intros x Hx. rewrite (Hall x) by (right; exact Hx). reflexivity.
Qed.
Lemma more_split more : more = [] \/ begins_with (B "/") more \/ begins_with (B "?") more \/ begins_with (B "#") more ->
  exists path q f, more = path ++ q ++ f /\ path_text path /\ query_text q /\ without "#" q /\ frag_text f.
Proof.
  intros H. destruct (split_at "#" more) as [Hn|(m & f & -> & Hn)].
  - destruct (query_split more) as (p & q & -> & Hp & Hq). apply without_app in Hn. exists p, q, []. rewrite app_nil_r. split; [reflexivity|]. split; [|split; [exact Hq|split; [tauto|left; reflexivity]]]. split; [|tauto].
    destruct p as [|c p]; [auto|]. right. destruct H as [H|[[r H]|[[r H]|[r H]]]]; [discriminate|injection H as -> _; exists p; reflexivity|injection H as -> _; exfalso; apply Hp; left; reflexivity|injection H as -> _; exfalso; apply (proj1 Hn); left; reflexivity].
  - destruct (query_split m) as (p & q & -> & Hp & Hq). apply without_app in Hn. exists p, q, ("#"%byte :: f). rewrite <- app_assoc in *. split; [reflexivity|]. split; [|split; [exact Hq|split; [tauto|right; exists f; reflexivity]]]. split; [|tauto].
    destruct p as [|c p]; [auto|]. right. destruct H as [H|[[r H]|[[r H]|[r H]]]]; [discriminate|injection H as -> _; exists p; reflexivity|injection H as -> _; exfalso; apply Hp; left; reflexivity|injection H as -> _; exfalso; apply (proj1 Hn); left; reflexivity].
Qed.
Lemma contacted_spec u : contacted u = true <-> (u_scheme u = B "http" \/ u_scheme u = B "https") /\ u_host u <> [] /\ u_host u <> B ":".
Proof.
  unfold contacted. rewrite andb_true_iff, orb_true_iff, !beqb_eq, negb_true_iff, beqb_neq, removeEmptyPort_nil. tauto.
Qed.
Lemma contacted_iff a u : Parse a = Ok u -> contacted u = true <-> http_text a.
Proof.
  intros H. rewrite contacted_spec. split.
  - intros (Hs & Hh & Hh'). split; [apply Parse_iff; eexists; exact H|].
    assert (Hb : exists b f, without "#" b /\ a = b ++ f /\ frag_text f /\ parse b = Ok u).
    { destruct (split_at "#" a) as [Hn|(b & f & -> & Hn)]; [rewrite (proj1 (Parse_shape a [] Hn)) in H; exists a, []; rewrite app_nil_r; split; [exact Hn|split; [reflexivity|split; [left; reflexivity|exact H]]]|].
      rewrite (proj2 (Parse_shape b f Hn)) in H. destruct (parse b) as [v| | |] eqn:E; try discriminate. cbn [bind] in H. destruct (unescape Other f); try discriminate. cbn [bind] in H. apply Ok_inj in H. subst v. exists b, ("#"%byte :: f). split; [exact Hn|]. split; [reflexivity|]. split; [right; exists f; reflexivity|exact E]. }
    destruct Hb as (b & f & Hb & -> & Hf & E). rewrite parse_shape in E. destruct (visible b); [|discriminate]. unfold parse_rest in E.
    destruct (scheme_cases b) as [(s & r & Hst & ->)|[Hn|(r & _ & En)]]; [|rewrite getScheme_without in E by exact Hn; cbn [bind fst snd map] in E; apply parse_hier_value in E; destruct E as [E _]; rewrite E in Hs; destruct Hs; discriminate|rewrite En in E; discriminate].
    rewrite getScheme_with in E by exact Hst. cbn [bind fst snd] in E. destruct (query_split r) as (p & q & -> & Hp & Hq). rewrite query_cut in E by assumption. cbn [fst snd] in E. apply parse_hier_value in E. destruct E as (Es & _ & [Eh|(auth & path & -> & Ha & Hpath & Eh)]); [contradiction|].
    rewrite !without_app in Hb. rewrite !without_app in Hp. destruct Hb as [Hb1 Hb2]. change (":"%byte :: (B "//" ++ auth ++ path) ++ q) with (B "://" ++ (auth ++ path) ++ q) in *. rewrite !without_app in Hb2.
    exists s, auth, (path ++ q ++ f). split; [rewrite <- !app_assoc; cbn [app]; rewrite <- ?app_assoc; reflexivity|].
    split; [rewrite lower_small in Es; rewrite Es in Hs; destruct Hs as [Hs|Hs]; [left|right]; (apply small_spelt; [repeat constructor|exact Hs])|].
    split; [exact Ha|]. split; [tauto|]. split; [tauto|]. split.
    + destruct Hpath as [->|[r ->]]; [|right; left; exists (r ++ q ++ f); rewrite <- !app_assoc; reflexivity]. destruct Hq as [->|[r ->]]; [|right; right; left; exists (r ++ f); cbn [app]; reflexivity]. destruct Hf as [->|[r ->]]; [left; reflexivity|right; right; right; exists r; reflexivity].
    + destruct (parseAuthority_value _ _ Eh) as (user & h & Hah & Hat & Ep). exists user, h. split; [exact Hah|]. split; [exact Hat|]. destruct (parseHost_value _ _ Ep) as [V1 V2]. tauto.
  - intros (_ & s & auth & more & E & Hs & A1 & A2 & A3 & Hm & (user & h & Hah & Hat & Hh & Hh')). destruct (more_split more Hm) as (path & q & f & -> & Hp & Hq & Hq' & Hf).
    assert (Hsm : scheme_text s /\ (map small s = B "http" \/ map small s = B "https")) by (destruct Hs as [Hs|Hs]; [destruct (http_scheme _ _ (or_introl eq_refl) Hs)|destruct (http_scheme _ _ (or_intror eq_refl) Hs)]; auto).
    destruct Hsm as [Hst Hsm]. destruct (Parse_parts a s h path q u) as [-> Ep]; [exists auth, user, f; auto 12|exact H|]. cbn [u_scheme u_host]. split; [exact Hsm|]. destruct (parseHost_value _ _ Ep) as [V1 V2]. tauto.
Qed.

(** ** No text makes it panic *)
Definition said {A} (r : res A) : Prop := r <> Panic /\ r <> NoFuel.
Lemma said_ok {A} (a : A) : said (Ok a). Proof. split; discriminate. Qed.
Lemma said_err {A} e : said (@Err A e). Proof. split; discriminate. Qed.
Lemma said_bind {A C} (x : res A) (f : A -> res C) : said x -> (forall a, said (f a)) -> said (bind x f).
Proof. intros [H1 H2] Hf. destruct x; cbn [bind]; [apply Hf|apply said_err|congruence|congruence]. Qed.
Lemma said_unescape m : forall s, said (unescape m s).
Proof.
  intros s. assert (G : forall n s, (List.length s <= n)%nat -> said (unescape m s)); [|exact (G _ s (le_n _))]. clear s. induction n as [|n IH]; intros s Hn; destruct s as [|b r]; cbn [List.length] in Hn; try lia; cbn [unescape]; [apply said_ok..|].
  destruct (Byte.eqb b "%").
  - destruct r as [|x [|y r]]; [apply said_err..|]. destruct (TrackerModel.unhex x) as [h|]; [|apply said_err]. destruct (TrackerModel.unhex y) as [l|]; [|apply said_err].
    destruct (esc_refused m x y h l); [apply said_err|]. apply said_bind; [apply IH; cbn [List.length] in Hn; lia|intros; apply said_ok].
  - destruct (raw_refused m b); [apply said_err|]. apply said_bind; [apply IH; lia|intros; apply said_ok].
Qed.
Lemma said_parseHost h : said (parseHost h).
Proof.
  unfold parseHost. destruct h as [|b r]; [apply said_ok|]. destruct (Byte.eqb b "[").
  - destruct (rcut "]" (b :: r)) as [[x tail]|]; [|apply said_err]. destruct (validOptionalPort tail); [|apply said_err]. destruct (cut25 x) as [[h1 h2]|]; [|apply said_unescape].
    repeat (apply said_bind; [apply said_unescape|intros ?]). apply said_ok.
  - destruct (rcut ":" (b :: r)) as [[x port]|]; [|apply said_unescape]. destruct (forallb isdigit port); [apply said_unescape|apply said_err].
Qed.
Lemma said_authority a : said (parseAuthority a).
Proof.
  unfold parseAuthority. destruct (rcut "@" a) as [[u h]|]; [|apply said_parseHost]. apply said_bind; [apply said_parseHost|]. intros t. destruct (forallb user_byte u); [|apply said_err].
  destruct (cut ":" u). repeat (apply said_bind; [apply said_unescape|intros ?]). apply said_ok.
Qed.
Lemma said_scheme : forall s i0, said (scheme_from i0 s).
Proof.
  induction s as [|c r IH]; intros i0; cbn [scheme_from]; [apply said_ok|]. cbv zeta.
  assert (M : said (match scheme_from false r with Ok (Some (x, y)) => Ok (Some (c :: x, y)) | e => e end)).
  { destruct (IH false) as [H1 H2]. destruct (scheme_from false r) as [[[x y]|]| | |]; [apply said_ok|apply said_ok|apply said_err|congruence|congruence]. }
  destruct (isletter c); [exact M|]. destruct (isdigit c || _); [destruct i0; [apply said_ok|exact M]|]. destruct (Byte.eqb c ":"); [destruct i0; [apply said_err|apply said_ok]|apply said_ok].
Qed.
Lemma said_parse u : said (parse u).
Proof.
  unfold parse. destruct (existsb ctl u); [apply said_err|]. destruct (beqb u (B "*")); [apply said_ok|]. apply said_bind.
  - unfold getScheme. destruct (said_scheme u true) as [H1 H2]. destruct (scheme_from true u) as [[p|]| | |]; [apply said_ok|apply said_ok|apply said_err|congruence|congruence].
  - intros [s0 rest0]. cbv zeta. destruct (cut "?" rest0) as [rest q]. destruct (_ || _); [|apply said_ok]. destruct (_ && has _ _); [apply said_err|].
    destruct (_ && starts _ _); [|apply said_bind; [apply said_unescape|intros; apply said_ok]]. destruct (slash _) as [a path].
    apply said_bind; [apply said_authority|]. intros h. apply said_bind; [apply said_unescape|intros; apply said_ok].
Qed.
Lemma Parse_refuses a : ~ url_text a -> exists e, Parse a = Err e.
Proof.
  intros N. assert (S : said (Parse a)).
  { unfold Parse. destruct (cut "#" a) as [u f]. apply said_bind; [apply said_parse|]. intros r. apply said_bind; [apply said_unescape|intros; apply said_ok]. }
  destruct S as [H1 H2]. destruct (Parse a) as [u|e| |] eqn:E; [|eauto|congruence|congruence]. exfalso. apply N. apply Parse_iff. exists u. exact E.
Qed.
