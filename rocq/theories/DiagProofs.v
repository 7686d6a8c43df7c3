(** DiagProofs.v: proofs about DiagModel. *)
From Coq Require Import ZifyBool ZifyNat ZifyN.
From Verif Require Import Base BencodeModel BencodeSpec BencodeProofs DecimalProofs PrintProofs DiagModel DiagSpec.

(** ** The same decoder *)
Definition sim {A} (d : dres A) (r : res A) : Prop :=
  match d with
  | DOk a => r = Ok a
  | DErr CPanic _ => r = Panic
  | DErr c _ => exists e, r = Err e /\ same_error c e
  | DFuel => r = NoFuel
  end.
Lemma sim_bind {A C} (d : dres A) (r : res A) (f : A -> dres C) (g : A -> res C) : sim d r -> (forall a, sim (f a) (g a)) -> sim (dbind d f) (bind r g).
Proof. intros H Hf. destruct d as [a|[]|]; cbn in H; try destruct H as (e & -> & He); subst; cbn; eauto. Qed.
Lemma digit_sim stop c e : same_error c e -> c <> CPanic -> forall rest acc, sim (digit_loopD stop c rest acc) (digit_loop stop e rest acc).
Proof.
  intros He Hc. induction rest as [|b rest IH]; intros acc; cbn [digit_loopD digit_loop]; [reflexivity|]. destruct (is_digit b); [apply IH|]. destruct (Byte.eqb b stop); [reflexivity|].
  destruct c; try congruence; cbn; eauto.
Qed.
Lemma string_sim sp rest : sim (decodeStringD sp rest) (decodeString sp rest).
Proof.
  unfold decodeStringD, decodeString. apply sim_bind; [apply digit_sim; [reflexivity|discriminate]|]. intros [ds r]. pose proof (atoi_nofuel ds) as Hn. destruct (atoi ds) as [n|e| |] eqn:E; cbn [bind]; try (unfold atoi in E; destruct ds; try discriminate; destruct (_ <=? _); congruence).
  - destruct (_ <=? _); reflexivity.
  - unfold atoi in E. exists e. split; [reflexivity|]. destruct ds; [injection E as <-; reflexivity|]. destruct (_ <=? _); [discriminate|injection E as <-; reflexivity].
Qed.
Lemma body_sim r : sim (int_bodyD r) (int_body r).
Proof.
  destruct r as [|z r']; [reflexivity|]. unfold int_bodyD, int_body. destruct (Byte.eqb z "0"); [|apply digit_sim; [reflexivity|discriminate]]. destruct r' as [|y r']; [reflexivity|].
  destruct (negb _); [cbn; eauto|apply digit_sim; [reflexivity|discriminate]].
Qed.
Lemma atoi_cases ds : (exists n, atoi ds = Ok n) \/ atoi ds = Err EAtoi.
Proof. unfold atoi. destruct ds; [auto|]. destruct (_ <=? _); eauto. Qed.
Lemma int_sim rest : sim (decodeIntD rest) (decodeInt rest).
Proof.
  destruct rest as [|b [|c r1]]; cbn [decodeIntD]; [reflexivity| |].
  - unfold decodeInt. destruct (negb _); cbn; eauto.
  - destruct (negb (Byte.eqb b "i")) eqn:Eb; [unfold decodeInt; rewrite Eb; cbn; eauto|].
    unfold decodeInt. rewrite Eb. cbv zeta. apply sim_bind; [apply body_sim|]. intros [ds r3]. destruct (atoi_cases ds) as [[n ->]| ->]; cbn; eauto.
Qed.
Lemma dec_sim : forall f, (forall sp rest, sim (decValD f sp rest) (decVal f sp rest)) /\ (forall sp rest acc, sim (decDictD f sp rest acc) (decDict f sp rest acc)) /\ (forall sp rest acc, sim (decListD f sp rest acc) (decList f sp rest acc)).
Proof.
  induction f as [|f (IHv & IHd & IHl)]; [repeat split; reflexivity|]. split; [|split].
  - intros sp [|b r]; cbn [decValD decVal]; [reflexivity|].
    destruct (Byte.eqb b "d"); [apply sim_bind; [apply IHd|intros []; reflexivity]|]. destruct (Byte.eqb b "l"); [apply sim_bind; [apply IHl|intros []; reflexivity]|].
    destruct (Byte.eqb b "i"); [apply sim_bind; [apply int_sim|intros []; reflexivity]|]. apply sim_bind; [apply string_sim|intros []; reflexivity].
  - intros sp [|b r] acc; cbn [decDictD decDict]; [reflexivity|]. destruct (Byte.eqb b "e"); [reflexivity|]. apply sim_bind; [apply string_sim|]. intros [k r1]. apply sim_bind; [apply IHv|]. intros [v r2]. apply IHd.
  - intros sp [|b r] acc; cbn [decListD decList]; [reflexivity|]. destruct (Byte.eqb b "e"); [reflexivity|]. apply sim_bind; [apply IHv|]. intros [v r1]. apply IHl.
Qed.
Lemma same_top data : match DecodeD data with Value v => Decode data = Ok v | Trouble c _ => exists e, Decode data = Err e /\ same_error c e | Unknown => False end.
Proof.
  unfold DecodeD, Decode. pose proof (proj1 (dec_sim (2 * List.length (vis data) + 2)) (spare data) (vis data)) as H. pose proof (proj1 (dec_fuel (2 * List.length (vis data) + 2)) (spare data) (vis data) ltac:(lia)) as Hn.
  destruct (decValD _ _ _) as [[v r]|[]|]; cbn [sim] in H; try (destruct H as (e & H & He)); try rewrite H; eauto.
  exists EPanicked. split; reflexivity.
Qed.

(** ** More bytes, more fuel *)
Definition off (c : cause) : Z := if points c then 1 else 0.
(** What a decoder reads and what it makes of it. *)
Definition local {A} (d : bytes -> dres (A * bytes)) (rest : bytes) : Prop :=
  match d rest with
  | DOk (a, r) => exists p, rest = p ++ r /\ forall x, d (p ++ x) = DOk (a, x)
  | DErr CPanic _ => True
  | DErr c r => exists p y, rest = p ++ y /\ zlen r = zlen y + off c /\ forall x, exists r2, d (p ++ x) = DErr c r2 /\ zlen r2 = zlen x + off c
  | DFuel => True
  end.
Lemma zlen_cons {A} (x : A) l : zlen (x :: l) = zlen l + 1.
Proof. unfold zlen. cbn [List.length]. lia. Qed.
Lemma digit_local stop c : points c = true -> forall rest acc, local (fun b => digit_loopD stop c b acc) rest.
Proof.
  intros Hc. unfold local. induction rest as [|b rest IH]; intros acc; cbn [digit_loopD]; [exact I|]. destruct (is_digit b) eqn:Ed.
  - specialize (IH (acc ++ [b])). destruct (digit_loopD stop c rest (acc ++ [b])) as [[ds r]|c' r|]; [| |exact I].
    + destruct IH as (p & -> & Hx). exists (b :: p). split; [reflexivity|]. intros x. cbn [app digit_loopD]. rewrite Ed. apply Hx.
    + destruct c'; try exact I; destruct IH as (p & y & -> & Hz & Hx); exists (b :: p), y; (split; [reflexivity|]; split; [exact Hz|]); intros x; destruct (Hx x) as (r2 & H1 & H2); exists r2; cbn [app digit_loopD]; rewrite Ed; auto.
  - destruct (Byte.eqb b stop) eqn:Es.
    + exists [b]. split; [reflexivity|]. intros x. cbn [app digit_loopD]. rewrite Ed, Es. reflexivity.
    + assert (H : exists p y, b :: rest = p ++ y /\ zlen (b :: rest) = zlen y + off c /\ forall x, exists r2, digit_loopD stop c (p ++ x) acc = DErr c r2 /\ zlen r2 = zlen x + off c).
      { exists [b], rest. unfold off. rewrite Hc, zlen_cons. split; [reflexivity|]. split; [lia|]. intros x. exists (b :: x). cbn [app digit_loopD]. rewrite Ed, Es, zlen_cons. auto. }
      destruct c; try discriminate; exact H.
Qed.
(** Reading in two parts. *)
Lemma local_bind {A C} (d : bytes -> dres (A * bytes)) (f : A -> bytes -> dres (C * bytes)) rest : local d rest -> (forall a r, d rest = DOk (a, r) -> local (f a) r) -> local (fun b => try (a, r) <- d b; f a r) rest.
Proof.
  unfold local. destruct (d rest) as [[a r]|c r|] eqn:E; cbn [dbind]; intros H1 H2; [| |exact I].
  - destruct H1 as (p & -> & Hx). specialize (H2 a r eq_refl). destruct (f a r) as [[a2 r2]|c r2|]; [| |exact I].
    + destruct H2 as (q & -> & Hy). exists (p ++ q). rewrite app_assoc. split; [reflexivity|]. intros x. rewrite <- app_assoc, Hx. cbn [dbind]. apply Hy.
    + destruct c; try exact I; destruct H2 as (q & y & -> & Hz & Hy); exists (p ++ q), y; (split; [rewrite app_assoc; reflexivity|]; split; [exact Hz|]); intros x; rewrite <- app_assoc, Hx; cbn [dbind]; apply Hy.
  - destruct c; try exact I; destruct H1 as (p & y & -> & Hz & Hx); exists p, y; (split; [reflexivity|]; split; [exact Hz|]); intros x; destruct (Hx x) as (r2 & -> & Hr); exists r2; auto.
Qed.
Lemma local_head {A} (d e : bytes -> dres (A * bytes)) b rest : (forall x, e (b :: x) = d x) -> local d rest -> local e (b :: rest).
Proof.
  intros He. unfold local. rewrite He. destruct (d rest) as [[a r]|c r|]; [| |exact (fun H => H)].
  - intros (p & -> & Hx). exists (b :: p). split; [reflexivity|]. intros x. cbn [app]. rewrite He. apply Hx.
  - destruct c; try exact (fun H => H); intros (p & y & -> & Hz & Hx); exists (b :: p), y; (split; [reflexivity|]; split; [exact Hz|]); intros x; cbn [app]; rewrite He; apply Hx.
Qed.
Lemma local_same {A} (d e : bytes -> dres (A * bytes)) rest : (forall x, d x = e x) -> local d rest -> local e rest.
Proof. intros H. unfold local. rewrite (H rest). destruct (e rest) as [[a r]|c r|]; [| |exact (fun H => H)]; [intros (p & H1 & H2); exists p; split; [exact H1|]; intros x; rewrite <- H; apply H2|].
  destruct c; try exact (fun H => H); intros (p & y & H1 & H2 & H3); exists p, y; (split; [exact H1|]; split; [exact H2|]); intros x; rewrite <- H; apply H3. Qed.

(** The decoders that look at the first byte and read it again. *)
Lemma local_first {A} (d e : bytes -> dres (A * bytes)) b rest : match d [] with DErr CPanic _ | DFuel => True | _ => False end -> (forall x, e (b :: x) = d (b :: x)) -> local d (b :: rest) -> local e (b :: rest).
Proof.
  intros H0 He. unfold local. rewrite He. destruct (d (b :: rest)) as [[a r]|c r|]; [| |exact (fun H => H)].
  - intros (p & Hp & Hx). exists p. split; [exact Hp|]. intros x. destruct p as [|b' p]; [specialize (Hx []); cbn [app] in Hx; rewrite Hx in H0; contradiction|]. cbn [app] in Hp. injection Hp as <- Hp. cbn [app]. rewrite He. apply Hx.
  - destruct c; try exact (fun H => H); intros (p & y & Hp & Hz & Hx); exists p, y; (split; [exact Hp|]; split; [exact Hz|]); intros x;
    (destruct p as [|b' p]; [destruct (Hx []) as (r2 & H1 & _); cbn [app] in H1; rewrite H1 in H0; contradiction|]); cbn [app] in Hp; injection Hp as <- Hp; cbn [app]; rewrite He; apply Hx.
Qed.
Lemma string_local rest : local (decodeStringD []) rest.
Proof.
  unfold decodeStringD. apply local_bind; [apply digit_local; reflexivity|]. intros ds r _. unfold local. destruct (atoi_cases ds) as [[n E]|E]; rewrite E.
  - destruct (n <=? zlen r + zlen []) eqn:En; [|exact I]. exists (firstn (Z.to_nat n) r). rewrite app_nil_r. split; [symmetry; apply firstn_skipn|]. intros x.
    change (zlen (@nil byte)) with 0 in *. assert (Hl : List.length (firstn (Z.to_nat n) r) = Z.to_nat n) by (rewrite firstn_length; unfold zlen in En; lia).
    assert (zlen (firstn (Z.to_nat n) r ++ x) = Z.of_nat (Z.to_nat n) + zlen x) as Hz by (unfold zlen; rewrite app_length, Hl; lia). rewrite Hz.
    replace (n <=? Z.of_nat (Z.to_nat n) + zlen x + 0) with true by (unfold zlen in *; lia). rewrite app_nil_r. rewrite firstn_app, skipn_app, Hl, Nat.sub_diag, firstn_O, skipn_O, app_nil_r.
    rewrite firstn_firstn, Nat.min_id, skipn_all2; [reflexivity|lia].
  - exists [], r. unfold off. cbn [points app]. split; [reflexivity|]. split; [lia|]. intros x. try rewrite E. exists x. split; [reflexivity|lia].
Qed.
Lemma body_local r : local int_bodyD r.
Proof.
  destruct r as [|z r]; [exact I|]. destruct (Byte.eqb z "0") eqn:Ez.
  - apply local_head with (d := fun r' => match r' with [] => DErr CPanic [] | y :: _ => if negb (Byte.eqb y "e"%byte) then DErr CZero r' else digit_loopD "e"%byte CInt r' [z] end).
    + intros x. unfold int_bodyD. rewrite Ez. reflexivity.
    + destruct r as [|y r]; [exact I|]. destruct (negb (Byte.eqb y "e")) eqn:Ey.
      * unfold local. rewrite Ey. exists [y], r. rewrite zlen_cons. split; [reflexivity|]. split; [reflexivity|]. intros x. exists (y :: x). cbn [app]. rewrite Ey, zlen_cons. auto.
      * apply local_first with (d := fun r' => digit_loopD "e"%byte CInt r' [z]); [exact I|intros x; rewrite Ey; reflexivity|]. apply digit_local. reflexivity.
  - apply local_first with (d := fun r' => digit_loopD "e"%byte CInt r' []); [exact I|intros x; unfold int_bodyD; rewrite Ez; reflexivity|]. apply digit_local. reflexivity.
Qed.
(** What follows the 'i' and the sign. *)
Definition numberD (neg : bool) (r2 : bytes) : dres (Z * bytes) :=
  try (ds, r3) <- int_bodyD r2;
  match atoi ds with Ok v => DOk (i64 (v * (if neg then -1 else 1)), r3) | _ => DErr (CParse ds) r3 end.
Lemma number_local neg r : local (numberD neg) r.
Proof.
  unfold numberD. apply local_bind; [apply body_local|]. intros ds r3 _. unfold local. destruct (atoi_cases ds) as [[n E]|E]; rewrite E.
  - exists []. split; [reflexivity|]. intros x. try rewrite E. reflexivity.
  - exists [], r3. unfold off. cbn [points app]. split; [reflexivity|]. split; [lia|]. intros x. try rewrite E. exists x. split; [reflexivity|lia].
Qed.
Lemma decodeIntD_minus r : decodeIntD ("i"%byte :: "-"%byte :: r) = numberD true r.
Proof. reflexivity. Qed.
Lemma decodeIntD_plus c r : c <> "-"%byte -> decodeIntD ("i"%byte :: c :: r) = numberD false (c :: r).
Proof. intros H. unfold decodeIntD. change (negb (Byte.eqb "i"%byte "i"%byte)) with false. cbv iota. destruct (Byte.eqb c "-") eqn:E; [apply Byte_eqb_eq in E; congruence|reflexivity]. Qed.
Lemma int_local r : local decodeIntD ("i"%byte :: r).
Proof.
  destruct r as [|c r]; [exact I|]. destruct (Byte.eqb c "-") eqn:E.
  - apply Byte_eqb_eq in E. subst. apply local_head with (d := fun r => match r with b :: r => if Byte.eqb b "-" then numberD true r else decodeIntD ("i"%byte :: b :: r) | [] => DErr CPanic [] end).
    + intros [|c x]; [reflexivity|]. destruct (Byte.eqb c "-") eqn:E; [apply Byte_eqb_eq in E; subst; reflexivity|reflexivity].
    + apply local_head with (d := numberD true); [reflexivity|apply number_local].
  - assert (Hc : c <> "-"%byte) by (intros ->; discriminate). 
    apply local_head with (d := fun r => match r with b :: r' => if Byte.eqb b "-" then numberD true r' else numberD false r | [] => DErr CPanic [] end).
    + intros [|b x]; [reflexivity|]. destruct (Byte.eqb b "-") eqn:E'; [apply Byte_eqb_eq in E'; subst; reflexivity|]. apply decodeIntD_plus. intros ->. discriminate.
    + apply local_first with (d := numberD false); [exact I|intros x; rewrite E; reflexivity|apply number_local].
Qed.
Lemma dec_local : forall f, (forall rest, local (decValD f []) rest) /\ (forall rest acc, local (fun b => decDictD f [] b acc) rest) /\ (forall rest acc, local (fun b => decListD f [] b acc) rest).
Proof.
  induction f as [|f (IHv & IHd & IHl)]; [repeat split|]. split; [|split].
  - intros [|b r]; [exact I|]. destruct (Byte.eqb b "d") eqn:Ed; [|destruct (Byte.eqb b "l") eqn:El; [|destruct (Byte.eqb b "i") eqn:Ei]].
    + apply local_head with (d := fun r => try (d, r') <- decDictD f [] r []; DOk (VDict d, r')); [intros x; cbn [decValD]; rewrite Ed; reflexivity|].
      apply local_bind with (d := fun r => decDictD f [] r []) (f := fun d r' => DOk (VDict d, r')); [apply IHd|]. intros a r0 _. exists []. split; reflexivity.
    + apply local_head with (d := fun r => try (d, r') <- decListD f [] r []; DOk (VList d, r')); [intros x; cbn [decValD]; rewrite Ed, El; reflexivity|].
      apply local_bind with (d := fun r => decListD f [] r []) (f := fun d r' => DOk (VList d, r')); [apply IHl|]. intros a r0 _. exists []. split; reflexivity.
    + apply local_first with (d := fun r => try (z, r') <- decodeIntD r; DOk (VInt KInt64 z, r')); [exact I|intros x; cbn [decValD]; rewrite Ed, El, Ei; reflexivity|].
      apply Byte_eqb_eq in Ei. subst. apply local_bind with (f := fun z r' => DOk (VInt KInt64 z, r')); [apply int_local|]. intros a r0 _. exists []. split; reflexivity.
    + apply local_first with (d := fun r => try (z, r') <- decodeStringD [] r; DOk (VStr z, r')); [exact I|intros x; cbn [decValD]; rewrite Ed, El, Ei; reflexivity|].
      apply local_bind with (f := fun z r' => DOk (VStr z, r')); [apply string_local|]. intros a r0 _. exists []. split; reflexivity.
  - intros [|b r] acc; [exact I|]. destruct (Byte.eqb b "e") eqn:Ee.
    + unfold local. cbn [decDictD]. rewrite Ee. exists [b]. split; [reflexivity|]. intros x. cbn [app]. rewrite Ee. reflexivity.
    + apply local_first with (d := fun rest => try (k, r1) <- decodeStringD [] rest; try (v, r2) <- decValD f [] r1; decDictD f [] r2 (dput k v acc)); [exact I|intros x; cbn [decDictD]; rewrite Ee; reflexivity|].
      apply local_bind with (f := fun k r1 => try (v, r2) <- decValD f [] r1; decDictD f [] r2 (dput k v acc)); [apply string_local|]. intros k r1 _.
      apply local_bind with (f := fun v r2 => decDictD f [] r2 (dput k v acc)); [apply IHv|]. intros v r2 _. apply IHd.
  - intros [|b r] acc; [exact I|]. destruct (Byte.eqb b "e") eqn:Ee.
    + unfold local. cbn [decListD]. rewrite Ee. exists [b]. split; [reflexivity|]. intros x. cbn [app]. rewrite Ee. reflexivity.
    + apply local_first with (d := fun rest => try (v, r1) <- decValD f [] rest; decListD f [] r1 (acc ++ [v])); [destruct f; exact I|intros x; cbn [decListD]; rewrite Ee; reflexivity|].
      apply local_bind with (f := fun v r1 => decListD f [] r1 (acc ++ [v])); [apply IHv|]. intros v r1 _. apply IHl.
Qed.
Lemma dbind_fuel {A C} (m : dres A) (k : A -> dres C) : dbind m k <> DFuel -> m <> DFuel.
Proof. intros H ->. apply H. reflexivity. Qed.
Lemma dec_mono : forall f f', (f <= f')%nat ->
  (forall sp rest, decValD f sp rest <> DFuel -> decValD f' sp rest = decValD f sp rest) /\
  (forall sp rest acc, decDictD f sp rest acc <> DFuel -> decDictD f' sp rest acc = decDictD f sp rest acc) /\
  (forall sp rest acc, decListD f sp rest acc <> DFuel -> decListD f' sp rest acc = decListD f sp rest acc).
Proof.
  induction f as [|f IH]; intros f' Hf; [repeat split; intros; exfalso; eauto|]. destruct f' as [|f']; [lia|]. destruct (IH f' ltac:(lia)) as (IHv & IHd & IHl). split; [|split].
  - intros sp [|b r] H; [reflexivity|]. cbn [decValD] in *. destruct (Byte.eqb b "d"); [rewrite IHd; [reflexivity|eapply dbind_fuel, H]|]. destruct (Byte.eqb b "l"); [rewrite IHl; [reflexivity|eapply dbind_fuel, H]|]. reflexivity.
  - intros sp [|b r] acc H; [reflexivity|]. cbn [decDictD] in *. destruct (Byte.eqb b "e"); [reflexivity|]. destruct (decodeStringD sp (b :: r)) as [[k r1]| |]; cbn [dbind] in *; [|reflexivity|reflexivity].
    rewrite IHv by (eapply dbind_fuel, H). destruct (decValD f sp r1) as [[v r2]| |]; cbn [dbind] in *; [|reflexivity|reflexivity]. apply IHd, H.
  - intros sp [|b r] acc H; [reflexivity|]. cbn [decListD] in *. destruct (Byte.eqb b "e"); [reflexivity|].
    rewrite IHv by (eapply dbind_fuel, H). destruct (decValD f sp (b :: r)) as [[v r2]| |]; cbn [dbind] in *; [|reflexivity|reflexivity]. apply IHl, H.
Qed.
Lemma enough data : decValD (2 * List.length (vis data) + 2) (spare data) (vis data) <> DFuel.
Proof.
  pose proof (proj1 (dec_sim (2 * List.length (vis data) + 2)) (spare data) (vis data)) as H. pose proof (proj1 (dec_fuel (2 * List.length (vis data) + 2)) (spare data) (vis data) ltac:(lia)) as Hn.
  intros E. rewrite E in H. cbn [sim] in H. congruence.
Qed.
(** Any fuel that gives a result gives Decode's. *)
Lemma run_verdict f data : decValD f (spare data) (vis data) <> DFuel ->
  DecodeD data = match decValD f (spare data) (vis data) with DOk (v, _) => Value v | DErr c r => Trouble c (zlen (vis data) - zlen r) | DFuel => Unknown end.
Proof.
  intros H. unfold DecodeD. set (g := (2 * List.length (vis data) + 2)%nat). pose proof (enough data) as Hg. fold g in Hg.
  destruct (le_ge_dec f g) as [Hl|Hl]; [rewrite (proj1 (dec_mono f g Hl)) by exact H; reflexivity|]. rewrite (proj1 (dec_mono g f Hl)) by exact Hg. reflexivity.
Qed.

(** ** Bytes after which nothing helps *)
Lemma corrupt data c k : DecodeD (whole data) = Trouble c k -> c <> CPanic ->
  0 <= k /\ k + off c <= zlen data /\ forall x, DecodeD (whole (firstn (Z.to_nat (k + off c)) data ++ x)) = Trouble c k.
Proof.
  intros H Hc. unfold DecodeD in H. cbn [whole vis spare] in H. set (f := (2 * List.length data + 2)%nat) in *. destruct (decValD f [] data) as [[v r]|c' r|] eqn:E; [discriminate| |discriminate]. injection H as -> H.
  pose proof (proj1 (dec_local f) data) as L. unfold local in L. rewrite E in L.
  assert (L' : exists p y, data = p ++ y /\ zlen r = zlen y + off c /\ forall x, exists r2, decValD f [] (p ++ x) = DErr c r2 /\ zlen r2 = zlen x + off c) by (destruct c; try exact L; congruence). clear L.
  destruct L' as (p & y & -> & Hz & Hx).
  assert (Hzp : zlen (p ++ y) = zlen p + zlen y) by (unfold zlen; rewrite app_length; lia). rewrite Hzp in *.
  assert (Hk : k + off c = zlen p) by lia. rewrite Hk.
  assert (0 <= k). { unfold zlen in *. destruct p; [|unfold off in *; cbn [List.length] in *; destruct (points c); lia]. destruct (Hx []) as (r2 & H2 & _). unfold f in H2. rewrite Nat.add_comm in H2. cbn in H2. congruence. }
  split; [assumption|]. split; [unfold zlen; lia|]. intros x.
  replace (firstn (Z.to_nat (zlen p)) (p ++ y)) with p by (unfold zlen; rewrite Nat2Z.id, firstn_app, Nat.sub_diag, firstn_O, app_nil_r, firstn_all; reflexivity).
  destruct (Hx x) as (r2 & H2 & Hr). rewrite (run_verdict f) by (cbn [whole vis spare]; rewrite H2; discriminate). cbn [whole vis spare]. rewrite H2, Hr. f_equal. unfold zlen in *. rewrite app_length. lia.
Qed.

(** ** Bytes that can be completed *)
Lemma digit_stop stop c : points c = true -> forall rest acc c' r, digit_loopD stop c rest acc = DErr c' r -> exists ds, digits ds /\ ((c' = CPanic /\ rest = ds) \/ (c' = c /\ rest = ds ++ r)).
Proof.
  intros Hc. induction rest as [|b rest IH]; intros acc c' r H; cbn [digit_loopD] in H.
  - injection H as <- <-. exists []. split; [apply Forall_nil|]. auto.
  - destruct (is_digit b) eqn:Ed.
    + destruct (IH _ _ _ H) as (ds & Hd & [[-> ->]|[-> ->]]); exists (b :: ds); (split; [constructor; assumption|]); auto.
    + destruct (Byte.eqb b stop); [discriminate|]. injection H as <- <-. exists []. split; [apply Forall_nil|]. auto.
Qed.
Lemma digit_done stop c : is_digit stop = false -> forall ds acc y, digits ds -> digit_loopD stop c (ds ++ stop :: y) acc = DOk (acc ++ ds, y).
Proof.
  intros Hs. induction ds as [|d ds IH]; intros acc y H; cbn [app digit_loopD].
  - rewrite Hs. replace (Byte.eqb stop stop) with true by (symmetry; apply Byte_eqb_eq; reflexivity). rewrite app_nil_r. reflexivity.
  - inversion H; subst. rewrite H2. rewrite IH by assumption. rewrite <- app_assoc. reflexivity.
Qed.
Lemma digit_range d : is_digit d = true -> 0 <= b2z d - 48 <= 9.
Proof. unfold is_digit. lia. Qed.
Lemma digits_acc ds : forall a, digits ds -> 0 <= a -> a * 10 ^ zlen ds <= fold_left (fun a d => 10 * a + (b2z d - 48)) ds a < (a + 1) * 10 ^ zlen ds.
Proof.
  induction ds as [|d ds IH]; intros a H Ha; cbn [fold_left]; [change (zlen (@nil byte)) with 0; lia|]. inversion H; subst. pose proof (digit_range d H2). specialize (IH (10 * a + (b2z d - 48)) H3 ltac:(lia)).
  rewrite zlen_cons, Z.pow_add_r by (unfold zlen; lia). assert (0 < 10 ^ zlen ds) by (apply Z.pow_pos_nonneg; unfold zlen; lia). nia.
Qed.
Lemma short_ok ds : digits ds -> ds <> [] -> (List.length ds <= 18)%nat -> exists n, atoi ds = Ok n /\ 0 <= n.
Proof.
  intros H Hn Hl. exists (digits_val ds). pose proof (digits_acc ds 0 H ltac:(lia)) as Hr. fold (digits_val ds) in Hr. assert (10 ^ zlen ds <= 10 ^ 18) by (apply Z.pow_le_mono_r; unfold zlen; lia).
  unfold atoi. destruct ds; [congruence|]. replace (digits_val (b :: ds) <=? max64) with true; [split; [reflexivity|lia]|]. unfold max64. lia.
Qed.
Lemma short_sub p b s : short_runs (p ++ b ++ s) -> short_runs b.
Proof. intros H p' ds s' -> Hd. apply (H (p ++ p') ds (s' ++ s)); [rewrite <- !app_assoc; reflexivity|exact Hd]. Qed.
(** A completion: the decoder has a value and reads no more. *)
Definition finish {A} (d : bytes -> dres (A * bytes)) (q : bytes) : Prop := exists x a, forall y, d (q ++ x ++ y) = DOk (a, y).

(** Where the decoder [d] fails on [rest], [d'] can complete. *)
Definition vat {A} (d d' : bytes -> dres (A * bytes)) (rest : bytes) : Prop :=
  match d rest with
  | DErr c r => if points c then exists q, rest = q ++ r /\ finish d' q else c = CPanic -> finish d' rest
  | _ => True
  end.
Lemma vstep {A C} (d d' : bytes -> dres (A * bytes)) (f f' : A -> bytes -> dres (C * bytes)) (e e' : bytes -> dres (C * bytes)) rest :
  e rest = dbind (d rest) (fun '(a, r) => f a r) -> (d rest <> DFuel -> d' rest = d rest) -> local d' rest -> vat d d' rest ->
  (forall z a y, d' z = DOk (a, y) -> e' z = f' a y) -> (forall a r, d rest = DOk (a, r) -> vat (f a) (f' a) r) -> (forall a, finish (f' a) []) -> vat e e' rest.
Proof.
  intros He Hm Hl Hv Hk Hf Hc.
  assert (K : forall q, finish d' q -> finish e' q).
  { intros q (x & a & Hx). destruct (Hc a) as (x' & a' & Hx'). exists (x ++ x'), a'. intros y. rewrite <- app_assoc. rewrite (Hk _ _ _ (Hx (x' ++ y))). apply Hx'. }
  unfold vat in *. rewrite He. destruct (d rest) as [[a r]|c r|] eqn:E; cbn [dbind]; [| |exact I].
  - unfold local in Hl. rewrite Hm in Hl by discriminate. destruct Hl as (p & Hp & Hx).
    assert (K2 : forall q, finish (f' a) q -> finish e' (p ++ q)).
    { intros q (x & a' & Hy). exists x, a'. intros y. rewrite <- app_assoc. rewrite (Hk _ _ _ (Hx (q ++ x ++ y))). apply Hy. }
    specialize (Hf a r eq_refl). destruct (f a r) as [?|c r'|]; [exact I| |exact I]. destruct (points c).
    + destruct Hf as (q & -> & Hq). exists (p ++ q). rewrite <- app_assoc. auto.
    + intros Hcp. rewrite Hp. auto.
  - destruct (points c); [destruct Hv as (q & Hq & Hqf); exists q; auto|auto].
Qed.
Lemma vhead {A} (d d' e e' : bytes -> dres (A * bytes)) b rest : e (b :: rest) = d rest -> (forall x, e' (b :: x) = d' x) -> vat d d' rest -> vat e e' (b :: rest).
Proof.
  intros He He'. assert (K : forall q, finish d' q -> finish e' (b :: q)) by (intros q (x & a & Hx); exists x, a; intros y; cbn [app]; rewrite He'; apply Hx).
  unfold vat. rewrite He. destruct (d rest) as [?|c r|]; [auto| |auto]. destruct (points c); [intros (q & -> & Hq); exists (b :: q); auto|auto].
Qed.
Lemma zlen_repeat {A} (x : A) n : zlen (repeat x n) = Z.of_nat n.
Proof. unfold zlen. rewrite repeat_length. reflexivity. Qed.
Lemma zlen_app {A} (a b : list A) : zlen (a ++ b) = zlen a + zlen b.
Proof. unfold zlen. rewrite app_length. lia. Qed.
Lemma string_done q ds n z y : 0 <= n -> zlen z = n -> atoi ds = Ok n -> digit_loopD ":"%byte CString q [] = DOk (ds, z ++ y) -> decodeStringD [] q = DOk (z, y).
Proof.
  intros Hn Hz Ha H. unfold decodeStringD. rewrite H. cbn [dbind]. rewrite Ha. change (zlen (@nil byte)) with 0. rewrite zlen_app, app_nil_r. replace (n <=? zlen z + zlen y + 0) with true by (unfold zlen in *; lia).
  assert (Hl : Z.to_nat n = List.length z) by (unfold zlen in Hz; lia). rewrite Hl, firstn_app, skipn_app, Nat.sub_diag, firstn_O, skipn_O, app_nil_r, firstn_all, skipn_all. reflexivity.
Qed.
Lemma string_fin ds : digits ds -> (List.length ds <= 18)%nat -> finish (decodeStringD []) ds.
Proof.
  intros Hd Hl. destruct ds as [|d ds].
  - exists (B "0:"), []. intros y. apply string_done with (ds := B "0") (n := 0); [lia|reflexivity|reflexivity|reflexivity].
  - destruct (short_ok (d :: ds) Hd ltac:(discriminate) Hl) as (n & Ha & Hn). exists (":"%byte :: repeat x00 (Z.to_nat n)), (repeat x00 (Z.to_nat n)). intros y.
    apply string_done with (ds := d :: ds) (n := n); [exact Hn|rewrite zlen_repeat; lia|exact Ha|]. change (d :: ds) with ([] ++ d :: ds) at 2. apply digit_done; [reflexivity|exact Hd].
Qed.
Lemma string_vat rest : short_runs rest -> vat (decodeStringD []) (decodeStringD []) rest.
Proof.
  intros Hs. unfold vat. destruct (digit_loopD ":"%byte CString rest []) as [[ds r]|c r|] eqn:E; unfold decodeStringD at 1; rewrite E; cbn [dbind]; [| |exact I].
  - destruct (atoi_cases ds) as [[n Ha]|Ha]; rewrite Ha; [|cbn [points]; discriminate]. destruct (n <=? zlen r + zlen []) eqn:En; [exact I|]. cbn [points]. intros _. change (zlen (@nil byte)) with 0 in En.
    pose proof (digit_local ":"%byte CString eq_refl rest []) as L. unfold local in L. rewrite E in L. destruct L as (p & -> & Hx).
    exists (repeat x00 (Z.to_nat (n - zlen r))), (r ++ repeat x00 (Z.to_nat (n - zlen r))). intros y. apply string_done with (ds := ds) (n := n); [unfold zlen in *; lia|rewrite zlen_app, zlen_repeat; unfold zlen in *; lia|exact Ha|].
    rewrite <- !app_assoc. apply Hx.
  - destruct (digit_stop ":"%byte CString eq_refl _ _ _ _ E) as (ds & Hd & [[-> ->]|[-> ->]]); cbn [points].
    + intros _. apply string_fin; [exact Hd|]. apply (Hs [] ds []); [rewrite app_nil_r; reflexivity|exact Hd].
    + exists ds. split; [reflexivity|]. apply string_fin; [exact Hd|]. apply (Hs [] ds r); [reflexivity|exact Hd].
Qed.
Lemma number_done neg q ds n y : atoi ds = Ok n -> int_bodyD q = DOk (ds, y) -> numberD neg q = DOk (i64 (n * (if neg then -1 else 1)), y).
Proof. intros Ha H. unfold numberD. rewrite H. cbn [dbind]. rewrite Ha. reflexivity. Qed.
Lemma number_fin neg ds : digits ds -> (List.length ds <= 18)%nat -> (ds = [] \/ exists z t, ds = z :: t /\ Byte.eqb z "0" = false) -> finish (numberD neg) ds.
Proof.
  intros Hd Hl Hz. destruct Hz as [->|(z & t & -> & Ez)].
  - exists (B "0e"), (i64 (0 * (if neg then -1 else 1))). intros y. reflexivity.
  - destruct (short_ok (z :: t) Hd ltac:(discriminate) Hl) as (n & Ha & Hn). exists (B "e"), (i64 (n * (if neg then -1 else 1))). intros y. apply number_done with (ds := z :: t); [exact Ha|].
    cbn [app]. unfold int_bodyD. rewrite Ez. apply (digit_done "e"%byte CInt eq_refl (z :: t) [] y Hd).
Qed.
Lemma number_vat neg rest : short_runs rest -> vat (numberD neg) (numberD neg) rest.
Proof.
  intros Hs. unfold vat. destruct (int_bodyD rest) as [[ds r]|c r|] eqn:E; unfold numberD at 1; rewrite E; cbn [dbind]; [| |exact I].
  - destruct (atoi_cases ds) as [[n Ha]|Ha]; rewrite Ha; [exact I|cbn [points]; discriminate].
  - destruct rest as [|z rest]; [injection E as <- <-; intros _; apply (number_fin neg []); [apply Forall_nil|cbn; lia|auto]|]. unfold int_bodyD in E. destruct (Byte.eqb z "0") eqn:Ez.
    + assert (F : finish (numberD neg) [z]). { apply Byte_eqb_eq in Ez. subst. exists (B "e"), (i64 (0 * (if neg then -1 else 1))). reflexivity. }
      destruct rest as [|y rest]; [injection E as <- <-; intros _; exact F|]. destruct (negb (Byte.eqb y "e")) eqn:Ey.
      * injection E as <- <-. exists [z]. split; [reflexivity|exact F].
      * exfalso. apply negb_false_iff, Byte_eqb_eq in Ey. subst. discriminate.
    + destruct (digit_stop "e"%byte CInt eq_refl _ _ _ _ E) as (ds & Hd & [[-> Hr]|[-> Hr]]); cbn [points].
      * intros _. rewrite Hr in *. apply number_fin; [exact Hd|apply (Hs [] ds []); [rewrite app_nil_r; reflexivity|exact Hd]|]. right. exists z, rest. auto.
      * exists ds. split; [exact Hr|]. apply number_fin; [exact Hd|apply (Hs [] ds r Hr Hd)|]. destruct ds as [|z' t]; [auto|]. right. exists z', t. cbn [app] in Hr. injection Hr as -> _. auto.
Qed.
Lemma number_first neg z a y : numberD neg z = DOk (a, y) -> exists c t, z = c :: t /\ c <> "-"%byte.
Proof. destruct z as [|c t]; [discriminate|]. intros H. exists c, t. split; [reflexivity|]. intros ->. discriminate. Qed.
Lemma int_vat rest : short_runs rest -> vat decodeIntD decodeIntD ("i"%byte :: rest).
Proof.
  intros Hs. destruct rest as [|c r].
  - intros _. exists (B "0e"), (i64 0). intros y. reflexivity.
  - destruct (Byte.eqb c "-") eqn:E.
    + apply Byte_eqb_eq in E. subst. apply (vhead (fun r => match r with b :: r' => if Byte.eqb b "-" then numberD true r' else decodeIntD ("i"%byte :: r) | [] => decodeIntD (B "i") end) (fun r => match r with b :: r' => if Byte.eqb b "-" then numberD true r' else decodeIntD ("i"%byte :: r) | [] => decodeIntD (B "i") end)); [reflexivity| |].
      * intros [|b x]; [reflexivity|]. destruct (Byte.eqb b "-") eqn:E; [apply Byte_eqb_eq in E; subst; reflexivity|reflexivity].
      * apply (vhead (numberD true) (numberD true)); [reflexivity|reflexivity|]. apply number_vat. apply (short_sub ["-"%byte] r []). rewrite app_nil_r. exact Hs.
    + assert (Hc : c <> "-"%byte) by (intros ->; discriminate). pose proof (number_vat false (c :: r) Hs) as H. revert H. unfold vat. rewrite (decodeIntD_plus c r Hc).
      assert (K : forall q, finish (numberD false) q -> finish decodeIntD ("i"%byte :: q)).
      { intros q (x & a & Hx). exists x, a. intros y. specialize (Hx y). destruct (number_first _ _ _ _ Hx) as (c' & t & Hq & Hn). cbn [app]. rewrite Hq in *. rewrite decodeIntD_plus by exact Hn. exact Hx. }
      destruct (numberD false (c :: r)) as [?|c' r'|]; [auto| |auto]. destruct (points c'); [intros (q & -> & Hq); exists ("i"%byte :: q); auto|auto].
Qed.
Lemma fin_list f acc : (2 <= f)%nat -> finish (fun b => decListD f [] b acc) [].
Proof. intros H. exists (B "e"), acc. intros y. destruct f as [|f]; [lia|]. reflexivity. Qed.
Lemma fin_val f : (2 <= f)%nat -> finish (decValD f []) [].
Proof. intros H. exists (B "le"), (VList []). intros y. destruct f as [|[|f]]; [lia|lia|]. reflexivity. Qed.
Lemma fin_dict f acc : (2 <= f)%nat -> finish (fun b => decDictD f [] b acc) [].
Proof. intros H. exists (B "e"), acc. intros y. destruct f as [|f]; [lia|]. reflexivity. Qed.
Lemma string_first z a y : decodeStringD [] z = DOk (a, y) -> exists c t, z = c :: t /\ is_digit c = true.
Proof.
  destruct z as [|c t]; [discriminate|]. intros H. exists c, t. split; [reflexivity|]. destruct (is_digit c) eqn:E; [reflexivity|]. exfalso. unfold decodeStringD in H. cbn [digit_loopD] in H. rewrite E in H.
  destruct (Byte.eqb c ":"); discriminate.
Qed.
Lemma digit_not c b : is_digit c = true -> is_digit b = false -> Byte.eqb c b = false.
Proof. intros H1 H2. destruct (Byte.eqb c b) eqn:E; [|reflexivity]. apply Byte_eqb_eq in E. congruence. Qed.
Lemma val_first f z a y : decValD f [] z = DOk (a, y) -> exists c t, z = c :: t /\ Byte.eqb c "e" = false.
Proof.
  destruct f as [|f]; [discriminate|]. destruct z as [|c t]; [discriminate|]. intros H. exists c, t. split; [reflexivity|]. destruct (Byte.eqb c "e") eqn:E; [|reflexivity]. apply Byte_eqb_eq in E. subst. discriminate.
Qed.
Lemma tail_short b r : short_runs (b :: r) -> short_runs r.
Proof. intros H. apply (short_sub [b] r []). rewrite app_nil_r. exact H. Qed.
Lemma short_rest {A} (d : bytes -> dres (A * bytes)) rest a r : local d rest -> d rest = DOk (a, r) -> short_runs rest -> short_runs r.
Proof. unfold local. intros L E Hs. rewrite E in L. destruct L as (p & -> & _). apply (short_sub p r []). rewrite app_nil_r. exact Hs. Qed.
Lemma dec_vat : forall f, let g := (f + 2)%nat in
  (forall rest, short_runs rest -> vat (decValD f []) (decValD g []) rest) /\
  (forall rest acc, short_runs rest -> vat (fun b => decDictD f [] b acc) (fun b => decDictD g [] b acc) rest) /\
  (forall rest acc, short_runs rest -> vat (fun b => decListD f [] b acc) (fun b => decListD g [] b acc) rest).
Proof.
  induction f as [|f (IHv & IHd & IHl)]; cbv zeta in *; [repeat split|]. destruct (dec_mono f (f + 2) ltac:(lia)) as (Mv & Md & Ml). destruct (dec_local (f + 2)) as (Lv & Ld & Ll). destruct (dec_local f) as (Lv0 & Ld0 & Ll0). split; [|split].
  - intros [|b r] Hs; [intros _; apply fin_val; lia|]. destruct (Byte.eqb b "d") eqn:Ed; [|destruct (Byte.eqb b "l") eqn:El; [|destruct (Byte.eqb b "i") eqn:Ei]].
    + apply (vhead (fun r => try (d, r') <- decDictD f [] r []; DOk (VDict d, r')) (fun r => try (d, r') <- decDictD (f + 2) [] r []; DOk (VDict d, r'))); [cbn [decValD]; rewrite Ed; reflexivity|intros x; cbn [decValD Nat.add]; rewrite Ed; reflexivity|].
      apply (vstep (fun r => decDictD f [] r []) (fun r => decDictD (f + 2) [] r []) (fun d r' => DOk (VDict d, r')) (fun d r' => DOk (VDict d, r'))); [reflexivity|apply Md|apply Ld|apply IHd, (tail_short b), Hs| | |].
      * intros z a y Hz. rewrite Hz. reflexivity.
      * intros a r0 _. exact I.
      * intros a. exists [], (VDict a). reflexivity.
    + apply (vhead (fun r => try (d, r') <- decListD f [] r []; DOk (VList d, r')) (fun r => try (d, r') <- decListD (f + 2) [] r []; DOk (VList d, r'))); [cbn [decValD]; rewrite Ed, El; reflexivity|intros x; cbn [decValD Nat.add]; rewrite Ed, El; reflexivity|].
      apply (vstep (fun r => decListD f [] r []) (fun r => decListD (f + 2) [] r []) (fun d r' => DOk (VList d, r')) (fun d r' => DOk (VList d, r'))); [reflexivity|apply Ml|apply Ll|apply IHl, (tail_short b), Hs| | |].
      * intros z a y Hz. rewrite Hz. reflexivity.
      * intros a r0 _. exact I.
      * intros a. exists [], (VList a). reflexivity.
    + apply Byte_eqb_eq in Ei. subst. apply (vstep decodeIntD (fun b => match b with x :: _ => if Byte.eqb x "i" then decodeIntD b else DFuel | [] => DFuel end) (fun z r' => DOk (VInt KInt64 z, r')) (fun z r' => DOk (VInt KInt64 z, r'))); [reflexivity|reflexivity| | | | |].
      * apply local_first with (d := fun b => match b with x :: _ => decodeIntD b | [] => DFuel end); [exact I|reflexivity|]. pose proof (int_local r) as L. apply local_first with (d := decodeIntD); [exact I|reflexivity|exact L].
      * pose proof (int_vat r (tail_short _ _ Hs)) as V. revert V. unfold vat.
        assert (K : forall q, finish decodeIntD q -> (exists t, q = "i"%byte :: t) \/ q = [] -> finish (fun b => match b with x :: _ => if Byte.eqb x "i" then decodeIntD b else DFuel | [] => DFuel end) q).
        { intros q (x & a & Hx) Hq. exists x, a. intros y. specialize (Hx y). destruct (q ++ x ++ y) as [|c t] eqn:Eq; [discriminate|]. destruct (Byte.eqb c "i") eqn:Ec; [exact Hx|]. exfalso. unfold decodeIntD in Hx. rewrite Ec in Hx. discriminate. }
        destruct (decodeIntD _) as [?|c0 r0|]; [auto| |auto]. destruct (points c0); [intros (q & Hq & F); exists q; split; [exact Hq|]; apply K; [exact F|]; destruct q; [auto|]; left; injection Hq as <- _; eauto|]. intros F Hc. apply K; eauto.
      * intros z a y Hz. cbn [Nat.add decValD]. destruct z as [|x z]; [discriminate|]. destruct (Byte.eqb x "i") eqn:Ex; [|discriminate]. pose proof Ex as Ex'. apply Byte_eqb_eq in Ex. subst. change (Byte.eqb "i" "d") with false. change (Byte.eqb "i" "l") with false. cbv iota. rewrite Hz. reflexivity.
      * intros a r0 _. exact I.
      * intros a. exists [], (VInt KInt64 a). reflexivity.
    + apply (vstep (decodeStringD []) (decodeStringD []) (fun z r' => DOk (VStr z, r')) (fun z r' => DOk (VStr z, r'))); [cbn [decValD]; rewrite Ed, El, Ei; reflexivity|reflexivity|apply string_local|apply string_vat, Hs| | |].
      * intros z a y Hz. destruct (string_first _ _ _ Hz) as (c & t & -> & Hc). cbn [Nat.add decValD]. rewrite !(digit_not c) by (exact Hc || reflexivity). rewrite Hz. reflexivity.
      * intros a r0 _. exact I.
      * intros a. exists [], (VStr a). reflexivity.
  - intros [|b r] acc Hs; [intros _; apply fin_dict; lia|]. destruct (Byte.eqb b "e") eqn:Ee; [unfold vat; cbn [decDictD]; rewrite Ee; exact I|].
    apply (vstep (decodeStringD []) (decodeStringD []) (fun k r1 => try (v, r2) <- decValD f [] r1; decDictD f [] r2 (dput k v acc)) (fun k r1 => try (v, r2) <- decValD (f + 2) [] r1; decDictD (f + 2) [] r2 (dput k v acc))); [cbn [decDictD]; rewrite Ee; reflexivity|reflexivity|apply string_local|apply string_vat, Hs| | |].
    + intros z a y Hz. destruct (string_first _ _ _ Hz) as (c & t & -> & Hc). cbn [Nat.add decDictD]. rewrite (digit_not c) by (exact Hc || reflexivity). rewrite Hz. reflexivity.
    + intros k r1 Hk. pose proof (short_rest _ _ _ _ (string_local _) Hk Hs) as Hs1.
      apply (vstep (decValD f []) (decValD (f + 2) []) (fun v r2 => decDictD f [] r2 (dput k v acc)) (fun v r2 => decDictD (f + 2) [] r2 (dput k v acc))); [reflexivity|apply Mv|apply Lv|apply IHv, Hs1| | |].
      * intros z a y Hz. rewrite Hz. reflexivity.
      * intros v r2 Hv. apply IHd. apply (short_rest _ _ _ _ (Lv0 _) Hv Hs1).
      * intros v. apply fin_dict. lia.
    + intros k. destruct (fin_val (f + 2) ltac:(lia)) as (x & v & Hx). destruct (fin_dict (f + 2) (dput k v acc) ltac:(lia)) as (x' & a & Hx'). exists (x ++ x'), a. intros y. cbn [app] in *. rewrite <- app_assoc, Hx. cbn [dbind]. apply Hx'.
  - intros [|b r] acc Hs; [intros _; apply fin_list; lia|]. destruct (Byte.eqb b "e") eqn:Ee; [unfold vat; cbn [decListD]; rewrite Ee; exact I|].
    apply (vstep (decValD f []) (decValD (f + 2) []) (fun v r1 => decListD f [] r1 (acc ++ [v])) (fun v r1 => decListD (f + 2) [] r1 (acc ++ [v]))); [cbn [decListD]; rewrite Ee; reflexivity|apply Mv|apply Lv|apply IHv, Hs| | |].
    + intros z a y Hz. destruct (val_first _ _ _ _ Hz) as (c & t & -> & Hc). cbn [Nat.add decListD]. rewrite Hc, Hz. reflexivity.
    + intros v r1 Hv. apply IHl. apply (short_rest _ _ _ _ (Lv0 _) Hv Hs).
    + intros v. apply fin_list. lia.
Qed.
Lemma amount_acc ds : forall a, fold_left (fun a d => 10 * a + (b2z d - 48)) ds a = a * 10 ^ zlen ds + amount ds.
Proof.
  induction ds as [|d ds IH]; intros a; cbn [fold_left amount]; [change (zlen (@nil byte)) with 0; lia|]. rewrite IH, zlen_cons, Z.pow_add_r by (unfold zlen; lia). lia.
Qed.
Lemma digits_amount ds : digits_val ds = amount ds.
Proof. unfold digits_val. rewrite amount_acc. lia. Qed.
Lemma atoi_amount ds : atoi ds = match ds with [] => Err EAtoi | _ => if amount ds <=? max64 then Ok (amount ds) else Err EAtoi end.
Proof. unfold atoi. rewrite digits_amount. destruct ds; reflexivity. Qed.
Lemma digit_read stop c : forall rest acc ds r, digit_loopD stop c rest acc = DOk (ds, r) -> exists e, ds = acc ++ e /\ digits e /\ rest = e ++ stop :: r.
Proof.
  induction rest as [|b rest IH]; intros acc ds r H; cbn [digit_loopD] in H; [discriminate|]. destruct (is_digit b) eqn:Ed.
  - destruct (IH _ _ _ H) as (e & -> & He & ->). exists (b :: e). rewrite <- app_assoc. split; [reflexivity|]. split; [constructor; assumption|reflexivity].
  - destruct (Byte.eqb b stop) eqn:Es; [|discriminate]. injection H as <- <-. apply Byte_eqb_eq in Es. subst. exists []. rewrite app_nil_r. split; [reflexivity|]. split; [apply Forall_nil|reflexivity].
Qed.
Definition told {A} (d : dres A) (rest : bytes) : Prop := forall c r, d = DErr c r -> exists p, rest = p ++ r /\ accused c p r.
Lemma accused_more c q p s : accused c p s -> accused c (q ++ p) s.
Proof.
  destruct c; cbn [accused]; auto.
  - intros [(p' & H) Hs]. split; [|exact Hs]. exists (q ++ p'). rewrite <- !app_assoc. destruct H as [-> | ->]; auto.
  - intros (Hd & (p' & ->) & H). split; [exact Hd|]. split; [exists (q ++ p'); rewrite <- app_assoc; reflexivity|exact H].
  - intros (Hd & (p' & ->) & H). split; [exact Hd|]. split; [exists (q ++ p'); rewrite <- app_assoc; reflexivity|exact H].
  - intros [->|(p' & ds & H1 & H2 & -> & H3)]; [auto|]. right. exists (q ++ p'), ds. rewrite <- app_assoc. auto.
Qed.
Lemma told_bind {A C} (d : bytes -> dres (A * bytes)) (f : A -> bytes -> dres (C * bytes)) rest : local d rest -> told (d rest) rest -> (forall a r, told (f a r) r) -> told (dbind (d rest) (fun '(a, r) => f a r)) rest.
Proof.
  intros L T F c r E. unfold local in L. destruct (d rest) as [[a r0]|c' r'|] eqn:Ed; cbn [dbind] in E; [| |discriminate].
  - destruct L as (p & -> & _). destruct (F _ _ _ _ E) as (q & -> & Ha). exists (p ++ q). rewrite <- app_assoc. split; [reflexivity|]. apply accused_more, Ha.
  - injection E as -> ->. apply T. reflexivity.
Qed.
Lemma told_ok {A} (a : A) rest : told (DOk a) rest.
Proof. intros c r H. discriminate. Qed.
Lemma told_end {A} rest : told (@DErr A CPanic []) rest.
Proof. intros c r H. injection H as <- <-. exists rest. rewrite app_nil_r. split; [reflexivity|]. left. reflexivity. Qed.
Lemma told_head {A} (d : dres A) b rest : told d rest -> told d (b :: rest).
Proof. intros H c r E. destruct (H _ _ E) as (p & -> & Ha). exists (b :: p). split; [reflexivity|]. apply (accused_more _ [b]), Ha. Qed.
Lemma digit_told stop c : (c = CString /\ stop = ":"%byte \/ c = CInt /\ stop = "e"%byte) -> forall rest acc, told (digit_loopD stop c rest acc) rest.
Proof.
  intros Hc. induction rest as [|b rest IH]; intros acc; cbn [digit_loopD]; [apply told_end|]. destruct (is_digit b) eqn:Ed; [apply told_head, IH|]. destruct (Byte.eqb b stop) eqn:Es; [apply told_ok|].
  intros c' r H. injection H as <- <-. exists []. split; [reflexivity|]. destruct Hc as [[-> ->]|[-> ->]]; exists b, rest; (split; [reflexivity|]; split; [exact Ed|]); intros ->; discriminate.
Qed.
Lemma string_told rest : told (decodeStringD [] rest) rest.
Proof.
  unfold decodeStringD. destruct (digit_loopD ":"%byte CString rest []) as [[ds r]|c r|] eqn:E; cbn [dbind]; [| |discriminate].
  - destruct (digit_read _ _ _ _ _ _ E) as (e & -> & Hd & ->). cbn [app] in *. intros c r0 H.
    assert (Hp : forall p, e ++ ":"%byte :: r = p ++ r -> p = e ++ B ":") by (intros p Hp; apply (app_inv_tail r); rewrite <- Hp, <- app_assoc; reflexivity).
    rewrite atoi_amount in H. exists (e ++ B ":").
    destruct e as [|d e].
    + injection H as <- <-. split; [reflexivity|]. cbn [accused]. split; [exact Hd|]. split; [exists []; reflexivity|auto].
    + destruct (amount (d :: e) <=? max64) eqn:Em.
      * destruct (_ <=? _) eqn:El in H; [discriminate|]. injection H as <- <-. rewrite <- app_assoc. split; [reflexivity|]. cbn [accused]. right. exists [], (d :: e). change (zlen (@nil byte)) with 0 in El. split; [exact Hd|]. split; [discriminate|]. split; [reflexivity|lia].
      * injection H as <- <-. rewrite <- app_assoc. split; [reflexivity|]. cbn [accused]. split; [exact Hd|]. split; [exists []; reflexivity|]. right. lia.
  - intros c' r' H. injection H as <- <-. apply (digit_told ":"%byte CString) in E; [exact E|auto].
Qed.
Lemma number_told neg rest : told (numberD neg rest) ((if neg then B "i-" else B "i") ++ rest).
Proof.
  unfold numberD. destruct (int_bodyD rest) as [[ds r]|c r|] eqn:E; cbn [dbind]; [| |discriminate].
  - intros c r0 H. destruct (atoi_cases ds) as [[n Ha]|Ha]; rewrite Ha in H; [discriminate|]. injection H as <- <-.
    assert (K : digit_loopD "e"%byte CInt rest [] = DOk (ds, r)).
    { destruct rest as [|z rest]; [discriminate|]. unfold int_bodyD in E. destruct (Byte.eqb z "0") eqn:Ez; [|exact E]. destruct rest as [|y rest]; [discriminate|]. destruct (negb (Byte.eqb y "e")) eqn:Ey; [discriminate|].
      apply negb_false_iff, Byte_eqb_eq in Ey. subst. cbn in E. injection E as <- <-. apply Byte_eqb_eq in Ez. subst. discriminate. }
    destruct (digit_read _ _ _ _ _ _ K) as (e & -> & Hd & ->). cbn [app] in *. exists ((if neg then B "i-" else B "i") ++ e ++ B "e"). rewrite <- !app_assoc. split; [reflexivity|]. cbn [accused]. split; [exact Hd|].
    split; [eexists; reflexivity|]. rewrite atoi_amount in Ha. destruct e as [|d e]; [auto|]. right. destruct (_ <=? _) eqn:El in Ha; [discriminate|lia].
  - intros c' r' H. injection H as <- <-. destruct rest as [|z rest]; [injection E as <- <-; eexists; split; [reflexivity|]; left; reflexivity|]. unfold int_bodyD in E. destruct (Byte.eqb z "0") eqn:Ez.
    + apply Byte_eqb_eq in Ez. subst. destruct rest as [|y rest]; [injection E as <- <-; exists ((if neg then B "i-" else B "i") ++ B "0"); split; [rewrite app_nil_r; reflexivity|left; reflexivity]|]. destruct (negb (Byte.eqb y "e")) eqn:Ey.
      * injection E as <- <-. exists ((if neg then B "i-" else B "i") ++ B "0"). rewrite <- app_assoc. split; [reflexivity|]. cbn [accused]. split; [exists []; destruct neg; [right|left]; reflexivity|]. exists y, rest. split; [reflexivity|]. intros ->. discriminate.
      * exfalso. apply negb_false_iff, Byte_eqb_eq in Ey. subst. discriminate.
    + pose proof (digit_told "e"%byte CInt ltac:(auto) (z :: rest) [] _ _ E) as (p & -> & Ha). eexists. rewrite app_assoc. split; [reflexivity|]. apply accused_more, Ha.
Qed.
Lemma int_told rest : told (decodeIntD ("i"%byte :: rest)) ("i"%byte :: rest).
Proof.
  destruct rest as [|c r]; [apply told_end|]. destruct (Byte.eqb c "-") eqn:E.
  - apply Byte_eqb_eq in E. subst. apply (number_told true r).
  - rewrite decodeIntD_plus by (intros ->; discriminate). apply (number_told false (c :: r)).
Qed.
Lemma dec_told : forall f, (forall rest, told (decValD f [] rest) rest) /\ (forall rest acc, told (decDictD f [] rest acc) rest) /\ (forall rest acc, told (decListD f [] rest acc) rest).
Proof.
  induction f as [|f (IHv & IHd & IHl)]; [repeat split; intros; intros c r H; discriminate|]. destruct (dec_local f) as (Lv & Ld & Ll). split; [|split].
  - intros [|b r]; cbn [decValD]; [apply told_end|].
    destruct (Byte.eqb b "d"); [apply told_head; apply (told_bind (fun b => decDictD f [] b []) (fun d r' => DOk (VDict d, r'))); [apply Ld|apply IHd|intros; apply told_ok]|].
    destruct (Byte.eqb b "l"); [apply told_head; apply (told_bind (fun b => decListD f [] b []) (fun d r' => DOk (VList d, r'))); [apply Ll|apply IHl|intros; apply told_ok]|].
    destruct (Byte.eqb b "i") eqn:Ei; [apply Byte_eqb_eq in Ei; subst; apply (told_bind decodeIntD (fun d r' => DOk (VInt KInt64 d, r'))); [apply int_local|apply int_told|intros; apply told_ok]|].
    apply (told_bind (decodeStringD []) (fun d r' => DOk (VStr d, r'))); [apply string_local|apply string_told|intros; apply told_ok].
  - intros [|b r] acc; cbn [decDictD]; [apply told_end|]. destruct (Byte.eqb b "e"); [apply told_ok|].
    apply (told_bind (decodeStringD []) (fun k r1 => try (v, r2) <- decValD f [] r1; decDictD f [] r2 (dput k v acc))); [apply string_local|apply string_told|]. intros k r1.
    apply (told_bind (decValD f []) (fun v r2 => decDictD f [] r2 (dput k v acc))); [apply Lv|apply IHv|intros; apply IHd].
  - intros [|b r] acc; cbn [decListD]; [apply told_end|]. destruct (Byte.eqb b "e"); [apply told_ok|].
    apply (told_bind (decValD f []) (fun v r2 => decListD f [] r2 (acc ++ [v]))); [apply Lv|apply IHv|intros; apply IHl].
Qed.

(** ** Together *)
Lemma told_top data c k : DecodeD (whole data) = Trouble c k -> 0 <= k <= zlen data /\ accused c (firstn (Z.to_nat k) data) (skipn (Z.to_nat k) data).
Proof.
  unfold DecodeD. cbn [whole vis spare]. destruct (decValD _ [] data) as [[v r]|c' r|] eqn:E; [discriminate| |discriminate]. intros H. injection H as -> <-.
  destruct (proj1 (dec_told _) data _ _ E) as (p & -> & Ha). rewrite zlen_app. split; [unfold zlen; lia|]. replace (Z.to_nat (zlen p + zlen r - zlen r)) with (List.length p) by (unfold zlen; lia).
  rewrite firstn_app, skipn_app, Nat.sub_diag, firstn_O, skipn_O, app_nil_r, firstn_all, skipn_all. exact Ha.
Qed.
Lemma off_read c k : read_to c k = k + off c.
Proof. unfold read_to, off. destruct (points c); lia. Qed.
Lemma corrupt_top data c k : DecodeD (whole data) = Trouble c k -> c <> CPanic -> 0 <= k /\ read_to c k <= zlen data /\ forall x, DecodeD (whole (firstn (Z.to_nat (read_to c k)) data ++ x)) = Trouble c k.
Proof. rewrite off_read. apply corrupt. Qed.
Lemma trouble_no data c k : DecodeD data = Trouble c k -> forall v, Decode data <> Ok v.
Proof. intros H v E. pose proof (same_top data) as S. rewrite H in S. destruct S as (e & S & _). congruence. Qed.
Lemma fin_viable f q : finish (decValD f []) q -> viable q.
Proof.
  intros (x & v & Hx). exists x, v. specialize (Hx []). rewrite app_nil_r in Hx. pose proof (run_verdict f (whole (q ++ x))) as R. cbn [whole vis spare] in R. rewrite Hx in R. specialize (R ltac:(discriminate)).
  pose proof (same_top (whole (q ++ x))) as S. change {| vis := q ++ x; spare := [] |} with (whole (q ++ x)) in R. rewrite R in S. exact S.
Qed.
Lemma blame_top data c k : DecodeD (whole data) = Trouble c k -> points c = true -> short_runs data -> viable (firstn (Z.to_nat k) data) /\ ~ viable (firstn (S (Z.to_nat k)) data).
Proof.
  intros H Hp Hs. split.
  - unfold DecodeD in H. cbn [whole vis spare] in H. set (f := (2 * List.length data + 2)%nat) in *. pose proof (proj1 (dec_vat f) data Hs) as V. unfold vat in V. destruct (decValD f [] data) as [[v r]|c' r|] eqn:E; [discriminate| |discriminate]. injection H as -> <-. rewrite Hp in V.
    destruct V as (q & -> & F). rewrite zlen_app. replace (Z.to_nat (zlen q + zlen r - zlen r)) with (List.length q) by (unfold zlen; lia). rewrite firstn_app, Nat.sub_diag, firstn_O, app_nil_r, firstn_all. eapply fin_viable, F.
  - assert (Hc : c <> CPanic) by (intros ->; discriminate). destruct (corrupt_top _ _ _ H Hc) as (H0 & _ & Hx). unfold read_to in Hx. rewrite Hp in Hx. replace (Z.to_nat (k + 1)) with (S (Z.to_nat k)) in Hx by lia.
    intros (x & v & Hv). exact (trouble_no _ _ _ (Hx x) v Hv).
Qed.
Lemma truncated_top data : short_runs data -> (viable data <-> (exists v, Decode (whole data) = Ok v) \/ exists k, DecodeD (whole data) = Trouble CPanic k).
Proof.
  intros Hs. split.
  - intros (x & v & Hv). pose proof (same_top (whole data)) as S. destruct (DecodeD (whole data)) as [w|c k|] eqn:E; [eauto| |contradiction]. right. exists k.
    assert (Hc : c = CPanic \/ c <> CPanic) by (destruct c; auto; right; discriminate). destruct Hc as [->|Hc]; [reflexivity|]. exfalso.
    destruct (corrupt_top _ _ _ E Hc) as (H0 & H1 & Hx). specialize (Hx (skipn (Z.to_nat (read_to c k)) data ++ x)). rewrite app_assoc, firstn_skipn in Hx. exact (trouble_no _ _ _ Hx v Hv).
  - intros [(v & Hv)|(k & Hk)]; [exists [], v; rewrite app_nil_r; exact Hv|].
    unfold DecodeD in Hk. cbn [whole vis spare] in Hk. set (f := (2 * List.length data + 2)%nat) in *. pose proof (proj1 (dec_vat f) data Hs) as V. unfold vat in V. destruct (decValD f [] data) as [[v r]|c' r|] eqn:E; [discriminate| |discriminate]. injection Hk as -> <-. cbn [points] in V. eapply fin_viable, V. reflexivity.
Qed.

(** ** The texts *)
Lemma digits_quote ds : digits ds -> ~ In x22 ds.
Proof. intros H Hi. apply (proj1 (Forall_forall _ _) H) in Hi. discriminate. Qed.
Definition sound (c : cause) : Prop := match c with CAtoi ds | CParse ds => digits ds | _ => True end.
Lemma num_inj fn ds ds' : digits ds -> digits ds' -> num_error fn ds = num_error fn ds' -> ds = ds'.
Proof.
  intros H H' E. unfold num_error in E. do 3 apply app_inv_head in E. cbn [app] in E. injection E as E. apply first_sep in E; [apply E|apply digits_quote, H|apply digits_quote, H'].
Qed.
Lemma text_top len c c' k k' : sound c -> sound c' -> error_text len c k = error_text len c' k' -> c = c' /\ (points c = true -> k = k').
Proof.
  intros Hc Hc' E. destruct c, c'; cbn [sound] in *; unfold error_text in E; try (split; [reflexivity|]; intros Hp; try discriminate Hp; do 2 apply app_inv_head in E; apply itoa_inj in E; exact E);
    try (exfalso; unfold num_error in E; repeat match type of E with context [if ?x then _ else _] => destruct x end; discriminate).
  - apply num_inj in E; [|assumption..]. subst. split; [reflexivity|discriminate].
  - apply num_inj in E; [|assumption..]. subst. split; [reflexivity|discriminate].
Qed.
Lemma sound_top data c k : DecodeD (whole data) = Trouble c k -> sound c.
Proof. intros H. apply told_top in H. destruct H as [_ H]. destruct c; cbn in *; tauto. Qed.

(** ** Not so *)
Lemma end_not : exists data k, viable data /\ (forall v, Decode (whole data) <> Ok v) /\ DecodeD (whole data) = Trouble CPanic k /\ error_text (zlen data) CPanic k = B "decoder error: caught panic".
Proof.
  exists (B "5:ab"), 2. split; [exists (B "cde"), (VStr (B "abcde")); vm_compute; reflexivity|]. split; [intros v; vm_compute; discriminate|]. split; vm_compute; reflexivity.
Qed.
Lemma amount_app a b : amount (a ++ b) = amount a * 10 ^ zlen b + amount b.
Proof. pose proof (amount_acc (a ++ b) 0) as H. rewrite fold_left_app, !amount_acc in H. lia. Qed.
Lemma amount_nonneg b : digits b -> 0 <= amount b.
Proof. intros H. pose proof (digits_acc b 0 H ltac:(lia)) as Hd. rewrite amount_acc in Hd. lia. Qed.
Lemma digits_ahead n x : forall ds c r, digits n -> is_digit c = false -> n ++ x = ds ++ c :: r -> exists t, ds = n ++ t.
Proof.
  induction n as [|d n IH]; intros ds c r Hn Hc H; [exists ds; reflexivity|]. inversion Hn; subst. destruct ds as [|d' ds]; cbn [app] in H; injection H as -> H; [congruence|].
  destruct (IH ds c r H3 Hc H) as (t & ->). exists t. reflexivity.
Qed.
Lemma big_run n t : max64 < amount n -> digits t -> atoi (n ++ t) = Err EAtoi.
Proof.
  intros Hn Ht. rewrite atoi_amount, amount_app. pose proof (amount_nonneg t Ht). assert (0 < 10 ^ zlen t) by (apply Z.pow_pos_nonneg; unfold zlen; lia).
  assert (amount n * 1 <= amount n * 10 ^ zlen t) by (apply Z.mul_le_mono_nonneg_l; [unfold max64 in Hn|]; lia). destruct (n ++ t); [reflexivity|]. replace (_ <=? max64) with false by lia. reflexivity.
Qed.
Lemma hopeless_not : exists data k, DecodeD (whole data) = Trouble CPanic k /\ error_text (zlen data) CPanic k = B "decoder error: read end of data before completion" /\ ~ viable data.
Proof.
  exists (B "99999999999999999999"), 20. split; [vm_compute; reflexivity|]. split; [vm_compute; reflexivity|]. intros (x & v & Hv). set (n := B "99999999999999999999") in *.
  unfold Decode in Hv. cbn [whole vis spare] in Hv. rewrite Nat.add_comm in Hv. cbn [Nat.add] in Hv.
  destruct (decVal _ [] (n ++ x)) as [[w r]|e| |] eqn:E; try discriminate. clear Hv.
  assert (S : exists s r', decodeString [] (n ++ x) = Ok (s, r')).
  { change (n ++ x) with ("9"%byte :: (tl n ++ x)) in E. cbn [decVal] in E. change (Byte.eqb "9" "d") with false in E. change (Byte.eqb "9" "l") with false in E. change (Byte.eqb "9" "i") with false in E. cbv iota in E. destruct (decodeString _ _) as [[s r']|?| |] eqn:E2; try discriminate. exists s, r'. (exact E2 || reflexivity). }
  destruct S as (s & r' & S). unfold decodeString in S. destruct (digit_loop ":"%byte EBadString (n ++ x) []) as [[ds r0]|?| |] eqn:El; cbn [bind] in S; try discriminate.
  pose proof (digit_sim ":"%byte CString EBadString eq_refl ltac:(discriminate) (n ++ x) []) as Sm. rewrite El in Sm. destruct (digit_loopD _ _ (n ++ x) []) as [[ds' r1]|c r1|] eqn:Ed; cbn [sim] in Sm.
  - injection Sm as <- <-. destruct (digit_read _ _ _ _ _ _ Ed) as (e & He & Hd & Hn). cbn [app] in He. subst e.
    assert (Hx : exists t, ds = n ++ t /\ digits t).
    { destruct (digits_ahead n x ds ":"%byte r0) as (t & ->); [unfold n; repeat constructor|reflexivity|exact Hn|]. exists t. split; [reflexivity|]. apply Forall_app in Hd. apply Hd. }
    destruct Hx as (t & -> & Ht). rewrite (big_run n t) in S; [discriminate|vm_compute; reflexivity|exact Ht].
  - destruct c; try discriminate; destruct Sm as (? & Sm & _); discriminate.
  - discriminate.
Qed.
Lemma number_top data c k ds fn : (c = CAtoi ds /\ fn = B "Atoi") \/ (c = CParse ds /\ fn = B "ParseInt") -> DecodeD (whole data) = Trouble c k -> forall len, exists reason,
  error_text len c k = B "strconv." ++ fn ++ B ": parsing " ++ [x22] ++ ds ++ [x22] ++ B ": " ++ reason /\ ((ds = [] /\ reason = B "invalid syntax") \/ (max64 < amount ds /\ reason = B "value out of range")).
Proof.
  intros Hc H len. apply told_top in H. destruct H as [_ H].
  assert (X : (ds = [] \/ max64 < amount ds) /\ error_text len c k = num_error fn ds) by (destruct Hc as [[-> ->]|[-> ->]]; cbn [accused] in H; (split; [tauto|reflexivity])).
  destruct X as [X ->]. unfold num_error. destruct ds as [|d ds]; [exists (B "invalid syntax"); auto|]. exists (B "value out of range"). destruct X as [X|X]; [discriminate|]. auto.
Qed.
