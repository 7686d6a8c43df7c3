(** RenameProofs.v: proofs about Move among links. *)
From Coq Require Import ZifyBool ZifyNat ZifyN.
From Verif Require Import Base PathModel PathSpec PathProofs LayoutModel FsModel FsSpec FsProofs OcatProofs LifeSpec LifeProofs LinkModel LinkSpec LinkProofs HardSpec HardProofs RenameModel.

Lemma place_eqb_sym a b : place_eqb a b = place_eqb b a.
Proof. unfold place_eqb. destruct (list_eq_dec bytes_dec a b), (list_eq_dec bytes_dec b a); congruence. Qed.
Lemma place_eqb_no a b : a <> b -> place_eqb a b = false.
Proof. unfold place_eqb. destruct (list_eq_dec bytes_dec a b); congruence. Qed.
Lemma pget_drop {A} q x (m : list (list bytes * A)) : pget q (drop x m) = if place_eqb q x then None else pget q m.
Proof.
  induction m as [|[k v] m IH]; cbn [drop filter pget fst]; [destruct (place_eqb q x); reflexivity|]. fold (drop x m).
  destruct (place_eqb k x) eqn:Ek; cbn [negb]; [rewrite IH; apply place_eqb_eq in Ek as ->; destruct (place_eqb q x); reflexivity|].
  cbn [pget]. destruct (place_eqb q k) eqn:Eq; [|exact IH]. apply place_eqb_eq in Eq as ->. rewrite Ek. reflexivity.
Qed.

Lemma next_fault w : next_works w -> fault w = (Ok None, drop_fault w).
Proof. unfold next_works. rewrite fault_eq. now intros ->. Qed.
(** Moving a file that is at its place. *)
Lemma move_file L a b w h qa qb i : next_works w -> aget a (w_lfps w) = Some h -> entry_at L (w_cwd w) a = Some qa -> entry_at L (w_cwd w) b = Some qb ->
  pget qa L = None -> names w qa i -> exists L' w', l_Move L a b w = (Ok tt, (L', w')) /\
  ((names w qb i /\ pget qb L = None /\ L' = L /\ disk_same w w') \/
   (~ (names w qb i /\ pget qb L = None) /\ names w' qb i /\ (qa <> qb -> forall j, ~ names w' qa j) /\ (forall q j, q <> qa -> q <> qb -> (names w' q j <-> names w q j)) /\
    pget qb L' = None /\ (forall q, q <> qb -> pget q L' = pget q L))).
Proof.
  intros Hn Hh Ha Hb Hl Hi. unfold l_Move. rewrite Hh, next_fault by assumption. unfold l_rename. change (w_cwd (drop_fault w)) with (w_cwd w). rewrite Ha, Hb, Hl.
  change (w_names (drop_fault w)) with (w_names w). pose proof Hi as Hi'. unfold names in Hi'. rewrite Hi'.
  assert (X : {names w qb i /\ pget qb L = None} + {~ (names w qb i /\ pget qb L = None)}).
  { unfold names. destruct (pget qb L); [right; intros [_ X]; discriminate|]. match goal with |- context [pget qb (w_names w)] => destruct (pget qb (w_names w)) as [j|] end; [|right; intros [X _]; discriminate].
    destruct (Nat.eq_dec i j) as [-> | N]; [left; auto|]. right. intros [X _]. congruence. }
  destruct X as [[X1 X2]|X].
  - unfold names in X1. rewrite X1, X2, Nat.eqb_refl. eexists _, _. split; [reflexivity|]. left. split; [exact X1|]. split; [reflexivity|]. split; [reflexivity|]. apply disk_same_drop.
  - assert (E : match pget qb (w_names w), pget qb L with Some j, None => Nat.eqb i j | _, _ => false end = false).
    { unfold names in X. match goal with |- context [pget qb (w_names w)] => destruct (pget qb (w_names w)) as [j|] end; [|reflexivity].
      destruct (pget qb L); [reflexivity|]. apply Nat.eqb_neq. intros ->. apply X. auto. }
    rewrite E. eexists _, _. split; [reflexivity|]. right. split; [exact X|]. unfold names. cbn [w_names]. split; [|split; [|split; [|split]]].
    + rewrite pget_app, pget_drop, place_eqb_rf. cbn [fst snd]. rewrite place_eqb_rf. reflexivity.
    + intros N j. rewrite pget_app, !pget_drop, place_eqb_rf. rewrite (place_eqb_no qa qb N). cbn [fst]. rewrite (place_eqb_no qa qb N). discriminate.
    + intros q j Na Nb. rewrite pget_app, !pget_drop, (place_eqb_no q qa Na), (place_eqb_no q qb Nb). cbn [fst]. rewrite (place_eqb_no q qb Nb).
      destruct (pget q (w_names w)); reflexivity.
    + rewrite pget_drop, place_eqb_rf. reflexivity.
    + intros q N. rewrite pget_drop, (place_eqb_no q qb N). reflexivity.
Qed.
(** Moving a link: the link moves, the file does not. *)
Lemma move_link L a b w h qa qb text : next_works w -> aget a (w_lfps w) = Some h -> entry_at L (w_cwd w) a = Some qa -> entry_at L (w_cwd w) b = Some qb ->
  pget qa L = Some text -> exists L' w', l_Move L a b w = (Ok tt, (L', w')) /\ pget qb L' = Some text /\ (qa <> qb -> pget qa L' = None) /\
  (forall q, q <> qa -> q <> qb -> pget q L' = pget q L) /\ (forall j, ~ names w' qb j) /\ (forall q, q <> qb -> file_in w' q = file_in w q).
Proof.
  intros Hn Hh Ha Hb Hl. unfold l_Move. rewrite Hh, next_fault by assumption. unfold l_rename. change (w_cwd (drop_fault w)) with (w_cwd w). rewrite Ha, Hb, Hl.
  eexists _, _. split; [reflexivity|]. split; [|split; [|split; [|split]]].
  - rewrite pget_app, pget_drop, place_eqb_rf. cbn [fst snd]. rewrite place_eqb_rf. reflexivity.
  - intros N. rewrite pget_app, !pget_drop, place_eqb_rf, (place_eqb_no qa qb N). cbn [fst]. rewrite (place_eqb_no qa qb N). reflexivity.
  - intros q Na Nb. rewrite pget_app, !pget_drop, (place_eqb_no q qa Na), (place_eqb_no q qb Nb). cbn [fst]. rewrite (place_eqb_no q qb Nb). destruct (pget q L); reflexivity.
  - intros j. unfold names. cbn [w_names drop_fault]. rewrite pget_drop, place_eqb_rf. discriminate.
  - intros q Nb. unfold file_in. cbn [w_names w_inos drop_fault]. rewrite pget_drop, (place_eqb_no q qb Nb). reflexivity.
Qed.
(** Whatever happens. *)
Lemma move_any L a b w r L' w' : l_Move L a b w = (r, (L', w')) ->
  w_cwd w' = w_cwd w /\ w_inos w' = w_inos w /\ w_lfps w' = w_lfps w /\ (r = Ok tt \/ exists e, r = Err e /\ L' = L /\ disk_same w w').
Proof.
  unfold l_Move. destruct (aget a (w_lfps w)); [|intros H; injection H as <- <- <-; repeat (split; [reflexivity|]); right; eexists; split; [reflexivity|]; split; [reflexivity|apply disk_same_refl]].
  rewrite fault_eq. pose proof (disk_same_drop w) as D. destruct (hd None (w_flt w)).
  { intros H; injection H as <- <- <-. repeat (split; [reflexivity|]). right. eauto. }
  unfold l_rename. intros H.
  repeat match type of H with
  | context [match entry_at ?x ?y ?z with _ => _ end] => destruct (entry_at x y z)
  | context [match @pget ?A ?x ?y with _ => _ end] => destruct (@pget A x y)
  | context [if ?c then _ else _] => destruct c
  | (_, _) = _ => injection H as <- <- <-
  end; cbn [w_cwd w_inos w_lfps drop_fault]; repeat (split; [reflexivity|]); eauto 6.
Qed.

(** Refused. *)
Lemma move_refused L a b w : (aget a (w_lfps w) = None -> l_Move L a b w = (Err EPath, (L, w))) /\
  (forall h, aget a (w_lfps w) = Some h -> ~ next_works w -> exists w', l_Move L a b w = (Err EIO, (L, w')) /\ disk_same w w').
Proof.
  unfold l_Move. split; [now intros ->|]. intros h -> Hn. rewrite fault_eq. unfold next_works in Hn. destruct (hd None (w_flt w)); [|contradiction].
  exists (drop_fault w). split; [reflexivity|apply disk_same_drop].
Qed.

(** ** Without links: FsModel.Move *)
Lemma split_nonnil p : split_slash p <> [].
Proof. induction p as [|c p IH]; cbn; [discriminate|]. destruct (Byte.eqb c slash); [discriminate|]. destruct (split_slash p); discriminate. Qed.
Lemma entry_top L cwd p q : one_each L ->
  (entry_at L cwd p = Some q <-> exists ts t d k, split_slash p = ts ++ [t] /\ t <> [] /\ t <> dot /\ t <> dotdot /\ q = d ++ [t] /\ (k <= 40)%nat /\ leads L k (if rooted p then [] else cwd) ts d).
Proof.
  intros HL. unfold entry_at. split.
  - destruct (tests_cases (last (split_slash p) [])) as [[E _]|[[E X]|(A & C & D)]]; [rewrite E; discriminate|rewrite E, X; discriminate|].
    destruct (plain_tests _ A C D) as [E1 E2]. rewrite E1, E2. cbn [orb].
    destruct (walk max_links L (if rooted p then [] else cwd) (removelast (split_slash p))) as [d|] eqn:Ew; [|discriminate]. intros H. injection H as <-.
    destruct (walk_leads L HL _ _ _ _ Ew) as (k & Hk & Hl). exists (removelast (split_slash p)), (last (split_slash p) []), d, k.
    split; [exact (app_removelast_last [] (split_nonnil p))|]. repeat (split; [assumption|]). split; [reflexivity|]. split; [exact Hk|exact Hl].
  - intros (ts & t & d & k & Es & A & C & D & -> & Hk & Hl). destruct (plain_tests t A C D) as [E1 E2]. cbv zeta.
    assert (Y : last (split_slash p) [] = t) by (rewrite Es; apply last_last). assert (Z : removelast (split_slash p) = ts) by (rewrite Es; apply removelast_last).
    rewrite Y, Z, E1, E2. cbn [orb]. rewrite (leads_walk L k _ ts d HL Hl max_links Hk). reflexivity.
Qed.
Lemma entry_none cwd p : entry_at [] cwd p = Some (place cwd p) \/ entry_at [] cwd p = None.
Proof.
  unfold entry_at. destruct (tests_cases (last (split_slash p) [])) as [[E _]|[[E X]|(A & C & D)]]; [rewrite E; auto|rewrite E, X; auto|].
  destruct (plain_tests _ A C D) as [E1 E2]. rewrite E1, E2. cbn [orb]. rewrite walk_none. left. f_equal. unfold place. symmetry.
  rewrite (app_removelast_last [] (split_nonnil p)) at 1. rewrite follow_app, follow_cons. cbn [follow fold_left]. unfold step at 1. match goal with |- (if ?c then _ else if ?d then _ else _) = _ => assert (X : c = false) by exact E1; assert (Y : d = false) by exact E2; rewrite X, Y end. reflexivity.
Qed.
Lemma move_same a b w : fs_wf w -> entry_at [] (w_cwd w) a <> None -> entry_at [] (w_cwd w) b <> None ->
  exists w', l_Move [] a b w = (fst (Move a b w), ([], w')) /\ w_inos w' = w_inos (snd (Move a b w)) /\ w_lfps w' = w_lfps (snd (Move a b w)) /\
    forall q, pget q (w_names w') = pget q (w_names (snd (Move a b w))).
Proof.
  intros Hwf Ha Hb. destruct (entry_none (w_cwd w) a) as [Ea|Ea]; [|contradiction]. destruct (entry_none (w_cwd w) b) as [Eb|Eb]; [|contradiction].
  unfold l_Move, Move. destruct (aget a (w_lfps w)); [|exists w; auto]. unfold syscall, iobind. rewrite fault_eq. destruct (hd None (w_flt w)); [exists (drop_fault w); auto|].
  unfold l_rename. change (w_cwd (drop_fault w)) with (w_cwd w). change (w_names (drop_fault w)) with (w_names w). rewrite Ea, Eb. cbn [pget].
  set (qa := place (w_cwd w) a) in *. set (qb := place (w_cwd w) b) in *.
  match goal with |- context [@pget ?A qa ?m] => destruct (@pget A qa m) as [i|] eqn:Ei end; [|exists (drop_fault w); auto].
  assert (K : forall q, pget q (drop qb (drop qa (w_names w)) ++ [(qb, i)]) =
              pget q (filter (fun n => negb (place_eqb (fst n) qa) && negb (place_eqb (fst n) qb)) (w_names w) ++ [(qb, i)])).
  { intros q. f_equal. f_equal. unfold drop. clear Ei. induction (w_names w) as [|n l IH]; [reflexivity|]. cbn [filter].
    destruct (place_eqb (fst n) qa); cbn [negb andb filter]; [exact IH|]. destruct (place_eqb (fst n) qb); cbn [negb]; [exact IH|]. now rewrite IH. }
  destruct (match pget qb (w_names w) with Some j => Nat.eqb i j | None => false end) eqn:Eq.
  - exists (drop_fault w). split; [reflexivity|]. split; [reflexivity|]. split; [reflexivity|]. intros q. cbn [snd w_names]. rewrite <- K, pget_app, !pget_drop. cbn [fst snd].
    match type of Eq with context [@pget ?A qb ?m] => destruct (@pget A qb m) as [j|] eqn:Ej end; [|discriminate]. apply Nat.eqb_eq in Eq as ->.
    assert (qa = qb) as -> by exact (fs_wf_inj w qa qb j Hwf Ei Ej). change (w_names (drop_fault w)) with (w_names w).
    destruct (place_eqb q qb) eqn:E; [apply place_eqb_eq in E as ->; exact Ej|]. destruct (pget q (w_names w)); reflexivity.
  - eexists. split; [reflexivity|]. cbn [snd w_inos w_lfps w_names]. split; [reflexivity|]. split; [reflexivity|]. exact K.
Qed.
