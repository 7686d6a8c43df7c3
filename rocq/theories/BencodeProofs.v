(** BencodeProofs.v: lemmas about the bencode model. *)
From Verif Require Import Base BencodeModel BencodeSpec DecimalProofs.
From Coq Require Import ZifyBool ZifyNat ZifyN.
Ltac Zify.zify_post_hook ::= Z.div_mod_to_equations.

(** ** Induction principles *)

Section GvalInd.
  Variable P : gval -> Prop.
  Hypothesis Hstr : forall s, P (VStr s).
  Hypothesis Hint : forall k z, P (VInt k z).
  Hypothesis Hdict : forall d, Forall (fun kv => P (snd kv)) d -> P (VDict d).
  Hypothesis Hlist : forall l, Forall P l -> P (VList l).
  Hypothesis Hother : P VOther.
  Fixpoint gval_ind' (v : gval) : P v :=
    match v with
    | VStr s => Hstr s
    | VInt k z => Hint k z
    | VDict d => Hdict d ((fix go d := match d return Forall (fun kv => P (snd kv)) d with
                                      | [] => Forall_nil _
                                      | kv :: r => Forall_cons kv (gval_ind' (snd kv)) (go r)
                                      end) d)
    | VList l => Hlist l ((fix go l := match l return Forall P l with
                                       | [] => Forall_nil _
                                       | x :: r => Forall_cons x (gval_ind' x) (go r)
                                       end) l)
    | VOther => Hother
    end.
End GvalInd.

Scheme canonical_mind := Induction for canonical Sort Prop
  with canonical_seq_mind := Induction for canonical_seq Sort Prop
  with canonical_map_mind := Induction for canonical_map Sort Prop.
Combined Scheme canonical_mutind from canonical_mind, canonical_seq_mind, canonical_map_mind.

(** ** Key order *)

Lemma key_lt_irrefl a : ~ key_lt a a.
Proof.
  induction a as [|x a IH]; intros H; inversion H; subst; try lia. now apply IH.
Qed.

Lemma key_lt_trans a b c : key_lt a b -> key_lt b c -> key_lt a c.
Proof.
  intros H; revert c; induction H as [y b|x y a b Hxy|x a b Hab IH]; intros c Hc; inversion Hc; subst.
  - constructor.
  - constructor.
  - apply key_lt_head; lia.
  - apply key_lt_head; lia.
  - apply key_lt_head; lia.
  - apply key_lt_tail; auto.
Qed.

Lemma bleb_refl a : bleb a a = true.
Proof. induction a as [|x a IH]; cbn; [reflexivity|]. rewrite Z.ltb_irrefl, Z.eqb_refl. exact IH. Qed.

Lemma bleb_iff a b : bleb a b = true <-> a = b \/ key_lt a b.
Proof.
  revert b; induction a as [|x a IH]; intros [|y b]; cbn [bleb].
  - split; auto.
  - split; [intros _; right; constructor|auto].
  - split; [discriminate|intros [H|H]; [discriminate|inversion H]].
  - destruct (Z.ltb_spec (b2z x) (b2z y)) as [H|H].
    + split; [intros _; right; now apply key_lt_head|auto].
    + destruct (Z.eqb_spec (b2z x) (b2z y)) as [E|E].
      * apply b2z_inj in E. subst y. rewrite IH. split.
        -- intros [->|Hk]; [auto|right; now apply key_lt_tail].
        -- intros [Hk|Hk]; [left; congruence|]. inversion Hk; subst; [lia|auto].
      * split; [discriminate|]. intros [Hk|Hk]; [congruence|]. inversion Hk; subst; lia.
Qed.

Lemma bleb_total a b : bleb a b = false -> key_lt b a.
Proof.
  revert b; induction a as [|x a IH]; intros [|y b]; cbn [bleb]; try discriminate.
  - intros _. constructor.
  - destruct (Z.ltb_spec (b2z x) (b2z y)) as [H|H]; [discriminate|].
    destruct (Z.eqb_spec (b2z x) (b2z y)) as [E|E].
    + apply b2z_inj in E. subst y. intros Hb. apply key_lt_tail. now apply IH.
    + intros _. apply key_lt_head. lia.
Qed.

(** ** Sorting *)

Definition fle {A} (a b : bytes * A) : Prop := bleb (fst a) (fst b) = true.
Definition flt {A} (a b : bytes * A) : Prop := key_lt (fst a) (fst b).

Lemma kinsert_perm {A} (e : bytes * A) l : Permutation (e :: l) (kinsert e l).
Proof.
  induction l as [|x l IH]; cbn [kinsert]; [reflexivity|].
  destruct (bleb (fst e) (fst x)); [reflexivity|].
  rewrite perm_swap. now apply perm_skip.
Qed.

Lemma ksort_perm_self {A} (l : list (bytes * A)) : Permutation l (ksort l).
Proof.
  induction l as [|e l IH]; cbn [ksort fold_right]; [reflexivity|].
  etransitivity; [apply perm_skip, IH|]. apply kinsert_perm.
Qed.

Lemma kinsert_sorted {A} (e : bytes * A) l :
  StronglySorted fle l -> StronglySorted fle (kinsert e l).
Proof.
  induction 1 as [|x l Hs IH Hf]; cbn [kinsert].
  - constructor; constructor.
  - destruct (bleb (fst e) (fst x)) eqn:E.
    + constructor; [constructor; assumption|]. constructor; [exact E|].
      eapply Forall_impl; [|exact Hf]. intros y Hy. unfold fle in *.
      rewrite bleb_iff in *. destruct E as [E|E], Hy as [Hy|Hy].
      * left; congruence.
      * rewrite E; auto.
      * rewrite <- Hy; auto.
      * right. eapply key_lt_trans; eassumption.
    + constructor; [exact IH|].
      apply bleb_total in E.
      rewrite Forall_forall in *. intros y Hy.
      apply (Permutation_in y (Permutation_sym (kinsert_perm e l))) in Hy.
      destruct Hy as [<-|Hy]; [|auto]. unfold fle. apply bleb_iff. auto.
Qed.

Lemma ksort_sorted {A} (l : list (bytes * A)) : StronglySorted fle (ksort l).
Proof.
  induction l as [|e l IH]; cbn [ksort fold_right]; [constructor|]. now apply kinsert_sorted.
Qed.

Lemma ksort_strict {A} (l : list (bytes * A)) :
  NoDup (map fst l) -> StronglySorted flt (ksort l).
Proof.
  intros Hnd.
  assert (Hnd' : NoDup (map fst (ksort l))).
  { eapply Permutation_NoDup; [|exact Hnd]. apply Permutation_map, ksort_perm_self. }
  pose proof (ksort_sorted l) as Hs. revert Hnd'.
  induction Hs as [|x r Hs IH Hf]; intros Hn; [constructor|].
  cbn [map] in Hn. inversion Hn as [|? ? Hni Hn']; subst.
  constructor; [auto|].
  rewrite Forall_forall in *. intros y Hy. specialize (Hf y Hy). unfold fle, flt in *.
  apply bleb_iff in Hf. destruct Hf as [E|Hl]; [|exact Hl].
  exfalso. apply Hni. rewrite E. now apply in_map.
Qed.

Lemma strict_perm_eq {A} (l l' : list (bytes * A)) :
  StronglySorted flt l -> StronglySorted flt l' -> Permutation l l' -> l = l'.
Proof.
  intros Hs; revert l'. induction Hs as [|x r Hs IH Hf]; intros l' Hs' Hp.
  - now apply Permutation_nil in Hp.
  - destruct Hs' as [|y r' Hs' Hf'].
    + symmetry in Hp. now apply Permutation_nil in Hp.
    + assert (x = y) as ->.
      { assert (In x (y :: r')) as Hx by (eapply Permutation_in; [exact Hp|now left]).
        assert (In y (x :: r)) as Hy by (eapply Permutation_in; [symmetry; exact Hp|now left]).
        destruct Hx as [Hx|Hx]; [auto|]. destruct Hy as [Hy|Hy]; [auto|].
        rewrite Forall_forall in Hf, Hf'. specialize (Hf y Hy). specialize (Hf' x Hx).
        unfold flt in *. exfalso. apply (key_lt_irrefl (fst x)). eapply key_lt_trans; eassumption. }
      f_equal. apply IH; [assumption|]. eapply Permutation_cons_inv; eassumption.
Qed.

Lemma ksort_perm_eq {A} (l l' : list (bytes * A)) :
  NoDup (map fst l) -> Permutation l l' -> ksort l = ksort l'.
Proof.
  intros Hn Hp. apply strict_perm_eq.
  - now apply ksort_strict.
  - apply ksort_strict. eapply Permutation_NoDup; [|exact Hn]. now apply Permutation_map.
  - rewrite <- (ksort_perm_self l), <- (ksort_perm_self l'). exact Hp.
Qed.

Lemma ksort_strict_id {A} (l : list (bytes * A)) : StronglySorted flt l -> ksort l = l.
Proof.
  intros Hs. apply strict_perm_eq; [|assumption|symmetry; apply ksort_perm_self].
  apply ksort_strict.
  induction Hs as [|x r Hs IH Hf]; cbn [map]; constructor; [|assumption].
  rewrite in_map_iff. intros (y & E & Hy). rewrite Forall_forall in Hf. specialize (Hf y Hy).
  unfold flt in Hf. rewrite E in Hf. now apply key_lt_irrefl in Hf.
Qed.

Definition onsnd {A C} (f : A -> C) (kv : bytes * A) : bytes * C := (fst kv, f (snd kv)).

Lemma kinsert_map {A C} (f : A -> C) e l :
  kinsert (onsnd f e) (map (onsnd f) l) = map (onsnd f) (kinsert e l).
Proof.
  induction l as [|x l IH]; cbn [map kinsert]; [reflexivity|].
  change (fst (onsnd f e)) with (fst e). change (fst (onsnd f x)) with (fst x).
  destruct (bleb (fst e) (fst x)); cbn [map]; [reflexivity|]. now rewrite IH.
Qed.

Lemma ksort_map {A C} (f : A -> C) l : ksort (map (onsnd f) l) = map (onsnd f) (ksort l).
Proof.
  induction l as [|e l IH]; cbn [map ksort fold_right]; [reflexivity|].
  change (fold_right kinsert [] (map (onsnd f) l)) with (ksort (map (onsnd f) l)).
  rewrite IH. apply kinsert_map.
Qed.

Lemma sorted_keys_iff {A} (l : list (bytes * A)) :
  StronglySorted key_lt (map fst l) <-> StronglySorted flt l.
Proof.
  induction l as [|x l IH]; cbn [map]; [split; constructor|].
  split; intros H; inversion H as [|? ? Hs Hf]; subst; constructor; try (apply IH; assumption).
  - rewrite Forall_map in Hf. exact Hf.
  - rewrite Forall_map. exact Hf.
Qed.

Lemma sorted_nodup (l : list bytes) : StronglySorted key_lt l -> NoDup l.
Proof.
  induction 1 as [|x l Hs IH Hf]; constructor; [|assumption].
  intros Hi. rewrite Forall_forall in Hf. apply (key_lt_irrefl x). auto.
Qed.

(** ** Encoder *)

Lemma encode_dict d :
  encode (VDict d) =
  wseq (wput ["d"%byte]) (wseq (encPairs (map (onsnd encode) (ksort d))) (wput ["e"%byte])).
Proof.
  cbn [encode]. change (fun kv : bytes * gval => (fst kv, encode (snd kv))) with (onsnd encode).
  now rewrite ksort_map.
Qed.

Lemma wseq_ok a b : snd a = None -> snd b = None -> wseq a b = (fst a ++ fst b, None).
Proof. intros Ha Hb. unfold wseq. now rewrite Ha, Hb. Qed.

Lemma wseq_none a b : snd (wseq a b) = None <-> snd a = None /\ snd b = None.
Proof.
  unfold wseq. destruct (snd a) eqn:E; cbn.
  - rewrite E. split; [discriminate|intros [H _]; discriminate].
  - tauto.
Qed.

Lemma encodeString_ok s : s <> [] -> encodeString s = (itoa (zlen s) ++ [":"%byte] ++ s, None).
Proof.
  intros H. unfold encodeString. destruct s; [congruence|].
  rewrite zlen_cons. pose proof (zlen_nonneg s). replace (1 + zlen s =? 0) with false by lia. reflexivity.
Qed.

Lemma encodeString_none s : snd (encodeString s) = None <-> s <> [].
Proof.
  split.
  - destruct s; [discriminate|intros _ ?; discriminate].
  - intros H. now rewrite encodeString_ok.
Qed.

Lemma encodeString_canonical s :
  s <> [] -> canonical (BStr s) (fst (encodeString s)).
Proof.
  intros H. rewrite encodeString_ok by assumption. constructor.
  apply itoa_decimal. apply zlen_nonneg.
Qed.

Lemma encodeInt_canonical z : canonical (BInt z) (fst (encodeInt z)).
Proof.
  unfold encodeInt, wput. cbn [fst].
  destruct (Z_lt_le_dec z 0) as [H|H].
  - destruct (itoa_neg z H) as (ds & -> & Hd).
    replace z with (- - z) by lia.
    change (["i"%byte] ++ ("-"%byte :: ds) ++ ["e"%byte]) with (["i"; "-"]%byte ++ ds ++ ["e"%byte]).
    apply can_neg; [assumption|lia].
  - apply can_pos. now apply itoa_decimal.
Qed.

Lemma encSeq_none l : snd (encSeq l) = None <-> Forall (fun w => snd w = None) l.
Proof.
  induction l as [|w l IH]; cbn [encSeq]; [split; [constructor|reflexivity]|].
  rewrite wseq_none, IH, Forall_cons_iff. reflexivity.
Qed.

Lemma encPairs_none l :
  snd (encPairs l) = None <-> Forall (fun kw => fst kw <> [] /\ snd (snd kw) = None) l.
Proof.
  induction l as [|[k w] l IH]; cbn [encPairs]; [split; [constructor|reflexivity]|].
  rewrite !wseq_none, IH, Forall_cons_iff, encodeString_none. cbn [fst snd]. tauto.
Qed.

Lemma encode_none_iff v : snd (encode v) = None <-> encodable v.
Proof.
  induction v as [s|k z|d IH|l IH|] using gval_ind'.
  - cbn [encode]. rewrite encodeString_none. split; [constructor; assumption|now inversion 1].
  - split; [constructor|reflexivity].
  - rewrite encode_dict, !wseq_none, encPairs_none, Forall_map. cbn [fst snd onsnd].
    assert (HE : Forall (fun kv => fst kv <> [] /\ encodable (snd kv)) d <->
                 Forall (fun kv => fst kv <> [] /\ snd (encode (snd kv)) = None) (ksort d)).
    { rewrite !Forall_forall in *.
      split; intros H kv Hkv.
      - apply (Permutation_in kv (Permutation_sym (ksort_perm_self d))) in Hkv.
        rewrite IH by assumption. auto.
      - pose proof (Permutation_in kv (ksort_perm_self d) Hkv) as Hkv'.
        rewrite <- IH by assumption. auto. }
    cbn [wput snd]. rewrite <- HE. split.
    + intros (_ & H & _). now constructor.
    + inversion 1; subst. auto.
  - cbn [encode]. rewrite !wseq_none, encSeq_none, Forall_map. cbn [wput snd].
    assert (HE : Forall encodable l <-> Forall (fun x => snd (encode x) = None) l).
    { rewrite !Forall_forall in *. split; intros H x Hx; apply IH; auto. }
    rewrite <- HE. split.
    + intros (_ & H & _). now constructor.
    + inversion 1; subst. auto.
  - split; [discriminate|inversion 1].
Qed.

Lemma encode_canonical v :
  go_wf v -> encodable v ->
  exists m, denotes v m /\ canonical m (fst (encode v)).
Proof.
  induction v as [s|k z|d IH|l IH|] using gval_ind'; intros Hwf Hen.
  - inversion Hen; subst. exists (BStr s). split; [constructor|]. now apply encodeString_canonical.
  - exists (BInt z). split; [constructor|]. apply encodeInt_canonical.
  - inversion Hwf as [| |? Hnd Hkl Hw| |]; inversion Hen as [| | |? He]; subst.
    pose proof (ksort_strict d Hnd) as Hs. pose proof (ksort_perm_self d) as Hp.
    assert (HA : Forall (fun kv => fst kv <> [] /\ snd (encode (snd kv)) = None /\
               exists m, denotes (snd kv) m /\ canonical m (fst (encode (snd kv)))) (ksort d)).
    { rewrite Forall_forall in *. intros kv Hkv.
      apply (Permutation_in kv (Permutation_sym Hp)) in Hkv.
      destruct (He kv Hkv) as [H1 H2]. split; [assumption|]. split; [now apply encode_none_iff|].
      apply IH; auto. }
    assert (HB : exists m, Forall2 (fun kv km => fst kv = fst km /\ denotes (snd kv) (snd km)) (ksort d) m
               /\ snd (encPairs (map (onsnd encode) (ksort d))) = None
               /\ canonical_map m (fst (encPairs (map (onsnd encode) (ksort d))))).
    { clear -HA. induction HA as [|[k v] r (Hk & Hn & m & Hd & Hc) _ (ms & HF & Hn' & Hc')].
      - exists []. repeat split; constructor.
      - exists ((k, m) :: ms). split; [constructor; auto|].
        cbn [map onsnd encPairs fst snd] in *.
        rewrite (wseq_ok (encode v)) by assumption.
        rewrite wseq_ok; [|now apply encodeString_none|reflexivity].
        cbn [fst snd]. split; [reflexivity|].
        apply can_mcons; [now apply encodeString_canonical|assumption|assumption]. }
    destruct HB as (m & HF & Hn & Hc).
    assert (HK : map fst m = map fst (ksort d)).
    { clear -HF. induction HF as [|? ? ? ? [E _] _ IH]; cbn [map]; [reflexivity|]. now rewrite E, IH. }
    exists (BDict m). rewrite encode_dict.
    rewrite (wseq_ok (encPairs _)) by (assumption || reflexivity).
    rewrite wseq_ok by reflexivity. cbn [fst snd wput].
    assert (HS : StronglySorted key_lt (map fst m)) by (rewrite HK; now apply sorted_keys_iff).
    split.
    + eapply den_dict; eassumption.
    + now apply can_dict.
  - inversion Hwf as [| | |? Hw|]; inversion Hen as [| |? He|]; subst.
    assert (HB : exists m, Forall2 denotes l m
               /\ snd (encSeq (map encode l)) = None /\ canonical_seq m (fst (encSeq (map encode l)))).
    { clear Hwf Hen. induction l as [|x r IHr]; [exists []; repeat split; constructor|].
      inversion IH as [|? ? IHx IHr']; inversion Hw; inversion He; subst.
      destruct IHr as (ms & HF & Hn & Hc); [assumption..|].
      destruct IHx as (m & Hd & Hcx); [assumption..|].
      exists (m :: ms). split; [now constructor|]. cbn [map encSeq].
      rewrite wseq_ok; [|now apply encode_none_iff|assumption]. split; [reflexivity|].
      cbn [fst]. now constructor. }
    destruct HB as (m & HF & Hn & Hc). exists (BList m).
    cbn [encode]. rewrite (wseq_ok (encSeq _)) by (assumption || reflexivity).
    rewrite wseq_ok by reflexivity. cbn [fst snd wput].
    split; now constructor.
  - inversion Hen.
Qed.

(** Encode does not depend on map iteration order. *)
Lemma encode_gperm v w : gperm v w -> go_wf v -> encode v = encode w.
Proof.
  revert w. induction v as [s|k z|d IH|l IH|] using gval_ind'; intros w Hg Hwf; inversion Hg; subst; try reflexivity.
  - inversion Hwf as [| |? Hnd Hkl Hw| |]; subst.
    match goal with Hx : Permutation d _ |- _ => rename Hx into Hp end.
    match goal with Hx : Forall2 _ _ _ |- _ => rename Hx into HF end.
    assert (HE : map (onsnd encode) d' = map (onsnd encode) e).
    { assert (HI : Forall (fun kv => go_wf (snd kv) /\ forall w, gperm (snd kv) w -> go_wf (snd kv) -> encode (snd kv) = encode w) d').
      { rewrite Forall_forall in *. intros kv Hkv. apply (Permutation_in kv (Permutation_sym Hp)) in Hkv. auto. }
      clear -HF HI. induction HF as [|a b r r' [E Hg] _ IHr]; cbn [map]; [reflexivity|].
      inversion HI as [|? ? [Hw Ha] Hr]; subst. rewrite IHr by assumption. f_equal.
      unfold onsnd. rewrite E. f_equal. auto. }
    rewrite !encode_dict. f_equal. f_equal. f_equal.
    rewrite <- !ksort_map, <- HE. apply ksort_perm_eq; [|now apply Permutation_map].
    rewrite map_map. exact Hnd.
  - inversion Hwf as [| | |? Hw|]; subst. cbn [encode]. do 3 f_equal.
    match goal with Hx : Forall2 _ _ _ |- _ => rename Hx into HF end.
    clear -HF IH Hw. induction HF as [|a b r r' Hg _ IHr]; cbn [map]; [reflexivity|].
    inversion IH; inversion Hw; subst. f_equal; auto.
Qed.

(** ** Decoder on canonical text *)

Fixpoint ofb (m : bval) : gval :=
  match m with
  | BStr s => VStr s
  | BInt z => VInt KInt64 z
  | BList l => VList (map ofb l)
  | BDict m => VDict (map (fun kv => (fst kv, ofb (snd kv))) m)
  end.

Lemma not_digit_neq b : is_digit b = false -> forall d, 48 <= b2z d <= 57 -> Byte.eqb d b = false.
Proof.
  intros Hb d Hd. apply Byte_eqb_neq. intros ->. apply is_digit_iff in Hd. congruence.
Qed.

Lemma Byte_eqb_refl b : Byte.eqb b b = true.
Proof. now apply Byte_eqb_eq. Qed.

Lemma decodeString_canonical s t sp r :
  canonical (BStr s) t -> zlen s <= max64 -> decodeString sp (t ++ r) = Ok (s, r).
Proof.
  intros Hc Hl. inversion Hc as [? ds Hd| | | |]; subst.
  unfold decodeString. rewrite <- !app_assoc. cbn [app].
  rewrite digit_loop_ok; [|now destruct Hd as (_ & Hd & _)|reflexivity]. cbn [bind app].
  rewrite (atoi_ok _ _ Hd Hl). cbn [bind].
  rewrite zlen_app. pose proof (zlen_nonneg r). pose proof (zlen_nonneg sp).
  replace (zlen s <=? zlen s + zlen r + zlen sp) with true by lia.
  unfold zlen. rewrite Nat2Z.id, <- app_assoc.
  rewrite firstn_app, Nat.sub_diag, firstn_all, skipn_app, Nat.sub_diag, skipn_all. cbn [firstn skipn app].
  now rewrite app_nil_r.
Qed.

Lemma decodeInt_canonical z t r :
  canonical (BInt z) t -> min64 < z <= max64 -> decodeInt (t ++ r) = Ok (z, r).
Proof.
  intros Hc Hz. inversion Hc as [|n ds Hd|n ds Hd Hn| |]; subst.
  - pose proof Hd as Hd0. destruct Hd0 as (Hne & Hf & Hlz & Hv).
    destruct ds as [|d ds]; [congruence|]. inversion Hf as [|? ? Hdd Hf']; subst.
    cbn [app decodeInt]. rewrite Byte_eqb_refl. cbn [negb].
    rewrite (not_digit_neq "-"%byte eq_refl d Hdd).
    match goal with |- bind ?m _ = _ => assert (HX : m = Ok (d :: ds, r)) end.
    { destruct (Byte.eqb d "0") eqn:E.
      - apply Byte_eqb_eq in E. subst d. specialize (Hlz _ _ eq_refl eq_refl). subst ds.
        cbn [app]. rewrite Byte_eqb_refl. cbn [negb].
        exact (digit_loop_ok "e"%byte EBadInt [] r ["0"%byte] (Forall_nil _) eq_refl).
      - rewrite <- app_assoc. exact (digit_loop_ok "e"%byte EBadInt (d :: ds) r [] Hf eq_refl). }
    rewrite HX. cbn [bind]. rewrite (atoi_ok _ _ Hd) by lia. cbn [bind].
    rewrite Z.mul_1_r, i64_id by (unfold min64, max64 in *; lia). reflexivity.
  - pose proof Hd as Hd0. destruct Hd0 as (Hne & Hf & Hlz & Hv).
    pose proof (decimal_nonneg _ _ Hd) as Hn0.
    destruct ds as [|d ds]; [congruence|]. inversion Hf as [|? ? Hdd Hf']; subst.
    cbn [app decodeInt]. rewrite !Byte_eqb_refl. cbn [negb].
    match goal with |- bind ?m _ = _ => assert (HX : m = Ok (d :: ds, r)) end.
    { destruct (Byte.eqb d "0") eqn:E.
      - apply Byte_eqb_eq in E. subst d. specialize (Hlz _ _ eq_refl eq_refl). subst ds.
        exfalso. apply Hn. reflexivity.
      - rewrite <- app_assoc. exact (digit_loop_ok "e"%byte EBadInt (d :: ds) r [] Hf eq_refl). }
    rewrite HX. cbn [bind]. rewrite (atoi_ok _ _ Hd) by (unfold min64, max64 in *; lia). cbn [bind].
    rewrite i64_id by (unfold min64, max64 in *; lia). do 2 f_equal. lia.
Qed.

Definition not_stop (b : byte) : Prop :=
  Byte.eqb b "d"%byte = false /\ Byte.eqb b "l"%byte = false /\ Byte.eqb b "i"%byte = false /\
  Byte.eqb b "e"%byte = false.

Lemma canonical_str_head s t : canonical (BStr s) t -> exists b r, t = b :: r /\ not_stop b.
Proof.
  intros Hc. inversion Hc as [? ds Hd| | | |]; subst. destruct Hd as (Hne & Hf & _).
  destruct ds as [|d ds]; [congruence|]. inversion Hf; subst. cbn [app].
  do 2 eexists. split; [reflexivity|]. repeat split; now apply not_digit_neq.
Qed.

Lemma canonical_head m t : canonical m t -> exists b r, t = b :: r /\ Byte.eqb b "e"%byte = false.
Proof.
  destruct m as [s| | |]; intros Hc.
  - destruct (canonical_str_head _ _ Hc) as (b & r & -> & H). exists b, r. split; [reflexivity|apply H].
  - inversion Hc; subst; do 2 eexists; split; try reflexivity.
  - inversion Hc; subst; do 2 eexists; split; reflexivity.
  - inversion Hc; subst; do 2 eexists; split; reflexivity.
Qed.

Definition dputs (l : list (bytes * bval)) (acc : list (bytes * gval)) :=
  fold_left (fun a kv => dput (fst kv) (ofb (snd kv)) a) l acc.

Lemma dput_notin k v d : ~ In k (map fst d) -> dput k v d = d ++ [(k, v)].
Proof.
  induction d as [|[k' v'] d IH]; cbn [dput map app In fst]; intros H; [reflexivity|].
  destruct (beqb k k') eqn:E; [apply beqb_eq in E; subst; tauto|]. rewrite IH by tauto. reflexivity.
Qed.

Lemma dputs_nodup l acc :
  NoDup (map fst acc ++ map fst l) -> dputs l acc = acc ++ map (onsnd ofb) l.
Proof.
  revert acc; induction l as [|[k v] l IH]; intros acc Hn; cbn [dputs fold_left map].
  - now rewrite app_nil_r.
  - cbn [fst snd]. rewrite dput_notin.
    + fold (dputs l (acc ++ [(k, ofb v)])). rewrite IH.
      * now rewrite <- app_assoc.
      * rewrite map_app, <- app_assoc. exact Hn.
    + cbn [map fst] in Hn. apply NoDup_remove_2 in Hn. intros Hi. apply Hn. apply in_or_app. auto.
Qed.

Lemma decode_canonical :
  (forall m t, canonical m t -> representable m -> forall sp junk f,
     (2 * List.length t + 1 <= f)%nat -> decVal f sp (t ++ junk) = Ok (ofb m, junk)) /\
  (forall l t, canonical_seq l t -> Forall representable l -> forall sp junk f acc,
     (2 * List.length t + 2 <= f)%nat ->
     decList f sp (t ++ "e"%byte :: junk) acc = Ok (acc ++ map ofb l, junk)) /\
  (forall m t, canonical_map m t ->
     Forall (fun kv => zlen (fst kv) <= max64 /\ representable (snd kv)) m -> forall sp junk f acc,
     (2 * List.length t + 2 <= f)%nat ->
     decDict f sp (t ++ "e"%byte :: junk) acc = Ok (dputs m acc, junk)).
Proof.
  apply canonical_mutind.
  - intros s ds Hd Hr sp junk f Hf. inversion Hr as [? Hl| | |]; subst.
    destruct f as [|f]; [lia|].
    pose proof (can_str s ds Hd) as Hc. destruct (canonical_str_head _ _ Hc) as (b & r & E & H1 & H2 & H3 & H4).
    cbn [decVal]. rewrite E at 1. cbn [app]. rewrite H1, H2, H3.
    rewrite (decodeString_canonical s) by assumption. reflexivity.
  - intros n ds Hd Hr sp junk f Hf. inversion Hr as [|? Hl| |]; subst.
    destruct f as [|f]; [lia|]. pose proof (can_pos n ds Hd) as Hc.
    cbn [decVal]. cbn [app]. rewrite !Byte_eqb_refl. cbn [Byte.eqb].
    replace (Byte.eqb "i"%byte "d"%byte) with false by reflexivity.
    replace (Byte.eqb "i"%byte "l"%byte) with false by reflexivity.
    change ("i"%byte :: (ds ++ ["e"%byte]) ++ junk) with ((["i"%byte] ++ ds ++ ["e"%byte]) ++ junk).
    rewrite (decodeInt_canonical n) by assumption. reflexivity.
  - intros n ds Hd Hn Hr sp junk f Hf. inversion Hr as [|? Hl| |]; subst.
    destruct f as [|f]; [lia|]. pose proof (can_neg n ds Hd Hn) as Hc.
    cbn [decVal]. cbn [app].
    replace (Byte.eqb "i"%byte "d"%byte) with false by reflexivity.
    replace (Byte.eqb "i"%byte "l"%byte) with false by reflexivity.
    rewrite !Byte_eqb_refl.
    change ("i"%byte :: "-"%byte :: (ds ++ ["e"%byte]) ++ junk) with ((["i"; "-"]%byte ++ ds ++ ["e"%byte]) ++ junk).
    rewrite (decodeInt_canonical (- n)) by assumption. reflexivity.
  - intros l t Hc IH Hr sp junk f Hf. inversion Hr; subst.
    destruct f as [|f]; [lia|]. cbn [decVal app].
    replace (Byte.eqb "l"%byte "d"%byte) with false by reflexivity. rewrite Byte_eqb_refl.
    rewrite <- app_assoc. cbn [app]. rewrite !app_length in Hf. cbn [List.length] in Hf.
    rewrite IH by (assumption || lia). reflexivity.
  - intros m t Hs Hc IH Hr sp junk f Hf. inversion Hr; subst.
    destruct f as [|f]; [lia|]. cbn [decVal app]. rewrite Byte_eqb_refl.
    rewrite <- app_assoc. cbn [app]. rewrite !app_length in Hf. cbn [List.length] in Hf.
    rewrite IH by (assumption || lia). cbn [bind ofb].
    rewrite dputs_nodup by (now apply sorted_nodup). reflexivity.
  - intros _ sp junk f acc Hf. destruct f as [|f]; [cbn in Hf; lia|]. cbn [decList app].
    rewrite Byte_eqb_refl. cbn [map]. now rewrite app_nil_r.
  - intros v l tv tl Hv IHv Hl IHl Hr sp junk f acc Hf. inversion Hr; subst.
    rewrite app_length in Hf.
    destruct f as [|f]; [lia|]. rewrite <- app_assoc.
    destruct (canonical_head _ _ Hv) as (b & r & E & He).
    cbn [decList]. rewrite E at 1. cbn [app]. rewrite He.
    assert (0 < List.length tv)%nat by (rewrite E; cbn; lia).
    rewrite IHv by (assumption || lia). cbn [bind].
    rewrite IHl by (assumption || lia). cbn [map]. now rewrite <- app_assoc.
  - intros _ sp junk f acc Hf. destruct f as [|f]; [cbn in Hf; lia|]. cbn [decDict app].
    rewrite Byte_eqb_refl. reflexivity.
  - intros k v m tk tv tm Hk _ Hv IHv Hm IHm Hr sp junk f acc Hf. inversion Hr as [|? ? [Hkl Hrv] Hr']; subst.
    rewrite !app_length in Hf.
    destruct f as [|f]; [lia|]. rewrite <- !app_assoc.
    destruct (canonical_head _ _ Hk) as (b & r & E & He).
    cbn [decDict]. rewrite E at 1. cbn [app]. rewrite He.
    assert (0 < List.length tk)%nat by (rewrite E; cbn; lia).
    rewrite (decodeString_canonical k) by assumption. cbn [bind].
    rewrite IHv by (assumption || lia). cbn [bind].
    rewrite IHm by (assumption || lia). reflexivity.
Qed.

Lemma Decode_canonical m t junk sp :
  canonical m t -> representable m -> Decode (mkslice (t ++ junk) sp) = Ok (ofb m).
Proof.
  intros Hc Hr. unfold Decode. cbn [vis spare].
  rewrite (proj1 decode_canonical m t Hc Hr); [reflexivity|]. rewrite app_length. lia.
Qed.

Lemma ofb_facts :
  (forall m t, canonical m t -> denotes (ofb m) m /\ all_int64 (ofb m) /\
       (no_empty m -> encode (ofb m) = (t, None))) /\
  (forall l t, canonical_seq l t -> Forall2 denotes (map ofb l) l /\ Forall all_int64 (map ofb l) /\
       (Forall no_empty l -> encSeq (map encode (map ofb l)) = (t, None))) /\
  (forall m t, canonical_map m t ->
       Forall2 (fun kv km => fst kv = fst km /\ denotes (snd kv) (snd km)) (map (onsnd ofb) m) m /\
       Forall (fun kv => all_int64 (snd kv)) (map (onsnd ofb) m) /\
       (Forall (fun kv => fst kv <> [] /\ no_empty (snd kv)) m ->
        encPairs (map (onsnd encode) (map (onsnd ofb) m)) = (t, None))).
Proof.
  apply canonical_mutind.
  - intros s ds Hd. split; [constructor|]. split; [constructor|]. inversion 1; subst. cbn [ofb encode].
    rewrite encodeString_ok by assumption. now rewrite (decimal_itoa _ _ Hd).
  - intros n ds Hd. split; [constructor|]. split; [constructor|]. intros _. cbn [ofb encode].
    unfold encodeInt. now rewrite (decimal_itoa _ _ Hd).
  - intros n ds Hd Hn. split; [constructor|]. split; [constructor|]. intros _. cbn [ofb encode].
    pose proof (decimal_nonneg _ _ Hd). unfold encodeInt.
    destruct (itoa_neg (- n) ltac:(lia)) as (ds' & -> & Hd').
    rewrite Z.opp_involutive in Hd'. now rewrite (decimal_unique _ _ _ Hd Hd').
  - intros l t Hc (H1 & H2 & H3). cbn [ofb]. split; [now constructor|]. split; [now constructor|].
    inversion 1; subst. cbn [encode]. rewrite H3 by assumption. reflexivity.
  - intros m t Hs Hc (H1 & H2 & H3). cbn [ofb].
    change (map (fun kv : bytes * bval => (fst kv, ofb (snd kv))) m) with (map (onsnd ofb) m).
    split; [econstructor; [reflexivity|assumption|assumption]|]. split; [now constructor|].
    inversion 1; subst. rewrite encode_dict.
    rewrite ksort_strict_id.
    + rewrite H3 by assumption. reflexivity.
    + apply sorted_keys_iff. rewrite map_map. exact Hs.
  - repeat split; constructor.
  - intros v l tv tl Hv (V1 & V2 & V3) Hl (L1 & L2 & L3). cbn [map].
    split; [now constructor|]. split; [now constructor|]. inversion 1; subst.
    cbn [encSeq]. rewrite V3, L3 by assumption. reflexivity.
  - repeat split; constructor.
  - intros k v m tk tv tm Hk (_ & _ & K3) Hv (V1 & V2 & V3) Hm (M1 & M2 & M3). cbn [map onsnd].
    split; [constructor; [split; [reflexivity|exact V1]|exact M1]|]. split; [constructor; [exact V2|exact M2]|].
    intros HF; inversion HF as [|? ? [Hkn Hvn] Hmn]; subst.
    cbn [encPairs fst snd]. fold (onsnd (A:=bval) ofb). fold (onsnd (A:=gval) encode). cbn [fst snd onsnd].
    rewrite M3 by assumption. rewrite V3 by assumption.
    specialize (K3 (ne_str k Hkn)). cbn [ofb encode] in K3. rewrite K3. reflexivity.
Qed.

Lemma denotes_representable v : go_wf v -> no_min64 v -> forall m, denotes v m -> representable m.
Proof.
  induction v as [s|k z|d IH|l IH|] using gval_ind'; intros Hwf Hnm m Hd; inversion Hd; subst.
  - inversion Hwf; subst. now constructor.
  - inversion Hwf as [|? ? Hk| | |]; inversion Hnm; subst. constructor.
    destruct k; cbn in Hk; unfold min64, max64 in *; lia.
  - inversion Hwf as [| |? _ Hkl Hw| |]; inversion Hnm as [| | |? Hm|]; subst.
    constructor.
    assert (HA : Forall (fun kv => zlen (fst kv) <= max64 /\ (forall m, denotes (snd kv) m -> representable m)) d').
    { rewrite Forall_forall in *. intros kv Hkv. apply (Permutation_in kv (Permutation_sym ltac:(eassumption))) in Hkv.
      split; [auto|]. intros; eapply IH; eauto. }
    match goal with HF : Forall2 _ d' _ |- _ => revert HA; clear -HF; induction HF as [|a b r r' [E Hd] _ IHr] end;
      intros HA; constructor; inversion HA as [|? ? [Ha1 Ha2] Hr]; subst; [|now auto].
    unfold bytes in *. rewrite <- E. auto.
  - inversion Hwf as [| | |? Hw|]; inversion Hnm as [| |? Hm| |]; subst. constructor.
    match goal with HF : Forall2 _ l _ |- _ => clear Hd Hwf Hnm; induction HF as [|a b r r' Hd _ IHr] end;
      constructor; inversion IH; inversion Hw; inversion Hm; subst; auto.
Qed.

Lemma denotes_zlen v : go_wf v -> forall s, denotes v (BStr s) -> zlen s <= max64.
Proof. intros Hwf s Hd. inversion Hd; subst. now inversion Hwf. Qed.

(** ** Unambiguity of canonical text *)

Lemma digits_split ds ds' c c' r r' :
  Forall (fun d => 48 <= b2z d <= 57) ds -> Forall (fun d => 48 <= b2z d <= 57) ds' ->
  is_digit c = false -> is_digit c' = false ->
  ds ++ c :: r = ds' ++ c' :: r' -> ds = ds' /\ c = c' /\ r = r'.
Proof.
  intros Hd; revert ds'; induction Hd as [|d ds H Hd IH]; intros ds' Hd' Hc Hc' E.
  - destruct Hd' as [|d' ds' H' Hd']; cbn [app] in E; injection E as E1 E2; [auto|].
    subst. apply is_digit_iff in H'. congruence.
  - destruct Hd' as [|d' ds' H' Hd']; cbn [app] in E; injection E as E1 E2.
    + subst. apply is_digit_iff in H. congruence.
    + subst d'. destruct (IH ds' Hd' Hc Hc' E2) as (-> & -> & ->). auto.
Qed.

Lemma canonical_str_split s s' t t' r r' :
  canonical (BStr s) t -> canonical (BStr s') t' -> t ++ r = t' ++ r' -> s = s' /\ r = r'.
Proof.
  intros H H' E. inversion H as [? ds Hd| | | |]; inversion H' as [? ds' Hd'| | | |]; subst.
  rewrite <- !app_assoc in E. cbn [app] in E.
  apply digits_split in E as (-> & _ & E);
    [|now destruct Hd as (_ & ? & _)|now destruct Hd' as (_ & ? & _)|reflexivity|reflexivity].
  destruct Hd as (_ & _ & _ & V), Hd' as (_ & _ & _ & V').
  assert (HL : List.length s = List.length s') by (unfold zlen in *; lia).
  clear -E HL. revert s' HL E. induction s as [|x s IH]; intros [|y s'] HL E; try discriminate; [auto|].
  cbn [app] in E. injection E as -> E. destruct (IH s' ltac:(cbn in HL; lia) E) as [-> ->]. auto.
Qed.

Lemma canonical_unambiguous :
  (forall m t, canonical m t -> forall m' t' r r', canonical m' t' -> t ++ r = t' ++ r' -> m = m' /\ r = r') /\
  (forall l t, canonical_seq l t -> forall l' t' r r', canonical_seq l' t' ->
      t ++ "e"%byte :: r = t' ++ "e"%byte :: r' -> l = l' /\ r = r') /\
  (forall m t, canonical_map m t -> forall m' t' r r', canonical_map m' t' ->
      t ++ "e"%byte :: r = t' ++ "e"%byte :: r' -> m = m' /\ r = r').
Proof.
  apply canonical_mutind.
  - intros s ds Hd m' t' r r' H' E.
    destruct m' as [s'| | |].
    + destruct (canonical_str_split s s' _ _ r r' (can_str s ds Hd) H' E) as [-> ->]. auto.
    + exfalso. destruct (canonical_str_head _ _ (can_str s ds Hd)) as (b & q & E' & Hb). rewrite E' in E.
      destruct Hb as (_ & _ & Hb & _). inversion H'; subst; cbn [app] in E; injection E as -> _; discriminate.
    + exfalso. destruct (canonical_str_head _ _ (can_str s ds Hd)) as (b & q & E' & Hb). rewrite E' in E.
      destruct Hb as (_ & Hb & _ & _). inversion H'; subst; cbn [app] in E; injection E as -> _; discriminate.
    + exfalso. destruct (canonical_str_head _ _ (can_str s ds Hd)) as (b & q & E' & Hb). rewrite E' in E.
      destruct Hb as (Hb & _ & _ & _). inversion H'; subst; cbn [app] in E; injection E as -> _; discriminate.
  - intros n ds Hd m' t' r r' H' E. inversion H' as [s' ds' Hd'|n' ds' Hd'|n' ds' Hd' Hn'| |]; subst.
    + exfalso. destruct (canonical_str_head _ _ H') as (b & q & E' & (_ & _ & Hb & _)). rewrite E' in E.
      cbn [app] in E. injection E as <- _. discriminate.
    + cbn [app] in E. injection E as E. rewrite <- !app_assoc in E. cbn [app] in E.
      apply digits_split in E as (-> & _ & ->);
        [|now destruct Hd as (_ & ? & _)|now destruct Hd' as (_ & ? & _)|reflexivity|reflexivity].
      destruct Hd as (_ & _ & _ & <-), Hd' as (_ & _ & _ & <-). auto.
    + exfalso. cbn [app] in E. injection E as E. destruct Hd as (Hne & Hf & _).
      destruct Hf as [|d ds Hb Hf]; [congruence|]. cbn [app] in E. injection E as -> _. cbn in Hb. lia.
    + discriminate.
    + discriminate.
  - intros n ds Hd Hn m' t' r r' H' E. inversion H' as [s' ds' Hd'|n' ds' Hd'|n' ds' Hd' Hn'| |]; subst.
    + exfalso. destruct (canonical_str_head _ _ H') as (b & q & E' & (_ & _ & Hb & _)). rewrite E' in E.
      cbn [app] in E. injection E as <- _. discriminate.
    + exfalso. cbn [app] in E. injection E as E. destruct Hd' as (Hne & Hf & _).
      destruct Hf as [|d ds0 Hb Hf]; [congruence|]. cbn [app] in E. injection E as <- _. cbn in Hb. lia.
    + cbn [app] in E. injection E as E. rewrite <- !app_assoc in E. cbn [app] in E.
      apply digits_split in E as (-> & _ & ->);
        [|now destruct Hd as (_ & ? & _)|now destruct Hd' as (_ & ? & _)|reflexivity|reflexivity].
      destruct Hd as (_ & _ & _ & <-), Hd' as (_ & _ & _ & <-). auto.
    + discriminate.
    + discriminate.
  - intros l t Hc IH m' t' r r' H' E. inversion H' as [s' ds' Hd'|n' ds' Hd'|n' ds' Hd' Hn'|l' t0 Hl'|]; subst.
    + exfalso. destruct (canonical_str_head _ _ H') as (b & q & E' & (_ & Hb & _ & _)). rewrite E' in E.
      cbn [app] in E. injection E as <- _. discriminate.
    + discriminate.
    + discriminate.
    + cbn [app] in E. injection E as E. rewrite <- !app_assoc in E. cbn [app] in E.
      destruct (IH _ _ _ _ Hl' E) as [-> ->]. auto.
    + discriminate.
  - intros l t Hs Hc IH m' t' r r' H' E. inversion H' as [s' ds' Hd'|n' ds' Hd'|n' ds' Hd' Hn'| |l' t0 Hs' Hl']; subst.
    + exfalso. destruct (canonical_str_head _ _ H') as (b & q & E' & (Hb & _ & _ & _)). rewrite E' in E.
      cbn [app] in E. injection E as <- _. discriminate.
    + discriminate.
    + discriminate.
    + discriminate.
    + cbn [app] in E. injection E as E. rewrite <- !app_assoc in E. cbn [app] in E.
      destruct (IH _ _ _ _ Hl' E) as [-> ->]. auto.
  - intros l' t' r r' H' E. inversion H' as [|v l tv tl Hv Hl]; subst.
    + cbn [app] in E. injection E as ->. auto.
    + exfalso. destruct (canonical_head _ _ Hv) as (b & q & -> & Hb). cbn [app] in E. injection E as <- _. discriminate.
  - intros v l tv tl Hv IHv Hl IHl l' t' r r' H' E. inversion H' as [|v' l0 tv' tl' Hv' Hl']; subst.
    + exfalso. destruct (canonical_head _ _ Hv) as (b & q & -> & Hb). cbn [app] in E. injection E as -> _. discriminate.
    + rewrite <- !app_assoc in E. destruct (IHv _ _ _ _ Hv' E) as [-> E'].
      destruct (IHl _ _ _ _ Hl' E') as [-> ->]. auto.
  - intros l' t' r r' H' E. inversion H' as [|k v l tk tv tl Hk Hv Hl]; subst.
    + cbn [app] in E. injection E as ->. auto.
    + exfalso. destruct (canonical_head _ _ Hk) as (b & q & -> & Hb). cbn [app] in E. injection E as <- _. discriminate.
  - intros k v m tk tv tm Hk _ Hv IHv Hm IHm l' t' r r' H' E. inversion H' as [|k' v' l0 tk' tv' tl' Hk' Hv' Hl']; subst.
    + exfalso. destruct (canonical_head _ _ Hk) as (b & q & -> & Hb). cbn [app] in E. injection E as -> _. discriminate.
    + rewrite <- !app_assoc in E. destruct (canonical_str_split _ _ _ _ _ _ Hk Hk' E) as [-> E1].
      destruct (IHv _ _ _ _ Hv' E1) as [-> E2].
      destruct (IHm _ _ _ _ Hl' E2) as [-> ->]. auto.
Qed.

Lemma canonical_inj m m' t : canonical m t -> canonical m' t -> m = m'.
Proof.
  intros H H'. apply (proj1 canonical_unambiguous m t H m' t [] [] H'). reflexivity.
Qed.

(** ** Termination *)

Lemma digit_loop_len stop e rest acc ds r :
  digit_loop stop e rest acc = Ok (ds, r) -> (List.length r < List.length rest)%nat.
Proof.
  revert acc; induction rest as [|b rest IH]; intros acc; cbn [digit_loop]; [discriminate|].
  destruct (is_digit b).
  - intros H. apply IH in H. cbn [List.length]. lia.
  - destruct (Byte.eqb b stop); [|discriminate]. intros H. injection H as _ <-. cbn. lia.
Qed.

Lemma digit_loop_nofuel stop e rest acc : digit_loop stop e rest acc <> NoFuel.
Proof.
  revert acc; induction rest as [|b rest IH]; intros acc; cbn [digit_loop]; [discriminate|].
  destruct (is_digit b); [apply IH|]. destruct (Byte.eqb b stop); discriminate.
Qed.

Lemma atoi_nofuel ds : atoi ds <> NoFuel.
Proof. destruct ds; cbn [atoi]; [discriminate|]. destruct (_ <=? _); discriminate. Qed.

Lemma decodeString_len sp rest s r :
  decodeString sp rest = Ok (s, r) -> (List.length r < List.length rest)%nat.
Proof.
  unfold decodeString. destruct (digit_loop _ _ rest []) as [[ds r0]|?| |] eqn:E; cbn [bind]; try discriminate.
  apply digit_loop_len in E. destruct (atoi ds); cbn [bind]; try discriminate.
  destruct (_ <=? _); [|discriminate]. intros H. injection H as _ <-. rewrite skipn_length. lia.
Qed.

Lemma decodeString_nofuel sp rest : decodeString sp rest <> NoFuel.
Proof.
  unfold decodeString. pose proof (digit_loop_nofuel ":"%byte EBadString rest []).
  destruct (digit_loop _ _ rest []) as [[ds r0]|?| |]; cbn [bind]; try discriminate; [|congruence].
  pose proof (atoi_nofuel ds). destruct (atoi ds); cbn [bind]; try discriminate; [|congruence].
  destruct (_ <=? _); discriminate.
Qed.

Definition int_body (r2 : bytes) : res (bytes * bytes) :=
  match r2 with
  | [] => Panic
  | z :: r' =>
    if Byte.eqb z "0"%byte then
      match r' with
      | [] => Panic
      | y :: _ => if negb (Byte.eqb y "e"%byte) then Err ELeadingZero
                  else digit_loop "e"%byte EBadInt r' [z]
      end
    else digit_loop "e"%byte EBadInt r2 []
  end.

Lemma int_body_len r ds r' : int_body r = Ok (ds, r') -> (List.length r' < List.length r)%nat.
Proof.
  unfold int_body. destruct r as [|z r]; [discriminate|]. destruct (Byte.eqb z "0").
  - destruct r as [|y r]; [discriminate|]. destruct (Byte.eqb y "e"); cbn [negb]; [|discriminate].
    intros H. apply digit_loop_len in H. cbn [List.length] in *. lia.
  - apply digit_loop_len.
Qed.

Lemma int_body_nofuel r : int_body r <> NoFuel.
Proof.
  unfold int_body. destruct r as [|z r]; [discriminate|]. destruct (Byte.eqb z "0").
  - destruct r as [|y r]; [discriminate|]. destruct (Byte.eqb y "e"); cbn [negb]; [|discriminate].
    apply digit_loop_nofuel.
  - apply digit_loop_nofuel.
Qed.

Lemma decodeInt_unfold b c r1 :
  decodeInt (b :: c :: r1) =
  if negb (Byte.eqb b "i"%byte) then Err EBadInt else
  let neg := Byte.eqb c "-"%byte in
  do ' (ds, r3) <- int_body (if neg then r1 else c :: r1);
  do v <- atoi ds;
  Ok (i64 (v * (if neg then -1 else 1)), r3).
Proof. reflexivity. Qed.

Lemma decodeInt_len rest z r :
  decodeInt rest = Ok (z, r) -> (List.length r < List.length rest)%nat.
Proof.
  destruct rest as [|b [|c r1]]; [discriminate|cbn; destruct (Byte.eqb b "i"); discriminate|].
  rewrite decodeInt_unfold. destruct (Byte.eqb b "i"); cbn [negb]; [|discriminate].
  cbv zeta. destruct (int_body _) as [[ds r3]|?| |] eqn:E; cbn [bind]; try discriminate.
  apply int_body_len in E. destruct (atoi ds); cbn [bind]; try discriminate.
  intros H. injection H as _ <-. destruct (Byte.eqb c "-"); cbn [List.length] in *; lia.
Qed.

Lemma decodeInt_nofuel rest : decodeInt rest <> NoFuel.
Proof.
  destruct rest as [|b [|c r1]]; [discriminate|cbn; destruct (Byte.eqb b "i"); discriminate|].
  rewrite decodeInt_unfold. destruct (Byte.eqb b "i"); cbn [negb]; [|discriminate].
  cbv zeta. match goal with |- bind (int_body ?x) _ <> _ => pose proof (int_body_nofuel x) end.
  destruct (int_body _) as [[ds r3]|?| |]; cbn [bind]; try discriminate; [|congruence].
  pose proof (atoi_nofuel ds). destruct (atoi ds); cbn [bind]; try discriminate; congruence.
Qed.

Lemma dec_len f :
  (forall sp rest v r, decVal f sp rest = Ok (v, r) -> (List.length r < List.length rest)%nat) /\
  (forall sp rest acc d r, decDict f sp rest acc = Ok (d, r) -> (List.length r < List.length rest)%nat) /\
  (forall sp rest acc d r, decList f sp rest acc = Ok (d, r) -> (List.length r < List.length rest)%nat).
Proof.
  induction f as [|f (IHv & IHd & IHl)]; [split; [|split]; discriminate|].
  split; [|split].
  - intros sp [|b rest] v r; cbn [decVal]; [discriminate|].
    destruct (Byte.eqb b "d").
    { destruct (decDict _ _ _ _) as [[d r']|?| |] eqn:E; cbn [bind]; try discriminate.
      intros H. injection H as _ <-. apply IHd in E. cbn. lia. }
    destruct (Byte.eqb b "l").
    { destruct (decList _ _ _ _) as [[d r']|?| |] eqn:E; cbn [bind]; try discriminate.
      intros H. injection H as _ <-. apply IHl in E. cbn. lia. }
    destruct (Byte.eqb b "i").
    { destruct (decodeInt _) as [[d r']|?| |] eqn:E; cbn [bind]; try discriminate.
      intros H. injection H as _ <-. now apply decodeInt_len in E. }
    destruct (decodeString _ _) as [[d r']|?| |] eqn:E; cbn [bind]; try discriminate.
    intros H. injection H as _ <-. now apply decodeString_len in E.
  - intros sp [|b rest] acc d r; cbn [decDict]; [discriminate|].
    destruct (Byte.eqb b "e"); [intros H; injection H as _ <-; cbn; lia|].
    destruct (decodeString _ _) as [[k r1]|?| |] eqn:E1; cbn [bind]; try discriminate.
    destruct (decVal _ _ _) as [[w r2]|?| |] eqn:E2; cbn [bind]; try discriminate.
    intros H. apply decodeString_len in E1. apply IHv in E2. apply IHd in H. lia.
  - intros sp [|b rest] acc d r; cbn [decList]; [discriminate|].
    destruct (Byte.eqb b "e"); [intros H; injection H as _ <-; cbn; lia|].
    destruct (decVal _ _ _) as [[w r2]|?| |] eqn:E2; cbn [bind]; try discriminate.
    intros H. apply IHv in E2. apply IHl in H. lia.
Qed.

Lemma dec_fuel f :
  (forall sp rest, (2 * List.length rest + 1 <= f)%nat -> decVal f sp rest <> NoFuel) /\
  (forall sp rest acc, (2 * List.length rest + 2 <= f)%nat -> decDict f sp rest acc <> NoFuel) /\
  (forall sp rest acc, (2 * List.length rest + 2 <= f)%nat -> decList f sp rest acc <> NoFuel).
Proof.
  induction f as [|f (IHv & IHd & IHl)]; [split; [|split]; intros; lia|].
  split; [|split].
  - intros sp [|b rest] Hf; cbn [decVal]; [discriminate|]. cbn [List.length] in Hf.
    destruct (Byte.eqb b "d").
    { pose proof (IHd sp rest [] ltac:(lia)). destruct (decDict _ _ _ _) as [[d r']|?| |]; cbn [bind]; congruence. }
    destruct (Byte.eqb b "l").
    { pose proof (IHl sp rest [] ltac:(lia)). destruct (decList _ _ _ _) as [[d r']|?| |]; cbn [bind]; congruence. }
    destruct (Byte.eqb b "i").
    { pose proof (decodeInt_nofuel (b :: rest)). destruct (decodeInt _) as [[d r']|?| |]; cbn [bind]; congruence. }
    pose proof (decodeString_nofuel sp (b :: rest)). destruct (decodeString _ _) as [[d r']|?| |]; cbn [bind]; congruence.
  - intros sp [|b rest] acc Hf; cbn [decDict]; [discriminate|]. cbn [List.length] in Hf.
    destruct (Byte.eqb b "e"); [discriminate|].
    pose proof (decodeString_nofuel sp (b :: rest)).
    destruct (decodeString _ _) as [[k r1]|?| |] eqn:E1; cbn [bind]; try congruence.
    apply decodeString_len in E1. cbn [List.length] in E1.
    pose proof (IHv sp r1 ltac:(lia)).
    destruct (decVal _ _ _) as [[w r2]|?| |] eqn:E2; cbn [bind]; try congruence.
    apply (proj1 (dec_len f)) in E2. apply IHd. lia.
  - intros sp [|b rest] acc Hf; cbn [decList]; [discriminate|]. cbn [List.length] in Hf.
    destruct (Byte.eqb b "e"); [discriminate|].
    pose proof (IHv sp (b :: rest) ltac:(cbn [List.length]; lia)).
    destruct (decVal _ _ _) as [[w r2]|?| |] eqn:E2; cbn [bind]; try congruence.
    apply (proj1 (dec_len f)) in E2. cbn [List.length] in E2. apply IHl. lia.
Qed.

Lemma Decode_total data : exists r, (Decode data = r) /\ ((exists v, r = Ok v) \/ (exists e, r = Err e)).
Proof.
  unfold Decode. pose proof (proj1 (dec_fuel (2 * List.length (vis data) + 2)) (spare data) (vis data) ltac:(lia)) as H.
  destruct (decVal _ _ _) as [[v r]|e| |]; [| | |congruence]; eexists; split; eauto.
Qed.

(** ** Independence of spare capacity *)

Definition doomed {A} (x : res (A * bytes)) : Prop := x = Panic \/ exists a, x = Ok (a, []).

Lemma decodeString_sp sp1 sp2 rest :
  decodeString sp1 rest = decodeString sp2 rest \/
  (doomed (decodeString sp1 rest) /\ doomed (decodeString sp2 rest)).
Proof.
  unfold decodeString. destruct (digit_loop _ _ rest []) as [[ds r]|?| |]; cbn [bind]; auto.
  destruct (atoi ds) as [n|?| |]; cbn [bind]; auto.
  pose proof (zlen_nonneg sp1). pose proof (zlen_nonneg sp2).
  destruct (Z_le_gt_dec n (zlen r)) as [Hn|Hn].
  - left. replace (n <=? zlen r + zlen sp1) with true by lia. replace (n <=? zlen r + zlen sp2) with true by lia.
    do 2 f_equal. rewrite !firstn_app.
    replace (Z.to_nat n - List.length r)%nat with 0%nat by (unfold zlen in *; lia). reflexivity.
  - right.
    assert (HE : skipn (Z.to_nat n) r = []) by (apply skipn_all2; unfold zlen in *; lia).
    split; destruct (_ <=? _); [right; eexists; now rewrite HE|now left|right; eexists; now rewrite HE|now left].
Qed.

Lemma dec_sp f :
  (forall sp1 sp2 rest, (2 * List.length rest + 1 <= f)%nat -> decVal f sp1 rest = decVal f sp2 rest \/
     (doomed (decVal f sp1 rest) /\ doomed (decVal f sp2 rest) /\
      forall b r, rest = b :: r -> Byte.eqb b "d" = false /\ Byte.eqb b "l" = false /\ Byte.eqb b "i" = false)) /\
  (forall sp1 sp2 rest acc, (2 * List.length rest + 2 <= f)%nat -> decDict f sp1 rest acc = decDict f sp2 rest acc) /\
  (forall sp1 sp2 rest acc, (2 * List.length rest + 2 <= f)%nat -> decList f sp1 rest acc = decList f sp2 rest acc).
Proof.
  induction f as [|f (IHv & IHd & IHl)]; [split; [|split]; intros; lia|].
  assert (Hnil : (0 < f)%nat -> forall sp, decVal f sp [] = Panic).
  { intros Hf sp. destruct f; [lia|reflexivity]. }
  assert (HnilD : (0 < f)%nat -> forall sp acc, decDict f sp [] acc = Panic).
  { intros Hf sp acc. destruct f; [lia|reflexivity]. }
  assert (HnilL : (0 < f)%nat -> forall sp acc, decList f sp [] acc = Panic).
  { intros Hf sp acc. destruct f; [lia|reflexivity]. }
  split; [|split].
  - intros sp1 sp2 [|b rest] Hf; cbn [decVal]; [auto|]. cbn [List.length] in Hf.
    destruct (Byte.eqb b "d") eqn:E1; [left; rewrite (IHd sp1 sp2) by lia; reflexivity|].
    destruct (Byte.eqb b "l") eqn:E2; [left; rewrite (IHl sp1 sp2) by lia; reflexivity|].
    destruct (Byte.eqb b "i") eqn:E3; [auto|].
    destruct (decodeString_sp sp1 sp2 (b :: rest)) as [->|[H1 H2]]; [auto|].
    right. split; [|split].
    + destruct H1 as [->|(a & ->)]; cbn [bind]; [now left|right; eauto].
    + destruct H2 as [->|(a & ->)]; cbn [bind]; [now left|right; eauto].
    + intros b' r' E. injection E as <- _. auto.
  - intros sp1 sp2 [|b rest] acc Hf; cbn [decDict]; [reflexivity|]. cbn [List.length] in Hf.
    destruct (Byte.eqb b "e"); [reflexivity|].
    destruct (decodeString_sp sp1 sp2 (b :: rest)) as [->|[H1 H2]].
    + destruct (decodeString sp2 (b :: rest)) as [[k r1]|?| |] eqn:E1; cbn [bind]; try reflexivity.
      apply decodeString_len in E1. cbn [List.length] in E1.
      destruct (IHv sp1 sp2 r1 ltac:(lia)) as [->|(H1 & H2 & _)].
      * destruct (decVal f sp2 r1) as [[w r2]|?| |] eqn:E2; cbn [bind]; try reflexivity.
        apply (proj1 (dec_len f)) in E2. apply IHd. lia.
      * destruct H1 as [->|(a1 & ->)], H2 as [->|(a2 & ->)]; cbn [bind]; rewrite ?HnilD by lia; reflexivity.
    + destruct H1 as [->|(a1 & ->)], H2 as [->|(a2 & ->)]; cbn [bind]; rewrite ?Hnil by lia; reflexivity.
  - intros sp1 sp2 [|b rest] acc Hf; cbn [decList]; [reflexivity|]. cbn [List.length] in Hf.
    destruct (Byte.eqb b "e"); [reflexivity|].
    destruct (IHv sp1 sp2 (b :: rest) ltac:(cbn [List.length]; lia)) as [->|(H1 & H2 & _)].
    + destruct (decVal f sp2 (b :: rest)) as [[w r2]|?| |] eqn:E2; cbn [bind]; try reflexivity.
      apply (proj1 (dec_len f)) in E2. cbn [List.length] in E2. apply IHl. lia.
    + destruct H1 as [->|(a1 & ->)], H2 as [->|(a2 & ->)]; cbn [bind]; rewrite ?HnilL by lia; reflexivity.
Qed.

Lemma Decode_spare_dli data s1 s2 :
  (exists b r, data = b :: r /\ (b = "d" \/ b = "l" \/ b = "i")%byte) ->
  Decode (mkslice data s1) = Decode (mkslice data s2).
Proof.
  intros (b & r & -> & Hb). unfold Decode. cbn [vis spare].
  destruct (proj1 (dec_sp (2 * List.length (b :: r) + 2)) s1 s2 (b :: r) ltac:(lia)) as [->|(_ & _ & H)]; [reflexivity|].
  exfalso. destruct (H b r eq_refl) as (H1 & H2 & H3).
  apply Byte_eqb_neq in H1. apply Byte_eqb_neq in H2. apply Byte_eqb_neq in H3. tauto.
Qed.

Lemma Decode_spare_value data s1 s2 w :
  Decode (mkslice data s1) = Ok w -> (forall s, w <> VStr s) -> Decode (mkslice data s2) = Ok w.
Proof.
  intros H Hw. destruct data as [|b r]; [discriminate|].
  rewrite <- H. apply Decode_spare_dli. exists b, r. split; [reflexivity|].
  unfold Decode in H. cbn [vis spare] in H.
  remember (2 * List.length (b :: r) + 2)%nat as f. destruct f as [|f]; [discriminate|]. cbn [decVal] in H.
  destruct (Byte.eqb b "d") eqn:E1; [apply Byte_eqb_eq in E1; auto|].
  destruct (Byte.eqb b "l") eqn:E2; [apply Byte_eqb_eq in E2; auto|].
  destruct (Byte.eqb b "i") eqn:E3; [apply Byte_eqb_eq in E3; auto|].
  exfalso. destruct (decodeString s1 (b :: r)) as [[s r']|?| |]; cbn [bind] in H; try discriminate.
  injection H as <-. now apply (Hw s).
Qed.

(** ** Getters *)

Lemma dget_in k v d : NoDup (map fst d) -> (dget k d = Some v <-> In (k, v) d).
Proof.
  induction d as [|[k' v'] d IH]; cbn [dget map fst In]; intros Hn; [split; [discriminate|tauto]|].
  inversion Hn as [|? ? Hni Hn']; subst. destruct (beqb k k') eqn:E.
  - apply beqb_eq in E. subst k'. split.
    + intros H. injection H as ->. auto.
    + intros [H|H]; [congruence|]. exfalso. apply Hni. now apply (in_map fst) in H.
  - apply beqb_neq in E. rewrite IH by assumption. split; [auto|]. intros [H|H]; [congruence|auto].
Qed.

Lemma dget_none k d : dget k d = None <-> ~ In k (map fst d).
Proof.
  induction d as [|[k' v'] d IH]; cbn [dget map fst In]; [tauto|].
  destruct (beqb k k') eqn:E.
  - apply beqb_eq in E. subst. split; [discriminate|tauto].
  - apply beqb_neq in E. rewrite IH. intuition congruence.
Qed.

Lemma dget_dput k k' v d : dget k (dput k' v d) = if bytes_dec k k' then Some v else dget k d.
Proof.
  induction d as [|[q w] d IH]; cbn [dput dget].
  - destruct (beqb k k') eqn:E; destruct (bytes_dec k k') as [H|H]; try reflexivity.
    + apply beqb_eq in E. congruence.
    + apply beqb_neq in E. congruence.
  - destruct (beqb k' q) eqn:E; cbn [dget].
    + apply beqb_eq in E. subst q. destruct (beqb k k') eqn:E'; destruct (bytes_dec k k') as [H|H]; try reflexivity.
      * apply beqb_eq in E'. congruence.
      * apply beqb_neq in E'. congruence.
    + rewrite IH. apply beqb_neq in E. destruct (beqb k q) eqn:E'; [|reflexivity].
      apply beqb_eq in E'. subst q. destruct (bytes_dec k k') as [H|H]; [congruence|reflexivity].
Qed.

Lemma dput_nodup k v d : NoDup (map fst d) -> NoDup (map fst (dput k v d)).
Proof.
  induction d as [|[q w] d IH]; cbn [dput map fst]; intros H; [constructor; [tauto|constructor]|].
  inversion H as [|? ? Hni Hn]; subst. destruct (beqb k q) eqn:E; cbn [map fst].
  - apply beqb_eq in E. subst. constructor; assumption.
  - constructor; [|auto]. rewrite <- dget_none in *. rewrite dget_dput.
    destruct (bytes_dec q k) as [H'|H']; [|assumption]. apply beqb_neq in E. congruence.
Qed.

Lemma dputs_last k l acc :
  dget k (dputs l acc) =
  match last_binding k l with Some m => Some (ofb m) | None => dget k acc end.
Proof.
  revert acc; induction l as [|[q m] l IH]; intros acc; cbn [dputs fold_left last_binding]; [reflexivity|].
  cbn [fst snd]. fold (dputs l (dput q (ofb m) acc)). rewrite IH.
  destruct (last_binding k l); [reflexivity|]. rewrite dget_dput.
  destruct (bytes_dec k q); reflexivity.
Qed.

Lemma canonical_map_in l : forall t k m, canonical_map l t -> In (k, m) l -> exists tm, canonical m tm.
Proof.
  induction l as [|[q v] l IH]; intros t k m Hc Hi; [destruct Hi|].
  inversion Hc; subst. destruct Hi as [E|Hi]; [injection E as <- <-; eauto|eauto].
Qed.

Lemma last_binding_in {A} k (l : list (bytes * A)) v : last_binding k l = Some v -> In (k, v) l.
Proof.
  induction l as [|[q w] l IH]; cbn [last_binding In]; [discriminate|].
  destruct (last_binding k l); [auto|]. destruct (bytes_dec k q); [|discriminate].
  intros H. left. congruence.
Qed.

Lemma Decode_bindings l t junk sp :
  canonical_map l t ->
  Forall (fun kv => zlen (fst kv) <= max64 /\ representable (snd kv)) l ->
  exists d, Decode (mkslice ("d"%byte :: t ++ "e"%byte :: junk) sp) = Ok (VDict d) /\
    NoDup (map fst d) /\
    (forall k m, last_binding k l = Some m -> exists w, In (k, w) d /\ denotes w m) /\
    (forall k, last_binding k l = None -> forall w, ~ In (k, w) d).
Proof.
  intros Hc Hr. exists (dputs l []).
  assert (HN : NoDup (map fst (dputs l []))).
  { unfold dputs. assert (H0 : NoDup (map fst (@nil (bytes * gval)))) by constructor. revert H0.
    generalize (@nil (bytes * gval)). clear. induction l as [|[k v] l IH]; intros acc H; cbn [fold_left]; [assumption|].
    apply IH. now apply dput_nodup. }
  split; [|split; [exact HN|split]].
  - unfold Decode. cbn [vis spare]. cbn [List.length].
    replace (2 * S (List.length (t ++ "e"%byte :: junk)) + 2)%nat with (S (2 * List.length (t ++ "e"%byte :: junk) + 3)) by lia.
    cbn [decVal]. rewrite Byte_eqb_refl.
    rewrite (proj2 (proj2 decode_canonical) l t Hc Hr); [reflexivity|]. rewrite app_length. lia.
  - intros k m Hl. exists (ofb m). split.
    + apply dget_in; [exact HN|]. rewrite dputs_last, Hl. reflexivity.
    + destruct (canonical_map_in _ _ _ _ Hc (last_binding_in _ _ _ Hl)) as (tm & Hm).
      now destruct (proj1 ofb_facts _ _ Hm).
  - intros k Hl w Hi. apply (dget_in k w _ HN) in Hi. rewrite dputs_last, Hl in Hi. discriminate.
Qed.

(** ** The one integer that does not round-trip *)

Inductive ranged : bval -> Prop :=
| rg_str s : zlen s <= max64 -> ranged (BStr s)
| rg_int z : min64 <= z <= max64 -> ranged (BInt z)
| rg_list l : Forall ranged l -> ranged (BList l)
| rg_dict m : Forall (fun kv => zlen (fst kv) <= max64 /\ ranged (snd kv)) m -> ranged (BDict m).

Lemma decodeInt_min64 t r : canonical (BInt min64) t -> decodeInt (t ++ r) = Err EAtoi.
Proof.
  intros Hc. inversion Hc as [|n ds Hd|n ds Hd Hn| |]; subst.
  - apply decimal_nonneg in Hd. unfold min64 in Hd. lia.
  - assert (n = 9223372036854775808) as -> by (unfold min64 in *; lia).
    pose proof Hd as Hd0. destruct Hd0 as (Hne & Hf & Hlz & Hv).
    destruct ds as [|d ds]; [congruence|]. inversion Hf as [|? ? Hdd Hf']; subst.
    cbn [app decodeInt]. rewrite !Byte_eqb_refl. cbn [negb].
    match goal with |- bind ?m _ = _ => assert (HX : m = Ok (d :: ds, r)) end.
    { destruct (Byte.eqb d "0") eqn:E.
      - apply Byte_eqb_eq in E. subst d. specialize (Hlz _ _ eq_refl eq_refl). subst ds. discriminate.
      - rewrite <- app_assoc. exact (digit_loop_ok "e"%byte EBadInt (d :: ds) r [] Hf eq_refl). }
    rewrite HX. cbn [bind]. unfold atoi. rewrite digits_val_dvalue, Hv. reflexivity.
Qed.

Lemma decode_canonical_or :
  (forall m t, canonical m t -> ranged m -> representable m \/ forall sp junk f,
     (2 * List.length t + 1 <= f)%nat -> decVal f sp (t ++ junk) = Err EAtoi) /\
  (forall l t, canonical_seq l t -> Forall ranged l -> Forall representable l \/ forall sp junk f acc,
     (2 * List.length t + 2 <= f)%nat ->
     decList f sp (t ++ "e"%byte :: junk) acc = Err EAtoi) /\
  (forall m t, canonical_map m t ->
     Forall (fun kv => zlen (fst kv) <= max64 /\ ranged (snd kv)) m ->
     Forall (fun kv => zlen (fst kv) <= max64 /\ representable (snd kv)) m \/ forall sp junk f acc,
     (2 * List.length t + 2 <= f)%nat ->
     decDict f sp (t ++ "e"%byte :: junk) acc = Err EAtoi).
Proof.
  apply canonical_mutind.
  - intros s ds Hd Hr. inversion Hr; subst. left; now constructor.
  - intros n ds Hd Hr. inversion Hr; subst. left; constructor. apply decimal_nonneg in Hd. unfold min64 in *. lia.
  - intros n ds Hd Hn Hr. inversion Hr; subst.
    destruct (Z.eq_dec (- n) min64) as [E|E]; [right|left; constructor; lia].
    intros sp junk f Hf. destruct f as [|f]; [lia|].
    pose proof (can_neg n ds Hd Hn) as Hc. rewrite E in Hc.
    apply (decodeInt_min64 _ junk) in Hc. cbn [app] in Hc.
    cbn [decVal]. cbn [app]. 
    replace (Byte.eqb "i"%byte "d"%byte) with false by reflexivity.
    replace (Byte.eqb "i"%byte "l"%byte) with false by reflexivity.
    rewrite !Byte_eqb_refl. rewrite Hc. reflexivity.
  - intros l t Hc IH Hr. inversion Hr; subst.
    destruct IH as [IH|IH]; [assumption|left; now constructor|right].
    intros sp junk f Hf. destruct f as [|f]; [lia|]. cbn [decVal app].
    replace (Byte.eqb "l"%byte "d"%byte) with false by reflexivity. rewrite Byte_eqb_refl.
    rewrite <- app_assoc. cbn [app]. rewrite !app_length in Hf. cbn [List.length] in Hf.
    rewrite IH by lia. reflexivity.
  - intros m t Hs Hc IH Hr. inversion Hr; subst.
    destruct IH as [IH|IH]; [assumption|left; now constructor|right].
    intros sp junk f Hf. destruct f as [|f]; [lia|]. cbn [decVal app]. rewrite Byte_eqb_refl.
    rewrite <- app_assoc. cbn [app]. rewrite !app_length in Hf. cbn [List.length] in Hf.
    rewrite IH by lia. reflexivity.
  - left. constructor.
  - intros v l tv tl Hv IHv Hl IHl Hr. inversion Hr; subst.
    destruct (canonical_head _ _ Hv) as (b & r & E & He).
    assert (0 < List.length tv)%nat by (rewrite E; cbn; lia).
    destruct IHv as [IHv|IHv]; [assumption| |].
    + destruct IHl as [IHl|IHl]; [assumption|left; now constructor|right].
      intros sp junk f acc Hf. rewrite app_length in Hf.
      destruct f as [|f]; [lia|]. rewrite <- app_assoc.
      cbn [decList]. rewrite E at 1. cbn [app]. rewrite He.
      rewrite (proj1 decode_canonical v tv Hv IHv) by lia. cbn [bind]. apply IHl. lia.
    + right. intros sp junk f acc Hf. rewrite app_length in Hf.
      destruct f as [|f]; [lia|]. rewrite <- app_assoc.
      cbn [decList]. rewrite E at 1. cbn [app]. rewrite He.
      rewrite IHv by lia. reflexivity.
  - left. constructor.
  - intros k v m tk tv tm Hk _ Hv IHv Hm IHm Hr. inversion Hr as [|? ? [Hkl Hrv] Hr']; subst.
    destruct (canonical_head _ _ Hk) as (b & r & E & He).
    assert (0 < List.length tk)%nat by (rewrite E; cbn; lia).
    destruct IHv as [IHv|IHv]; [assumption| |].
    + destruct IHm as [IHm|IHm]; [assumption|left; now constructor|right].
      intros sp junk f acc Hf. rewrite !app_length in Hf.
      destruct f as [|f]; [lia|]. rewrite <- !app_assoc.
      cbn [decDict]. rewrite E at 1. cbn [app]. rewrite He.
      rewrite (decodeString_canonical k) by assumption. cbn [bind].
      rewrite (proj1 decode_canonical v tv Hv IHv) by lia. cbn [bind]. apply IHm. lia.
    + right. intros sp junk f acc Hf. rewrite !app_length in Hf.
      destruct f as [|f]; [lia|]. rewrite <- !app_assoc.
      cbn [decDict]. rewrite E at 1. cbn [app]. rewrite He.
      rewrite (decodeString_canonical k) by assumption. cbn [bind].
      rewrite IHv by lia. reflexivity.
Qed.

Lemma denotes_ranged v : go_wf v -> forall m, denotes v m -> ranged m.
Proof.
  induction v as [s|k z|d IH|l IH|] using gval_ind'; intros Hwf m Hd; inversion Hd; subst.
  - inversion Hwf; subst. now constructor.
  - inversion Hwf as [|? ? Hk| | |]; subst. constructor.
    destruct k; cbn in Hk; unfold min64, max64 in *; lia.
  - inversion Hwf as [| |? _ Hkl Hw| |]; subst.
    constructor.
    assert (HA : Forall (fun kv => zlen (fst kv) <= max64 /\ (forall m, denotes (snd kv) m -> ranged m)) d').
    { rewrite Forall_forall in *. intros kv Hkv. apply (Permutation_in kv (Permutation_sym ltac:(eassumption))) in Hkv.
      split; [auto|]. intros; eapply IH; eauto. }
    match goal with HF : Forall2 _ d' _ |- _ => revert HA; clear -HF; induction HF as [|a b r r' [E Hd] _ IHr] end;
      intros HA; constructor; inversion HA as [|? ? [Ha1 Ha2] Hr]; subst; [|now auto].
    unfold bytes in *. rewrite <- E. auto.
  - inversion Hwf as [| | |? Hw|]; subst. constructor.
    match goal with HF : Forall2 _ l _ |- _ => clear Hd Hwf; induction HF as [|a b r r' Hd _ IHr] end;
      constructor; inversion IH; inversion Hw; subst; auto.
Qed.

Lemma representable_no_min64 v : forall m, denotes v m -> representable m -> no_min64 v.
Proof.
  induction v as [s|k z|d IH|l IH|] using gval_ind'; intros m Hd Hr; inversion Hd; subst.
  - constructor.
  - inversion Hr; subst. constructor. lia.
  - inversion Hr as [| | |? Hm]; subst. constructor.
    match goal with Hx : Permutation d _ |- _ => rename Hx into Hp end.
    assert (HA : Forall (fun kv => no_min64 (snd kv)) d').
    { assert (HI : Forall (fun kv => forall m, denotes (snd kv) m -> representable m -> no_min64 (snd kv)) d').
      { rewrite Forall_forall in *. intros kv Hkv. apply IH. now apply (Permutation_in kv (Permutation_sym Hp)). }
      match goal with HF : Forall2 _ d' _ |- _ => revert HI Hm; clear -HF; induction HF as [|a b r r' [E Hd] _ IHr] end;
      intros HI Hm; constructor; inversion HI; inversion Hm as [|? ? [? ?] ?]; subst; eauto. }
    rewrite Forall_forall in *. intros kv Hkv. apply HA. now apply (Permutation_in kv Hp).
  - inversion Hr as [| |? Hm|]; subst. constructor.
    match goal with HF : Forall2 _ l _ |- _ => clear Hd Hr; induction HF as [|a b r r' Hd _ IHr] end;
      constructor; inversion IH; inversion Hm; subst; eauto.
Qed.

Lemma Decode_min64 v b junk sp :
  go_wf v -> Encode v = (b, None) -> ~ no_min64 v -> Decode (mkslice (b ++ junk) sp) = Err EAtoi.
Proof.
  intros Hwf He Hnm.
  assert (Hen : encodable v) by (apply encode_none_iff; unfold Encode in He; now rewrite He).
  destruct (encode_canonical v Hwf Hen) as (m & Hd & Hc).
  unfold Encode in He. rewrite He in Hc. cbn [fst] in Hc.
  destruct (proj1 decode_canonical_or m b Hc (denotes_ranged v Hwf m Hd)) as [Hr|H].
  - exfalso. apply Hnm. eapply representable_no_min64; eassumption.
  - unfold Decode. cbn [vis spare]. rewrite H; [reflexivity|]. rewrite app_length. lia.
Qed.

Lemma Decode_Encode v b junk sp :
  go_wf v -> no_min64 v -> Encode v = (b, None) ->
  exists w m, Decode (mkslice (b ++ junk) sp) = Ok w /\ all_int64 w /\ denotes v m /\ denotes w m.
Proof.
  intros Hwf Hnm He.
  assert (Hen : encodable v) by (apply encode_none_iff; unfold Encode in He; now rewrite He).
  destruct (encode_canonical v Hwf Hen) as (m & Hd & Hc).
  unfold Encode in He. rewrite He in Hc. cbn [fst] in Hc.
  exists (ofb m), m. destruct (proj1 ofb_facts m b Hc) as (H1 & H2 & _).
  split; [|auto]. apply Decode_canonical; [assumption|]. eapply denotes_representable; eassumption.
Qed.

(** ** What Decode returns *)

Lemma digit_loop_acc stop e rest acc ds r :
  Forall (fun d => 48 <= b2z d <= 57) acc ->
  digit_loop stop e rest acc = Ok (ds, r) -> Forall (fun d => 48 <= b2z d <= 57) ds.
Proof.
  revert acc; induction rest as [|b rest IH]; intros acc Ha; cbn [digit_loop]; [discriminate|].
  destruct (is_digit b) eqn:E.
  - apply IH. apply Forall_app. split; [assumption|]. constructor; [now apply is_digit_iff|constructor].
  - destruct (Byte.eqb b stop); [|discriminate]. intros H. injection H as <- _. assumption.
Qed.

Lemma atoi_range ds n :
  Forall (fun d => 48 <= b2z d <= 57) ds -> atoi ds = Ok n -> 0 <= n <= max64.
Proof.
  intros Hd. destruct ds as [|d ds]; cbn [atoi]; [discriminate|].
  destruct (Z.leb_spec (digits_val (d :: ds)) max64); [|discriminate].
  intros H0. injection H0 as <-. split; [|assumption]. rewrite digits_val_dvalue. now apply dvalue_nonneg.
Qed.

Lemma decodeString_wf sp rest s r :
  decodeString sp rest = Ok (s, r) -> zlen s <= max64 /\ zlen s <= zlen rest + zlen sp.
Proof.
  unfold decodeString. destruct (digit_loop _ _ rest []) as [[ds r0]|?| |] eqn:E; cbn [bind]; try discriminate.
  pose proof (digit_loop_len _ _ _ _ _ _ E) as HL.
  apply digit_loop_acc in E; [|constructor].
  destruct (atoi ds) as [n|?| |] eqn:En; cbn [bind]; try discriminate.
  apply atoi_range in En; [|assumption].
  destruct (Z.leb_spec n (zlen r0 + zlen sp)); [|discriminate].
  intros Hx. injection Hx as <- _. unfold zlen in *. rewrite firstn_length, app_length. lia.
Qed.

Lemma dput_forall (P : bytes * gval -> Prop) k v d :
  P (k, v) -> Forall P d -> Forall P (dput k v d).
Proof.
  intros Hp. induction 1 as [|[q w] d Hq Hd IH]; cbn [dput]; [constructor; [assumption|constructor]|].
  destruct (beqb k q); constructor; assumption.
Qed.

Lemma dec_wf f :
  (forall sp rest v r, decVal f sp rest = Ok (v, r) -> go_wf v /\ all_int64 v) /\
  (forall sp rest acc d r, NoDup (map fst acc) ->
     Forall (fun kv => zlen (fst kv) <= max64 /\ go_wf (snd kv) /\ all_int64 (snd kv)) acc ->
     decDict f sp rest acc = Ok (d, r) -> go_wf (VDict d) /\ all_int64 (VDict d)) /\
  (forall sp rest acc d r, Forall (fun v => go_wf v /\ all_int64 v) acc ->
     decList f sp rest acc = Ok (d, r) -> go_wf (VList d) /\ all_int64 (VList d)).
Proof.
  induction f as [|f (IHv & IHd & IHl)]; [split; [|split]; discriminate|].
  split; [|split].
  - intros sp [|b rest] v r; cbn [decVal]; [discriminate|].
    destruct (Byte.eqb b "d").
    { destruct (decDict _ _ _ _) as [[d r']|?| |] eqn:E; cbn [bind]; try discriminate.
      intros H. injection H as <- _. eapply IHd in E; [exact E|constructor|constructor]. }
    destruct (Byte.eqb b "l").
    { destruct (decList _ _ _ _) as [[d r']|?| |] eqn:E; cbn [bind]; try discriminate.
      intros H. injection H as <- _. eapply IHl in E; [exact E|constructor]. }
    destruct (Byte.eqb b "i").
    { destruct rest as [|c r1]; [cbn; destruct (Byte.eqb b "i"); discriminate|].
      rewrite decodeInt_unfold. destruct (negb _); [discriminate|]. cbv zeta.
      destruct (int_body _) as [[ds r3]|?| |]; cbn [bind]; try discriminate.
      destruct (atoi ds); cbn [bind]; try discriminate.
      intros H. injection H as <- _. split; constructor. cbn. apply i64_range. }
    destruct (decodeString _ _) as [[d r']|?| |] eqn:E; cbn [bind]; try discriminate.
    intros H. injection H as <- _. apply decodeString_wf in E. split; constructor. tauto.
  - intros sp [|b rest] acc d r Hn Ha; cbn [decDict]; [discriminate|].
    destruct (Byte.eqb b "e").
    { intros H; injection H as <- _. split; constructor; [assumption|..];
      (eapply Forall_impl; [|exact Ha]; intros ? ?; cbn beta in *; tauto). }
    destruct (decodeString _ _) as [[k r1]|?| |] eqn:E1; cbn [bind]; try discriminate.
    destruct (decVal _ _ _) as [[w r2]|?| |] eqn:E2; cbn [bind]; try discriminate.
    apply decodeString_wf in E1. apply IHv in E2.
    apply IHd; [now apply dput_nodup|]. apply dput_forall; [cbn [fst snd]; tauto|assumption].
  - intros sp [|b rest] acc d r Ha; cbn [decList]; [discriminate|].
    destruct (Byte.eqb b "e").
    { intros H; injection H as <- _. split; constructor;
      (eapply Forall_impl; [|exact Ha]; intros ? ?; cbn beta in *; tauto). }
    destruct (decVal _ _ _) as [[w r2]|?| |] eqn:E2; cbn [bind]; try discriminate.
    apply IHv in E2. apply IHl. apply Forall_app. split; [assumption|]. constructor; [assumption|constructor].
Qed.

Lemma Decode_wf data w : Decode data = Ok w -> go_wf w /\ all_int64 w.
Proof.
  unfold Decode. destruct (decVal _ _ _) as [[v r]|?| |] eqn:E; try discriminate.
  intros H. injection H as <-. now apply (proj1 (dec_wf _)) in E.
Qed.

Lemma getter_cases {A} (d : list (bytes * gval)) k (sel : gval -> option A) :
  NoDup (map fst d) ->
  let g := do v <- dict_get d k; match sel v with Some a => Ok a | None => Err EBadType end in
  (forall a, g = Ok a <-> exists v, In (k, v) d /\ sel v = Some a) /\
  (g = Err EMissingKey <-> forall v, ~ In (k, v) d) /\
  (g = Err EBadType <-> exists v, In (k, v) d /\ sel v = None) /\
  g <> Panic /\ g <> NoFuel.
Proof.
  intros Hn g. subst g. unfold dict_get.
  destruct (dget k d) as [v|] eqn:E; cbn [bind].
  - pose proof E as E'. apply dget_in in E'; [|assumption].
    assert (Hu : forall v', In (k, v') d -> v' = v).
    { intros v' Hv'. apply dget_in in Hv'; [|assumption]. congruence. }
    destruct (sel v) as [a0|] eqn:Es; repeat split; try discriminate.
    + intros H. injection H as <-. eauto.
    + intros (v' & Hv' & Hs). apply Hu in Hv'. subst. congruence.
    + intros H. exfalso. eapply H; eauto.
    + intros (v' & Hv' & Hs). apply Hu in Hv'. subst. congruence.
    + intros (v' & Hv' & Hs). apply Hu in Hv'. subst. congruence.
    + intros H. exfalso. eapply H; eauto.
    + eauto.
  - assert (Hu : forall v', ~ In (k, v') d).
    { intros v' Hv'. apply dget_in in Hv'; [|assumption]. congruence. }
    repeat split; try discriminate.
    + intros (v & Hv & _). exfalso. eapply Hu; eauto.
    + intros v. apply Hu.
    + intros (v & Hv & _). exfalso. eapply Hu; eauto.
Qed.

(** ** Statements used by PropsBencode *)

Lemma Encode_canonical v :
  go_wf v ->
  (snd (Encode v) = None <-> encodable v) /\
  (encodable v -> exists m, denotes v m /\ canonical m (fst (Encode v))).
Proof. intros Hw. split; [apply encode_none_iff|now apply encode_canonical]. Qed.

Lemma Decode_accepts m t junk sp :
  canonical m t -> representable m ->
  exists w, Decode (mkslice (t ++ junk) sp) = Ok w /\ denotes w m /\ all_int64 w /\
    (no_empty m -> Encode w = (t, None)).
Proof.
  intros Hc Hr. exists (ofb m). split; [now apply Decode_canonical|].
  destruct (proj1 ofb_facts m t Hc) as (H1 & H2 & H3). auto.
Qed.

Lemma Encode_injective v w b :
  go_wf v -> go_wf w -> Encode v = (b, None) -> Encode w = (b, None) ->
  exists m, denotes v m /\ denotes w m.
Proof.
  unfold Encode. intros Hv Hw Ev Ew.
  destruct (encode_canonical v Hv) as (m & Hd & Hc); [apply encode_none_iff; now rewrite Ev|].
  destruct (encode_canonical w Hw) as (m' & Hd' & Hc'); [apply encode_none_iff; now rewrite Ew|].
  rewrite Ev in Hc. rewrite Ew in Hc'. cbn [fst] in *.
  rewrite (canonical_inj _ _ _ Hc Hc') in *. eauto.
Qed.

Lemma GetString_spec d k :
  NoDup (map fst d) ->
  (forall s, GetString d k = Ok s <-> In (k, VStr s) d) /\
  (GetString d k = Err EMissingKey <-> forall v, ~ In (k, v) d) /\
  (GetString d k = Err EBadType <-> exists v, In (k, v) d /\ forall s, v <> VStr s).
Proof.
  intros Hn. pose proof (getter_cases d k (fun v => match v with VStr s => Some s | _ => None end) Hn) as (H1 & H2 & H3 & _).
  assert (E : GetString d k = do v <- dict_get d k;
     match (match v with VStr s => Some s | _ => None end) with Some a => Ok a | None => Err EBadType end).
  { unfold GetString. destruct (dict_get d k) as [v|?| |]; cbn [bind]; try reflexivity. destruct v; reflexivity. }
  rewrite E. split; [|split; [exact H2|]].
  - intros s. rewrite H1. split.
    + intros (v & Hv & Hs). destruct v; try discriminate. injection Hs as ->. exact Hv.
    + intros Hi. exists (VStr s). auto.
  - rewrite H3. split; intros (v & Hv & Hs); exists v; split; auto.
    + intros s ->. discriminate.
    + destruct v; try reflexivity. now destruct (Hs s).
Qed.

Lemma GetInt_spec d k :
  NoDup (map fst d) ->
  (forall z, GetInt d k = Ok z <-> In (k, VInt KInt64 z) d) /\
  (GetInt d k = Err EMissingKey <-> forall v, ~ In (k, v) d) /\
  (GetInt d k = Err EBadType <-> exists v, In (k, v) d /\ forall z, v <> VInt KInt64 z).
Proof.
  intros Hn. pose proof (getter_cases d k (fun v => match v with VInt KInt64 s => Some s | _ => None end) Hn) as (H1 & H2 & H3 & _).
  assert (E : GetInt d k = do v <- dict_get d k;
     match (match v with VInt KInt64 s => Some s | _ => None end) with Some a => Ok a | None => Err EBadType end).
  { unfold GetInt. destruct (dict_get d k) as [v|?| |]; cbn [bind]; try reflexivity. destruct v as [|[]| | |]; reflexivity. }
  rewrite E. split; [|split; [exact H2|]].
  - intros s. rewrite H1. split.
    + intros (v & Hv & Hs). destruct v as [|[]| | |]; try discriminate. injection Hs as ->. exact Hv.
    + intros Hi. exists (VInt KInt64 s). auto.
  - rewrite H3. split; intros (v & Hv & Hs); exists v; split; auto.
    + intros s ->. discriminate.
    + destruct v as [|[] z| | |]; try reflexivity. now destruct (Hs z).
Qed.

Lemma GetDict_spec d k :
  NoDup (map fst d) ->
  (forall x, GetDict d k = Ok x <-> In (k, VDict x) d) /\
  (GetDict d k = Err EMissingKey <-> forall v, ~ In (k, v) d) /\
  (GetDict d k = Err EBadType <-> exists v, In (k, v) d /\ forall x, v <> VDict x).
Proof.
  intros Hn. pose proof (getter_cases d k (fun v => match v with VDict s => Some s | _ => None end) Hn) as (H1 & H2 & H3 & _).
  assert (E : GetDict d k = do v <- dict_get d k;
     match (match v with VDict s => Some s | _ => None end) with Some a => Ok a | None => Err EBadType end).
  { unfold GetDict. destruct (dict_get d k) as [v|?| |]; cbn [bind]; try reflexivity. destruct v; reflexivity. }
  rewrite E. split; [|split; [exact H2|]].
  - intros s. rewrite H1. split.
    + intros (v & Hv & Hs). destruct v; try discriminate. injection Hs as ->. exact Hv.
    + intros Hi. exists (VDict s). auto.
  - rewrite H3. split; intros (v & Hv & Hs); exists v; split; auto.
    + intros s ->. discriminate.
    + destruct v; try reflexivity. now destruct (Hs d0).
Qed.

Lemma GetList_spec d k :
  NoDup (map fst d) ->
  (forall x, GetList d k = Ok x <-> In (k, VList x) d) /\
  (GetList d k = Err EMissingKey <-> forall v, ~ In (k, v) d) /\
  (GetList d k = Err EBadType <-> exists v, In (k, v) d /\ forall x, v <> VList x).
Proof.
  intros Hn. pose proof (getter_cases d k (fun v => match v with VList s => Some s | _ => None end) Hn) as (H1 & H2 & H3 & _).
  assert (E : GetList d k = do v <- dict_get d k;
     match (match v with VList s => Some s | _ => None end) with Some a => Ok a | None => Err EBadType end).
  { unfold GetList. destruct (dict_get d k) as [v|?| |]; cbn [bind]; try reflexivity. destruct v; reflexivity. }
  rewrite E. split; [|split; [exact H2|]].
  - intros s. rewrite H1. split.
    + intros (v & Hv & Hs). destruct v; try discriminate. injection Hs as ->. exact Hv.
    + intros Hi. exists (VList s). auto.
  - rewrite H3. split; intros (v & Hv & Hs); exists v; split; auto.
    + intros s ->. discriminate.
    + destruct v; try reflexivity. now destruct (Hs l).
Qed.

Lemma GetUint_spec d k z :
  NoDup (map fst d) -> In (k, VInt KInt64 z) d -> min64 <= z <= max64 ->
  GetUint d k = Ok (if z <? 0 then z + 18446744073709551616 else z).
Proof.
  intros Hn Hi Hz. unfold GetUint.
  rewrite (proj2 (proj1 (GetInt_spec d k Hn) z) Hi). cbn [bind]. f_equal.
  unfold u64, min64, max64 in *. destruct (Z.ltb_spec z 0).
  - rewrite <- (Z.mod_small (z + 18446744073709551616) 18446744073709551616) by lia.
    rewrite <- (Z.mod_add z 1) by lia. reflexivity.
  - now rewrite Z.mod_small by lia.
Qed.

Lemma Decode_total_wf data :
  (exists v, Decode data = Ok v /\ go_wf v /\ all_int64 v) \/ (exists e, Decode data = Err e).
Proof.
  destruct (Decode_total data) as (r & E & [(v & ->)|(e & ->)]); [left|right; eauto].
  exists v. split; [exact E|now apply (Decode_wf data)].
Qed.
