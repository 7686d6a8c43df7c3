(** TellProofs.v: lemmas for C119. *)
From Verif Require Import Base BencodeModel BencodeSpec BencodeProofs DecimalProofs BitfieldModel WireModel WireSpec WireProofs LayoutModel FsModel PrintModel PrintProofs PeerProofs PathSpec TellModel TellSpec.
From Coq Require Import ZifyBool ZifyNat ZifyN.

(** ** The same as without reasons *)
Definition sim {A} (o : out A) (r : res A) : Prop := match o with Good a => r = Ok a | Bad _ => exists e, r = Err e | Boom => r = Panic end.
Definition clean {A} (r : res A) : Prop := match r with Ok _ | Panic => True | _ => False end.
Lemma sim_sure {A} (r : res A) : clean r -> sim (sure r) r.
Proof. destruct r; cbn; tauto. Qed.
Lemma sim_bind {A C} (o : out A) r (k : A -> out C) k' : sim o r -> (forall a, sim (k a) (k' a)) -> sim (obind o k) (bind r k').
Proof. intros H Hk. destruct o; cbn in *; [subst r; apply Hk|destruct H as [e ->]; cbn; eauto|subst r; reflexivity]. Qed.
Lemma rd32_clean s : clean (rd32 s).
Proof. destruct s as [|a [|b [|c [|d s]]]]; exact I. Qed.
Lemma sslice_clean s lo hi : clean (sslice s lo hi).
Proof. unfold sslice. destruct (_ && _ && _)%bool; exact I. Qed.
Lemma sindex_clean s i : clean (sindex s i).
Proof. unfold sindex. destruct (_ && _)%bool; [|exact I]. destruct (nth_error _ _); exact I. Qed.
Lemma calc_clean bf : clean (calcNset bf).
Proof. unfold calcNset. destruct (_ <=? 0); [exact I|]. destruct (_ <? 0); [exact I|]. destruct (nth_error _ _); exact I. Qed.
Lemma bits_same b n : sim (FromBytesT b n) (FromBytes b n).
Proof. unfold FromBytesT, FromBytes. cbv zeta. destruct (_ <=? 5); [cbn; eauto|]. destruct (_ || _)%bool; [cbn; eauto|]. apply sim_sure, calc_clean. Qed.
Lemma have_same p : sim (DecodeMsgHaveT p) (DecodeMsgHave p).
Proof. unfold DecodeMsgHaveT, DecodeMsgHave. destruct (negb _); [cbn; eauto|]. apply sim_bind; [apply sim_sure, rd32_clean|reflexivity]. Qed.
Lemma request_same p : sim (DecodeMsgRequestT p) (DecodeMsgRequest p).
Proof.
  unfold DecodeMsgRequestT, DecodeMsgRequest. destruct (negb _); [cbn; eauto|]. apply sim_bind; [apply sim_sure, rd32_clean|intros i]. apply sim_bind; [apply sim_sure, rd32_clean|intros b].
  apply sim_bind; [apply sim_sure, rd32_clean|reflexivity].
Qed.
Lemma piece_same p n : sim (DecodeMsgPieceT p n) (DecodeMsgPiece p n).
Proof.
  unfold DecodeMsgPieceT, DecodeMsgPiece. destruct (negb _); [cbn; eauto|]. destruct (_ <? 8); [cbn; eauto|]. apply sim_bind; [apply sim_sure, rd32_clean|intros i]. apply sim_bind; [apply sim_sure, rd32_clean|reflexivity].
Qed.
Lemma bitmsg_same d n : sim (DecodeMsgBitfieldT d n) (DecodeMsgBitfield d n).
Proof. unfold DecodeMsgBitfieldT, DecodeMsgBitfield. cbv zeta. apply sim_bind; [apply sim_sure, sslice_clean|intros s]. apply sim_bind; [apply bits_same|reflexivity]. Qed.
(** Decode returns a message, or an error, or panics. *)
Definition agrees (o : out msg) (r : res dres) : Prop :=
  match o with Good m => exists k, r = Ok (mkdres (Some m) k None) | Bad _ => exists k e, r = Ok (mkdres None k (Some e)) | Boom => r = Panic end.
Lemma agrees_bind {A} (r : res A) (k : A -> out msg) k' : clean r -> (forall a, agrees (k a) (k' a)) -> agrees (obind (sure r) k) (bind r k').
Proof. intros H Hk. destruct r; cbn in *; [apply Hk|tauto|reflexivity|tauto]. Qed.
Lemma decode_same d : agrees (DecodeMsgT d) (DecodeMsg d).
Proof.
  unfold DecodeMsgT, DecodeMsg. cbv zeta. destruct (slen d <? 4); [cbn; eauto|]. apply agrees_bind; [apply rd32_clean|intros n]. destruct (n =? 0); [cbn; eauto|]. destruct (slen d <? 5); [cbn; eauto|].
  apply agrees_bind; [apply sindex_clean|intros tb]. destruct (_ && _)%bool; [cbn; eauto|]. destruct (_ <? _); [cbn; eauto|]. apply agrees_bind; [apply sslice_clean|intros p].
  assert (HD : agrees (Bad (FUnknown (b2z tb))) (Ok (mkdres None (u64 (slen d)) (Some EUnknownType)))) by (cbn; eauto).
  pose proof (have_same (vis p)) as Hh. pose proof (request_same (vis p)) as Hr. pose proof (bitmsg_same d n) as Hb. pose proof (piece_same (vis p) n) as Hp.
  destruct (b2z tb) as [|q|q] eqn:Et; [cbn; eauto| |exact HD].
  do 3 (destruct q as [q|q|]; try exact HD; try (cbn; eauto; fail)).
  all: unfold attempt.
  all: first
    [ destruct (DecodeMsgHaveT (vis p)); cbn in Hh |- *; [rewrite Hh; eauto|destruct Hh as [e ->]; eauto|rewrite Hh; reflexivity]
    | destruct (DecodeMsgBitfieldT d n); cbn in Hb |- *; [rewrite Hb; eauto|destruct Hb as [e ->]; eauto|rewrite Hb; reflexivity]
    | destruct (DecodeMsgRequestT (vis p)); cbn in Hr |- *; [rewrite Hr; eauto|destruct Hr as [e ->]; eauto|rewrite Hr; reflexivity]
    | destruct (DecodeMsgPieceT (vis p) n); cbn in Hp |- *; [rewrite Hp; eauto|destruct Hp as [e ->]; eauto|rewrite Hp; reflexivity] ].
Qed.

(** ** Frames *)
Definition fault_pure (l : bytes) : option fault :=
  match l with
  | a :: b :: c :: d :: r =>
    let n := val32 [a; b; c; d] in
    if n =? 0 then None
    else match r with
         | [] => Some (FFive 4)
         | t :: r' =>
           if b2z t <=? 3 then if n =? 1 then None else Some (FPlain n)
           else if 4294967292 <=? n then None
           else if zlen r' <? n - 1 then Some (FCut n (zlen l))
           else match b2z t with
                | 4 => if n =? 5 then None else Some (FHave (n - 1))
                | 5 => if n =? 1 then Some FEmptyBits else None
                | 6 => if n =? 13 then None else Some (FRequest (n - 1))
                | 7 => None
                | x => Some (FUnknown x)
                end
         end
  | _ => Some (FShort (zlen l))
  end.
Lemma no_fault {A} (r : res A) f : sure r <> Bad f.
Proof. destruct r; discriminate. Qed.
Lemma calc_at b n : 0 < zlen (bdat b) -> bnbits b = n -> exists x, calcNset b = Ok x \/ calcNset b = Panic.
Proof. intros _ _. pose proof (calc_clean b) as H. destruct (calcNset b) as [x| | |]; cbn in H; try tauto; [exists x; auto|exists b; auto]. Qed.
Lemma decode_pureT l sp f : zlen l < 4294967296 -> (DecodeMsgT (mkslice l sp) = Bad f <-> fault_pure l = Some f).
Proof.
  intros HL. pose proof (zlen_nonneg l) as H0. unfold DecodeMsgT, slen. cbn [vis].
  destruct l as [|a [|b [|c [|d r]]]]; try (cbn; split; intros [= <-]; reflexivity).
  replace (zlen (a :: b :: c :: d :: r) <? 4) with false by (rewrite !zlen_cons; pose proof (zlen_nonneg r); lia).
  rewrite rd32_val by (rewrite !zlen_cons; pose proof (zlen_nonneg r); lia).
  rewrite (val32_four a b c d r). cbn [sure obind fault_pure]. set (n := val32 [a; b; c; d]). pose proof (val32_range [a; b; c; d]) as Hn. fold n in Hn.
  destruct (Z.eqb_spec n 0) as [E0|E0]; [split; discriminate|].
  destruct r as [|t r]; [cbn; split; intros [= <-]; reflexivity|].
  set (l := a :: b :: c :: d :: t :: r) in *. assert (HLr : zlen l = 5 + zlen r) by (unfold l; rewrite !zlen_cons; lia).
  pose proof (zlen_nonneg r) as Hr0. replace (zlen l <? 5) with false by lia. unfold sindex, slen. cbn [vis]. replace ((0 <=? 4) && (4 <? zlen l)) with true by lia.
  change (nth_error l (Z.to_nat 4)) with (Some t). cbn [sure obind]. pose proof (b2z_range t) as Ht. rewrite (u32_id (zlen l)) by lia.
  destruct (Z.leb_spec (b2z t) 3) as [T|T].
  - destruct (Z.eqb_spec n 1) as [E1|E1]; cbn [negb andb]; [|split; intros [= <-]; reflexivity].
    split; [|discriminate]. destruct (zlen l <? u32 (4 + n)) eqn:Ec; [exfalso; rewrite E1 in Ec; change (u32 (4 + 1)) with 5 in Ec; lia|]. destruct (sure _) as [p|g|] eqn:Es; [|exfalso; exact (no_fault _ _ Es)|discriminate]. cbn [obind].
    assert (HT : b2z t = 0 \/ b2z t = 1 \/ b2z t = 2 \/ b2z t = 3) by lia. destruct HT as [-> | [-> | [-> | ->]]]; discriminate.
  - cbn [andb]. destruct (Z.leb_spec 4294967292 n) as [W|W].
    { assert (E : u32 (4 + n) = n - 4294967292) by (unfold u32; replace (4 + n) with (n - 4294967292 + 1 * 4294967296) by lia; rewrite Z.mod_add by lia; apply Z.mod_small; lia).
      replace (zlen l <? u32 (4 + n)) with false by (rewrite E; lia). replace (5 + n - 1) with (4 + n) by lia. rewrite E. unfold sslice. replace (_ && _ && _)%bool with false by lia. cbn. split; discriminate. }
    rewrite (u32_id (4 + n)) by lia. destruct (Z.ltb_spec (zlen l) (4 + n)) as [C|C].
    { replace (zlen r <? n - 1) with true by lia. split; intros [= <-]; reflexivity. }
    replace (zlen r <? n - 1) with false by lia. replace (5 + n - 1) with (4 + n) by lia. rewrite (u32_id (4 + n)) by lia. rewrite sslice_vis by lia. cbn [sure obind vis].
    set (p := sub l _ _). assert (Hp : zlen p = n - 1).
    { unfold p, sub. rewrite zlen_firstn; [lia|]. rewrite zlen_skipn. lia. }
    assert (HD : Bad (FUnknown (b2z t)) = @Bad msg f <-> Some (FUnknown (b2z t)) = Some f) by (split; intros [= <-]; reflexivity).
    destruct (b2z t) as [|q|q] eqn:Et; [lia| |lia].
    assert (H4 : DecodeMsgHaveT p = Bad f <-> (if n =? 5 then None else Some (FHave (n - 1))) = Some f).
    { unfold DecodeMsgHaveT. rewrite Hp, u32_id by lia. destruct (Z.eqb_spec n 5) as [X|X].
      - replace (n - 1 =? 4) with true by lia. cbn [negb]. split; [|discriminate]. destruct (sure _) eqn:Es; [discriminate|exfalso; exact (no_fault _ _ Es)|discriminate].
      - replace (n - 1 =? 4) with false by lia. split; intros [= <-]; reflexivity. }
    assert (H6 : DecodeMsgRequestT p = Bad f <-> (if n =? 13 then None else Some (FRequest (n - 1))) = Some f).
    { unfold DecodeMsgRequestT. rewrite Hp, u32_id by lia. destruct (Z.eqb_spec n 13) as [X|X].
      - replace (n - 1 =? 12) with true by lia. cbn [negb]. split; [|discriminate].
        destruct (sure (rd32 p)) eqn:E1; cbn [obind]; [|exfalso; exact (no_fault _ _ E1)|discriminate]. destruct (sure (rd32 (skipn 4 p))) eqn:E2; cbn [obind]; [|exfalso; exact (no_fault _ _ E2)|discriminate].
        destruct (sure (rd32 (skipn 8 p))) eqn:E3; cbn [obind]; [discriminate|exfalso; exact (no_fault _ _ E3)|discriminate].
      - replace (n - 1 =? 12) with false by lia. split; intros [= <-]; reflexivity. }
    assert (H5 : DecodeMsgBitfieldT (mkslice l sp) n = Bad f <-> (if n =? 1 then Some FEmptyBits else None) = Some f).
    { unfold DecodeMsgBitfieldT. cbv zeta. rewrite (u32_id (4 + n)), (u32_id (n - 1)) by lia. rewrite sslice_vis by lia. cbn [sure obind vis]. set (s := sub l _ _).
      assert (Hs : zlen s = 4 + n) by (unfold s, sub; rewrite zlen_firstn; [lia|rewrite zlen_skipn; lia]). unfold FromBytesT. cbv zeta. rewrite Hs. destruct (Z.eqb_spec n 1) as [X|X].
      - replace (4 + n <=? 5) with true by lia. cbn. split; intros [= <-]; reflexivity.
      - replace (4 + n <=? 5) with false by lia. replace (_ || _)%bool with false by lia. split; [|discriminate]. destruct (sure _) eqn:Es; [discriminate|exfalso; exact (no_fault _ _ Es)|discriminate]. }
    assert (H7 : match DecodeMsgPieceT p n with Bad _ => Boom | x => x end = @Bad msg f <-> None = Some f).
    { split; [|discriminate]. destruct (DecodeMsgPieceT p n); discriminate. }
    do 3 (destruct q as [q|q|]; try exact HD; try lia); first [exact H4|exact H5|exact H6|exact H7].
Qed.
Lemma frame_at a b c d t r m t' rest : frame (a :: b :: c :: d :: t :: r) m t' rest <-> m = val32 [a; b; c; d] /\ m <> 0 /\ t' = b2z t /\ rest = r.
Proof.
  unfold frame. pose proof (val32_range [a; b; c; d]) as Hr. split.
  - intros (E & Hm & Ht). unfold be32 in E. cbn [app] in E. injection E as E1 E2 E3 E4 E5 E6. subst. rewrite b2z_z2b_small by lia. repeat split; try lia.
    change (z2b (m / 16777216) :: _) with (be32 m). replace (be32 m) with (be32 m ++ []) by apply app_nil_r. rewrite val32_be32 by lia. reflexivity.
  - intros (-> & H0 & -> & ->). rewrite be32_val32. split; [cbn [app]; rewrite z2b_b2z; reflexivity|]. pose proof (b2z_range t). lia.
Qed.
Lemma frame_short l m t rest : (List.length l < 5)%nat -> ~ frame l m t rest.
Proof. intros H (E & _). apply (f_equal (@List.length byte)) in E. rewrite !app_length in E. unfold be32 in E. cbn [List.length] in E. lia. Qed.
Lemma pure_spec l f : zlen l < 4294967296 -> fault_pure l = Some f <-> frame_amiss l f.
Proof.
  intros HL. destruct l as [|a [|b [|c [|d [|t r]]]]].
  1-4: (match goal with |- fault_pure ?l = _ <-> _ => assert (HF : forall m t' rest, ~ frame l m t' rest) by (intros m t' rest; apply frame_short; cbn; lia) end; cbn [fault_pure]; split; [intros [= <-]; cbn; split; [reflexivity|unfold zlen; cbn; lia]|]; intros H; destruct f; cbn [frame_amiss] in H;
    first [destruct H as [-> _]; reflexivity|exfalso; destruct H as (_ & H & _); unfold zlen in H; cbn in H; lia|exfalso; exact H
      |exfalso; repeat match type of H with ex _ => destruct H as [? H] end; first [exact (HF _ _ _ H)|destruct H as [H _]; exact (HF _ _ _ H)]]).
  - cbn [fault_pure]. cbv zeta. pose proof (val32_range [a; b; c; d]) as Hr. set (n := val32 [a; b; c; d]) in *.
    assert (HN : n = 0 <-> [a; b; c; d] = be32 0).
    { split; [intros E; rewrite <- (be32_val32 a b c d); fold n; now rewrite E|]. intros E. unfold n. rewrite E. reflexivity. }
    assert (HF : forall m t' rest, ~ frame [a; b; c; d] m t' rest) by (intros m t' rest H; exact (frame_short [a; b; c; d] m t' rest ltac:(cbn; lia) H)).
    destruct (Z.eqb_spec n 0) as [E|E].
    + split; [discriminate|]. intros H. exfalso. destruct f; cbn [frame_amiss] in H; try tauto.
      * destruct H as [-> H]. unfold zlen in H; cbn in H; lia.
      * destruct H as (? & ? & H & _). exact (HF _ _ _ H).
      * destruct H as (? & ? & H & _). exact (HF _ _ _ H).
      * destruct H as (? & H & _). exact (HF _ _ _ H).
      * destruct H as (? & H & _). exact (HF _ _ _ H).
      * destruct H as (? & ? & H & _). exact (HF _ _ _ H).
      * destruct H as (? & H). exact (HF _ _ _ H).
    + split; [intros [= <-]; cbn [frame_amiss]; split; [reflexivity|split; [reflexivity|tauto]]|]. intros H. destruct f; cbn [frame_amiss] in H; try tauto.
      * destruct H as [-> H]. unfold zlen in H; cbn in H; lia.
      * destruct H as [-> _]. reflexivity.
      * exfalso. destruct H as (? & ? & H & _). exact (HF _ _ _ H).
      * exfalso. destruct H as (? & ? & H & _). exact (HF _ _ _ H).
      * exfalso. destruct H as (? & H & _). exact (HF _ _ _ H).
      * exfalso. destruct H as (? & H & _). exact (HF _ _ _ H).
      * exfalso. destruct H as (? & ? & H & _). exact (HF _ _ _ H).
      * exfalso. destruct H as (? & H). exact (HF _ _ _ H).
  - pose proof (frame_at a b c d t r) as HF. cbn [fault_pure]. cbv zeta. pose proof (val32_range [a; b; c; d]) as Hr. set (n := val32 [a; b; c; d]) in *. set (l := a :: b :: c :: d :: t :: r) in *.
    assert (HLr : zlen l = 5 + zlen r) by (unfold l; rewrite !zlen_cons; lia). pose proof (zlen_nonneg r) as Hr0. pose proof (b2z_range t) as Ht.
    assert (HT : match b2z t with 4 => if n =? 5 then None else Some (FHave (n - 1)) | 5 => if n =? 1 then Some FEmptyBits else None | 6 => if n =? 13 then None else Some (FRequest (n - 1)) | 7 => None | x => Some (FUnknown x) end
        = (if b2z t =? 4 then (if n =? 5 then None else Some (FHave (n - 1))) else if b2z t =? 5 then (if n =? 1 then Some FEmptyBits else None) else if b2z t =? 6 then (if n =? 13 then None else Some (FRequest (n - 1))) else if b2z t =? 7 then None else Some (FUnknown (b2z t)))).
    { destruct (b2z t) as [|q|q]; [reflexivity| |reflexivity]. do 3 (destruct q as [q|q|]; try reflexivity). }
    rewrite HT. clear HT.
    assert (HX : forall (P : Z -> Z -> bytes -> Prop) m t' rest, (frame l m t' rest /\ P m t' rest) <-> (m = n /\ n <> 0 /\ t' = b2z t /\ rest = r /\ P n (b2z t) r)).
    { intros P m t' rest. rewrite HF. split; [intros ((-> & ? & -> & ->) & ?); auto|intros (-> & ? & -> & -> & ?); auto]. }
    destruct f; cbn [frame_amiss].
    + split; [|intros [-> H]; lia]. repeat match goal with |- context [if ?x then _ else _] => destruct x end; discriminate.
    + split; [|intros (_ & H & _); lia]. repeat match goal with |- context [if ?x then _ else _] => destruct x end; discriminate.
    + split.
      * intros H. exists (b2z t), r. rewrite HF. repeat match type of H with context [if ?x then _ else _] => destruct x eqn:? end; try discriminate. injection H as <-. repeat split; lia.
      * intros (t' & rest & H & H1 & H2). rewrite HF in H. destruct H as (-> & ? & -> & ->). replace (n =? 0) with false by lia. replace (b2z t <=? 3) with true by lia. replace (n =? 1) with false by lia. reflexivity.
    + split.
      * intros H. exists (b2z t), r. rewrite HF. unfold full. repeat match type of H with context [if ?x then _ else _] => destruct x eqn:? end; try discriminate. injection H as <- <-. repeat split; lia.
      * unfold full. intros (t' & rest & H & H1 & H2 & H3 & ->). rewrite HF in H. destruct H as (-> & ? & -> & ->). replace (n =? 0) with false by lia. replace (b2z t <=? 3) with false by lia. replace (4294967292 <=? n) with false by lia. replace (zlen r <? n - 1) with true by lia. reflexivity.
    + split.
      * intros H. exists r. rewrite HF. unfold full. repeat match type of H with context [if ?x then _ else _] => destruct x eqn:? end; try discriminate. injection H as <-. repeat split; lia.
      * unfold full. intros (rest & H & H1 & H2). rewrite HF in H. destruct H as (H3 & ? & H4 & ->). replace (n =? 0) with false by lia. replace (b2z t <=? 3) with false by lia. replace (4294967292 <=? n) with false by lia. replace (zlen r <? n - 1) with false by lia. replace (b2z t =? 4) with true by lia. replace (n =? 5) with false by lia. f_equal. f_equal. lia.
    + split.
      * intros H. exists r. rewrite HF. unfold full. repeat match type of H with context [if ?x then _ else _] => destruct x eqn:? end; try discriminate. injection H as <-. repeat split; lia.
      * unfold full. intros (rest & H & H1 & H2). rewrite HF in H. destruct H as (H3 & ? & H4 & ->). replace (n =? 0) with false by lia. replace (b2z t <=? 3) with false by lia. replace (4294967292 <=? n) with false by lia. replace (zlen r <? n - 1) with false by lia. replace (b2z t =? 4) with false by lia. replace (b2z t =? 5) with false by lia. replace (b2z t =? 6) with true by lia. replace (n =? 13) with false by lia. f_equal. f_equal. lia.
    + split; [|tauto]. repeat match goal with |- context [if ?x then _ else _] => destruct x end; discriminate.
    + split; [|tauto]. repeat match goal with |- context [if ?x then _ else _] => destruct x end; discriminate.
    + split.
      * intros H. exists n, r. rewrite HF. unfold full. repeat match type of H with context [if ?x then _ else _] => destruct x eqn:? end; try discriminate. injection H as <-. repeat split; lia.
      * unfold full. intros (m & rest & H & H1 & H2). rewrite HF in H. destruct H as (-> & ? & -> & ->). replace (n =? 0) with false by lia. replace (b2z t <=? 3) with false by lia. replace (4294967292 <=? n) with false by lia. replace (zlen r <? n - 1) with false by lia. replace (b2z t =? 4) with false by lia. replace (b2z t =? 5) with false by lia. replace (b2z t =? 6) with false by lia. replace (b2z t =? 7) with false by lia. reflexivity.
    + split.
      * intros H. exists r. rewrite HF. repeat match type of H with context [if ?x then _ else _] => destruct x eqn:? end; try discriminate. repeat split; lia.
      * intros (rest & H). rewrite HF in H. destruct H as (H3 & ? & H4 & ->). replace (n =? 0) with false by lia. replace (b2z t <=? 3) with false by lia. replace (4294967292 <=? n) with false by lia. replace (zlen r <? n - 1) with false by lia. replace (b2z t =? 4) with false by lia. replace (b2z t =? 5) with true by lia. replace (n =? 1) with true by lia. reflexivity.
    + split; [|tauto]. repeat match goal with |- context [if ?x then _ else _] => destruct x end; discriminate.
    + split; [|tauto]. repeat match goal with |- context [if ?x then _ else _] => destruct x end; discriminate.
    + split; [|tauto]. repeat match goal with |- context [if ?x then _ else _] => destruct x end; discriminate.
    + split; [|tauto]. repeat match goal with |- context [if ?x then _ else _] => destruct x end; discriminate.
    + split; [|tauto]. repeat match goal with |- context [if ?x then _ else _] => destruct x end; discriminate.
    + split; [|tauto]. repeat match goal with |- context [if ?x then _ else _] => destruct x end; discriminate.
    + split; [|tauto]. repeat match goal with |- context [if ?x then _ else _] => destruct x end; discriminate.
    + split; [|tauto]. repeat match goal with |- context [if ?x then _ else _] => destruct x end; discriminate.
Qed.
Lemma frames_top d f : slen d < 4294967296 -> (DecodeMsgT d = Bad f <-> frame_amiss (vis d) f).
Proof. destruct d as [l sp]. unfold slen. cbn [vis]. intros H. rewrite (decode_pureT l sp f H). apply pure_spec, H. Qed.

(** ** Bitfields *)
Lemma bits_fault b n f : FromBytesT b n = Bad f <-> (zlen b <= 5 /\ f = FEmptyBits) \/
  (5 < zlen b /\ (n < 8 * (zlen b - 5) - 7 \/ 8 * (zlen b - 5) < n) /\ f = FBits (zlen b) (8 * (zlen b - 5) - 7) (8 * (zlen b - 5)) n).
Proof.
  unfold FromBytesT. cbv zeta. destruct (Z.leb_spec (zlen b) 5) as [H|H].
  - split; [intros [= <-]; auto|]. intros [[_ ->]|[X _]]; [reflexivity|lia].
  - replace ((zlen b - 5 - 1) * 8 + 1) with (8 * (zlen b - 5) - 7) by lia. replace ((zlen b - 5) * 8) with (8 * (zlen b - 5)) by lia. destruct (_ || _)%bool eqn:E.
    + split; [intros [= <-]; right; repeat split; lia|]. intros [[X _]|(_ & _ & ->)]; [lia|reflexivity].
    + split; [intros X; exfalso; exact (no_fault _ _ X)|]. intros [[X _]|(_ & X & _)]; lia.
Qed.
Lemma bits_good b n : 5 < zlen b -> 8 * (zlen b - 5) - 7 <= n <= 8 * (zlen b - 5) -> exists x, FromBytes b n = Ok x.
Proof.
  intros H Hn. unfold FromBytes. replace (zlen b <=? 5) with false by lia. replace (_ || _)%bool with false by lia. unfold calcNset. cbn [bnbits bdat]. destruct (Z.rem n 8 <=? 0) eqn:E0; [eauto|].
  assert (HS : zlen (skipn 5 b) = zlen b - 5) by (rewrite WireProofs.zlen_skipn; lia). rewrite HS. destruct (Z.rem n 8 =? 0) eqn:E.
  - exfalso. lia.
  - replace (zlen b - 5 - 1 + 0 <? 0) with false by lia. destruct (nth_error _ _) eqn:En; [eauto|]. apply nth_error_None in En. unfold zlen in *. lia.
Qed.
Lemma bits_range b n len mn mx g : FromBytesT b n = Bad (FBits len mn mx g) -> len = zlen b /\ g = n /\ forall k, (exists x, FromBytes b k = Ok x) <-> mn <= k <= mx.
Proof.
  intros H. apply bits_fault in H. destruct H as [[_ X]|(H1 & H2 & X)]; [discriminate|]. assert (Em : mn = 8 * (zlen b - 5) - 7) by congruence. assert (Ex : mx = 8 * (zlen b - 5)) by congruence. assert (El : len = zlen b) by congruence. assert (Eg : g = n) by congruence. clear X. subst. split; [reflexivity|]. split; [reflexivity|]. intros k. split; [|intros Hk; apply bits_good; assumption].
  intros [x Hx]. unfold FromBytes in Hx. cbv zeta in Hx. destruct (_ <=? 5); [discriminate|]. match type of Hx with (if ?c then _ else _) = _ => destruct c eqn:E; [discriminate|] end. lia.
Qed.

(** ** Texts *)
Lemma comma_plain z : ~ In ","%byte (itoa z).
Proof. apply itoa_no; [cbn; lia|discriminate]. Qed.
Lemma line_plain z : ~ In x0a (itoa z).
Proof. apply itoa_no; [cbn; lia|discriminate]. Qed.
Lemma bounds_plain i : B "index out of bounds" <> B "index " ++ itoa i ++ B " out of range".
Proof.
  intros H. change (B "index out of bounds") with (B "index " ++ B "out of bounds") in H. apply app_inv_head in H.
  assert (N : ~ In "o"%byte (itoa i)) by (apply itoa_no; [cbn; lia|discriminate]).
  destruct (itoa i) as [|x l]; [discriminate H|]. injection H as <- _. apply N. left. reflexivity.
Qed.
Lemma texts_top f f' : fault_text f = fault_text f' -> f = f'.
Proof.
  intros H. destruct f, f'; try reflexivity; try discriminate H; cbn [fault_text] in H.
  - apply app_inv_head, itoa_inj in H. congruence.
  - apply app_inv_head, itoa_inj in H. congruence.
  - apply app_inv_head, itoa_inj in H. congruence.
  - apply app_inv_head in H. change (B ", payload length is ") with (","%byte :: B " payload length is ") in H. apply first_sep in H; [|apply comma_plain..]. destruct H as [H1 H2].
    apply itoa_inj in H1. apply app_inv_head, itoa_inj in H2. congruence.
  - apply app_inv_head, itoa_inj in H. congruence.
  - apply app_inv_head, itoa_inj in H. congruence.
  - apply app_inv_head, itoa_inj in H. congruence.
  - apply app_inv_head, itoa_inj in H. congruence.
  - apply app_inv_head, itoa_inj in H. congruence.
  - apply app_inv_head in H. unfold nl in H. apply first_sep in H; [|apply line_plain..]. destruct H as [H1 H]. apply app_inv_head in H.
    change (B ", max " ++ ?x) with (","%byte :: B " max " ++ x) in H. apply first_sep in H; [|apply comma_plain..]. destruct H as [H2 H]. apply app_inv_head in H.
    change (B ", given " ++ ?x) with (","%byte :: B " given " ++ x) in H. apply first_sep in H; [|apply comma_plain..]. destruct H as [H3 H]. apply app_inv_head in H.
    apply itoa_inj in H1. apply itoa_inj in H2. apply itoa_inj in H3. apply itoa_inj in H. congruence.
  - exfalso. exact (bounds_plain _ H).
  - exfalso. symmetry in H. exact (bounds_plain _ H).
  - apply app_inv_head in H. apply app_inv_tail, itoa_inj in H. congruence.
  - apply app_inv_head in H. apply app_inv_tail in H. congruence.
  - apply app_inv_head in H. apply app_inv_tail in H. congruence.
Qed.

(** ** Pieces and files *)
Lemma lookup_same ti i : sim (PieceLookupT ti i) (PieceLookup ti i).
Proof. unfold PieceLookupT, PieceLookup. destruct (i <? 0); [cbn; eauto|]. destruct (_ <=? i); [cbn; eauto|]. destruct (nth_error _ _); reflexivity. Qed.
Lemma lookup_fault ti i f : PieceLookupT ti i = Bad f <-> (i < 0 /\ f = FNegative) \/ (0 <= i /\ ti_npieces ti <= i /\ f = FBeyond).
Proof.
  unfold PieceLookupT. destruct (Z.ltb_spec i 0) as [H|H]; [split; [intros [= <-]; auto|intros [[_ ->]|[X _]]; [reflexivity|lia]]|].
  destruct (Z.leb_spec (ti_npieces ti) i) as [H'|H']; [split; [intros [= <-]; auto|intros [[X _]|(_ & _ & ->)]; [lia|reflexivity]]|]. split; [intros X; exfalso; exact (no_fault _ _ X)|lia].
Qed.
Lemma info_fault e i P f : PieceInfoT e i P = Bad f <-> (i < en_sp e \/ en_ep e < i) /\ f = FRange i.
Proof.
  unfold PieceInfoT. destruct (_ || _)%bool eqn:E; [split; [intros [= <-]; split; [lia|reflexivity]|intros [_ ->]; reflexivity]|]. split; [intros X; exfalso; exact (no_fault _ _ X)|lia].
Qed.
Lemma info_same e i P : sim (PieceInfoT e i P) (PieceInfo e i P).
Proof. unfold PieceInfoT, PieceInfo. destruct (_ || _)%bool; [cbn; eauto|]. destruct (seek_loop _ _ _ _). reflexivity. Qed.
Lemma hash_clean ti i : clean (PieceHash ti i).
Proof. unfold PieceHash. cbv zeta. destruct (_ && _ && _)%bool; exact I. Qed.
Lemma write_fault sha1 ti i data f : write_checks sha1 ti i data = Bad f <->
  PieceLookupT ti i = Bad f \/ (exists l h, PieceLookup ti i = Ok l /\ PieceHash ti i = Ok h /\ sha1 data <> h /\ f = FHash).
Proof.
  unfold write_checks. pose proof (lookup_same ti i) as S. destruct (PieceLookupT ti i) as [l|g|]; cbn [obind]; cbn in S.
  - pose proof (hash_clean ti i) as C. destruct (PieceHash ti i) as [h| | |] eqn:Eh; cbn in C; try tauto; cbn [sure obind].
    + destruct (beqb (sha1 data) h) eqn:E; cbn [negb].
      * split; [discriminate|]. intros [X|(l' & h' & _ & [= <-] & X & _)]; [discriminate|]. apply beqb_eq in E. congruence.
      * split; [intros [= <-]; right; exists l, h; apply beqb_neq in E; auto|]. intros [X|(l' & h' & _ & _ & _ & ->)]; [discriminate|reflexivity].
    + split; [discriminate|]. intros [X|(l' & h' & _ & X & _)]; discriminate.
  - split; [intros [= <-]; auto|]. intros [X|(l' & h' & X & _)]; [exact X|destruct S as [e S]; congruence].
  - split; [discriminate|]. intros [X|(l' & h' & X & _)]; [discriminate|congruence].
Qed.
Lemma write_refused sha1 ti i data f w : write_checks sha1 ti i (vis data) = Bad f -> exists e, WritePiece sha1 ti i data w = (Err e, w).
Proof.
  intros H. apply write_fault in H. unfold WritePiece. destruct H as [H|(l & h & Hl & Hh & Hx & _)].
  - pose proof (lookup_same ti i) as S. rewrite H in S. destruct S as [e ->]. cbn. eauto.
  - rewrite Hl, Hh. cbn. apply beqb_neq in Hx. rewrite Hx. exists EBadHash. reflexivity.
Qed.
Lemma path_fault p w f : lookup_fp p w = Bad f -> f = FPath p /\ (forall q, Move p q w = (Err EPath, w)) /\ Close p w = (Err EPath, w) /\
  (forall seek data, fio_write p seek data w = (Err EPath, w)) /\ (forall seek n, fio_read p seek n w = (Ok ([], Some EPath), w)).
Proof.
  unfold lookup_fp, Move, Close, fio_write, fio_read. destruct (aget p (w_lfps w)); [discriminate|]. intros [= <-]. repeat split; reflexivity.
Qed.

(** ** Encode *)
Section Enc.
Context (t : bytes).
Definition ft (e : option goerr) : option fault := match e with None => None | Some EEmptyString => Some FEmpty | Some _ => Some (FType t) end.
Lemma ft_none e : ft e = None <-> e = None.
Proof. destruct e as [[]|]; split; try discriminate; reflexivity. Qed.
Lemma ft_seq a b : ft (snd (wseq a b)) = match ft (snd a) with Some f => Some f | None => ft (snd b) end.
Proof. unfold wseq. destruct (snd a) as [e|] eqn:E; cbn [snd ft]; [rewrite E; destruct e; reflexivity|reflexivity]. Qed.
Lemma ft_put a x : ft (snd (wseq a (wput x))) = ft (snd a).
Proof. rewrite ft_seq. cbn [wput snd ft]. destruct (ft (snd a)); reflexivity. Qed.
Lemma ft_list l f : ft (snd (encSeq (map encode l))) = Some f <-> exists pre x post, l = pre ++ x :: post /\ Forall encodable pre /\ ft (snd (encode x)) = Some f.
Proof.
  induction l as [|v l IH]; cbn [map encSeq].
  - split; [discriminate|]. intros (pre & x & post & E & _). destruct pre; discriminate.
  - rewrite ft_seq. destruct (ft (snd (encode v))) as [g|] eqn:E.
    + split; [intros [= <-]; exists [], v, l; auto|]. intros (pre & x & post & Hl & Hp & Hx). destruct pre as [|y pre]; cbn [app] in Hl; injection Hl as -> ->; [congruence|].
      apply Forall_inv in Hp. apply encode_none_iff, ft_none in Hp. congruence.
    + rewrite IH. split.
      * intros (pre & x & post & -> & Hp & Hx). exists (v :: pre), x, post. split; [reflexivity|]. split; [|exact Hx]. constructor; [apply encode_none_iff, ft_none, E|exact Hp].
      * intros (pre & x & post & Hl & Hp & Hx). destruct pre as [|y pre]; cbn [app] in Hl; injection Hl as -> ->; [congruence|]. apply Forall_inv_tail in Hp. exists pre, x, post. auto.
Qed.
Lemma ft_key k : ft (snd (encodeString k)) = match k with [] => Some FEmpty | _ => None end.
Proof. destruct k as [|b k]; [reflexivity|]. rewrite encodeString_ok by discriminate. reflexivity. Qed.
Lemma ft_pairs l f : ft (snd (encPairs (map (onsnd encode) l))) = Some f <-> exists pre k x post, l = pre ++ (k, x) :: post /\ Forall (fun kv => fst kv <> [] /\ encodable (snd kv)) pre /\
  ((k = [] /\ f = FEmpty) \/ (k <> [] /\ ft (snd (encode x)) = Some f)).
Proof.
  induction l as [|[k v] l IH]; cbn [map encPairs onsnd fst snd].
  - split; [discriminate|]. intros (pre & k & x & post & E & _). destruct pre; discriminate.
  - rewrite !ft_seq, ft_key. destruct k as [|b k].
    + split; [intros [= <-]; exists [], [], v, l; auto|]. intros (pre & k' & x & post & Hl & Hp & Hx). destruct pre as [|y pre]; cbn [app] in Hl; injection Hl as <-; subst.
      * destruct Hx as [[_ ->]|[X _]]; [reflexivity|congruence].
      * apply Forall_inv in Hp. destruct Hp as [X _]. cbn in X. congruence.
    + destruct (ft (snd (encode v))) as [g|] eqn:E.
      * split; [intros [= <-]; exists [], (b :: k), v, l; split; [reflexivity|]; split; [constructor|]; right; split; [discriminate|exact E]|].
        intros (pre & k' & x & post & Hl & Hp & Hx). destruct pre as [|y pre]; cbn [app] in Hl; injection Hl as <-; subst.
        -- destruct Hx as [[X _]|[_ X]]; [discriminate|congruence].
        -- apply Forall_inv in Hp. destruct Hp as [_ X]. cbn in X. apply encode_none_iff, ft_none in X. congruence.
      * rewrite IH. split.
        -- intros (pre & k' & x & post & -> & Hp & Hx). exists ((b :: k, v) :: pre), k', x, post. split; [reflexivity|]. split; [|exact Hx]. constructor; [|exact Hp]. split; [discriminate|]. apply encode_none_iff, ft_none, E.
        -- intros (pre & k' & x & post & Hl & Hp & Hx). destruct pre as [|y pre]; cbn [app] in Hl; injection Hl as <-; subst.
           ++ destruct Hx as [[X _]|[_ X]]; [discriminate|congruence].
           ++ apply Forall_inv_tail in Hp. exists pre, k', x, post. auto.
Qed.
Lemma sorted_first {A} (pre : list (bytes * A)) x post : StronglySorted key_lt (map fst (pre ++ ([], x) :: post)) -> pre = [].
Proof.
  destruct pre as [|[k v] pre]; [reflexivity|]. cbn [app map fst]. intros H. apply StronglySorted_inv in H. destruct H as [_ H]. rewrite map_app, Forall_app in H. destruct H as [_ H]. cbn [map fst] in H. apply Forall_inv in H. inversion H.
Qed.
Lemma unfit_iff v f : go_wf v -> (ft (snd (encode v)) = Some f <-> unfit t v f).
Proof.
  revert f. induction v as [s|k z|d IH|l IH|] using gval_ind'; intros f Hwf.
  - cbn [encode]. rewrite ft_key. destruct s; (split; [|inversion 1; reflexivity]); [intros [= <-]; constructor|discriminate].
  - split; [discriminate|inversion 1].
  - inversion Hwf as [| |? Hn Hk Hd| |]; subst. rewrite encode_dict, ft_seq. cbn [wput snd ft]. rewrite ft_put.
    rewrite ft_pairs. pose proof (ksort_perm_self d) as Hp. pose proof (ksort_strict d Hn) as Hs.
    assert (HI : forall x k, In (k, x) d -> forall g, ft (snd (encode x)) = Some g <-> unfit t x g).
    { intros x k Hin g. rewrite Forall_forall in IH, Hd. exact (IH (k, x) Hin g (Hd (k, x) Hin)). }
    split.
    + intros (pre & k & x & post & E & Hpre & Hx). rewrite E in Hp, Hs. apply sorted_keys_iff in Hs. destruct Hx as [[-> ->]|[Hne Hx]].
      * exact (un_key t d pre x post Hp Hs).
      * apply (un_value t d pre k x post f Hp Hs Hpre Hne). apply (HI x k); [|exact Hx]. apply (Permutation_in _ (Permutation_sym Hp)), in_elt.
    + intros H. inversion H as [| | |? pre x post Hp' Hs'|? pre k x post ? Hp' Hs' Hpre Hne Hx]; subst.
      * assert (E : ksort d = pre ++ ([], x) :: post) by (apply strict_perm_eq; [exact Hs|apply sorted_keys_iff, Hs'|rewrite <- Hp; exact Hp']).
        pose proof (sorted_first _ _ _ Hs') as ->. exists [], [], x, post. split; [exact E|]. split; [constructor|auto].
      * assert (E : ksort d = pre ++ (k, x) :: post) by (apply strict_perm_eq; [exact Hs|apply sorted_keys_iff, Hs'|rewrite <- Hp; exact Hp']).
        exists pre, k, x, post. split; [exact E|]. split; [exact Hpre|]. right. split; [exact Hne|]. apply (HI x k); [|exact Hx]. apply (Permutation_in _ (Permutation_sym Hp')), in_elt.
  - inversion Hwf as [| | |? Hl|]; subst. cbn [encode]. rewrite ft_seq. cbn [wput snd ft]. rewrite ft_put.
    rewrite ft_list. rewrite Forall_forall in IH, Hl. split.
    + intros (pre & x & post & -> & Hp & Hx). constructor; [exact Hp|]. apply IH; [apply in_elt|apply Hl, in_elt|exact Hx].
    + intros H. inversion H as [| |pre x post ? Hp Hx| |]; subst. exists pre, x, post. split; [reflexivity|]. split; [exact Hp|]. apply IH; [apply in_elt|apply Hl, in_elt|exact Hx].
  - cbn. split; [intros [= <-]; constructor|inversion 1; reflexivity].
Qed.
Lemma encode_top v f : go_wf v -> (EncodeT t v = Some f <-> unfit t v f).
Proof. intros H. rewrite <- unfit_iff by exact H. reflexivity. Qed.
End Enc.

(** ** The rest *)
Lemma opened_top p w : (exists f, lookup_fp p w = Bad f) <-> ~ In p (map fst (w_lfps w)).
Proof.
  unfold lookup_fp. induction (w_lfps w) as [|[q h] l IH]; cbn; [split; [tauto|eauto]|].
  destruct (beqb p q) eqn:E.
  - apply beqb_eq in E. subst q. split; [intros [f X]; discriminate|tauto].
  - apply beqb_neq in E. rewrite IH. split; [intros H [X|X]; [congruence|tauto]|tauto].
Qed.
Lemma encode_same t v : EncodeT t v = None <-> snd (Encode v) = None.
Proof. unfold EncodeT. destruct (snd (Encode v)) as [[]|]; split; try discriminate; reflexivity. Qed.
Lemma piece_text : exists payload length, DecodeMsgPieceT payload length = Bad (FPiece 4) /\ zlen payload = 4 /\
  fault_text (FPiece 4) = B "piece message must have 4 byte payload, got 4".
Proof. exists [x00; x00; x00; x00], 5. vm_compute. repeat split. Qed.
Lemma piece_fault p n f : 0 <= n < 4294967296 -> zlen p < 4294967296 -> (DecodeMsgPieceT p n = Bad f <-> (zlen p <> n /\ f = FPiece (zlen p)) \/ (zlen p = n /\ n < 8 /\ f = FPieceMin n)).
Proof.
  intros Hn Hp. unfold DecodeMsgPieceT. assert (Hu : u32 (zlen p) = zlen p) by (unfold u32; apply Z.mod_small; unfold zlen in *; lia). rewrite Hu.
  destruct (Z.eqb_spec (zlen p) n) as [E|E]; cbn [negb].
  - destruct (Z.ltb_spec (zlen p) 8) as [E'|E'].
    + split; [intros [= <-]; right; rewrite E; repeat split; lia|]. intros [[X _]|(_ & _ & ->)]; [congruence|rewrite E; reflexivity].
    + split; [|intros [[X _]|(_ & X & _)]; [congruence|lia]]. intros X. exfalso. revert X.
      destruct (rd32 p); cbn [sure obind]; try discriminate. destruct (rd32 (skipn 4 p)); cbn [sure obind]; discriminate.
  - split; [intros [= <-]; auto|]. intros [[_ ->]|[X _]]; [reflexivity|congruence].
Qed.
Lemma cut_text : exists d m n, DecodeMsgT d = Bad (FCut m n) /\ m < n.
Proof. exists (mkslice [x00; x00; x00; x05; x04; x00; x00; x00] []), 5, 8. vm_compute. repeat split. Qed.
Lemma exists_text : exists p w i, pget (place (w_cwd w) p) (w_names w) = Some i /\ lookup_fp p w = Bad (FPath p).
Proof. exists (B "a"), (mkw [] [(place [] (B "a"), 0%nat)] [(B "x")] [] []), 0%nat. vm_compute. repeat split. Qed.
Lemma never_top d n a b c : slen d < 4294967296 -> DecodeMsgT d <> Bad (FPiece n) /\ DecodeMsgT d <> Bad (FPieceMin n) /\ DecodeMsgT d <> Bad (FBits n a b c).
Proof. intros H. repeat split; intros X; apply (frames_top d _ H) in X; exact X. Qed.
