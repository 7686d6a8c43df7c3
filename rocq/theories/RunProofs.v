(** RunProofs.v: proofs about a running swarm. *)
From Coq Require Import ZifyBool ZifyNat ZifyN.
From Verif Require Import Base BitfieldModel BitfieldSpec BitfieldProofs WireModel WireSpec WireProofs HandshakeModel HandshakeSpec HandshakeProofs PathModel PathSpec LayoutModel LayoutSpec LayoutProofs PieceMapProofs
  DsModel DsSpec DsProofs PptModel PptProofs PptSpec FsModel FsSpec FsProofs OcatProofs SwarmModel SwarmProofs PeerModel SessionModel SessionSpec SessionProofs RunModel RunSpec.

(** ** The tracker, when there may be no room *)
Lemma pinv_room size R t : pinv size R t -> (forall k i, R k i -> 0 <= i < size) -> room R.
Proof.
  intros Hi Hin i ks Hn Hk. destruct ks as [|k0 ks]; [cbn; lia|].
  destruct (PptProofs.pget _ _ _ i Hi (Hin k0 i (Hk k0 (or_introl eq_refl)))) as (D & abs & p & Hs & Hz & Hp & Ep & En & Ed & Hh).
  pose proof (Hin k0 i (Hk k0 (or_introl eq_refl))) as Hr.
  pose proof (count_lt64 _ _ _ _ _ _ Hs Hh) as Hc. destruct Hh as (P1 & P2 & P3 & P4 & P5). rewrite Z2Nat.id in P4 by lia.
  assert (List.length (k0 :: ks) <= List.length (map fst (p_peers p)))%nat by (apply NoDup_incl_length; [exact Hn|]; intros k Hx; apply P4, Hk; exact Hx).
  rewrite map_length in H. unfold zlen. lia.
Qed.

Lemma register_cases size R t w i : pinv size R t -> (forall k j, R k j -> 0 <= j < size) -> 0 <= i < size ->
  (exists t', register t w i = Ok t' /\ pinv size (plus R w i) t') \/
  (register t w i = Panic /\ ~ R (h_key w) i /\ exists ks, NoDup ks /\ zlen ks = 63 /\ forall k, In k ks <-> R k i).
Proof.
  intros Hi Hin Hr. destruct (PptProofs.pget _ _ _ _ Hi Hr) as (D & abs & p & Hs & Hz & Hp & Ep & En & Ed & Hh).
  pose proof (count_lt64 _ _ _ _ _ _ Hs Hh) as Hc. pose proof Hh as (P1 & P2 & P3 & P4 & P5). rewrite Z2Nat.id in P4 by lia.
  destruct (Has h_key (p_peers p) w) eqn:E.
  { left. exists t. unfold register. rewrite En, Ed. cbn [bind]. rewrite E. cbn [negb]. split; [reflexivity|]. apply Has_in in E. apply (pinv_ext size R); [|exact Hi].
    intros k j. unfold plus. split; [auto|]. intros [[-> ->]|H]; [now apply P4|exact H]. }
  assert (Hnot : ~ R (h_key w) i). { intros H. apply P4 in H. assert (Has h_key (p_peers p) w = true) by (apply Has_in; exact H). congruence. }
  destruct (Nat.eq_dec (List.length (p_peers p)) 63) as [H63|H63].
  - right. split; [|split; [exact Hnot|]].
    + eapply register_full; [exact Hi|exact Hr|exact Hnot|]. intros ks Hn Hk.
      assert (Hl : List.length ks = List.length (map fst (p_peers p))).
      { apply Nat.le_antisymm; apply NoDup_incl_length; auto; [| apply P3 |]; intros k Hx; [apply P4, Hk|apply Hk, P4]; exact Hx. }
      rewrite map_length in Hl. unfold zlen. lia.
    + exists (map fst (p_peers p)). split; [apply P3|]. split; [unfold zlen; rewrite map_length; lia|exact P4].
  - left. apply register_step; [exact Hi|exact Hr|]. intros j ks Hn Hk. destruct (Z.eq_dec j i) as [->|Hne].
    + assert (List.length ks <= List.length (h_key w :: map fst (p_peers p)))%nat.
      { apply NoDup_incl_length; [exact Hn|]. intros k Hx. destruct (Hk k Hx) as [[-> _]|H]; [left; reflexivity|right; now apply P4]. }
      cbn [List.length] in H. rewrite map_length in H. unfold zlen. lia.
    + apply (pinv_room size R t Hi Hin j ks Hn). intros k Hx. destruct (Hk k Hx) as [[_ H]|H]; [contradiction|exact H].
Qed.

Lemma registerbf_cases size w bf : size < 4294967296 -> forall n lo R t, pinv size R t -> (forall k j, R k j -> 0 <= j < size) -> 0 <= lo -> lo + Z.of_nat n <= size -> lo + Z.of_nat n <= 8 * zlen (Data bf) ->
  (exists t', registerbf_loop t w bf n lo = Ok t' /\ pinv size (plusbf R w bf lo (lo + Z.of_nat n)) t') \/
  (registerbf_loop t w bf n lo = Panic /\ exists i ks, lo <= i < lo + Z.of_nat n /\ Get bf i = Ok true /\ ~ R (h_key w) i /\ NoDup ks /\ zlen ks = 63 /\ forall k, In k ks <-> R k i).
Proof.
  intros Hsz. induction n as [|n IH]; intros lo R t Hi Hin Hlo Hb Hd; cbn [registerbf_loop].
  - left. exists t. split; [reflexivity|]. apply (pinv_ext size R); [|exact Hi]. intros k j. unfold plusbf. split; [auto|]. intros [(_ & H & _)|H]; [lia|exact H].
  - destruct (Get_dec bf lo ltac:(lia)) as [b Eb]. rewrite Eb. cbn [bind].
    assert (Hstep : (exists t1, (if b then register t w (u32 lo) else Ok t) = Ok t1 /\ pinv size (plusbf R w bf lo (lo + 1)) t1) \/
      ((if b then register t w (u32 lo) else Ok t) = Panic /\ b = true /\ ~ R (h_key w) lo /\ exists ks, NoDup ks /\ zlen ks = 63 /\ forall k, In k ks <-> R k lo)).
    { destruct b.
      - unfold u32. rewrite Z.mod_small by lia. destruct (register_cases size R t w lo Hi Hin ltac:(lia)) as [(t1 & E & Hi1)|(E & H1 & H2)]; [left|right; auto].
        exists t1. split; [exact E|]. refine (pinv_ext _ _ _ _ _ Hi1). intros k j. unfold plus, plusbf. split; (intros [H|H]; [left|auto]).
        + destruct H as [-> ->]. split; [reflexivity|]. split; [lia|exact Eb].
        + destruct H as (<- & H & _). split; [reflexivity|lia].
      - left. exists t. split; [reflexivity|]. refine (pinv_ext _ _ _ _ _ Hi). intros k j. unfold plusbf. split; [auto|]. intros [(_ & H & G)|H]; [|exact H].
        replace j with lo in G by lia. congruence. }
    destruct Hstep as [(t1 & -> & Hi1)|(-> & -> & Hn & ks & K1 & K2 & K3)]; cbn [bind].
    + assert (Hin1 : forall k j, plusbf R w bf lo (lo + 1) k j -> 0 <= j < size) by (intros k j [(_ & H & _)|H]; [lia|eauto]).
      destruct (IH (lo + 1) _ t1 Hi1 Hin1 ltac:(lia) ltac:(lia) ltac:(lia)) as [(t2 & E & Hi2)|(E & i & ks & Hr & G & Hnr & K1 & K2 & K3)].
      * left. exists t2. split; [exact E|]. refine (pinv_ext _ _ _ _ _ Hi2). intros k j. unfold plusbf. split.
        -- intros [(A & C & D)|[(A & C & D)|H]]; [left|left|right; exact H]; (split; [exact A|]); (split; [lia|exact D]).
        -- intros [(A & C & D)|H]; [|auto]. destruct (Z.eq_dec j lo); [right; left|left]; (split; [exact A|]); (split; [lia|exact D]).
      * right. split; [exact E|]. exists i, ks. split; [lia|]. split; [exact G|]. split; [intros H; apply Hnr; right; exact H|]. split; [exact K1|]. split; [exact K2|].
        intros k. rewrite K3. unfold plusbf. split; [|auto]. intros [(_ & H & _)|H]; [lia|exact H].
    + right. split; [reflexivity|]. exists lo, ks. split; [lia|]. auto.
Qed.

(** A bitfield message of the right size, in any state of the tracker: registered, or it is the 64th somewhere. *)
Lemma handle_bf_cases size own w old bf R t : 0 <= size < 4294967296 -> pinv size R t -> (forall k j, R k j -> 0 <= j < size) -> Nbytes own = bytes_for size ->
  Nbytes bf = zlen (Data bf) ->
  (Nbytes bf <> bytes_for size /\ handleBitfield t own size w old bf = (Err EInvalid, t, old)) \/
  (Nbytes bf = bytes_for size /\ exists t' bf', handleBitfield t own size w old bf = (Ok tt, t', bf') /\ Nbits bf' = size /\ Data bf' = Data bf /\
     pinv size (fun k i => (h_key w = k /\ tells size (MBitfield bf) i) \/ R k i) t') \/
  (Nbytes bf = bytes_for size /\ (exists bf', handleBitfield t own size w old bf = (Panic, t, bf')) /\
     exists i ks, tells size (MBitfield bf) i /\ ~ R (h_key w) i /\ NoDup ks /\ zlen ks = 63 /\ forall k, In k ks <-> R k i).
Proof.
  intros Hsz Hi Hin Ho Hb. destruct (Z.eq_dec (Nbytes bf) (bytes_for size)) as [He|He].
  2:{ left. split; [exact He|]. apply handle_bf_bad. congruence. }
  right. destruct (SetNbits_keeps bf size Hb He (proj1 Hsz)) as (bf' & Hn & Hnb & Hd).
  assert (HL : size <= 8 * zlen (Data bf')). { rewrite Hd, <- Hb, He. unfold bytes_for. Z.div_mod_to_equations. lia. }
  assert (HX : forall i, 0 <= i < size -> (Get bf' i = Ok true <-> tells size (MBitfield bf) i)).
  { intros i Hr. rewrite Get_bit by lia. rewrite Hd. split.
    - intros H. exists bf. split; [reflexivity|]. split; [exact He|]. split; [exact Hr|]. congruence.
    - intros (bf0 & E & _ & _ & H). injection E as <-. congruence. }
  unfold handleBitfield. rewrite Ho, He, Z.eqb_refl. cbn [negb]. rewrite Hn. unfold RegisterBF. rewrite Hnb.
  destruct (registerbf_cases size w bf' (proj2 Hsz) (Z.to_nat size) 0 R t Hi Hin ltac:(lia) ltac:(lia) ltac:(lia)) as [(t' & -> & Hi')|(-> & i & ks & Hr & G & Hnr & K)].
  - left. split; [reflexivity|]. exists t', bf'. split; [reflexivity|]. split; [exact Hnb|]. split; [exact Hd|]. refine (pinv_ext _ _ _ _ _ Hi').
    intros k i. unfold plusbf. split; (intros [H|H]; [left|auto]).
    + destruct H as (A & C & D). split; [exact A|]. apply HX; [lia|exact D].
    + destruct H as (A & C). split; [exact A|]. pose proof C as (bf0 & _ & _ & Hr & _). split; [lia|]. now apply HX.
  - right. split; [reflexivity|]. split; [eauto|]. exists i, ks. split; [apply HX; [lia|exact G]|]. split; [exact Hnr|exact K].
Qed.

(** ** Requests *)
Lemma own_cases own idx : 0 <= idx ->
  ((if Complete own then Ok true else Get own idx) = Panic /\ Complete own = false /\ 8 * zlen (Data own) <= idx) \/
  ((if Complete own then Ok true else Get own idx) = Ok false /\ haveb own idx = false /\ ~ have own idx /\ idx < 8 * zlen (Data own)) \/
  ((if Complete own then Ok true else Get own idx) = Ok true /\ haveb own idx = true /\ have own idx /\ ~ (Complete own = false /\ 8 * zlen (Data own) <= idx)).
Proof.
  intros H0. unfold haveb, have. destruct (Complete own) eqn:Ec; [right; right; cbn [orb]; intuition discriminate|]. cbn [orb].
  destruct (Z_lt_dec idx (8 * zlen (Data own))) as [Hlt|Hge].
  - destruct (Get_dec own idx ltac:(lia)) as [g Eg]. rewrite Eg. destruct g; [right; right|right; left]; repeat split; auto; try lia. intros [H|H]; congruence.
  - left. split; [|split; [reflexivity|lia]]. unfold Get, Data in *. replace (idx <? 0) with false by lia.
    replace (nth_error (bdat own) (Z.to_nat (idx / 8))) with (@None byte); [reflexivity|]. symmetry. apply nth_error_None. unfold zlen in Hge. Z.div_mod_to_equations. lia.
Qed.

Lemma request_cases P hashes files ti own idx b l buf w contents : made P hashes files ti -> opened w ti contents ->
  zlen (vis buf) = P -> spare buf = [] -> P < 4294967283 -> is_u32 idx -> is_u32 b -> is_u32 l ->
  let n := zlen hashes / 20 in let m := MRequest idx b l in
  exists r buf' w', handleRequest ti own idx b l buf w = (r, buf', w') /\ zlen (vis buf') = P /\ spare buf' = [] /\ disk_same w w' /\
    ((r = Panic /\ deadly_request P n own m) \/
     (r = Ok [] /\ haveb own idx = false /\ ~ deadly_request P n own m /\ w' = w) \/
     (exists blk, r = Ok [wire_of (MPiece idx b blk)] /\ zlen blk = l /\ haveb own idx = true /\ ~ deadly_request P n own m /\ (no_faults w -> w' = w) /\
        genuine P (zsum (lens_of files)) n contents own (MPiece idx b blk)) \/
     (exists e, r = Err e /\ (no_faults w -> ~ deadly_request P n own m /\ w' = w))).
Proof.
  intros Hm [inos Ho] Hb Hs HP32 Hi Hrb Hrl n m. unfold is_u32 in *. destruct (made_facts _ _ _ _ Hm) as (HP & HT & _).
  assert (HD : deadly_request P n own m <-> (Complete own = false /\ 8 * zlen (Data own) <= idx) \/ (have own idx /\ idx < n /\ P < b + l)).
  { split; [intros (i0 & b0 & l0 & E & H); unfold m in E; injection E as <- <- <-; exact H|intros H; exists idx, b, l; split; [reflexivity|exact H]]. }
  unfold handleRequest. destruct (own_cases own idx ltac:(lia)) as [(-> & H1 & H2)|[(-> & H1 & H2 & H3)|(-> & Hhb & Hhave & Hx)]].
  { exists Panic, buf, w. split; [reflexivity|]. repeat (split; [assumption || apply disk_same_refl|]). left. split; [reflexivity|]. apply HD. auto. }
  { eexists _, buf, w. split; [reflexivity|]. repeat (split; [assumption || apply disk_same_refl|]). right. left. split; [reflexivity|]. split; [exact H1|]. split; [|reflexivity].
    rewrite HD. intros [[_ H]|[H _]]; [lia|contradiction]. }
  destruct (ReadPiece_spec P hashes files ti idx buf w inos contents Hm Ho) as [Hout Hin]. fold n in Hout, Hin.
  destruct (Z_lt_dec idx n) as [Hlt|Hge].
  2:{ rewrite Hout by lia. eexists _, buf, w. split; [reflexivity|]. repeat (split; [assumption || apply disk_same_refl|]). right. right. right. eexists. split; [reflexivity|].
      intros _. split; [|reflexivity]. rewrite HD. intros [H|(_ & H & _)]; [contradiction|lia]. }
  destruct (Hin ltac:(lia)) as (r & buf' & w' & E & Hds & Hcap & Hvz & Hr). rewrite E.
  destruct (opened_total _ _ _ _ _ _ _ Hm Ho) as [_ Hz].
  assert (Hpl : zlen (piece_bytes P contents idx) = psize P (zsum (lens_of files)) idx) by (rewrite zlen_piece_bytes by lia; now rewrite Hz).
  pose proof (psize_le P (zsum (lens_of files)) idx ltac:(lia)) as Hple.
  assert (Hsp : spare buf' = []).
  { unfold scap in Hcap. rewrite Hs in Hcap. change (zlen (@nil byte)) with 0 in Hcap. destruct (spare buf') as [|x q]; [reflexivity|]. rewrite zlen_cons in Hcap. pose proof (zlen_nonneg q). lia. }
  assert (HvP : zlen (vis buf') = P) by lia.
  destruct Hr as [(-> & Eb & _ & Hw)|[[[er ->] Hnf]|[_ Hx']]].
  3:{ unfold scap in Hx'. rewrite Hs in Hx'. change (zlen (@nil byte)) with 0 in Hx'. lia. }
  2:{ eexists _, buf', w'. split; [reflexivity|]. repeat (split; [assumption|]). right. right. right. exists er. split; [reflexivity|]. intros H. contradiction. }
  destruct (splice_vis buf (piece_bytes P contents idx)) as [Hv _]; [lia|assumption|]. rewrite <- Eb in Hv.
  unfold sslice, scap. rewrite Hsp. change (zlen (@nil byte)) with 0. rewrite Z.add_0_r, HvP.
  assert (Hu : b <= u32 (b + l) -> u32 (b + l) = b + l).
  { unfold u32 in *. intros Hle. apply Z.mod_small. destruct (Z_lt_dec (b + l) 4294967296); [lia|]. exfalso.
    assert ((b + l) mod 4294967296 = b + l - 4294967296) by (symmetry; apply Z.mod_unique with (q := 1); lia). lia. }
  destruct ((0 <=? b) && (b <=? u32 (b + l)) && (u32 (b + l) <=? P)) eqn:C.
  2:{ eexists _, buf', w'. split; [reflexivity|]. repeat (split; [assumption|]). left. split; [reflexivity|]. apply HD. right. split; [exact Hhave|]. split; [exact Hlt|].
      destruct (Z_lt_dec P (b + l)); [assumption|]. exfalso. unfold u32 in *. rewrite Z.mod_small in C by lia. lia. }
  specialize (Hu ltac:(lia)).
  eexists _, buf', w'. split; [reflexivity|]. repeat (split; [assumption|]). right. right. left. cbn [vis].
  rewrite Hu in *. rewrite app_nil_r. set (blk := sub _ _ _).
  assert (Hbl : zlen blk = l) by (unfold blk, zlen in *; rewrite sub_length; lia).
  exists blk. split; [f_equal; f_equal; apply Encode_piece; lia|]. split; [exact Hbl|]. split; [exact Hhb|].
  split; [rewrite HD; intros [H|(_ & _ & H)]; [contradiction|lia]|]. split; [exact Hw|].
  exists idx, b, blk. split; [reflexivity|]. split; [lia|]. split; [exact Hhave|]. split; [lia|]. split; [lia|].
  intros Hin'. unfold block. rewrite Hbl in *. rewrite <- piece_range by lia. unfold blk. rewrite Hv. unfold range, sub. rewrite skipn_app, firstn_app.
  replace (Z.to_nat (b + l - b) - _)%nat with 0%nat by (rewrite skipn_length; unfold zlen in Hpl; lia). rewrite firstn_O, app_nil_r. reflexivity.
Qed.

(** ** Announcements *)
Lemma In_lupd {A} (l : list A) k x y : In y (lupd l k x) -> y = x \/ In y l.
Proof.
  revert k. induction l as [|z l IH]; intros k H; [destruct k; contradiction|]. destruct k; cbn [lupd In] in H |- *.
  - destruct H as [<-|H]; auto.
  - destruct H as [<-|H]; [auto|]. destruct (IH _ H) as [->|H']; auto.
Qed.
Lemma In_lupd_other {A} (l : list A) k x y : In y l -> nth_error l k <> Some y -> In y (lupd l k x).
Proof.
  revert k. induction l as [|z l IH]; intros k H Hn; [contradiction|]. destruct k; cbn [lupd In nth_error] in *.
  - destruct H as [->|H]; [congruence|auto].
  - destruct H as [->|H]; [auto|]. right. apply IH; assumption.
Qed.
Lemma In_lupd_self {A} (l : list A) k x y : nth_error l k = Some y -> In x (lupd l k x).
Proof. revert k. induction l as [|z l IH]; intros [|k] H; cbn [nth_error lupd In] in *; try discriminate; [auto|]. right. eauto. Qed.
Lemma Forall_lupd {A} (F : A -> Prop) l k x : Forall F l -> F x -> Forall F (lupd l k x).
Proof. intros H Hx. apply Forall_forall. intros y Hy. destruct (In_lupd _ _ _ _ Hy) as [->|Hy']; [exact Hx|]. rewrite Forall_forall in H. auto. Qed.
Lemma nth_error_Forall {A} (F : A -> Prop) l k x : Forall F l -> nth_error l k = Some x -> F x.
Proof. intros H E. rewrite Forall_forall in H. apply H. eapply nth_error_In. exact E. Qed.

Lemma told_lupd n conns k x x' add : nth_error conns k = Some x -> k_who x' = k_who x -> k_done x' = k_done x ++ add -> forall key i,
  told n (lupd conns k x') key i <-> (h_key (k_who x) = key /\ exists m, In m add /\ tells n m i) \/ told n conns key i.
Proof.
  intros E Hw Hd key i. split.
  - intros (y & m & Hy & Hk & Hm & Ht). destruct (In_lupd _ _ _ _ Hy) as [->|Hy'].
    + rewrite Hd in Hm. apply in_app_or in Hm. rewrite Hw in Hk. destruct Hm as [Hm|Hm]; [right; exists x, m; split; [eapply nth_error_In; exact E|auto]|left; eauto].
    + right. exists y, m. auto.
  - intros [(Hk & m & Hm & Ht)|(y & m & Hy & Hk & Hm & Ht)].
    + exists x', m. split; [eapply In_lupd_self; exact E|]. rewrite Hw, Hd. split; [exact Hk|]. split; [apply in_or_app; auto|exact Ht].
    + apply In_nth_error in Hy. destruct Hy as [j Hj]. destruct (Nat.eq_dec j k) as [->|Hne].
      * assert (y = x) by congruence. subst y. exists x', m. split; [eapply In_lupd_self; exact E|]. rewrite Hw, Hd. split; [exact Hk|]. split; [apply in_or_app; auto|exact Ht].
      * exists y, m. split; [|auto]. apply nth_error_In with (n := j). rewrite nth_error_lupd. replace (Nat.eqb j k) with false by lia. exact Hj.
Qed.
Lemma told_add n conns x : k_done x = [] -> forall key i, told n (conns ++ [x]) key i <-> told n conns key i.
Proof.
  intros Hd key i. split; intros (y & m & Hy & Hk & Hm & Ht).
  - apply in_app_or in Hy. destruct Hy as [Hy|[<-|[]]]; [exists y, m; auto|]. rewrite Hd in Hm. contradiction.
  - exists y, m. split; [apply in_or_app; auto|auto].
Qed.
Lemma told_inside n conns key i : told n conns key i -> 0 <= i < n.
Proof. intros (_ & _ & _ & _ & _ & bf & _ & _ & H & _). exact H. Qed.
Lemma tells_not n m : (forall bf, m <> MBitfield bf) -> forall i, ~ tells n m i.
Proof. intros H i (bf & E & _). exact (H bf E). Qed.

(** ** What is sent *)
Lemma stream_app a b : stream (a ++ b) = stream a ++ stream b.
Proof. apply flat_map_app. Qed.
Lemma begins_app a b c : begins a b -> begins a (b ++ c).
Proof. intros [q ->]. exists (q ++ c). now rewrite app_assoc. Qed.
Lemma begins_refl a : begins a a.
Proof. exists []. now rewrite app_nil_r. Qed.
Lemma begins_first a n b : begins (a ++ firstn n b) (a ++ b).
Proof. exists (skipn n b). now rewrite <- app_assoc, firstn_skipn. Qed.

Section Swarm.
Context (P : Z) (hashes : bytes) (files : list ebase) (c : sconst) (contents : list bytes) (w0 : world).
Hypothesis (Hm : made P hashes files (sc_ti c)) (HP : P < 4294967283).
Let T := zsum (lens_of files).
Let n := zlen hashes / 20.
Hypothesis (Hn32 : n < 4294967296) (Hown : Nbytes (sc_own c) = bytes_for n) (Hbf : msg_ok (MBitfield (sc_own c))) (Ho : opened w0 (sc_ti c) contents).
Let law := lawful P T n contents (sc_own c) (sc_ih c) (sc_id c).
Let good := genuine_or_alive P T n contents (sc_own c).

Lemma law_same x y : law x -> k_in y = k_in x -> k_out y = k_out x -> k_up y = k_up x -> k_pend y = k_pend x -> k_done y = k_done x ->
  (k_recv y = true -> k_recv x = true) -> law y.
Proof.
  intros (ms & ps & reqs & late & H1 & H2 & H3 & H4 & H5 & H6 & H7) E1 E2 E3 E4 E5 E6. exists ms, ps, reqs, late. unfold opening in *. rewrite E1, E2, E3, E4, E5. repeat split; auto.
Qed.

Lemma law_handle x y m out : law x -> k_pend x = [] -> k_recv x = true -> k_in y = k_in x -> k_out y = k_out x -> k_up y = k_up x -> k_done y = k_done x ++ [m] -> k_pend y = out ->
  (out = [] /\ asked (sc_own c) m = false) \/ (out = [] /\ k_recv y = false) \/
  (exists p, out = [wire_of p] /\ good p /\ is_piece p = true /\ asked (sc_own c) m = true /\ answers m p) -> law y.
Proof.
  intros (ms & ps & reqs & late & H1 & H2 & H3 & H4 & H5 & H6 & H7) Ep Er E1 E2 E3 E4 E5 Hc. rewrite Ep in H4. destruct ps; [|discriminate]. rewrite app_nil_r in *.
  specialize (H7 Er). subst late. rewrite app_nil_r in H5.
  assert (Hd : filter (asked (sc_own c)) (k_done y) = reqs ++ (if asked (sc_own c) m then [m] else [])) by (rewrite E4, filter_app, H5; reflexivity).
  unfold law, lawful, opening in *. rewrite E1, E2, E3, E5. destruct Hc as [[-> Ha]|[[-> Hr]|(p & -> & Hg & Hp & Ha & Hans)]].
  - exists ms, [], reqs, []. rewrite !app_nil_r. rewrite Ha, app_nil_r in Hd. repeat split; auto.
  - exists ms, [], reqs, (if asked (sc_own c) m then [m] else []). rewrite !app_nil_r. repeat split; auto. congruence.
  - exists ms, [p], (reqs ++ [m]), []. rewrite Ha in Hd. rewrite app_nil_r. split; [apply Forall_app; auto|]. repeat (split; [assumption || reflexivity|]). split; [|auto].
    rewrite filter_app. cbn [filter]. rewrite Hp. apply Forall2_app; auto.
Qed.

Lemma law_write x y f r : law x -> k_pend x = f :: r -> k_up x = true -> k_in y = k_in x -> k_out y = k_out x ++ f -> k_up y = true -> k_pend y = r -> k_done y = k_done x ->
  k_recv y = k_recv x -> law y.
Proof.
  intros (ms & ps & reqs & late & H1 & H2 & H3 & H4 & H5 & H6 & H7) Ep Eu E1 E2 E3 E4 E5 E6. rewrite Ep in H4. destruct ps as [|p ps]; [discriminate|]. cbn [map] in H4. injection H4 as -> ->.
  specialize (H3 Eu). unfold law, lawful, opening in *. rewrite E1, E2, E4, E5, E6. exists (ms ++ [p]), ps, reqs, late.
  assert (Hs : k_out x ++ wire_of p = MakeHandshake (sc_ih c) (sc_id c) ++ stream ((if k_in x then [MBitfield (sc_own c); MUnchoke] else [MUnchoke]) ++ ms ++ [p])).
  { rewrite H3, app_assoc, !stream_app, <- !app_assoc. cbn [stream flat_map]. now rewrite app_nil_r. }
  rewrite <- !app_assoc. cbn [app]. split; [exact H1|]. split; [rewrite Hs; apply begins_refl|]. split; [intros _; exact Hs|]. auto.
Qed.

Lemma law_fail x y f r k : law x -> k_pend x = f :: r -> k_in y = k_in x -> k_out y = (k_out x ++ if k_up x then firstn k f else []) -> k_up y = false -> k_pend y = [] ->
  k_done y = k_done x -> k_recv y = false -> law y.
Proof.
  intros (ms & ps & reqs & late & H1 & H2 & H3 & H4 & H5 & H6 & H7) Ep E1 E2 E3 E4 E5 E6. rewrite Ep in H4. destruct ps as [|p ps]; [discriminate|]. cbn [map] in H4. injection H4 as -> ->.
  unfold law, lawful, opening in *. rewrite E1, E2, E3, E4, E5, E6.
  replace (ms ++ p :: ps) with ((ms ++ [p]) ++ ps) in H1, H6 by (rewrite <- app_assoc; reflexivity). rewrite filter_app in H6.
  apply Forall2_app_inv_r in H6. destruct H6 as (r1 & r2 & F1 & F2 & ->).
  exists (ms ++ [p]), [], r1, (r2 ++ late). rewrite app_nil_r. apply Forall_app in H1. split; [apply H1|]. split.
  - rewrite app_assoc, stream_app. cbn [stream flat_map]. rewrite app_nil_r, app_assoc. destruct (k_up x) eqn:Eu.
    + rewrite (H3 eq_refl) at 1. apply begins_first.
    + rewrite app_nil_r. apply begins_app. exact H2.
  - split; [discriminate|]. split; [reflexivity|]. split; [rewrite H5; now rewrite app_assoc|]. split; [exact F1|discriminate].
Qed.

Lemma law_ping x y k : law x -> k_in y = k_in x -> k_out y = (k_out x ++ if k_up x then (if k_up y then keepalive else firstn k keepalive) else []) -> (k_up y = true -> k_up x = true) -> k_pend y = k_pend x ->
  k_done y = k_done x -> k_recv y = k_recv x -> law y.
Proof.
  intros (ms & ps & reqs & late & H1 & H2 & H3 & H4 & H5 & H6 & H7) E1 E2 E3 E4 E5 E6. unfold law, lawful, opening in *. rewrite E1, E2, E4, E5, E6.
  exists (ms ++ [MKeepAlive]), ps, reqs, late. apply Forall_app in H1. destruct H1 as [H1 H1'].
  assert (Hs : MakeHandshake (sc_ih c) (sc_id c) ++ stream ((if k_in x then [MBitfield (sc_own c); MUnchoke] else [MUnchoke]) ++ ms ++ [MKeepAlive]) =
               (MakeHandshake (sc_ih c) (sc_id c) ++ stream ((if k_in x then [MBitfield (sc_own c); MUnchoke] else [MUnchoke]) ++ ms)) ++ keepalive).
  { rewrite (app_assoc _ ms), (stream_app (_ ++ ms)), app_assoc. reflexivity. }
  split; [apply Forall_app; split; [apply Forall_app; split; [exact H1|repeat constructor]|exact H1']|]. rewrite Hs. split.
  - destruct (k_up x) eqn:Eu; [|rewrite app_nil_r; apply begins_app; exact H2]. rewrite (H3 eq_refl) at 1. destruct (k_up y); [apply begins_refl|apply begins_first].
  - split; [intros Hy; rewrite Hy, (E3 Hy); rewrite (H3 (E3 Hy)) at 1; reflexivity|]. repeat (split; [assumption|]). split; [|assumption]. rewrite !filter_app in *. cbn [filter is_piece]. now rewrite app_nil_r.
Qed.

Lemma law_new x first : k_done x = [] -> k_pend x = [] -> (k_in x = true -> first = MakeHandshake (sc_ih c) (sc_id c) ++ EncodeMsg (MBitfield (sc_own c))) ->
  (k_in x = false -> first = MakeHandshake (sc_ih c) (sc_id c)) ->
  (k_up x = true /\ k_out x = first ++ EncodeMsg MUnchoke) \/ (k_up x = false /\ exists k, k_out x = first ++ firstn k (EncodeMsg MUnchoke)) -> law x.
Proof.
  intros E1 E2 E3 E4 E5. assert (Hs : MakeHandshake (sc_ih c) (sc_id c) ++ stream (opening (sc_own c) x ++ []) = first ++ EncodeMsg MUnchoke).
  { unfold opening. rewrite app_nil_r. destruct (k_in x); [rewrite E3 by reflexivity|rewrite E4 by reflexivity]; cbn [stream flat_map].
    - rewrite (Encode_wire (MBitfield (sc_own c))) by (exact I || exact Hbf). rewrite (Encode_wire MUnchoke) by exact I. now rewrite <- !app_assoc, app_nil_r.
    - rewrite (Encode_wire MUnchoke) by exact I. now rewrite app_nil_r. }
  exists [], [], [], []. rewrite Hs, E1, E2. split; [constructor|]. split.
  { destruct E5 as [[_ E]|[_ [k E]]]; rewrite E; [apply begins_refl|apply begins_first]. }
  split; [intros Hu; destruct E5 as [[_ E]|[Hf _]]; congruence|]. repeat split; auto. constructor.
Qed.

(** ** The invariant *)
Definition conn_ok (x : conn) : Prop := zlen (vis (k_buf x)) = P /\ spare (k_buf x) = [] /\ Forall msg_ok (k_todo x) /\ law x.
Definition sinv (s : sstate) : Prop :=
  pinv n (told n (ss_conns s)) (ss_ppt s) /\ disk_same w0 (ss_world s) /\ (no_faults w0 -> ss_world s = w0) /\ Forall conn_ok (ss_conns s).
Let own := sc_own c.

Lemma n_pos : 0 <= n.
Proof. destruct (made_facts _ _ _ _ Hm) as (_ & _ & _ & _ & _ & _ & _ & _ & HN0 & _). exact HN0. Qed.
Lemma np_n : ti_npieces (sc_ti c) = n.
Proof. destruct (made_facts _ _ _ _ Hm) as (_ & _ & H & _). exact H. Qed.

Lemma sinv_put s k x x' : sinv s -> nth_error (ss_conns s) k = Some x -> k_who x' = k_who x -> k_done x' = k_done x -> conn_ok x' -> sinv (put_conn s k x').
Proof.
  intros (A1 & A2 & A3 & A4) E Hw Hd Hx. split; [|split; [exact A2|split; [exact A3|apply Forall_lupd; assumption]]]. cbn [put_conn ss_conns ss_ppt].
  refine (pinv_ext _ _ _ _ _ A1). intros key i. rewrite (told_lupd n _ k x x' [] E Hw); [|now rewrite Hd, app_nil_r]. split; [auto|]. intros [(_ & m & [] & _)|H]. exact H.
Qed.

Lemma sinv_add s r : sinv s -> (exists x, r = Ok x /\ k_done x = [] /\ conn_ok x) -> exists s', add_conn s r = Went s' /\ sinv s'.
Proof.
  intros (A1 & A2 & A3 & A4) (x & -> & Hd & Hx). eexists. split; [reflexivity|]. split; [|split; [exact A2|split; [exact A3|apply Forall_app; split; [exact A4|constructor; auto]]]].
  refine (pinv_ext _ _ _ _ _ A1). intros key i. symmetry. apply told_add. exact Hd.
Qed.

Lemma new_conn_ok inc ptr key sent u : (inc = true -> sent = MakeHandshake (sc_ih c) (sc_id c) ++ EncodeMsg (MBitfield own)) ->
  (inc = false -> sent = MakeHandshake (sc_ih c) (sc_id c)) -> exists x, new_conn c inc ptr key sent u = Ok x /\ k_done x = [] /\ conn_ok x.
Proof.
  intros H1 H2. unfold new_conn. rewrite np_n. destruct (NewBitfield_inv n n_pos) as (b & -> & _). cbn [bind].
  destruct (made_facts _ _ _ _ Hm) as (HP1 & _ & _ & Hpl & _).
  assert (Hz : zlen (vis (mkslice (FsModel.zeros (ti_plen (sc_ti c))) [])) = P) by (cbn [vis]; rewrite Hpl; unfold FsModel.zeros, zlen; rewrite repeat_length; lia).
  destruct u as [k|]; eexists; (split; [reflexivity|]); (split; [reflexivity|]); (split; [exact Hz|]); (split; [reflexivity|]); (split; [constructor|]); apply (law_new _ sent); auto; cbn [k_up k_out]; eauto.
Qed.

Lemma accept_cases r wr : (List.length (rd_bytes r) <= 68)%nat -> (exists id, in_peer (FromIncoming (sc_ih c) (sc_id c) own r wr) = Ok id) \/ exists e, in_peer (FromIncoming (sc_ih c) (sc_id c) own r wr) = Err e.
Proof.
  intros HL. unfold FromIncoming. destruct (rd_err r); [right; eexists; reflexivity|]. rewrite copy_at_pad by assumption.
  destruct (Valid_total (pad68 (rd_bytes r)) [] (sc_ih c)) as [[|] E]; rewrite E; [|right; eexists; reflexivity].
  destruct (w_handshake wr); [|right; eexists; reflexivity]. destruct (w_bitfield wr); [|right; eexists; reflexivity]. left. cbn [negb in_peer].
  apply Valid_iff in E. destruct E as (rsv & id & H1 & H2 & H3 & E). exists id. rewrite E. unfold handshake_of. apply Id_f; (assumption || reflexivity).
Qed.

(** ** One message *)
Definition bad (s : sstate) (x : conn) (m : msg) : Prop := deadly_request P n own m \/ crowded n (ss_conns s) (h_key (k_who x)) m.

Lemma told_in s : forall k i, told n (ss_conns s) k i -> 0 <= i < n.
Proof. intros k i. apply told_inside. Qed.

Lemma sinv_handled s k x m x' t' w' : sinv s -> nth_error (ss_conns s) k = Some x -> k_who x' = k_who x -> k_done x' = k_done x ++ [m] -> conn_ok x' ->
  disk_same (ss_world s) w' -> (no_faults (ss_world s) -> w' = ss_world s) ->
  pinv n (fun key i => (h_key (k_who x) = key /\ tells n m i) \/ told n (ss_conns s) key i) t' -> sinv (mkss t' w' (lupd (ss_conns s) k x')).
Proof.
  intros (A1 & A2 & A3 & A4) E Hw Hd Hx Hs Hf Hp. split; [|split; [|split]]; cbn [ss_ppt ss_world ss_conns].
  - refine (pinv_ext _ _ _ _ _ Hp). intros key i. rewrite (told_lupd n _ k x x' [m] E Hw Hd). split; (intros [H|H]; [left|right; exact H]).
    + destruct H as [H1 H2]. split; [exact H1|]. exists m. split; [left; reflexivity|exact H2].
    + destruct H as [H1 (m' & [<-|[]] & H2)]. auto.
  - eapply disk_same_trans; eassumption.
  - intros H. rewrite Hf; [auto|]. rewrite (A3 H). exact H.
  - apply Forall_lupd; assumption.
Qed.

Lemma quiet_pinv s m (who : handler) : pinv n (told n (ss_conns s)) (ss_ppt s) -> (forall i, ~ tells n m i) ->
  pinv n (fun key i => (h_key who = key /\ tells n m i) \/ told n (ss_conns s) key i) (ss_ppt s).
Proof. intros H Hn. refine (pinv_ext _ _ _ _ _ H). intros key i. split; [auto|]. intros [[_ C]|C]; [exfalso; exact (Hn i C)|exact C]. Qed.

Lemma not_crowded s key m : (forall i, ~ tells n m i) -> ~ crowded n (ss_conns s) key m.
Proof. intros H (i & ks & Ht & _). exact (H i Ht). Qed.

Lemma handle_cases s k x m r : sinv s -> nth_error (ss_conns s) k = Some x -> k_todo x = m :: r -> k_pend x = [] -> k_recv x = true ->
  (handle_one c s k x m r = Died /\ bad s x m) \/ exists s', handle_one c s k x m r = Went s' /\ sinv s' /\ (no_faults (ss_world s) -> ~ bad s x m).
Proof.
  intros Hi E Et Ep Er. pose proof Hi as (A1 & A2 & A3 & A4). pose proof (nth_error_Forall _ _ _ _ A4 E) as (B1 & B2 & B3 & B4). rewrite Et in B3. inversion B3 as [|? ? Hmok Hr]; subst.
  assert (Hquiet : (forall i b l, m <> MRequest i b l) -> (forall bf, m <> MBitfield bf) ->
    handle_one c s k x m r = Went (mkss (ss_ppt s) (ss_world s) (lupd (ss_conns s) k (put_rx x (k_bf x) (k_buf x) r (k_done x ++ [m]) [] true))) /\
    sinv (mkss (ss_ppt s) (ss_world s) (lupd (ss_conns s) k (put_rx x (k_bf x) (k_buf x) r (k_done x ++ [m]) [] true))) /\ ~ bad s x m).
  { intros N1 N2. pose proof (tells_not n m N2) as Ht. split; [unfold handle_one, handle_msg; destruct m; try reflexivity; [exfalso; eapply N2|exfalso; eapply N1]; reflexivity|]. split.
    - apply (sinv_handled s k x m); auto; [|apply disk_same_refl|apply quiet_pinv; assumption].
      split; [exact B1|split; [exact B2|split; [exact Hr|]]]. apply (law_handle x _ m []); auto. left. split; [reflexivity|]. destruct m; try reflexivity. exfalso; eapply N1; reflexivity.
    - intros [(i & b & l & H & _)|H]; [eapply N1; exact H|]. revert H. apply not_crowded. exact Ht. }
  destruct m as [ | | | | |i|bf|i b l|i b blk]; try (right; eexists; destruct Hquiet as (Q1 & Q2 & Q3); [discriminate|discriminate|]; (split; [exact Q1|split; [exact Q2|auto]])); clear Hquiet.
  - unfold handle_one, handle_msg. cbn [hc_ti hc_own hc_whom hs_ppt hs_bf hs_buf hs_world]. fold own. rewrite np_n.
    destruct (handle_bf_cases n own (k_who x) (k_bf x) bf (told n (ss_conns s)) (ss_ppt s)) as [(H1 & ->)|[(H1 & t' & bf' & -> & H2 & H3 & H4)|(H1 & [bf' ->] & i & ks & H)]];
      [split; [apply n_pos|exact Hn32]|exact A1|apply told_in|exact Hown|apply Hmok|..]; cbn [hs_ppt hs_bf hs_buf hs_world].
    + assert (Ht : forall i, ~ tells n (MBitfield bf) i) by (intros i (bf0 & Eq & Hnb & _); injection Eq as <-; congruence).
      right. eexists. split; [reflexivity|]. split; [|intros _ [(i & b & l & Hx & _)|Hx]; [discriminate|revert Hx; apply not_crowded; exact Ht]].
      apply (sinv_handled s k x (MBitfield bf)); auto; [|apply disk_same_refl|apply quiet_pinv; assumption].
      split; [exact B1|split; [exact B2|split; [constructor|]]]. apply (law_handle x _ (MBitfield bf) []); auto.
    + right. eexists. split; [reflexivity|]. split.
      * apply (sinv_handled s k x (MBitfield bf)); auto; [|apply disk_same_refl]. split; [exact B1|split; [exact B2|split; [exact Hr|]]]. apply (law_handle x _ (MBitfield bf) []); auto.
      * intros _ [(i & b & l & Hx & _)|(i & ks & K1 & K2 & K3 & K4 & K5)]; [discriminate|].
        assert (Hin : forall key j, (h_key (k_who x) = key /\ tells n (MBitfield bf) j) \/ told n (ss_conns s) key j -> 0 <= j < n)
          by (intros key j [[_ (bf0 & _ & _ & Hj & _)]|Hj]; [exact Hj|exact (told_in s key j Hj)]).
        assert (Hlt : zlen (h_key (k_who x) :: ks) <= 63).
        { apply (pinv_room _ _ _ H4 Hin i).
          - constructor; [rewrite K5; exact K2|exact K3].
          - intros key [<-|Hk]; [left; auto|right; apply K5; exact Hk]. }
        rewrite zlen_cons in Hlt. lia.
    + left. split; [reflexivity|]. right. exists i, ks. exact H.
  - unfold handle_one, handle_msg. cbn [hc_ti hc_own hc_whom hs_ppt hs_bf hs_buf hs_world]. fold own. destruct Hmok as (M1 & M2 & M3).
    destruct (request_cases P hashes files (sc_ti c) own i b l (k_buf x) (ss_world s) contents Hm (opened_same _ _ _ _ A2 Ho) B1 B2 HP M1 M2 M3) as (res & buf' & w' & -> & C1 & C2 & C3 & C4).
    fold n in C4. fold T in C4.
    assert (Ht : forall j, ~ tells n (MRequest i b l) j) by (apply tells_not; discriminate).
    assert (HB : bad s x (MRequest i b l) -> deadly_request P n own (MRequest i b l)) by (intros [Hx|Hx]; [exact Hx|exfalso; revert Hx; apply not_crowded; exact Ht]).
    destruct C4 as [(-> & D)|[(-> & D1 & D2 & ->)|[(blk & -> & D1 & D2 & D3 & D4 & D5)|(e & -> & D)]]]; cbn [hs_ppt hs_bf hs_buf hs_world].
    + left. split; [reflexivity|]. left. exact D.
    + right. eexists. split; [reflexivity|]. split; [|auto]. apply (sinv_handled s k x (MRequest i b l)); auto; [|apply quiet_pinv; assumption].
      split; [exact C1|split; [exact C2|split; [exact Hr|]]]. apply (law_handle x _ (MRequest i b l) []); auto.
    + right. eexists. split; [reflexivity|]. split; [|auto]. apply (sinv_handled s k x (MRequest i b l)); auto; [|apply quiet_pinv; assumption].
      split; [exact C1|split; [exact C2|split; [exact Hr|]]]. apply (law_handle x _ (MRequest i b l) [wire_of (MPiece i b blk)]); auto. right. right.
      exists (MPiece i b blk). split; [reflexivity|]. split; [right; exact D5|]. split; [reflexivity|]. split; [exact D2|]. exists i, b, l, blk. auto.
    + right. eexists. split; [reflexivity|]. split; [|intros Hf; destruct (D Hf); auto]. apply (sinv_handled s k x (MRequest i b l)); auto; [|intros Hf; apply D; exact Hf|apply quiet_pinv; assumption].
      split; [exact C1|split; [exact C2|split; [constructor|]]]. apply (law_handle x _ (MRequest i b l) []); auto.
Qed.

(** ** One step *)
Lemma put_ok s k x x' : sinv s -> nth_error (ss_conns s) k = Some x -> k_who x' = k_who x -> k_done x' = k_done x -> zlen (vis (k_buf x')) = P -> spare (k_buf x') = [] -> Forall msg_ok (k_todo x') -> law x' ->
  sinv (put_conn s k x').
Proof. intros Hi E H1 H2 H3 H4 H5 H6. apply (sinv_put s k x); auto. split; [exact H3|split; [exact H4|split; [exact H5|exact H6]]]. Qed.

Lemma step_cases s l : sinv s -> fair l ->
  match sstep c l s with
  | Blocked => ~ deadly P n own (ss_conns s) l
  | Died => deadly P n own (ss_conns s) l
  | Went s' => sinv s' /\ (no_faults (ss_world s) -> ~ deadly P n own (ss_conns s) l)
  end.
Proof.
  intros Hi Hf. pose proof Hi as (A1 & A2 & A3 & A4).
  destruct l as [p port r wr u|p u|k fuel b|k|k|k j|k|k j|k|k]; cbn [sstep deadly fair] in *.
  - unfold accept_one. destruct (accept_cases r wr Hf) as [[id E]|[e E]]; fold own; rewrite E; [|auto].
    destruct (sinv_add s (new_conn c true (List.length (ss_conns s)) (Key (MakePeer id p port)) (in_sent (FromIncoming (sc_ih c) (sc_id c) own r wr)) u) Hi) as (s' & -> & Hi'); [|auto].
    apply new_conn_ok; [|discriminate]. intros _. eapply FromIncoming_sent; eassumption.
  - destruct (sinv_add s (new_conn c false (List.length (ss_conns s)) (Key p) (FromBootstrap_sent (sc_ih c) (sc_id c)) u) Hi) as (s' & -> & Hi'); [|auto].
    apply new_conn_ok; [discriminate|]. reflexivity.
  - destruct (nth_error (ss_conns s) k) as [x|] eqn:E; [|intros (x & H & _); discriminate].
    assert (HI : forall F : Prop, (exists y, Some x = Some y /\ idle y /\ F) -> idle x /\ F) by (intros F (y & H & Hy); injection H as <-; exact Hy).
    destruct (k_todo x) eqn:Et; [|intros H; apply HI in H; destruct H as [(H & _) _]; congruence].
    destruct (k_pend x) eqn:Ep; [|intros H; apply HI in H; destruct H as [(_ & H & _) _]; congruence].
    destruct (k_recv x) eqn:Er; [|intros H; apply HI in H; destruct H as [(_ & _ & H) _]; congruence].
    pose proof (nth_error_Forall _ _ _ _ A4 E) as (B1 & B2 & B3 & B4). unfold decode_one. destruct b as [v sp].
    destruct (DecodeAll fuel (mkslice v sp)) as [[ms rest]|e| |] eqn:ED.
    + split; [|intros _ H; apply HI in H; destruct H as [_ H]; congruence]. apply (put_ok s k x); auto.
      * eapply Forall_impl; [|exact (DecodeAll_msgs _ _ _ _ _ Hf ED)]. intros m [H _]. exact H.
      * apply (law_same x); auto.
    + split; [|intros _ H; apply HI in H; destruct H as [_ H]; congruence]. apply (put_ok s k x); auto; [constructor|]. apply (law_same x); auto.
    + exists x. split; [reflexivity|]. split; [repeat split; assumption|reflexivity].
    + split; [|intros _ H; apply HI in H; destruct H as [_ H]; congruence]. apply (put_ok s k x); auto; [constructor|]. apply (law_same x); auto.
  - destruct (nth_error (ss_conns s) k) as [x|] eqn:E; [|intros (x & m & H & _); discriminate].
    assert (HI : forall F : msg -> conn -> Prop, (exists y m, Some x = Some y /\ next_msg y m /\ F m y) -> exists m, next_msg x m /\ F m x) by (intros F (y & m & H & Hy); injection H as <-; eauto).
    destruct (k_todo x) as [|m r] eqn:Et; [intros H; apply (HI (fun m y => deadly_request P n own m \/ crowded n (ss_conns s) (h_key (k_who y)) m)) in H; destruct H as (m & ([r H] & _) & _); congruence|].
    destruct (k_pend x) eqn:Ep; [|intros H; apply (HI (fun m y => deadly_request P n own m \/ crowded n (ss_conns s) (h_key (k_who y)) m)) in H; destruct H as (m' & (_ & H & _) & _); congruence].
    destruct (k_recv x) eqn:Er; [|intros H; apply (HI (fun m y => deadly_request P n own m \/ crowded n (ss_conns s) (h_key (k_who y)) m)) in H; destruct H as (m' & (_ & _ & H) & _); congruence].
    destruct (handle_cases s k x m r Hi E Et Ep Er) as [(-> & Hb)|(s' & -> & Hi' & Hnb)].
    + exists x, m. split; [reflexivity|]. split; [|exact Hb]. split; [eauto|auto].
    + split; [exact Hi'|]. intros Hw H. apply (HI (fun m y => deadly_request P n own m \/ crowded n (ss_conns s) (h_key (k_who y)) m)) in H. destruct H as (m' & ([r' H] & _) & Hb). 
      rewrite Et in H. injection H as <- <-. exact (Hnb Hw Hb).
  - destruct (nth_error (ss_conns s) k) as [x|] eqn:E; [|auto]. pose proof (nth_error_Forall _ _ _ _ A4 E) as (B1 & B2 & B3 & B4).
    destruct (k_pend x) as [|f r] eqn:Ep; [auto|]. destruct (k_up x) eqn:Eu; [|auto]. split; [|auto]. apply (put_ok s k x); auto. apply (law_write x _ f r); auto.
  - destruct (nth_error (ss_conns s) k) as [x|] eqn:E; [|auto]. pose proof (nth_error_Forall _ _ _ _ A4 E) as (B1 & B2 & B3 & B4).
    destruct (k_pend x) as [|f r] eqn:Ep; [auto|]. split; [|auto]. apply (put_ok s k x); auto. apply (law_fail x _ f r j); auto.
  - destruct (nth_error (ss_conns s) k) as [x|] eqn:E; [|auto]. pose proof (nth_error_Forall _ _ _ _ A4 E) as (B1 & B2 & B3 & B4).
    destruct (k_up x) eqn:Eu; [|auto]. split; [|auto]. apply (put_ok s k x); auto. apply (law_ping x _ 0); auto. cbn [put_tx k_up k_out]. now rewrite Eu.
  - destruct (nth_error (ss_conns s) k) as [x|] eqn:E; [|auto]. pose proof (nth_error_Forall _ _ _ _ A4 E) as (B1 & B2 & B3 & B4).
    split; [|auto]. apply (put_ok s k x); auto. apply (law_ping x _ j); auto. discriminate.
  - destruct (nth_error (ss_conns s) k) as [x|] eqn:E; [|auto]. pose proof (nth_error_Forall _ _ _ _ A4 E) as (B1 & B2 & B3 & B4).
    destruct (k_todo x) eqn:Et; [|auto]. destruct (k_pend x) eqn:Ep; [|auto]. split; [|auto]. apply (put_ok s k x); auto; [cbn [put_tx k_todo]; rewrite Et; constructor|]. apply (law_same x); auto. discriminate.
  - destruct (nth_error (ss_conns s) k) as [x|] eqn:E; [|auto]. destruct (Complete (sc_own c)); [auto|].
    unfold next_one. assert (HL : n <= 8 * zlen (Data (sc_own c))). { destruct Hbf as (_ & <- & _). rewrite Hown. unfold bytes_for. Z.div_mod_to_equations. lia. }
    destruct (NextPiece_spec n _ _ (sc_own c) (k_who x) A1 HL (told_in s)) as [(i & t' & -> & Hp & _)|[-> _]]; (split; [|auto]); [|exact (conj A1 (conj A2 (conj A3 A4)))].
    split; [exact Hp|split; [exact A2|split; [exact A3|exact A4]]].
Qed.

Lemma run_inv ls : forall s s', sinv s -> Forall fair ls -> srun c ls s = Some s' -> sinv s'.
Proof.
  induction ls as [|l ls IH]; intros s s' Hi Hf E; cbn [srun] in E; [congruence|]. inversion Hf; subst. pose proof (step_cases s l Hi H1) as Hs.
  destruct (sstep c l s) as [| |s1]; try discriminate. eapply IH; [apply Hs| |exact E]. assumption.
Qed.

Lemma init_inv t0 : NewPeerPieceTracker n = Ok t0 -> sinv (mkss t0 w0 []).
Proof.
  intros E. split; [|split; [apply disk_same_refl|split; [auto|constructor]]]. cbn [ss_conns ss_ppt].
  destruct (New_pinv n n_pos) as (t & E' & Hp). assert (t = t0) by congruence. subst t. refine (pinv_ext _ _ _ _ _ Hp). intros k i. split; [contradiction|]. intros (x & m & [] & _).
Qed.
End Swarm.

(** ** Connections do not see each other *)
Lemma nth_lupd_same {A} (l : list A) k x y : nth_error l k = Some y -> nth_error (lupd l k x) k = Some x.
Proof. intros H. rewrite nth_error_lupd, Nat.eqb_refl. assert (Hl : (k < List.length l)%nat) by (apply nth_error_Some; congruence). now apply Nat.ltb_lt in Hl as ->. Qed.
Lemma nth_lupd_other {A} (l : list A) j k x : j <> k -> nth_error (lupd l k x) j = nth_error l j.
Proof. intros H. rewrite nth_error_lupd. now replace (Nat.eqb j k) with false by lia. Qed.

(** What a step changes: nothing but its own connection, which keeps its name and its past. *)
Lemma step_grows c l s s' : sstep c l s = Went s' -> forall k x, nth_error (ss_conns s) k = Some x ->
  exists x' add, nth_error (ss_conns s') k = Some x' /\ k_who x' = k_who x /\ k_in x' = k_in x /\ k_done x' = k_done x ++ add /\ (of_conn k l = false -> x' = x).
Proof.
  assert (Hadd : forall r, add_conn s r = Went s' -> forall k x, nth_error (ss_conns s) k = Some x -> exists x' add, nth_error (ss_conns s') k = Some x' /\ k_who x' = k_who x /\ k_in x' = k_in x /\ k_done x' = k_done x ++ add /\ (of_conn k l = false -> x' = x)).
  { intros r H k x E. unfold add_conn in H. destruct r; try discriminate. injection H as <-. exists x, []. cbn [ss_conns]. rewrite app_nil_r. split; [|auto].
    rewrite nth_error_app1; [exact E|]. apply nth_error_Some. congruence. }
  assert (Hsame : ss_conns s' = ss_conns s -> forall k x, nth_error (ss_conns s) k = Some x -> exists x' add, nth_error (ss_conns s') k = Some x' /\ k_who x' = k_who x /\ k_in x' = k_in x /\ k_done x' = k_done x ++ add /\ (of_conn k l = false -> x' = x)).
  { intros H k x E. exists x, []. rewrite H, app_nil_r. auto. }
  assert (Hput : forall k0 x0 x0' add, nth_error (ss_conns s) k0 = Some x0 -> ss_conns s' = lupd (ss_conns s) k0 x0' -> k_who x0' = k_who x0 -> k_in x0' = k_in x0 -> k_done x0' = k_done x0 ++ add -> of_conn k0 l = true ->
    (forall k, k <> k0 -> of_conn k l = false) ->
    forall k x, nth_error (ss_conns s) k = Some x -> exists x' add, nth_error (ss_conns s') k = Some x' /\ k_who x' = k_who x /\ k_in x' = k_in x /\ k_done x' = k_done x ++ add /\ (of_conn k l = false -> x' = x)).
  { intros k0 x0 x0' add E0 H H1 H2 H3 H4 H5 k x E. destruct (Nat.eq_dec k k0) as [->|Hne].
    - assert (x = x0) by congruence. subst x. exists x0', add. rewrite H, (nth_lupd_same _ _ _ _ E0). repeat split; auto. congruence.
    - exists x, []. rewrite H, nth_lupd_other by assumption. rewrite app_nil_r. auto. }
  intros H. assert (Hk : forall k0 k, k <> k0 -> Nat.eqb k0 k = false) by (intros; lia).
  destruct l as [p port r wr u|p u|k0 fuel b|k0|k0|k0 j|k0|k0 j|k0|k0]; cbn [sstep] in H.
  - unfold accept_one in H. destruct (in_peer _); try discriminate; [eapply Hadd; exact H|]. injection H as <-. apply Hsame. reflexivity.
  - eapply Hadd; exact H.
  - destruct (nth_error (ss_conns s) k0) as [x0|] eqn:E0; [|discriminate]. destruct (k_todo x0); [|discriminate]. destruct (k_pend x0); [|discriminate]. destruct (k_recv x0); [|discriminate].
    unfold decode_one in H. destruct (DecodeAll fuel b) as [[ms rest]|e| |]; try discriminate; injection H as <-; (eapply (Hput k0 x0 _ []); [exact E0|reflexivity| | | | |]);
      try reflexivity; try (cbn [put_rx k_done]; now rewrite app_nil_r); try (cbn [of_conn]; apply Nat.eqb_refl); cbn [of_conn]; auto.
  - destruct (nth_error (ss_conns s) k0) as [x0|] eqn:E0; [|discriminate]. destruct (k_todo x0) as [|m r]; [discriminate|]. destruct (k_pend x0); [|discriminate]. destruct (k_recv x0); [|discriminate].
    unfold handle_one in H. destruct (handle_msg _ _ _) as [[[u0|e| |] out] h]; try discriminate; injection H as <-; (eapply (Hput k0 x0 _ [m]); [exact E0|reflexivity| | | | |]);
      try reflexivity; try (cbn [of_conn]; apply Nat.eqb_refl); cbn [of_conn]; auto.
  - destruct (nth_error (ss_conns s) k0) as [x0|] eqn:E0; [|discriminate]. destruct (k_pend x0); [discriminate|]. destruct (k_up x0); [|discriminate].
    injection H as <-; (eapply (Hput k0 x0 _ []); [exact E0|reflexivity| | | | |]); try reflexivity; try (cbn [put_tx k_done]; now rewrite app_nil_r); try (cbn [of_conn]; apply Nat.eqb_refl); cbn [of_conn]; auto.
  - destruct (nth_error (ss_conns s) k0) as [x0|] eqn:E0; [|discriminate]. destruct (k_pend x0); [discriminate|].
    injection H as <-; (eapply (Hput k0 x0 _ []); [exact E0|reflexivity| | | | |]); try reflexivity; try (cbn [put_tx k_done]; now rewrite app_nil_r); try (cbn [of_conn]; apply Nat.eqb_refl); cbn [of_conn]; auto.
  - destruct (nth_error (ss_conns s) k0) as [x0|] eqn:E0; [|discriminate]. destruct (k_up x0); [|discriminate].
    injection H as <-; (eapply (Hput k0 x0 _ []); [exact E0|reflexivity| | | | |]); try reflexivity; try (cbn [put_tx k_done]; now rewrite app_nil_r); try (cbn [of_conn]; apply Nat.eqb_refl); cbn [of_conn]; auto.
  - destruct (nth_error (ss_conns s) k0) as [x0|] eqn:E0; [|discriminate].
    injection H as <-; (eapply (Hput k0 x0 _ []); [exact E0|reflexivity| | | | |]); try reflexivity; try (cbn [put_tx k_done]; now rewrite app_nil_r); try (cbn [of_conn]; apply Nat.eqb_refl); cbn [of_conn]; auto.
  - destruct (nth_error (ss_conns s) k0) as [x0|] eqn:E0; [|discriminate]. destruct (k_todo x0); [|discriminate]. destruct (k_pend x0); [|discriminate].
    injection H as <-; (eapply (Hput k0 x0 _ []); [exact E0|reflexivity| | | | |]); try reflexivity; try (cbn [put_tx k_done]; now rewrite app_nil_r); try (cbn [of_conn]; apply Nat.eqb_refl); cbn [of_conn]; auto.
  - destruct (nth_error (ss_conns s) k0) as [x0|] eqn:E0; [|discriminate]. destruct (Complete (sc_own c)); [discriminate|].
    unfold next_one in H. destruct (NextPiece _ _ _) as [[[i g] t']|e| |]; try discriminate. injection H as <-. apply Hsame. reflexivity.
Qed.

Lemma step_told c l s s' n key i : sstep c l s = Went s' -> told n (ss_conns s) key i -> told n (ss_conns s') key i.
Proof.
  intros H (x & m & Hx & Hk & Hm & Ht). apply In_nth_error in Hx. destruct Hx as [k Hx]. destruct (step_grows c l s s' H k x Hx) as (x' & add & E & Hw & _ & Hd & _).
  exists x', m. split; [eapply nth_error_In; exact E|]. rewrite Hw, Hd. split; [exact Hk|]. split; [apply in_or_app; auto|exact Ht].
Qed.
Lemma run_told c n key i ls : forall s s', srun c ls s = Some s' -> told n (ss_conns s) key i -> told n (ss_conns s') key i.
Proof.
  induction ls as [|l ls IH]; intros s s' H Ht; cbn [srun] in H; [congruence|]. destruct (sstep c l s) as [| |s1] eqn:E; try discriminate. eapply IH; [exact H|]. eapply step_told; eassumption.
Qed.
Lemma srun_app c a b : forall s, srun c (a ++ b) s = match srun c a s with Some s1 => srun c b s1 | None => None end.
Proof. induction a as [|l a IH]; intros s; cbn [app srun]; [reflexivity|]. destruct (sstep c l s); auto. Qed.

(** ** What a connection handles is what was delivered to it *)
Definition heard (ls : list slabel) (s : sstate) : Prop := forall k,
  match nth_error (ss_conns s) k with
  | Some x => exists rest, k_done x ++ k_todo x ++ rest = flat_map decoded (delivered k ls) /\ (k_recv x = true -> rest = [])
  | None => delivered k ls = []
  end.

Lemma delivered_app k a b : delivered k (a ++ b) = delivered k a ++ delivered k b.
Proof. induction a as [|l a IH]; [reflexivity|]. cbn [app delivered]. destruct l; auto. destruct (Nat.eqb k0 k); cbn [app]; now rewrite IH. Qed.
Lemma delivered_quiet k l : (forall f b, l <> SDeliver k f b) -> delivered k [l] = [].
Proof. intros H. destruct l as [| |k' f b| | | | | | | ]; try reflexivity. cbn [delivered]. destruct (Nat.eqb k' k) eqn:E; [|reflexivity]. apply Nat.eqb_eq in E. subst. exfalso. eapply H. reflexivity. Qed.

Lemma heard_add ls s x : heard ls s -> k_done x = [] -> k_todo x = [] -> forall l, (forall k f b, l <> SDeliver k f b) -> heard (ls ++ [l]) (mkss (ss_ppt s) (ss_world s) (ss_conns s ++ [x])).
Proof.
  intros H Hd Ht l Hl k. rewrite delivered_app, delivered_quiet, app_nil_r by auto. specialize (H k). cbn [ss_conns].
  destruct (nth_error (ss_conns s) k) as [y|] eqn:E.
  - rewrite nth_error_app1 by (apply nth_error_Some; congruence). now rewrite E.
  - apply nth_error_None in E. rewrite nth_error_app2 by assumption. destruct (k - List.length (ss_conns s))%nat as [|j]; cbn [nth_error]; [|destruct j; exact H].
    exists []. rewrite Hd, Ht, H. auto.
Qed.
Lemma heard_put ls s l t w k0 x0 x0' : heard ls s -> nth_error (ss_conns s) k0 = Some x0 -> (forall k f b, k <> k0 -> l <> SDeliver k f b) ->
  (forall rest, k_done x0 ++ k_todo x0 ++ rest = flat_map decoded (delivered k0 ls) -> (k_recv x0 = true -> rest = []) ->
    exists rest', k_done x0' ++ k_todo x0' ++ rest' = flat_map decoded (delivered k0 (ls ++ [l])) /\ (k_recv x0' = true -> rest' = [])) ->
  heard (ls ++ [l]) (mkss t w (lupd (ss_conns s) k0 x0')).
Proof.
  intros H E Hl Hx k. cbn [ss_conns]. destruct (Nat.eq_dec k k0) as [->|Hne].
  - rewrite (nth_lupd_same _ _ _ _ E). specialize (H k0). rewrite E in H. destruct H as (rest & H1 & H2). eauto.
  - rewrite nth_lupd_other, delivered_app, delivered_quiet, app_nil_r by auto. apply H.
Qed.

Lemma new_conn_done c inc ptr key sent u x : new_conn c inc ptr key sent u = Ok x -> k_done x = [] /\ k_todo x = [].
Proof. unfold new_conn. destruct (NewBitfield _); try discriminate. cbn [bind]. destruct u; intros H; inversion H; auto. Qed.

Lemma heard_step c l ls s s' : sstep c l s = Went s' -> heard ls s -> heard (ls ++ [l]) s'.
Proof.
  intros H Hh. assert (Hq : (forall k f b, l <> SDeliver k f b) -> forall t w, heard (ls ++ [l]) (mkss t w (ss_conns s))).
  { intros Hl t w k. rewrite delivered_app, delivered_quiet, app_nil_r by auto. apply Hh. }
  assert (Hadd : forall inc ptr key sent u, (forall k f b, l <> SDeliver k f b) -> add_conn s (new_conn c inc ptr key sent u) = Went s' -> heard (ls ++ [l]) s').
  { intros inc ptr key sent u Hl E. destruct (new_conn _ _ _ _ _ _) as [x| | |] eqn:En; try discriminate. injection E as <-. apply new_conn_done in En. destruct En. apply heard_add; auto. }
  assert (Htx : forall k0 x0 pend recv up out, nth_error (ss_conns s) k0 = Some x0 -> (forall k f b, l <> SDeliver k f b) -> (recv = true -> k_recv x0 = true) -> heard (ls ++ [l]) (put_conn s k0 (put_tx x0 pend recv up out))).
  { intros k0 x0 pend recv up out E Hl Hr. apply (heard_put ls s l _ _ k0 x0); auto. intros rest H1 H2. exists rest. rewrite delivered_app, delivered_quiet, app_nil_r by auto. split; [exact H1|]. cbn [put_tx k_recv]. auto. }
  destruct l as [p port r wr u|p u|k0 fuel b|k0|k0|k0 j|k0|k0 j|k0|k0]; cbn [sstep] in H.
  - unfold accept_one in H. destruct (in_peer _); try discriminate; [eapply Hadd; [discriminate|exact H]|]. injection H as <-. destruct s. apply Hq. discriminate.
  - eapply Hadd; [discriminate|exact H].
  - destruct (nth_error (ss_conns s) k0) as [x0|] eqn:E0; [|discriminate]. destruct (k_todo x0) eqn:Et; [|discriminate]. destruct (k_pend x0); [|discriminate]. destruct (k_recv x0) eqn:Er; [|discriminate].
    assert (Hx : forall ms recv, decoded (fuel, b) = ms -> heard (ls ++ [SDeliver k0 fuel b]) (put_conn s k0 (put_rx x0 (k_bf x0) (k_buf x0) ms (k_done x0) [] recv))).
    { intros ms recv Hd. apply (heard_put ls s _ _ _ k0 x0); auto; [congruence|]. intros rest H1 H2. specialize (H2 Er). subst rest. rewrite Et, !app_nil_r in H1.
      exists []. rewrite delivered_app. cbn [delivered]. rewrite Nat.eqb_refl, flat_map_app. cbn [flat_map put_rx k_done k_todo]. rewrite Hd, <- H1, !app_nil_r. auto. }
    unfold decode_one in H. unfold decoded in Hx. cbn [fst snd] in Hx. destruct (DecodeAll fuel b) as [[ms rest]|e| |]; try discriminate; injection H as <-; apply Hx; reflexivity.
  - destruct (nth_error (ss_conns s) k0) as [x0|] eqn:E0; [|discriminate]. destruct (k_todo x0) as [|m r] eqn:Et; [discriminate|]. destruct (k_pend x0); [|discriminate]. destruct (k_recv x0) eqn:Er; [|discriminate].
    assert (Hx : forall t w bf buf todo out recv, todo = r \/ (todo = [] /\ recv = false) -> heard (ls ++ [SHandle k0]) (mkss t w (lupd (ss_conns s) k0 (put_rx x0 bf buf todo (k_done x0 ++ [m]) out recv)))).
    { intros t w bf buf todo out recv Hc. apply (heard_put ls s _ _ _ k0 x0); auto; [discriminate|]. intros rest H1 H2. specialize (H2 Er). subst rest. rewrite Et, app_nil_r in H1.
      rewrite delivered_app, delivered_quiet, app_nil_r by discriminate. cbn [put_rx k_done k_todo k_recv]. destruct Hc as [->|[-> ->]].
      - exists []. rewrite <- H1, app_nil_r, <- app_assoc. auto.
      - exists r. rewrite <- H1, <- app_assoc. split; [reflexivity|discriminate]. }
    unfold handle_one in H. destruct (handle_msg _ _ _) as [[[u0|e| |] out] h]; try discriminate; injection H as <-; apply Hx; auto.
  - destruct (nth_error (ss_conns s) k0) as [x0|] eqn:E0; [|discriminate]. destruct (k_pend x0); [discriminate|]. destruct (k_up x0); [|discriminate]. injection H as <-. apply Htx; auto; discriminate.
  - destruct (nth_error (ss_conns s) k0) as [x0|] eqn:E0; [|discriminate]. destruct (k_pend x0); [discriminate|]. injection H as <-. apply Htx; auto; discriminate.
  - destruct (nth_error (ss_conns s) k0) as [x0|] eqn:E0; [|discriminate]. destruct (k_up x0); [|discriminate]. injection H as <-. apply Htx; auto; discriminate.
  - destruct (nth_error (ss_conns s) k0) as [x0|] eqn:E0; [|discriminate]. injection H as <-. apply Htx; auto; discriminate.
  - destruct (nth_error (ss_conns s) k0) as [x0|] eqn:E0; [|discriminate]. destruct (k_todo x0); [|discriminate]. destruct (k_pend x0); [|discriminate]. injection H as <-. apply Htx; auto; discriminate.
  - destruct (nth_error (ss_conns s) k0) as [x0|] eqn:E0; [|discriminate]. destruct (Complete (sc_own c)); [discriminate|].
    unfold next_one in H. destruct (NextPiece _ _ _) as [[[i g] t']|e| |]; try discriminate. injection H as <-. apply Hq. discriminate.
Qed.
Lemma heard_run c ls : forall pre s s', heard pre s -> srun c ls s = Some s' -> heard (pre ++ ls) s'.
Proof.
  induction ls as [|l ls IH]; intros pre s s' Hh H; cbn [srun] in H; [injection H as <-; rewrite app_nil_r; exact Hh|]. destruct (sstep c l s) as [| |s1] eqn:E; try discriminate.
  replace (pre ++ l :: ls) with ((pre ++ [l]) ++ ls) by (rewrite <- app_assoc; reflexivity). eapply IH; [|exact H]. eapply heard_step; eassumption.
Qed.

(** ** The same steps of a connection have the same effect on it, whatever the others do *)
Section Isolation.
Context (P : Z) (hashes : bytes) (files : list ebase) (c : sconst) (contents : list bytes) (w0 : world).
Hypothesis (Hup : swarm_up P hashes files c contents w0).
Let n := zlen hashes / 20.
Notation Inv := (sinv P hashes files c contents w0).

Lemma up_parts : made P hashes files (sc_ti c) /\ P < 4294967283 /\ n < 4294967296 /\ Nbytes (sc_own c) = bytes_for n /\ msg_ok (MBitfield (sc_own c)) /\ opened w0 (sc_ti c) contents.
Proof. exact Hup. Qed.
Lemma up_step s l : Inv s -> fair l ->
  match sstep c l s with
  | Blocked => ~ deadly P n (sc_own c) (ss_conns s) l
  | Died => deadly P n (sc_own c) (ss_conns s) l
  | Went s' => Inv s' /\ (no_faults (ss_world s) -> ~ deadly P n (sc_own c) (ss_conns s) l)
  end.
Proof. destruct up_parts as (H1 & H2 & H3 & H4 & H5 & H6). apply step_cases; assumption. Qed.
Lemma up_run ls s s' : Inv s -> Forall fair ls -> srun c ls s = Some s' -> Inv s'.
Proof. destruct up_parts as (H1 & H2 & H3 & H4 & H5 & H6). apply run_inv; assumption. Qed.
Lemma up_reach ls s : reaches n c w0 ls s -> Inv s.
Proof.
  intros (t0 & Ht & Hf & Hr). destruct up_parts as (H1 & H2 & H3 & H4 & H5 & H6). eapply up_run; [|exact Hf|exact Hr]. apply init_inv; assumption.
Qed.

Lemma handle_same_conn s1 s2 x m : no_faults w0 -> Inv s1 -> Inv s2 -> In x (ss_conns s1) -> msg_ok m ->
  match handle_msg (mkhc (sc_ti c) (sc_own c) (k_who x)) m (mkhs (ss_ppt s1) (k_bf x) (k_buf x) (ss_world s1)),
        handle_msg (mkhc (sc_ti c) (sc_own c) (k_who x)) m (mkhs (ss_ppt s2) (k_bf x) (k_buf x) (ss_world s2)) with
  | (r1, o1, h1), (r2, o2, h2) => r1 = Panic \/ r2 = Panic \/ (r1 = r2 /\ o1 = o2 /\ hs_bf h1 = hs_bf h2 /\ hs_buf h1 = hs_buf h2)
  end.
Proof.
  intros Hnf I1 I2 Hx Hm. destruct I1 as (A1 & _ & A3 & _). destruct I2 as (B1 & _ & B3 & _). rewrite (A3 Hnf), (B3 Hnf).
  destruct up_parts as (H1 & H2 & H3 & H4 & H5 & H6). pose proof (n_pos P hashes files c H1) as Hn. fold n in Hn.
  destruct m; cbn [handle_msg hc_ti hc_own hc_whom hs_ppt hs_bf hs_buf hs_world]; try (right; right; repeat split; reflexivity).
  - rewrite (np_n P hashes files c H1). fold n.
    destruct (handle_bf_cases n (sc_own c) (k_who x) (k_bf x) bf (told n (ss_conns s1)) (ss_ppt s1)) as [(C1 & ->)|[(C1 & t1 & b1 & E1 & C2 & C3 & _)|(C1 & [b1 ->] & _)]];
      [split; assumption|exact A1|intros; eapply told_inside; eassumption|exact H4|apply Hm|..]; cbn [hs_ppt hs_bf hs_buf hs_world];
      [| |destruct (handleBitfield (ss_ppt s2) _ _ _ _ _) as [[? ?] ?]; left; reflexivity].
    + destruct (handle_bf_cases n (sc_own c) (k_who x) (k_bf x) bf (told n (ss_conns s2)) (ss_ppt s2)) as [(D1 & ->)|[(D1 & _)|(D1 & _)]];
        [split; assumption|exact B1|intros; eapply told_inside; eassumption|exact H4|apply Hm|..]; [|congruence|congruence]. right. right. repeat split; reflexivity.
    + destruct (handle_bf_cases n (sc_own c) (k_who x) (k_bf x) bf (told n (ss_conns s2)) (ss_ppt s2)) as [(D1 & _)|[(D1 & t2 & b2 & E2 & D2 & D3 & _)|(D1 & [b2 ->] & _)]];
        [split; assumption|exact B1|intros; eapply told_inside; eassumption|exact H4|apply Hm|..]; [congruence| |rewrite E1; right; left; reflexivity].
      assert (b1 = b2).
      { revert E1 E2. unfold handleBitfield. destruct (negb _); [discriminate|]. destruct (SetNbits bf n) as [bf'| | |]; try discriminate.
        destruct (RegisterBF (ss_ppt s1) (k_who x) bf'); try discriminate. destruct (RegisterBF (ss_ppt s2) (k_who x) bf'); try discriminate. congruence. }
      subst b2. rewrite E1, E2. right. right. repeat split; reflexivity.
  - destruct (handleRequest _ _ _ _ _ _ _) as [[[?|?| |] ?] ?]; right; right; repeat split; reflexivity.
Qed.

Lemma step_local s1 s2 s1' s2' k l : no_faults w0 -> Inv s1 -> Inv s2 -> of_conn k l = true -> nth_error (ss_conns s1) k = nth_error (ss_conns s2) k ->
  sstep c l s1 = Went s1' -> sstep c l s2 = Went s2' -> nth_error (ss_conns s1') k = nth_error (ss_conns s2') k.
Proof.
  intros Hnf I1 I2 Hl E S1 S2.
  assert (Hput : forall x x0 t w t' w', nth_error (ss_conns s1) k = Some x0 -> nth_error (ss_conns (mkss t w (lupd (ss_conns s1) k x))) k = nth_error (ss_conns (mkss t' w' (lupd (ss_conns s2) k x))) k).
  { intros x x0 t w t' w' H. cbn [ss_conns]. rewrite (nth_lupd_same _ _ _ _ H). rewrite E in H. now rewrite (nth_lupd_same _ _ _ _ H). }
  destruct l as [p port r wr u|p u|k0 fuel b|k0|k0|k0 j|k0|k0 j|k0|k0]; cbn [of_conn] in Hl; try discriminate; apply Nat.eqb_eq in Hl; subst k0; cbn [sstep] in S1, S2; rewrite <- E in S2;
    destruct (nth_error (ss_conns s1) k) as [x|] eqn:E1; try discriminate.
  - destruct (k_todo x); [|discriminate]. destruct (k_pend x); [|discriminate]. destruct (k_recv x); [|discriminate]. unfold decode_one in *.
    destruct (DecodeAll fuel b) as [[ms rest]|e| |]; try discriminate; injection S1 as <-; injection S2 as <-; eapply Hput; reflexivity.
  - destruct (k_todo x) as [|m r] eqn:Et; [discriminate|]. destruct (k_pend x); [|discriminate]. destruct (k_recv x); [|discriminate]. unfold handle_one in *.
    pose proof I1 as (_ & _ & _ & F). apply nth_error_Forall with (k := k) (x := x) in F; [|exact E1]. destruct F as (_ & _ & F & _). rewrite Et in F. inversion F; subst.
    pose proof (handle_same_conn s1 s2 x m Hnf I1 I2 (nth_error_In _ _ E1) H1) as Hs.
    destruct (handle_msg _ _ (mkhs (ss_ppt s1) _ _ _)) as [[r1 o1] h1]. destruct (handle_msg _ _ (mkhs (ss_ppt s2) _ _ _)) as [[r2 o2] h2].
    destruct Hs as [->|[->|(-> & -> & Ha & Hb)]]; [discriminate|destruct r1; discriminate|]. rewrite Ha, Hb in S1. destruct r2; try discriminate; injection S1 as <-; injection S2 as <-; eapply Hput; reflexivity.
  - destruct (k_pend x); [discriminate|]. destruct (k_up x); [|discriminate]. injection S1 as <-; injection S2 as <-; eapply Hput; reflexivity.
  - destruct (k_pend x); [discriminate|]. injection S1 as <-; injection S2 as <-; eapply Hput; reflexivity.
  - destruct (k_up x); [|discriminate]. injection S1 as <-; injection S2 as <-; eapply Hput; reflexivity.
  - injection S1 as <-; injection S2 as <-; eapply Hput; reflexivity.
  - destruct (k_todo x); [|discriminate]. destruct (k_pend x); [|discriminate]. injection S1 as <-; injection S2 as <-; eapply Hput; reflexivity.
Qed.

(** Skip the steps that are not connection k's. *)
Lemma skip_others k x ls : forall s s', Inv s -> Forall fair ls -> nth_error (ss_conns s) k = Some x -> srun c ls s = Some s' ->
  (filter (of_conn k) ls = [] /\ nth_error (ss_conns s') k = Some x) \/
  (exists l r s1 s2, filter (of_conn k) ls = l :: filter (of_conn k) r /\ of_conn k l = true /\ fair l /\ Forall fair r /\ Inv s1 /\ nth_error (ss_conns s1) k = Some x /\ sstep c l s1 = Went s2 /\ srun c r s2 = Some s' /\
    (List.length r < List.length ls)%nat).
Proof.
  induction ls as [|l ls IH]; intros s s' Hi Hf E H; cbn [srun filter] in *; [left; split; congruence|]. inversion Hf as [|? ? Hl Hls]; subst. pose proof (up_step s l Hi Hl) as Hs.
  destruct (sstep c l s) as [| |s1] eqn:Es; try discriminate. destruct Hs as [Hi1 _]. destruct (of_conn k l) eqn:Ek.
  - right. exists l, ls, s, s1. cbn [List.length]. repeat (split; [assumption || reflexivity|]). lia.
  - destruct (step_grows c l s s1 Es k x E) as (x' & add & E' & _ & _ & _ & Hx). specialize (Hx Ek). subst x'.
    destruct (IH s1 s' Hi1 Hls E' H) as [H1|(l' & r & s2 & s3 & A1 & A2 & A3 & A4 & A5 & A6 & A7 & A8 & A9)]; [left; exact H1|right]. exists l', r, s2, s3. cbn [List.length]. repeat (split; [assumption|]). lia.
Qed.

Lemma isolated k : no_faults w0 -> forall len ls1 ls2 s1 s2 s1' s2' x, (List.length ls1 <= len)%nat -> Inv s1 -> Inv s2 -> Forall fair ls1 -> Forall fair ls2 ->
  nth_error (ss_conns s1) k = Some x -> nth_error (ss_conns s2) k = Some x ->
  filter (of_conn k) ls1 = filter (of_conn k) ls2 -> srun c ls1 s1 = Some s1' -> srun c ls2 s2 = Some s2' -> nth_error (ss_conns s1') k = nth_error (ss_conns s2') k.
Proof.
  intros Hnf. induction len as [|len IH]; intros ls1 ls2 s1 s2 s1' s2' x HL I1 I2 F1 F2 E1 E2 Hfil R1 R2;
    destruct (skip_others k x ls1 s1 s1' I1 F1 E1 R1) as [(A1 & A2)|(l1 & r1 & u1 & v1 & A1 & A2 & A3 & A4 & A5 & A6 & A7 & A8 & A9)]; try lia.
  - destruct (skip_others k x ls2 s2 s2' I2 F2 E2 R2) as [(B1 & B2)|(l2 & r2 & u2 & v2 & B1 & _)]; congruence.
  - destruct (skip_others k x ls2 s2 s2' I2 F2 E2 R2) as [(B1 & B2)|(l2 & r2 & u2 & v2 & B1 & _)]; congruence.
  - destruct (skip_others k x ls2 s2 s2' I2 F2 E2 R2) as [(B1 & _)|(l2 & r2 & u2 & v2 & B1 & B2 & B3 & B4 & B5 & B6 & B7 & B8 & B9)]; [congruence|].
    rewrite A1, B1 in Hfil. injection Hfil as <- Hfil.
    assert (Hk : nth_error (ss_conns v1) k = nth_error (ss_conns v2) k) by (exact (step_local u1 u2 v1 v2 k l1 Hnf A5 B5 A2 (eq_trans A6 (eq_sym B6)) A7 B7)).
    destruct (step_grows c l1 u1 v1 A7 k x A6) as (y & _ & Ey & _). 
    apply (IH r1 r2 v1 v2 s1' s2' y); try assumption; [lia| | |congruence].
    + pose proof (up_step u1 l1 A5 A3) as Hs. rewrite A7 in Hs. apply Hs.
    + pose proof (up_step u2 l1 B5 A3) as Hs. rewrite B7 in Hs. apply Hs.
Qed.
End Isolation.

(** ** The theorems *)
Lemma reach_dies P hashes files c contents w0 ls s l : swarm_up P hashes files c contents w0 -> reaches (zlen hashes / 20) c w0 ls s -> fair l ->
  sstep c l s = Died -> deadly P (zlen hashes / 20) (sc_own c) (ss_conns s) l.
Proof. intros Hup Hr Hf E. pose proof (up_step P hashes files c contents w0 Hup s l (up_reach P hashes files c contents w0 Hup ls s Hr) Hf) as H. now rewrite E in H. Qed.

Lemma reach_world P hashes files c contents w0 ls s : swarm_up P hashes files c contents w0 -> reaches (zlen hashes / 20) c w0 ls s ->
  disk_same w0 (ss_world s) /\ (no_faults w0 -> ss_world s = w0).
Proof. intros Hup Hr. destruct (up_reach P hashes files c contents w0 Hup ls s Hr) as (_ & H1 & H2 & _). auto. Qed.

Lemma reach_dies_iff P hashes files c contents w0 ls s l : swarm_up P hashes files c contents w0 -> no_faults w0 -> reaches (zlen hashes / 20) c w0 ls s -> fair l ->
  sstep c l s = Died <-> deadly P (zlen hashes / 20) (sc_own c) (ss_conns s) l.
Proof.
  intros Hup Hn Hr Hf. pose proof (up_step P hashes files c contents w0 Hup s l (up_reach P hashes files c contents w0 Hup ls s Hr) Hf) as H.
  destruct (reach_world P hashes files c contents w0 ls s Hup Hr) as [_ Hw]. split; [intros E; now rewrite E in H|]. intros Hd.
  destruct (sstep c l s) as [| |s']; [contradiction|reflexivity|]. exfalso. apply H; [rewrite Hw; assumption|exact Hd].
Qed.

Lemma reach_lawful P hashes files c contents w0 ls s x : swarm_up P hashes files c contents w0 -> reaches (zlen hashes / 20) c w0 ls s -> In x (ss_conns s) ->
  lawful P (zsum (lens_of files)) (zlen hashes / 20) contents (sc_own c) (sc_ih c) (sc_id c) x.
Proof.
  intros Hup Hr Hx. destruct (up_reach P hashes files c contents w0 Hup ls s Hr) as (_ & _ & _ & F). rewrite Forall_forall in F. apply (F x Hx).
Qed.

Lemma reach_heard P hashes files c contents w0 ls s k x : swarm_up P hashes files c contents w0 -> reaches (zlen hashes / 20) c w0 ls s -> nth_error (ss_conns s) k = Some x ->
  exists rest, k_done x ++ k_todo x ++ rest = flat_map decoded (delivered k ls) /\ (k_recv x = true -> rest = []).
Proof.
  intros _ (t0 & _ & _ & Hr) E. assert (H0 : heard [] (mkss t0 w0 [])) by (intros j; destruct j; reflexivity).
  pose proof (heard_run c ls [] _ _ H0 Hr k) as H. cbn [app] in H. now rewrite E in H.
Qed.

Lemma reach_tracker P hashes files c contents w0 ls s i key : swarm_up P hashes files c contents w0 -> reaches (zlen hashes / 20) c w0 ls s -> 0 <= i < zlen hashes / 20 ->
  lists (ss_ppt s) i key <-> told (zlen hashes / 20) (ss_conns s) key i.
Proof. intros Hup Hr Hi. destruct (up_reach P hashes files c contents w0 Hup ls s Hr) as (H & _). now apply (pinv_lists (zlen hashes / 20)). Qed.

Lemma reach_room P hashes files c contents w0 ls s i ks : swarm_up P hashes files c contents w0 -> reaches (zlen hashes / 20) c w0 ls s -> NoDup ks ->
  (forall key, In key ks -> told (zlen hashes / 20) (ss_conns s) key i) -> zlen ks <= 63.
Proof.
  intros Hup Hr. destruct (up_reach P hashes files c contents w0 Hup ls s Hr) as (H & _). apply (pinv_room _ _ _ H). intros k j. apply told_inside.
Qed.

Lemma reach_next P hashes files c contents w0 ls s k x : swarm_up P hashes files c contents w0 -> reaches (zlen hashes / 20) c w0 ls s -> nth_error (ss_conns s) k = Some x ->
  let n := zlen hashes / 20 in
  let cand i := 0 <= i < n /\ Get (sc_own c) i = Ok false /\ told n (ss_conns s) (h_key (k_who x)) i in
  let count i m := exists ks, NoDup ks /\ (forall key, In key ks <-> told n (ss_conns s) key i) /\ zlen ks = m in
  (exists i t', NextPiece (ss_ppt s) (sc_own c) (k_who x) = Ok (i, true, t') /\ cand i /\ forall j a b, cand j -> count i a -> count j b -> a <= b) \/
  (NextPiece (ss_ppt s) (sc_own c) (k_who x) = Ok (0, false, ss_ppt s) /\ forall i, ~ cand i).
Proof.
  intros Hup Hr E n cand count. destruct (up_reach P hashes files c contents w0 Hup ls s Hr) as (H & _). destruct Hup as (_ & _ & _ & Ho & (_ & Hb & _) & _).
  destruct (NextPiece_spec n _ _ (sc_own c) (k_who x) H) as [(i & t' & H1 & _ & H2 & H3)|[H1 H2]].
  - rewrite <- Hb, Ho. unfold bytes_for. fold n. Z.div_mod_to_equations. lia.
  - intros key j. apply told_inside.
  - left. exists i, t'. auto.
  - right. auto.
Qed.

Lemma reach_isolated P hashes files c contents w0 pre1 pre2 s1 s2 k x ls1 ls2 s1' s2' : swarm_up P hashes files c contents w0 -> no_faults w0 ->
  reaches (zlen hashes / 20) c w0 pre1 s1 -> reaches (zlen hashes / 20) c w0 pre2 s2 -> Forall fair ls1 -> Forall fair ls2 ->
  nth_error (ss_conns s1) k = Some x -> nth_error (ss_conns s2) k = Some x -> filter (of_conn k) ls1 = filter (of_conn k) ls2 ->
  srun c ls1 s1 = Some s1' -> srun c ls2 s2 = Some s2' -> nth_error (ss_conns s1') k = nth_error (ss_conns s2') k.
Proof.
  intros Hup Hn R1 R2 F1 F2 E1 E2 Hfil S1 S2. refine (isolated P hashes files c contents w0 Hup k Hn _ ls1 ls2 s1 s2 s1' s2' x (le_n _) _ _ F1 F2 E1 E2 Hfil S1 S2);
    eapply up_reach; eassumption.
Qed.

(** Whoever can connect can end the process: a handshake and a piece message. *)
Lemma reach_killed P hashes files c contents w0 ls s p port rsv id u i b blk rest sp fuel : swarm_up P hashes files c contents w0 -> reaches (zlen hashes / 20) c w0 ls s ->
  List.length (sc_ih c) = 20%nat -> List.length rsv = 8%nat -> List.length id = 20%nat -> (1 <= fuel)%nat -> zlen (wire_of (MPiece i b blk) ++ rest) < 4294967296 ->
  exists s', sstep c (SAccept p port (mkread (handshake_of rsv (sc_ih c) id) false) (HandshakeModel.mkw true true) u) s = Went s' /\
             sstep c (SDeliver (List.length (ss_conns s)) fuel (mkslice (wire_of (MPiece i b blk) ++ rest) sp)) s' = Died.
Proof.
  intros Hup Hr Hih Hrs Hid Hf HL. destruct Hup as (H1 & H2 & H3 & H4 & H5 & H6).
  assert (Hlen : List.length (handshake_of rsv (sc_ih c) id) = 68%nat) by (unfold handshake_of; cbn [List.length]; rewrite !app_length, Hih, Hrs, Hid; reflexivity).
  assert (E : in_peer (FromIncoming (sc_ih c) (sc_id c) (sc_own c) (mkread (handshake_of rsv (sc_ih c) id) false) (HandshakeModel.mkw true true)) = Ok id).
  { apply FromIncoming_iff; [cbn [rd_bytes]; lia|]. cbn [rd_err rd_bytes w_handshake w_bitfield]. repeat split. exists rsv. repeat (split; [assumption|]).
    unfold pad68. rewrite Hlen. cbn [Nat.sub repeat]. apply app_nil_r. }
  cbn [sstep]. unfold accept_one. rewrite E.
  destruct (new_conn_ok P hashes files c contents H1 H5 true (List.length (ss_conns s)) (Key (MakePeer id p port)) (MakeHandshake (sc_ih c) (sc_id c) ++ EncodeMsg (MBitfield (sc_own c))) u ltac:(auto) ltac:(discriminate)) as (x & Ex & _ & _).
  rewrite (FromIncoming_sent _ _ _ _ _ id) by (cbn [rd_bytes]; lia || exact E). rewrite Ex. cbn [add_conn]. eexists. split; [reflexivity|]. cbn [ss_conns].
  rewrite nth_error_app2, Nat.sub_diag by lia. cbn [nth_error].
  unfold new_conn in Ex. destruct (NewBitfield _); try discriminate. cbn [bind] in Ex.
  assert (Hx : k_todo x = [] /\ k_pend x = [] /\ k_recv x = true) by (destruct u; inversion Ex; auto). destruct Hx as (-> & -> & ->).
  unfold decode_one, DecodeAll. destruct fuel as [|f]; [lia|]. pose proof (wire_pos (MPiece i b blk)). pose proof (zlen_nonneg rest).
  rewrite loop_step by (rewrite ?zlen_app in *; lia). change (Z.to_nat 0) with 0%nat. cbn [skipn].
  rewrite <- (DecodeMsg_pure _ sp) by assumption. now rewrite Decode_piece_panics.
Qed.

(** A peer that we connected to never learns from us which pieces we have. *)
Lemma reach_dialled P hashes files c contents w0 ls s x : swarm_up P hashes files c contents w0 -> reaches (zlen hashes / 20) c w0 ls s -> In x (ss_conns s) -> k_in x = false ->
  exists ms, Forall (fun m => reveals m = false) ms /\ begins (k_out x) (MakeHandshake (sc_ih c) (sc_id c) ++ stream ms) /\
    (k_up x = true -> k_out x = MakeHandshake (sc_ih c) (sc_id c) ++ stream ms).
Proof.
  intros Hup Hr Hx Hin. destruct (reach_lawful P hashes files c contents w0 ls s x Hup Hr Hx) as (ms & ps & reqs & late & H1 & H2 & H3 & _). exists (opening (sc_own c) x ++ ms).
  split; [|auto]. unfold opening. rewrite Hin. cbn [app]. constructor; [reflexivity|]. apply Forall_app in H1. eapply Forall_impl; [|apply H1].
  intros m [->|(i & b & blk & -> & _)]; reflexivity.
Qed.
Lemma reach_accepted P hashes files c contents w0 ls s x : swarm_up P hashes files c contents w0 -> reaches (zlen hashes / 20) c w0 ls s -> In x (ss_conns s) -> k_in x = true -> k_up x = true ->
  exists tail, k_out x = MakeHandshake (sc_ih c) (sc_id c) ++ wire_of (MBitfield (sc_own c)) ++ tail.
Proof.
  intros Hup Hr Hx Hin Hu. destruct (reach_lawful P hashes files c contents w0 ls s x Hup Hr Hx) as (ms & ps & reqs & late & H1 & H2 & H3 & _). rewrite (H3 Hu). unfold opening. rewrite Hin.
  eexists. cbn [app stream flat_map]. reflexivity.
Qed.

(** Nothing is forgotten: what any connection ever announced stays registered. *)
Lemma reach_kept P hashes files c contents w0 ls s more s' i key : swarm_up P hashes files c contents w0 -> reaches (zlen hashes / 20) c w0 ls s -> Forall fair more -> srun c more s = Some s' ->
  0 <= i < zlen hashes / 20 -> lists (ss_ppt s) i key -> lists (ss_ppt s') i key.
Proof.
  intros Hup Hr Hf Hm Hi H. assert (Hr' : reaches (zlen hashes / 20) c w0 (ls ++ more) s').
  { destruct Hr as (t0 & H1 & H2 & H3). exists t0. split; [exact H1|]. split; [apply Forall_app; auto|]. now rewrite srun_app, H3. }
  rewrite (reach_tracker P hashes files c contents w0 (ls ++ more) s') by assumption. eapply run_told; [exact Hm|]. now apply (reach_tracker P hashes files c contents w0 ls s).
Qed.
