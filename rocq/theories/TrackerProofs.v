(** TrackerProofs.v: proofs about TrackerModel. *)
From Coq Require Import ZifyBool ZifyNat ZifyN Permutation.
From Verif Require Import Base BencodeModel BencodeSpec DecimalProofs BencodeProofs UtilsModel UtilsSpec UtilsProofs PeerModel PeerProofs TrackerModel TrackerSpec.

(* ------------------------------------------------------------------ *)
(** * Statistics *)
Lemma strun_up ops : forall s, s_up (strun s ops) mod 18446744073709551616 = (s_up s + sum_up ops) mod 18446744073709551616.
Proof.
  induction ops as [|o ops IH]; intros s; [cbn; f_equal; lia|]. cbn [strun fold_left sum_up fold_right]. change (fold_left ststep ops ?x) with (strun x ops). rewrite IH.
  destruct o; cbn [ststep IncUploaded IncDnloaded s_up].
  - unfold u64. rewrite Zplus_mod_idemp_l. f_equal. unfold sum_up. lia.
  - reflexivity.
  - unfold DecLeft. destruct (_ <=? _); reflexivity.
Qed.
Lemma strun_dn ops : forall s, s_dn (strun s ops) mod 18446744073709551616 = (s_dn s + sum_dn ops) mod 18446744073709551616.
Proof.
  induction ops as [|o ops IH]; intros s; [cbn; f_equal; lia|]. cbn [strun fold_left sum_dn fold_right]. change (fold_left ststep ops ?x) with (strun x ops). rewrite IH.
  destruct o; cbn [ststep IncUploaded IncDnloaded s_dn].
  - reflexivity.
  - unfold u64. rewrite Zplus_mod_idemp_l. f_equal. unfold sum_dn. lia.
  - unfold DecLeft. destruct (_ <=? _); reflexivity.
Qed.
Definition st_ok (s : Stats) : Prop := is_u64 (s_up s) /\ is_u64 (s_dn s) /\ is_u64 (s_left s).
Lemma ststep_ok s o : st_ok s -> is_u64 (amount o) -> st_ok (ststep s o).
Proof.
  unfold st_ok, is_u64. intros (H1 & H2 & H3) Ho. assert (Hm : forall z, 0 <= u64 z < 18446744073709551616) by (intros z; apply Z.mod_pos_bound; lia).
  destruct o; cbn [ststep amount] in *.
  - unfold IncUploaded; cbn [s_up s_dn s_left]. auto.
  - unfold IncDnloaded; cbn [s_up s_dn s_left]. auto.
  - unfold DecLeft. destruct (_ <=? _); cbn [s_up s_dn s_left]; [lia|auto].
Qed.
Lemma strun_ok ops : forall s, st_ok s -> Forall (fun o => is_u64 (amount o)) ops -> st_ok (strun s ops).
Proof. induction ops as [|o ops IH]; intros s Hs H; [exact Hs|]. inversion H; subst. apply IH; [apply ststep_ok|]; assumption. Qed.
Lemma sum_left_nonneg ops : Forall (fun o => is_u64 (amount o)) ops -> 0 <= sum_left ops.
Proof. unfold is_u64. induction 1 as [|o ops H _ IH]; cbn [sum_left fold_right]; [lia|]. unfold sum_left in IH. destruct o; cbn [amount] in H; lia. Qed.
Lemma strun_left ops : forall s, st_ok s -> Forall (fun o => is_u64 (amount o)) ops -> s_left (strun s ops) = Z.max 0 (s_left s - sum_left ops).
Proof.
  induction ops as [|o ops IH]; intros s Hs H; [cbn; destruct Hs as (_ & _ & Hl); unfold is_u64 in Hl; lia|]. inversion H as [|? ? Ho Hr]; subst. cbn [strun fold_left sum_left fold_right]. change (fold_left ststep ops ?x) with (strun x ops).
  rewrite (IH _ (ststep_ok _ _ Hs Ho) Hr). pose proof (sum_left_nonneg ops Hr). change (fold_right (fun o a => match o with OLeft n => n + a | _ => a end) 0 ops) with (sum_left ops).
  destruct o; cbn [ststep IncUploaded IncDnloaded s_left]; try reflexivity. destruct Hs as (_ & _ & Hl). unfold is_u64 in *. cbn [amount] in Ho.
  unfold DecLeft. destruct (Z.leb_spec (s_left s) n); cbn [s_left]; [lia|]. unfold u64. rewrite Z.mod_small by lia. lia.
Qed.
Lemma stats_top dn up lft ops : is_u64 dn -> is_u64 up -> is_u64 lft -> Forall (fun o => is_u64 (amount o)) ops ->
  let s := strun (NewStats dn up lft) ops in
  s_up s = (up + sum_up ops) mod 18446744073709551616 /\ s_dn s = (dn + sum_dn ops) mod 18446744073709551616 /\ s_left s = Z.max 0 (lft - sum_left ops).
Proof.
  intros Hd Hu Hl Ho s. assert (Hs : st_ok (NewStats dn up lft)) by (split; [|split]; assumption). destruct (strun_ok ops _ Hs Ho) as (H1 & H2 & _). unfold is_u64 in *.
  split; [|split].
  - rewrite <- (Z.mod_small (s_up s) 18446744073709551616) by assumption. apply strun_up.
  - rewrite <- (Z.mod_small (s_dn s) 18446744073709551616) by assumption. apply strun_dn.
  - apply strun_left; assumption.
Qed.

(* ------------------------------------------------------------------ *)
(** * Escaping *)
Lemma esc1_decode b r : form_decode (esc1 b ++ r) = b :: form_decode r.
Proof. destruct b; reflexivity. Qed.
Lemma form_decode_escape s : form_decode (QueryEscape s) = s.
Proof. induction s as [|b s IH]; [reflexivity|]. cbn [QueryEscape flat_map]. rewrite esc1_decode. f_equal. exact IH. Qed.
Lemma esc1_safe b c : In c (esc1 b) -> c <> "&"%byte /\ c <> "="%byte.
Proof.
  assert (H : forallb (fun b => forallb (fun c => negb (Byte.eqb c "&") && negb (Byte.eqb c "=")) (esc1 b)) all_bytes = true) by (vm_compute; reflexivity).
  pose proof (byte_sweep _ H b) as Hb. cbv beta in Hb. rewrite forallb_forall in Hb. intros Hc. specialize (Hb c Hc). apply andb_true_iff in Hb. destruct Hb as [H1 H2].
  apply negb_true_iff, Byte_eqb_neq in H1, H2. auto.
Qed.
Lemma QueryEscape_safe s c : In c (QueryEscape s) -> c <> "&"%byte /\ c <> "="%byte.
Proof. intros H. apply in_flat_map in H. destruct H as (b & _ & H). exact (esc1_safe b c H). Qed.
Lemma unreserved_iff b : unreserved b = true <-> plain b.
Proof.
  unfold unreserved, plain. change (B "-_.~") with ["-"; "_"; "."; "~"]%byte. cbn [In]. rewrite !orb_true_iff, !andb_true_iff, !Byte_eqb_eq, !Z.leb_le.
  split; [intuition (subst; auto)|intuition (subst; auto 10)].
Qed.
Lemma esc1_len b : (1 <= List.length (esc1 b))%nat.
Proof. unfold esc1. destruct (unreserved b); [cbn; lia|]. destruct (Byte.eqb b " "); cbn; lia. Qed.
Lemma QueryEscape_len s : (List.length s <= List.length (QueryEscape s))%nat.
Proof. induction s as [|b s IH]; [cbn; lia|]. cbn [QueryEscape flat_map]. rewrite app_length. pose proof (esc1_len b). cbn [List.length]. unfold QueryEscape in IH. lia. Qed.
Lemma QueryEscape_id s : QueryEscape s = s <-> Forall plain s.
Proof.
  induction s as [|b s IH]; [split; [constructor|reflexivity]|]. cbn [QueryEscape flat_map]. change (flat_map esc1 s) with (QueryEscape s). split.
  - intros H. unfold esc1 in H. destruct (unreserved b) eqn:Eu.
    + cbn [app] in H. injection H as H. constructor; [apply unreserved_iff, Eu|apply IH, H].
    + exfalso. destruct (Byte.eqb b " ") eqn:Es.
      * apply Byte_eqb_eq in Es. subst b. discriminate.
      * cbn [app] in H. injection H as _ H. apply (f_equal (@List.length byte)) in H. cbn [List.length] in H. pose proof (QueryEscape_len s). lia.
  - intros H. inversion H as [|? ? Hb Hs]; subst. unfold esc1. rewrite (proj2 (unreserved_iff b) Hb). cbn [app]. f_equal. apply IH, Hs.
Qed.

(* ------------------------------------------------------------------ *)
(** * Splitting *)
Lemma split_on_one c s : ~ In c s -> split_on c s = [s].
Proof.
  induction s as [|b s IH]; intros H; [reflexivity|]. cbn [split_on]. rewrite IH by (intros Hi; apply H; right; exact Hi).
  replace (Byte.eqb b c) with false; [reflexivity|]. symmetry. apply Byte_eqb_neq. intros ->. apply H. left. reflexivity.
Qed.
Lemma split_on_sep c s r : ~ In c s -> split_on c (s ++ c :: r) = s :: split_on c r.
Proof.
  induction s as [|b s IH]; intros H; cbn [app split_on].
  - replace (Byte.eqb c c) with true by (symmetry; apply Byte_eqb_eq; reflexivity). reflexivity.
  - rewrite IH by (intros Hi; apply H; right; exact Hi). replace (Byte.eqb b c) with false; [reflexivity|]. symmetry. apply Byte_eqb_neq. intros ->. apply H. left. reflexivity.
Qed.
Lemma split_join l : l <> [] -> Forall (fun s => ~ In "&"%byte s) l -> split_on "&" (join_amp l) = l.
Proof.
  intros Hne H. induction H as [|s l Hs Hl IH]; [congruence|]. destruct l as [|t l]; [apply split_on_one, Hs|].
  change (join_amp (s :: t :: l)) with (s ++ "&"%byte :: join_amp (t :: l)). rewrite split_on_sep by exact Hs. rewrite IH by discriminate. reflexivity.
Qed.
Lemma name_of_app s r : ~ In "="%byte s -> name_of (s ++ "="%byte :: r) = s.
Proof.
  induction s as [|b s IH]; intros H; [reflexivity|]. cbn [app name_of]. rewrite IH by (intros Hi; apply H; right; exact Hi).
  replace (Byte.eqb b "=") with false; [reflexivity|]. symmetry. apply Byte_eqb_neq. intros ->. apply H. left. reflexivity.
Qed.
Lemma value_of_app s r : ~ In "="%byte s -> value_of (s ++ "="%byte :: r) = r.
Proof.
  induction s as [|b s IH]; intros H; [reflexivity|]. cbn [app value_of]. rewrite IH by (intros Hi; apply H; right; exact Hi).
  replace (Byte.eqb b "=") with false; [reflexivity|]. symmetry. apply Byte_eqb_neq. intros ->. apply H. left. reflexivity.
Qed.

(* ------------------------------------------------------------------ *)
(** * Values *)
Lemma filter_all {A} (f : A -> bool) l : (forall x, In x l -> f x = true) -> filter f l = l.
Proof. induction l as [|x l IH]; intros H; [reflexivity|]. cbn [filter]. rewrite (H x) by (left; reflexivity). f_equal. apply IH. intros y Hy. apply H. right. exact Hy. Qed.
Definition flat (v : values) : list (bytes * bytes) := flat_map (fun kl => map (pair (fst kl)) (snd kl)) v.
Lemma form_pairs_text ps : form_pairs (join_amp (map (fun p => pair_text (fst p) (snd p)) ps)) = ps.
Proof.
  destruct ps as [|p0 ps0]; [reflexivity|]. set (ps := p0 :: ps0). unfold form_pairs.
  assert (Hno : forall k c, c = "&"%byte \/ c = "="%byte -> ~ In c (QueryEscape k)).
  { intros k c Hc Hi. apply QueryEscape_safe in Hi. destruct Hi as [H1 H2]. destruct Hc; congruence. }
  rewrite split_join.
  - rewrite filter_all.
    + rewrite map_map. rewrite <- (map_id ps) at 2. apply map_ext. intros [k x]. cbn [fst snd]. unfold pair_text. change (B "=") with ["="%byte]. cbn [app].
      rewrite name_of_app, value_of_app by (apply Hno; auto). rewrite !form_decode_escape. reflexivity.
    + intros s Hs. apply in_map_iff in Hs. destruct Hs as ([k x] & <- & _). unfold pair_text. cbn [fst snd]. destruct (QueryEscape k); reflexivity.
  - discriminate.
  - apply Forall_forall. intros s Hs. apply in_map_iff in Hs. destruct Hs as ([k x] & <- & _). unfold pair_text. cbn [fst snd]. rewrite !in_app_iff. intros [H|[H|H]].
    + exact (Hno k _ (or_introl eq_refl) H).
    + destruct H as [H|[]]; discriminate.
    + exact (Hno x _ (or_introl eq_refl) H).
Qed.
Lemma encode_pairs_flat v : encode_pairs v = map (fun p => pair_text (fst p) (snd p)) (flat (ksort v)).
Proof.
  unfold encode_pairs, flat. induction (ksort v) as [|[k l] r IH]; [reflexivity|]. cbn [flat_map fst snd]. rewrite map_app, map_map, IH. reflexivity.
Qed.
Lemma form_pairs_Encode v : form_pairs (TrackerModel.Encode v) = flat (ksort v).
Proof. unfold TrackerModel.Encode. rewrite encode_pairs_flat. apply form_pairs_text. Qed.
Lemma values_of_app a b k : values_of (a ++ b) k = values_of a k ++ values_of b k.
Proof. unfold values_of. rewrite filter_app, map_app. reflexivity. Qed.
Lemma values_of_same k l : values_of (map (pair k) l) k = l.
Proof. unfold values_of. induction l as [|x l IH]; [reflexivity|]. cbn [map filter fst]. rewrite beqb_refl. cbn [map snd]. rewrite IH. reflexivity. Qed.
Lemma values_of_other k k' l : k <> k' -> values_of (map (pair k) l) k' = [].
Proof. intros H. unfold values_of. induction l as [|x l IH]; [reflexivity|]. cbn [map filter fst]. rewrite (proj2 (beqb_neq k k') H). exact IH. Qed.
Lemma flat_notin v k : ~ In k (map fst v) -> values_of (flat v) k = [].
Proof.
  induction v as [|[k' l] v IH]; intros H; [reflexivity|]. cbn [flat flat_map fst snd]. rewrite values_of_app, values_of_other by (intros ->; apply H; left; reflexivity).
  apply IH. intros Hi. apply H. right. exact Hi.
Qed.
Lemma values_of_flat v k : NoDup (map fst v) -> values_of (flat v) k = vget v k.
Proof.
  induction v as [|[k' l] v IH]; intros H; [reflexivity|]. cbn [map fst] in H. inversion H as [|? ? Hk Hr]; subst. cbn [flat flat_map fst snd vget]. rewrite values_of_app. destruct (beqb k k') eqn:E.
  - apply beqb_eq in E. subst k'. rewrite values_of_same. change (flat_map _ v) with (flat v). rewrite flat_notin by exact Hk. apply app_nil_r.
  - apply beqb_neq in E. rewrite values_of_other by congruence. exact (IH Hr).
Qed.
Lemma vget_in v k l : NoDup (map fst v) -> In (k, l) v -> vget v k = l.
Proof.
  induction v as [|[k' l'] v IH]; intros H Hi; [contradiction|]. cbn [map fst] in H. inversion H as [|? ? Hk Hr]; subst. cbn [vget]. destruct (beqb k k') eqn:E.
  - apply beqb_eq in E. subst k'. destruct Hi as [Hi|Hi]; [congruence|]. exfalso. apply Hk. exact (in_map fst _ _ Hi).
  - apply beqb_neq in E. destruct Hi as [Hi|Hi]; [congruence|]. auto.
Qed.
Lemma vget_notin v k : ~ In k (map fst v) -> vget v k = [].
Proof.
  induction v as [|[k' l] v IH]; intros H; [reflexivity|]. cbn [vget]. rewrite (proj2 (beqb_neq k k')); [apply IH; intros Hi; apply H; right; exact Hi|]. intros ->. apply H. left. reflexivity.
Qed.
Lemma vget_perm v w k : Permutation v w -> NoDup (map fst v) -> vget w k = vget v k.
Proof.
  intros HP H. assert (Hw : NoDup (map fst w)) by (eapply Permutation_NoDup; [apply Permutation_map; exact HP|exact H]).
  destruct (in_dec bytes_dec k (map fst v)) as [Hi|Hn].
  - apply in_map_iff in Hi. destruct Hi as ([k' l] & E & Hi). cbn [fst] in E. subst k'. rewrite (vget_in v k l H Hi). apply vget_in; [exact Hw|]. eapply Permutation_in; eassumption.
  - rewrite (vget_notin v k Hn). apply vget_notin. intros Hi. apply Hn. eapply Permutation_in; [apply Permutation_map, Permutation_sym, HP|exact Hi].
Qed.
Lemma form_values_Encode v k : NoDup (map fst v) -> form_values (TrackerModel.Encode v) k = vget v k.
Proof.
  intros H. unfold form_values. rewrite form_pairs_Encode. pose proof (ksort_perm_self v) as HP. rewrite values_of_flat; [apply vget_perm; assumption|].
  eapply Permutation_NoDup; [apply Permutation_map; exact HP|exact H].
Qed.
Lemma vadd_get v k x k' : vget (vadd v k x) k' = vget v k' ++ values_of [(k, x)] k'.
Proof.
  assert (HV : values_of [(k, x)] k' = if beqb k k' then [x] else []) by (unfold values_of; cbn [filter fst]; destruct (beqb k k'); reflexivity).
  induction v as [|[q l] v IH]; cbn [vadd vget].
  - rewrite HV. destruct (beqb k' k) eqn:E; [apply beqb_eq in E; subst; rewrite beqb_refl; reflexivity|]. apply beqb_neq in E. rewrite (proj2 (beqb_neq k k')) by congruence. reflexivity.
  - destruct (beqb k q) eqn:E; cbn [vget].
    + apply beqb_eq in E. subst q. destruct (beqb k' k) eqn:E'; [apply beqb_eq in E'; subst k'; rewrite HV, beqb_refl; reflexivity|]. apply beqb_neq in E'.
      rewrite HV, (proj2 (beqb_neq k k')) by congruence. rewrite app_nil_r. reflexivity.
    + destruct (beqb k' q) eqn:E'; [|exact IH]. apply beqb_eq in E'. subst k'. rewrite HV, E, app_nil_r. reflexivity.
Qed.
Lemma vadd_keys v k x : map fst (vadd v k x) = map fst v \/ (~ In k (map fst v) /\ map fst (vadd v k x) = map fst v ++ [k]).
Proof.
  induction v as [|[q l] v IH]; cbn [vadd map fst]; [right; split; [tauto|reflexivity]|]. destruct (beqb k q) eqn:E; cbn [map fst]; [left; reflexivity|]. apply beqb_neq in E.
  destruct IH as [IH|[Hn IH]]; rewrite IH; [left; reflexivity|]. right. split; [|reflexivity]. intros [H|H]; [congruence|auto].
Qed.
Lemma vadd_nodup v k x : NoDup (map fst v) -> NoDup (map fst (vadd v k x)).
Proof.
  intros H. destruct (vadd_keys v k x) as [E|[Hn E]]; rewrite E; [exact H|]. apply NoDup_Add with (a := k) (l := map fst v); [|split; assumption].
  rewrite <- (app_nil_r (map fst v)) at 1. apply Add_app.
Qed.

(* ------------------------------------------------------------------ *)
(** * ParseQuery *)
Lemma unhex_eq b : unhex b = hexval b.
Proof. unfold unhex, hexval. destruct b; reflexivity. Qed.
(** A piece of the query the parser keeps. *)
Definition kept (p : bytes) : bool := nonempty p && (escapes_ok (name_of p) && escapes_ok (value_of p)).
Lemma escapes_spec : forall n s, (List.length s <= n)%nat ->
  if escapes_ok s then has ";" s = false /\ QueryUnescape s = Ok (form_decode s) else has ";" s = true \/ exists e, QueryUnescape s = Err e.
Proof.
  induction n as [|n IH]; intros [|b s] H; cbn [List.length] in H; try lia; try (split; reflexivity).
  cbn [escapes_ok QueryUnescape form_decode]. destruct (Byte.eqb b "%") eqn:Eb.
  - apply Byte_eqb_eq in Eb. subst b. destruct s as [|x [|y r]]; try (right; eexists; reflexivity). rewrite !unhex_eq.
    destruct (hexval x) as [h|] eqn:Ex; [|right; eexists; reflexivity]. destruct (hexval y) as [l|] eqn:Ey; [|right; eexists; reflexivity].
    specialize (IH r ltac:(cbn [List.length] in H; lia)). destruct (escapes_ok r).
    + destruct IH as [H1 H2]. rewrite H2. split; [|reflexivity]. cbn [has existsb]. fold (has ";" r). rewrite H1.
      assert (Hx : forall q z, hexval q = Some z -> Byte.eqb ";" q = false) by (intros q z Hq; destruct q; try reflexivity; discriminate).
      rewrite (Hx _ _ Ex), (Hx _ _ Ey). reflexivity.
    + destruct IH as [H1|(e & H1)]; [left|right; exists e; rewrite H1; reflexivity]. cbn [has existsb]. fold (has ";" r). rewrite H1, !orb_true_r. reflexivity.
  - specialize (IH s ltac:(lia)). destruct (Byte.eqb b ";") eqn:Es; cbn [negb andb].
    + left. apply Byte_eqb_eq in Es. subst b. reflexivity.
    + assert (Hh : has ";" (b :: s) = has ";" s). { unfold has. cbn [existsb]. assert (Hb : Byte.eqb ";" b = false) by (apply Byte_eqb_neq in Es; apply Byte_eqb_neq; congruence). rewrite Hb. reflexivity. }
      rewrite Hh. destruct (escapes_ok s).
      * destruct IH as [H1 H2]. rewrite H2. split; [exact H1|reflexivity].
      * destruct IH as [H1|(e & H1)]; [left; exact H1|right; exists e; rewrite H1; reflexivity].
Qed.
Lemma cut_eq s : cut "=" s = (name_of s, value_of s).
Proof. induction s as [|b s IH]; [reflexivity|]. cbn [cut name_of value_of]. destruct (Byte.eqb b "="); [reflexivity|]. rewrite IH. reflexivity. Qed.
Lemma has_cut s : has ";" s = (has ";" (name_of s) || has ";" (value_of s))%bool.
Proof.
  induction s as [|b s IH]; [reflexivity|]. cbn [name_of value_of]. destruct (Byte.eqb b "=") eqn:E.
  - apply Byte_eqb_eq in E. subst b. reflexivity.
  - cbn [has existsb]. fold (has ";" s). fold (has ";" (name_of s)). rewrite IH, orb_assoc. reflexivity.
Qed.
Lemma parse_piece_eq v p : parse_piece v p = if kept p then vadd v (form_decode (name_of p)) (form_decode (value_of p)) else v.
Proof.
  unfold parse_piece, kept. rewrite has_cut, cut_eq. pose proof (escapes_spec _ (name_of p) (le_n _)) as Hn. pose proof (escapes_spec _ (value_of p) (le_n _)) as Hv.
  assert (Hne : beqb p [] = negb (nonempty p)) by (destruct p; reflexivity). rewrite Hne. destruct (nonempty p); cbn [negb andb]; [|destruct (_ || _)%bool; reflexivity].
  destruct (escapes_ok (name_of p)), (escapes_ok (value_of p)); cbn [andb].
  - destruct Hn as [-> ->], Hv as [-> ->]. reflexivity.
  - destruct Hn as [-> ->], Hv as [->|(e & ->)]; [reflexivity|]. destruct (_ || _)%bool; reflexivity.
  - destruct Hn as [->|(e & ->)]; [reflexivity|]. destruct (_ || _)%bool; reflexivity.
  - destruct Hn as [->|(e & ->)]; [reflexivity|]. destruct (_ || _)%bool; reflexivity.
Qed.
Lemma split_on_cons c s : exists h t, split_on c s = h :: t.
Proof. induction s as [|b s (h & t & E)]; cbn [split_on]; [eauto|]. destruct (Byte.eqb b c); [eauto|]. rewrite E. eauto. Qed.
Lemma pieces_amp_eq s : forall cur, pieces_amp s cur = match split_on "&" s with h :: t => (cur ++ h) :: t | [] => [] end.
Proof.
  induction s as [|b s IH]; intros cur; cbn [pieces_amp split_on]; [rewrite app_nil_r; reflexivity|]. destruct (split_on_cons "&" s) as (h & t & E). destruct (Byte.eqb b "&").
  - rewrite IH, E, app_nil_r. reflexivity.
  - rewrite IH, E, <- app_assoc. reflexivity.
Qed.
Lemma pieces_split s : pieces_amp s [] = split_on "&" s.
Proof. rewrite pieces_amp_eq. destruct (split_on_cons "&" s) as (h & t & ->). reflexivity. Qed.
Definition decode_piece (s : bytes) : bytes * bytes := (form_decode (name_of s), form_decode (value_of s)).
Lemma parse_fold l : forall v, NoDup (map fst v) ->
  let w := fold_left parse_piece l v in NoDup (map fst w) /\ forall k, vget w k = vget v k ++ values_of (map decode_piece (filter kept l)) k.
Proof.
  induction l as [|p l IH]; intros v Hv; [split; [exact Hv|intros k; cbn; rewrite app_nil_r; reflexivity]|]. cbn [fold_left filter]. rewrite parse_piece_eq. destruct (kept p).
  - destruct (IH (vadd v (form_decode (name_of p)) (form_decode (value_of p))) (vadd_nodup _ _ _ Hv)) as [H1 H2]. split; [exact H1|]. intros k. rewrite H2, vadd_get. cbn [map].
    change (?x :: map ?f ?r) with ([x] ++ map f r). rewrite values_of_app, app_assoc. reflexivity.
  - exact (IH v Hv).
Qed.
Lemma ParseQuery_nodup raw : NoDup (map fst (ParseQuery raw)).
Proof. apply parse_fold. constructor. Qed.
Lemma ParseQuery_get raw k : vget (ParseQuery raw) k = values_of (map decode_piece (filter kept (split_on "&" raw))) k.
Proof. unfold ParseQuery. rewrite (proj2 (parse_fold (pieces_amp raw []) [] (NoDup_nil _))), pieces_split. reflexivity. Qed.
Lemma filter_ext_in' {A} (f g : A -> bool) l : (forall x, In x l -> f x = g x) -> filter f l = filter g l.
Proof. induction l as [|x l IH]; intros H; [reflexivity|]. cbn [filter]. rewrite (H x) by (left; reflexivity). rewrite IH by (intros y Hy; apply H; right; exact Hy). reflexivity. Qed.
Lemma ParseQuery_clean raw k : clean_query raw -> vget (ParseQuery raw) k = form_values raw k.
Proof.
  intros H. rewrite ParseQuery_get. unfold form_values, form_pairs. rewrite (filter_ext_in' kept nonempty); [reflexivity|].
  intros s Hs. unfold kept. destruct (H s Hs) as [-> ->]. apply andb_true_r.
Qed.

(* ------------------------------------------------------------------ *)
(** * The request *)
Lemma request_values raw ih st port id q k : newRequest (Some raw) ih st port id = Ok q ->
  form_values q k = values_of (map decode_piece (filter kept (split_on "&" raw))) k ++ values_of (announce_params ih st port (QueryEscape id)) k.
Proof.
  unfold newRequest. cbv zeta. intros H. assert (Hq := f_equal (fun r => match r with Ok x => x | _ => q end) H). cbv beta iota in Hq. rewrite <- Hq.
  rewrite form_values_Encode by (repeat apply vadd_nodup; apply ParseQuery_nodup). rewrite !vadd_get, ParseQuery_get, <- !app_assoc. f_equal.
  rewrite <- !values_of_app. reflexivity.
Qed.
Lemma request_ok raw ih st port id : exists q, newRequest (Some raw) ih st port id = Ok q.
Proof. eexists. reflexivity. Qed.
Lemma request_clean raw ih st port id : clean_query raw -> exists q, newRequest (Some raw) ih st port id = Ok q /\ forall k, form_values q k = form_values raw k ++ values_of (announce_params ih st port (QueryEscape id)) k.
Proof.
  intros H. destruct (request_ok raw ih st port id) as (q & E). exists q. split; [exact E|]. intros k. rewrite (request_values _ _ _ _ _ _ k E). f_equal.
  rewrite <- ParseQuery_get. apply ParseQuery_clean, H.
Qed.
Lemma request_panics ih st port id : newRequest None ih st port id = Panic.
Proof. reflexivity. Qed.
Lemma is_letter_plain b : is_letter b -> plain b.
Proof. unfold is_letter, plain. tauto. Qed.
Lemma NewPeerId_plain src fuel id : NewPeerId src fuel = Ok id -> QueryEscape id = id.
Proof.
  intros H. apply QueryEscape_id. destruct (NewPeerId_sound _ _ _ H) as (m & r & -> & _ & _ & Hr). apply Forall_app. split.
  - apply Forall_forall. intros b Hb. apply unreserved_iff. cbn in Hb. repeat (destruct Hb as [<-|Hb]; [reflexivity|]). contradiction.
  - eapply Forall_impl; [|exact Hr]. exact is_letter_plain.
Qed.

(* ------------------------------------------------------------------ *)
(** * Compact peer lists *)
Lemma compact_loop_ok : forall k s, zlen s = 6 * Z.of_nat k -> exists l, compact_loop s = Ok l /\ List.length l = k /\ forall i p, nth_error l i = Some p -> compact_entry s i p.
Proof.
  induction k as [|k IH]; intros s H.
  - destruct s; [|unfold zlen in H; cbn [List.length] in H; lia]. exists []. split; [reflexivity|]. split; [reflexivity|]. intros [|i] p E; discriminate.
  - destruct s as [|a [|b [|c [|d [|e [|f s]]]]]]; try (exfalso; unfold zlen in H; cbn [List.length] in H; lia).
    destruct (IH s) as (l & El & Hl & He); [unfold zlen in *; cbn [List.length] in H; lia|]. cbn [compact_loop rd16 bind]. rewrite El. cbn [bind]. eexists. split; [reflexivity|].
    split; [cbn [List.length]; lia|]. intros [|i] p E; cbn [nth_error] in E.
    + assert (p = MakePeer [] (IPv4 a b c d) (b2z e * 256 + b2z f)) as -> by congruence. exists a, b, c, d, e, f. split; reflexivity.
    + destruct (He i p E) as (a' & b' & c' & d' & e' & f' & Hs & Hp). exists a', b', c', d', e', f'. split; [|exact Hp]. rewrite <- Hs. unfold sub.
      replace (6 * S i)%nat with (S (S (S (S (S (S (6 * i)))))))%nat by lia. reflexivity.
Qed.
Lemma compact_top s : (zlen s mod 6 = 0 -> exists l, string_GetPeers s = Ok l /\ compact_list s l) /\ (zlen s mod 6 <> 0 -> string_GetPeers s = Err EInvalid).
Proof.
  unfold string_GetPeers. split; intros H.
  - rewrite H. cbn [Z.eqb]. pose proof (Z.div_mod (zlen s) 6 ltac:(lia)) as Hd. pose proof (zlen_nonneg s). assert (0 <= zlen s / 6) by (apply Z.div_pos; lia).
    destruct (compact_loop_ok (Z.to_nat (zlen s / 6)) s) as (l & E & Hl & He); [lia|]. exists l. split; [exact E|]. split; [unfold zlen in *; lia|exact He].
  - destruct (Z.eqb_spec (zlen s mod 6) 0); [contradiction|reflexivity].
Qed.
Lemma ext_nth {A} (l : list A) : forall l', (forall i, nth_error l i = nth_error l' i) -> l = l'.
Proof.
  induction l as [|x l IH]; intros [|y l'] H; [reflexivity|specialize (H 0%nat); discriminate|specialize (H 0%nat); discriminate|].
  f_equal; [specialize (H 0%nat); cbn in H; congruence|apply IH; intros i; exact (H (S i))].
Qed.
Lemma compact_unique s l l' : compact_list s l -> compact_list s l' -> l = l'.
Proof.
  intros [HL He] [HL' He']. assert (List.length l = List.length l') by (unfold zlen in *; lia). apply ext_nth. intros i.
  destruct (nth_error l i) as [p|] eqn:E, (nth_error l' i) as [p'|] eqn:E'.
  - destruct (He i p E) as (a & b & c & d & e & f & Hs & ->), (He' i p' E') as (a' & b' & c' & d' & e' & f' & Hs' & ->). assert (HX : [a; b; c; d; e; f] = [a'; b'; c'; d'; e'; f']) by congruence.
    injection HX as -> -> -> -> -> ->. reflexivity.
  - apply nth_error_None in E'. assert (i < List.length l)%nat by (apply nth_error_Some; congruence). lia.
  - apply nth_error_None in E. assert (i < List.length l')%nat by (apply nth_error_Some; congruence). lia.
  - reflexivity.
Qed.
Lemma compact_iff s l : string_GetPeers s = Ok l <-> compact_list s l.
Proof.
  destruct (compact_top s) as [H1 H2]. split.
  - intros H. destruct (Z.eq_dec (zlen s mod 6) 0) as [E|E]; [|rewrite (H2 E) in H; discriminate]. destruct (H1 E) as (l' & E' & HC). congruence.
  - intros H. assert (E : zlen s mod 6 = 0) by (destruct H as [HL _]; rewrite HL, Z.mul_comm; apply Z.mod_mul; lia). destruct (H1 E) as (l' & E' & HC). rewrite E'. f_equal. exact (compact_unique s l' l HC H).
Qed.
Lemma string_GetPeers_cases s : (exists l, string_GetPeers s = Ok l) \/ string_GetPeers s = Err EInvalid.
Proof. destruct (compact_top s) as [H1 H2]. destruct (Z.eq_dec (zlen s mod 6) 0) as [E|E]; [left; destruct (H1 E) as (l & El & _); eauto|right; auto]. Qed.

(* ------------------------------------------------------------------ *)
(** * Responses *)
Lemma GetString_iff d k s : NoDup (map fst d) -> (GetString d k = Ok s <-> str_field d k s).
Proof. intros H. apply (proj1 (GetString_spec d k H)). Qed.
Lemma GetUint_iff d k u : NoDup (map fst d) -> (GetUint d k = Ok u <-> exists z, int_field d k z /\ u = z mod 18446744073709551616).
Proof.
  intros H. unfold GetUint. pose proof (proj1 (GetInt_spec d k H)) as HI. split.
  - intros E. apply bind_ok in E. destruct E as (z & E & E'). exists z. split; [apply HI, E|]. unfold u64 in E'. congruence.
  - intros (z & Hz & ->). apply HI in Hz. rewrite Hz. reflexivity.
Qed.
Lemma GetString_kind d k : (exists s, GetString d k = Ok s) \/ exists e, GetString d k = Err e.
Proof. unfold GetString, dict_get. destruct (dget k d) as [[]|]; cbn [bind]; eauto. Qed.
Lemma GetUint_kind d k : (exists s, GetUint d k = Ok s) \/ exists e, GetUint d k = Err e.
Proof. unfold GetUint, GetInt, dict_get. destruct (dget k d) as [[|[]| | |]|]; cbn [bind]; eauto. Qed.
Lemma GetList_kind d k : (exists s, GetList d k = Ok s) \/ exists e, GetList d k = Err e.
Proof. unfold GetList, dict_get. destruct (dget k d) as [[]|]; cbn [bind]; eauto. Qed.
Lemma port_mod z : u16 (z mod 18446744073709551616) = z mod 65536.
Proof. unfold u16. symmetry. apply (Znumtheory.Zmod_div_mod 65536 18446744073709551616); [lia|lia|]. exists 281474976710656. reflexivity. Qed.

Section WithParseIP.
Context (parseIP : bytes -> ip).
Lemma list_GetPeers_iff l : Forall go_wf l -> forall ps, list_GetPeers parseIP l = Ok ps <-> Forall2 (peer_entry parseIP) l ps.
Proof.
  induction 1 as [|v l Hv Hl IH]; intros ps.
  - cbn [list_GetPeers]. split; [intros E; assert (ps = []) as -> by congruence; constructor|]. intros HF. inversion HF. reflexivity.
  - split.
    + intros E. destruct v as [|? ?|d|?|]; try discriminate. cbn [list_GetPeers] in E. assert (Hd : NoDup (map fst d)) by (inversion Hv; assumption).
      apply bind_ok in E. destruct E as (ip & E1 & E). apply bind_ok in E. destruct E as (port & E2 & E). apply bind_ok in E. destruct E as (id & E3 & E). apply bind_ok in E. destruct E as (rest & E4 & E).
      assert (ps = MakePeer id (parseIP ip) (u16 port) :: rest) as -> by congruence. constructor; [|apply IH, E4].
      apply (GetUint_iff d _ _ Hd) in E2. destruct E2 as (z & Hz & ->). exists d, ip, z, id. split; [reflexivity|]. split; [apply GetString_iff; assumption|]. split; [exact Hz|]. split; [apply GetString_iff; assumption|]. rewrite port_mod. reflexivity.
    + intros HF. inversion HF as [|? p ? ps' Hp Hps]; subst. destruct Hp as (d & ip & port & id & -> & H1 & H2 & H3 & ->). assert (Hd : NoDup (map fst d)) by (inversion Hv; assumption).
      cbn [list_GetPeers]. rewrite (proj2 (GetString_iff d _ _ Hd) H1). cbn [bind]. rewrite (proj2 (GetUint_iff d (B "port") _ Hd) (ex_intro _ _ (conj H2 eq_refl))). cbn [bind].
      rewrite (proj2 (GetString_iff d _ _ Hd) H3). cbn [bind]. rewrite (proj2 (IH ps') Hps). cbn [bind]. rewrite port_mod. reflexivity.
Qed.
Lemma list_GetPeers_kind l : (exists ps, list_GetPeers parseIP l = Ok ps) \/ exists e, list_GetPeers parseIP l = Err e.
Proof.
  induction l as [|v l IH]; [left; eexists; reflexivity|]. destruct v as [|? ?|d|?|]; try (right; eexists; reflexivity). cbn [list_GetPeers].
  destruct (GetString_kind d (B "ip")) as [(ip & ->)|(e & ->)]; cbn [bind]; [|eauto]. destruct (GetUint_kind d (B "port")) as [(p & ->)|(e & ->)]; cbn [bind]; [|eauto].
  destruct (GetString_kind d (B "peer id")) as [(id & ->)|(e & ->)]; cbn [bind]; [|eauto]. destruct IH as [(ps & ->)|(e & ->)]; cbn [bind]; eauto.
Qed.
Definition peers_of (d : list (bytes * gval)) : res (list info) :=
  match GetString d (B "peers") with Ok s => string_GetPeers s | _ => do l <- GetList d (B "peers"); list_GetPeers parseIP l end.
Lemma peers_of_kind d : (exists ps, peers_of d = Ok ps) \/ exists e, peers_of d = Err e.
Proof.
  unfold peers_of. destruct (GetString_kind d (B "peers")) as [(s & ->)|(e & ->)].
  - destruct (string_GetPeers_cases s) as [(l & ->)| ->]; eauto.
  - destruct (GetList_kind d (B "peers")) as [(l & ->)|(e' & ->)]; cbn [bind]; [apply list_GetPeers_kind|eauto].
Qed.
Lemma peers_of_iff d ps : go_wf (VDict d) -> (peers_of d = Ok ps <->
  (exists s, str_field d (B "peers") s /\ compact_list s ps) \/ (exists l, In (B "peers", VList l) d /\ Forall2 (peer_entry parseIP) l ps)).
Proof.
  intros Hw. inversion Hw as [| |? Hd _ HF| |]; subst. unfold peers_of. pose proof (GetString_iff d (B "peers")) as HS.
  assert (HGL : forall l, GetList d (B "peers") = Ok l <-> In (B "peers", VList l) d) by (intros l; apply (proj1 (GetList_spec d (B "peers") Hd))).
  assert (HL : forall l, In (B "peers", VList l) d -> Forall go_wf l).
  { intros l Hl. rewrite Forall_forall in HF. specialize (HF _ Hl). cbn [snd] in HF. inversion HF. assumption. }
  split.
  - intros E. destruct (GetString d (B "peers")) as [s|?| |] eqn:Es.
    + left. exists s. split; [apply (HS s Hd); reflexivity|]. apply compact_iff, E.
    + apply bind_ok in E. destruct E as (l & E1 & E). right. exists l. apply HGL in E1. split; [exact E1|]. apply list_GetPeers_iff; [exact (HL l E1)|exact E].
    + destruct (GetString_kind d (B "peers")) as [(x & H)|(x & H)]; congruence.
    + destruct (GetString_kind d (B "peers")) as [(x & H)|(x & H)]; congruence.
  - intros [(s & Hs & HC)|(l & Hl & HF2)].
    + rewrite (proj2 (HS s Hd) Hs). apply compact_iff, HC.
    + destruct (GetString d (B "peers")) as [s|?| |] eqn:Es.
      * exfalso. apply (GetString_iff _ _ s Hd) in Es. unfold str_field in Es. apply (dget_in _ _ _ Hd) in Es, Hl. congruence.
      * rewrite (proj2 (HGL l) Hl). cbn [bind]. apply list_GetPeers_iff; [exact (HL l Hl)|exact HF2].
      * destruct (GetString_kind d (B "peers")) as [(x & H)|(x & H)]; congruence.
      * destruct (GetString_kind d (B "peers")) as [(x & H)|(x & H)]; congruence.
Qed.
Lemma int_field_unique d k z z' : NoDup (map fst d) -> int_field d k z -> int_field d k z' -> z = z'.
Proof. intros Hd H H'. apply (dget_in _ _ _ Hd) in H, H'. congruence. Qed.
Lemma opt_str d k : NoDup (map fst d) -> forall v, v = default [] (GetString d k) <-> opt_field (fun w => str_field d k w) [] v.
Proof.
  intros Hd v. unfold opt_field. destruct (GetString d k) as [s|?| |] eqn:E; cbn [default].
  - apply (GetString_iff _ _ _ Hd) in E. split; [intros ->; left; exact E|]. intros [H|[H _]]; [|exfalso; exact (H s E)]. apply (dget_in _ _ _ Hd) in H, E. congruence.
  - assert (Hn : forall a, ~ str_field d k a) by (intros a Ha; apply (GetString_iff _ _ _ Hd) in Ha; congruence). split; [intros ->; right; auto|]. intros [H|[_ H]]; [exfalso; exact (Hn v H)|exact H].
  - destruct (GetString_kind d k) as [(x & H)|(x & H)]; congruence.
  - destruct (GetString_kind d k) as [(x & H)|(x & H)]; congruence.
Qed.
Lemma opt_int d k : NoDup (map fst d) -> forall v, v = default 0 (GetUint d k) <-> opt_field (fun m => exists z, int_field d k z /\ m = z mod 18446744073709551616) 0 v.
Proof.
  intros Hd v. unfold opt_field. destruct (GetUint d k) as [s|?| |] eqn:E; cbn [default].
  - apply (GetUint_iff _ _ _ Hd) in E. split; [intros ->; left; exact E|]. intros [(z & H & ->)|[H _]]; [|exfalso; exact (H s E)]. destruct E as (z' & E & ->). rewrite (int_field_unique _ _ _ _ Hd H E). reflexivity.
  - assert (Hn : forall a, ~ exists z, int_field d k z /\ a = z mod 18446744073709551616) by (intros a Ha; apply (GetUint_iff _ _ _ Hd) in Ha; congruence). split; [intros ->; right; auto|]. intros [H|[_ H]]; [exfalso; exact (Hn v H)|exact H].
  - destruct (GetUint_kind d k) as [(x & H)|(x & H)]; congruence.
  - destruct (GetUint_kind d k) as [(x & H)|(x & H)]; congruence.
Qed.
Lemma newResponse_iff d r : go_wf (VDict d) -> (newResponse parseIP d = Ok r <-> good_response parseIP d r).
Proof.
  intros Hw. assert (Hd : NoDup (map fst d)) by (inversion Hw; assumption). unfold newResponse, good_response. fold (peers_of d).
  destruct (GetString_kind d (B "failure reason")) as [(s & E)|(e & E)]; rewrite E.
  - split; [discriminate|]. intros (H & _). exfalso. exact (H s (proj1 (GetString_iff _ _ _ Hd) E)).
  - assert (Hn : forall s, ~ str_field d (B "failure reason") s) by (intros s Hs; apply (GetString_iff _ _ _ Hd) in Hs; congruence). split.
    + intros H. apply bind_ok in H. destruct H as (i & H1 & H). apply bind_ok in H. destruct H as (c & H2 & H). apply bind_ok in H. destruct H as (n & H3 & H). apply bind_ok in H. destruct H as (ps & H4 & H).
      apply (GetUint_iff _ _ _ Hd) in H1, H2, H3. destruct H1 as (z1 & H1 & ->), H2 as (z2 & H2 & ->), H3 as (z3 & H3 & ->).
      match type of H with Ok ?x = _ => assert (r = x) as -> by congruence end. cbn [r_state r_peers t_interval t_seeders t_leechers t_warning t_minInterval t_tid].
      split; [exact Hn|]. split; [eauto|]. split; [eauto|]. split; [eauto|]. split; [apply peers_of_iff; assumption|]. split; [apply opt_str; [exact Hd|reflexivity]|]. split; [apply opt_int; [exact Hd|reflexivity]|]. reflexivity.
    + intros (_ & (z1 & H1 & T1) & (z2 & H2 & T2) & (z3 & H3 & T3) & H4 & H5 & H6 & H7).
      rewrite (proj2 (GetUint_iff _ (B "interval") _ Hd) (ex_intro _ _ (conj H1 eq_refl))). cbn [bind]. rewrite (proj2 (GetUint_iff _ (B "complete") _ Hd) (ex_intro _ _ (conj H2 eq_refl))). cbn [bind].
      rewrite (proj2 (GetUint_iff _ (B "incomplete") _ Hd) (ex_intro _ _ (conj H3 eq_refl))). cbn [bind]. rewrite (proj2 (peers_of_iff d _ Hw) H4). cbn [bind].
      apply (opt_str d _ Hd) in H5. apply (opt_int d _ Hd) in H6. rewrite <- H5, <- H6, <- T1, <- T2, <- T3. destruct r as [[a b w t s l] ps]. cbn in *. subst t. reflexivity.
Qed.
Lemma newResponse_failure d s : NoDup (map fst d) -> (newResponse parseIP d = Err (EFail s) <-> str_field d (B "failure reason") s).
Proof.
  intros Hd. unfold newResponse. fold (peers_of d). destruct (GetString_kind d (B "failure reason")) as [(s' & E)|(e & E)]; rewrite E.
  - rewrite <- (GetString_iff _ _ _ Hd), E. split; intros H; congruence.
  - split; [|intros H; apply (GetString_iff _ _ _ Hd) in H; congruence]. intros H. exfalso.
    assert (HU : forall k e', GetUint d k = Err e' -> e' <> EFail s) by (intros k e'; unfold GetUint, GetInt, dict_get; destruct (dget k d) as [[|[]| | |]|]; cbn [bind]; congruence).
    destruct (GetUint d (B "interval")) as [?|e1| |] eqn:E1; cbn [bind] in H; try discriminate; [|apply HU in E1; congruence].
    destruct (GetUint d (B "complete")) as [?|e1| |] eqn:E2; cbn [bind] in H; try discriminate; [|apply HU in E2; congruence].
    destruct (GetUint d (B "incomplete")) as [?|e1| |] eqn:E3; cbn [bind] in H; try discriminate; [|apply HU in E3; congruence].
    assert (HP : forall e', peers_of d = Err e' -> e' <> EFail s).
    { intros e'. unfold peers_of. assert (HSt : forall q k e0, GetString q k = Err e0 -> e0 <> EFail s) by (intros q k e0; unfold GetString, dict_get; destruct (dget k q) as [[]|]; cbn [bind]; congruence).
      assert (HUq : forall q k e0, GetUint q k = Err e0 -> e0 <> EFail s) by (intros q k e0; unfold GetUint, GetInt, dict_get; destruct (dget k q) as [[|[]| | |]|]; cbn [bind]; congruence).
      assert (HLl : forall l e0, list_GetPeers parseIP l = Err e0 -> e0 <> EFail s).
      { induction l as [|v l IHl]; intros e0 He; [discriminate|]. destruct v as [|? ?|q|?|]; try (cbn in He; congruence). cbn [list_GetPeers] in He.
        destruct (GetString q (B "ip")) as [?|e1| |] eqn:F1; cbn [bind] in He; try discriminate; [|apply HSt in F1; congruence].
        destruct (GetUint q (B "port")) as [?|e1| |] eqn:F2; cbn [bind] in He; try discriminate; [|apply HUq in F2; congruence].
        destruct (GetString q (B "peer id")) as [?|e1| |] eqn:F3; cbn [bind] in He; try discriminate; [|apply HSt in F3; congruence].
        destruct (list_GetPeers parseIP l) as [?|e1| |] eqn:F4; cbn [bind] in He; try discriminate. specialize (IHl e1 eq_refl). congruence. }
      destruct (GetString_kind d (B "peers")) as [(p & ->)|(e0 & ->)].
      - destruct (string_GetPeers_cases p) as [(l & ->)| ->]; congruence.
      - destruct (GetList d (B "peers")) as [l|e1| |] eqn:F; cbn [bind]; try discriminate; [apply HLl|]. unfold GetList, dict_get in F. destruct (dget (B "peers") d) as [[]|]; cbn [bind] in F; congruence. }
    destruct (peers_of d) as [?|e1| |] eqn:E4; cbn [bind] in H; try discriminate. specialize (HP e1 eq_refl). congruence.
Qed.
Lemma newResponse_kind d : (exists r, newResponse parseIP d = Ok r) \/ exists e, newResponse parseIP d = Err e.
Proof.
  unfold newResponse. fold (peers_of d). destruct (GetString_kind d (B "failure reason")) as [(s' & ->)|(e & ->)]; [eauto|].
  destruct (GetUint_kind d (B "interval")) as [(? & ->)|(? & ->)]; cbn [bind]; [|eauto]. destruct (GetUint_kind d (B "complete")) as [(? & ->)|(? & ->)]; cbn [bind]; [|eauto].
  destruct (GetUint_kind d (B "incomplete")) as [(? & ->)|(? & ->)]; cbn [bind]; [|eauto]. destruct (peers_of_kind d) as [(? & ->)|(? & ->)]; cbn [bind]; eauto.
Qed.
Lemma handle_body_kind body : (exists r, handle_body parseIP body = Ok r) \/ exists e, handle_body parseIP body = Err e.
Proof.
  unfold handle_body. destruct (Decode_total_wf body) as [(v & -> & _)|(e & ->)]; cbn [bind]; [|eauto]. destruct v; eauto. apply newResponse_kind.
Qed.
Lemma handle_body_iff body r : handle_body parseIP body = Ok r <-> exists d, Decode body = Ok (VDict d) /\ good_response parseIP d r.
Proof.
  unfold handle_body. split.
  - intros H. apply bind_ok in H. destruct H as (v & E & H). destruct v as [| |d| |]; try discriminate. exists d. split; [exact E|]. apply newResponse_iff; [|exact H]. exact (proj1 (Decode_wf _ _ E)).
  - intros (d & E & H). rewrite E. cbn [bind]. apply newResponse_iff; [|exact H]. exact (proj1 (Decode_wf _ _ E)).
Qed.
End WithParseIP.

(* ------------------------------------------------------------------ *)
(** * Peer state *)
Lemma psrun_top ops : forall s, psrun s ops = mkps (last_set to_chokingUs (chokingUs s) ops) (last_set to_weChoking (weChoking s) ops) (last_set to_interestedUs (interestedUs s) ops) (last_set to_weInterested (weInterested s) ops).
Proof.
  induction ops as [|o ops IH]; intros s; [destruct s; reflexivity|]. cbn [psrun fold_left]. change (fold_left psstep ops ?x) with (psrun x ops). rewrite IH. destruct o; reflexivity.
Qed.
