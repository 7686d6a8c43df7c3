(** PathProofs.v: lemmas about Split, Clean and Join. *)
From Verif Require Import Base PathModel PathSpec.

Definition noslash (t : bytes) : Prop := ~ In slash t.

Lemma eqb_slash b : Byte.eqb b slash = true <-> b = slash.
Proof. destruct (Byte.eqb b slash) eqn:E; split; intros H; try discriminate; auto; [apply byte_dec_bl; assumption|].
  subst. rewrite (byte_dec_lb eq_refl) in E. discriminate. Qed.
Lemma eqb_slash_f b : Byte.eqb b slash = false <-> b <> slash.
Proof. rewrite <- Bool.not_true_iff_false, eqb_slash. tauto. Qed.

Lemma split_nonempty s : split_slash s <> [].
Proof. destruct s as [|b r]; cbn [split_slash]; [discriminate|]. destruct (Byte.eqb b slash); [discriminate|]. destruct (split_slash r); discriminate. Qed.

Lemma join_split s : join_slash (split_slash s) = s.
Proof.
  induction s as [|b r IH]; [reflexivity|]. cbn [split_slash]. destruct (Byte.eqb b slash) eqn:E.
  - apply eqb_slash in E. subst b. cbn [join_slash app]. pose proof (split_nonempty r).
    destruct (split_slash r) eqn:Es; [contradiction|]. now rewrite IH.
  - pose proof (split_nonempty r). destruct (split_slash r) as [|t ts] eqn:Es; [contradiction|].
    cbn [join_slash app] in *. destruct ts; cbn [app]; now rewrite <- IH.
Qed.

Lemma split_noslash s : Forall noslash (split_slash s).
Proof.
  induction s as [|b r IH]; cbn [split_slash]; [repeat constructor; intros []|].
  destruct (Byte.eqb b slash) eqn:E; [constructor; [intros []|assumption]|].
  destruct (split_slash r) as [|t ts]; [repeat constructor; intros [H|[]]; apply eqb_slash_f in E; congruence|].
  inversion IH; subst. constructor; [|assumption]. intros [H|H]; [apply eqb_slash_f in E; congruence|contradiction].
Qed.

Lemma split_app_noslash t s : noslash t -> split_slash (t ++ slash :: s) = t :: split_slash s.
Proof.
  induction t as [|b t IH]; intros H; cbn [app split_slash]; [now rewrite (proj2 (eqb_slash slash) eq_refl)|].
  rewrite (proj2 (eqb_slash_f b)) by (intros ->; apply H; left; reflexivity).
  rewrite IH by (intros Hi; apply H; right; assumption). reflexivity.
Qed.

Lemma split_single t : noslash t -> split_slash t = [t].
Proof.
  induction t as [|b t IH]; intros H; [reflexivity|]. cbn [split_slash].
  rewrite (proj2 (eqb_slash_f b)) by (intros ->; apply H; left; reflexivity).
  rewrite IH by (intros Hi; apply H; right; assumption). reflexivity.
Qed.

Lemma split_join ts : ts <> [] -> Forall noslash ts -> split_slash (join_slash ts) = ts.
Proof.
  induction ts as [|t ts IH]; intros Hn HF; [contradiction|]. inversion HF; subst. cbn [join_slash].
  destruct ts as [|u ts]; [apply split_single; assumption|].
  rewrite split_app_noslash by assumption. rewrite IH; auto. discriminate.
Qed.

(** Splitting a concatenation around a slash. *)
Lemma split_app a b : split_slash (a ++ slash :: b) = split_slash a ++ split_slash b.
Proof.
  induction a as [|x a IH]; cbn [app split_slash]; [now rewrite (proj2 (eqb_slash slash) eq_refl)|].
  destruct (Byte.eqb x slash); [rewrite IH; reflexivity|]. rewrite IH.
  pose proof (split_nonempty a). destruct (split_slash a); [contradiction|reflexivity].
Qed.

(** ** Clean keeps the place *)

Definition isdd (t : bytes) : bool := beqb t dotdot.
(** Output invariant: names only above a (possibly empty) run of "..", which is empty when rooted. *)
Inductive out_ok (root : bool) : list bytes -> Prop :=
| ok_nil : out_ok root []
| ok_dd out : root = false -> Forall (fun t => t = dotdot) out -> out_ok root (dotdot :: out)
| ok_name t out : plain_name t -> out_ok root out -> out_ok root (t :: out).

Lemma step_name d t : plain_name t -> step d t = d ++ [t].
Proof.
  intros (H1 & H2 & H3 & _). unfold step. apply beqb_neq in H1, H2, H3. now rewrite H1, H2, H3.
Qed.

Lemma follow_app d a b : follow d (a ++ b) = follow (follow d a) b.
Proof. unfold follow. apply fold_left_app. Qed.

Lemma follow_cons d t ts : follow d (t :: ts) = follow (step d t) ts.
Proof. reflexivity. Qed.

Lemma out_dd_all root out : out_ok root (dotdot :: out) -> root = false /\ Forall (fun t => t = dotdot) out.
Proof. inversion 1 as [|? ? HF|? ? (_ & _ & H3 & _)]; subst; [auto|congruence]. Qed.

Lemma clean_loop_ok root : forall ts out, Forall noslash ts -> out_ok root out -> 
  exists out', clean_loop root ts out = rev out' /\ out_ok root out' /\
    forall d, (root = true -> d = []) -> follow d (rev out') = follow d (rev out ++ ts).
Proof.
  induction ts as [|t ts IH]; intros out HF Ho; cbn [clean_loop].
  - exists out. split; [reflexivity|]. split; [assumption|]. intros d _. now rewrite app_nil_r.
  - inversion HF as [|? ? Ht HF']; subst.
    destruct (beqb t [] || beqb t dot) eqn:E1.
    + destruct (IH out HF' Ho) as (out' & A & B & C). exists out'. split; [assumption|]. split; [assumption|].
      intros d Hd. rewrite C by assumption. rewrite !follow_app, follow_cons. unfold step. now rewrite E1.
    + destruct (beqb t dotdot) eqn:E2.
      * apply beqb_eq in E2. subst t. destruct out as [|o out0].
        -- destruct root.
           ++ destruct (IH [] HF' (ok_nil true)) as (out' & A & B & C). exists out'. split; [assumption|]. split; [assumption|].
              intros d Hd. rewrite C by assumption. rewrite (Hd eq_refl). reflexivity.
           ++ destruct (IH [dotdot] HF') as (out' & A & B & C); [constructor; [reflexivity|constructor]|].
              exists out'. split; [assumption|]. split; [assumption|]. intros d Hd. rewrite C by assumption. reflexivity.
        -- destruct (beqb o dotdot) eqn:E3.
           ++ apply beqb_eq in E3. subst o. destruct (out_dd_all _ _ Ho) as [Hr Ha].
              destruct (IH (dotdot :: dotdot :: out0) HF') as (out' & A & B & C); [constructor; [assumption|constructor; auto]|].
              exists out'. split; [assumption|]. split; [assumption|]. intros d Hd. rewrite C by assumption.
              cbn [rev]. now rewrite <- !app_assoc.
           ++ inversion Ho as [|? ? HFo|? ? Hp Ho']; subst; [discriminate|].
              destruct (IH out0 HF' Ho') as (out' & A & B & C). exists out'. split; [assumption|]. split; [assumption|].
              intros d Hd. rewrite C by assumption. cbn [rev]. rewrite <- app_assoc. rewrite !follow_app. cbn [app].
              rewrite !follow_cons. rewrite (step_name _ o) by assumption.
              change (step (follow (follow d (rev out0) ++ [o]) []) dotdot) with (removelast (follow d (rev out0) ++ [o])). now rewrite removelast_last.
      * apply Bool.orb_false_iff in E1. destruct E1 as [E1a E1b].
        apply beqb_neq in E1a, E1b, E2.
        destruct (IH (t :: out) HF') as (out' & A & B & C); [constructor; [repeat split; auto|assumption]|].
        exists out'. split; [assumption|]. split; [assumption|]. intros d Hd. rewrite C by assumption. cbn [rev]. now rewrite <- app_assoc.
Qed.

Lemma out_ok_noslash root out : out_ok root out -> Forall noslash out.
Proof.
  induction 1 as [|? Hr HF|? ? (_ & _ & _ & H) _ IH]; constructor; auto.
  - intros [H|[H|[]]]; discriminate.
  - eapply Forall_impl; [|exact HF]. intros a ->. intros [H|[H|[]]]; discriminate.
Qed.

Lemma out_ok_nonempty root out : out_ok root out -> Forall (fun t : bytes => t <> []) out.
Proof.
  induction 1 as [|? Hr HF|? ? (H & _) _ IH]; constructor; auto; [discriminate|].
  eapply Forall_impl; [|exact HF]. intros a ->. discriminate.
Qed.

Lemma rooted_join ts : Forall noslash ts -> Forall (fun t : bytes => t <> []) ts -> rooted (join_slash ts) = false.
Proof.
  intros H1 H2. destruct ts as [|t ts]; [reflexivity|]. inversion H1; inversion H2; subst.
  destruct t as [|b t]; [contradiction|]. assert (Byte.eqb b slash = false) by (apply eqb_slash_f; intros ->; apply H3; left; reflexivity).
  destruct ts; exact H.
Qed.

Lemma place_Clean cwd s : place cwd (Clean s) = place cwd s.
Proof.
  unfold Clean. destruct (clean_loop_ok (rooted s) (split_slash s) [] (split_noslash s) (ok_nil _)) as (out & E & Ho & Hf).
  rewrite E. cbn [rev app] in Hf. unfold place at 2. rewrite <- Hf by (intros H; rewrite H; reflexivity).
  pose proof (Forall_rev (out_ok_noslash _ _ Ho)) as Hns. pose proof (Forall_rev (out_ok_nonempty _ _ Ho)) as Hne.
  remember (rev out) as ro eqn:Eo. clear Eo Hf.
  destruct (rooted s) eqn:Er.
  - unfold place. cbn [rooted]. rewrite (proj2 (eqb_slash slash) eq_refl). cbn [split_slash]. rewrite (proj2 (eqb_slash slash) eq_refl).
    cbn [follow fold_left]. change (step [] []) with (@nil bytes). fold (follow [] (split_slash (join_slash ro))).
    destruct ro as [|t ts]; [reflexivity|]. rewrite split_join; [reflexivity|discriminate|assumption].
  - destruct ro as [|t ts]; [reflexivity|]. unfold place. rewrite rooted_join; [|assumption|assumption].
    rewrite split_join; [reflexivity|discriminate|assumption].
Qed.

(** Joining a non-empty directory with anything: the second path is followed from the first. *)
Lemma place_Join2 cwd a b : a <> [] -> b <> [] -> place cwd (Join [a; b]) = follow (place cwd a) (split_slash b).
Proof.
  intros Ha Hb. destruct a as [|x a]; [contradiction|]. cbn [Join]. rewrite place_Clean.
  unfold place. cbn [join_slash]. rewrite split_app, follow_app. reflexivity.
Qed.

Lemma place_Join_empty cwd b : b <> [] -> place cwd (Join [[]; b]) = place cwd b.
Proof. intros H. destruct b as [|x b]; [contradiction|]. cbn [Join join_slash]. now rewrite place_Clean. Qed.

Lemma Join_nonempty a b : b <> [] -> Join [a; b] <> [].
Proof.
  intros H. destruct b as [|y b]; [contradiction|]. destruct a as [|x a]; cbn [Join]; unfold Clean.
  all: destruct (rooted _); [discriminate|].
  all: match goal with |- (match ?c with _ => _ end) <> _ => destruct c as [|c0 cs] eqn:E; [discriminate|] end.
  all: match type of E with clean_loop ?r ?ts [] = _ =>
    destruct (clean_loop_ok r ts [] (split_noslash _) (ok_nil _)) as (out & E' & Ho & _) end.
  all: rewrite E in E'; pose proof (Forall_rev (out_ok_nonempty _ _ Ho)) as Hne; rewrite <- E' in Hne; inversion Hne; subst.
  all: destruct c0; [contradiction|]; destruct cs; discriminate.
Qed.

Lemma follow_names d ts : Forall plain_name ts -> follow d ts = d ++ ts.
Proof.
  intros H; revert d; induction H as [|t ts Ht _ IH]; intros d; cbn [follow fold_left]; [now rewrite app_nil_r|].
  fold (follow (step d t) ts). rewrite IH, step_name by assumption. now rewrite <- app_assoc.
Qed.

Lemma plain_noslash ts : Forall plain_name ts -> Forall noslash ts.
Proof. intros H. eapply Forall_impl; [|exact H]. intros a (_ & _ & _ & Hs). exact Hs. Qed.

Lemma plain_rooted t : plain_name t -> rooted t = false.
Proof. intros (H1 & _ & _ & H). destruct t as [|b t]; [contradiction|]. cbn [rooted]. apply eqb_slash_f. intros ->. apply H. left. reflexivity. Qed.

(** A plain name joined to any directory. *)
Lemma place_Join_plain cwd wd name : plain_name name -> place cwd (Join [wd; name]) = place cwd wd ++ [name].
Proof.
  intros H. pose proof H as (Hn & _ & _ & Hs). destruct wd as [|x wd].
  - rewrite place_Join_empty by assumption. unfold place. rewrite plain_rooted by assumption. rewrite split_single by assumption.
    change (rooted []) with false. cbn [split_slash follow fold_left]. rewrite step_name by assumption. reflexivity.
  - rewrite place_Join2 by (assumption || discriminate). rewrite split_single by assumption. apply follow_names. constructor; [assumption|constructor].
Qed.

Lemma join_slash_nonempty ts : ts <> [] -> Forall plain_name ts -> join_slash ts <> [].
Proof.
  intros Hn HF. destruct ts as [|t ts]; [contradiction|]. inversion HF as [|? ? (H & _) _]; subst.
  destruct t; [contradiction|]. destruct ts; discriminate.
Qed.

Lemma place_Join_names cwd dir ts : dir <> [] -> ts <> [] -> Forall plain_name ts ->
  place cwd (Join [dir; join_slash ts]) = place cwd dir ++ ts.
Proof.
  intros Hd Hn HF. rewrite place_Join2; [|assumption|apply join_slash_nonempty; assumption].
  rewrite split_join; [|assumption|apply plain_noslash; assumption]. apply follow_names. assumption.
Qed.
