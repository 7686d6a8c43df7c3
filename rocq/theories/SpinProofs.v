(** SpinProofs.v: proofs about Spinner. *)
From Coq Require Import ZifyBool ZifyNat ZifyN.
From Verif Require Import Base SpinModel SpinSpec.
Ltac Zify.zify_post_hook ::= Z.to_euclidean_division_equations.

(** ** Events *)
Lemma the_round_eq msg n : the_round msg n = List.concat (map (fun r => [Shows (frame r msg (dots_in n)); Sleeps 100]) symbols).
Proof. reflexivity. Qed.
Lemma round_ok i msg n : i = Z.of_nat (Nat.modulo n 3) -> spin_round i msg = Ok (the_round msg n).
Proof.
  intros ->. pose proof (Nat.mod_upper_bound n 3 ltac:(lia)) as H. unfold spin_round, the_round, dots_in.
  destruct (Nat.modulo n 3) as [|[|[|k]]]; [reflexivity..|lia].
Qed.
Definition rounds (msg : list Z) (a n : nat) : list spin_ev := List.concat (map (the_round msg) (seq a n)).
Lemma loop_rounds polls msg : forall n fuel k i, i = Z.of_nat (Nat.modulo k 3) -> (forall j, (k <= j < k + n)%nat -> polls j = false) ->
  spin_loop (n + fuel) polls k i msg =
    let ' (x, more) := spin_loop fuel polls (k + n) (Z.of_nat (Nat.modulo (k + n) 3)) msg in (x, rounds msg (S k) n ++ more).
Proof.
  induction n as [|n IH]; intros fuel k i Hi Hp.
  - rewrite Nat.add_0_r. cbn [Nat.add rounds seq map List.concat app]. subst i. unfold rounds. cbn [seq map List.concat app]. now destruct (spin_loop fuel polls k _ msg).
  - cbn [Nat.add spin_loop]. rewrite Hp by lia. cbv zeta. assert (E : Z.rem (i + 1) 3 = Z.of_nat (Nat.modulo (S k) 3)) by (subst i; lia).
    rewrite (round_ok _ msg (S k) E). rewrite (IH fuel (S k) _ E) by (intros; apply Hp; lia).
    replace (k + S n)%nat with (S k + n)%nat by lia. destruct (spin_loop fuel polls (S k + n) _ msg) as [x more].
    reflexivity.
Qed.
Lemma spinner_done fuel polls msg k : first_ready polls k -> (k < fuel)%nat ->
  Spinner fuel polls msg = (Ok tt, List.concat (map (the_round msg) (seq 1 k)) ++ [Shows (farewell msg)]).
Proof.
  intros (Hk & Hj) Hf. unfold Spinner. replace fuel with (k + (fuel - k))%nat by lia. rewrite loop_rounds by (try reflexivity; intros; apply Hj; lia).
  cbn [Nat.add]. destruct (fuel - k)%nat as [|f] eqn:E; [lia|]. cbn [spin_loop]. rewrite Hk. reflexivity.
Qed.
Lemma spinner_goes fuel polls msg n : (forall j, (j < n)%nat -> polls j = false) -> (n <= fuel)%nat ->
  exists more, snd (Spinner fuel polls msg) = List.concat (map (the_round msg) (seq 1 n)) ++ more.
Proof.
  intros Hj Hf. unfold Spinner. replace fuel with (n + (fuel - n))%nat by lia. rewrite loop_rounds by (try reflexivity; intros; apply Hj; lia).
  cbn [Nat.add]. destruct (spin_loop (fuel - n) polls n _ msg) as [x more]. exists more. reflexivity.
Qed.
Lemma spinner_never fuel polls msg : (forall j, polls j = false) -> Spinner fuel polls msg = (NoFuel, List.concat (map (the_round msg) (seq 1 fuel))).
Proof.
  intros Hj. unfold Spinner. replace fuel with (fuel + 0)%nat at 1 by lia. rewrite loop_rounds by (try reflexivity; intros; apply Hj). cbn [spin_loop]. unfold rounds. now rewrite app_nil_r.
Qed.
Lemma loop_safe polls msg : forall fuel k i, i = Z.of_nat (Nat.modulo k 3) -> fst (spin_loop fuel polls k i msg) = Ok tt \/ fst (spin_loop fuel polls k i msg) = NoFuel.
Proof.
  induction fuel as [|f IH]; intros k i Hi; [right; reflexivity|]. cbn [spin_loop]. destruct (polls k); [left; reflexivity|]. cbv zeta.
  assert (E : Z.rem (i + 1) 3 = Z.of_nat (Nat.modulo (S k) 3)) by (subst i; lia). rewrite (round_ok _ msg (S k) E).
  specialize (IH (S k) _ E). destruct (spin_loop f polls (S k) (Z.rem (i + 1) 3) msg). exact IH.
Qed.
Lemma spinner_safe fuel polls msg : fst (Spinner fuel polls msg) = Ok tt \/ fst (Spinner fuel polls msg) = NoFuel.
Proof. now apply loop_safe. Qed.

(** ** Time *)
Lemma slept_app a b : slept (a ++ b) = slept a + slept b.
Proof. induction a as [|[s|n] a IH]; cbn [app slept]; lia. Qed.
Lemma slept_rounds msg : forall n a, slept (rounds msg a n) = 800 * Z.of_nat n.
Proof.
  induction n as [|n IH]; intros a; [reflexivity|]. unfold rounds in *. cbn [seq map List.concat]. rewrite slept_app, IH. rewrite the_round_eq. unfold symbols. cbn [map List.concat app slept]. lia.
Qed.
Lemma spinner_late msg t : 0 <= t -> exists k fuel evs, Spinner fuel (fun j => t <=? 800 * Z.of_nat j) msg = (Ok tt, evs) /\
  first_ready (fun j => t <=? 800 * Z.of_nat j) k /\ slept evs = 800 * Z.of_nat k /\ t <= slept evs < t + 800.
Proof.
  intros Ht. set (k := Z.to_nat ((t + 799) / 800)). exists k, (S k), (rounds msg 1 k ++ [Shows (farewell msg)]).
  assert (Hr : first_ready (fun j => t <=? 800 * Z.of_nat j) k) by (split; [subst k; lia|intros j Hj; subst k; lia]).
  split; [exact (spinner_done (S k) _ msg k Hr ltac:(lia))|]. split; [exact Hr|]. rewrite slept_app, slept_rounds. cbn [slept]. subst k. lia.
Qed.

(** ** The screen *)
Lemma skip_skip {A} : forall (l : list A) a b, skipn a (skipn b l) = skipn (b + a) l.
Proof. induction l as [|x l IH]; intros a [|b]; cbn; try reflexivity; [now rewrite skipn_nil|apply IH]. Qed.
Lemma over_at : forall col c line, (col <= List.length line)%nat -> over col c line = firstn col line ++ c :: skipn (S col) line.
Proof. induction col as [|n IH]; intros c [|x r] H; cbn in *; try reflexivity; [lia|]. f_equal. apply IH. lia. Qed.
Lemma put_plain t c : 32 <= c -> put t c = mkterm (tm_done t) (over (tm_col t) c (tm_line t)) (S (tm_col t)).
Proof. intros H. unfold put. replace (c =? 13) with false by lia. replace (c =? 10) with false by lia. now replace (c =? 8) with false by lia. Qed.
Lemma write_plain : forall s t, plain s -> (tm_col t <= List.length (tm_line t))%nat ->
  write t s = mkterm (tm_done t) (firstn (tm_col t) (tm_line t) ++ s ++ skipn (tm_col t + List.length s) (tm_line t)) (tm_col t + List.length s).
Proof.
  induction s as [|c s IH]; intros [D L col] H Hc; cbn [tm_done tm_line tm_col] in *.
  - cbn [write fold_left app List.length]. rewrite Nat.add_0_r, firstn_skipn. reflexivity.
  - inversion H as [|? ? Hc0 Hs]; subst. change (write (mkterm D L col) (c :: s)) with (write (put (mkterm D L col) c) s). rewrite put_plain by assumption. cbn [tm_done tm_line tm_col].
    rewrite over_at by assumption. assert (Hl : List.length (firstn col L) = col) by (rewrite firstn_length; lia).
    rewrite IH; [|assumption|cbn [tm_line tm_col]; rewrite app_length; cbn [List.length]; lia]. cbn [tm_done tm_line tm_col List.length]. f_equal; [|lia].
    replace (S col) with (List.length (firstn col L ++ [c])) at 1 by (rewrite app_length; cbn; lia).
    replace (firstn col L ++ c :: skipn (S col) L) with ((firstn col L ++ [c]) ++ skipn (S col) L) by (rewrite <- app_assoc; reflexivity).
    rewrite firstn_app, firstn_all, Nat.sub_diag. cbn [firstn]. rewrite app_nil_r, <- app_assoc. cbn [app]. f_equal. f_equal. f_equal.
    rewrite skipn_app. rewrite (skipn_all2 (firstn col L ++ [c])) by (rewrite app_length; cbn; lia). cbn [app]. rewrite app_length. cbn [List.length].
    rewrite Hl. replace (S col + List.length s - (col + 1))%nat with (List.length s) by lia. rewrite (skip_skip L (List.length s) (S col)). f_equal. lia.
Qed.

Definition clear_after (msg : list Z) (t : term) : Prop := Forall (fun c => c = 32) (skipn (List.length msg + 5) (tm_line t)).
Lemma write_app t a b : write t (a ++ b) = write (write t a) b.
Proof. apply fold_left_app. Qed.
Lemma plain_app a b : plain a -> plain b -> plain (a ++ b).
Proof. intros. now apply Forall_app. Qed.
Lemma frame_line t r msg d : plain msg -> plain d -> 32 <= r ->
  write t (frame r msg d) = mkterm (tm_done t) ((r :: 32 :: msg ++ d ++ [32; 32]) ++ skipn (List.length msg + List.length d + 4) (tm_line t)) (List.length msg + List.length d + 2).
Proof.
  intros Hm Hd Hr. unfold frame, backs. change (13 :: r :: 32 :: msg ++ d ++ [32; 32; 8; 8]) with ([13] ++ r :: 32 :: msg ++ d ++ [32; 32] ++ [8; 8]).
  replace (r :: 32 :: msg ++ d ++ [32; 32] ++ [8; 8]) with ((r :: 32 :: msg ++ d ++ [32; 32]) ++ [8; 8]) by (cbn [app]; rewrite <- !app_assoc; reflexivity).
  rewrite !write_app. change (write t [13]) with (mkterm (tm_done t) (tm_line t) 0).
  assert (Hp : plain (r :: 32 :: msg ++ d ++ [32; 32])).
  { constructor; [assumption|]. constructor; [lia|]. apply plain_app; [assumption|]. apply plain_app; [assumption|]. repeat (constructor; [lia|]). constructor. }
  rewrite (write_plain _ _ Hp) by (cbn; lia). cbn [tm_done tm_line tm_col firstn Nat.add].
  assert (Hl : List.length (r :: 32 :: msg ++ d ++ [32; 32]) = (List.length msg + List.length d + 4)%nat) by (cbn [List.length]; rewrite !app_length; cbn [List.length]; lia).
  rewrite Hl. cbn [write fold_left put]. unfold put at 2. cbn [Z.eqb tm_done tm_line tm_col]. unfold put. cbn. f_equal. lia.
Qed.
Lemma frame_clear t r msg d : plain msg -> plain d -> 32 <= r -> (1 <= List.length d <= 3)%nat -> clear_after msg t ->
  clear_after msg (write t (frame r msg d)) /\ exists bl, Forall (fun c => c = 32) bl /\ tm_line (write t (frame r msg d)) = r :: 32 :: msg ++ d ++ bl.
Proof.
  intros Hm Hd Hr Hl Hc. rewrite (frame_line t r msg d Hm Hd Hr). unfold clear_after in *. cbn [tm_line].
  assert (Hb : Forall (fun c => c = 32) (skipn (List.length msg + List.length d + 4) (tm_line t))).
  { replace (List.length msg + List.length d + 4)%nat with ((List.length msg + 5) + (List.length d - 1))%nat by lia. rewrite <- skip_skip.
    revert Hc. generalize (skipn (List.length msg + 5) (tm_line t)) as l. intros l Hc. clear - Hc. revert Hc. generalize (List.length d - 1)%nat as n. induction l as [|x l IH]; intros [|n] H; cbn; auto. inversion H; subst. auto. }
  split.
  - rewrite skipn_app. apply Forall_app. split.
    + replace (r :: 32 :: msg ++ d ++ [32; 32]) with ((r :: 32 :: msg ++ d) ++ [32; 32]) by (cbn [app]; rewrite <- app_assoc; reflexivity).
      rewrite skipn_app. rewrite skipn_all2 by (cbn [List.length]; rewrite app_length; lia). cbn [app].
      generalize (List.length msg + 5 - List.length (r :: 32%Z :: msg ++ d))%nat as n. intros [|[|[|n]]]; cbn; repeat constructor.
    + clear - Hb. revert Hb. generalize (skipn (List.length msg + List.length d + 4) (tm_line t)) as l.
      generalize (List.length msg + 5 - List.length (r :: 32%Z :: msg ++ d ++ [32%Z; 32%Z]))%nat as n. intros n l. revert n. induction l as [|x l IH]; intros [|n] H; cbn; auto. inversion H; subst. auto.
  - exists ([32; 32] ++ skipn (List.length msg + List.length d + 4) (tm_line t)). split; [constructor; [reflexivity|]; constructor; [reflexivity|assumption]|].
    cbn [app]. rewrite <- !app_assoc. reflexivity.
Qed.
Lemma dots_ok n : plain (dots_in n) /\ (1 <= List.length (dots_in n) <= 3)%nat.
Proof.
  unfold dots_in. pose proof (Nat.mod_upper_bound n 3 ltac:(lia)) as H. rewrite repeat_length. split; [|lia]. apply Forall_forall. intros x Hx. apply repeat_spec in Hx. lia.
Qed.
Lemma printed_app a b : printed (a ++ b) = printed a ++ printed b.
Proof. induction a as [|[s|n] a IH]; cbn [app printed]; [reflexivity|now rewrite IH, app_assoc|exact IH]. Qed.
Definition some_frames (msg : list Z) (n : nat) (rs : list Z) : list spin_ev := List.concat (map (fun r => [Shows (frame r msg (dots_in n)); Sleeps 100]) rs).
Lemma frames_clear msg n : plain msg -> forall rs t, plain rs -> clear_after msg t -> clear_after msg (write t (printed (some_frames msg n rs))).
Proof.
  intros Hm. destruct (dots_ok n) as [Hd Hl]. induction rs as [|r rs IH]; intros t Hr Hc; [exact Hc|]. inversion Hr; subst. unfold some_frames. cbn [map List.concat app printed].
  rewrite write_app. apply IH; [assumption|]. now apply frame_clear.
Qed.
Lemma frames_done msg n : plain msg -> forall rs u, plain rs -> tm_done (write u (printed (some_frames msg n rs))) = tm_done u.
Proof.
  intros Hm. induction rs as [|r rs IH]; intros u Hr; [reflexivity|]. inversion Hr; subst. unfold some_frames. cbn [map List.concat app printed]. rewrite write_app. fold (some_frames msg n rs).
  rewrite IH by assumption. rewrite frame_line by (try assumption; apply dots_ok). reflexivity.
Qed.
Lemma symbols_plain : plain symbols.
Proof. repeat (constructor; [lia|]). constructor. Qed.
Lemma rounds_clear msg : plain msg -> forall n a t, clear_after msg t -> clear_after msg (write t (printed (rounds msg a n))).
Proof.
  intros Hm. induction n as [|n IH]; intros a t Hc; [exact Hc|]. unfold rounds in *. cbn [seq map List.concat]. rewrite printed_app, write_app. apply IH.
  exact (frames_clear msg a Hm symbols t symbols_plain Hc).
Qed.

Lemma shown_blank bl : Forall (fun c => c = 32) bl -> shown bl = [].
Proof. induction 1 as [|c bl Hc H IH]; [reflexivity|]. cbn [shown]. rewrite IH. now subst. Qed.
Lemma shown_app a bl : Forall (fun c => c = 32) bl -> shown (a ++ bl) = shown a.
Proof. intros H. induction a as [|c a IH]; cbn [app shown]; [now apply shown_blank|now rewrite IH]. Qed.
Lemma shown_last a c : c <> 32 -> shown (a ++ [c]) = a ++ [c].
Proof.
  intros H. induction a as [|x a IH]; cbn [app shown]; [replace (c =? 32) with false by lia; reflexivity|]. rewrite IH. destruct (a ++ [c]) eqn:E; [now destruct a|reflexivity].
Qed.
Lemma dots_last n : exists p, dots_in n = p ++ [46].
Proof. unfold dots_in. exists (repeat 46 (Nat.modulo n 3)). rewrite <- repeat_cons. reflexivity. Qed.
Lemma shown_frame r msg n bl : Forall (fun c => c = 32) bl -> shown (r :: 32 :: msg ++ dots_in n ++ bl) = r :: 32 :: msg ++ dots_in n.
Proof.
  intros H. destruct (dots_last n) as (p & ->). replace (r :: 32 :: msg ++ (p ++ [46]) ++ bl) with ((r :: 32 :: msg ++ p ++ [46]) ++ bl) by (cbn [app]; rewrite <- !app_assoc; reflexivity).
  rewrite shown_app by assumption. change (r :: 32 :: msg ++ p ++ [46]) with ((r :: 32 :: msg) ++ p ++ [46]). rewrite app_assoc. rewrite shown_last by lia. cbn [app]. now rewrite <- app_assoc.
Qed.
Lemma clear_start msg t : Forall (fun c => c = 32) (tm_line t) -> clear_after msg t.
Proof.
  unfold clear_after. generalize (List.length msg + 5)%nat as n. generalize (tm_line t) as l. induction l as [|x l IH]; intros [|n] H; cbn; auto. inversion H; subst. auto.
Qed.
Lemma rounds_length msg : forall n a, List.length (rounds msg a n) = (16 * n)%nat.
Proof. induction n as [|n IH]; intros a; [reflexivity|]. unfold rounds in *. cbn [seq map List.concat]. rewrite app_length, IH. cbn. lia. Qed.
Lemma spinner_screen fuel polls msg t n m : plain msg -> Forall (fun c => c = 32) (tm_line t) -> (forall j, (j <= n)%nat -> polls j = false) -> (n < fuel)%nat -> (m < 8)%nat ->
  let t' := write t (printed (firstn (16 * n + 2 * m + 1) (snd (Spinner fuel polls msg)))) in
  shown (tm_line t') = nth m symbols 0 :: 32 :: msg ++ dots_in (S n) /\ tm_done t' = tm_done t.
Proof.
  intros Hm Ht Hp Hf H8 t'. destruct (spinner_goes fuel polls msg (S n)) as (more & E); [intros; apply Hp; lia|lia|]. subst t'. rewrite E. clear E.
  replace (List.concat (map (the_round msg) (seq 1 (S n)))) with (rounds msg 1 n ++ the_round msg (S n)) by (unfold rounds; rewrite seq_S, map_app, concat_app; cbn [map List.concat]; now rewrite app_nil_r).
  rewrite <- app_assoc. rewrite firstn_app. rewrite rounds_length. rewrite (firstn_all2 (n := 16 * n + 2 * m + 1) (rounds msg 1 n)) by (rewrite rounds_length; lia).
  replace (16 * n + 2 * m + 1 - 16 * n)%nat with (2 * m + 1)%nat by lia. rewrite printed_app, write_app.
  assert (Hd : forall k a u, tm_done (write u (printed (rounds msg a k))) = tm_done u).
  { induction k as [|k IH]; intros a u; [reflexivity|]. unfold rounds in *. cbn [seq map List.concat]. rewrite printed_app, write_app, IH. apply (frames_done msg a Hm symbols). apply symbols_plain. }
  pose proof (rounds_clear msg Hm n 1 t (clear_start msg t Ht)) as Hc. specialize (Hd n 1%nat t). set (u := write t (printed (rounds msg 1 n))) in *. clearbody u.
  replace (firstn (2 * m + 1) (the_round msg (S n) ++ more)) with (some_frames msg (S n) (firstn m symbols) ++ [Shows (frame (nth m symbols 0) msg (dots_in (S n)))])
    by (do 8 (destruct m as [|m]; [reflexivity|]); lia).
  rewrite printed_app, write_app. assert (Hfs : plain (firstn m symbols)) by (apply Forall_forall; intros x Hx; apply (proj1 (Forall_forall _ _) symbols_plain); rewrite <- (firstn_skipn m symbols); apply in_or_app; now left).
  pose proof (frames_clear msg (S n) Hm (firstn m symbols) u Hfs Hc) as Hc2.
  pose proof (frames_done msg (S n) Hm (firstn m symbols) u Hfs) as Hd2.
  set (v := write u (printed (some_frames msg (S n) (firstn m symbols)))) in *. clearbody v. cbn [printed]. rewrite app_nil_r.
  assert (Hr : 32 <= nth m symbols 0) by (do 8 (destruct m as [|m]; [cbn; lia|]); lia).
  destruct (dots_ok (S n)) as [Hdp Hdl]. destruct (frame_clear v (nth m symbols 0) msg (dots_in (S n)) Hm Hdp Hr Hdl Hc2) as (_ & bl & Hbl & El). split.
  - rewrite El. now apply shown_frame.
  - rewrite frame_line by assumption. cbn [tm_done]. congruence.
Qed.
Lemma farewell_line t msg : plain msg -> write t (farewell msg) = mkterm (tm_done t ++ [10003 :: 32 :: msg ++ skipn (List.length msg + 2) (tm_line t)]) [] 0.
Proof.
  intros Hm. unfold farewell. change (13 :: 10003 :: 32 :: msg ++ [10]) with ([13] ++ (10003 :: 32 :: msg) ++ [10]). rewrite !write_app. change (write t [13]) with (mkterm (tm_done t) (tm_line t) 0).
  assert (Hp : plain (10003 :: 32 :: msg)) by (constructor; [lia|]; constructor; [lia|assumption]). rewrite (write_plain _ _ Hp) by (cbn; lia). cbn [tm_done tm_line tm_col firstn Nat.add List.length app].
  replace (List.length msg + 2)%nat with (S (S (List.length msg))) by lia. reflexivity.
Qed.
Lemma spinner_final fuel polls msg t k : plain msg -> Forall (fun c => c = 32) (tm_line t) -> first_ready polls k -> (k < fuel)%nat ->
  let t' := write t (printed (snd (Spinner fuel polls msg))) in
  exists line, t' = mkterm (tm_done t ++ [line]) [] 0 /\ shown line = shown (10003 :: 32 :: msg ++ if Nat.eqb k 0 then [] else dots_in k).
Proof.
  intros Hm Ht Hk Hf t'. destruct k as [|n].
  - subst t'. rewrite (spinner_done fuel polls msg 0 Hk Hf). cbn [snd seq map List.concat app printed]. rewrite app_nil_r. rewrite farewell_line by assumption.
    eexists. split; [reflexivity|]. cbn [Nat.eqb]. rewrite app_nil_r. rewrite !app_comm_cons. apply shown_app.
    pose proof (clear_start msg t Ht) as H. clear - Ht. revert Ht. generalize (List.length msg + 2)%nat as n. generalize (tm_line t) as l. induction l as [|x l IH]; intros [|n] H; cbn; auto. inversion H; subst. auto.
  - pose proof (spinner_screen fuel polls msg t n 7 Hm Ht ltac:(intros; apply (proj2 Hk); lia) ltac:(lia) ltac:(lia)) as (_ & HD).
    subst t'. rewrite (spinner_done fuel polls msg (S n) Hk Hf) in *. cbn [snd] in *.
    replace (List.concat (map (the_round msg) (seq 1 (S n)))) with (rounds msg 1 n ++ the_round msg (S n)) in * by (unfold rounds; rewrite seq_S, map_app, concat_app; cbn [map List.concat]; now rewrite app_nil_r).
    replace (the_round msg (S n)) with (some_frames msg (S n) (firstn 7 symbols) ++ [Shows (frame (nth 7 symbols 0) msg (dots_in (S n))); Sleeps 100]) in * by reflexivity.
    set (pre := rounds msg 1 n ++ some_frames msg (S n) (firstn 7 symbols)).
    assert (Ecut : forall tail, (rounds msg 1 n ++ some_frames msg (S n) (firstn 7 symbols) ++ [Shows (frame (nth 7 symbols 0) msg (dots_in (S n))); Sleeps 100]) ++ tail = pre ++ Shows (frame (nth 7 symbols 0) msg (dots_in (S n))) :: Sleeps 100 :: tail).
    { intros tail. unfold pre. rewrite <- !app_assoc. reflexivity. }
    assert (Hpl : List.length pre = (16 * n + 14)%nat) by (unfold pre; rewrite app_length, rounds_length; reflexivity).
    rewrite Ecut in *. rewrite firstn_app in HD. rewrite Hpl in HD. replace (16 * n + 2 * 7 + 1 - (16 * n + 14))%nat with 1%nat in HD by lia. rewrite firstn_all2 in HD by lia.
    rewrite printed_app, write_app in *. cbn [firstn printed] in *. rewrite app_nil_r in HD. rewrite app_nil_r, write_app.
    assert (Hc : clear_after msg (write t (printed pre))).
    { unfold pre. rewrite printed_app, write_app. apply frames_clear; [assumption| |apply rounds_clear; [assumption|now apply clear_start]]. repeat (constructor; [lia|]). constructor. }
    destruct (dots_ok (S n)) as [Hdp Hdl].
    destruct (frame_clear (write t (printed pre)) (nth 7 symbols 0) msg (dots_in (S n)) Hm Hdp ltac:(cbn; lia) Hdl Hc) as (_ & bl & Hbl & El).
    rewrite farewell_line by assumption. rewrite HD. eexists. split; [reflexivity|]. rewrite El. cbn [Nat.eqb].
    replace (skipn (List.length msg + 2) (nth 7 symbols 0 :: 32 :: msg ++ dots_in (S n) ++ bl)) with (dots_in (S n) ++ bl).
    2:{ replace (List.length msg + 2)%nat with (S (S (List.length msg))) by lia. cbn [skipn]. rewrite skipn_app, skipn_all, Nat.sub_diag. reflexivity. }
    rewrite shown_frame by assumption. rewrite <- (app_nil_r (dots_in (S n))) at 2. symmetry. rewrite shown_frame by constructor. reflexivity.
Qed.
Lemma spinner_pictures fuel polls msg t n m : plain msg -> Forall (fun c => c = 32) (tm_line t) -> (forall j, (j <= n)%nat -> polls j = false) -> (n < fuel)%nat -> (m < 8)%nat ->
  let t' := write t (printed (firstn (16 * n + 2 * m + 1) (snd (Spinner fuel polls msg)))) in
  shown (tm_line t') = picture m :: 32 :: msg ++ dots_in (S n) /\ tm_done t' = tm_done t.
Proof.
  intros Hm Ht Hp Hf H8. replace (picture m) with (nth m symbols 0) by (do 8 (destruct m as [|m]; [reflexivity|]); lia). now apply spinner_screen.
Qed.
