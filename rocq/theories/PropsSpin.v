(** PropsSpin.v: Spinner (C110). *)
From Verif Require Import Base SpinModel SpinSpec SpinProofs.

(** Done at the k-th look: k rounds of eight pictures, then the farewell. *)
Theorem C110_done : forall fuel polls msg k, first_ready polls k -> (k < fuel)%nat ->
  Spinner fuel polls msg = (Ok tt, List.concat (map (the_round msg) (seq 1 k)) ++ [Shows (goodbye msg)]).
Proof. exact spinner_done. Qed.
Print Assumptions C110_done.
(** Never done: rounds for ever. *)
Theorem C110_never : forall fuel polls msg, (forall j, polls j = false) -> Spinner fuel polls msg = (NoFuel, List.concat (map (the_round msg) (seq 1 fuel))).
Proof. exact spinner_never. Qed.
Print Assumptions C110_never.
Theorem C110_safe : forall fuel polls msg, fst (Spinner fuel polls msg) = Ok tt \/ fst (Spinner fuel polls msg) = NoFuel.
Proof. exact spinner_safe. Qed.
Print Assumptions C110_safe.
(** Done from t milliseconds on: it returns after t and less than 800 ms later. *)
Theorem C110_late : forall msg t, 0 <= t -> exists k fuel evs, Spinner fuel (fun j => t <=? 800 * Z.of_nat j) msg = (Ok tt, evs) /\
  first_ready (fun j => t <=? 800 * Z.of_nat j) k /\ slept evs = 800 * Z.of_nat k /\ t <= slept evs < t + 800.
Proof. exact spinner_late. Qed.
Print Assumptions C110_late.
(** On an empty line, during the m-th picture of a round the line shows its symbol, the message and the round's dots, and nothing else. *)
Theorem C110_screen : forall fuel polls msg t n m, plain msg -> Forall (fun c => c = 32) (tm_line t) -> (forall j, (j <= n)%nat -> polls j = false) -> (n < fuel)%nat -> (m < 8)%nat ->
  let t' := write t (printed (firstn (16 * n + 2 * m + 1) (snd (Spinner fuel polls msg)))) in
  shown (tm_line t') = picture m :: 32 :: msg ++ dots_in (S n) /\ tm_done t' = tm_done t.
Proof. exact spinner_pictures. Qed.
Print Assumptions C110_screen.
(** At the end one finished line: a check mark, the message, and the dots of the last round if there was one. *)
Theorem C110_final : forall fuel polls msg t k, plain msg -> Forall (fun c => c = 32) (tm_line t) -> first_ready polls k -> (k < fuel)%nat ->
  let t' := write t (printed (snd (Spinner fuel polls msg))) in
  exists line, t' = mkterm (tm_done t ++ [line]) [] 0 /\ shown line = shown (10003 :: 32 :: msg ++ if Nat.eqb k 0 then [] else dots_in k).
Proof. exact spinner_final. Qed.
Print Assumptions C110_final.
(** So the dots stay: the last line is not just the check mark and the message. *)
Theorem C110_clean_end_refuted : exists fuel polls msg k, plain msg /\ first_ready polls k /\ (k < fuel)%nat /\
  tm_done (write (mkterm [] [] 0) (printed (snd (Spinner fuel polls msg)))) = [[10003; 32; 104; 105; 46; 46; 32; 32]] /\ msg = [104; 105].
Proof.
  exists 3%nat, (fun j => Nat.eqb j 1), [104; 105], 1%nat. split; [repeat (constructor; [lia|]); constructor|]. split; [split; [reflexivity|intros [|j] H; [reflexivity|lia]]|].
  split; [lia|]. split; reflexivity.
Qed.
Print Assumptions C110_clean_end_refuted.

(** Hypotheses satisfied: two rounds, then done. *)
Example C110_case : first_ready (fun j => Nat.leb 2 j) 2 /\ dots_in 1 = [46; 46] /\ dots_in 2 = [46; 46; 46] /\ dots_in 3 = [46] /\
  shown (tm_line (write (mkterm [] [] 0) (printed (firstn (16 * 1 + 2 * 3 + 1) (snd (Spinner 5 (fun j => Nat.leb 2 j) [104; 105])))))) = [10424; 32; 104; 105; 46; 46; 46].
Proof.
  split; [split; [reflexivity|intros [|[|j]] H; [reflexivity|reflexivity|lia]]|]. repeat (split; [reflexivity|]). vm_compute. reflexivity.
Qed.
