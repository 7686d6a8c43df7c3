(** HostileSpec.v: when a torrent of one file loads, whatever its numbers. P: piece length, L: the file's length, n: number of hashes. *)
From Verif Require Import Base.

Definition one_loads (P L n : Z) : Prop :=
  (0 < P /\ 0 <= L <= n * P) \/                      (* as it should be *)
  (0 < P /\ 1 - P < L < 0 /\ 0 < n) \/               (* less than nothing, but not by a piece *)
  (P < 0 /\ 0 < L <= - P /\ 0 < n) \/                (* one piece of less than nothing *)
  (P < 0 /\ L <= 0 /\ 2 - L <= n * - P) \/           (* both below zero: nearly as if neither were *)
  (P < 0 /\ L = 0 /\ n = 0).
Definition one_crashes (P L n : Z) : Prop :=
  P = 0 \/ (0 < P /\ 0 < n /\ n * P < L) \/ (P < 0 /\ L <= 0 /\ 0 < n /\ n * - P < 2 - L).
