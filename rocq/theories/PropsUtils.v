(** PropsUtils.v: the helpers of src/utils (C64-C68). *)
From Verif Require Import Base BencodeModel BencodeSpec UtilsModel UtilsSpec UtilsProofs.

(* ------------------------------------------------------------------ *)
(** * C64 RemoveSwap *)
(** The argument's backing array is overwritten too: [back] is what the caller's slice shows afterwards. *)
Theorem C64_remove_swap : forall {T} (s : list T) i x, 0 <= i -> nth_error s (Z.to_nat i) = Some x ->
  exists r back, RemoveSwap s i = Ok (r, back) /\
  Permutation s (x :: r) /\ zlen r = zlen s - 1 /\ (forall j, (j < List.length r)%nat -> j <> Z.to_nat i -> nth_error r j = nth_error s j) /\
  firstn (List.length r) back = r /\ List.length back = List.length s.
Proof. exact @RemoveSwap_top. Qed.
Print Assumptions C64_remove_swap.
Theorem C64_panics : forall {T} (s : list T) i, RemoveSwap s i = Panic <-> i < 0 \/ zlen s <= i.
Proof. exact @RemoveSwap_panics. Qed.
Print Assumptions C64_panics.
Example C64_ex : RemoveSwap [10; 20; 30; 40] 1 = Ok ([10; 40; 30], [10; 40; 30; 40]).
Proof. reflexivity. Qed.
Example C64_last : RemoveSwap [10; 20] 1 = Ok ([10], [10; 20]).
Proof. reflexivity. Qed.
Example C64_bad : RemoveSwap [10; 20] 2 = Panic /\ RemoveSwap [10; 20] (-1) = Panic /\ RemoveSwap (@nil Z) 0 = Panic.
Proof. repeat split. Qed.

(* ------------------------------------------------------------------ *)
(** * C65 Size texts *)
Theorem C65_accepts : forall uni s n, size_text s n -> parseSizeUnits uni s = Ok (i64 n).
Proof. exact parseSizeUnits_complete. Qed.
Print Assumptions C65_accepts.
Theorem C65_only : forall uni s v, unicode_ok uni -> parseSizeUnits uni s = Ok v -> exists n, size_text s n /\ v = i64 n.
Proof. exact parseSizeUnits_sound. Qed.
Print Assumptions C65_only.
Theorem C65_rejects : forall uni s, unicode_ok uni -> (forall n, ~ size_text s n) -> exists e, parseSizeUnits uni s = Err e.
Proof. exact parseSizeUnits_rejects. Qed.
Print Assumptions C65_rejects.
(** Without wrap-around the value is the number itself. *)
Theorem C65_exact : forall uni s n, size_text s n -> in_int64 n -> parseSizeUnits uni s = Ok n.
Proof. exact parseSizeUnits_exact. Qed.
Print Assumptions C65_exact.
(** A limit of 2^64 bytes is read as 0, and one of 2^63 as a negative number. *)
Theorem C65_wrap_refuted : forall uni, exists s n, size_text s n /\ max64 < n /\ parseSizeUnits uni s = Ok 0.
Proof. exact parseSizeUnits_wraps. Qed.
Print Assumptions C65_wrap_refuted.
Theorem C65_sign_refuted : forall uni, exists s n, size_text s n /\ 0 < n /\ exists v, parseSizeUnits uni s = Ok v /\ v < 0.
Proof. exact parseSizeUnits_negates. Qed.
Print Assumptions C65_sign_refuted.
Definition no_tables (s : bytes) : bytes := s.
Example C65_tables : unicode_ok no_tables.
Proof. intros s (b & Hb & H). exists b. split; [exact Hb|left; exact H]. Qed.
Example C65_ex : parseSizeUnits no_tables (B "-12k") = Ok (-12288) /\ parseSizeUnits no_tables (B "2G") = Ok 2147483648 /\ parseSizeUnits no_tables (B "007") = Ok 7.
Proof. vm_compute. repeat split. Qed.
Example C65_ex_text : size_text (B "-12k") (-12288).
Proof. exists (B "-"), (B "12"), (B "k"), 1024. repeat split; try discriminate; try (right; split; reflexivity). - repeat constructor; cbn; discriminate. - right. right. left. auto. Qed.
Example C65_bad : parseSizeUnits no_tables (B "12KB") = Err EInvalid /\ parseSizeUnits no_tables [] = Err EInvalid /\ (exists e, parseSizeUnits no_tables (B "9223372036854775808") = Err e) /\
  (exists e, parseSizeUnits no_tables (B "K") = Err e) /\ (exists e, parseSizeUnits no_tables (B "1.5M") = Err e).
Proof. repeat split; try (eexists; vm_compute; reflexivity). Qed.

(* ------------------------------------------------------------------ *)
(** * C66 Peer ids *)
Theorem C66_shape : forall src fuel s, NewPeerId src fuel = Ok s -> exists m r, s = B "-GT0000-" ++ r /\ r = letters src m /\ zlen s = 20 /\ Forall is_letter r.
Proof. exact NewPeerId_sound. Qed.
Print Assumptions C66_shape.
(** It terminates exactly when the source yields twelve letters, and then with the first twelve. *)
Theorem C66_terminates : forall src, (exists fuel s, NewPeerId src fuel = Ok s) <-> exists m, (12 <= List.length (letters src m))%nat.
Proof. exact NewPeerId_terminates. Qed.
Print Assumptions C66_terminates.
Theorem C66_first : forall src fuel s m, NewPeerId src fuel = Ok s -> (12 <= List.length (letters src m))%nat -> s = B "-GT0000-" ++ firstn 12 (letters src m).
Proof. exact NewPeerId_first. Qed.
Print Assumptions C66_first.
Theorem C66_diverges : forall src, (forall m, (List.length (letters src m) < 12)%nat) -> forall fuel, NewPeerId src fuel = NoFuel.
Proof. exact NewPeerId_diverges. Qed.
Print Assumptions C66_diverges.
Definition toy_src (k : nat) : Z := match k with 0%nat => 164412590478073920 | 1%nat => 1 + 64 * 63 + 4096 * 27 | _ => 9223372036854775807 end.
Example C66_ex : NewPeerId toy_src 40 = Ok (B "-GT0000-abcdefghijbB").
Proof. vm_compute. reflexivity. Qed.

(* ------------------------------------------------------------------ *)
(** * C67 Human-readable sizes *)
Theorem C67_small : forall n, min64 <= n < 1024 -> Bytes4Humans n = Ok (f64 n, 1, B "B").
Proof. exact Humans_small. Qed.
Print Assumptions C67_small.
Theorem C67_big : forall n, 1024 <= n <= max64 -> exists j c, 1 <= j <= 6 /\ Bytes4Humans n = Ok (f64 n, 1024 ^ j, [c] ++ B "iB") /\
  nth_error (B "KMGTPE") (Z.to_nat (j - 1)) = Some c /\ 1024 ^ j <= f64 n < 1024 ^ j * 1024.
Proof. exact Humans_big. Qed.
Print Assumptions C67_big.
(** The model's float64(n) is a 53-bit number within 2^-53 of n (n itself below 2^53). *)
Theorem C67_float : forall n, 0 <= n -> float53 (f64 n) /\ 2 ^ 53 * Z.abs (f64 n - n) <= n /\ (n < 2 ^ 53 -> f64 n = n) /\ (2 ^ 53 <= n -> nearest_even n (f64 n)).
Proof. exact f64_spec. Qed.
Print Assumptions C67_float.
Example C67_ex : Bytes4Humans 1536 = Ok (1536, 1024, B "KiB") /\ Bytes4Humans 1048575 = Ok (1048575, 1024, B "KiB") /\ Bytes4Humans (-5) = Ok (-5, 1, B "B").
Proof. vm_compute. repeat split. Qed.
Example C67_ties : f64 (2 ^ 53 + 1) = 2 ^ 53 /\ f64 (2 ^ 53 + 3) = 2 ^ 53 + 4.
Proof. vm_compute. auto. Qed.
(** 2^63-1 rounds up to 2^63, still exbibytes; 2^60-1 is shown as 1 EiB. *)
Example C67_edge : Bytes4Humans 9223372036854775807 = Ok (2 ^ 63, 2 ^ 60, B "EiB") /\ Bytes4Humans (2 ^ 60 - 1) = Ok (2 ^ 60, 2 ^ 60, B "EiB").
Proof. vm_compute. repeat split. Qed.

(* ------------------------------------------------------------------ *)
(** * C68 Options *)
Theorem C68_validate : forall uni g o, unicode_ok uni ->
  (exists g', ValidateOpts uni (Some g) o = (Ok tt, Some g')) <->
  o_input o <> [] /\ known (o_cmd o) /\ (exists n, size_text (o_upstr g) n) /\ (exists n, size_text (o_dnstr g) n).
Proof. exact Validate_iff. Qed.
Print Assumptions C68_validate.
Theorem C68_start : forall uni o u d, o_input o <> [] -> known (o_cmd o) -> size_text (o_upstr o) u -> size_text (o_dnstr o) d ->
  exists g, initOpts uni o = Ok g /\ o_uplim g = i64 u /\ o_dnlim g = i64 d /\ o_input g = o_input o /\ o_wd g = o_wd o /\ OptPort g = o_port o mod 65536.
Proof. exact initOpts_ok. Qed.
Print Assumptions C68_start.
Theorem C68_start_bad : forall uni o, unicode_ok uni ->
  ~ (o_input o <> [] /\ known (o_cmd o) /\ (exists n, size_text (o_upstr o) n) /\ (exists n, size_text (o_dnstr o) n)) -> initOpts uni o = Panic.
Proof. exact initOpts_bad. Qed.
Print Assumptions C68_start_bad.
(** Whatever is refused is refused with an error, not a panic. *)
Theorem C68_refused : forall uni g o, unicode_ok uni ->
  ~ (o_input o <> [] /\ known (o_cmd o) /\ (exists n, size_text (o_upstr g) n) /\ (exists n, size_text (o_dnstr g) n)) ->
  exists e g', ValidateOpts uni (Some g) o = (Err e, Some g').
Proof. exact Validate_refused. Qed.
Print Assumptions C68_refused.
(** Called before the package variable is set: the same refusals for a missing input or an unknown command, else a panic. *)
Theorem C68_no_package_variable : forall uni o, (o_input o <> [] /\ known (o_cmd o) -> ValidateOpts uni None o = (Panic, None)) /\
  (~ (o_input o <> [] /\ known (o_cmd o)) -> exists e, ValidateOpts uni None o = (Err e, None)).
Proof. exact Validate_unset. Qed.
Print Assumptions C68_no_package_variable.
(** The limits of the options being validated are not looked at, only those of the package variable. *)
Theorem C68_receiver_refuted : forall uni, exists g o, fst (ValidateOpts uni (Some g) o) = Ok tt /\ forall n, ~ size_text (o_upstr o) n.
Proof. exact Validate_wrong_receiver. Qed.
Print Assumptions C68_receiver_refuted.
Definition opts1 : Opts := mkopts (B "a.torrent") [] 70000 (B "swarm") (B "1m") (B "-1") 0 0.
Example C68_ex : initOpts no_tables opts1 = Ok (set_dnlim (set_uplim opts1 1048576) (-1)) /\ OptPort opts1 = 4464.
Proof. vm_compute. repeat split. Qed.
Example C68_bad : initOpts no_tables (mkopts (B "a") [] 1 (B "seed") (B "1") (B "1") 0 0) = Panic.
Proof. reflexivity. Qed.
