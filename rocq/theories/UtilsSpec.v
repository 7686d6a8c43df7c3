(** UtilsSpec.v: specification vocabulary for the helpers of src/utils. *)
From Coq Require Export Permutation.
From Verif Require Import Base BencodeSpec.

(** ** Random strings: the j-th six-bit group of the source (ten groups per 63-bit draw, lowest first). *)
Definition group (src : nat -> Z) (j : nat) : Z := src (j / 10)%nat / 2 ^ (6 * Z.of_nat (j mod 10)) mod 64.
(** The letter a group stands for: 0..25 lower case, 26..51 upper case, none above. *)
Definition letter (g : Z) : bytes :=
  if (0 <=? g) && (g <? 26) then [z2b (97 + g)] else if (26 <=? g) && (g <? 52) then [z2b (65 + (g - 26))] else [].
Definition letters (src : nat -> Z) (m : nat) : bytes := flat_map (fun j => letter (group src j)) (seq 0 m).
Definition is_letter (b : byte) : Prop := 97 <= b2z b <= 122 \/ 65 <= b2z b <= 90.

(** ** Sizes: text [-]digits[unit], units by case-insensitive letter. *)
Definition unit_of (u : bytes) (mult : Z) : Prop :=
  (u = [] /\ mult = 1) \/ ((u = B "B" \/ u = B "b") /\ mult = 1) \/ ((u = B "K" \/ u = B "k") /\ mult = 1024) \/
  ((u = B "M" \/ u = B "m") /\ mult = 1048576) \/ ((u = B "G" \/ u = B "g") /\ mult = 1073741824).
(** [size_text s n]: s denotes the integer n, the digits being at most 2^63-1. *)
Definition size_text (s : bytes) (n : Z) : Prop :=
  exists sign ds u mult, s = sign ++ ds ++ u /\ ds <> [] /\ Forall (fun d => 48 <= b2z d <= 57) ds /\ dvalue ds <= max64 /\ unit_of u mult /\
    ((sign = [] /\ n = dvalue ds * mult) \/ (sign = B "-" /\ n = - (dvalue ds * mult))).
(** What the Unicode tables do to text with a non-ASCII byte: some byte of the result is neither a digit, nor '-', nor a
    unit letter. (Only U+0131 and U+017F have an ASCII upper case, I and S; invalid UTF-8 becomes U+FFFD.) *)
Definition unicode_ok (uni : bytes -> bytes) : Prop :=
  forall s, (exists b, In b s /\ 128 <= b2z b) -> exists b, In b (uni s) /\ (128 <= b2z b \/ b = "I"%byte \/ b = "S"%byte).
Definition in_int64 (z : Z) : Prop := min64 <= z <= max64.

(** ** float64 *)
(** [x] has at most 53 significant bits. *)
Definition float53 (x : Z) : Prop := exists m e, x = m * 2 ^ e /\ 0 <= e /\ Z.abs m < 2 ^ 53.
(** x = q * 2^e is the multiple of 2^e nearest to n, the even one if there are two. *)
Definition nearest_even (n x : Z) : Prop :=
  exists q e, x = q * 2 ^ e /\ 0 < e /\ 2 ^ 52 <= q <= 2 ^ 53 /\ 2 * Z.abs (n - q * 2 ^ e) <= 2 ^ e /\ (2 * Z.abs (n - q * 2 ^ e) = 2 ^ e -> Z.even q = true).
