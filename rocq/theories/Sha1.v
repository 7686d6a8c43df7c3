(** Sha1.v: SHA-1 (FIPS 180-4), which utils.SHA1 (src/utils/utils.go:110-115) takes from crypto/sha1. The theorems hold for every hash
    function; this one is used to run the model on the project's own torrents. *)
From Coq Require Import NArith.
From Verif Require Import Base.

Definition w32 (x : N) : N := N.land x 4294967295.
Definition rotl (k x : N) : N := N.lor (w32 (N.shiftl x k)) (N.shiftr x (32 - k)).
(** The message followed by 1, zeros and its length in bits: a multiple of 64 bytes. *)
Definition be_bytes (k : nat) (z : Z) : bytes := map (fun i => z2b (z / 256 ^ Z.of_nat (k - 1 - i))) (seq 0 k).
Definition pad_zeros (n : Z) : nat := Z.to_nat ((55 - n) mod 64).
Definition padded (m : bytes) : bytes := m ++ x80 :: repeat x00 (pad_zeros (zlen m)) ++ be_bytes 8 (8 * zlen m).
(** Thirty-two bit words, the more significant byte first. *)
Definition word (a b c d : byte) : N := N.lor (N.shiftl (Byte.to_N a) 24) (N.lor (N.shiftl (Byte.to_N b) 16) (N.lor (N.shiftl (Byte.to_N c) 8) (Byte.to_N d))).
Fixpoint words (m : bytes) : list N := match m with a :: b :: c :: d :: r => word a b c d :: words r | _ => [] end.
Record hstate := mkhs { ha : N; hb : N; hc : N; hd : N; he : N }.
Definition hinit : hstate := mkhs 1732584193 4023233417 2562383102 271733878 3285377520.
Definition ft (t : nat) (b c d : N) : N :=
  if Nat.ltb t 20 then N.lxor d (N.land b (N.lxor c d))
  else if Nat.ltb t 40 then N.lxor b (N.lxor c d)
  else if Nat.ltb t 60 then N.lor (N.land b c) (N.land d (N.lor b c))
  else N.lxor b (N.lxor c d).
Definition kt (t : nat) : N := if Nat.ltb t 20 then 1518500249 else if Nat.ltb t 40 then 1859775393 else if Nat.ltb t 60 then 2400959708 else 3395469782.
Definition next_word (w : list N) : N := rotl 1 (N.lxor (N.lxor (nth 13 w 0%N) (nth 8 w 0%N)) (N.lxor (nth 2 w 0%N) (nth 0 w 0%N))).
(** [k] rounds from round t on; [w] the next sixteen words of the schedule. *)
Fixpoint rounds (k t : nat) (w : list N) (s : hstate) : hstate :=
  match k with
  | O => s
  | S k' =>
    let x := w32 (rotl 5 (ha s) + ft t (hb s) (hc s) (hd s) + he s + kt t + nth 0 w 0)%N in
    rounds k' (S t) (tl w ++ [next_word w]) (mkhs x (ha s) (rotl 30 (hb s)) (hc s) (hd s))
  end.
Definition block (s : hstate) (w : list N) : hstate :=
  let r := rounds 80 0 w s in mkhs (w32 (ha s + ha r)) (w32 (hb s + hb r)) (w32 (hc s + hc r)) (w32 (hd s + hd r)) (w32 (he s + he r)).
Fixpoint blocks (n : nat) (s : hstate) (w : list N) : hstate := match n with O => s | S n' => blocks n' (block s (firstn 16 w)) (skipn 16 w) end.
Definition word_bytes (x : N) : bytes := be_bytes 4 (Z.of_N x).
Definition sha1 (m : bytes) : bytes :=
  let w := words (padded m) in
  let s := blocks (Nat.div (List.length w) 16) hinit w in
  word_bytes (ha s) ++ word_bytes (hb s) ++ word_bytes (hc s) ++ word_bytes (hd s) ++ word_bytes (he s).

Lemma sha1_length m : zlen (sha1 m) = 20.
Proof. reflexivity. Qed.
(** ** The examples of FIPS 180 *)
Definition hexnib (b : byte) : Z := let z := b2z b in if z <=? 57 then z - 48 else z - 87.
Fixpoint unhex (s : bytes) : bytes := match s with a :: b :: r => z2b (16 * hexnib a + hexnib b) :: unhex r | _ => [] end.
Example sha1_empty : sha1 [] = unhex (B "da39a3ee5e6b4b0d3255bfef95601890afd80709").
Proof. vm_compute. reflexivity. Qed.
Example sha1_abc : sha1 (B "abc") = unhex (B "a9993e364706816aba3e25717850c26c9cd0d89d").
Proof. vm_compute. reflexivity. Qed.
Example sha1_two_blocks : sha1 (B "abcdbcdecdefdefgefghfghighijhijkijkljklmklmnlmnomnopnopq") = unhex (B "84983e441c3bd26ebaae4aa1f95129e5e54670f1").
Proof. vm_compute. reflexivity. Qed.
Example sha1_long : sha1 (repeat "a"%byte 10000) = unhex (B "a080cbda64850abb7b7f67ee875ba068074ff6fe").
Proof. vm_compute. reflexivity. Qed.
