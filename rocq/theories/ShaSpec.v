(** ShaSpec.v: the secure hash algorithm SHA-1 as in FIPS 180-4. *)
From Verif Require Import Base LayoutModel LayoutSpec FsSpec SeenModel SeenSpec.

Definition W32 : Z := 4294967296.
(** 2.2.2, 3.2: rotation, addition modulo 2^32 *)
Definition ROTL (n x : Z) : Z := (x * 2 ^ n) mod W32 + x / 2 ^ (32 - n).
(** 4.1.1: the functions; the complement of x is 2^32 - 1 - x. *)
Definition f_t (t : nat) (x y z : Z) : Z :=
  if (t <=? 19)%nat then Z.lxor (Z.land x y) (Z.land (W32 - 1 - x) z)
  else if (t <=? 39)%nat then Z.lxor x (Z.lxor y z)
  else if (t <=? 59)%nat then Z.lxor (Z.land x y) (Z.lxor (Z.land x z) (Z.land y z))
  else Z.lxor x (Z.lxor y z).
(** 4.2.1: the constants 5a827999, 6ed9eba1, 8f1bbcdc, ca62c1d6 *)
Definition K_t (t : nat) : Z := nth (t / 20) [1518500249; 1859775393; 2400959708; 3395469782] 0.
(** 5.1.1: the least k with length + 1 + k congruent to 56 modulo 64 (in bytes), and the length in bits in 8 bytes *)
Fixpoint value (b : bytes) : Z := match b with [] => 0 | d :: t => b2z d * 256 ^ zlen t + value t end.
Definition padded (m p : bytes) : Prop :=
  exists k len, p = m ++ [x80] ++ repeat x00 k ++ len /\ (k < 64)%nat /\ List.length len = 8%nat /\ value len = 8 * zlen m /\ exists q, (List.length p = 64 * q)%nat.
(** 5.3.1: 67452301, efcdab89, 98badcfe, 10325476, c3d2e1f0 *)
Definition H0 : list Z := [1732584193; 4023233417; 2562383102; 271733878; 3285377520].
(** 6.1.2: the message schedule *)
Definition schedule (M : bytes) (W : nat -> Z) : Prop :=
  (forall t, (t < 16)%nat -> W t = value (firstn 4 (skipn (4 * t) M))) /\
  (forall t, (16 <= t)%nat -> W t = ROTL 1 (Z.lxor (W (t - 3)%nat) (Z.lxor (W (t - 8)%nat) (Z.lxor (W (t - 14)%nat) (W (t - 16)%nat))))).
Definition round (W : nat -> Z) (v : list Z) (t : nat) : list Z :=
  match v with
  | [a; b; c; d; e] => [(ROTL 5 a + f_t t b c d + e + K_t t + W t) mod W32; a; ROTL 30 b; c; d]
  | _ => v
  end.
Definition sums (x y : list Z) : list Z := map (fun p => (fst p + snd p) mod W32) (combine x y).
(** The hash values after the blocks of a padded message. *)
Inductive hashes_to : list Z -> bytes -> list Z -> Prop :=
| h_done H : hashes_to H [] H
| h_block H M W rest H' : List.length M = 64%nat -> schedule M W -> hashes_to (sums H (fold_left (round W) (seq 0 80) H)) rest H' -> hashes_to H (M ++ rest) H'.
(** The digest of m is the 20 bytes of the five words. *)
Definition sha1_of (m dig : bytes) : Prop :=
  exists p H, padded m p /\ hashes_to H0 p H /\ List.length dig = 20%nat /\ forall i, (i < 5)%nat -> value (firstn 4 (skipn (4 * i) dig)) = nth i H 0.

(** ** Two different messages with the same digest *)
(** The first 192 bytes of the two PDF files published with the first SHA-1 collision (Stevens, Bursztein, Karpman, Albertini, Markov, 2017), and the 128 bytes in which they differ. *)
Definition shat_head : bytes :=
  [x25; x50; x44; x46; x2d; x31; x2e; x33; x0a; x25; xe2; xe3; xcf; xd3; x0a; x0a; x0a; x31; x20; x30; x20; x6f; x62; x6a; x0a; x3c; x3c; x2f; x57; x69; x64; x74;
   x68; x20; x32; x20; x30; x20; x52; x2f; x48; x65; x69; x67; x68; x74; x20; x33; x20; x30; x20; x52; x2f; x54; x79; x70; x65; x20; x34; x20; x30; x20; x52; x2f;
   x53; x75; x62; x74; x79; x70; x65; x20; x35; x20; x30; x20; x52; x2f; x46; x69; x6c; x74; x65; x72; x20; x36; x20; x30; x20; x52; x2f; x43; x6f; x6c; x6f; x72;
   x53; x70; x61; x63; x65; x20; x37; x20; x30; x20; x52; x2f; x4c; x65; x6e; x67; x74; x68; x20; x38; x20; x30; x20; x52; x2f; x42; x69; x74; x73; x50; x65; x72;
   x43; x6f; x6d; x70; x6f; x6e; x65; x6e; x74; x20; x38; x3e; x3e; x0a; x73; x74; x72; x65; x61; x6d; x0a; xff; xd8; xff; xfe; x00; x24; x53; x48; x41; x2d; x31;
   x20; x69; x73; x20; x64; x65; x61; x64; x21; x21; x21; x21; x21; x85; x2f; xec; x09; x23; x39; x75; x9c; x39; xb1; xa1; xc6; x3c; x4c; x97; xe1; xff; xfe; x01].
Definition shat_a : bytes := shat_head ++
  [x7f; x46; xdc; x93; xa6; xb6; x7e; x01; x3b; x02; x9a; xaa; x1d; xb2; x56; x0b; x45; xca; x67; xd6; x88; xc7; xf8; x4b; x8c; x4c; x79; x1f; xe0; x2b; x3d; xf6;
   x14; xf8; x6d; xb1; x69; x09; x01; xc5; x6b; x45; xc1; x53; x0a; xfe; xdf; xb7; x60; x38; xe9; x72; x72; x2f; xe7; xad; x72; x8f; x0e; x49; x04; xe0; x46; xc2;
   x30; x57; x0f; xe9; xd4; x13; x98; xab; xe1; x2e; xf5; xbc; x94; x2b; xe3; x35; x42; xa4; x80; x2d; x98; xb5; xd7; x0f; x2a; x33; x2e; xc3; x7f; xac; x35; x14;
   xe7; x4d; xdc; x0f; x2c; xc1; xa8; x74; xcd; x0c; x78; x30; x5a; x21; x56; x64; x61; x30; x97; x89; x60; x6b; xd0; xbf; x3f; x98; xcd; xa8; x04; x46; x29; xa1].
Definition shat_b : bytes := shat_head ++
  [x73; x46; xdc; x91; x66; xb6; x7e; x11; x8f; x02; x9a; xb6; x21; xb2; x56; x0f; xf9; xca; x67; xcc; xa8; xc7; xf8; x5b; xa8; x4c; x79; x03; x0c; x2b; x3d; xe2;
   x18; xf8; x6d; xb3; xa9; x09; x01; xd5; xdf; x45; xc1; x4f; x26; xfe; xdf; xb3; xdc; x38; xe9; x6a; xc2; x2f; xe7; xbd; x72; x8f; x0e; x45; xbc; xe0; x46; xd2;
   x3c; x57; x0f; xeb; x14; x13; x98; xbb; x55; x2e; xf5; xa0; xa8; x2b; xe3; x31; xfe; xa4; x80; x37; xb8; xb5; xd7; x1f; x0e; x33; x2e; xdf; x93; xac; x35; x00;
   xeb; x4d; xdc; x0d; xec; xc1; xa8; x64; x79; x0c; x78; x2c; x76; x21; x56; x60; xdd; x30; x97; x91; xd0; x6b; xd0; xaf; x3f; x98; xcd; xa4; xbc; x46; x29; xb1].
(** Contents of the same files, cut into pieces with the same hashes. *)
Definition twins (sha1 : bytes -> bytes) (P : Z) (cs cs' : list bytes) : Prop :=
  map zlen cs = map zlen cs' /\ forall i, 0 <= i < pieces_needed P (zlen (List.concat cs)) -> sha1 (piece_at P (List.concat cs) i) = sha1 (piece_at P (List.concat cs') i).
