(** ShaModel.v: utils.SHA1 (src/utils/utils.go:111-115) with the package crypto/sha1 it calls. That package is not in the repository; it is modelled as in
    Go 1.18 (sha1.go, and blockGeneric of sha1block.go, which the assembly versions agree with). *)
From Verif Require Import Base.

(** math/bits RotateLeft32, for 0 < k < 32 *)
Definition rotl (k x : Z) : Z := Z.lor (u32 (Z.shiftl x k)) (Z.shiftr x (32 - k)).
(** sha1.go digest: h; x[:nx]; len. The bytes of x from nx on are never used. *)
Record digest := mkdig { dg_h : Z * Z * Z * Z * Z; dg_x : bytes; dg_len : Z }.
(** sha1.go Reset, New *)
Definition sha_init : Z * Z * Z * Z * Z := (1732584193, 4023233417, 2562383102, 271733878, 3285377520).
Definition sha_New : digest := mkdig sha_init [] 0.
Definition at_ (p : bytes) (i : nat) : Z := b2z (nth i p x00).
Definition upd (w : list Z) (i : nat) (v : Z) : list Z := firstn i w ++ v :: skipn (S i) w.
(** sha1block.go blockGeneric: the words of one block *)
Definition load1 (p : bytes) (i : nat) : Z :=
  Z.lor (Z.lor (Z.lor (Z.shiftl (at_ p (4 * i)) 24) (Z.shiftl (at_ p (4 * i + 1)) 16)) (Z.shiftl (at_ p (4 * i + 2)) 8)) (at_ p (4 * i + 3)).
Definition load (p : bytes) : list Z := map (load1 p) (seq 0 16).
(** its five loops: the function and the constant of round i *)
Definition go_f (i : nat) (b c d : Z) : Z :=
  if (i <? 20)%nat then Z.lor (Z.land b c) (Z.land (4294967295 - b) d)
  else if (i <? 40)%nat then Z.lxor (Z.lxor b c) d
  else if (i <? 60)%nat then Z.lor (Z.land (Z.lor b c) d) (Z.land b c)
  else Z.lxor (Z.lxor b c) d.
Definition go_k (i : nat) : Z := if (i <? 20)%nat then 1518500249 else if (i <? 40)%nat then 1859775393 else if (i <? 60)%nat then 2400959708 else 3395469782.
Definition ring (w : list Z) (i : nat) : Z := nth (i mod 16) w 0.
Fixpoint rounds (n i : nat) (w : list Z) (v : Z * Z * Z * Z * Z) : Z * Z * Z * Z * Z :=
  match n with
  | O => v
  | S n' =>
    let '(a, b, c, d, e) := v in
    let w := if (i <? 16)%nat then w else upd w (i mod 16) (rotl 1 (Z.lxor (Z.lxor (Z.lxor (ring w (i - 3)) (ring w (i - 8))) (ring w (i - 14))) (ring w i))) in
    let t := u32 (rotl 5 a + go_f i b c d + e + ring w i + go_k i) in
    rounds n' (S i) w (t, a, rotl 30 b, c, d)
  end.
Definition add5 (x y : Z * Z * Z * Z * Z) : Z * Z * Z * Z * Z :=
  let '(a, b, c, d, e) := x in let '(a', b', c', d', e') := y in (u32 (a + a'), u32 (b + b'), u32 (c + c'), u32 (d + d'), u32 (e + e')).
Definition block1 (h : Z * Z * Z * Z * Z) (p : bytes) : Z * Z * Z * Z * Z := add5 h (rounds 80 0 (load p) h).
Fixpoint block (n : nat) (h : Z * Z * Z * Z * Z) (p : bytes) : Z * Z * Z * Z * Z :=
  match n with O => h | S n' => block n' (block1 h (firstn 64 p)) (skipn 64 p) end.
(** sha1.go Write *)
Definition sha_Write (d : digest) (p : bytes) : digest :=
  let len := u64 (dg_len d + zlen p) in
  let '(h, x, p) :=
    match dg_x d with
    | [] => (dg_h d, [], p)
    | x => let n := Nat.min (64 - List.length x) (List.length p) in
           let x := x ++ firstn n p in
           if Nat.eqb (List.length x) 64 then (block 1 (dg_h d) x, [], skipn n p) else (dg_h d, x, skipn n p)
    end in
  let '(h, p) := if (64 <=? List.length p)%nat then let n := (List.length p / 64)%nat in (block n h (firstn (64 * n) p), skipn (64 * n) p) else (h, p) in
  mkdig h (match p with [] => x | _ => p end) len.
(** encoding/binary BigEndian.PutUint64 *)
Definition be64 (z : Z) : bytes := be32 (z / 4294967296) ++ be32 z.
(** sha1.go checkSum, Sum(nil). The panic for d.nx <> 0 does not occur (C116_padded). *)
Definition sha_pad (d : digest) : digest :=
  let len := dg_len d in
  let tmp := x80 :: repeat x00 63 in
  let d := if len mod 64 <? 56 then sha_Write d (firstn (Z.to_nat (56 - len mod 64)) tmp) else sha_Write d (firstn (Z.to_nat (64 + 56 - len mod 64)) (tmp ++ repeat x00 64)) in
  sha_Write d (be64 (u64 (len * 8))).
Definition sha_Sum (d : digest) : bytes :=
  let '(a, b, c, e, f) := dg_h (sha_pad d) in be32 a ++ be32 b ++ be32 c ++ be32 e ++ be32 f.
(** utils.go:111-115 *)
Definition SHA1 (data : bytes) : bytes := sha_Sum (sha_Write sha_New data).
