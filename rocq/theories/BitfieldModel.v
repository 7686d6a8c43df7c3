(** BitfieldModel.v: model of src/bf/bitfield.go. *)
From Verif Require Import Base.

(** bitfield.go:12-18. data5 is the 5 header bytes followed by data; data = data5[5:] shares
    the same array, so the two parts are kept once each: [bhdr] = data5[0:5], [bdat] = data. *)
Record bitfield := mkbf { bhdr : bytes; bdat : bytes; bnbytes : Z; bnbits : Z; bnset : Z }.

Definition Data5 (bf : bitfield) : bytes := bhdr bf ++ bdat bf.     (* 138-140 *)
Definition Data (bf : bitfield) : bytes := bdat bf.                 (* 142-144 *)
Definition Complete (bf : bitfield) : bool := bnset bf =? bnbits bf. (* 146-148 *)
Definition Nbits := bnbits.                                         (* 150-152 *)
Definition Nbytes := bnbytes.                                       (* 154-156 *)
Definition Nset := bnset.                                           (* 158-160 *)

(** bitfield.go:20-37. Go / and % truncate. A negative nbytes makes either make() or
    data5[5:] panic. Allocation failure for huge sizes is not modelled. *)
Definition NewBitfield (nbits : Z) : res bitfield :=
  let nbytes := Z.quot nbits 8 + (if Z.rem nbits 8 =? 0 then 0 else 1) in
  if nbytes <? 0 then Panic
  else Ok (mkbf (repeat (z2b 0) 5) (repeat (z2b 0) (Z.to_nat nbytes)) nbytes nbits 0).

(** uint8(128) >> j, for 0 <= j (bitfield.go:83, 94, 113). *)
Definition bmask (j : Z) : Z := Z.shiftr 128 j.
(** (x & mask) > 0 *)
Definition btest (b : byte) (j : Z) : bool := 0 <? Z.land (b2z b) (bmask j).

(** bitfield.go:82-87: the inner loop over the first n (8, or rem at 93-98) bits of a byte. *)
Definition bcount (b : byte) (n : nat) : Z :=
  Z.of_nat (List.length (filter (fun j => btest b (Z.of_nat j)) (seq 0 n))).

(** bitfield.go:81-88: i from 0 while i < last; last never exceeds len(data). *)
Fixpoint full_bytes (data : bytes) (last : nat) : Z :=
  match last, data with
  | S l, b :: r => bcount b 8 + full_bytes r l
  | _, _ => 0
  end.

(** bitfield.go:68-101 calcNset *)
Definition calcNset (bf : bitfield) : res bitfield :=
  let rem := Z.rem (bnbits bf) 8 in
  let last := zlen (bdat bf) - 1 + (if rem =? 0 then 1 else 0) in
  let n := full_bytes (bdat bf) (Z.to_nat last) in
  let put k := mkbf (bhdr bf) (bdat bf) (bnbytes bf) (bnbits bf) k in
  if rem <=? 0 then Ok (put n)
  else if last <? 0 then Panic
  else match nth_error (bdat bf) (Z.to_nat last) with
       | Some b => Ok (put (n + bcount b (Z.to_nat rem)))
       | None => Panic
       end.

(** bitfield.go:42-64 FromBytes. The result shares bytes5's array (no copy here). *)
Definition FromBytes (bytes5 : bytes) (nbits : Z) : res bitfield :=
  let l := zlen bytes5 in
  if l <=? 5 then Err EInvalid
  else if (nbits <? (l - 5 - 1) * 8 + 1) || ((l - 5) * 8 <? nbits) then Err EBounds
  else calcNset (mkbf (firstn 5 bytes5) (skipn 5 bytes5) (l - 5) nbits 0).

(** bitfield.go:103-108: the header bytes are overwritten too. *)
Definition Fill (bf : bitfield) : bitfield :=
  mkbf (map (fun _ => z2b 255) (bhdr bf)) (map (fun _ => z2b 255) (bdat bf))
       (bnbytes bf) (bnbits bf) (bnbits bf).

(** bitfield.go:110-117. A negative idx panics: negative shift count or negative index. *)
Definition Get (bf : bitfield) (idx : Z) : res bool :=
  if idx <? 0 then Panic
  else match nth_error (bdat bf) (Z.to_nat (idx / 8)) with
       | Some b => Ok (btest b (idx mod 8))
       | None => Panic
       end.

(** bitfield.go:119-134 *)
Definition bset (b : byte) (j : Z) : byte := z2b (Z.lor (b2z b) (bmask j)).
Definition bclr (b : byte) (j : Z) : byte := z2b (Z.land (b2z b) (255 - bmask j)).
Definition SetBit (bf : bitfield) (idx : Z) (v : bool) : res bitfield :=
  if idx <? 0 then Panic
  else
    let maj := Z.to_nat (idx / 8) in
    match nth_error (bdat bf) maj with
    | None => Panic
    | Some b =>
        let isSet := btest b (idx mod 8) in
        if negb isSet && v then
          Ok (mkbf (bhdr bf) (lupd (bdat bf) maj (bset b (idx mod 8))) (bnbytes bf) (bnbits bf) (bnset bf + 1))
        else if isSet && negb v then
          Ok (mkbf (bhdr bf) (lupd (bdat bf) maj (bclr b (idx mod 8))) (bnbytes bf) (bnbits bf) (bnset bf - 1))
        else Ok bf
    end.

(** bitfield.go:164-173 *)
Definition SetNbits (bf : bitfield) (nbits : Z) : res bitfield :=
  if (nbits <? (bnbytes bf - 1) * 8) || (bnbytes bf * 8 <? nbits) then Panic
  else calcNset (mkbf (bhdr bf) (bdat bf) (bnbytes bf) nbits (bnset bf)).

(** A run of calls on one bitfield. *)
Inductive bop := OSet (i : Z) (v : bool) | OFill | OSetNbits (n : Z).
Definition bstep (bf : bitfield) (o : bop) : res bitfield :=
  match o with
  | OSet i v => SetBit bf i v
  | OFill => Ok (Fill bf)
  | OSetNbits n => SetNbits bf n
  end.
Fixpoint brun (bf : bitfield) (ops : list bop) : res bitfield :=
  match ops with [] => Ok bf | o :: r => do bf' <- bstep bf o; brun bf' r end.
