(** DiagModel.v: what bencode.Decode says when it fails (src/bencode/decode.go). BencodeModel's decoder, with the text of its errors. *)
From Verif Require Import Base BencodeModel.

(** Why the decoder stops. *)
Inductive cause :=
| CString                  (* decode.go:144 *)
| CZero                    (* decode.go:182 *)
| CInt                     (* decode.go:195 *)
| CAtoi (ds : bytes)       (* decode.go:148: strconv.Atoi's error *)
| CParse (ds : bytes)      (* decode.go:199: strconv.ParseInt's error *)
| CPanic.                  (* an index out of range: curByte (220), the slice in 153 *)
(** A result, or a cause and data[curs:] (empty also when curs has passed the end). *)
Inductive dres (A : Type) := DOk (a : A) | DErr (c : cause) (rest : bytes) | DFuel.
Arguments DOk {A} a. Arguments DErr {A} c rest. Arguments DFuel {A}.
Definition dbind {A C} (m : dres A) (f : A -> dres C) : dres C := match m with DOk a => f a | DErr c r => DErr c r | DFuel => DFuel end.
Notation "'try' x <- m ; f" := (dbind m (fun x => f)) (at level 200, x pattern, m at level 100, f at level 200).

(** decode.go:136-146 and 187-197 *)
Fixpoint digit_loopD (stop : byte) (c : cause) (rest acc : bytes) : dres (bytes * bytes) :=
  match rest with
  | [] => DErr CPanic []
  | b :: r => if is_digit b then digit_loopD stop c r (acc ++ [b])
              else if Byte.eqb b stop then DOk (acc, r) else DErr c rest
  end.
(** decode.go:133-157 decodeString *)
Definition decodeStringD (sp rest : bytes) : dres (bytes * bytes) :=
  try (ds, r) <- digit_loopD ":"%byte CString rest [];
  match atoi ds with
  | Ok n => if n <=? zlen r + zlen sp then DOk (firstn (Z.to_nat n) (r ++ sp), skipn (Z.to_nat n) r) else DErr CPanic r
  | _ => DErr (CAtoi ds) r
  end.
(** decode.go:177-197 *)
Definition int_bodyD (r2 : bytes) : dres (bytes * bytes) :=
  match r2 with
  | [] => DErr CPanic []
  | z :: r' =>
    if Byte.eqb z "0"%byte then
      match r' with
      | [] => DErr CPanic []
      | y :: _ => if negb (Byte.eqb y "e"%byte) then DErr CZero r' else digit_loopD "e"%byte CInt r' [z]
      end
    else digit_loopD "e"%byte CInt r2 []
  end.
(** decode.go:159-205 decodeInt, called at an 'i' only (the error in 164 does not occur) *)
Definition decodeIntD (rest : bytes) : dres (Z * bytes) :=
  match rest with
  | [] => DErr CPanic []
  | b :: r =>
    if negb (Byte.eqb b "i"%byte) then DErr CInt rest else
    match r with
    | [] => DErr CPanic []
    | c :: r1 =>
      let neg := Byte.eqb c "-"%byte in
      try (ds, r3) <- int_bodyD (if neg then r1 else r);
      match atoi ds with
      | Ok v => DOk (i64 (v * (if neg then -1 else 1)), r3)
      | _ => DErr (CParse ds) r3
      end
    end
  end.
(** decode.go:54-131, as decVal, decDict and decList in BencodeModel *)
Fixpoint decValD (fuel : nat) (sp rest : bytes) : dres (gval * bytes) :=
  match fuel with
  | O => DFuel
  | S f =>
    match rest with
    | [] => DErr CPanic []
    | b :: r =>
      if Byte.eqb b "d"%byte then try (d, r') <- decDictD f sp r []; DOk (VDict d, r')
      else if Byte.eqb b "l"%byte then try (l, r') <- decListD f sp r []; DOk (VList l, r')
      else if Byte.eqb b "i"%byte then try (z, r') <- decodeIntD rest; DOk (VInt KInt64 z, r')
      else try (s, r') <- decodeStringD sp rest; DOk (VStr s, r')
    end
  end
with decDictD (fuel : nat) (sp rest : bytes) (acc : list (bytes * gval)) : dres (list (bytes * gval) * bytes) :=
  match fuel with
  | O => DFuel
  | S f =>
    match rest with
    | [] => DErr CPanic []
    | b :: r =>
      if Byte.eqb b "e"%byte then DOk (acc, r)
      else try (k, r1) <- decodeStringD sp rest;
           try (v, r2) <- decValD f sp r1;
           decDictD f sp r2 (dput k v acc)
    end
  end
with decListD (fuel : nat) (sp rest : bytes) (acc : list gval) : dres (list gval * bytes) :=
  match fuel with
  | O => DFuel
  | S f =>
    match rest with
    | [] => DErr CPanic []
    | b :: r =>
      if Byte.eqb b "e"%byte then DOk (acc, r)
      else try (v, r1) <- decValD f sp rest;
           decListD f sp r1 (acc ++ [v])
    end
  end.
(** decode.go:19-49 Decode: the value, or the cause and the cursor. *)
Inductive verdict := Value (v : gval) | Trouble (c : cause) (curs : Z) | Unknown.
Definition DecodeD (data : gslice) : verdict :=
  match decValD (2 * List.length (vis data) + 2) (spare data) (vis data) with
  | DOk (v, _) => Value v
  | DErr c rest => Trouble c (zlen (vis data) - zlen rest)
  | DFuel => Unknown
  end.
(** strconv.NumError.Error; the digits are quoted as they are. *)
Definition num_error (fn ds : bytes) : bytes :=
  B "strconv." ++ fn ++ B ": parsing " ++ [x22] ++ ds ++ [x22] ++ B ": " ++ match ds with [] => B "invalid syntax" | _ => B "value out of range" end.
(** decode.go:10-14 DecoderError.Error, 26-30; the error's text, when the data has [len] bytes. *)
Definition error_text (len : Z) (c : cause) (curs : Z) : bytes :=
  match c with
  | CString => B "decoder error: " ++ B "bad string at byte " ++ itoa curs
  | CZero => B "decoder error: " ++ B "bad int (leading 0s) at byte " ++ itoa curs
  | CInt => B "decoder error: " ++ B "bad int at byte " ++ itoa curs
  | CAtoi ds => num_error (B "Atoi") ds
  | CParse ds => num_error (B "ParseInt") ds
  | CPanic => B "decoder error: " ++ if len <=? curs then B "read end of data before completion" else B "caught panic"
  end.
