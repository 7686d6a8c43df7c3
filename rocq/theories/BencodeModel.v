(** BencodeModel.v: model of src/bencode (encode.go, decode.go, dict.go). *)
From Verif Require Import Base.

(** The dynamic types an interface{} may hold, as far as the package distinguishes them
    (encode.go:41-60, decode.go:19-49). [VInt] records which Go integer type it is.
    A Go map is an association list in its (arbitrary) iteration order; a Go map has no
    repeated keys ([go_wf] in BencodeSpec.v says so). List(nil) and an empty List are identified.
    [VOther] stands for any value of any other dynamic type, nil included. *)
Inductive ikind := KInt | KInt8 | KInt16 | KInt32 | KInt64.
Inductive gval :=
| VStr (s : bytes)
| VInt (k : ikind) (z : Z)
| VDict (d : list (bytes * gval))
| VList (l : list gval)
| VOther.

(* ------------------------------------------------------------------ *)
(** * Decimal text *)

(** fmt.Sprintf("%v", i) for an integer (encode.go:68, 74): decimal, '-' sign, no leading zeros. *)
Definition digit (z : Z) : byte := z2b (48 + z).

Fixpoint udigits (fuel : nat) (n : N) (acc : bytes) : bytes :=
  match fuel with
  | O => acc
  | S f => if (n <? 10)%N then digit (Z.of_N n) :: acc
           else udigits f (n / 10)%N (digit (Z.of_N (n mod 10)%N) :: acc)
  end.
Definition utoa (n : N) : bytes := udigits (S (N.to_nat (N.size n))) n [].
Definition itoa (z : Z) : bytes :=
  if z <? 0 then "-"%byte :: utoa (Z.to_N (- z)) else utoa (Z.to_N z).

(** strconv.Atoi / ParseInt(s, 10, 64) on a string of ASCII digits (decode.go:148, 199):
    error on the empty string and above 2^63-1; leading zeros are accepted. *)
Definition digits_val (ds : bytes) : Z := fold_left (fun a d => 10 * a + (b2z d - 48)) ds 0.
Definition atoi (ds : bytes) : res Z :=
  match ds with
  | [] => Err EAtoi
  | _ => if digits_val ds <=? max64 then Ok (digits_val ds) else Err EAtoi
  end.

(* ------------------------------------------------------------------ *)
(** * Encoder (encode.go) *)

(** What a run of the encoder leaves: the bytes in the buffer and the error, if any.
    After an error nothing more is written (every caller returns at once). *)
Definition wr := (bytes * option goerr)%type.
Definition wseq (a b : wr) : wr :=
  match snd a with Some e => a | None => (fst a ++ fst b, snd b) end.
Definition wput (s : bytes) : wr := (s, None).

(** sort.Strings order: bytewise lexicographic. *)
Fixpoint bleb (a b : bytes) : bool :=
  match a, b with
  | [], _ => true
  | _ :: _, [] => false
  | x :: a', y :: b' => if b2z x <? b2z y then true
                        else if b2z x =? b2z y then bleb a' b' else false
  end.

Fixpoint kinsert {A} (e : bytes * A) (l : list (bytes * A)) : list (bytes * A) :=
  match l with
  | [] => [e]
  | x :: r => if bleb (fst e) (fst x) then e :: l else x :: kinsert e r
  end.
(** encode.go:81-87: collect the keys, sort.Strings. Keys travel with their values here
    (the code looks the value up again by key, encode.go:94). *)
Definition ksort {A} (l : list (bytes * A)) : list (bytes * A) := fold_right kinsert [] l.

(** encode.go:64-71 encodeString *)
Definition encodeString (s : bytes) : wr :=
  if zlen s =? 0 then ([], Some EEmptyString)
  else wput (itoa (zlen s) ++ [":"%byte] ++ s).

(** encode.go:73-76 encodeInt *)
Definition encodeInt (z : Z) : wr := wput (["i"%byte] ++ itoa z ++ ["e"%byte]).

(** encode.go:89-98: the loop over the sorted keys; values are given by the runs of
    [encode] on them (encode is a pure function of the value, so running it before the
    sort or inside the loop is the same). *)
Fixpoint encPairs (l : list (bytes * wr)) : wr :=
  match l with
  | [] => wput []
  | (k, w) :: r => wseq (encodeString k) (wseq w (encPairs r))
  end.

(** encode.go:104-116 encodeList loop *)
Fixpoint encSeq (l : list wr) : wr :=
  match l with [] => wput [] | w :: r => wseq w (encSeq r) end.

(** encode.go:38-62 encode, with encodeDict (78-102) and encodeList (104-116) inlined.
    Simplification: int8..int64 share one case, since encodeInt converts all to int64. *)
Fixpoint encode (v : gval) : wr :=
  match v with
  | VStr s => encodeString s
  | VInt _ z => encodeInt z
  | VDict d =>
      wseq (wput ["d"%byte])
        (wseq (encPairs (ksort (map (fun kv => (fst kv, encode (snd kv))) d)))
              (wput ["e"%byte]))
  | VList l =>
      wseq (wput ["l"%byte]) (wseq (encSeq (map encode l)) (wput ["e"%byte]))
  | VOther => ([], Some EUnsupported)
  end.

(** encode.go:21-33 Encode: returns the buffer and the error, both, even on error.
    The recover() never fires: nothing in encode can panic on these values. *)
Definition Encode (v : gval) : wr := encode v.

(* ------------------------------------------------------------------ *)
(** * Decoder (decode.go) *)

(** The decoder's cursor (decode.go:210-221) is represented by the unread suffix of
    data: [rest] = data[curs:len]. An index at or past len panics, which is [rest = []].
    [sp] is the spare capacity of data. *)

Definition is_digit (b : byte) : bool := (48 <=? b2z b) && (b2z b <=? 57).

(** decode.go:136-146 and 187-197: read digits until the stop byte. *)
Fixpoint digit_loop (stop : byte) (e : goerr) (rest acc : bytes) : res (bytes * bytes) :=
  match rest with
  | [] => Panic
  | b :: r => if is_digit b then digit_loop stop e r (acc ++ [b])
              else if Byte.eqb b stop then Ok (acc, r) else Err e
  end.

(** decode.go:133-157 decodeString. Line 153 slices data[curs:curs+n]: the bound is the
    capacity, so bytes of [sp] can be returned; the cursor then passes len. *)
Definition decodeString (sp rest : bytes) : res (bytes * bytes) :=
  do ' (ds, r) <- digit_loop ":"%byte EBadString rest [];
  do n <- atoi ds;
  if n <=? zlen r + zlen sp
  then Ok (firstn (Z.to_nat n) (r ++ sp), skipn (Z.to_nat n) r)
  else Panic.

(** decode.go:159-205 decodeInt *)
Definition decodeInt (rest : bytes) : res (Z * bytes) :=
  match rest with
  | [] => Panic
  | b :: r =>
    if negb (Byte.eqb b "i"%byte) then Err EBadInt else
    match r with
    | [] => Panic
    | c :: r1 =>
      let neg := Byte.eqb c "-"%byte in
      let r2 := if neg then r1 else r in
      do ' (ds, r3) <-
        match r2 with
        | [] => Panic
        | z :: r' =>
          if Byte.eqb z "0"%byte then
            match r' with
            | [] => Panic
            | y :: _ => if negb (Byte.eqb y "e"%byte) then Err ELeadingZero
                        else digit_loop "e"%byte EBadInt r' [z]
            end
          else digit_loop "e"%byte EBadInt r2 []
        end;
      do v <- atoi ds;
      Ok (i64 (v * (if neg then -1 else 1)), r3)
    end
  end.

(** Go map assignment dict[key] = val (decode.go:90) and lookup d[key] (dict.go:29). *)
Fixpoint dput (k : bytes) (v : gval) (d : list (bytes * gval)) : list (bytes * gval) :=
  match d with
  | [] => [(k, v)]
  | (k', v') :: r => if beqb k k' then (k, v) :: r else (k', v') :: dput k v r
  end.
Fixpoint dget (k : bytes) (d : list (bytes * gval)) : option gval :=
  match d with
  | [] => None
  | (k', v) :: r => if beqb k k' then Some v else dget k r
  end.

(** decode.go:54-131. [decVal] is the type switch on the current byte (37-46, 76-85,
    113-122: the same four cases each time), [decDict] the loop of decodeDict (63-91),
    [decList] the loop of decodeList (104-128). The check of the opening byte
    (decode.go:56, 97) is subsumed by the switch. Fuel bounds nesting + iterations. *)
Fixpoint decVal (fuel : nat) (sp rest : bytes) : res (gval * bytes) :=
  match fuel with
  | O => NoFuel
  | S f =>
    match rest with
    | [] => Panic
    | b :: r =>
      if Byte.eqb b "d"%byte then
        do ' (d, r') <- decDict f sp r []; Ok (VDict d, r')
      else if Byte.eqb b "l"%byte then
        do ' (l, r') <- decList f sp r []; Ok (VList l, r')
      else if Byte.eqb b "i"%byte then
        do ' (z, r') <- decodeInt rest; Ok (VInt KInt64 z, r')
      else
        do ' (s, r') <- decodeString sp rest; Ok (VStr s, r')
    end
  end
with decDict (fuel : nat) (sp rest : bytes) (acc : list (bytes * gval))
  : res (list (bytes * gval) * bytes) :=
  match fuel with
  | O => NoFuel
  | S f =>
    match rest with
    | [] => Panic
    | b :: r =>
      if Byte.eqb b "e"%byte then Ok (acc, r)
      else
        do ' (k, r1) <- decodeString sp rest;
        do ' (v, r2) <- decVal f sp r1;
        decDict f sp r2 (dput k v acc)
    end
  end
with decList (fuel : nat) (sp rest : bytes) (acc : list gval)
  : res (list gval * bytes) :=
  match fuel with
  | O => NoFuel
  | S f =>
    match rest with
    | [] => Panic
    | b :: r =>
      if Byte.eqb b "e"%byte then Ok (acc, r)
      else
        do ' (v, r1) <- decVal f sp rest;
        decList f sp r1 (acc ++ [v])
    end
  end.

(** decode.go:19-49 Decode: a panic becomes an error (lines 23-33). The iteration bound
    below is proved sufficient (BencodeProofs.Decode_not_NoFuel). *)
Definition Decode (data : gslice) : res gval :=
  match decVal (2 * List.length (vis data) + 2) (spare data) (vis data) with
  | Ok (v, _) => Ok v
  | Err e => Err e
  | Panic => Err EPanicked
  | NoFuel => NoFuel
  end.

(* ------------------------------------------------------------------ *)
(** * Dict getters (dict.go:28-113) *)

Definition dict_get (d : list (bytes * gval)) (k : bytes) : res gval :=
  match dget k d with Some v => Ok v | None => Err EMissingKey end.

Definition GetString d k : res bytes :=
  do v <- dict_get d k; match v with VStr s => Ok s | _ => Err EBadType end.
(** only a value of dynamic type int64 is accepted (dict.go:60) *)
Definition GetInt d k : res Z :=
  do v <- dict_get d k; match v with VInt KInt64 z => Ok z | _ => Err EBadType end.
Definition GetUint d k : res Z := do v <- GetInt d k; Ok (u64 v).
Definition GetDict d k : res (list (bytes * gval)) :=
  do v <- dict_get d k; match v with VDict x => Ok x | _ => Err EBadType end.
Definition GetList d k : res (list gval) :=
  do v <- dict_get d k; match v with VList x => Ok x | _ => Err EBadType end.
