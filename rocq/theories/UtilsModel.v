(** UtilsModel.v: model of the remaining helpers of src/utils (utils.go, opts.go). *)
From Verif Require Import Base BencodeModel.

(* ------------------------------------------------------------------ *)
(** * utils.go *)

(** utils.go:127-130 RemoveSwap: the returned slice and the backing array it shares with the argument.
    Indexing is checked against len: index -1 and an empty slice panic. *)
Definition RemoveSwap {T} (s : list T) (index : Z) : res (list T * list T) :=
  match nth_error s (List.length s - 1), ((0 <=? index) && (index <? zlen s))%bool with
  | Some last, true => let s' := lupd s (Z.to_nat index) last in Ok (firstn (List.length s - 1) s', s')
  | _, _ => Panic
  end.

(** utils.go:27 letterBytes *)
Definition letterBytes : bytes := B "abcdefghijklmnopqrstuvwxyzABCDEFGHIJKLMNOPQRSTUVWXYZ".
(** utils.go:32-42: the loop. [todo] is i+1, [src k] the k-th value of src.Int63(), [next] how many were taken. *)
Fixpoint rand_loop (src : nat -> Z) (fuel : nat) (todo : nat) (cache : Z) (remain : nat) (next : nat) (sb : bytes) : res bytes :=
  match fuel with
  | O => NoFuel
  | S f =>
    match todo with
    | O => Ok sb
    | S todo' =>
      let '(cache, remain, next) := match remain with O => (src next, 10%nat, S next) | _ => (cache, remain, next) end in
      let idx := Z.land cache 63 in
      let '(todo, sb) := if idx <? zlen letterBytes then (todo', sb ++ [nth (Z.to_nat idx) letterBytes x00]) else (todo, sb) in
      rand_loop src f todo (Z.shiftr cache 6) (remain - 1) next sb
    end
  end.
(** utils.go:20-45 randStringBytesMaskImprSrcSB; a negative n panics in Builder.Grow (not modelled: the only caller passes 12). *)
Definition randString (src : nat -> Z) (fuel : nat) (n : nat) : res bytes := rand_loop src fuel n (src 0%nat) 10 1 [].
(** utils.go:13-15 NewPeerId *)
Definition NewPeerId (src : nat -> Z) (fuel : nat) : res bytes := do s <- randString src fuel 12; Ok (B "-GT0000-" ++ s).

(** float64(n) for an int64: round to 53 significant bits, ties to even. The result is an integer. *)
Definition f64 (n : Z) : Z :=
  let a := Z.abs n in
  if a <? 2 ^ 53 then n else
  let e := Z.log2 a - 52 in
  let q := a / 2 ^ e in
  let r := a mod 2 ^ e in
  let half := 2 ^ (e - 1) in
  let q' := if r <? half then q else if half <? r then q + 1 else if Z.even q then q else q + 1 in
  Z.sgn n * (q' * 2 ^ e).
(** utils.go:57-61: the loop. The float n of the code is m / 1024^k here (dividing a float64 in [1, 2^63] by 1024 is exact). *)
Fixpoint humans_loop (fuel : nat) (m : Z) (k : Z) (div : Z) (exp : Z) : res (Z * Z) :=
  match fuel with
  | O => NoFuel
  | S f => if m <? 1024 * 1024 ^ k then Ok (div, exp) else humans_loop f m (k + 1) (i64 (div * 1024)) (exp + 1)
  end.
(** utils.go:49-63 Bytes4Humans: the number as an exact fraction numerator / denominator, and the unit. Division by
    float64(div) is exact because div is a power of two. *)
Definition Bytes4Humans (nbytes : Z) : res (Z * Z * bytes) :=
  let asfloat := f64 nbytes in
  if nbytes <? 1024 then Ok (asfloat, 1, B "B") else
  do ' (div, exp) <- humans_loop 8 asfloat 1 1024 0;
  match nth_error (B "KMGTPE") (Z.to_nat exp) with
  | Some c => Ok (asfloat, f64 div, [c] ++ B "iB")
  | None => Panic
  end.

(* ------------------------------------------------------------------ *)
(** * opts.go *)

(** strings.ToUpper: ASCII text letter by letter. On text with other bytes it applies the Unicode tables: [uni]. *)
Definition upper (b : byte) : byte := if (97 <=? b2z b) && (b2z b <=? 122) then z2b (b2z b - 32) else b.
Definition ToUpper (uni : bytes -> bytes) (s : bytes) : bytes :=
  if forallb (fun b => b2z b <? 128) s then map upper s else uni s.
(** opts.go:111-117: the digits and what follows. *)
Fixpoint span_digits (s : bytes) : bytes * bytes :=
  match s with
  | [] => ([], [])
  | b :: r => if is_digit b then let (d, t) := span_digits r in (b :: d, t) else ([], s)
  end.
(** opts.go:94-149 parseSizeUnits *)
Definition parseSizeUnits (uni : bytes -> bytes) (str : bytes) : res Z :=
  let str := ToUpper uni str in
  match str with
  | [] => Err EInvalid
  | c :: r =>
    let neg := Byte.eqb c "-"%byte in
    let (ds, tail) := span_digits (if neg then r else str) in
    do v <- atoi ds;
    let val := i64 (v * (if neg then -1 else 1)) in
    match tail with
    | [] => Ok val
    | [u] =>
      if Byte.eqb u "B"%byte then Ok val
      else if Byte.eqb u "K"%byte then Ok (i64 (val * 1024))
      else if Byte.eqb u "M"%byte then Ok (i64 (i64 (val * 1024) * 1024))
      else if Byte.eqb u "G"%byte then Ok (i64 (i64 (i64 (val * 1024) * 1024) * 1024))
      else Err EInvalid
    | _ => Err EInvalid
    end
  end.

(** opts.go:17-27 Opts; [o_port] is a uint. *)
Record Opts := mkopts { o_input : bytes; o_wd : bytes; o_port : Z; o_cmd : bytes; o_upstr : bytes; o_dnstr : bytes; o_uplim : Z; o_dnlim : Z }.
Definition set_uplim o v := mkopts (o_input o) (o_wd o) (o_port o) (o_cmd o) (o_upstr o) (o_dnstr o) v (o_dnlim o).
Definition set_dnlim o v := mkopts (o_input o) (o_wd o) (o_port o) (o_cmd o) (o_upstr o) (o_dnstr o) (o_uplim o) v.
(** opts.go:59-92 Validate, with the package variable [opts] (None = nil): the limits are read from and stored in
    the package variable, not the receiver. Line 64 repeats line 60 (the working directory is not looked at). *)
Definition ValidateOpts (uni : bytes -> bytes) (global : option Opts) (o : Opts) : res unit * option Opts :=
  if beqb (o_input o) [] then (Err EInvalid, global)
  else if beqb (o_input o) [] then (Err EInvalid, global)
  else if negb (beqb (o_cmd o) (B "swarm") || beqb (o_cmd o) (B "info")) then (Err EInvalid, global)
  else match global with
  | None => (Panic, global)
  | Some g =>
    match parseSizeUnits uni (o_upstr g) with
    | Ok v =>
      let g := set_uplim g v in
      match parseSizeUnits uni (o_dnstr g) with
      | Ok v => (Ok tt, Some (set_dnlim g v))
      | Err e => (Err e, Some g)
      | Panic => (Panic, Some g)
      | NoFuel => (NoFuel, Some g)
      end
    | Err e => (Err e, Some g)
    | Panic => (Panic, Some g)
    | NoFuel => (NoFuel, Some g)
    end
  end.
(** opts.go:39-57 initOpts after flag.Parse has filled the fields (limits start at 0): a validation error panics. *)
Definition initOpts (uni : bytes -> bytes) (o : Opts) : res Opts :=
  let o := set_dnlim (set_uplim o 0) 0 in
  match ValidateOpts uni (Some o) o with
  | (Ok _, Some g) => Ok g
  | (NoFuel, _) => NoFuel
  | _ => Panic
  end.
(** opts.go:159-161 Port *)
Definition OptPort (o : Opts) : Z := u16 (o_port o).
