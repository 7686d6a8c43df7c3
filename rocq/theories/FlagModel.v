(** FlagModel.v: from the command line to the options: flag.String and flag.Uint as declared in src/utils/opts.go, flag.Parse (package flag of Go 1.18,
    ExitOnError) with strconv.ParseUint(s, 0, 64) for -p; then main. *)
From Verif Require Import Base UtilsModel FsModel StartModel.

(** strconv: lower(c) == x, for a lower case letter x; the value of a digit or letter (atoi.go, the switch in ParseUint). *)
Definition is_ci (c x : byte) : bool := Byte.eqb c x || (b2z c =? b2z x - 32).
Definition digit_value (c : byte) : option Z :=
  let z := b2z c in
  if (48 <=? z) && (z <=? 57) then Some (z - 48)
  else if (97 <=? z) && (z <=? 122) then Some (z - 87)
  else if (65 <=? z) && (z <=? 90) then Some (z - 55)
  else None.
Definition max_uint64 : Z := 18446744073709551615.
(** The loop of ParseUint: the number, and whether an underscore was seen. None: a syntax or range error. *)
Fixpoint uint_loop (base : Z) (s : bytes) (n : Z) (us : bool) : option (Z * bool) :=
  match s with
  | [] => Some (n, us)
  | c :: r =>
    if Byte.eqb c "_"%byte then uint_loop base r n true
    else match digit_value c with
         | None => None
         | Some d => if base <=? d then None
                     else if max_uint64 / base + 1 <=? n then None
                     else let n' := u64 (n * base) in let n1 := u64 (n' + d) in if n1 <? n' then None else uint_loop base r n1 us
         end
  end.
(** strconv underscoreOK: [saw] is the last thing seen. A sign never gets this far. *)
Inductive seen := SBegin | SDigit | SUnder | SOther.
Fixpoint under_loop (hex : bool) (s : bytes) (saw : seen) : bool :=
  match s with
  | [] => match saw with SUnder => false | _ => true end
  | c :: r =>
    let z := b2z c in
    if ((48 <=? z) && (z <=? 57)) || (hex && (((97 <=? z) && (z <=? 102)) || ((65 <=? z) && (z <=? 70)))) then under_loop hex r SDigit
    else if Byte.eqb c "_"%byte then match saw with SDigit => under_loop hex r SUnder | _ => false end
    else match saw with SUnder => false | _ => under_loop hex r SOther end
  end.
Definition underscoreOK (s : bytes) : bool :=
  match s with
  | a :: b :: r => if Byte.eqb a "0"%byte && (is_ci b "b"%byte || is_ci b "o"%byte || is_ci b "x"%byte) then under_loop (is_ci b "x"%byte) r SDigit else under_loop false s SBegin
  | _ => under_loop false s SBegin
  end.
(** strconv.ParseUint(s, 0, 64): base and digits by prefix. *)
Definition uint_base (s : bytes) : Z * bytes :=
  match s with
  | a :: r =>
    if Byte.eqb a "0"%byte then
      match r with
      | b :: ((_ :: _) as r') => if is_ci b "b"%byte then (2, r') else if is_ci b "o"%byte then (8, r') else if is_ci b "x"%byte then (16, r') else (8, r)
      | _ => (8, r)
      end
    else (10, s)
  | [] => (10, s)
  end.
Definition ParseUint (s : bytes) : option Z :=
  match s with
  | [] => None
  | _ => let (base, r) := uint_base s in
         match uint_loop base r 0 false with
         | Some (n, us) => if us && negb (underscoreOK s) then None else Some n
         | None => None
         end
  end.

(** opts.go:41-47 the flags and their defaults; the limits are 0 until Validate. *)
Definition default_opts : Opts := mkopts [] [] 60666 (B "swarm") (B "-1B") (B "-1B") 0 0.
Inductive setting := NotDefined | BadValue | Set_ (o : Opts).
(** flag.Value.Set of the flag called [n]. *)
Definition set_flag (o : Opts) (n v : bytes) : setting :=
  if beqb n (B "i") then Set_ (mkopts v (o_wd o) (o_port o) (o_cmd o) (o_upstr o) (o_dnstr o) (o_uplim o) (o_dnlim o))
  else if beqb n (B "w") then Set_ (mkopts (o_input o) v (o_port o) (o_cmd o) (o_upstr o) (o_dnstr o) (o_uplim o) (o_dnlim o))
  else if beqb n (B "p") then match ParseUint v with Some k => Set_ (mkopts (o_input o) (o_wd o) k (o_cmd o) (o_upstr o) (o_dnstr o) (o_uplim o) (o_dnlim o)) | None => BadValue end
  else if beqb n (B "cmd") then Set_ (mkopts (o_input o) (o_wd o) (o_port o) v (o_upstr o) (o_dnstr o) (o_uplim o) (o_dnlim o))
  else if beqb n (B "u") then Set_ (mkopts (o_input o) (o_wd o) (o_port o) (o_cmd o) v (o_dnstr o) (o_uplim o) (o_dnlim o))
  else if beqb n (B "d") then Set_ (mkopts (o_input o) (o_wd o) (o_port o) (o_cmd o) (o_upstr o) v (o_uplim o) (o_dnlim o))
  else NotDefined.
(** name=value: the first '=' that is not the first byte. *)
Fixpoint cut_eq (s : bytes) : bytes * option bytes :=
  match s with
  | [] => ([], None)
  | c :: r => if Byte.eqb c "="%byte then ([], Some r) else let (n, v) := cut_eq r in (c :: n, v)
  end.
Definition split_name (s : bytes) : bytes * option bytes :=
  match s with [] => ([], None) | c :: r => let (n, v) := cut_eq r in (c :: n, v) end.
(** What an argument is (flag.go parseOne, up to the lookup of the name). *)
Inductive argkind := ANotFlag | ADashes | ABad | AFlag (n : bytes) (v : option bytes).
Definition classify (s : bytes) : argkind :=
  match s with
  | a :: b :: r =>
    if negb (Byte.eqb a "-"%byte) then ANotFlag
    else if Byte.eqb b "-"%byte && beqb r [] then ADashes
    else let name := if Byte.eqb b "-"%byte then r else b :: r in
         match name with
         | c :: _ => if Byte.eqb c "-"%byte || Byte.eqb c "="%byte then ABad else let (n, v) := split_name name in AFlag n v
         | [] => ABad
         end
  | _ => ANotFlag
  end.
(** flag.Parse: the options and the arguments left over, or the status with which the process exits. *)
Inductive flags := Flags (o : Opts) (rest : list bytes) | FExit (status : Z).
Definition is_help (n : bytes) : bool := beqb n (B "help") || beqb n (B "h").
Fixpoint flag_parse (o : Opts) (args : list bytes) : flags :=
  match args with
  | [] => Flags o []
  | s :: rest =>
    match classify s with
    | ANotFlag => Flags o args
    | ADashes => Flags o rest
    | ABad => FExit 2
    | AFlag n v =>
      match set_flag o n [] with
      | NotDefined => if is_help n then FExit 0 else FExit 2
      | _ =>
        match v with
        | Some v => match set_flag o n v with Set_ o' => flag_parse o' rest | _ => FExit 2 end
        | None => match rest with
                  | [] => FExit 2
                  | v :: rest' => match set_flag o n v with Set_ o' => flag_parse o' rest' | _ => FExit 2 end
                  end
        end
      end
    end
  end.
(** main.go:12-29 with opts.go:32-57: the program started with the given arguments. *)
Definition gotor uni sha1 n src fuel sp (args : list bytes) (w : world) : fate * world :=
  match flag_parse default_opts args with
  | Flags o _ => main uni sha1 n src fuel sp o w
  | FExit st => (Exit st, w)
  end.
