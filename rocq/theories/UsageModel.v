(** UsageModel.v: what a user with a bad command line is told: package flag of Go 1.18 (parseOne, failf, PrintDefaults) with the flags of src/utils/opts.go,
    and the errors of Validate and parseSizeUnits, which end in a panic. FlagModel's and UtilsModel's functions, with the reason kept. *)
From Verif Require Import Base BencodeModel PeerModel UtilsModel FsModel StartModel FlagModel PrintModel DiagModel.

(** strconv.ParseUint(s, 0, 64): the number, or whether it is a range error (else a syntax error). *)
Inductive reading (A : Type) := Reads (a : A) | BadSyntax | TooBig.
Arguments Reads {A} a. Arguments BadSyntax {A}. Arguments TooBig {A}.
Fixpoint uint_loopT (base : Z) (s : bytes) (n : Z) (us : bool) : reading (Z * bool) :=
  match s with
  | [] => Reads (n, us)
  | c :: r =>
    if Byte.eqb c "_"%byte then uint_loopT base r n true
    else match digit_value c with
         | None => BadSyntax
         | Some d => if base <=? d then BadSyntax
                     else if max_uint64 / base + 1 <=? n then TooBig
                     else let n' := u64 (n * base) in let n1 := u64 (n' + d) in if n1 <? n' then TooBig else uint_loopT base r n1 us
         end
  end.
Definition ParseUintT (s : bytes) : reading Z :=
  match s with
  | [] => BadSyntax
  | _ => let (base, r) := uint_base s in
         match uint_loopT base r 0 false with
         | Reads (n, us) => if us && negb (underscoreOK s) then BadSyntax else Reads n
         | BadSyntax => BadSyntax
         | TooBig => TooBig
         end
  end.

(** flag.go parseOne: why it stops. [big]: strconv says the number is too big. *)
Inductive trouble :=
| THelp                              (* ErrHelp *)
| TSyntax (arg : bytes)              (* bad flag syntax *)
| TUndefined (name : bytes)          (* flag provided but not defined *)
| TNeeds (name : bytes)              (* flag needs an argument *)
| TValue (name v : bytes) (big : bool). (* invalid value *)
Inductive parsed := Parsed (o : Opts) (rest : list bytes) | Stopped (t : trouble).
(** flag.Value.Set failing: only -p does (uintValue.Set). *)
Definition is_big (v : bytes) : bool := match ParseUintT v with TooBig => true | _ => false end.
Fixpoint flag_parseT (o : Opts) (args : list bytes) : parsed :=
  match args with
  | [] => Parsed o []
  | s :: rest =>
    match classify s with
    | ANotFlag => Parsed o args
    | ADashes => Parsed o rest
    | ABad => Stopped (TSyntax s)
    | AFlag n v =>
      match set_flag o n [] with
      | NotDefined => if is_help n then Stopped THelp else Stopped (TUndefined n)
      | _ =>
        match v with
        | Some v => match set_flag o n v with Set_ o' => flag_parseT o' rest | _ => Stopped (TValue n v (is_big v)) end
        | None => match rest with
                  | [] => Stopped (TNeeds n)
                  | v :: rest' => match set_flag o n v with Set_ o' => flag_parseT o' rest' | _ => Stopped (TValue n v (is_big v)) end
                  end
        end
      end
    end
  end.
(** The status flag.ExitOnError exits with. *)
Definition status (t : trouble) : Z := match t with THelp => 0 | _ => 2 end.

(** fmt %q: strconv.Quote of Go 1.18. Text with a byte above 127 is quoted by the Unicode tables: [uniq]. *)
Definition hexc (z : Z) : byte := if z <? 10 then z2b (48 + z) else z2b (87 + z).
Definition esc (b : byte) : bytes :=
  let z := b2z b in
  if (z =? 34) || (z =? 92) then [x5c; b]
  else if (32 <=? z) && (z <=? 126) then [b]
  else if z =? 7 then B "\a" else if z =? 8 then B "\b" else if z =? 9 then B "\t" else if z =? 10 then B "\n"
  else if z =? 11 then B "\v" else if z =? 12 then B "\f" else if z =? 13 then B "\r"
  else if z =? 127 then B "\u007f"
  else B "\x" ++ [hexc (z / 16); hexc (z mod 16)].
Definition quote (uniq : bytes -> bytes) (s : bytes) : bytes := if forallb (fun b => b2z b <? 128) s then [x22] ++ flat_map esc s ++ [x22] else uniq s.

(** opts.go:41-47: name, type, text and default, as flag.PrintDefaults has them; in its order (by name). *)
Record decl := mkdecl { f_name : bytes; f_type : bytes; f_usage : bytes; f_default : bytes }.
Definition declared : list decl :=
  [mkdecl (B "cmd") (B "string") (B "Command") (B "swarm");
   mkdecl (B "d") (B "string") (B "Download limit in form X[B|K|M|G]") (B "-1B");
   mkdecl (B "i") (B "string") (B "Path to .torrent file") [];
   mkdecl (B "p") (B "uint") (B "Port to listen on") (B "60666");
   mkdecl (B "u") (B "string") (B "Upload limit in form X[B|K|M|G]") (B "-1B");
   mkdecl (B "w") (B "string") (B "Working directory") []].
(** flag.go PrintDefaults for one flag; an empty string is no default worth showing. *)
Definition decl_text (f : decl) : bytes :=
  B "  -" ++ f_name f ++ B " " ++ f_type f ++ nl ++ B "    " ++ [x09] ++ f_usage f ++
  match f_default f with
  | [] => []
  | v => B " (default " ++ (if beqb (f_type f) (B "string") then quote (fun s => s) v else v) ++ B ")"
  end ++ nl.
(** flag.go Usage; [prog] is os.Args[0]. *)
Definition usage_text (prog : bytes) : bytes := B "Usage of " ++ prog ++ B ":" ++ nl ++ flat_map decl_text declared.
(** flag.go failf, and uintValue.Set with numError. *)
Definition trouble_line (uniq : bytes -> bytes) (t : trouble) : bytes :=
  match t with
  | THelp => []
  | TSyntax s => B "bad flag syntax: " ++ s ++ nl
  | TUndefined n => B "flag provided but not defined: -" ++ n ++ nl
  | TNeeds n => B "flag needs an argument: -" ++ n ++ nl
  | TValue n v big => B "invalid value " ++ quote uniq v ++ B " for flag -" ++ n ++ B ": " ++ (if big then B "value out of range" else B "parse error") ++ nl
  end.
Definition flag_text (uniq : bytes -> bytes) (prog : bytes) (t : trouble) : bytes := trouble_line uniq t ++ usage_text prog.

(** opts.go:94-149 parseSizeUnits *)
Inductive size_trouble := SEmpty | SNumber (ds : bytes) | SFormat | SUnits.
Definition parse_trouble (uni : bytes -> bytes) (str : bytes) : option size_trouble :=
  match ToUpper uni str with
  | [] => Some SEmpty
  | c :: r =>
    let (ds, tail) := span_digits (if Byte.eqb c "-"%byte then r else c :: r) in
    match atoi ds with
    | Ok _ =>
      match tail with
      | [] => None
      | [u] => if Byte.eqb u "B"%byte || Byte.eqb u "K"%byte || Byte.eqb u "M"%byte || Byte.eqb u "G"%byte then None else Some SUnits
      | _ => Some SFormat
      end
    | _ => Some (SNumber ds)
    end
  end.
(** opts.go:59-92 Validate, called from initOpts (the receiver is the package variable) *)
Inductive opt_trouble := OInput | OCmd (c : bytes) | OSize (s : size_trouble).
Definition ValidateT (uni : bytes -> bytes) (o : Opts) : option opt_trouble :=
  if beqb (o_input o) [] then Some OInput
  else if negb (beqb (o_cmd o) (B "swarm") || beqb (o_cmd o) (B "info")) then Some (OCmd (o_cmd o))
  else match parse_trouble uni (o_upstr o) with
  | Some t => Some (OSize t)
  | None => match parse_trouble uni (o_dnstr o) with Some t => Some (OSize t) | None => None end
  end.
Definition opt_text (t : opt_trouble) : bytes :=
  match t with
  | OInput => B "missing argument 'input'"
  | OCmd c => B "invalid command given, [" ++ c ++ B "]"
  | OSize SEmpty => B "empty string"
  | OSize (SNumber ds) => num_error (B "Atoi") ds
  | OSize SFormat => B "invalid format"
  | OSize SUnits => B "invalid units"
  end.
(** opts.go:51-54 panic(e) in main's goroutine: the runtime writes the error and the goroutine's [trace]. *)
Definition panic_text (t : opt_trouble) (trace : bytes) : bytes := B "panic: " ++ opt_text t ++ nl ++ nl ++ trace.
(** What the program, called [prog], writes to standard error before it gives up on its command line. *)
Definition complaint (uniq uni : bytes -> bytes) (prog trace : bytes) (args : list bytes) : option bytes :=
  match flag_parseT default_opts args with
  | Stopped t => Some (flag_text uniq prog t)
  | Parsed o _ => match ValidateT uni o with Some t => Some (panic_text t trace) | None => None end
  end.
