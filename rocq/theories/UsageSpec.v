(** UsageSpec.v: what is wrong with a command line. *)
From Verif Require Import Base BencodeSpec UtilsModel UtilsSpec FlagSpec UsageModel.

(** ** Numbers that are too big: some digits, with any underscores between them, make 2^64 or more; whatever follows. *)
Definition loose (ps : list (nat * place)) : bytes := flat_map (fun kp => repeat "_"%byte (fst kp) ++ [p_char (snd kp)]) ps.
Definition loosely_big (base : Z) (s : bytes) : Prop :=
  exists ps rest, s = loose ps ++ rest /\ all_digits base (map snd ps) /\ 2 ^ 64 <= numeral base (map snd ps).
Definition too_big (s : bytes) : Prop :=
  ((forall r, s <> "0"%byte :: r) /\ loosely_big 10 s) \/
  (exists r, s = "0"%byte :: r /\ loosely_big 8 r) \/
  exists x base r, In (x, base) [(B "0b", 2); (B "0B", 2); (B "0o", 8); (B "0O", 8); (B "0x", 16); (B "0X", 16)] /\ s = x ++ r /\ loosely_big base r.

(** ** Arguments *)
(** [flagged a n v]: the argument names n, with the value v if it has '='. *)
Definition flagged (a n : bytes) (v : option bytes) : Prop :=
  exists d, dashes d /\ a = d ++ n ++ match v with Some x => B "=" ++ x | None => [] end /\ ~ In "="%byte n /\ exists c r, n = c :: r /\ c <> "-"%byte.
Definition amiss (a : bytes) (rest : list bytes) (t : trouble) : Prop :=
  match t with
  | THelp => asks_help a
  | TSyntax s => s = a /\ exists x, a = B "-=" ++ x \/ a = B "--=" ++ x \/ a = B "---" ++ x
  | TUndefined n => exists v, flagged a n v /\ ~ In n (flag_names ++ [B "h"; B "help"])
  | TNeeds n => In n flag_names /\ flagged a n None /\ rest = []
  | TValue n v big => n = B "p" /\ (flagged a n (Some v) \/ (flagged a n None /\ exists r, rest = v :: r)) /\ (forall k, ~ port_number v k) /\ (big = true <-> too_big v)
  end.
(** The first argument with something amiss. *)
Definition first_amiss (args : list bytes) (t : trouble) : Prop :=
  exists a ss b rest, args = a ++ b :: rest /\ spelled a ss /\ ports_good ss /\ amiss b rest t.

(** ** Limits *)
Definition plain (s : bytes) : Prop := Forall (fun b => b2z b < 128) s.
Definition size_amiss (s : bytes) (t : size_trouble) : Prop :=
  match t with
  | SEmpty => s = []
  | _ => exists sign ds tail, s = sign ++ ds ++ tail /\ s <> [] /\ (sign = B "-" \/ (sign = [] /\ forall r, s <> "-"%byte :: r)) /\
      Forall (fun d => 48 <= b2z d <= 57) ds /\ (forall b r, tail = b :: r -> ~ 48 <= b2z b <= 57) /\
      let number := ds <> [] /\ dvalue ds <= max64 in
      match t with
      | SEmpty => False
      | SNumber x => x = ds /\ ~ number
      | SFormat => number /\ 2 <= zlen tail
      | SUnits => number /\ exists u, tail = [u] /\ ~ In u (B "bkmgBKMG")
      end
  end.
Definition a_command (c : bytes) : Prop := c = B "swarm" \/ c = B "info".
(** Input, then command, then the upload limit, then the download limit. *)
Definition opts_amiss (o : Opts) (t : opt_trouble) : Prop :=
  match t with
  | OInput => o_input o = []
  | OCmd c => o_input o <> [] /\ ~ a_command (o_cmd o) /\ c = o_cmd o
  | OSize st => o_input o <> [] /\ a_command (o_cmd o) /\
      (size_amiss (o_upstr o) st \/ ((exists n, size_text (o_upstr o) n) /\ size_amiss (o_dnstr o) st))
  end.

(** ** Text *)
(** strconv.Quote's characters: as they are, with a backslash, by a letter, or by their number. *)
Definition letter_escapes : list (Z * byte) := [(7, "a"%byte); (8, "b"%byte); (9, "t"%byte); (10, "n"%byte); (11, "v"%byte); (12, "f"%byte); (13, "r"%byte)].
Definition quoted_byte (b : byte) (s : bytes) : Prop :=
  (32 <= b2z b <= 126 /\ b <> x22 /\ b <> x5c /\ s = [b]) \/ ((b = x22 \/ b = x5c) /\ s = [x5c; b]) \/ (exists l, In (b2z b, l) letter_escapes /\ s = [x5c; l]) \/
  (b2z b < 32 /\ ~ In (b2z b) (map fst letter_escapes) /\ exists h l, nth_error (B "0123456789abcdef") (Z.to_nat (b2z b / 16)) = Some h /\ nth_error (B "0123456789abcdef") (Z.to_nat (b2z b mod 16)) = Some l /\ s = B "\x" ++ [h; l]) \/
  (b2z b = 127 /\ s = B "\u007f").
Definition quoted (v s : bytes) : Prop := exists parts, Forall2 quoted_byte v parts /\ s = [x22] ++ List.concat parts ++ [x22].
(** The lines under "Usage of ...:". *)
Definition usage_lines : list bytes :=
  let tab := B "    " ++ [x09] in
  let dq x := [x22] ++ x ++ [x22] in
  [B "  -cmd string"; tab ++ B "Command (default " ++ dq (B "swarm") ++ B ")";
   B "  -d string"; tab ++ B "Download limit in form X[B|K|M|G] (default " ++ dq (B "-1B") ++ B ")";
   B "  -i string"; tab ++ B "Path to .torrent file";
   B "  -p uint"; tab ++ B "Port to listen on (default 60666)";
   B "  -u string"; tab ++ B "Upload limit in form X[B|K|M|G] (default " ++ dq (B "-1B") ++ B ")";
   B "  -w string"; tab ++ B "Working directory"].
(** The line for what is amiss, if any; [v'] is the value quoted. *)
Definition trouble_says (t : trouble) (v' : bytes) : list bytes :=
  match t with
  | THelp => []
  | TSyntax a => [B "bad flag syntax: " ++ a]
  | TUndefined n => [B "flag provided but not defined: -" ++ n]
  | TNeeds n => [B "flag needs an argument: -" ++ n]
  | TValue n _ false => [B "invalid value " ++ v' ++ B " for flag -" ++ n ++ B ": parse error"]
  | TValue n _ true => [B "invalid value " ++ v' ++ B " for flag -" ++ n ++ B ": value out of range"]
  end.
Definition as_lines (l : list bytes) : bytes := flat_map (fun x => x ++ [x0a]) l.
