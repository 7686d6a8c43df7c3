(** FlagSpec.v: what a command line means. *)
From Verif Require Import Base UtilsModel.

(** ** Numbers, as Go writes them: decimal, 0b.., 0o.., 0.. (octal), 0x.., a single underscore allowed before a digit (not at the very start). *)
Definition hexdigit (c : byte) (d : Z) : Prop :=
  (48 <= b2z c <= 57 /\ d = b2z c - 48) \/ (97 <= b2z c <= 102 /\ d = b2z c - 87) \/ (65 <= b2z c <= 70 /\ d = b2z c - 55).
(** A digit with its value, possibly with an underscore before it. *)
Record place := mkpl { p_under : bool; p_char : byte; p_val : Z }.
Definition spell (ps : list place) : bytes := flat_map (fun p => if p_under p then ["_"%byte; p_char p] else [p_char p]) ps.
Definition numeral (base : Z) (ps : list place) : Z := fold_left (fun n p => n * base + p_val p) ps 0.
Definition all_digits (base : Z) (ps : list place) : Prop := Forall (fun p => hexdigit (p_char p) (p_val p) /\ p_val p < base) ps.
Inductive number : bytes -> Z -> Prop :=
| num_dec : forall c d ps, hexdigit c d -> 0 < d < 10 -> all_digits 10 ps -> number (c :: spell ps) (numeral 10 (mkpl false c d :: ps))
| num_oct : forall ps, all_digits 8 ps -> number (B "0" ++ spell ps) (numeral 8 ps)
| num_pre : forall x base ps, In (x, base) [(B "0b", 2); (B "0B", 2); (B "0o", 8); (B "0O", 8); (B "0x", 16); (B "0X", 16)] -> ps <> [] -> all_digits base ps ->
    number (x ++ spell ps) (numeral base ps).
Definition port_number (s : bytes) (n : Z) : Prop := number s n /\ n < 2 ^ 64.

(** ** Arguments *)
Definition flag_names : list bytes := [B "i"; B "w"; B "p"; B "cmd"; B "u"; B "d"].
Definition dashes (d : bytes) : Prop := d = B "-" \/ d = B "--".
(** Settings (name, value) in the order given; the last one counts. *)
Inductive spelled : list bytes -> list (bytes * bytes) -> Prop :=
| sp_none : spelled [] []
| sp_two : forall d n v args ss, dashes d -> In n flag_names -> spelled args ss -> spelled ((d ++ n) :: v :: args) ((n, v) :: ss)
| sp_one : forall d n v args ss, dashes d -> In n flag_names -> spelled args ss -> spelled ((d ++ n ++ B "=" ++ v) :: args) ((n, v) :: ss).
Fixpoint chosen (n : bytes) (ss : list (bytes * bytes)) (default : bytes) : bytes :=
  match ss with [] => default | (m, v) :: r => chosen n r (if beqb m n then v else default) end.
Definition ports_good (ss : list (bytes * bytes)) : Prop := forall v, In (B "p", v) ss -> exists n, port_number v n.
(** Where the flags end: nothing left, "--", or something that is not a flag. *)
Definition ends (rest : list bytes) : Prop :=
  match rest with [] => True | a :: _ => a = B "--" \/ zlen a < 2 \/ exists c r, a = c :: r /\ c <> "-"%byte end.
(** The options a list of settings stands for. *)
Definition means (ss : list (bytes * bytes)) (o : Opts) : Prop :=
  o_input o = chosen (B "i") ss [] /\ o_wd o = chosen (B "w") ss [] /\ port_number (chosen (B "p") ss (B "60666")) (o_port o) /\
  o_cmd o = chosen (B "cmd") ss (B "swarm") /\ o_upstr o = chosen (B "u") ss (B "-1B") /\ o_dnstr o = chosen (B "d") ss (B "-1B") /\ o_uplim o = 0 /\ o_dnlim o = 0.
(** Asking for help. *)
Definition asks_help (a : bytes) : Prop := exists d n v, dashes d /\ In n [B "h"; B "help"] /\ (v = [] \/ exists x, v = B "=" ++ x) /\ a = d ++ n ++ v.
