(** PropsUsage.v: what a user with a bad command line is told (src/utils/opts.go with package flag): C118. *)
From Verif Require Import Base BencodeSpec UtilsModel UtilsSpec FsModel StartModel PropsStart FlagModel FlagSpec FlagProofs UsageModel UsageSpec UsageProofs.

(* ------------------------------------------------------------------ *)
(** * C118 What a user with a bad command line is told *)
(** The text names the first argument with something amiss, then comes the usage; nothing is touched. *)
Theorem C118_flags : forall uniq uni prog trace args t sha1 n src fuel sp w, first_amiss args t ->
  complaint uniq uni prog trace args = Some (flag_text uniq prog t) /\ gotor uni sha1 n src fuel sp args w = (Exit (status t), w).
Proof. exact complain_flags. Qed.
Print Assumptions C118_flags.
(** Arguments that are in order but whose values are not: the process panics with the first value amiss. *)
Theorem C118_values : forall uniq uni prog trace a ss rest o t sha1 n src fuel sp w,
  spelled a ss -> ports_good ss -> ends rest -> means ss o -> plain (o_upstr o) -> plain (o_dnstr o) -> opts_amiss o t ->
  complaint uniq uni prog trace (a ++ rest) = Some (panic_text t trace) /\ gotor uni sha1 n src fuel sp (a ++ rest) w = (Crash, w).
Proof. exact complain_opts. Qed.
Print Assumptions C118_values.
(** Nothing else is ever said. *)
Theorem C118_only : forall uniq uni prog trace args x, complaint uniq uni prog trace args = Some x ->
  (exists t, first_amiss args t /\ x = flag_text uniq prog t) \/
  exists a ss rest o t, args = a ++ rest /\ spelled a ss /\ ports_good ss /\ ends rest /\ means ss o /\ initOpts uni o = Panic /\ (plain (o_upstr o) -> plain (o_dnstr o) -> opts_amiss o t) /\ x = panic_text t trace.
Proof. exact complain_only. Qed.
Print Assumptions C118_only.
Theorem C118_silent : forall uniq uni prog trace args, complaint uniq uni prog trace args = None <->
  exists a ss rest o u d, args = a ++ rest /\ spelled a ss /\ ports_good ss /\ ends rest /\ means ss o /\ o_input o <> [] /\ a_command (o_cmd o) /\ parseSizeUnits uni (o_upstr o) = Ok u /\ parseSizeUnits uni (o_dnstr o) = Ok d.
Proof. exact complain_none. Qed.
Print Assumptions C118_silent.
(** The text tells what is amiss, and which value. *)
Theorem C118_tells : forall uniq uniq' prog args args' t t', first_amiss args t -> first_amiss args' t' ->
  (forall n v big, t = TValue n v big -> plain v) -> (forall n v big, t' = TValue n v big -> plain v) ->
  flag_text uniq prog t = flag_text uniq' prog t' -> t = t'.
Proof. exact tells_flags. Qed.
Print Assumptions C118_tells.
Theorem C118_panic_tells : forall o o' t t' trace, opts_amiss o t -> opts_amiss o' t' -> panic_text t trace = panic_text t' trace -> t = t'.
Proof. exact complaint_opt_tells. Qed.
Print Assumptions C118_panic_tells.
Theorem C118_apart : forall uniq prog t t' trace, flag_text uniq prog t <> panic_text t' trace.
Proof. exact kinds_differ. Qed.
Print Assumptions C118_apart.
(** The usage text has each flag there is, with the default it has; and limits of the form it gives are read. *)
Theorem C118_usage : (forall n, In n (map f_name declared) <-> In n flag_names) /\ (forall prog f, In f declared -> exists p s, usage_text prog = p ++ decl_text f ++ s) /\
  forall f, In f declared -> set_flag default_opts (f_name f) (f_default f) = Set_ default_opts.
Proof. exact (conj names_same (conj usage_names defaults_same)). Qed.
Print Assumptions C118_usage.
Theorem C118_form : forall ds u, Forall (fun d => 48 <= b2z d <= 57) ds -> ds <> [] -> dvalue ds <= max64 -> In u (B "BKMG") -> forall uni, exists v, parseSizeUnits uni (ds ++ [u]) = Ok v.
Proof. exact usage_read. Qed.
Print Assumptions C118_form.
(** A working directory is never missed, though opts.go has a text for it. *)
Theorem C118_wd : (forall uniq uni prog trace x args, complaint uniq uni prog trace (B "-w" :: x :: args) = complaint uniq uni prog trace args) /\
  forall t, opt_text t <> B "missing argument 'working directory'".
Proof. exact (conj complain_wd never_wd). Qed.
Print Assumptions C118_wd.

(** The texts: the line (none for help), then the usage; values are quoted in one way. *)
Theorem C118_text : forall uniq prog t, flag_text uniq prog t = as_lines (trouble_says t (match t with TValue _ v _ => quote uniq v | _ => [] end) ++ [B "Usage of " ++ prog ++ B ":"] ++ usage_lines).
Proof. exact says_top. Qed.
Print Assumptions C118_text.
(** The number read is the one FlagModel's flag.Parse reads (C91). *)
Theorem C118_number : forall s, ParseUint s = match ParseUintT s with Reads n => Some n | _ => None end.
Proof. exact ParseUintT_eq. Qed.
Print Assumptions C118_number.
Theorem C118_quoted : forall uniq v, plain v -> quoted v (quote uniq v).
Proof. exact quote_top. Qed.
Print Assumptions C118_quoted.
Theorem C118_quoted_one : forall b s s', quoted_byte b s -> quoted_byte b s' -> s = s'.
Proof. exact quoted_byte_det. Qed.
Print Assumptions C118_quoted_one.

(** The texts, in full. *)
Definition id (s : bytes) : bytes := s.
Definition lines (l : list bytes) : bytes := flat_map (fun x => x ++ [x0a]) l.
Definition tab : bytes := [x09].
Definition q : bytes := [x22].
Definition the_usage : list bytes :=
  [B "Usage of ./gotor:"; B "  -cmd string"; B "    " ++ tab ++ B "Command (default " ++ q ++ B "swarm" ++ q ++ B ")";
   B "  -d string"; B "    " ++ tab ++ B "Download limit in form X[B|K|M|G] (default " ++ q ++ B "-1B" ++ q ++ B ")";
   B "  -i string"; B "    " ++ tab ++ B "Path to .torrent file"; B "  -p uint"; B "    " ++ tab ++ B "Port to listen on (default 60666)";
   B "  -u string"; B "    " ++ tab ++ B "Upload limit in form X[B|K|M|G] (default " ++ q ++ B "-1B" ++ q ++ B ")"; B "  -w string"; B "    " ++ tab ++ B "Working directory"].
Definition says (args : list bytes) : option bytes := complaint id id (B "./gotor") (B "goroutine 1 [running]:") args.
Example C118_case :
  says [B "-i"; B "a"; B "-help"; B "-p=x"] = Some (lines the_usage) /\
  says [B "-i=a"; B "--p"; B "8" ++ q ++ tab] = Some (lines ((B "invalid value " ++ q ++ B "8\" ++ q ++ B "\t" ++ q ++ B " for flag -p: parse error") :: the_usage)) /\
  says [B "-p"; B "18446744073709551616"] = Some (lines ((B "invalid value " ++ q ++ B "18446744073709551616" ++ q ++ B " for flag -p: value out of range") :: the_usage)) /\
  says [B "-i"; B "a"; B "-port=5"] = Some (lines (B "flag provided but not defined: -port" :: the_usage)) /\
  says [B "-w"; B "-i"; B "--u"] = Some (lines (B "flag needs an argument: -u" :: the_usage)) /\
  says [B "---i"; B "a"] = Some (lines (B "bad flag syntax: ---i" :: the_usage)) /\
  says [B "-cmd=info"] = Some (lines [B "panic: missing argument 'input'"; []] ++ B "goroutine 1 [running]:") /\
  says [B "-i=a"; B "-cmd=get"] = Some (lines [B "panic: invalid command given, [get]"; []] ++ B "goroutine 1 [running]:") /\
  says [B "-i=a"; B "-u=5KB"; B "-d="] = Some (lines [B "panic: invalid format"; []] ++ B "goroutine 1 [running]:") /\
  says [B "-i=a"; B "-u=5k"; B "-d="] = Some (lines [B "panic: empty string"; []] ++ B "goroutine 1 [running]:") /\
  says [B "-i=a"; B "-d=5T"] = Some (lines [B "panic: invalid units"; []] ++ B "goroutine 1 [running]:") /\
  says [B "-i=a"; B "-d=K"] = Some (lines [B "panic: strconv.Atoi: parsing " ++ q ++ q ++ B ": invalid syntax"; []] ++ B "goroutine 1 [running]:") /\
  says [B "-i=a"; B "-d=9223372036854775808B"] = Some (lines [B "panic: strconv.Atoi: parsing " ++ q ++ B "9223372036854775808" ++ q ++ B ": value out of range"; []] ++ B "goroutine 1 [running]:") /\
  says [B "-i=a"; B "-d=5K"; B "-u"; B "-7"] = None.
Proof. vm_compute. repeat split; reflexivity. Qed.
(** The hypotheses are met. *)
Example C118_met : first_amiss [B "-i"; B "a"; B "-port=5"] (TUndefined (B "port")) /\ first_amiss [B "-p"; B "18446744073709551616"] (TValue (B "p") (B "18446744073709551616") true) /\
  means [(B "i", B "a"); (B "d", B "5T")] (mkopts (B "a") [] 60666 (B "swarm") (B "-1B") (B "5T") 0 0) /\
  opts_amiss (mkopts (B "a") [] 60666 (B "swarm") (B "-1B") (B "5T") 0 0) (OSize SUnits) /\ spelled [B "-i=a"; B "-d"; B "5T"] [(B "i", B "a"); (B "d", B "5T")].
Proof.
  split; [apply flag_first; vm_compute; reflexivity|]. split; [apply flag_first; vm_compute; reflexivity|].
  split. { assert (HP : port_number (B "60666") 60666) by (apply ParseUint_iff; reflexivity). unfold means. repeat match goal with |- _ /\ _ => split end; try reflexivity. exact HP. }
  split. { apply (opts_iff id); [repeat constructor|repeat constructor|vm_compute; reflexivity]. }
  apply (sp_one (B "-") (B "i") (B "a")); [now left|cbn; tauto|]. apply (sp_two (B "-") (B "d") (B "5T")); [now left|cbn; tauto|constructor].
Qed.

(** Which of the two limits is bad cannot be told. *)
Theorem C118_which_refuted : exists a a' o o' t, means [(B "i", a); (B "u", a')] o /\ means [(B "i", a); (B "d", a')] o' /\ opts_amiss o t /\ opts_amiss o' t /\
  forall uniq uni prog trace, complaint uniq uni prog trace [B "-i"; a; B "-u"; a'] = complaint uniq uni prog trace [B "-i"; a; B "-d"; a'] /\ complaint uniq uni prog trace [B "-i"; a; B "-u"; a'] <> None.
Proof.
  exists (B "a"), (B "5T"), (mkopts (B "a") [] 60666 (B "swarm") (B "5T") (B "-1B") 0 0), (mkopts (B "a") [] 60666 (B "swarm") (B "-1B") (B "5T") 0 0), (OSize SUnits).
  assert (HP : port_number (B "60666") 60666) by (apply ParseUint_iff; reflexivity).
  split. { unfold means. repeat match goal with |- _ /\ _ => split end; try reflexivity. exact HP. }
  split. { unfold means. repeat match goal with |- _ /\ _ => split end; try reflexivity. exact HP. }
  split. { apply (opts_iff id); [repeat constructor|repeat constructor|vm_compute; reflexivity]. }
  split. { apply (opts_iff id); [repeat constructor|repeat constructor|vm_compute; reflexivity]. }
  intros. split; [vm_compute; reflexivity|]. vm_compute. discriminate.
Qed.
Print Assumptions C118_which_refuted.
(** A value said to be out of range need not be a number at all: the digits are counted up before the rest is looked at. *)
Theorem C118_range_refuted : exists v, first_amiss [B "-p"; v] (TValue (B "p") v true) /\ In "x"%byte v /\ In "y"%byte v /\ forall k, ~ port_number v k.
Proof.
  exists (B "99999999999999999999xyz"). split; [apply flag_first; vm_compute; reflexivity|]. split; [vm_compute; tauto|]. split; [vm_compute; tauto|].
  intros k H. apply ParseUint_iff in H. vm_compute in H. discriminate.
Qed.
Print Assumptions C118_range_refuted.
(** A bad command line need not get the usage text: without an input file there is only a panic. *)
Theorem C118_helped_refuted : exists x, complaint id id (B "gotor") [] [] = Some x /\ forall p s, x <> p ++ B "Usage of" ++ s.
Proof.
  exists (panic_text OInput []). split; [reflexivity|]. intros p s E. pose proof (infixb_in (B "Usage of") p s) as H. rewrite <- E in H. vm_compute in H. discriminate.
Qed.
Print Assumptions C118_helped_refuted.
