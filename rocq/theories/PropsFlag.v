(** PropsFlag.v: the command line (src/utils/opts.go with package flag, src/main.go): C91. *)
From Verif Require Import Base UtilsModel UtilsSpec FsModel StartModel StartSpec PropsStart FlagModel FlagSpec FlagProofs.

(* ------------------------------------------------------------------ *)
(** * C91 What a command line means *)
(** A port is written as a Go number below 2^64. *)
Theorem C91_number : forall s n, ParseUint s = Some n <-> port_number s n.
Proof. exact ParseUint_iff. Qed.
Print Assumptions C91_number.
(** Settings, in any order and spelling, then anything that ends the flags: the last setting of each name counts. *)
Theorem C91_reads : forall args ss rest, spelled args ss -> ports_good ss -> ends rest -> exists o r, flag_parse default_opts (args ++ rest) = Flags o r /\ means ss o.
Proof. exact reads_top. Qed.
Print Assumptions C91_reads.
Theorem C91_only : forall args o r, flag_parse default_opts args = Flags o r -> exists a ss rest, args = a ++ rest /\ spelled a ss /\ ports_good ss /\ ends rest /\ means ss o.
Proof. exact only_top. Qed.
Print Assumptions C91_only.
(** The program, from its arguments. What follows the flags is ignored. *)
Theorem C91_program : forall uni sha1 n src fuel sp a ss rest o w, spelled a ss -> ports_good ss -> ends rest -> means ss o ->
  gotor uni sha1 n src fuel sp (a ++ rest) w = main uni sha1 n src fuel sp o w.
Proof. exact gotor_means. Qed.
Print Assumptions C91_program.
Theorem C91_runs : forall uni sha1 n src fuel sp args w s l w', gotor uni sha1 n src fuel sp args w = (Running s l, w') <->
  exists a ss rest o u d, args = a ++ rest /\ spelled a ss /\ ports_good ss /\ ends rest /\ means ss o /\
    o_input o <> [] /\ o_cmd o = B "swarm" /\ parseSizeUnits uni (o_upstr o) = Ok u /\ parseSizeUnits uni (o_dnstr o) = Ok d /\
    NewSwarm sha1 n src fuel sp (set_dnlim (set_uplim o u) d) w = (Ok s, w') /\ l = GListener :: GLimiter :: map GPeer (sw_peers s).
Proof. exact gotor_runs. Qed.
Print Assumptions C91_runs.
(** Any other command line ends at once, with status 0 exactly if help is asked for before anything is wrong, and touches nothing. *)
Theorem C91_refused : forall uni sha1 n src fuel sp args w, (forall a ss rest, args = a ++ rest -> spelled a ss -> ports_good ss -> ~ ends rest) ->
  (gotor uni sha1 n src fuel sp args w = (Exit 0, w) /\ exists a ss b rest, args = a ++ b :: rest /\ spelled a ss /\ ports_good ss /\ asks_help b) \/
  (gotor uni sha1 n src fuel sp args w = (Exit 2, w) /\ ~ exists a ss b rest, args = a ++ b :: rest /\ spelled a ss /\ ports_good ss /\ asks_help b).
Proof. exact gotor_refused. Qed.
Print Assumptions C91_refused.

(** -i x -p=0x1F_90 --cmd=info -u -5k -i t.torrent extra -p no: the second -i counts, the value of -u begins with a dash, the last two are ignored. *)
Definition line1 : list bytes := [B "-i"; B "x"; B "-p=0x1F_90"; B "--cmd=info"; B "-u"; B "-5k"; B "-i"; B "t.torrent"].
Definition set1 : list (bytes * bytes) := [(B "i", B "x"); (B "p", B "0x1F_90"); (B "cmd", B "info"); (B "u", B "-5k"); (B "i", B "t.torrent")].
Example C91_case : spelled line1 set1 /\ ports_good set1 /\ ends [B "extra"; B "-p"; B "no"] /\
  flag_parse default_opts (line1 ++ [B "extra"; B "-p"; B "no"]) = Flags (mkopts (B "t.torrent") [] 8080 (B "info") (B "-5k") (B "-1B") 0 0) [B "extra"; B "-p"; B "no"] /\
  fst (gotor (fun b => b) idhash net_up letters0 50 [] (line1 ++ [B "extra"; B "-p"; B "no"]) disk_t) = Exit 0 /\
  fst (gotor (fun b => b) idhash net_up letters0 50 [] [B "-i"; B "t.torrent"; B "-p"; B "port"] disk_t) = Exit 2 /\
  fst (gotor (fun b => b) idhash net_up letters0 50 [] [B "-w=."; B "-help"] disk_t) = Exit 0.
Proof.
  assert (D1 : dashes (B "-")) by now left. assert (D2 : dashes (B "--")) by now right.
  assert (HP : port_number (B "0x1F_90") 8080) by (apply ParseUint_iff; reflexivity).
  split.
  { unfold line1, set1. apply (sp_two (B "-") (B "i") (B "x")); [exact D1|cbn; tauto|]. apply (sp_one (B "-") (B "p") (B "0x1F_90")); [exact D1|cbn; tauto|].
    apply (sp_one (B "--") (B "cmd") (B "info")); [exact D2|cbn; tauto|]. apply (sp_two (B "-") (B "u") (B "-5k")); [exact D1|cbn; tauto|].
    apply (sp_two (B "-") (B "i") (B "t.torrent")); [exact D1|cbn; tauto|constructor]. }
  split. { intros v Hin. cbn [In set1] in Hin. repeat (destruct Hin as [Hin|Hin]; [first [discriminate|injection Hin as <-; eauto]|]). destruct Hin. }
  split; [right; right; exists "e"%byte, (B "xtra"); split; [reflexivity|discriminate]|].
  split; [vm_compute; reflexivity|]. split; [vm_compute; reflexivity|]. split; vm_compute; reflexivity.
Qed.
(** Numbers. *)
Example C91_numbers : port_number (B "6881") 6881 /\ port_number (B "0") 0 /\ port_number (B "017") 15 /\ port_number (B "1_000") 1000 /\
  (forall n, ~ port_number (B "08") n) /\ (forall n, ~ port_number (B "1__0") n) /\ (forall n, ~ port_number (B "-1") n) /\ (forall n, ~ port_number (B "18446744073709551616") n).
Proof.
  repeat match goal with |- _ /\ _ => split end; try (apply ParseUint_iff; reflexivity); intros n H; apply ParseUint_iff in H; vm_compute in H; discriminate.
Qed.
