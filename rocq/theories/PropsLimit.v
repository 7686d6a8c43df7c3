(** PropsLimit.v: the upload limit over a whole run of a process (C112). *)
From Coq Require Import ZifyBool ZifyNat ZifyN.
From Verif Require Import Base BitfieldModel WireModel WireSpec HandshakeModel LayoutModel LayoutSpec PptModel FsModel SwarmModel SessionModel RunModel RunSpec ProcModel PropsSwarm PropsPpt PropsSession PropsRun PropsFs PropsProc LimitSpec LimitProofs.

(** The counter holds what has passed since the last tick. *)
Theorem C112_used : forall pc ls t w peers s, prun pc ls (started t w peers) = Some s -> sh_used (p_sh s) = since_tick pc ls (started t w peers) 0.
Proof. exact (fun pc ls t w peers s H => eq_sym (used_run pc ls (started t w peers) s H)). Qed.
Print Assumptions C112_used.
(** A tick lets less than the limit and one message more pass. *)
Theorem C112_passed : forall pc ls t w peers s, 0 <= ti_plen (sc_ti (pc_c pc)) -> 0 < pc_rate pc -> prun pc ls (started t w peers) = Some s ->
  passed pc ls (started t w peers) < (ticks ls + 1) * (pc_rate pc + ti_plen (sc_ti (pc_c pc)) + 13).
Proof. exact (fun pc ls t w peers s HP HR => limit_passed pc HP HR ls t w peers s). Qed.
Print Assumptions C112_passed.
(** All that is uploaded, greetings and keep-alives included. *)
Theorem C112_upload : forall pc ls t w peers s, 0 <= ti_plen (sc_ti (pc_c pc)) -> 0 < pc_rate pc -> prun pc ls (started t w peers) = Some s ->
  uploaded s < (ticks ls + 1) * (pc_rate pc + ti_plen (sc_ti (pc_c pc)) + 13) + zlen (p_conns s) * zlen (greeting (pc_c pc)) + 4 * pings ls.
Proof. exact (fun pc ls t w peers s HP HR => limit_upload pc HP HR ls t w peers s). Qed.
Print Assumptions C112_upload.
(** It is not true that no more than the limit passes between two ticks: 14 bytes at 10 a second. *)
Theorem C112_strict_refuted : exists pc ls t w peers s, 0 < pc_rate pc /\ prun pc ls (started t w peers) = Some s /\ ticks ls = 0 /\ passed pc ls (started t w peers) > pc_rate pc.
Proof.
  exists slow1, runp, tracker3, open_part, [], afterp. split; [reflexivity|]. split.
  - assert (Hb : match prun slow1 runp (started tracker3 open_part []) with Some _ => true | None => false end = true) by (vm_compute; reflexivity).
    unfold afterp. destruct (prun slow1 runp (started tracker3 open_part [])); [reflexivity|discriminate].
  - split; vm_compute; reflexivity.
Qed.
Print Assumptions C112_strict_refuted.
(** Nor that the limit holds for the greetings. *)
Theorem C112_greeting_refuted : exists pc ls t w peers s, 0 < pc_rate pc /\ prun pc ls (started t w peers) = Some s /\ uploaded s > (ticks ls + 1) * (pc_rate pc + ti_plen (sc_ti (pc_c pc)) + 13).
Proof.
  exists slow1, runp, tracker3, open_part, [], afterp. split; [reflexivity|]. split.
  - assert (Hb : match prun slow1 runp (started tracker3 open_part []) with Some _ => true | None => false end = true) by (vm_compute; reflexivity).
    unfold afterp. destruct (prun slow1 runp (started tracker3 open_part [])); [reflexivity|discriminate].
  - vm_compute; reflexivity.
Qed.
Print Assumptions C112_greeting_refuted.
(** Two peers greeted with 79 bytes each, a keep-alive, and one block of one byte in a message of 14. *)
Example C112_case : prun slow1 runp (started tracker3 open_part []) = Some afterp /\ 0 < pc_rate slow1 /\ ti_plen (sc_ti (pc_c slow1)) = 2 /\
  passed slow1 runp (started tracker3 open_part []) = 14 /\ uploaded afterp = 14 + 2 * zlen (greeting (pc_c slow1)) + 4 /\ ticks runp = 0 /\ pings runp = 1 /\
  since_tick slow1 (runp ++ [PTick]) (started tracker3 open_part []) 0 = 0.
Proof.
  split.
  - assert (Hb : match prun slow1 runp (started tracker3 open_part []) with Some _ => true | None => false end = true) by (vm_compute; reflexivity).
    unfold afterp. destruct (prun slow1 runp (started tracker3 open_part [])); [reflexivity|discriminate].
  - repeat split; vm_compute; reflexivity.
Qed.
