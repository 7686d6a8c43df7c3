(** RaceDoneSpec.v: the trace records what happens to the memory. *)
From Verif Require Import Base BitfieldModel WireModel HandshakeModel HandshakeSpec LayoutModel PptModel PeerModel FsModel SwarmModel SessionModel RunModel ProcModel RaceSpec RaceModel.

Definition wrote (x : loc) (es : trace) : Prop := exists g, In (g, Wr x) es \/ In (g, At x) es.
(** Between the states s and s' of the process, es has a write to all that has changed, and to all that is new. *)
Record recorded (s s' : pstate) (es : trace) : Prop := mkrecorded {
  rec_track : sh_ppt (p_sh s') <> sh_ppt (p_sh s) -> wrote XTrack es;
  rec_used : sh_used (p_sh s') <> sh_used (p_sh s) -> wrote XUsed es;
  rec_bf : forall k g g', nth_error (p_conns s) k = Some g -> nth_error (p_conns s') k = Some g' -> m_bf (g_m g') <> m_bf (g_m g) -> wrote (XBf k) es;
  rec_buf : forall k g g', nth_error (p_conns s) k = Some g -> nth_error (p_conns s') k = Some g' -> m_buf (g_m g') <> m_buf (g_m g) -> wrote (XBuf k) es;
  rec_recv : forall k g g', nth_error (p_conns s) k = Some g -> nth_error (p_conns s') k = Some g' -> c_mem (g_c g') <> c_mem (g_c g) -> wrote (XRecv k) es;
  rec_new : forall k, (List.length (p_conns s) <= k < List.length (p_conns s'))%nat -> wrote (XPeer k) es /\ wrote (XBf k) es /\ wrote (XBuf k) es }.
