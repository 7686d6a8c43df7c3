(** LimitSpec.v: what a process has uploaded, and what its limit allows. *)
From Verif Require Import Base BitfieldModel WireModel WireSpec HandshakeModel LayoutModel LayoutSpec PptModel FsModel SwarmModel SessionModel RunModel ProcModel.

(** All bytes handed to the sockets of the peers that have a handler. *)
Definition uploaded (s : pstate) : Z := zsum (map (fun g => zlen (m_out (g_m g))) (p_conns s)).
(** Ticks of the limiter, and keep-alives, in a run. *)
Definition ticks (ls : list plabel) : Z := zlen (filter (fun l => match l with PTick => true | _ => false end) ls).
Definition pings (ls : list plabel) : Z := zlen (filter (fun l => match l with PConn _ (GPingTick _) => true | _ => false end) ls).
(** What a peer is greeted with: handshake, bitfield, unchoke. *)
Definition greeting (c : sconst) : bytes := MakeHandshake (sc_ih c) (sc_id c) ++ EncodeMsg (MBitfield (sc_own c)) ++ EncodeMsg MUnchoke.
(** The bytes the limiter lets pass in a step: the message a connection is about to send. *)
Definition lets_pass (l : plabel) (s : pstate) : Z :=
  match l with
  | PConn k GAdd => match nth_error (p_conns s) k with Some g => match m_pend (g_m g) with f :: _ => zlen f | [] => 0 end | None => 0 end
  | _ => 0
  end.
(** Over a run: all of them, and those since the last tick. *)
Fixpoint passed (pc : pconst) (ls : list plabel) (s : pstate) : Z :=
  match ls with [] => 0 | l :: r => match pstep pc l s with PWent s' => lets_pass l s + passed pc r s' | _ => 0 end end.
Fixpoint since_tick (pc : pconst) (ls : list plabel) (s : pstate) (acc : Z) : Z :=
  match ls with
  | [] => acc
  | l :: r => match pstep pc l s with PWent s' => since_tick pc r s' (match l with PTick => 0 | _ => acc + lets_pass l s end) | _ => acc end
  end.
