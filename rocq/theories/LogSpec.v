(** LogSpec.v: reading the log. *)
From Verif Require Import Base PeerModel FsModel PptModel BitfieldModel WireModel SwarmModel SessionModel RunModel ProcModel LogModel.
From Verif Require LoopModel ReadLoopModel.

(** The lines of connection k's goroutines, and everybody's. *)
Definition lines_by (k : nat) (es : list entry) : list logline := flat_map (fun e => match fst e with Some j => if Nat.eqb j k then [snd e] else [] | None => [] end) es.
Definition count (f : logline -> bool) (ls : list logline) : nat := List.length (filter f ls).
Definition is_start_recv (l : logline) : bool := match l with LStartRecv _ => true | _ => false end.
Definition is_end_recv (l : logline) : bool := match l with LEndRecv _ => true | _ => false end.
Definition is_start_ping (l : logline) : bool := match l with LStartPing _ => true | _ => false end.
Definition is_end_ping (l : logline) : bool := match l with LEndPing _ => true | _ => false end.
Definition is_start_req (l : logline) : bool := match l with LStartReq _ => true | _ => false end.
Definition is_end_req (l : logline) : bool := match l with LEndReq _ => true | _ => false end.
Definition is_start_read (l : logline) : bool := match l with LStartRead _ => true | _ => false end.
Definition is_end_read (l : logline) : bool := match l with LEndRead _ => true | _ => false end.
Definition is_killing (l : logline) : bool := match l with LKilling _ _ => true | _ => false end.
Definition is_done (l : logline) : bool := match l with LDone _ => true | _ => false end.
Definition is_pinged (l : logline) : bool := match l with LPinged _ => true | _ => false end.
Definition is_ping_err (l : logline) : bool := match l with LPingErr _ => true | _ => false end.
Definition is_sent_bf (l : logline) : bool := match l with LSentBf _ => true | _ => false end.
Definition is_registered (l : logline) : bool := match l with LRegistered => true | _ => false end.
Definition is_client (l : logline) : bool := match l with LNewClient _ => true | _ => false end.
Definition is_in_fail (l : logline) : bool := match l with LInFail _ => true | _ => false end.
Definition is_boot_fail (l : logline) : bool := match l with LBootFail _ _ => true | _ => false end.
(** The byte counts of the "Decoded" lines. *)
Definition decodes (ls : list logline) : list (Z * Z) := flat_map (fun l => match l with LDecoded r n _ => [(r, n)] | _ => [] end) ls.
(** Keep-alives that connection k's pingLoop has written in full. *)
Definition keepalives (k : nat) (ls : list wlabel) : nat :=
  List.length (filter (fun l => match l with WDo (PConn j (GPingTick None)) => Nat.eqb j k | _ => false end) ls).
Definition b2n (b : bool) : nat := if b then 1 else 0.
(** What the lines of a handler say of its goroutines. *)
Definition shows (ls : list logline) (g : gconn) : Prop :=
  count is_start_recv ls = b2n (match a_recv (g_a g) with VNew => false | _ => true end) /\
  count is_end_recv ls = b2n (match a_recv (g_a g) with VEnd => true | _ => false end) /\
  count is_start_ping ls = b2n (match a_ping (g_a g) with LoopModel.PNew => false | _ => true end) /\
  count is_end_ping ls = b2n (match a_ping (g_a g) with LoopModel.PEnd => true | _ => false end) /\
  count is_start_req ls = b2n (match a_req (g_a g) with QNew => false | _ => true end) /\
  count is_end_req ls = b2n (match a_req (g_a g) with QEnd => true | _ => false end) /\
  count is_start_read ls = b2n (match c_read (g_c g), c_got (g_c g) with ReadLoopModel.RTop, [] => false | _, _ => true end) /\
  count is_end_read ls = b2n (match c_read (g_c g) with ReadLoopModel.REnd => true | _ => false end) /\
  count is_killing ls = b2n (match a_loop (g_a g) with LoopModel.LSelect => false | _ => true end) /\
  count is_done ls = b2n (match a_loop (g_a g) with LoopModel.LEnd => true | _ => false end) /\
  count is_sent_bf ls = b2n (m_in (g_m g)).
(** A bitfield as long as ours. *)
Definition sized (own : bitfield) (m : msg) : bool := match m with MBitfield b => Nbytes b =? Nbytes own | _ => false end.
(** Bytes without a line end. *)
Definition plain (b : bytes) : Prop := ~ In x0a b.
(** The lines of a text, each ended by a newline; an unfinished one counts. *)
Fixpoint text_lines (b : bytes) : list bytes :=
  match b with
  | [] => []
  | c :: r => if Byte.eqb c x0a then [] :: text_lines r else match text_lines r with [] => [[c]] | l :: q => (c :: l) :: q end
  end.
(** A call's own line: its string without the newline at its end. *)
Definition own_line (s : bytes) : bytes := match rev s with c :: r => if Byte.eqb c x0a then rev r else s | [] => s end.
Fixpoint stamped (k : looks) (stamps : list bytes) (es : list logline) : list bytes :=
  match es, stamps with
  | e :: r, st :: q => (st ++ own_line (text k e)) :: stamped k q r
  | _, _ => []
  end.
Definition plain_looks (k : looks) : Prop := (forall e, plain (err_text k e)) /\ forall a b, plain (percent k a b).
(** The strings in a line have no line end. *)
Definition plain_line (l : logline) : Prop :=
  match l with
  | LReading b | LGet b | LBootFail b _ | LNewClient b | LDecoded _ _ b | LGood b | LSentHs b | LSentBf b | LKilling b _ | LDone b | LEndRecv b | LStartRecv b
  | LStartReq b | LEndReq b | LEndPing b | LStartPing b | LPingErr b | LPinged b | LStartRead b | LEndRead b => plain b
  | LOpening | LHave _ _ | LListening _ | LInFail _ | LRegistered | LUnchoke _ => True
  end.
Definition made_peer (i : info) : Prop := exists id p port, i = MakePeer id p port.
