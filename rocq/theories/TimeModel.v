(** TimeModel.v: deadlines and keep-alives of a connection (src/swarm/peerhandler.go, src/io/readloop.go) as timed transition systems.
    Times are nanoseconds (time.Duration). Idealised: clocks do not drift, time.NewTicker ticks exactly at its period, and a
    conn.Read that has data before its deadline returns data (poll.FD.Read looks at the deadline before its first attempt only). *)
From Verif Require Import Base BitfieldModel HandshakeModel.

(** peerhandler.go:22-24 *)
Definition second : Z := 1000000000.
Definition GetKeepAlive : Z := 120 * second.
Definition SendKeepAlive : Z := 60 * second.
Definition HandshakeTimeout : Z := 1 * second.

(** readloop.go:65-91 as timed: before line 71 (the first time, or while recvLoop handles what was read); in conn.Read since the
    deadline was computed at time s; ended. *)
Inductive reader := Busy | Reading (s : Z) | Ended.
(** One end of a connection: its read loop, the arrival times of data not yet read, and the next tick of pingLoop's ticker
    (peerhandler.go:295; None once pingLoop has ended). *)
Record endp := mke { e_rd : reader; e_in : list Z; e_tick : option Z }.
(** peerhandler.go:157-159 (205-206, 295) at time t: the ticker is created and recvLoop started. *)
Definition NewEnd (t : Z) : endp := mke Busy [] (Some (t + SendKeepAlive)).

Inductive elabel :=
| ESet             (* readloop.go:71: the deadline is set *)
| ERead (k : nat)  (* 77: Read returns what came with the first k arrivals; 82-88 up to the next round *)
| ETimeout         (* 77-80: Read returns a timeout; peerhandler.go:216-226 *)
| EFail            (* 77-80: Read returns another error; or peerhandler.go:214, 223-226: handleMessage does *)
| ETick            (* peerhandler.go:302-303: a keep-alive is written *)
| ESend            (* something else is written *)
| EKill.           (* 310-311: pingLoop is told to stop, after recvLoop's error *)
Definition estep (now : Z) (l : elabel) (e : endp) : option endp :=
  match l with
  | ESet => match e_rd e with Busy => Some (mke (Reading now) (e_in e) (e_tick e)) | _ => None end
  | ERead k => match e_rd e with
               | Reading _ => if (Nat.leb 1 k && Nat.leb k (List.length (e_in e)))%bool then Some (mke Busy (skipn k (e_in e)) (e_tick e)) else None
               | _ => None
               end
  | ETimeout => match e_rd e with
                | Reading s => if (s + GetKeepAlive <=? now) && forallb (fun a => s + GetKeepAlive <=? a) (e_in e) then Some (mke Ended (e_in e) (e_tick e)) else None
                | _ => None
                end
  | EFail => match e_rd e with Ended => None | _ => Some (mke Ended (e_in e) (e_tick e)) end
  | ETick => match e_tick e with Some t => if t =? now then Some (mke (e_rd e) (e_in e) (Some (t + SendKeepAlive))) else None | None => None end
  | ESend => Some e
  | EKill => match e_rd e with Ended => Some (mke (e_rd e) (e_in e) None) | _ => None end
  end.
(** What is written goes to the other end. *)
Definition sends (l : elabel) : bool := match l with ETick | ESend => true | _ => false end.
(** Time may pass up to the next tick. *)
Definition tick_ok (now : Z) (e : endp) : bool := match e_tick e with Some t => now <=? t | None => true end.

(** ** One end, any peer *)
Inductive label1 := LDelay (d : Z) | LDo (l : elabel) | LArrive.
Record state1 := mk1 { now1 : Z; end1 : endp }.
Definition step1 (l : label1) (s : state1) : option state1 :=
  match l with
  | LDelay d => if (0 <=? d) && tick_ok (now1 s + d) (end1 s) then Some (mk1 (now1 s + d) (end1 s)) else None
  | LDo l => option_map (mk1 (now1 s)) (estep (now1 s) l (end1 s))
  | LArrive => Some (mk1 (now1 s) (mke (e_rd (end1 s)) (e_in (end1 s) ++ [now1 s]) (e_tick (end1 s))))
  end.
Fixpoint run1 (ls : list label1) (s : state1) : option state1 :=
  match ls with [] => Some s | l :: r => match step1 l s with Some s' => run1 r s' | None => None end end.

(** ** Both ends run gotor *)
(** [f_a], [f_b]: for each packet on its way to A (B), the latest time of its arrival. *)
Record state2 := mk2 { now2 : Z; end_a : endp; end_b : endp; f_a : list Z; f_b : list Z }.
Inductive label2 := TDelay (d : Z) | TDoA (l : elabel) | TDoB (l : elabel) | TArriveA (i : nat) | TArriveB (i : nat).
Definition drop_nth (i : nat) (l : list Z) : list Z := firstn i l ++ skipn (S i) l.
Definition arrive (now : Z) (e : endp) : endp := mke (e_rd e) (e_in e ++ [now]) (e_tick e).
(** [delay]: the longest time from a tick or another write to the arrival at the other end (scheduling, the write, the network). *)
Definition step2 (delay : Z) (l : label2) (s : state2) : option state2 :=
  match l with
  | TDelay d =>
    let t := now2 s + d in
    if (0 <=? d) && tick_ok t (end_a s) && tick_ok t (end_b s) && forallb (fun x => t <=? x) (f_a s) && forallb (fun x => t <=? x) (f_b s)
    then Some (mk2 t (end_a s) (end_b s) (f_a s) (f_b s)) else None
  | TDoA l => match estep (now2 s) l (end_a s) with
              | Some e => Some (mk2 (now2 s) e (end_b s) (f_a s) (if sends l then f_b s ++ [now2 s + delay] else f_b s))
              | None => None
              end
  | TDoB l => match estep (now2 s) l (end_b s) with
              | Some e => Some (mk2 (now2 s) (end_a s) e (if sends l then f_a s ++ [now2 s + delay] else f_a s) (f_b s))
              | None => None
              end
  | TArriveA i => if Nat.ltb i (List.length (f_a s)) then Some (mk2 (now2 s) (arrive (now2 s) (end_a s)) (end_b s) (drop_nth i (f_a s)) (f_b s)) else None
  | TArriveB i => if Nat.ltb i (List.length (f_b s)) then Some (mk2 (now2 s) (end_a s) (arrive (now2 s) (end_b s)) (f_a s) (drop_nth i (f_b s))) else None
  end.
Fixpoint run2 (delay : Z) (ls : list label2) (s : state2) : option state2 :=
  match ls with [] => Some s | l :: r => match step2 delay l s with Some s' => run2 delay r s' | None => None end end.

(** ** The handshake *)
(** peerhandler.go:79-88: FromIncoming sets the deadline at time t0 and reads; [c]: the first arrival on the connection, if any,
    with what a Read at that time returns. With no data before the deadline Read fails then. (Data before t0: it comes at t0.) *)
Definition timed_read (t0 : Z) (c : option (Z * bytes)) : first_read :=
  match c with
  | Some (a, b) => if a <? t0 + HandshakeTimeout then mkread b false else mkread [] true
  | None => mkread [] true
  end.
Definition read_time (t0 : Z) (c : option (Z * bytes)) : Z :=
  match c with
  | Some (a, b) => if a <? t0 + HandshakeTimeout then Z.max a t0 else t0 + HandshakeTimeout
  | None => t0 + HandshakeTimeout
  end.
Definition timed_accept (infohash myid : bytes) (mybf : bitfield) (t0 : Z) (c : option (Z * bytes)) (w : writes_ok) : incoming :=
  FromIncoming infohash myid mybf (timed_read t0 c) w.
(** peerhandler.go:90-92: the only place where a connection is closed. *)
Definition closes (infohash : bytes) (r : first_read) : bool :=
  negb (rd_err r) && match ValidHandshake (mkslice (copy_at (repeat (z2b 0) 68) 0 (rd_bytes r)) []) infohash with Ok true => false | _ => true end.
