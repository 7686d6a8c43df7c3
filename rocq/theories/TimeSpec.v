(** TimeSpec.v: what happens when. *)
From Verif Require Import Base TimeModel.

(** When data arrived, and when keep-alives were written, in a run that starts at time t. *)
Fixpoint arrivals (t : Z) (ls : list label1) : list Z :=
  match ls with
  | [] => []
  | LDelay d :: r => arrivals (t + d) r
  | LArrive :: r => t :: arrivals t r
  | _ :: r => arrivals t r
  end.
Fixpoint pings (t : Z) (ls : list label1) : list Z :=
  match ls with
  | [] => []
  | LDelay d :: r => pings (t + d) r
  | LDo ETick :: r => t :: pings t r
  | _ :: r => pings t r
  end.
(** Nothing fails but deadlines. *)
Definition sound1 (ls : list label1) : Prop := ~ In (LDo EFail) ls.
Definition sound2 (ls : list label2) : Prop := ~ In (TDoA EFail) ls /\ ~ In (TDoB EFail) ls.
(** A stretch of two minutes, begun no earlier than t and over by t', without an arrival inside. *)
Definition two_quiet_minutes (t t' : Z) (as_ : list Z) : Prop :=
  exists u, t <= u /\ u + 120 * 1000000000 <= t' /\ forall a, In a as_ -> a <= u \/ u + 120 * 1000000000 <= a.
(** At time ta end A has accepted the connection B made at tb, and its first bytes are on their way to B. *)
Definition joined (delay tb ta : Z) (s : state2) : Prop :=
  exists rd tick, s = mk2 ta (NewEnd ta) (mke rd [] (Some tick)) [] [ta + delay] /\ tb <= ta /\ ta + delay < tb + 120 * 1000000000 /\ ta <= tick <= ta + 60 * 1000000000 /\
    match rd with Busy => True | Reading u => tb <= u <= ta | Ended => False end.
(** The minutes after t0. *)
Definition at_ticks (t0 : Z) (n : nat) : list Z := map (fun k => t0 + Z.of_nat k * (60 * 1000000000)) (seq 1 n).
(** Only time passes, and keep-alives are written. *)
Definition quiet_label (l : label1) : Prop := match l with LDelay _ | LDo ETick => True | _ => False end.
(** The first end does nothing; what the second writes arrives. *)
Definition left_alone (l : label2) : Prop :=
  match l with TDelay _ | TArriveA _ | TDoB ESet | TDoB ETick | TDoB ETimeout => True | _ => False end.
