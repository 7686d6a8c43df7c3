(** LoopSpec.v: specification vocabulary for PeerHandler.Loop. *)
From Verif Require Import Base LoopModel.

(** How many of the three goroutines are running: started and not over. *)
Definition running (s : st) : nat :=
  (match ping s with PNew | PEnd => 0 | _ => 1 end + match recv s with VNew | VEnd => 0 | _ => 1 end + match req s with QNew | QEnd => 0 | _ => 1 end)%nat.
(** How many errors Loop has received, how often somebody was told to stop. *)
Definition taken (tr : list ev) : nat := List.length (filter (fun e => match e with EvTaken => true | _ => false end) tr).
Definition told (tr : list ev) : nat := List.length (filter (fun e => match e with EvTold => true | _ => false end) tr).
(** Neither loop will ever receive from chDone again. *)
Definition deaf (s : st) : Prop := match ping s with PErr | PRet | PEnd => True | _ => False end /\ match recv s with VErr | VFinish | VRet | VEnd => True | _ => False end.
(** Loop has not been woken in its wait, nor got past it. *)
Definition waiting (s : st) : Prop := match loop s with LSelect | LSendDone | LWait | LAsleep => True | _ => False end.
