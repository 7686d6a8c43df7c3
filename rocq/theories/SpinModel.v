(** SpinModel.v: model of Spinner (src/utils/utils.go). *)
From Verif Require Import Base.

(** What it does to the world: prints characters (their code points), or sleeps so many milliseconds. *)
Inductive spin_ev := Shows (text : list Z) | Sleeps (ms : Z).

(** utils.go:67-70. U+280F, U+281B, U+2839, U+28B8, U+28F0, U+28E4, U+28C6, U+2847; three dots; two spaces and two backspaces. *)
Definition symbols : list Z := [10255; 10267; 10297; 10424; 10480; 10468; 10438; 10311].
Definition dots : list Z := [46; 46; 46].
Definition backs : list Z := [32; 32; 8; 8].
(** utils.go:81, 75: carriage return, symbol, space, message, dots, backs; and carriage return, U+2713, space, message, newline. *)
Definition frame (r : Z) (msg d : list Z) : list Z := 13 :: r :: 32 :: msg ++ d ++ backs.
Definition farewell (msg : list Z) : list Z := 13 :: 10003 :: 32 :: msg ++ [10].
(** utils.go:78-83: one round; dots[:i+1] panics beyond the three. *)
Definition spin_round (i : Z) (msg : list Z) : res (list spin_ev) :=
  if (i + 1 <? 0) || (zlen dots <? i + 1) then Panic
  else Ok (List.concat (map (fun r => [Shows (frame r msg (firstn (Z.to_nat (i + 1)) dots)); Sleeps 100]) symbols)).
(** utils.go:72-85: [polls k] tells whether the k-th select can receive from done (or done is closed). *)
Fixpoint spin_loop (fuel : nat) (polls : nat -> bool) (k : nat) (i : Z) (msg : list Z) : res unit * list spin_ev :=
  match fuel with
  | O => (NoFuel, [])
  | S f =>
    if polls k then (Ok tt, [Shows (farewell msg)])
    else
      let i' := Z.rem (i + 1) 3 in
      match spin_round i' msg with
      | Ok evs => let ' (x, more) := spin_loop f polls (S k) i' msg in (x, evs ++ more)
      | Err e => (Err e, [])
      | Panic => (Panic, [])
      | NoFuel => (NoFuel, [])
      end
  end.
(** utils.go:66-86 Spinner *)
Definition Spinner (fuel : nat) (polls : nat -> bool) (msg : list Z) : res unit * list spin_ev := spin_loop fuel polls 0 0 msg.
