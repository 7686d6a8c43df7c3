(** SpinSpec.v: a terminal's last lines, and time. *)
From Verif Require Import Base SpinModel.

(** A terminal wide enough: the finished lines, the cells of the current one, the column of the cursor. *)
Record term := mkterm { tm_done : list (list Z); tm_line : list Z; tm_col : nat }.
(** Writing a character over what is in a column, with blanks before it if the line is shorter. *)
Fixpoint over (col : nat) (c : Z) (line : list Z) : list Z :=
  match col, line with
  | O, [] => [c]
  | O, _ :: r => c :: r
  | S n, [] => 32 :: over n c []
  | S n, x :: r => x :: over n c r
  end.
Definition put (t : term) (c : Z) : term :=
  if c =? 13 then mkterm (tm_done t) (tm_line t) 0
  else if c =? 10 then mkterm (tm_done t ++ [tm_line t]) [] 0
  else if c =? 8 then mkterm (tm_done t) (tm_line t) (pred (tm_col t))
  else mkterm (tm_done t) (over (tm_col t) c (tm_line t)) (S (tm_col t)).
Definition write (t : term) (s : list Z) : term := fold_left put s t.
(** What was printed, and how long it slept. *)
Fixpoint printed (evs : list spin_ev) : list Z := match evs with [] => [] | Shows s :: r => s ++ printed r | Sleeps _ :: r => printed r end.
Fixpoint slept (evs : list spin_ev) : Z := match evs with [] => 0 | Shows _ :: r => slept r | Sleeps n :: r => n + slept r end.
(** A line without the blanks at its end. *)
Fixpoint shown (line : list Z) : list Z :=
  match line with [] => [] | c :: r => match shown r with [] => if c =? 32 then [] else [c] | s => c :: s end end.
(** A message without control characters. *)
Definition plain (msg : list Z) : Prop := Forall (fun c => 32 <= c) msg.
(** One, two or three dots: in the n-th round (from one) two, three, one, two, ... *)
Definition dots_in (n : nat) : list Z := repeat 46 (S (Nat.modulo n 3)).
(** A Braille cell is U+2800 and, added to it, a number for each raised dot; the numbers, clockwise from the top left. The m-th picture: four
    neighbouring dots, turned m places clockwise. *)
Definition ring : list Z := [1; 8; 16; 32; 128; 64; 4; 2].
Definition picture (m : nat) : Z := 10240 + fold_right Z.add 0 (map (fun k => nth (Nat.modulo (m + 6 + k) 8) ring 0) (seq 0 4)).
Definition the_round (msg : list Z) (n : nat) : list spin_ev :=
  List.concat (map (fun m => [Shows ([13; picture m; 32] ++ msg ++ dots_in n ++ [32; 32; 8; 8]); Sleeps 100]) (seq 0 8)).
(** A check mark and the message. *)
Definition goodbye (msg : list Z) : list Z := [13; 10003; 32] ++ msg ++ [10].
(** Done at the k-th look and not before. *)
Definition first_ready (polls : nat -> bool) (k : nat) : Prop := polls k = true /\ forall j, (j < k)%nat -> polls j = false.
