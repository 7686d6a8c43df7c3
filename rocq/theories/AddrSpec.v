(** AddrSpec.v: Internet addresses as bytes and the text RFC 5952 gives an IPv6 address. *)
From Verif Require Import Base.

(** The twelve bytes in front of an IPv4 address held in sixteen bytes. *)
Definition mapped : bytes := repeat x00 10 ++ [xff; xff]%byte.
(** The IPv4 address a.b.c.d, in four bytes or in sixteen. *)
Definition v4form (p : bytes) (a b c d : byte) : Prop := p = [a; b; c; d] \/ p = mapped ++ [a; b; c; d].
(** Sixteen bytes that are not an IPv4 address. *)
Definition v6form (p : bytes) : Prop := zlen p = 16 /\ firstn 12 p <> mapped.
(** The same Internet address. *)
Definition same_addr (p q : bytes) : Prop := p = q \/ exists a b c d, v4form p a b c d /\ v4form q a b c d.

(** The value of a lower-case hexadecimal digit, of a numeral. *)
Definition digit_val (b : byte) : option Z :=
  let z := b2z b in if (48 <=? z) && (z <=? 57) then Some (z - 48) else if (97 <=? z) && (z <=? 102) then Some (z - 87) else None.
Fixpoint hex_val (acc : Z) (t : bytes) : option Z :=
  match t with [] => Some acc | b :: r => match digit_val b with Some d => hex_val (16 * acc + d) r | None => None end end.
(** [t] is the shortest lower-case hexadecimal numeral of [z]: no leading zero, "0" for zero. *)
Definition hextext (z : Z) (t : bytes) : Prop :=
  t <> [] /\ hex_val 0 t = Some z /\ (forall r, t = "0"%byte :: r -> r = []).
(** Texts separated by colons. *)
Fixpoint colons (ts : list bytes) : bytes := match ts with [] => [] | [t] => t | t :: r => t ++ ":"%byte :: colons r end.
(** Group [i] of an address: two bytes, the more significant first. *)
Definition groups_of (p : bytes) (g : list Z) : Prop :=
  List.length p = (2 * List.length g)%nat /\
  forall i, (i < List.length g)%nat -> nth i g 0 = 256 * b2z (nth (2 * i) p x00) + b2z (nth (2 * i + 1) p x00).
(** [n] zero groups from position [i] on. *)
Definition zero_run (g : list Z) (i n : nat) : Prop := (i + n <= List.length g)%nat /\ forall k, (k < n)%nat -> nth (i + k) g 1 = 0.
(** RFC 5952 section 4: the longest run of at least two zero groups, the first of them if several, becomes "::". *)
Definition rfc5952 (g : list Z) (t : bytes) : Prop :=
  exists ts, Forall2 hextext g ts /\
    ((forall i n, zero_run g i n -> (n < 2)%nat) /\ t = colons ts \/
     exists i n, (2 <= n)%nat /\ zero_run g i n /\ (forall j m, zero_run g j m -> (m < n)%nat \/ m = n /\ (i <= j)%nat) /\
       t = colons (firstn i ts) ++ B "::" ++ colons (skipn (i + n) ts)).

(** A text of a host and a port: host:port, or [host]:port, where the host may contain colons. *)
Definition no_marks (s : bytes) : Prop := ~ In ":"%byte s /\ ~ In "["%byte s /\ ~ In "]"%byte s.
Definition host_port (s host port : bytes) : Prop :=
  no_marks port /\ ((s = host ++ B ":" ++ port /\ no_marks host) \/ (s = B "[" ++ host ++ B "]:" ++ port /\ ~ In "["%byte host /\ ~ In "]"%byte host)).
