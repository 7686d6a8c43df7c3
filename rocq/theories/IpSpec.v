(** IpSpec.v: Internet addresses as text. *)
From Verif Require Import Base BencodeModel BencodeSpec AddrSpec.

(** Four numbers below 256 in decimal, without leading zeros, with dots between. *)
Definition quad (s : bytes) (a b c d : Z) : Prop :=
  a < 256 /\ b < 256 /\ c < 256 /\ d < 256 /\
  exists ta tb tc td, decimal ta a /\ decimal tb b /\ decimal tc c /\ decimal td d /\ s = ta ++ B "." ++ tb ++ B "." ++ tc ++ B "." ++ td.
(** A hexadecimal number below 65536, in either case, with any number of leading zeros. *)
Definition hexchar (c : byte) (d : Z) : Prop :=
  (48 <= b2z c <= 57 /\ d = b2z c - 48) \/ (97 <= b2z c <= 102 /\ d = b2z c - 87) \/ (65 <= b2z c <= 70 /\ d = b2z c - 55).
Definition hexgroup (t : bytes) (z : Z) : Prop :=
  t <> [] /\ z < 65536 /\ exists ds, Forall2 hexchar t ds /\ z = fold_left (fun a d => 16 * a + d) ds 0.
(** Groups with colons between; the last two may be written as four decimals. *)
Definition hex_groups (s : bytes) (gs : list Z) : Prop := exists ts, Forall2 hexgroup ts gs /\ s = colons ts.
Definition groups_text (s : bytes) (gs : list Z) : Prop :=
  hex_groups s gs \/ exists ts hs q a b c d, Forall2 hexgroup ts hs /\ quad q a b c d /\ s = colons (ts ++ [q]) /\ gs = hs ++ [256 * a + b; 256 * c + d].
(** RFC 4291 section 2.2: eight groups; or fewer, with one "::" for the missing zeros. *)
Definition ip6 (s : bytes) (gs : list Z) : Prop :=
  (groups_text s gs /\ List.length gs = 8%nat) \/
  exists l r ls rs, hex_groups l ls /\ groups_text r rs /\ s = l ++ B "::" ++ r /\ (List.length (ls ++ rs) < 8)%nat /\ gs = ls ++ repeat 0 (8 - List.length (ls ++ rs)) ++ rs.
(** The text stands for the address p (of sixteen bytes). *)
Definition stands_for (s p : bytes) : Prop :=
  (exists a b c d, quad s a b c d /\ p = mapped ++ [z2b a; z2b b; z2b c; z2b d]) \/ (exists gs, ip6 s gs /\ groups_of p gs).
(** ** What is dialled for a peer the tracker names by text: the host and port in net.Dial's reading of the address, or no reading. *)
Definition text_dialled (t : bytes) (port : Z) (r : res (bytes * bytes)) : Prop :=
  (exists a b c d, quad t a b c d /\ r = Ok (t, itoa port)) \/
  (exists gs a b c d q, ip6 t gs /\ groups_of (mapped ++ [z2b a; z2b b; z2b c; z2b d]) gs /\ quad q a b c d /\ r = Ok (q, itoa port)) \/
  (exists gs p, ip6 t gs /\ groups_of p gs /\ v6form p /\ r = Err EInvalid) \/
  ((forall p, ~ stands_for t p) /\ r = Ok (B "<nil>", itoa port)).
