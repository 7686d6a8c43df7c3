(** WireStepSpec.v: which inputs the message decoder rejects, and how many bytes it skips
    when it does. Stated on raw bytes only. *)
From Verif Require Import Base WireModel WireSpec.

(** The whole rest of the buffer is given up: fewer than 4 bytes; a length without an id;
    choke..notinterested with a declared length other than 1; a declared length running past
    the buffer; an id of 8 or more. *)
Definition gives_up (l : bytes) : Prop :=
  zlen l < 4 \/
  exists n, 1 <= n < 4294967296 /\
    (l = be32 n \/
     exists t r, l = be32 n ++ [t] ++ r /\
       ((b2z t <= 3 /\ n <> 1) \/
        (3 < b2z t /\ n < 4294967292 /\ (zlen r < n - 1 \/ 8 <= b2z t)))).

(** A complete frame of id [t] whose declared length is not [n0]. *)
Definition wrong_length (t n0 : Z) (l : bytes) : Prop :=
  exists n r, l = be32 n ++ [z2b t] ++ r /\ 1 <= n < 4294967292 /\ n <> n0 /\ n - 1 <= zlen r.

(** [rejected l k]: l does not start with a message, and the decoder skips k bytes. *)
Definition rejected (l : bytes) (k : Z) : Prop :=
  (k = zlen l /\ gives_up l) \/
  (k = 9 /\ wrong_length 4 5 l) \/
  (k = 17 /\ wrong_length 6 13 l) \/
  (k = 0 /\ firstn 5 l = empty_bitfield_frame).
