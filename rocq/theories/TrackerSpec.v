(** TrackerSpec.v: specification vocabulary for tracker requests and responses, and for peers. *)
From Verif Require Import Base BencodeModel BencodeSpec PeerModel TrackerModel.

(** ** HTML form decoding, as a tracker does it (lenient: a bad escape stands for itself). *)
Definition hexval (b : byte) : option Z :=
  let z := b2z b in
  if (48 <=? z) && (z <=? 57) then Some (z - 48)
  else if (65 <=? z) && (z <=? 70) then Some (z - 55)
  else if (97 <=? z) && (z <=? 102) then Some (z - 87) else None.
Fixpoint form_decode (s : bytes) : bytes :=
  match s with
  | [] => []
  | b :: r =>
    if Byte.eqb b "%" then
      match r with
      | x :: y :: r' => match hexval x, hexval y with
                        | Some h, Some l => z2b (16 * h + l) :: form_decode r'
                        | _, _ => b :: form_decode r
                        end
      | _ => b :: form_decode r
      end
    else (if Byte.eqb b "+" then " "%byte else b) :: form_decode r
  end.
(** The text between separators, empty pieces included. *)
Fixpoint split_on (c : byte) (s : bytes) : list bytes :=
  match s with
  | [] => [[]]
  | b :: r => if Byte.eqb b c then [] :: split_on c r
              else match split_on c r with h :: t => (b :: h) :: t | [] => [[b]] end
  end.
(** name=value; without '=' the value is empty. *)
Fixpoint name_of (s : bytes) : bytes := match s with [] => [] | b :: r => if Byte.eqb b "=" then [] else b :: name_of r end.
Fixpoint value_of (s : bytes) : bytes := match s with [] => [] | b :: r => if Byte.eqb b "=" then r else value_of r end.
Definition nonempty (s : bytes) : bool := match s with [] => false | _ => true end.
Definition form_pairs (raw : bytes) : list (bytes * bytes) :=
  map (fun s => (form_decode (name_of s), form_decode (value_of s))) (filter nonempty (split_on "&" raw)).
(** All values given to the name k, in order. *)
Definition values_of (ps : list (bytes * bytes)) (k : bytes) : list bytes := map snd (filter (fun p => beqb (fst p) k) ps).
Definition form_values (raw k : bytes) : list bytes := values_of (form_pairs raw) k.
(** Every '%' starts a valid escape, and there is no ';'. *)
Fixpoint escapes_ok (s : bytes) : bool :=
  match s with
  | [] => true
  | b :: r =>
    if Byte.eqb b "%" then match r with x :: y :: r' => match hexval x, hexval y with Some _, Some _ => escapes_ok r' | _, _ => false end | _ => false end
    else negb (Byte.eqb b ";") && escapes_ok r
  end.
(** An announce URL query a tracker operator may use: every name and value well escaped. *)
Definition clean_query (raw : bytes) : Prop := forall s, In s (split_on "&" raw) -> escapes_ok (name_of s) = true /\ escapes_ok (value_of s) = true.
Definition plain (b : byte) : Prop :=
  97 <= b2z b <= 122 \/ 65 <= b2z b <= 90 \/ 48 <= b2z b <= 57 \/ In b (B "-_.~").

(** What the announce must carry (BEP 3). *)
Definition announce_params (infohash : bytes) (st : Stats) (port : Z) (id : bytes) : list (bytes * bytes) :=
  [(B "info_hash", infohash); (B "peer_id", id); (B "port", itoa port); (B "uploaded", itoa (s_up st)); (B "downloaded", itoa (s_dn st)); (B "left", itoa (s_left st)); (B "compact", B "1")].

(** ** Statistics *)
Definition sum_up (ops : list stop) : Z := fold_right (fun o a => match o with OUp n => n + a | _ => a end) 0 ops.
Definition sum_dn (ops : list stop) : Z := fold_right (fun o a => match o with ODn n => n + a | _ => a end) 0 ops.
Definition sum_left (ops : list stop) : Z := fold_right (fun o a => match o with OLeft n => n + a | _ => a end) 0 ops.
Definition amount (o : stop) : Z := match o with OUp n | ODn n | OLeft n => n end.
Definition is_u64 (z : Z) : Prop := 0 <= z < 18446744073709551616.

(** ** Responses *)
Definition int_field (d : list (bytes * gval)) (k : bytes) (z : Z) : Prop := In (k, VInt KInt64 z) d.
Definition str_field (d : list (bytes * gval)) (k s : bytes) : Prop := In (k, VStr s) d.
(** An entry of a non-compact peer list. *)
Definition peer_entry (parseIP : bytes -> ip) (v : gval) (i : info) : Prop :=
  exists d ip port id, v = VDict d /\ str_field d (B "ip") ip /\ int_field d (B "port") port /\ str_field d (B "peer id") id /\
    i = MakePeer id (parseIP ip) (port mod 65536).
(** The i-th six bytes of a compact list. *)
Definition compact_entry (s : bytes) (i : nat) (p : info) : Prop :=
  exists a b c d e f, sub s (6 * i) 6 = [a; b; c; d; e; f] /\ p = MakePeer [] (IPv4 a b c d) (b2z e * 256 + b2z f).
Definition compact_list (s : bytes) (l : list info) : Prop := zlen s = 6 * zlen l /\ forall i p, nth_error l i = Some p -> compact_entry s i p.
Definition opt_field {A} (holds : A -> Prop) (zero v : A) : Prop := holds v \/ ((forall a, ~ holds a) /\ v = zero).
Definition good_response (parseIP : bytes -> ip) (d : list (bytes * gval)) (r : response) : Prop :=
  (forall s, ~ str_field d (B "failure reason") s) /\
  (exists z, int_field d (B "interval") z /\ t_interval (r_state r) = z mod 18446744073709551616) /\
  (exists z, int_field d (B "complete") z /\ t_seeders (r_state r) = z mod 18446744073709551616) /\
  (exists z, int_field d (B "incomplete") z /\ t_leechers (r_state r) = z mod 18446744073709551616) /\
  ((exists s, str_field d (B "peers") s /\ compact_list s (r_peers r)) \/
   (exists l, In (B "peers", VList l) d /\ Forall2 (peer_entry parseIP) l (r_peers r))) /\
  opt_field (fun w => str_field d (B "warning message") w) [] (t_warning (r_state r)) /\
  opt_field (fun m => exists z, int_field d (B "min interval") z /\ m = z mod 18446744073709551616) 0 (t_minInterval (r_state r)) /\
  t_tid (r_state r) = [].

(** ** Peer state: the last value written by the calls that [sel] picks, or the initial one. *)
Definition last_set (sel : pop -> option bool) (init : bool) (ops : list pop) : bool := fold_left (fun a o => match sel o with Some v => v | None => a end) ops init.
Definition to_chokingUs (o : pop) : option bool := match o with PChokingUs v => Some v | _ => None end.
Definition to_weChoking (o : pop) : option bool := match o with PWeChoking v => Some v | _ => None end.
Definition to_interestedUs (o : pop) : option bool := match o with PInterestedUs v => Some v | _ => None end.
Definition to_weInterested (o : pop) : option bool := match o with PWeInterested v => Some v | _ => None end.
