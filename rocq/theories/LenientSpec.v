(** LenientSpec.v: the language the decoder reads, as a grammar with values. It is larger
    than canonical bencoding: length prefixes may have leading zeros, "i-0e" is an integer,
    dictionary keys may come in any order and repeat. *)
From Verif Require Import Base BencodeModel BencodeSpec.

Definition digits (ds : bytes) : Prop := ds <> [] /\ Forall (fun d => 48 <= b2z d <= 57) ds.

(** The digits of an integer: no leading zero, except for "0" itself. *)
Definition int_digits (ds : bytes) : Prop :=
  digits ds /\ (forall d r, ds = d :: r -> b2z d = 48 -> r = []).

(** The map d holds, for every key, the last of its bindings in ps and nothing else. *)
Definition last_map (ps d : list (bytes * gval)) : Prop :=
  NoDup (map fst d) /\ forall k v, In (k, v) d <-> last_binding k ps = Some v.

(** [lenient v t]: the text t is read as the value v. *)
Inductive lenient : gval -> bytes -> Prop :=
| ln_str s ds : digits ds -> dvalue ds = zlen s -> zlen s <= max64 ->
    lenient (VStr s) (ds ++ [":"%byte] ++ s)
| ln_pos ds : int_digits ds -> dvalue ds <= max64 ->
    lenient (VInt KInt64 (dvalue ds)) (["i"%byte] ++ ds ++ ["e"%byte])
| ln_neg ds : int_digits ds -> dvalue ds <= max64 ->
    lenient (VInt KInt64 (- dvalue ds)) (["i"; "-"]%byte ++ ds ++ ["e"%byte])
| ln_list l t : lenient_seq l t -> lenient (VList l) (["l"%byte] ++ t ++ ["e"%byte])
| ln_dict ps d t : lenient_pairs ps t -> last_map ps d ->
    lenient (VDict d) (["d"%byte] ++ t ++ ["e"%byte])
with lenient_seq : list gval -> bytes -> Prop :=
| ln_nil : lenient_seq [] []
| ln_cons v l tv tl : lenient v tv -> lenient_seq l tl -> lenient_seq (v :: l) (tv ++ tl)
with lenient_pairs : list (bytes * gval) -> bytes -> Prop :=
| ln_pnil : lenient_pairs [] []
| ln_pcons k v ps tk tv tp : lenient (VStr k) tk -> lenient v tv -> lenient_pairs ps tp ->
    lenient_pairs ((k, v) :: ps) (tk ++ tv ++ tp).
