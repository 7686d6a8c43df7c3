(** BencodeSpec.v: what bencoding is (BEP 3), independent of the code.
    Only the type [gval] of Go values is taken from the model. *)
From Verif Require Import Base BencodeModel.
From Coq Require Export Permutation Sorted.

(** ** Abstract values and their canonical text *)

Inductive bval :=
| BStr (s : bytes)
| BInt (z : Z)
| BList (l : list bval)
| BDict (m : list (bytes * bval)).   (* a finite map, written in increasing key order *)

(** [decimal ds n]: ds is the decimal text of n >= 0 without leading zeros. *)
Definition dvalue (ds : bytes) : Z := fold_left (fun a d => 10 * a + (b2z d - 48)) ds 0.
Definition decimal (ds : bytes) (n : Z) : Prop :=
  ds <> [] /\
  Forall (fun d => 48 <= b2z d <= 57) ds /\
  (forall d r, ds = d :: r -> b2z d = 48 -> r = []) /\
  dvalue ds = n.

(** Bytewise lexicographic order on keys. *)
Inductive key_lt : bytes -> bytes -> Prop :=
| key_lt_nil y b : key_lt [] (y :: b)
| key_lt_head x y a b : b2z x < b2z y -> key_lt (x :: a) (y :: b)
| key_lt_tail x a b : key_lt a b -> key_lt (x :: a) (x :: b).

(** [canonical v t]: t is the canonical bencoding of v. *)
Inductive canonical : bval -> bytes -> Prop :=
| can_str s ds : decimal ds (zlen s) -> canonical (BStr s) (ds ++ [":"%byte] ++ s)
| can_pos n ds : decimal ds n -> canonical (BInt n) (["i"%byte] ++ ds ++ ["e"%byte])
| can_neg n ds : decimal ds n -> n <> 0 ->
    canonical (BInt (- n)) (["i"; "-"]%byte ++ ds ++ ["e"%byte])
| can_list l t : canonical_seq l t -> canonical (BList l) (["l"%byte] ++ t ++ ["e"%byte])
| can_dict m t : StronglySorted key_lt (map fst m) -> canonical_map m t ->
    canonical (BDict m) (["d"%byte] ++ t ++ ["e"%byte])
with canonical_seq : list bval -> bytes -> Prop :=
| can_nil : canonical_seq [] []
| can_cons v l tv tl : canonical v tv -> canonical_seq l tl -> canonical_seq (v :: l) (tv ++ tl)
with canonical_map : list (bytes * bval) -> bytes -> Prop :=
| can_mnil : canonical_map [] []
| can_mcons k v m tk tv tm : canonical (BStr k) tk -> canonical v tv -> canonical_map m tm ->
    canonical_map ((k, v) :: m) (tk ++ tv ++ tm).

(** ** Go values *)

Definition in_kind (k : ikind) (z : Z) : Prop :=
  match k with
  | KInt | KInt64 => min64 <= z <= max64
  | KInt8 => -128 <= z <= 127
  | KInt16 => -32768 <= z <= 32767
  | KInt32 => -2147483648 <= z <= 2147483647
  end.

(** What every Go value satisfies: integers fit their type, lengths fit an int, a map
    has distinct keys. *)
Inductive go_wf : gval -> Prop :=
| wf_str s : zlen s <= max64 -> go_wf (VStr s)
| wf_int k z : in_kind k z -> go_wf (VInt k z)
| wf_dict d : NoDup (map fst d) -> Forall (fun kv => zlen (fst kv) <= max64) d ->
    Forall (fun kv => go_wf (snd kv)) d -> go_wf (VDict d)
| wf_list l : Forall go_wf l -> go_wf (VList l)
| wf_other : go_wf VOther.

(** [denotes v m]: the Go value v has contents m (integer width and map order aside). *)
Inductive denotes : gval -> bval -> Prop :=
| den_str s : denotes (VStr s) (BStr s)
| den_int k z : denotes (VInt k z) (BInt z)
| den_list l m : Forall2 denotes l m -> denotes (VList l) (BList m)
| den_dict d d' m : Permutation d d' -> StronglySorted key_lt (map fst m) ->
    Forall2 (fun kv km => fst kv = fst km /\ denotes (snd kv) (snd km)) d' m ->
    denotes (VDict d) (BDict m).

(** Same value up to map iteration order, at every level. *)
Inductive gperm : gval -> gval -> Prop :=
| gp_str s : gperm (VStr s) (VStr s)
| gp_int k z : gperm (VInt k z) (VInt k z)
| gp_list l l' : Forall2 gperm l l' -> gperm (VList l) (VList l')
| gp_dict d d' e : Permutation d d' ->
    Forall2 (fun a b => fst a = fst b /\ gperm (snd a) (snd b)) d' e -> gperm (VDict d) (VDict e)
| gp_other : gperm VOther VOther.

(** Values the encoder should accept: no unsupported type, no empty string or key. *)
Inductive encodable : gval -> Prop :=
| en_str s : s <> [] -> encodable (VStr s)
| en_int k z : encodable (VInt k z)
| en_list l : Forall encodable l -> encodable (VList l)
| en_dict d : Forall (fun kv => fst kv <> [] /\ encodable (snd kv)) d -> encodable (VDict d).

(** Every integer inside has type int64. *)
Inductive all_int64 : gval -> Prop :=
| a64_str s : all_int64 (VStr s)
| a64_int z : all_int64 (VInt KInt64 z)
| a64_list l : Forall all_int64 l -> all_int64 (VList l)
| a64_dict d : Forall (fun kv => all_int64 (snd kv)) d -> all_int64 (VDict d).

(** Ranges a 64-bit decoder can represent: strings shorter than 2^63, integers
    strictly between -2^63 and 2^63. *)
Inductive representable : bval -> Prop :=
| rp_str s : zlen s <= max64 -> representable (BStr s)
| rp_int z : min64 < z <= max64 -> representable (BInt z)
| rp_list l : Forall representable l -> representable (BList l)
| rp_dict m : Forall (fun kv => zlen (fst kv) <= max64 /\ representable (snd kv)) m -> representable (BDict m).

(** No empty string anywhere, keys included. *)
Inductive no_empty : bval -> Prop :=
| ne_str s : s <> [] -> no_empty (BStr s)
| ne_int z : no_empty (BInt z)
| ne_list l : Forall no_empty l -> no_empty (BList l)
| ne_dict m : Forall (fun kv => fst kv <> [] /\ no_empty (snd kv)) m -> no_empty (BDict m).

(** No integer equal to -2^63. *)
Inductive no_min64 : gval -> Prop :=
| nm_str s : no_min64 (VStr s)
| nm_int k z : z <> min64 -> no_min64 (VInt k z)
| nm_list l : Forall no_min64 l -> no_min64 (VList l)
| nm_dict d : Forall (fun kv => no_min64 (snd kv)) d -> no_min64 (VDict d)
| nm_other : no_min64 VOther.

(** The value of the last binding of a key in a list of bindings. *)
Fixpoint last_binding {A} (k : bytes) (l : list (bytes * A)) : option A :=
  match l with
  | [] => None
  | (k', v) :: r => match last_binding k r with
                    | Some x => Some x
                    | None => if bytes_dec k k' then Some v else None
                    end
  end.
