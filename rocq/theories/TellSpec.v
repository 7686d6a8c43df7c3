(** TellSpec.v: what is wrong with a frame, a bitfield's length, a value to be encoded. *)
From Verif Require Import Base BencodeModel BencodeSpec WireModel TellModel.

(** Frames: a length of four bytes, an id, a payload. *)
Definition frame (d : bytes) (m t : Z) (rest : bytes) : Prop := d = be32 m ++ [z2b t] ++ rest /\ 1 <= m < 2 ^ 32 /\ 0 <= t < 256.
(** All of the payload is there. *)
Definition full (d : bytes) (m : Z) : Prop := 4 + m <= zlen d.
Definition frame_amiss (d : bytes) (f : fault) : Prop :=
  match f with
  | FShort n => n = zlen d /\ n < 4
  | FFive n => n = 4 /\ zlen d = 4 /\ d <> be32 0
  | FPlain m => exists t rest, frame d m t rest /\ t <= 3 /\ m <> 1
  | FCut m n => exists t rest, frame d m t rest /\ 4 <= t /\ m < 2 ^ 32 - 4 /\ ~ full d m /\ n = zlen d
  | FHave n => exists rest, frame d (n + 1) 4 rest /\ full d (n + 1) /\ n <> 4
  | FRequest n => exists rest, frame d (n + 1) 6 rest /\ full d (n + 1) /\ n <> 12
  | FUnknown t => exists m rest, frame d m t rest /\ full d m /\ 8 <= t
  | FEmptyBits => exists rest, frame d 1 5 rest
  | _ => False
  end.
(** Values: the first one, in the order of the text, that has no encoding. *)
Inductive unfit (t : bytes) : gval -> fault -> Prop :=
| un_other : unfit t VOther (FType t)
| un_str : unfit t (VStr []) FEmpty
| un_list pre x post f : Forall encodable pre -> unfit t x f -> unfit t (VList (pre ++ x :: post)) f
| un_key d pre x post : Permutation d (pre ++ ([], x) :: post) -> StronglySorted key_lt (map fst (pre ++ ([], x) :: post)) -> unfit t (VDict d) FEmpty
| un_value d pre k x post f : Permutation d (pre ++ (k, x) :: post) -> StronglySorted key_lt (map fst (pre ++ (k, x) :: post)) ->
    Forall (fun kv => fst kv <> [] /\ encodable (snd kv)) pre -> k <> [] -> unfit t x f -> unfit t (VDict d) f.
