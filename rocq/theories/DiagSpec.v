(** DiagSpec.v: what the errors of Decode could mean. *)
From Verif Require Import Base BencodeModel DiagModel.

(** Data whose capacity is its length. *)
Definition whole (b : bytes) : gslice := mkslice b [].
(** Something can follow these bytes so that Decode has a value. *)
Definition viable (b : bytes) : Prop := exists x v, Decode (whole (b ++ x)) = Ok v.
(** No run of more than 18 digits (numbers of 18 digits fit into 63 bits). *)
Definition digits (b : bytes) : Prop := Forall (fun d => is_digit d = true) b.
Definition short_runs (b : bytes) : Prop := forall p ds s, b = p ++ ds ++ s -> digits ds -> (List.length ds <= 18)%nat.
(** The causes that name a byte. *)
Definition points (c : cause) : bool := match c with CString | CZero | CInt => true | _ => false end.
Definition same_error (c : cause) (e : goerr) : Prop :=
  match c with CString => e = EBadString | CZero => e = ELeadingZero | CInt => e = EBadInt | CAtoi _ | CParse _ => e = EAtoi | CPanic => e = EPanicked end.
(** The byte an error names, or where the bytes that cannot be helped end. *)
Definition read_to (c : cause) (k : Z) : Z := if points c then k + 1 else k.
(** The value of decimal digits. *)
Fixpoint amount (ds : bytes) : Z := match ds with [] => 0 | d :: t => (b2z d - 48) * 10 ^ zlen t + amount t end.
(** What stands in front of the cursor when the decoder stops there with [s] to go. *)
Definition accused (c : cause) (before s : bytes) : Prop :=
  match c with
  | CAtoi ds => digits ds /\ (exists p, before = p ++ ds ++ B ":") /\ (ds = [] \/ max64 < amount ds)
  | CParse ds => digits ds /\ (exists p, before = p ++ ds ++ B "e") /\ (ds = [] \/ max64 < amount ds)
  | CPanic => s = [] \/ exists p ds, digits ds /\ ds <> [] /\ before = p ++ ds ++ B ":" /\ zlen s < amount ds <= max64
  | CZero => (exists p, before = p ++ B "i0" \/ before = p ++ B "i-0") /\ exists b t, s = b :: t /\ b <> "e"%byte
  | CString => exists b t, s = b :: t /\ is_digit b = false /\ b <> ":"%byte
  | CInt => exists b t, s = b :: t /\ is_digit b = false /\ b <> "e"%byte
  end.
