(** Base.v: bytes, Go integers, call outcomes, byte slices.
    These are the modelling conventions shared by every model file; see DESIGN.md. *)
From Coq Require Export List ZArith Lia Bool Arith.
From Coq Require Export Init.Byte Strings.Byte.
From Coq Require Export Strings.String.
From Coq Require Import ZifyBool ZifyNat ZifyN.
Export ListNotations.
Close Scope string_scope.
Open Scope list_scope.
Open Scope Z_scope.

Definition bytes := list byte.

(** Text literals: the bytes of an ASCII string constant in the Go source. *)
Definition B (s : string) : bytes := list_byte_of_string s.

(** A byte as a number, and uint8(z): the low 8 bits of z. *)
Definition b2z (b : byte) : Z := Z.of_N (Byte.to_N b).
Definition z2b (z : Z) : byte :=
  match Byte.of_N (Z.to_N (z mod 256)) with Some b => b | None => x00 end.

(** Go's fixed-width conversions. *)
Definition u16 (z : Z) : Z := z mod 65536.
Definition u32 (z : Z) : Z := z mod 4294967296.
Definition u64 (z : Z) : Z := z mod 18446744073709551616.
Definition max64 : Z := 9223372036854775807.
Definition min64 : Z := -9223372036854775808.
Definition i64 (z : Z) : Z := (z - min64) mod 18446744073709551616 + min64.

(** Errors are an enumeration: the Go code only distinguishes nil from non-nil,
    except for the two Dict errors. *)
Inductive goerr :=
| EUnsupported      (* encoder: unsupported bencoding type *)
| EEmptyString      (* encoder: cannot encode an empty string *)
| EPanicked         (* a recovered panic turned into an error *)
| EBadString | EBadInt | ELeadingZero | EAtoi | ENotDict
| EMissingKey | EBadType
| EBounds           (* index/size check failed *)
| EBadMessage | EUnknownType | EBadHash | EPath | EClosed | EEOF | EIO
| EHandshake | EFail (reason : bytes) | EInvalid.

(** Outcome of a Go call. [NoFuel] = the explicit iteration bound of a modelled
    loop was exhausted; it is never a normal outcome. *)
Inductive res (A : Type) :=
| Ok (a : A)
| Err (e : goerr)
| Panic
| NoFuel.
Arguments Ok {A} a. Arguments Err {A} e. Arguments Panic {A}. Arguments NoFuel {A}.

Definition bind {A B} (m : res A) (f : A -> res B) : res B :=
  match m with Ok a => f a | Err e => Err e | Panic => Panic | NoFuel => NoFuel end.
Notation "'do' x <- m ; k" := (bind m (fun x => k))
  (at level 200, x binder, m at level 100, k at level 200).
Notation "'do' ' p <- m ; k" := (bind m (fun x => match x with p => k end))
  (at level 200, p pattern, m at level 100, k at level 200).

Definition zlen {A} (l : list A) : Z := Z.of_nat (List.length l).

(** [sub l lo n]: the n elements starting at lo (fewer if the list ends). *)
Definition sub {A} (l : list A) (lo n : nat) : list A := firstn n (skipn lo l).

(** A Go byte slice with its spare capacity: [vis] = the bytes 0..len-1,
    [spare] = the bytes len..cap-1 of the same backing array. *)
Record gslice := mkslice { vis : bytes; spare : bytes }.
Definition slen (s : gslice) : Z := zlen (vis s).
Definition scap (s : gslice) : Z := zlen (vis s) + zlen (spare s).

(** s[i] : index checked against len. *)
Definition sindex (s : gslice) (i : Z) : res byte :=
  if (0 <=? i) && (i <? slen s) then
    match nth_error (vis s) (Z.to_nat i) with Some b => Ok b | None => Panic end
  else Panic.

(** s[lo:hi] : bounds checked against cap (Go spec, slice expressions). *)
Definition sslice (s : gslice) (lo hi : Z) : res gslice :=
  if (0 <=? lo) && (lo <=? hi) && (hi <=? scap s) then
    let back := vis s ++ spare s in
    Ok (mkslice (sub back (Z.to_nat lo) (Z.to_nat (hi - lo))) (skipn (Z.to_nat hi) back))
  else Panic.

(** s[lo:] = s[lo:len(s)]. *)
Definition sfrom (s : gslice) (lo : Z) : res gslice := sslice s lo (slen s).

(** encoding/binary BigEndian.PutUint32 / Uint32 / Uint16. *)
Definition be32 (z : Z) : bytes :=
  [z2b (z / 16777216); z2b (z / 65536); z2b (z / 256); z2b z].
Definition rd32 (s : bytes) : res Z :=
  match s with
  | a :: b :: c :: d :: _ => Ok (b2z a * 16777216 + b2z b * 65536 + b2z c * 256 + b2z d)
  | _ => Panic
  end.
Definition be16 (z : Z) : bytes := [z2b (z / 256); z2b z].
Definition rd16 (s : bytes) : res Z :=
  match s with a :: b :: _ => Ok (b2z a * 256 + b2z b) | _ => Panic end.

(** Byte-string equality (Go == on strings). *)
Fixpoint beqb (a b : bytes) : bool :=
  match a, b with
  | [], [] => true
  | x :: a', y :: b' => Byte.eqb x y && beqb a' b'
  | _, _ => false
  end.

(* ------------------------------------------------------------------ *)
(** Lemmas. *)

Lemma b2z_range b : 0 <= b2z b < 256.
Proof. unfold b2z. pose proof (Byte.to_N_bounded b). lia. Qed.

Lemma z2b_b2z b : z2b (b2z b) = b.
Proof.
  unfold z2b. pose proof (b2z_range b). rewrite Z.mod_small by lia.
  unfold b2z. rewrite N2Z.id, Byte.of_to_N. reflexivity.
Qed.

Lemma b2z_z2b z : b2z (z2b z) = z mod 256.
Proof.
  unfold z2b, b2z. pose proof (Z.mod_pos_bound z 256 ltac:(lia)) as Hr.
  destruct (Byte.of_N (Z.to_N (z mod 256))) as [b|] eqn:E.
  - apply Byte.to_of_N in E. rewrite E. lia.
  - apply Byte.of_N_None_iff in E. lia.
Qed.

Lemma b2z_inj a b : b2z a = b2z b -> a = b.
Proof. intros H. rewrite <- (z2b_b2z a), <- (z2b_b2z b). now rewrite H. Qed.

Lemma beqb_eq a b : beqb a b = true <-> a = b.
Proof.
  revert b; induction a as [|x a IH]; intros [|y b]; simpl; split; intros H;
    try discriminate; try reflexivity.
  - apply andb_true_iff in H as [H1 H2]. apply byte_dec_bl in H1. apply IH in H2. congruence.
  - inversion H; subst. rewrite (byte_dec_lb eq_refl). now apply IH.
Qed.

Lemma beqb_refl a : beqb a a = true.
Proof. now apply beqb_eq. Qed.

Lemma beqb_neq a b : beqb a b = false <-> a <> b.
Proof.
  destruct (beqb a b) eqn:E; split; intros H; try congruence.
  - apply beqb_eq in E; congruence.
  - intros ->. rewrite beqb_refl in E; discriminate.
Qed.

Lemma bytes_dec (a b : bytes) : {a = b} + {a <> b}.
Proof. apply list_eq_dec, byte_eq_dec. Defined.

Lemma Byte_eqb_eq a b : Byte.eqb a b = true <-> a = b.
Proof. split; [apply byte_dec_bl | apply byte_dec_lb]. Qed.

Lemma Byte_eqb_neq a b : Byte.eqb a b = false <-> a <> b.
Proof.
  destruct (Byte.eqb a b) eqn:E; split; intros H; try congruence.
  - apply Byte_eqb_eq in E; congruence.
  - intros ->. assert (Byte.eqb b b = true) by now apply Byte_eqb_eq. congruence.
Qed.

Lemma zlen_app {A} (a b : list A) : zlen (a ++ b) = zlen a + zlen b.
Proof. unfold zlen. rewrite app_length. lia. Qed.
Lemma zlen_nonneg {A} (a : list A) : 0 <= zlen a.
Proof. unfold zlen; lia. Qed.
Lemma zlen_cons {A} (x : A) l : zlen (x :: l) = 1 + zlen l.
Proof. unfold zlen. cbn [List.length]. lia. Qed.
Lemma zlen_nil {A} : zlen (@nil A) = 0.
Proof. reflexivity. Qed.

Lemma rd32_range s v : rd32 s = Ok v -> 0 <= v < 4294967296.
Proof.
  unfold rd32. destruct s as [|a [|b [|c [|d s]]]]; try discriminate.
  intros H; injection H as H.
  pose proof (b2z_range a); pose proof (b2z_range b); pose proof (b2z_range c); pose proof (b2z_range d). lia.
Qed.

Lemma rd32_be32 z r : 0 <= z < 4294967296 -> rd32 (be32 z ++ r) = Ok z.
Proof.
  intros H. unfold be32, rd32. cbn [app]. f_equal. rewrite !b2z_z2b.
  Z.div_mod_to_equations. lia.
Qed.

Lemma rd32_be32_mod z r : rd32 (be32 z ++ r) = Ok (u32 z).
Proof.
  unfold be32, rd32, u32. cbn [app]. f_equal. rewrite !b2z_z2b.
  Z.div_mod_to_equations. lia.
Qed.

Lemma be32_rd32 a b c d r v : rd32 (a :: b :: c :: d :: r) = Ok v -> be32 v = [a; b; c; d].
Proof.
  unfold rd32, be32. intros H; injection H as <-.
  pose proof (b2z_range a); pose proof (b2z_range b); pose proof (b2z_range c); pose proof (b2z_range d).
  repeat (apply f_equal2; [apply b2z_inj; rewrite b2z_z2b; Z.div_mod_to_equations; lia|]).
  reflexivity.
Qed.

Lemma rd32_ok_len s v : rd32 s = Ok v -> 4 <= zlen s.
Proof.
  destruct s as [|a [|b [|c [|d s]]]]; try discriminate. intros _. rewrite !zlen_cons.
  pose proof (zlen_nonneg s). lia.
Qed.

Lemma be32_length z : List.length (be32 z) = 4%nat.
Proof. reflexivity. Qed.

Lemma rd16_be16 z r : 0 <= z < 65536 -> rd16 (be16 z ++ r) = Ok z.
Proof.
  intros H. unfold be16, rd16. cbn [app]. f_equal. rewrite !b2z_z2b.
  Z.div_mod_to_equations. lia.
Qed.

Lemma i64_id z : min64 <= z <= max64 -> i64 z = z.
Proof. unfold i64, min64, max64. intros H. rewrite Z.mod_small; lia. Qed.

Lemma i64_range z : min64 <= i64 z <= max64.
Proof. unfold i64, min64, max64. pose proof (Z.mod_pos_bound (z - -9223372036854775808) 18446744073709551616 ltac:(lia)). lia. Qed.

Lemma sub_length {A} (l : list A) lo n :
  List.length (sub l lo n) = Nat.min n (List.length l - lo).
Proof. unfold sub. rewrite firstn_length, skipn_length. reflexivity. Qed.

Lemma sub_app_l {A} (l1 l2 : list A) lo n :
  (lo + n <= List.length l1)%nat -> sub (l1 ++ l2) lo n = sub l1 lo n.
Proof.
  intros H. unfold sub. rewrite skipn_app.
  rewrite firstn_app, skipn_length.
  replace (n - (List.length l1 - lo))%nat with 0%nat by lia.
  rewrite firstn_O, app_nil_r. reflexivity.
Qed.

Lemma sub_all {A} (l : list A) : sub l 0 (List.length l) = l.
Proof. unfold sub. rewrite skipn_O. apply firstn_all. Qed.

Lemma bind_ok {A C} (m : res A) (f : A -> res C) c :
  bind m f = Ok c -> exists a, m = Ok a /\ f a = Ok c.
Proof. destruct m; simpl; intros H; try discriminate. eauto. Qed.

(** ** Point update and lists of all bytes *)

Fixpoint lupd {A} (l : list A) (n : nat) (x : A) : list A :=
  match l, n with
  | [], _ => []
  | _ :: r, O => x :: r
  | y :: r, S n' => y :: lupd r n' x
  end.

Lemma lupd_length {A} (l : list A) n x : List.length (lupd l n x) = List.length l.
Proof. revert n; induction l as [|y l IH]; intros [|n]; cbn; auto. Qed.

Lemma nth_error_lupd {A} (l : list A) n x k :
  nth_error (lupd l n x) k = if (Nat.eqb k n && Nat.ltb n (List.length l))%bool then Some x else nth_error l k.
Proof.
  revert n k; induction l as [|y l IH]; intros [|n] [|k]; cbn [lupd nth_error List.length]; try reflexivity.
  - now rewrite Bool.andb_false_r.
  - rewrite IH. reflexivity.
Qed.

Lemma nth_lupd {A} (l : list A) n x k d :
  nth k (lupd l n x) d = if (Nat.eqb k n && Nat.ltb n (List.length l))%bool then x else nth k l d.
Proof.
  revert n k; induction l as [|y l IH]; intros [|n] [|k]; cbn [lupd nth List.length]; try reflexivity.
  - now rewrite Bool.andb_false_r.
  - rewrite IH. reflexivity.
Qed.

Definition all_bytes : list byte := map (fun n => z2b (Z.of_nat n)) (seq 0 256).

Lemma all_bytes_in b : In b all_bytes.
Proof.
  unfold all_bytes. apply in_map_iff. exists (Z.to_nat (b2z b)). pose proof (b2z_range b).
  split; [rewrite Z2Nat.id by lia; apply z2b_b2z|]. apply in_seq. lia.
Qed.

Lemma byte_sweep (P : byte -> bool) : forallb P all_bytes = true -> forall b, P b = true.
Proof. intros H b. rewrite forallb_forall in H. apply H, all_bytes_in. Qed.
