(** PropsLenient.v: property theorems C75 (which texts Decode accepts) and C76 (what the message
    decoder does with input it rejects). *)
From Verif Require Import Base BencodeModel BencodeSpec LenientSpec LenientProofs.
From Verif Require Import BitfieldModel WireModel WireSpec WireStepSpec WireProofs WireStepProofs.

(** C75 *)
Theorem C75_accepts : forall v t junk sp,
  lenient v t -> exists w, Decode (mkslice (t ++ junk) sp) = Ok w /\ gperm v w.
Proof. exact Decode_complete. Qed.
Print Assumptions C75_accepts.
Theorem C75_only : forall data w,
  Decode data = Ok w ->
  (exists t junk, lenient w t /\ vis data = t ++ junk) \/
  (exists ds s1 s2 s3, digits ds /\ dvalue ds = zlen (s1 ++ s2) /\ zlen (s1 ++ s2) <= max64 /\ s2 <> [] /\
     vis data = ds ++ [":"%byte] ++ s1 /\ spare data = s2 ++ s3 /\ w = VStr (s1 ++ s2)).
Proof. exact Decode_reads. Qed.
Print Assumptions C75_only.
Theorem C75_overrun : forall ds s1 s2 s3,
  digits ds -> dvalue ds = zlen (s1 ++ s2) -> zlen (s1 ++ s2) <= max64 ->
  Decode (mkslice (ds ++ [":"%byte] ++ s1) (s2 ++ s3)) = Ok (VStr (s1 ++ s2)).
Proof. exact Decode_overrun. Qed.
Print Assumptions C75_overrun.
Theorem C75_unambiguous : forall v v' t t' junk junk',
  lenient v t -> lenient v' t' -> t ++ junk = t' ++ junk' ->
  t = t' /\ junk = junk' /\ exists w, gperm v w /\ gperm v' w.
Proof. exact lenient_unique. Qed.
Print Assumptions C75_unambiguous.
(** Not canonical, accepted: leading zeros in a length, "-0", keys out of order and repeated. *)
Definition loose_text : bytes := B "d001:bi-0e1:ai7e1:bl0:ee".
Example C75_case : exists w junk, Decode (mkslice (loose_text ++ junk) []) = Ok w /\
  w = VDict [(B "b", VList [VStr []]); (B "a", VInt KInt64 7)] /\ lenient w loose_text.
Proof.
  exists (VDict [(B "b", VList [VStr []]); (B "a", VInt KInt64 7)]), [].
  split; [vm_compute; reflexivity|]. split; [reflexivity|].
  change loose_text with (["d"%byte] ++
    ((B "001" ++ [":"%byte] ++ B "b") ++ (["i"; "-"]%byte ++ B "0" ++ ["e"%byte]) ++
     (B "1" ++ [":"%byte] ++ B "a") ++ (["i"%byte] ++ B "7" ++ ["e"%byte]) ++
     (B "1" ++ [":"%byte] ++ B "b") ++ (["l"%byte] ++ ((B "0" ++ [":"%byte] ++ []) ++ []) ++ ["e"%byte]) ++ []) ++ ["e"%byte]).
  assert (HD : forall s : bytes, s <> [] -> forallb (fun d => (48 <=? b2z d) && (b2z d <=? 57)) s = true -> digits s).
  { intros s Hn Hf. split; [assumption|]. apply Forall_forall. intros x Hx. rewrite forallb_forall in Hf.
    specialize (Hf x Hx). apply andb_true_iff in Hf. destruct Hf as [H1 H2]. apply Z.leb_le in H1, H2. auto. }
  assert (HI : forall c : byte, 48 <= b2z c <= 57 -> int_digits [c]).
  { intros c Hc. split; [split; [discriminate|repeat constructor; apply Hc]|]. intros d r E _. now injection E. }
  apply (ln_dict [(B "b", VInt KInt64 (- dvalue (B "0"))); (B "a", VInt KInt64 (dvalue (B "7"))); (B "b", VList [VStr []])]).
  - constructor; [|apply ln_neg|constructor; [|apply ln_pos|constructor; [| |constructor]]];
      try (apply HI; vm_compute; split; discriminate); try (vm_compute; discriminate).
    all: try (apply ln_str; [apply HD; [discriminate|reflexivity]|reflexivity|vm_compute; discriminate]).
    apply ln_list. constructor; [|constructor].
    apply ln_str; [apply HD; [discriminate|reflexivity]|reflexivity|vm_compute; discriminate].
  - split; [repeat constructor; cbn; intuition discriminate|].
    intros k v. cbn [last_binding In].
    destruct (bytes_dec k (B "b")) as [->|Hb]; [|destruct (bytes_dec k (B "a")) as [->|Ha]].
    + split; [intros [H|[H|[]]]; try congruence; discriminate H|intros H; left; congruence].
    + split; [intros [H|[H|[]]]; [discriminate H|]; injection H as <-; reflexivity|].
      intros H. right. left. injection H as <-. reflexivity.
    + split; [intros [H|[H|[]]]; congruence|discriminate].
Qed.
Theorem C75_canonical_only_refuted : exists t w,
  Decode (mkslice t []) = Ok w /\ forall m, ~ canonical m t.
Proof.
  exists (B "i-0e"), (VInt KInt64 0). split; [reflexivity|].
  intros m H. remember (B "i-0e") as t eqn:E.
  destruct H as [s ds Hd|n ds Hd|n ds Hd Hn|l t Hs|mm t Hs Hm]; [| | |discriminate E|discriminate E].
  - destruct Hd as (Hne & Hf & _). destruct ds as [|d ds]; [congruence|]. inversion Hf as [|? ? Hd _]; subst.
    cbn in E. injection E as -> _. vm_compute in Hd. destruct Hd as [_ Hd]. now apply Hd.
  - destruct Hd as (Hne & Hf & _). destruct ds as [|d ds]; [congruence|]. inversion Hf as [|? ? Hd _]; subst.
    cbn in E. injection E as -> _. vm_compute in Hd. destruct Hd as [Hd _]. now apply Hd.
  - cbn in E. destruct ds as [|a [|b ds]]; cbn in E; try discriminate E.
    + injection E as ->. destruct Hd as (_ & _ & _ & Hv). vm_compute in Hv. congruence.
    + injection E as _ _ E. now destruct ds.
Qed.
Print Assumptions C75_canonical_only_refuted.

(** C76 *)
Theorem C76_rejects : forall l sp k, zlen l < 4294967296 ->
  ((exists dr, DecodeMsg (mkslice l sp) = Ok dr /\ d_err dr <> None /\ d_read dr = k) <-> rejected l k).
Proof. exact Decode_rejects. Qed.
Print Assumptions C76_rejects.
Theorem C76_error_or_message : forall l sp dr, zlen l < 4294967296 ->
  DecodeMsg (mkslice l sp) = Ok dr -> (d_err dr <> None <-> d_msg dr = None).
Proof. exact Decode_error_no_msg. Qed.
Print Assumptions C76_error_or_message.
Theorem C76_after_error : forall ms, Forall not_piece ms -> Forall msg_ok ms ->
  exists ms', Forall2 same_msg ms ms' /\ forall l k sp f,
    zlen (stream ms ++ l) < 4294967296 -> l <> [] -> rejected l k ->
    DecodeAll (List.length ms + S f) (mkslice (stream ms ++ l) sp) =
    match DecodeAll f (mkslice (skipn (Z.to_nat k) l) sp) with
    | Ok (ms2, n2) => Ok (ms' ++ ms2, zlen (stream ms) + n2)
    | other => other
    end.
Proof. exact DecodeAll_after_error. Qed.
Print Assumptions C76_after_error.
Theorem C76_gives_up : forall ms l sp, Forall not_piece ms -> Forall msg_ok ms ->
  zlen (stream ms ++ l) < 4294967296 -> gives_up l ->
  exists ms', Forall2 same_msg ms ms' /\ forall fuel, (List.length ms + 1 < fuel)%nat ->
    DecodeAll fuel (mkslice (stream ms ++ l) sp) = Ok (ms', zlen (stream ms)).
Proof. exact DecodeAll_gives_up. Qed.
Print Assumptions C76_gives_up.
(** An extension message (id 20) hides the have that follows it. *)
Example C76_case : gives_up (frame 20 [x01] ++ wire_of (MHave 7)) /\
  DecodeAll 9 (mkslice (wire_of MUnchoke ++ frame 20 [x01] ++ wire_of (MHave 7)) []) = Ok ([MUnchoke], 5).
Proof.
  split; [|reflexivity]. right. exists 2. split; [lia|]. right. exists x14, (x01 :: wire_of (MHave 7)).
  split; [reflexivity|]. right. split; [reflexivity|]. split; [reflexivity|]. right. vm_compute. discriminate.
Qed.
(** After a have frame of the wrong length the decoder resumes 9 bytes on, inside that frame's
    payload (a message nobody sent) or inside the next frame (a message is lost). *)
Theorem C76_skips_frame_refuted :
  (exists p sp m, DecodeAll 9 (mkslice (frame 4 p) sp) = Ok ([m], 5)) /\
  (exists p m sp, msg_ok m /\ DecodeAll 9 (mkslice (frame 4 p ++ wire_of m) sp) = Ok ([], 0)).
Proof.
  split.
  - exists ([x00; x00; x00; x01] ++ wire_of MUnchoke)%byte, [], MUnchoke. reflexivity.
  - exists [], MUnchoke, []. split; [exact I|reflexivity].
Qed.
Print Assumptions C76_skips_frame_refuted.
