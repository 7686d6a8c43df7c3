(** PropsPhs.v: the list of handlers that runListener keeps (C100). *)
From Coq Require Import ZifyBool ZifyNat ZifyN.
From Verif Require Import Base PhsModel PhsSpec PhsProofs.

(* ------------------------------------------------------------------ *)
(** * C100 Handlers appended without a lock *)
(** One after the other they are all kept, in order, *)
Theorem C100_one_by_one : forall grow keep ls s, makes_room grow -> one_by_one grow keep ls -> xrun grow keep ls made = Some s -> quiet s -> listed s = map Some (seq 0 (begun ls)).
Proof. exact serial_kept. Qed.
Print Assumptions C100_one_by_one.
(** and no access is outside of the arrays. *)
Theorem C100_one_by_one_safe : forall grow keep ls l s, makes_room grow -> one_by_one grow keep ls -> xrun grow keep ls made = Some s -> xstep grow keep l s <> XWild.
Proof. exact serial_safe. Qed.
Print Assumptions C100_one_by_one_safe.
(** In no interleaving does the list get longer than the number of connections. *)
Theorem C100_length : forall grow keep ls s, xrun grow keep ls made = Some s -> (x_len s <= begun ls)%nat.
Proof. exact len_bound. Qed.
Print Assumptions C100_length.
(** With at most five connections no interleaving accesses anything outside of the arrays. *)
Theorem C100_five_safe : forall grow keep ls l s, makes_room grow -> xrun grow keep ls made = Some s -> (begun (ls ++ [l]) <= 5)%nat -> xstep grow keep l s <> XWild.
Proof. exact five_safe. Qed.
Print Assumptions C100_five_safe.
(** An append is over after at most nine steps of its own, is never held up by the others, and with at most five connections comes to its end. *)
Theorem C100_steps : forall grow keep ls s k, xrun grow keep ls made = Some s -> (steps_of k ls <= 9)%nat /\ (steps_of k ls = 9%nat -> nth_error (x_go s) k = Some XDone).
Proof. exact steps_nine. Qed.
Print Assumptions C100_steps.
Theorem C100_never_waits : forall grow keep s k a, nth_error (x_go s) k = Some a -> a <> XDone -> exists o, xstep grow keep (XGo k o) s <> XBlocked.
Proof. exact never_waits. Qed.
Print Assumptions C100_never_waits.
Theorem C100_five_finish : forall grow keep ls s k, makes_room grow -> xrun grow keep ls made = Some s -> (begun ls <= 5)%nat -> (k < begun ls)%nat ->
  exists ops s', xrun grow keep (map (XGo k) ops) s = Some s' /\ nth_error (x_go s') k = Some XDone.
Proof. exact five_finish. Qed.
Print Assumptions C100_five_finish.

(** growslice doubles small capacities; the compiler stores capacity, pointer, length, element in this order. *)
Definition twice (c n : nat) : nat := Nat.max n (2 * c).
Definition begins_append (k : nat) : list xlabel := map (XGo k) [XPtr; XLen; XCap; XRoom].
Definition appends (k : nat) : list xlabel := XStart :: begins_append k ++ map (XGo k) [XPutLen; XPutElem; XRet].
Definition four : list xlabel := flat_map appends (seq 0 4).
(** The sixth loads the words between the fifth's stores of the new capacity and the new pointer. *)
Definition torn : list xlabel := four ++ [XStart; XStart] ++ begins_append 4 ++ [XGo 4 XPutCap] ++ begins_append 5 ++ [XGo 5 XPutLen].
Theorem C100_safe_refuted : exists ls l s, makes_room twice /\ xrun twice false ls made = Some s /\ begun (ls ++ [l]) = 6%nat /\ xstep twice false l s = XWild.
Proof.
  exists torn, (XGo 5 XPutElem). destruct (xrun twice false torn made) as [s|] eqn:E.
  - exists s. split; [intros c n; unfold twice; lia|]. split; [reflexivity|]. split; [vm_compute; reflexivity|].
    assert (H : match xrun twice false torn made with Some s => xstep twice false (XGo 5 XPutElem) s | None => XBlocked end = XWild) by (vm_compute; reflexivity). rewrite E in H. exact H.
  - assert (H : match xrun twice false torn made with Some s => true | None => false end = true) by (vm_compute; reflexivity). rewrite E in H. discriminate.
Qed.
Print Assumptions C100_safe_refuted.
(** Of two that overlap one can be lost. *)
Definition overlap : list xlabel := [XStart; XStart] ++ begins_append 0 ++ begins_append 1 ++ map (XGo 0) [XPutLen; XPutElem; XRet] ++ map (XGo 1) [XPutLen; XPutElem; XRet].
Theorem C100_kept_refuted : exists ls s, xrun twice false ls made = Some s /\ quiet s /\ begun ls = 2%nat /\ listed s = [Some 1%nat].
Proof. eexists overlap, _. split; [vm_compute; reflexivity|]. split; [repeat constructor|]. split; reflexivity. Qed.
Print Assumptions C100_kept_refuted.

(** Five in turn: the fifth takes a larger array. *)
Definition five : list xlabel := four ++ XStart :: begins_append 4 ++ map (XGo 4) [XPutCap; XPutPtr; XPutLen; XPutElem; XRet].
Example C100_case : makes_room twice /\ one_by_one twice false five /\ exists s, xrun twice false five made = Some s /\ quiet s /\ x_ptr s = 1%nat /\ x_cap s = 8%nat /\ listed s = map Some [0; 1; 2; 3; 4]%nat.
Proof.
  split; [intros c n; unfold twice; lia|]. split; [unfold one_by_one; apply in_turn_ok; vm_compute; reflexivity|].
  eexists. split; [vm_compute; reflexivity|]. split; [repeat constructor|]. repeat split.
Qed.
Example C100_case_steps : steps_of 4 five = 9%nat /\ steps_of 1 five = 7%nat /\ begun five = 5%nat.
Proof. vm_compute. repeat split. Qed.
