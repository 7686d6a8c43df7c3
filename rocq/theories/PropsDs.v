(** PropsDs.v: the data structures of src/utils/ds (C62, C63). *)
From Coq Require Import Permutation.
From Verif Require Import Base DsModel DsSpec DsProofs.

(** C62: k lists sharing the nodes of one heap. *)
Theorem C62_lists : forall (T : Type) k (ops : list (lop T)), let a := arun (mkal [] (repeat [] k)) ops in
  avalid_all (mkal [] (repeat [] k)) ops ->
  exists h ls, lrun ([], repeat MakeList k) ops = Ok (h, ls) /\ List.length ls = k /\ map ndata h = al_data a /\ NoDup (List.concat (al_seqs a)) /\
    forall j ll, nth_error ls j = Some ll ->
      walk (List.length h) h (lhead ll) = Ok (seq_of a j) /\ lsize ll = zlen (seq_of a j) /\
      (forall i n, nth_error (seq_of a j) i = Some n ->
        Next h n = Ok (nth_error (seq_of a j) (S i)) /\ Prev h n = Ok (match i with O => None | S i' => nth_error (seq_of a j) i' end)).
Proof. exact @lists_top. Qed.
Print Assumptions C62_lists.
(** Two lists: move the middle node of the first one to the second, then the others. *)
Definition sample_lops : list (lop Z) := [LAddData 0 10; LAddData 0 11; LAddData 0 12; LRemove 0 1; LAddNode 1 1; LRemove 0 2; LAddNode 1 2].
Example C62_case : avalid_all (mkal [] (repeat [] 2)) sample_lops /\ al_seqs (arun (mkal [] (repeat [] 2)) sample_lops) = [[0%nat]; [2%nat; 1%nat]].
Proof. split; [|reflexivity]. vm_compute. repeat split; auto; try lia; intuition discriminate. Qed.
(** Outside that domain: Remove on a one-element list drops its element whichever node is passed. *)
Theorem C62_remove_checks_nothing : forall (T : Type) (h : heap T) ll n, lsize ll = 1 -> (n < List.length h)%nat ->
  exists h', Remove h ll n = Ok (h', MakeList).
Proof.
  intros T h ll n H Hn. unfold Remove. rewrite H. cbn [Z.eqb Pos.eqb]. destruct (nth_error h n) as [x|] eqn:E; [|apply nth_error_None in E; lia].
  rewrite (hput_ok _ _ _ _ E). cbn [bind]. rewrite (hput_ok _ _ _ _ (lupd_this _ _ _ _ E)). cbn [bind]. eexists. reflexivity.
Qed.
Print Assumptions C62_remove_checks_nothing.
Example C62_checks_case : let s := lrun ([], repeat MakeList 2) [LAddData 0 10; LAddData 1 11] in
  exists h ls ll, s = Ok (h, ls) /\ nth_error ls 0 = Some ll /\ lsize ll = 1 /\ (1 < List.length h)%nat /\ lhead ll = Some 0%nat.
Proof. eexists _, _, _. split; [vm_compute; reflexivity|]. vm_compute. repeat split; auto. Qed.

(** C63 *)
Theorem C63_set : forall (T : Type) (key : T -> bytes) ops, let s := srun key ops in let have k := held key (rev ops) k in
  (forall x, Has key s x = true <-> have (key x) <> None) /\
  (forall x, fst (Add key s x) = true <-> have (key x) = None) /\
  (forall x, fst (SetRemove key s x) = true <-> have (key x) <> None) /\
  (exists ks, NoDup ks /\ (forall k, In k ks <-> have k <> None) /\ Size s = zlen ks).
Proof. exact @set_top. Qed.
Print Assumptions C63_set.
Theorem C63_Items : forall (T : Type) (key : T -> bytes) zero order ops, (forall l : list T, Permutation (order l) l) -> let s := srun key ops in
  exists xs, Items zero order s = repeat zero (Z.to_nat (Size s)) ++ xs /\ zlen xs = Size s /\
    (forall x, In x xs <-> held key (rev ops) (key x) = Some x) /\ NoDup (map key xs).
Proof. exact @items_top. Qed.
Print Assumptions C63_Items.
Theorem C63_Items_refuted : exists (ops : list (sop (bytes * Z))), let s := srun fst ops in
  Size s = 1 /\ zlen (Items ([], 0) (fun l => l) s) = 2.
Proof. exists [SAdd (B "a", 1)]. vm_compute. auto. Qed.
Print Assumptions C63_Items_refuted.
Example C63_case : let ops := [SAdd (B "a", 1); SAdd (B "b", 2); SAdd (B "a", 3); SRem (B "b", 9)] in
  held fst (rev ops) (B "a") = Some (B "a", 1) /\ held fst (rev ops) (B "b") = None /\
  Items ([], 0) (fun l => l) (srun fst ops) = [([], 0); (B "a", 1)].
Proof. vm_compute. auto. Qed.
