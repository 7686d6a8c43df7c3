(** LogProofs.v: proofs about LogModel. *)
From Coq Require Import ZifyBool ZifyNat ZifyN.
From Verif Require Import Base BencodeModel BitfieldModel BitfieldSpec WireModel WireSpec WireProofs HandshakeModel HandshakeSpec LayoutModel LayoutSpec DsModel PptModel PeerModel UtilsModel TrackerModel FsModel FsSpec SwarmModel SwarmProofs SessionModel SessionSpec RunModel RunSpec RunProofs ProcModel ProcSpec ProcProofs ProcLiveProofs ProcSockProofs StartModel LogModel LogSpec.
From Verif Require LoopModel ReadLoopModel.
Local Opaque decode_fuel RecvBufSize.

Lemma count_app f a b : count f (a ++ b) = (count f a + count f b)%nat.
Proof. unfold count. rewrite filter_app, app_length. reflexivity. Qed.
Lemma decodes_app a b : decodes (a ++ b) = decodes a ++ decodes b.
Proof. unfold decodes. apply flat_map_app. Qed.
Lemma lines_by_app k a b : lines_by k (a ++ b) = lines_by k a ++ lines_by k b.
Proof. unfold lines_by. apply flat_map_app. Qed.
Lemma lines_by_tag k j l : lines_by k (map (pair (Some j)) l) = if Nat.eqb j k then l else [].
Proof. induction l as [|x l IH]; [destruct (Nat.eqb j k); reflexivity|]. cbn [map]. change (lines_by k ((Some j, x) :: map (pair (Some j)) l)) with ((if Nat.eqb j k then [x] else []) ++ lines_by k (map (pair (Some j)) l)). rewrite IH. destruct (Nat.eqb j k); reflexivity. Qed.
Lemma lines_by_none k l : lines_by k (map (pair None) l) = [].
Proof. induction l as [|x l IH]; [reflexivity|exact IH]. Qed.

(** ** One handler *)
(** Between Run, chBuf, recvLoop and chReady there is one token. *)
Definition busyv (v : vat) : bool := match v with VGot | VWork | VWrite | VLock | VSpin | VAdd | VSend | VHang | VReady _ => true | _ => false end.
Definition tok (g : gconn) : Prop :=
  let h := g_c g in let v := a_recv (g_a g) in
  List.length (c_mem h) = RecvBufSize /\
  match c_read h with
  | ReadLoopModel.RSelect => c_got h <> [] /\ (b2n (match c_buf h with Some _ => true | None => false end) + b2n (busyv v) + b2n (c_ready h) = 1)%nat
  | ReadLoopModel.REnd => busyv v = false /\ match v with VNew | VSelect | VFin1 => False | _ => True end
  | ReadLoopModel.RSendBuf _ => c_got h <> [] /\ c_buf h = None /\ c_ready h = false /\ busyv v = false
  | _ => c_buf h = None /\ c_ready h = false /\ busyv v = false
  end.
Lemma overwrite_len (b d : bytes) : (List.length d <= List.length b)%nat -> List.length (ReadLoopModel.overwrite b d) = List.length b.
Proof. intros H. unfold ReadLoopModel.overwrite. rewrite app_length, skipn_length. lia. Qed.
Lemma tok_step pc k sh g l sh' g' : gstep pc k sh g l = GWent sh' g' -> tok g -> tok g'.
Proof.
  intros E [H0 H]. destruct g as [m [L P V Q n] h]. destruct h as [hm hb hr hrd hl hg]. unfold tok. cbn [g_m g_a g_c a_loop a_ping a_recv a_req a_procs c_read c_buf c_ready c_mem c_len c_got] in *.
  destruct l; cbn [gstep g_m g_a g_c a_loop a_ping a_recv a_req a_procs recv_at req_at c_read c_buf c_ready c_mem c_len c_got] in E; cbv zeta in E; cases E; went E;
    cbn [g_m g_a g_c a_loop a_ping a_recv a_req a_procs recv_at req_at c_read c_buf c_ready c_mem c_len c_got read_at tx rx] in *.
  all: try (split; [exact H0|]); try exact H.
  all: try (destruct hrd; cbn in *; intuition (try congruence; try lia); fail).
  - apply Nat.eqb_eq in Ec0. split; [lia|exact H].
  - apply Nat.leb_le in Ec0. split; [rewrite overwrite_length; assumption|exact H].
  - apply Nat.leb_le in Ec0. split; [rewrite overwrite_length; assumption|]. split; [destruct hg; discriminate|exact H].
  - destruct H as (A & _ & -> & ->). split; [exact A|reflexivity].
  - destruct H as [_ H]. destruct hb, (busyv V); cbn in H; try lia. auto.
  - split; [reflexivity|exact I].
  - split; [reflexivity|exact I].
  - split; [reflexivity|exact I].
Qed.
Lemma shows_step pc k i a sh g l sh' g' ls : gstep pc k sh g l = GWent sh' g' -> tok g -> shows ls g -> shows (ls ++ glog pc i a sh g l g') g'.
Proof.
  intros E [_ Htk] (H1 & H2 & H3 & H4 & H5 & H6 & H7 & H8 & H9 & H10 & H11). unfold shows. rewrite !count_app, H1, H2, H3, H4, H5, H6, H7, H8, H9, H10, H11. clear H1 H2 H3 H4 H5 H6 H7 H8 H9 H10 H11.
  destruct g as [m [L P V Q n] h]. destruct h as [hm hb hr hrd hl hg]. destruct l; cbn [gstep g_m g_a g_c a_loop a_ping a_recv a_req a_procs recv_at req_at c_read c_buf c_ready c_mem c_len c_got] in E; cbv zeta in E; cases E; went E;
    unfold glog; cbn [g_m g_a g_c a_loop a_ping a_recv a_req a_procs recv_at req_at c_read c_buf c_ready c_mem c_len c_got read_at tx rx m_in m_todo].
  all: try match goal with H : DecodeAll _ _ = _ |- _ => rewrite H end.
  all: try match goal with H : m_todo _ = _ |- _ => rewrite H end.
  all: try match goal with |- context [match ?x with MBitfield _ => _ | _ => _ end] => destruct x end.
  all: try match goal with |- context [handleBitfield ?a ?b ?c ?d ?e ?f] => destruct (handleBitfield a b c d e f) as [[[]]] end.
  all: try (cbn; rewrite ?Nat.add_0_r; repeat split; reflexivity).
  all: try (destruct L; cbn; rewrite ?Nat.add_0_r; repeat split; reflexivity).
  all: try (destruct L, hg; cbn; rewrite ?Nat.add_0_r; repeat split; reflexivity).
  cbn [g_c c_read c_got] in Htk. destruct hg as [|x hg]; [destruct Htk as [Hx _]; congruence|]. destruct L; cbn; rewrite ?Nat.add_0_r; repeat split; reflexivity.
Qed.
(** The "Decoded" lines: one for every Read, in order, except perhaps the last. *)
Definition pend (w : list Z) (g : gconn) : Prop :=
  let h := g_c g in
  match a_recv (g_a g) with
  | VHang => (List.length w <= 1)%nat
  | VGot => w = [Z.of_nat (c_len h)]
  | VWork | VWrite | VLock | VSpin | VAdd | VSend | VReady _ => w = []
  | _ => match c_buf h, c_read h with Some b, _ => w = [Z.of_nat b] | None, ReadLoopModel.RSendBuf b => w = [Z.of_nat b] | None, _ => w = [] end
  end.
Definition decoded_ok (ls : list logline) (g : gconn) : Prop :=
  (exists w, map zlen (c_got (g_c g)) = map snd (decodes ls) ++ w /\ pend w g) /\ Forall (fun d => 0 <= fst d <= snd d) (decodes ls).
Lemma pend_short w g : pend w g -> (List.length w <= 1)%nat.
Proof. unfold pend. destruct (a_recv (g_a g)), (c_buf (g_c g)), (c_read (g_c g)); cbn; intros H; subst; cbn; lia. Qed.
Lemma glog_decodes pc i a sh g l g' : decodes (glog pc i a sh g l g') = match l with GDecode => match DecodeAll decode_fuel (mkslice (firstn (c_len (g_c g)) (c_mem (g_c g))) (skipn (c_len (g_c g)) (c_mem (g_c g)))) with Ok (_, read) => [(read, Z.of_nat (c_len (g_c g)))] | _ => [] end | _ => [] end.
Proof.
  unfold glog. rewrite decodes_app. assert (Ht : forall x y, decodes match x, y with LoopModel.LEnd, _ => [] | _, LoopModel.LEnd => [LDone (Addr i)] | _, _ => [] end = []) by (intros [] []; reflexivity). rewrite Ht, app_nil_r.
  destruct l; try reflexivity.
  - destruct f; reflexivity.
  - destruct (DecodeAll _ _) as [[ms rd]| | |]; reflexivity.
  - destruct (m_todo (g_m g)) as [|[]]; try reflexivity. destruct (handleBitfield _ _ _ _ _ _) as [[[]]]; reflexivity.
  - destruct (a_recv (g_a g)); reflexivity.
  - destruct (c_got (g_c g)); reflexivity.
Qed.

Lemma decoded_step pc k i a sh g l sh' g' ls : gstep pc k sh g l = GWent sh' g' -> tok g -> decoded_ok ls g -> decoded_ok (ls ++ glog pc i a sh g l g') g'.
Proof.
  intros E [H0 Ht] [(w & H1 & H2) H3]. unfold decoded_ok. rewrite decodes_app, glog_decodes.
  destruct g as [m [L P V Q n] h]. destruct h as [hm hb hr hrd hl hg]. cbn [g_m g_a g_c a_loop a_ping a_recv a_req a_procs c_read c_buf c_ready c_mem c_len c_got] in *.
  destruct l; cbn [gstep g_m g_a g_c a_loop a_ping a_recv a_req a_procs recv_at req_at c_read c_buf c_ready c_mem c_len c_got] in E; cbv zeta in E; cases E; went E; unfold pend in *;
    cbn [g_m g_a g_c a_loop a_ping a_recv a_req a_procs recv_at req_at c_read c_buf c_ready c_mem c_len c_got read_at tx rx] in *; rewrite ?app_nil_r.
  all: try (split; [exists w; split; [exact H1|]; first [exact H2 | destruct V; first [exact H2|discriminate] | destruct hb, hrd; first [exact H2|discriminate]]|exact H3]; fail).
  - assert (HL : zlen (firstn hl hm) < 4294967296) by (unfold zlen; pose proof (firstn_length hl hm); assert (Z.of_nat RecvBufSize < 4294967296) by (vm_compute; reflexivity); lia).
    destruct (DecodeAll_read _ _ _ _ _ HL Ec0) as [_ Hz]. split.
    + exists []. split; [|reflexivity]. rewrite app_nil_r, map_app, H1, H2. reflexivity.
    + apply Forall_app. split; [exact H3|]. constructor; [|apply Forall_nil]. cbn [fst snd]. unfold zlen in Hz. pose proof (firstn_length hl hm). lia.
  - split; [|exact H3]. exists w. split; [exact H1|]. rewrite H2. cbn. lia.
  - split; [|exact H3]. exists w. split; [exact H1|]. rewrite H2. cbn. lia.
  - split; [|exact H3]. exists w. split; [exact H1|]. rewrite H2. cbn. lia.
  - split; [|exact H3]. exists w. split; [exact H1|]. destruct hb, hrd; cbn in Ht; try (exact H2); try (exfalso; intuition (try discriminate; lia)).
  - split; [|exact H3]. exists w. split; [exact H1|]. destruct hb, hrd; cbn in Ht; try (exact H2); try (exfalso; intuition (try discriminate; lia)).
  - destruct Ht as (-> & _ & Hb). split; [|exact H3]. assert (Hw : w = []) by (destruct V; (exact H2 || discriminate)). exists [Z.of_nat (List.length (b :: b0))]. split; [rewrite (map_app zlen hg), H1, Hw, app_nil_r; reflexivity|]. destruct V; (reflexivity || discriminate).
Qed.
