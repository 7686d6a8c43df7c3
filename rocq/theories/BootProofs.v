(** BootProofs.v: proofs about starting in a tree (C111). *)
From Coq Require Import ZifyBool ZifyNat ZifyN.
From Verif Require Import Base BencodeModel BitfieldModel BitfieldSpec PathModel PathSpec LayoutModel LayoutSpec LayoutProofs PptModel PeerModel UtilsModel FsModel FsSpec FsProofs OcatProofs
  SwarmModel TrackerModel StartModel StartProofs SafeProofs TreeModel TreeSpec TreeSimProofs TreeProofs TreeTopProofs BootModel BootSpec.

(** ** Simulation *)
Lemma steady_ReadAt h n off : steady (ReadAt h n off).
Proof.
  unfold ReadAt. destruct (off <? 0); [apply steady_ret|]. destruct (n <=? 0); [apply steady_ret|]. destruct (negb (h_open h)); [apply steady_ret|].
  apply steady_bind; [apply steady_fault|]. intros f. apply steady_bind; [apply steady_content|]. intros c. cbv zeta. destruct f; [apply steady_ret|]. destruct (_ <? n); apply steady_ret.
Qed.
Lemma steady_fio_read p s n : steady (fio_read p s n).
Proof.
  intros w r w' H. unfold fio_read in H. destruct (aget p (w_lfps w)) as [h|] eqn:E.
  - destruct (steady_ReadAt h n s _ _ _ H) as [u Hu]. exists u. intros rest. unfold fio_read. cbn [w_lfps set_flt]. rewrite E. apply Hu.
  - inversion H; subst. exists []. intros rest. unfold fio_read. cbn [w_lfps set_flt app]. rewrite E. reflexivity.
Qed.
Lemma steady_locs ti : forall plocs buf off w r b w', read_locs_io ti plocs buf off w = (r, b, w') ->
  exists used, forall rest, read_locs_io ti plocs buf off (set_flt w (used ++ rest)) = (r, b, set_flt w' rest).
Proof.
  induction plocs as [|l plocs IH]; intros buf off w r b w' H; cbn [read_locs_io] in *; [inversion H; subst; exists []; reflexivity|].
  destruct (sslice _ _ _) as [sb| | |]; try (inversion H; subst; exists []; reflexivity).
  destruct (loc_path ti l) as [p| | |]; try (inversion H; subst; exists []; reflexivity).
  destruct (fio_read p _ _ w) as [x w1] eqn:E. destruct (steady_fio_read _ _ _ _ _ _ E) as [u1 H1].
  destruct x as [[d [e|]]|e| |].
  - inversion H; subst. exists u1. intros rest. now rewrite H1.
  - destruct (IH _ _ _ _ _ _ H) as [u2 H2]. exists (u1 ++ u2). intros rest. rewrite <- app_assoc, H1. apply H2.
  - inversion H; subst. exists u1. intros rest. now rewrite H1.
  - inversion H; subst. exists u1. intros rest. now rewrite H1.
  - inversion H; subst. exists u1. intros rest. now rewrite H1.
Qed.
Lemma steady_ReadPiece ti i buf w r b w' : ReadPiece ti i buf w = (r, b, w') -> exists used, forall rest, ReadPiece ti i buf (set_flt w (used ++ rest)) = (r, b, set_flt w' rest).
Proof. unfold ReadPiece. destruct (PieceLookup ti i); [apply steady_locs|intros H; inversion H; subst; exists []; reflexivity..]. Qed.
Lemma steady_Validate sha1 ti bf : steady (Validate sha1 ti bf).
Proof.
  assert (K : forall n i buf bf w r w', validate_loop sha1 ti n i buf bf w = (r, w') -> exists used, forall rest, validate_loop sha1 ti n i buf bf (set_flt w (used ++ rest)) = (r, set_flt w' rest)).
  { induction n as [|n IH]; intros i buf f w r w' H; cbn [validate_loop] in *; [inversion H; subst; exists []; reflexivity|].
    destruct (ReadPiece ti i buf w) as [[x b1] w1] eqn:E. destruct (steady_ReadPiece _ _ _ _ _ _ _ E) as [u1 H1].
    destruct x as [k|e| |]; try (inversion H; subst; exists u1; intros rest; now rewrite H1).
    match type of H with match ?m with _ => _ end = _ => destruct m as [f'| | |] eqn:Em end; try (inversion H; subst; exists u1; intros rest; rewrite H1, Em; reflexivity).
    destruct (IH _ _ _ _ _ _ H) as [u2 H2]. exists (u1 ++ u2). intros rest. rewrite <- app_assoc, H1, Em. apply H2. }
  intros w r w' H. unfold Validate in *. destruct (ti_plen ti <? 0); [inversion H; subst; exists []; reflexivity|]. now apply K.
Qed.
Lemma steady_NewFileIO : steady NewFileIO.
Proof. intros w r w' H. inversion H; subst. exists []. reflexivity. Qed.
Lemma sim_readfile p sp : sim (t_readfile p sp) (os_readfile p sp).
Proof.
  apply sim_bind; [apply sim_open|]. intros i t r t' H. destruct (syscall _ (tw_w t)) as [x w1] eqn:E. inversion H; subst. cbn [tw_w set_w set_fds].
  eapply steady_syscall; [|exact E]. apply steady_bind; [apply steady_content|intros; apply steady_ret].
Qed.
(** What the tracker says is what it says on the network, or what nobody says. *)
Definition net_sim {A} (tm : tio A) (m : net -> io A) (n : net) : Prop :=
  forall t r t', tm t = (r, t') -> exists used n', (n' = n \/ n' = silent n) /\ forall rest, m n' (set_flt (tw_w t) (used ++ rest)) = (r, set_flt (tw_w t') rest).
Lemma net_pre {A C} (tm : tio A) (m : io A) (tf : A -> tio C) (f : A -> net -> io C) n : sim tm m -> (forall a, net_sim (tf a) (f a) n) -> net_sim (tbind tm tf) (fun n => iobind m (fun a => f a n)) n.
Proof.
  intros Hm Hf t r t' H. unfold tbind in H. destruct (tm t) as [x t1] eqn:E. destruct (Hm _ _ _ E) as [u1 H1].
  destruct x as [a|e| |]; try (inversion H; subst; exists u1, n; split; [auto|]; intros rest; unfold iobind; now rewrite H1).
  destruct (Hf a _ _ _ H) as (u2 & n' & Hn & H2). exists (u1 ++ u2), n'. split; [exact Hn|]. intros rest. unfold iobind. rewrite <- app_assoc, H1. apply H2.
Qed.
Lemma net_post {A C} (tm : tio A) (m : net -> io A) (tf : A -> tio C) (f : A -> io C) n : net_sim tm m n -> (forall a, sim (tf a) (f a)) -> net_sim (tbind tm tf) (fun n => iobind (m n) f) n.
Proof.
  intros Hm Hf t r t' H. unfold tbind in H. destruct (tm t) as [x t1] eqn:E. destruct (Hm _ _ _ E) as (u1 & n' & Hn & H1).
  destruct x as [a|e| |]; try (inversion H; subst; exists u1, n'; split; [exact Hn|]; intros rest; unfold iobind; now rewrite H1).
  destruct (Hf a _ _ _ H) as (u2 & H2). exists (u1 ++ u2), n'. split; [exact Hn|]. intros rest. unfold iobind. rewrite <- app_assoc, H1. apply H2.
Qed.
Lemma Get_silent n tor st port id : tracker_Get (silent n) tor st port id = match n_query n (t_announce tor) with None => Panic | Some _ => Err EIO end.
Proof. unfold tracker_Get, newRequest. cbn [silent n_query n_answer]. destruct (n_query n _); reflexivity. Qed.
Lemma net_Get n tor st port id : net_sim (t_Get n tor st port id) (fun n => lift (tracker_Get n tor st port id)) n.
Proof.
  intros t r t' H. exists []. unfold t_Get in H. unfold tbind at 1, tlift in H. destruct (newRequest _ _ _ _ _) as [q|e| |] eqn:Eq; try (inversion H; subst; exists n; split; [auto|]; intros rest; unfold lift, tracker_Get; rewrite Eq; reflexivity).
  unfold tbind in H. destruct (collect t) as [x t1] eqn:Ec. destruct (collect_w _ _ _ Ec) as (-> & Hw & _).
  destruct (tw_free t1).
  - inversion H; subst. exists (silent n). split; [auto|]. intros rest. unfold lift. rewrite Get_silent, Hw. unfold newRequest in Eq. destruct (n_query n _); [reflexivity|discriminate].
  - exists n. split; [auto|]. intros rest. unfold lift, tracker_Get. rewrite Eq. cbn [bind]. destruct (n_answer _ _ _); inversion H; subst; cbn [tw_w set_fds]; rewrite Hw; reflexivity.
Qed.
Lemma net_NewSwarm sha1 n src fuel sp o : net_sim (tNewSwarm sha1 n src fuel sp o) (fun n => NewSwarm sha1 n src fuel sp o) n.
Proof.
  unfold tNewSwarm, NewSwarm. apply (net_pre _ _ _ (fun _ _ => _)); [apply sim_lift|intros id].
  apply (net_pre _ _ _ (fun _ _ => _)); [apply sim_readfile|intros fd].
  apply (net_pre _ _ _ (fun _ _ => _)); [apply sim_lift|intros tor].
  apply (net_pre _ _ _ (fun _ _ => _)); [apply sim_embed, steady_NewFileIO|intros u].
  apply (net_pre _ _ _ (fun _ _ => _)); [apply sim_OCATAll|intros u0].
  apply (net_pre _ _ _ (fun _ _ => _)); [apply sim_lift|intros b0].
  apply (net_pre _ _ _ (fun _ _ => _)); [apply sim_embed, steady_Validate|intros b].
  cbv zeta. apply (net_post _ (fun n => _)); [apply net_Get|intros resp].
  apply sim_bind; [apply sim_lift|intros p]. apply sim_lift.
Qed.
Lemma main_sim uni sha1 n src fuel sp o t f t' : tmain uni sha1 n src fuel sp o t = (f, t') ->
  exists used n', (n' = n \/ n' = silent n) /\ forall rest, main uni sha1 n' src fuel sp o (set_flt (tw_w t) (used ++ rest)) = (f, set_flt (tw_w t') rest).
Proof.
  unfold tmain, main. destruct (initOpts uni o) as [o'| | |]; try (intros H; inversion H; subst; exists [], n; split; [auto|]; reflexivity).
  destruct (beqb (o_cmd o') (B "swarm")).
  { unfold tCmdSwarm, CmdSwarm. destruct (tNewSwarm _ _ _ _ _ _ t) as [r t1] eqn:E. destruct (net_NewSwarm _ _ _ _ _ _ _ _ _ E) as (u & n' & Hn & H1).
    intros H. exists u, n'. split; [exact Hn|]. intros rest. rewrite H1. destruct r; inversion H; subst; reflexivity. }
  destruct (beqb (o_cmd o') (B "info")).
  { unfold tCmdTorInfo, CmdTorInfo. match goal with |- match ?m t with _ => _ end = _ -> _ => destruct (m t) as [r t1] eqn:E end.
    assert (S : sim (go fdata <- t_readfile (o_input o') sp; tlift (FromTorrentFile sha1 fdata (o_wd o'))) (run fdata <- os_readfile (o_input o') sp; lift (FromTorrentFile sha1 fdata (o_wd o')))).
    { apply sim_bind; [apply sim_readfile|intros; apply sim_lift]. }
    destruct (S _ _ _ E) as (u & H1). intros H. exists u, n. split; [auto|]. intros rest. rewrite H1. destruct r; inversion H; subst; reflexivity. }
  intros H; inversion H; subst. exists [], n. split; [auto|]. reflexivity.
Qed.

(** ** The tree *)
Lemma untouched_refl t : untouched t t.
Proof. split; [apply disk_same_refl|reflexivity]. Qed.
Lemma untouched_trans a b c : untouched a b -> untouched b c -> untouched a c.
Proof. intros [A1 A2] [B1 B2]. split; [eapply disk_same_trans; eassumption|congruence]. Qed.
Lemma alike_wf t t' : w_cwd (tw_w t') = w_cwd (tw_w t) -> w_names (tw_w t') = w_names (tw_w t) -> w_inos (tw_w t') = w_inos (tw_w t) -> tw_dirs t' = tw_dirs t -> tree_wf t -> tree_wf t'.
Proof.
  intros A1 A2 A3 A4 (H1 & H2). split; [eapply fs_wf_same_names; try eassumption; congruence|]. unfold isdir, isfile in *. rewrite A1, A2, A4. exact H2.
Qed.
Lemma untouched_wf t t' : untouched t t' -> tree_wf t -> tree_wf t'.
Proof. intros [(A1 & A2 & A3 & A4) A5]. now apply alike_wf. Qed.
Lemma collect_untouched t r t' : collect t = (r, t') -> r = Ok tt /\ untouched t t' /\ idle t' = idle t.
Proof.
  unfold collect. destruct (tw_gc t); intros H; inversion H; subst; (split; [reflexivity|]); (split; [split; [apply disk_same_refl|reflexivity]|]); [reflexivity|]. unfold idle. cbn [tw_free tw_lost]. lia.
Qed.
Lemma readfile_eff p sp t r t' : tree_wf t -> t_readfile p sp t = (r, t') -> untouched t t' /\ idle t' = idle t /\
  ((exists c, r = Ok (mkslice c sp) /\ file_at (tw_w t) p = Some c) \/ exists e, r = Err e).
Proof.
  intros Hwf H. destruct (sim_readfile p sp _ _ _ H) as [u Hu]. specialize (Hu []).
  assert (Hwf1 : fs_wf (set_flt (tw_w t) (u ++ []))) by (destruct Hwf as [Hw _]; eapply fs_wf_same_names; [..|exact Hw]; reflexivity).
  destruct (readfile_spec p sp _ Hwf1) as (r1 & w1 & E1 & D1 & _ & C1). rewrite Hu in E1. inversion E1; subst r1 w1. clear E1.
  assert (Hi : idle t' = idle t /\ tw_dirs t' = tw_dirs t).
  { unfold t_readfile, tbind in H. destruct (t_open p t) as [x t1] eqn:Eo. pose proof (t_open_costs _ _ _ _ Eo) as Hc. destruct (t_open_eff _ _ _ _ Eo) as [(_ & _ & _ & _ & S) _]. destruct x as [i|e| |].
    - destruct (syscall _ (tw_w t1)) as [y w2]. inversion H; subst. unfold costs, idle in *. cbn [tw_free tw_lost set_fds set_w tw_dirs]. split; [lia|exact S].
    - inversion H; subst. unfold costs in Hc. auto.
    - exfalso. destruct C1 as [(c & Hc1 & _)|[(e & He) _]]; inversion H; subst; discriminate.
    - exfalso. destruct C1 as [(c & Hc1 & _)|[(e & He) _]]; inversion H; subst; discriminate. }
  destruct Hi as [Hi Hd]. split; [|split; [exact Hi|]].
  - split; [|exact Hd]. destruct D1 as (D1 & D2 & D3 & D4). repeat split; assumption.
  - destruct C1 as [(c & -> & Hc)|[He _]]; [left; exists c; auto|right; exact He].
Qed.
Lemma grown_untouched qs t t1 t2 : untouched t1 t2 -> grown_all qs t t1 -> grown_all qs t t2.
Proof. intros [(A1 & A2 & A3 & A4) A5] (G1 & G2 & G3 & G4 & G5). unfold grown_all, isfile, isdir in *. rewrite A1, A2, A5. auto. Qed.
Lemma Get_eff n tor st port id t r t' : t_Get n tor st port id t = (r, t') -> untouched t t' /\ ((exists x, r = Ok x) -> (1 <= idle t)%nat) /\ idle t' = idle t.
Proof.
  unfold t_Get, tbind, tlift. destruct (newRequest _ _ _ _ _) as [q|e| |]; try (intros H; inversion H; subst; split; [apply untouched_refl|split; [intros [x Hx]; discriminate|reflexivity]]).
  destruct (collect t) as [x t1] eqn:Ec. destruct (collect_untouched _ _ _ Ec) as (-> & U & Hi). destruct (tw_free t1) as [|k] eqn:Ef.
  - intros H; inversion H; subst. split; [exact U|]. split; [intros [x Hx]; discriminate|exact Hi].
  - destruct (n_answer _ _ _); intros H; inversion H; subst.
    + split; [eapply untouched_trans; [exact U|split; [apply disk_same_refl|reflexivity]]|]. unfold idle in *. cbn [set_fds tw_free tw_lost]. split; intros; lia.
    + split; [exact U|]. split; [intros [x Hx]; discriminate|exact Hi].
Qed.
Lemma fresh_wf t : tree_wf t -> tree_wf (set_w t (none_open (tw_w t))).
Proof. apply alike_wf; reflexivity. Qed.
Lemma idle_free files t t' : tOCATAll files (set_w t (none_open (tw_w t))) = (Ok tt, t') -> NoDup (paths files) -> (idle t' + List.length files = idle t)%nat.
Proof.
  intros H HN. pose proof (tOCATAll_total _ _ _ H) as Ht. pose proof (fun K => tOCATAll_opens_count _ _ _ HN K H) as Hc. specialize (Hc (fun p _ => eq_refl)).
  unfold total_fds, open_count, idle in *. cbn [tw_w set_w none_open set_lfps w_lfps tw_free tw_lost filter List.length] in *. lia.
Qed.
Lemma NewSwarm_eff sha1 n src fuel sp o t r t' : tree_wf t -> tNewSwarm sha1 n src fuel sp o t = (r, t') -> tree_wf t' /\
  ((untouched t t' /\ (forall s, r <> Ok s)) \/
   exists c tor, file_at (tw_w t) (o_input o) = Some c /\ FromTorrentFile sha1 (mkslice c sp) (o_wd o) = Ok tor /\ grown_all (places t (ti_files (t_info tor))) t t' /\
     forall s, r = Ok s -> sw_tor s = tor /\ fits (isdir t) (isfile t) (places t (ti_files (t_info tor))) /\ (forall q, In q (places t (ti_files (t_info tor))) -> isfile t' q) /\
       Forall (fun e => 0 <= en_len e) (ti_files (t_info tor)) /\
       (NoDup (paths (ti_files (t_info tor))) -> (List.length (ti_files (t_info tor)) < idle t)%nat /\ (idle t' + List.length (ti_files (t_info tor)) = idle t)%nat)).
Proof.
  intros Hwf H. unfold tNewSwarm in H. unfold tbind at 1, tlift at 1 in H.
  destruct (NewPeerId src fuel) as [id|e| |]; try (inversion H; subst; split; [assumption|]; left; split; [apply untouched_refl|discriminate]).
  unfold tbind at 1 in H. destruct (t_readfile (o_input o) sp t) as [x t1] eqn:E1. destruct (readfile_eff _ _ _ _ _ Hwf E1) as (U1 & I1 & C1).
  pose proof (untouched_wf _ _ U1 Hwf) as W1.
  destruct C1 as [(c & -> & Hc)|(e & ->)]; [|inversion H; subst; split; [assumption|]; left; split; [assumption|discriminate]].
  unfold tbind at 1, tlift at 1 in H. destruct (FromTorrentFile sha1 (mkslice c sp) (o_wd o)) as [tor|e| |] eqn:Et; try (inversion H; subst; split; [assumption|]; left; split; [assumption|discriminate]).
  unfold tbind at 1, embed at 1, NewFileIO at 1 in H. fold (none_open (tw_w t1)) in H. pose proof (fresh_wf _ W1) as W2.
  unfold tbind at 1 in H. destruct (tOCATAll _ _) as [y t3] eqn:E3. pose proof (loaded_clean _ _ _ _ Et) as Hcl.
  destruct (tOCATAll_eff _ _ _ _ W2 Hcl E3) as (W3 & G3 & R3).
  assert (Hp : places (set_w t1 (none_open (tw_w t1))) (ti_files (t_info tor)) = places t (ti_files (t_info tor))).
  { unfold places, at_place. cbn [tw_w set_w none_open set_lfps w_cwd]. destruct U1 as [(-> & _) _]. reflexivity. }
  rewrite Hp in *. assert (G3' : grown_all (places t (ti_files (t_info tor))) t t3).
  { destruct U1 as [(A1 & A2 & A3 & A4) A5]. destruct G3 as (G1 & G2 & G4 & G5 & G6). unfold grown_all, isfile, isdir in *. cbn [tw_w set_w none_open set_lfps w_cwd w_names tw_dirs] in *. rewrite A1, A2, A5 in *. auto. }
  assert (Hend : forall rr t'', (forall s, rr <> Ok s) -> untouched t3 t'' -> (rr, t'') = (r, t') -> tree_wf t' /\ ((untouched t t' /\ (forall s, r <> Ok s)) \/
   exists c tor, file_at (tw_w t) (o_input o) = Some c /\ FromTorrentFile sha1 (mkslice c sp) (o_wd o) = Ok tor /\ grown_all (places t (ti_files (t_info tor))) t t' /\
     forall s, r = Ok s -> sw_tor s = tor /\ fits (isdir t) (isfile t) (places t (ti_files (t_info tor))) /\ (forall q, In q (places t (ti_files (t_info tor))) -> isfile t' q) /\
       Forall (fun e => 0 <= en_len e) (ti_files (t_info tor)) /\
       (NoDup (paths (ti_files (t_info tor))) -> (List.length (ti_files (t_info tor)) < idle t)%nat /\ (idle t' + List.length (ti_files (t_info tor)) = idle t)%nat))).
  { intros rr t'' Hr U E. inversion E; subst. split; [now apply (untouched_wf t3)|]. right. exists c, tor. split; [assumption|]. split; [assumption|]. split; [eapply grown_untouched; eassumption|].
    intros s Hs. now destruct (Hr s). }
  destruct y as [[]|e| |]; try (eapply Hend; [..|exact H]; [discriminate|apply untouched_refl]).
  unfold tbind at 1, tlift at 1 in H. destruct (NewBitfield _) as [b0|e| |]; try (eapply Hend; [..|exact H]; [discriminate|apply untouched_refl]).
  unfold tbind at 1 in H. unfold embed in H. destruct (Validate sha1 (t_info tor) b0 (tw_w t3)) as [v w4] eqn:E4. apply Validate_same in E4.
  assert (U4 : untouched t3 (set_w t3 w4)) by (split; [exact E4|reflexivity]).
  destruct v as [b|e| |]; try (eapply Hend; [..|exact H]; [discriminate|exact U4]).
  cbv zeta in H. unfold tbind at 1 in H. destruct (t_Get _ _ _ _ _ _) as [z t5] eqn:E5. destruct (Get_eff _ _ _ _ _ _ _ _ E5) as (U5 & N5 & I5). pose proof (untouched_trans _ _ _ U4 U5) as U6.
  destruct z as [resp|e| |]; try (eapply Hend; [..|exact H]; [discriminate|exact U6]).
  unfold tbind, tlift in H. destruct (NewPeerPieceTracker _) as [p|e| |]; try (eapply Hend; [..|exact H]; [discriminate|exact U6]).
  inversion H; subst. split; [now apply (untouched_wf t3)|]. right. exists c, tor. split; [assumption|]. split; [assumption|]. split; [eapply grown_untouched; eassumption|].
  intros s Hs. inversion Hs; subst. cbn [sw_tor]. split; [reflexivity|]. destruct (R3 eq_refl) as (F1 & F2 & F3).
  split; [|split; [|split; [assumption|]]].
  - destruct U1 as [(A1 & A2 & A3 & A4) A5]. unfold isfile, isdir in *. cbn [tw_w set_w none_open set_lfps w_names tw_dirs] in F1. rewrite A2, A5 in F1. exact F1.
  - intros q Hq. specialize (F2 q Hq). destruct U6 as [(_ & A2 & _) _]. unfold isfile in *. now rewrite A2.
  - intros HN. pose proof (idle_free _ _ _ E3 HN) as Hi. specialize (N5 ltac:(eauto)). unfold idle in *. cbn [tw_free tw_lost set_w] in *. lia.
Qed.

(** ** With room and descriptors *)
Lemma os_readfile_nf p sp w c : no_faults w -> file_at w p = Some c -> os_readfile p sp w = (Ok (mkslice c sp), w).
Proof.
  intros Hn Hf. unfold file_at in Hf. unfold os_readfile, os_open, syscall, iobind, content, ret. rewrite fault_nf by assumption.
  destruct (pget _ _) as [i|]; [|discriminate]. rewrite fault_nf by assumption. erewrite nth_error_nth by exact Hf. reflexivity.
Qed.
Lemma readfile_ok p sp t c : tree_wf t -> no_faults (tw_w t) -> (0 < tw_free t)%nat -> file_at (tw_w t) p = Some c ->
  exists t1, t_readfile p sp t = (Ok (mkslice c sp), t1) /\ tw_w t1 = tw_w t /\ tw_dirs t1 = tw_dirs t /\ idle t1 = idle t /\ (tw_lost t1 <= tw_lost t)%nat.
Proof.
  intros Hwf Hn Hf Hc. unfold file_at in Hc. destruct (pget _ _) as [i|] eqn:Hp; [|discriminate].
  assert (Hd : ~ isdir t (at_place t p)). { destruct Hwf as (_ & _ & _ & _ & _ & H6). apply H6. apply isfile_pget. eauto. }
  destruct (t_open_found p t i Hn Hf Hd Hp) as (t1 & E & A1 & A2 & A3). pose proof (t_open_costs _ _ _ _ E) as Hcost. unfold t_readfile, tbind. rewrite E.
  unfold syscall, iobind. rewrite A1, fault_nf by assumption. unfold content, ret. erewrite nth_error_nth by exact Hc. eexists. split; [reflexivity|]. unfold costs, idle in *. cbn [tw_w set_w set_fds tw_dirs tw_free tw_lost]. repeat split; lia || assumption.
Qed.
Lemma tOCATAll_lost files : forall t t', tree_wf t -> clean_entries files -> no_faults (tw_w t) -> lengths_ok files -> fits (isdir t) (isfile t) (places t files) ->
  (List.length files <= tw_free t)%nat -> NoDup (paths files) -> (forall p, In p (paths files) -> is_open (w_lfps (tw_w t)) p = false) -> tOCATAll files t = (Ok tt, t') -> (tw_lost t' <= tw_lost t)%nat.
Proof.
  induction files as [|e files IH]; intros t t' Hwf Hcl Hn Hlen HF Hfr HN Hp H; cbn [tOCATAll] in H; [inversion H; subst; lia|].
  inversion Hcl as [|? ? Hc1 Hc2]; subst. inversion Hlen as [|? ? Hl1 Hl2]; subst. cbn [places map] in HF. pose proof HF as HF0. apply fits_cons in HF0. destruct HF0 as [HP _].
  cbn [List.length] in Hfr. cbn [paths map] in HN, Hp. inversion HN as [|? ? HN1 HN2]; subst.
  destruct (tOCAT_ok _ _ _ Hwf Hc1 Hn HP Hl1 ltac:(lia)) as (t1 & E1 & E2 & Hn1 & Hlost). rewrite (Hp _ (or_introl eq_refl)) in Hlost.
  destruct (tOCAT_eff _ _ _ _ _ Hwf Hc1 E1) as (W1 & G1 & _). pose proof (fits_after _ _ _ _ W1 G1 HF) as HF1.
  assert (Hlost' : (tw_lost t1 <= tw_lost t + if is_open (w_lfps (tw_w t)) (eb_local (en_base e)) then 1 else 0)%nat) by (destruct (is_open _ _); lia).
  pose proof (tOCAT_free _ _ _ _ E1 Hlost') as Hfree. unfold tbind in H. rewrite E1 in H.
  destruct (tOCAT_table _ _ _ _ E1) as [i Et].
  assert (K : (tw_lost t' <= tw_lost t1)%nat).
  { apply (IH t1 t' W1 Hc2 Hn1 Hl2); [|lia|assumption| |assumption].
    - unfold places, at_place in *. destruct G1 as (-> & _). exact HF1.
    - intros p Hi. unfold is_open. rewrite Et, aget_aput_other; [apply (Hp p); right; exact Hi|]. intros ->. contradiction. }
  lia.
Qed.
Lemma tOCATAll_free files : forall t t', tree_wf t -> clean_entries files -> no_faults (tw_w t) -> lengths_ok files -> fits (isdir t) (isfile t) (places t files) ->
  (List.length files <= tw_free t)%nat -> tOCATAll files t = (Ok tt, t') -> (tw_free t <= tw_free t' + List.length files)%nat.
Proof.
  induction files as [|e files IH]; intros t t' Hwf Hcl Hn Hlen HF Hfr H; cbn [tOCATAll] in H; [inversion H; subst; cbn; lia|].
  inversion Hcl as [|? ? Hc1 Hc2]; subst. inversion Hlen as [|? ? Hl1 Hl2]; subst. cbn [places map] in HF. pose proof HF as HF0. apply fits_cons in HF0. destruct HF0 as [HP _].
  cbn [List.length] in *. destruct (tOCAT_ok _ _ _ Hwf Hc1 Hn HP Hl1 ltac:(lia)) as (t1 & E1 & E2 & Hn1 & Hlost).
  destruct (tOCAT_eff _ _ _ _ _ Hwf Hc1 E1) as (W1 & G1 & _). pose proof (fits_after _ _ _ _ W1 G1 HF) as HF1.
  pose proof (tOCAT_free _ _ _ _ E1 Hlost) as Hfree. unfold tbind in H. rewrite E1 in H.
  assert (K : (tw_free t1 <= tw_free t' + List.length files)%nat) by (apply (IH t1 t' W1 Hc2 Hn1 Hl2); [unfold places, at_place in *; destruct G1 as (-> & _); exact HF1|lia|assumption]). lia.
Qed.
Lemma Get_free n tor st port id t : (0 < tw_free t)%nat -> exists t', t_Get n tor st port id t = (tracker_Get n tor st port id, t') /\ tw_w t' = tw_w t /\ tw_dirs t' = tw_dirs t /\
  (tw_lost t = O -> (exists x, tracker_Get n tor st port id = Ok x) -> tw_lost t' = 1%nat /\ S (tw_free t') = tw_free t).
Proof.
  intros Hf. unfold t_Get, tbind, tlift, tracker_Get. destruct (newRequest _ _ _ _ _) as [q|e| |]; cbn [bind]; try (exists t; repeat split; try reflexivity; intros; exfalso; destruct H0; discriminate).
  destruct (collect t) as [x t1] eqn:Ec. destruct (collect_w _ _ _ Ec) as (-> & Hw & Hd).
  assert (K : (tw_free t <= tw_free t1)%nat /\ (tw_lost t = O -> tw_lost t1 = O /\ tw_free t1 = tw_free t)) by (unfold collect in Ec; destruct (tw_gc t); inversion Ec; subst; cbn [tw_free tw_lost]; lia).
  destruct K as [K1 K2]. destruct (tw_free t1) as [|k] eqn:Ef; [lia|]. destruct (n_answer _ _ _) as [body|].
  - eexists. split; [reflexivity|]. cbn [set_fds tw_w tw_dirs tw_free tw_lost]. repeat split; try assumption; specialize (K2 H); lia.
  - exists t1. repeat split; try assumption; exfalso; destruct H0; discriminate.
Qed.
Lemma Get_none n tor st port id t : tw_free t = O -> tw_lost t = O -> exists t', t_Get n tor st port id t = (tracker_Get (silent n) tor st port id, t') /\ tw_w t' = tw_w t /\ tw_dirs t' = tw_dirs t.
Proof.
  intros Hf Hl. rewrite Get_silent. unfold t_Get, tbind, tlift, newRequest. destruct (n_query n _) as [raw|]; [|exists t; auto].
  destruct (collect t) as [x t1] eqn:Ec. destruct (collect_w _ _ _ Ec) as (-> & Hw & Hd).
  assert (K : tw_free t1 = O) by (unfold collect in Ec; destruct (tw_gc t); inversion Ec; subst; cbn [tw_free tw_lost]; lia). rewrite K. exists t1. auto.
Qed.

Lemma NewSwarm_agrees sha1 n n' src fuel sp o t id c tor : let files := ti_files (t_info tor) in
  tree_wf t -> no_faults (tw_w t) -> NewPeerId src fuel = Ok id -> file_at (tw_w t) (o_input o) = Some c -> FromTorrentFile sha1 (mkslice c sp) (o_wd o) = Ok tor ->
  lengths_ok files -> fits (isdir t) (isfile t) (places t files) -> (0 < tw_free t)%nat ->
  ((List.length files < tw_free t)%nat /\ n' = n) \/ (List.length files = tw_free t /\ tw_lost t = O /\ NoDup (paths files) /\ n' = silent n) ->
  exists r t', tNewSwarm sha1 n src fuel sp o t = (r, t') /\ NewSwarm sha1 n' src fuel sp o (tw_w t) = (r, tw_w t') /\ tree_wf t' /\
    (forall x, isfile t' x <-> isfile t x \/ In x (places t files)) /\ (forall x, isdir t' x <-> isdir t x \/ exists q, In q (places t files) /\ below x q) /\
    (n' = n -> tw_lost t = O -> NoDup (paths files) -> (exists s, r = Ok s) -> tw_lost t' = 1%nat /\ (tw_free t' + List.length files + 1 = tw_free t)%nat).
Proof.
  intros files Hwf Hn Hid Hc Et Hlen HF Hf0 Hcase. pose proof (loaded_clean _ _ _ _ Et) as Hcl. fold files in Hcl.
  destruct (readfile_ok (o_input o) sp t c Hwf Hn Hf0 Hc) as (t1 & E1 & A1 & A2 & A3 & A4). pose proof (os_readfile_nf (o_input o) sp (tw_w t) c Hn Hc) as E1'.
  set (t2 := set_w t1 (none_open (tw_w t1))).
  assert (W2 : tree_wf t2) by (apply fresh_wf; eapply alike_wf; [..|exact Hwf]; congruence).
  assert (Hp : places t2 files = places t files) by (unfold places, at_place, t2; cbn [tw_w set_w none_open set_lfps w_cwd]; now rewrite A1).
  assert (HF2 : fits (isdir t2) (isfile t2) (places t2 files)).
  { rewrite Hp. unfold isdir, isfile, t2 in *. cbn [tw_w set_w none_open set_lfps w_names tw_dirs]. rewrite A1, A2. exact HF. }
  assert (Hn2 : no_faults (tw_w t2)) by (unfold no_faults, t2 in *; cbn; now rewrite A1).
  assert (Hfr : (tw_free t <= tw_free t2)%nat /\ (tw_lost t2 <= tw_lost t)%nat /\ (tw_lost t = O -> tw_free t2 = tw_free t)) by (unfold t2, idle in *; cbn [tw_free tw_lost set_w]; lia).
  destruct Hfr as (Hfr & Hl2 & Heq).
  assert (Hle : (List.length files <= tw_free t2)%nat) by lia.
  destruct (tOCATAll_opens files t2 W2 Hcl Hn2 Hlen HF2 Hle) as (t3 & E3 & E3' & W3 & F3 & D3).
  rewrite Hp in *.
  assert (F3' : forall x, isfile t3 x <-> isfile t x \/ In x (places t files)) by (intros x; rewrite F3; unfold isfile, t2; cbn [tw_w set_w none_open set_lfps w_names]; rewrite A1; tauto).
  assert (D3' : forall x, isdir t3 x <-> isdir t x \/ exists q, In q (places t files) /\ below x q) by (intros x; rewrite D3; unfold isdir, t2; cbn [set_w tw_dirs]; rewrite A2; tauto).
  unfold tNewSwarm, NewSwarm. rewrite Hid. unfold lift at 1, tlift at 1. unfold tbind at 1, iobind at 1. unfold tbind at 1, iobind at 1. rewrite E1, E1'.
  unfold lift at 1, tlift at 1. unfold tbind at 1, iobind at 1. rewrite Et. unfold tbind at 1, iobind at 1. unfold embed at 1. unfold NewFileIO at 1 2.
  change (set_lfps (tw_w t1) []) with (none_open (tw_w t1)). fold t2. replace (set_lfps (tw_w t) []) with (tw_w t2) by (unfold t2, none_open; cbn; now rewrite A1).
  unfold tbind at 1, iobind at 1. unfold files in E3, E3'. rewrite E3, E3'. fold files in E3, E3'.
  unfold lift at 1, tlift at 1. unfold tbind at 1, iobind at 1.
  assert (Hend : forall (rr : res swarm) t'', untouched t3 t'' -> tree_wf t'' /\ (forall x, isfile t'' x <-> isfile t x \/ In x (places t files)) /\ (forall x, isdir t'' x <-> isdir t x \/ exists q, In q (places t files) /\ below x q)).
  { intros rr t'' U. split; [now apply (untouched_wf t3)|]. destruct U as [(B1 & B2 & B3 & B4) B5]. unfold isfile, isdir in *. rewrite B2, B5. split; assumption. }
  Ltac stop Hend U := eexists _, _; split; [reflexivity|]; split; [reflexivity|]; destruct (Hend NoFuel _ U) as (X1 & X2 & X3); split; [exact X1|]; split; [exact X2|]; split; [exact X3|]; intros _ _ _ [? ?]; discriminate.
  destruct (NewBitfield _) as [b0|e| |]; [|stop Hend (untouched_refl t3)..].
  unfold tbind at 1, iobind at 1. unfold embed. destruct (Validate sha1 (t_info tor) b0 (tw_w t3)) as [v w4] eqn:E4. apply Validate_same in E4.
  assert (U4 : untouched t3 (set_w t3 w4)) by (split; [exact E4|reflexivity]).
  destruct v as [b|e| |]; [|stop Hend U4..].
  cbv zeta. unfold tbind at 1, iobind at 1. unfold lift at 1. set (t4 := set_w t3 w4) in *.
  assert (G : exists t5, t_Get n tor (NewStats 0 0 0) (OptPort o) id t4 = (tracker_Get n' tor (NewStats 0 0 0) (OptPort o) id, t5) /\ tw_w t5 = tw_w t4 /\ tw_dirs t5 = tw_dirs t4 /\
    (n' = n -> tw_lost t = O -> NoDup (paths files) -> (exists s, tracker_Get n' tor (NewStats 0 0 0) (OptPort o) id = Ok s) -> tw_lost t5 = 1%nat /\ (tw_free t5 + List.length files + 1 = tw_free t)%nat)).
  { assert (Hex : NoDup (paths files) -> tw_lost t = O -> tw_lost t4 = O /\ (tw_free t4 + List.length files = tw_free t)%nat).
    { intros HN HL. pose proof (idle_free _ _ _ E3 HN) as Hi. pose proof (tOCATAll_lost files t2 t3 W2 Hcl Hn2 Hlen ltac:(rewrite Hp; exact HF2) Hle HN (fun p _ => eq_refl) E3) as Hlo.
      unfold idle, t4, t2 in *. cbn [tw_free tw_lost set_w] in *. lia. }
    destruct Hcase as [[Hlt ->]|(He & Hl0 & HN & ->)].
    - assert (Hf4 : (0 < tw_free t4)%nat).
      { pose proof (tOCATAll_free files t2 t3 W2 Hcl Hn2 Hlen ltac:(rewrite Hp; exact HF2) Hle E3) as Ht. unfold t4. cbn [tw_free set_w]. lia. }
      destruct (Get_free n tor (NewStats 0 0 0) (OptPort o) id t4 Hf4) as (t5 & E5 & B1 & B2 & B3). exists t5. split; [exact E5|]. split; [exact B1|]. split; [exact B2|].
      intros _ HL HN Hok. destruct (Hex HN HL) as [X1 X2]. destruct (B3 X1 Hok). lia.
    - destruct (Hex HN Hl0) as [X1 X2]. destruct (Get_none n tor (NewStats 0 0 0) (OptPort o) id t4 ltac:(lia) X1) as (t5 & E5 & B1 & B2). exists t5. split; [exact E5|]. split; [exact B1|]. split; [exact B2|].
      intros _ _ _ [s Hs]. rewrite Get_silent in Hs. destruct (n_query n _); discriminate. }
  destruct G as (t5 & E5 & B1 & B2 & B3). rewrite E5.
  assert (U5 : untouched t3 t5) by (eapply untouched_trans; [exact U4|]; split; [rewrite B1; apply disk_same_refl|exact B2]).
  assert (B1' : w4 = tw_w t5) by (rewrite B1; reflexivity). clear E5.
  destruct (tracker_Get _ _ _ _ _) as [resp|e| |]; [|rewrite B1'; stop Hend U5..].
  unfold tbind, iobind, tlift, lift. destruct (NewPeerPieceTracker _) as [p|e| |]; [|rewrite B1'; stop Hend U5..].
  unfold ret. rewrite B1'. eexists _, t5. split; [reflexivity|]. split; [reflexivity|]. destruct (Hend NoFuel _ U5) as (X1 & X2 & X3). split; [exact X1|]. split; [exact X2|]. split; [exact X3|].
  intros HA HB HC _. apply B3; eauto.
Qed.

(** ** With fewer *)
Lemma NewSwarm_few sha1 n src fuel sp o t id c tor : let files := ti_files (t_info tor) in
  tree_wf t -> no_faults (tw_w t) -> NewPeerId src fuel = Ok id -> file_at (tw_w t) (o_input o) = Some c -> FromTorrentFile sha1 (mkslice c sp) (o_wd o) = Ok tor ->
  lengths_ok files -> fits (isdir t) (isfile t) (places t files) -> NoDup (paths files) -> tw_lost t = O -> (0 < tw_free t < List.length files)%nat ->
  exists e t', tNewSwarm sha1 n src fuel sp o t = (Err e, t') /\ OCATAll (firstn (tw_free t) files) (none_open (tw_w t)) = (Ok tt, tw_w t').
Proof.
  intros files Hwf Hn Hid Hc Et Hlen HF HN HL [Hf0 Hlt]. pose proof (loaded_clean _ _ _ _ Et) as Hcl. fold files in Hcl.
  destruct (readfile_ok (o_input o) sp t c Hwf Hn Hf0 Hc) as (t1 & E1 & A1 & A2 & A3 & A4).
  set (t2 := set_w t1 (none_open (tw_w t1))).
  assert (W2 : tree_wf t2) by (apply fresh_wf; eapply alike_wf; [..|exact Hwf]; congruence).
  assert (Hp : places t2 files = places t files) by (unfold places, at_place, t2; cbn [tw_w set_w none_open set_lfps w_cwd]; now rewrite A1).
  assert (HF2 : fits (isdir t2) (isfile t2) (places t2 files)).
  { rewrite Hp. unfold isdir, isfile, t2 in *. cbn [tw_w set_w none_open set_lfps w_names tw_dirs]. rewrite A1, A2. exact HF. }
  assert (Hn2 : no_faults (tw_w t2)) by (unfold no_faults, t2 in *; cbn; now rewrite A1).
  assert (Hfr : tw_free t2 = tw_free t /\ tw_lost t2 = O) by (unfold t2, idle in *; cbn [tw_free tw_lost set_w]; lia). destruct Hfr as [Hfr Hl2].
  destruct (tOCATAll_short files t2 W2 Hcl Hn2 Hlen HF2 HN (fun p _ => eq_refl) Hl2 ltac:(lia)) as (t3 & e & E3 & E3').
  unfold tNewSwarm. rewrite Hid. unfold tlift at 1. unfold tbind at 1. unfold tbind at 1. rewrite E1. unfold tlift at 1. unfold tbind at 1. rewrite Et. unfold tbind at 1. unfold embed at 1. unfold NewFileIO at 1.
  change (set_lfps (tw_w t1) []) with (none_open (tw_w t1)). fold t2. unfold tbind at 1. unfold files in E3. rewrite E3. exists e, t3. split; [reflexivity|].
  rewrite Hfr in E3'. replace (none_open (tw_w t)) with (tw_w t2) by (unfold t2, none_open; cbn; now rewrite A1). exact E3'.
Qed.
Lemma NewSwarm_none sha1 n src fuel sp o t id : no_faults (tw_w t) -> NewPeerId src fuel = Ok id -> tw_free t = O -> tw_lost t = O ->
  exists t', tNewSwarm sha1 n src fuel sp o t = (Err EIO, t') /\ untouched t t'.
Proof.
  intros Hn Hid Hf HL. unfold tNewSwarm. rewrite Hid. unfold tlift at 1. unfold tbind at 1. unfold tbind at 1. unfold t_readfile, tbind at 1, t_open. rewrite tsyscall_nf by assumption.
  match goal with |- context [with_fd ?b t] => destruct (with_fd_none b t Hf HL) as (t1 & A1 & A2 & A3 & A4 & ->) end.
  exists t1. split; [reflexivity|]. split; [rewrite A1; apply disk_same_refl|exact A2].
Qed.
Lemma made_lengths P hashes files ti : made P hashes files ti -> lengths_ok (ti_files ti).
Proof.
  intros Hm. destruct (made_facts _ _ _ _ Hm) as (HP & HT & _ & _ & _ & _ & Hf & _).
  destruct Hm as ((_ & Hnn & Hs) & _). rewrite <- Hf in Hnn, Hs. clear - Hnn Hs. unfold lengths_ok, lens_of in *. rewrite map_map in *. unfold big in Hs.
  revert Hnn Hs. generalize (ti_files ti) as l. induction l as [|e l IH]; cbn [map]; intros Hnn Hs; [apply Forall_nil|].
  inversion Hnn as [|? ? H1 H2]; subst. pose proof (zsum_nonneg _ H2). change (zsum (?a :: ?b)) with (a + zsum b) in Hs. apply Forall_cons.
  - unfold en_len, max64. lia.
  - apply IH; [assumption|lia].
Qed.
(** The whole of it, when nothing fails and the tracker answers. *)
Lemma NewSwarm_starts sha1 n src fuel sp o t id c tor P hashes files resp :
  tree_wf t -> no_faults (tw_w t) -> NewPeerId src fuel = Ok id -> file_at (tw_w t) (o_input o) = Some c -> FromTorrentFile sha1 (mkslice c sp) (o_wd o) = Ok tor ->
  made P hashes files (t_info tor) -> zlen hashes / 20 < 4294967296 -> NoDup (places t (ti_files (t_info tor))) ->
  fits (isdir t) (isfile t) (places t (ti_files (t_info tor))) -> (List.length (ti_files (t_info tor)) < tw_free t)%nat -> tw_lost t = O ->
  tracker_Get n tor (NewStats 0 0 0) (OptPort o) id = Ok resp ->
  exists s t', tNewSwarm sha1 n src fuel sp o t = (Ok s, t') /\ NewSwarm sha1 n src fuel sp o (tw_w t) = (Ok s, tw_w t') /\ sw_tor s = tor /\ sw_peers s = r_peers resp /\ tree_wf t' /\
    (forall x, isfile t' x <-> isfile t x \/ In x (places t (ti_files (t_info tor)))) /\ (forall x, isdir t' x <-> isdir t x \/ exists q, In q (places t (ti_files (t_info tor))) /\ below x q) /\
    tw_lost t' = 1%nat /\ (tw_free t' + List.length (ti_files (t_info tor)) + 1 = tw_free t)%nat /\ no_faults (tw_w t').
Proof.
  intros Hwf Hn Hid Hc Et Hm HB HN HF Hlt HL Hg. pose proof (made_lengths _ _ _ _ Hm) as Hlen.
  destruct (NewSwarm_agrees sha1 n n src fuel sp o t id c tor Hwf Hn Hid Hc Et Hlen HF ltac:(lia) (or_introl (conj Hlt eq_refl))) as (r & t' & E & E' & W & F1 & F2 & F3).
  assert (Hpl : StartSpec.places (tw_w t) files = places t (ti_files (t_info tor))).
  { destruct (made_facts _ _ _ _ Hm) as (_ & _ & _ & _ & _ & _ & Hfl & _). unfold StartSpec.places, places, at_place. rewrite <- Hfl, map_map. reflexivity. }
  destruct (NewSwarm_any sha1 n src fuel sp o (tw_w t) id c tor P hashes files Hid (proj1 Hwf) Hc Et Hm ltac:(rewrite Hpl; exact HN) HB) as (r' & w' & E2 & _ & _ & Hnf & Hcase).
  rewrite E' in E2. inversion E2; subst r' w'. clear E2.
  destruct Hcase as [(s & contents & resp' & -> & Hg' & _ & _ & _ & _ & _ & _ & Hs & _ & _ & Hp & _)|[(_ & Hno)|(_ & [(e & Hg' & _)|(Hg' & _)])]]; [|contradiction|rewrite Hg in Hg'; discriminate..].
  rewrite Hg in Hg'. inversion Hg'; subst resp'. exists s, t'. split; [exact E|]. split; [exact E'|]. split; [exact Hs|]. split; [exact Hp|]. split; [exact W|]. split; [exact F1|]. split; [exact F2|].
  assert (HNp : NoDup (paths (ti_files (t_info tor)))).
  { unfold places, paths in *. rewrite <- map_map with (g := at_place t) in HN. now apply NoDup_map_inv in HN. }
  destruct (F3 eq_refl HL HNp ltac:(eauto)) as [X1 X2]. split; [exact X1|]. split; [exact X2|]. now apply Hnf.
Qed.
Lemma NewSwarm_exact sha1 n src fuel sp o t id c tor P hashes files :
  tree_wf t -> no_faults (tw_w t) -> NewPeerId src fuel = Ok id -> file_at (tw_w t) (o_input o) = Some c -> FromTorrentFile sha1 (mkslice c sp) (o_wd o) = Ok tor ->
  made P hashes files (t_info tor) -> zlen hashes / 20 < 4294967296 -> NoDup (places t (ti_files (t_info tor))) ->
  fits (isdir t) (isfile t) (places t (ti_files (t_info tor))) -> List.length (ti_files (t_info tor)) = tw_free t -> (0 < tw_free t)%nat -> tw_lost t = O -> n_query n (t_announce tor) <> None ->
  exists t', tNewSwarm sha1 n src fuel sp o t = (Err EIO, t') /\ (forall x, isfile t' x <-> isfile t x \/ In x (places t (ti_files (t_info tor)))).
Proof.
  intros Hwf Hn Hid Hc Et Hm HB HN HF Heq Hf0 HL Hq. pose proof (made_lengths _ _ _ _ Hm) as Hlen.
  assert (HNp : NoDup (paths (ti_files (t_info tor)))).
  { unfold places, paths in *. rewrite <- map_map with (g := at_place t) in HN. now apply NoDup_map_inv in HN. }
  destruct (NewSwarm_agrees sha1 n (silent n) src fuel sp o t id c tor Hwf Hn Hid Hc Et Hlen HF Hf0 (or_intror (conj Heq (conj HL (conj HNp eq_refl))))) as (r & t' & E & E' & W & F1 & F2 & F3).
  assert (Hpl : StartSpec.places (tw_w t) files = places t (ti_files (t_info tor))).
  { destruct (made_facts _ _ _ _ Hm) as (_ & _ & _ & _ & _ & _ & Hfl & _). unfold StartSpec.places, places, at_place. rewrite <- Hfl, map_map. reflexivity. }
  destruct (NewSwarm_any sha1 (silent n) src fuel sp o (tw_w t) id c tor P hashes files Hid (proj1 Hwf) Hc Et Hm ltac:(rewrite Hpl; exact HN) HB) as (r' & w' & E2 & _ & _ & Hnf & Hcase).
  rewrite E' in E2. inversion E2; subst r' w'. clear E2. rewrite Get_silent in Hcase. destruct (n_query n (t_announce tor)) as [raw|]; [|contradiction].
  exists t'. split; [|exact F1]. destruct Hcase as [(s & contents & resp' & _ & Hg' & _)|[(_ & Hno)|(_ & [(e & Hg' & ->)|(Hg' & _)])]]; [discriminate|contradiction| |discriminate].
  inversion Hg'; subst e. exact E.
Qed.

(** ** The listener *)
Lemma socket_some t : no_faults (tw_w t) -> (0 < tw_free t)%nat -> exists t', t_socket t = (Ok tt, t') /\ tw_w t' = tw_w t /\ (tw_free t <= S (tw_free t'))%nat /\ (idle t = S (idle t')).
Proof.
  intros Hn Hf. unfold t_socket. rewrite tsyscall_nf by assumption. unfold with_fd, tbind. destruct (collect t) as [x t1] eqn:Ec. destruct (collect_w _ _ _ Ec) as (-> & Hw & Hd).
  assert (K : (tw_free t <= tw_free t1)%nat /\ idle t1 = idle t) by (unfold idle; unfold collect in Ec; destruct (tw_gc t); inversion Ec; subst; cbn [tw_free tw_lost]; lia).
  destruct K as [K1 K2]. destruct (tw_free t1) as [|k] eqn:Ef; [lia|]. cbn [tlift]. eexists. split; [reflexivity|]. unfold idle in *. cbn [set_fds tw_w tw_free tw_lost]. repeat split; try assumption; lia.
Qed.
Lemma socket_none t : idle t = O -> exists t', t_socket t = (Err EIO, t') /\ idle t' = O.
Proof.
  intros Hi. unfold t_socket, tsyscall, tbind. destruct (embed fault t) as [x t1] eqn:Ef. pose proof (embed_idle _ _ _ _ Ef) as I1.
  assert (Hx : exists f, x = Ok f) by (unfold embed, fault in Ef; destruct (w_flt (tw_w t)); inversion Ef; subst; eauto). destruct Hx as [f ->].
  destruct f; [exists t1; split; [reflexivity|congruence]|]. destruct (with_fd_none (tlift (Ok tt)) t1) as (t2 & _ & _ & A3 & A4 & ->); [unfold idle in *; lia..|]. exists t2. split; [reflexivity|]. unfold idle. lia.
Qed.
Lemma socket_idle t r t' : t_socket t = (r, t') -> (idle t' <= idle t)%nat /\ (idle t <= S (idle t'))%nat.
Proof.
  intros H. assert (C : costs 1 r t t').
  { unfold t_socket in H. revert H. apply tsyscall_costs. intros t1. apply with_fd_costs. intros t2 x t3 E. inversion E; subst. auto. }
  assert (W : went r).
  { unfold t_socket, tsyscall, tbind in H. destruct (embed fault t) as [x t1] eqn:Ef.
    assert (Hx : exists f, x = Ok f) by (unfold embed, fault in Ef; destruct (w_flt (tw_w t)); inversion Ef; subst; eauto). destruct Hx as [f ->].
    destruct f; [inversion H; subst; exact I|]. unfold with_fd, tbind in H. destruct (collect t1) as [y t2] eqn:Ec. destruct (collect_w _ _ _ Ec) as (-> & _). destruct (tw_free t2); inversion H; subst; exact I. }
  unfold costs in C. destruct r; try contradiction; lia.
Qed.
Lemma listen_enough : forall k t, no_faults (tw_w t) -> (k < tw_free t)%nat -> exists t', t_listen k t = (Ok tt, t') /\ tw_w t' = tw_w t /\ (idle t = S (k + idle t')) /\ (tw_free t <= S (k + tw_free t'))%nat.
Proof.
  induction k as [|k IH]; intros t Hn Hk.
  - destruct (socket_some t Hn ltac:(lia)) as (t1 & E & A1 & A2 & A3). unfold t_listen, tbind, t_dials, tlift. rewrite E. exists t1. auto.
  - destruct (socket_some t Hn ltac:(lia)) as (t1 & E & A1 & A2 & A3).
    destruct (IH t1 ltac:(unfold no_faults in *; now rewrite A1) ltac:(lia)) as (t2 & E2 & B1 & B2 & B3). exists t2. split; [|split; [congruence|split; lia]].
    unfold t_listen, tbind in *. cbn [t_dials]. rewrite E. cbn [snd]. exact E2.
Qed.
Lemma listen_short : forall k t, no_faults (tw_w t) -> tw_lost t = O -> (tw_free t <= k)%nat -> exists t', t_listen k t = (Panic, t').
Proof.
  induction k as [|k IH]; intros t Hn HL Hk.
  - destruct (socket_none t ltac:(unfold idle; lia)) as (t1 & E & _). unfold t_listen, tbind, t_dials, tlift. rewrite E. eauto.
  - assert (K : exists t1, snd (t_socket t) = t1 /\ no_faults (tw_w t1) /\ tw_lost t1 = O /\ (tw_free t1 <= k)%nat).
    { eexists. split; [reflexivity|]. destruct (Nat.eq_dec (tw_free t) 0) as [Hz|Hz].
      - unfold t_socket. rewrite tsyscall_nf by assumption. destruct (with_fd_none (tlift (Ok tt)) t Hz HL) as (t2 & A1 & A2 & A3 & A4 & ->). cbn [snd]. unfold no_faults in *. rewrite A1. repeat split; try assumption; lia.
      - destruct (socket_some t Hn ltac:(lia)) as (t2 & E & A1 & A2 & A3). rewrite E. cbn [snd]. unfold no_faults, idle in *. rewrite A1. repeat split; [assumption|lia..]. }
    destruct K as (t1 & E & K1 & K2 & K3). destruct (IH t1 K1 K2 K3) as [t2 E2]. exists t2. unfold t_listen, tbind in *. cbn [t_dials]. rewrite E. exact E2.
Qed.
