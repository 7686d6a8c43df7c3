(** TreeSimProofs.v: what the tree and the descriptors decide is, to FsModel, a list of faults. *)
From Verif Require Import Base PathModel PathSpec LayoutModel FsModel FsSpec TreeModel TreeSpec.

Definition set_flt (w : world) (f : list (option Z)) : world := mkw (w_cwd w) (w_names w) (w_inos w) f (w_lfps w).
(** Using up a finite list of faults. *)
Definition steady {A} (m : io A) : Prop :=
  forall w r w', m w = (r, w') -> exists used, forall rest, m (set_flt w (used ++ rest)) = (r, set_flt w' rest).
Definition sim {A} (tm : tio A) (m : io A) : Prop :=
  forall t r t', tm t = (r, t') -> exists used, forall rest, m (set_flt (tw_w t) (used ++ rest)) = (r, set_flt (tw_w t') rest).

Lemma set_flt_twice w f g : set_flt (set_flt w f) g = set_flt w g.
Proof. reflexivity. Qed.
Lemma steady_ret {A} (a : A) : steady (ret a).
Proof. intros w r w' H. inversion H; subst. exists []. reflexivity. Qed.
Lemma steady_lift {A} (a : res A) : steady (lift a).
Proof. intros w r w' H. inversion H; subst. exists []. reflexivity. Qed.
Lemma steady_fault : steady fault.
Proof.
  intros w r w' H. unfold fault in H. destruct (w_flt w) as [|f fl] eqn:E; inversion H; subst.
  - exists [None]. intros rest. unfold fault, set_flt; cbn. destruct w'; cbn in *. subst. reflexivity.
  - exists [f]. intros rest. reflexivity.
Qed.
Lemma steady_content i : steady (content i).
Proof. intros w r w' H. inversion H; subst. exists []. reflexivity. Qed.
Lemma steady_put i c : steady (put_content i c).
Proof. intros w r w' H. inversion H; subst. exists []. reflexivity. Qed.
Lemma steady_bind {A C} (m : io A) (f : A -> io C) : steady m -> (forall a, steady (f a)) -> steady (iobind m f).
Proof.
  intros Hm Hf w r w' H. unfold iobind in H. destruct (m w) as [x w1] eqn:E. destruct (Hm _ _ _ E) as [u1 H1].
  destruct x as [a|e| |].
  - destruct (Hf a _ _ _ H) as [u2 H2]. exists (u1 ++ u2). intros rest. unfold iobind. rewrite <- app_assoc, H1. apply H2.
  - inversion H; subst. exists u1. intros rest. unfold iobind. now rewrite H1.
  - inversion H; subst. exists u1. intros rest. unfold iobind. now rewrite H1.
  - inversion H; subst. exists u1. intros rest. unfold iobind. now rewrite H1.
Qed.
Lemma steady_syscall {A} (b : io A) : steady b -> steady (syscall b).
Proof. intros Hb. apply steady_bind; [apply steady_fault|]. intros [k|]; [apply steady_lift|exact Hb]. Qed.
Lemma steady_size i : steady (os_size i).
Proof. apply steady_syscall, steady_bind; [apply steady_content|]. intros. apply steady_ret. Qed.
Lemma steady_truncate i n : steady (os_truncate i n).
Proof. apply steady_syscall. destruct (n <? 0); [apply steady_lift|]. apply steady_bind; [apply steady_content|]. intros. apply steady_put. Qed.
Lemma steady_write i off d : steady (os_write i off d).
Proof.
  apply steady_bind; [apply steady_fault|]. intros f. apply steady_bind; [apply steady_content|]. intros c.
  destruct f; [apply steady_bind; [apply steady_put|intros; apply steady_lift]|apply steady_put].
Qed.
Lemma steady_zeros fuel i : forall pos left, steady (zeros_loop fuel i pos left).
Proof.
  induction fuel as [|f IH]; intros pos left; cbn [zeros_loop]; [apply steady_lift|].
  destruct (left =? 0); [apply steady_ret|]. destruct (writeSize <? left); [apply steady_bind; [apply steady_write|intros; apply IH]|].
  destruct (left <? 0); [apply steady_lift|]. apply steady_bind; [apply steady_write|intros; apply IH].
Qed.
Lemma steady_append i n : steady (AppendZeros i n).
Proof. apply steady_bind; [apply steady_size|]. intros. apply steady_zeros. Qed.
Lemma steady_fit i n : steady (fit i n).
Proof.
  apply steady_bind; [apply steady_size|]. intros k. destruct (k =? n); [apply steady_ret|].
  destruct (n <? k); apply steady_bind; first [apply steady_truncate|apply steady_append|intros; apply steady_ret].
Qed.
Lemma steady_close p : steady (Close p).
Proof.
  intros w r w' H. unfold Close in H. destruct (aget p (w_lfps w)) as [h|] eqn:E.
  - destruct (h_open h) eqn:Eo.
    + assert (St : steady (run f <- fault; fun w0 => (match f with Some _ => Err EIO | None => Ok tt end, set_lfps w0 (aput p (mkh (h_ino h) false) (w_lfps w0))))).
      { apply steady_bind; [apply steady_fault|]. intros f w0 r0 w0' H0. inversion H0; subst. exists []. reflexivity. }
      destruct (St _ _ _ H) as [u Hu]. exists u. intros rest. specialize (Hu rest). unfold Close. cbn [w_lfps set_flt]. rewrite E, Eo. exact Hu.
    + inversion H; subst. exists []. intros rest. unfold Close. cbn [w_lfps set_flt]. rewrite E, Eo. reflexivity.
  - inversion H; subst. exists []. intros rest. unfold Close. cbn [w_lfps set_flt]. rewrite E. reflexivity.
Qed.
Lemma steady_move a b : steady (Move a b).
Proof.
  intros w r w' H. unfold Move in H. destruct (aget a (w_lfps w)) as [h|] eqn:E.
  - match type of H with syscall ?f w = _ => assert (St : steady (syscall f)) end.
    { apply steady_syscall. intros w0 r0 w0' H0. destruct (pget _ _) as [i|] eqn:Ep; inversion H0; subst; exists []; intros rest; cbn [app];
      cbn [w_cwd w_names w_inos set_flt w_lfps w_flt]; rewrite Ep; reflexivity. }
    destruct (St _ _ _ H) as [u Hu]. exists u. intros rest. specialize (Hu rest). unfold Move. cbn [w_lfps set_flt]. rewrite E. exact Hu.
  - inversion H; subst. exists []. intros rest. unfold Move. cbn [w_lfps set_flt]. rewrite E. reflexivity.
Qed.

Lemma sim_embed {A} (m : io A) : steady m -> sim (embed m) m.
Proof. intros Hm t r t' H. unfold embed in H. destruct (m (tw_w t)) as [x w1] eqn:E. inversion H; subst. cbn [tw_w set_w]. now apply Hm. Qed.
Lemma sim_lift {A} (x : res A) : sim (tlift x) (lift x).
Proof. intros t r t' H. inversion H; subst. exists []. reflexivity. Qed.
Lemma sim_bind {A C} (tm : tio A) (m : io A) (tf : A -> tio C) (f : A -> io C) : sim tm m -> (forall a, sim (tf a) (f a)) -> sim (tbind tm tf) (iobind m f).
Proof.
  intros Hm Hf t r t' H. unfold tbind in H. destruct (tm t) as [x t1] eqn:E. destruct (Hm _ _ _ E) as [u1 H1].
  destruct x as [a|e| |].
  - destruct (Hf a _ _ _ H) as [u2 H2]. exists (u1 ++ u2). intros rest. unfold iobind. rewrite <- app_assoc, H1. apply H2.
  - inversion H; subst. exists u1. intros rest. unfold iobind. now rewrite H1.
  - inversion H; subst. exists u1. intros rest. unfold iobind. now rewrite H1.
  - inversion H; subst. exists u1. intros rest. unfold iobind. now rewrite H1.
Qed.
Lemma sim_losing {A} (tm : tio A) (m : io A) : sim tm m -> sim (losing tm) m.
Proof. intros Hm t r t' H. unfold losing in H. destruct (tm t) as [x t1] eqn:E. destruct (Hm _ _ _ E) as [u1 H1]. destruct x; inversion H; subst; exists u1; exact H1. Qed.

Lemma set_flt_id w : set_flt w (w_flt w) = w.
Proof. destruct w; reflexivity. Qed.
Lemma collect_w t r t' : collect t = (r, t') -> r = Ok tt /\ tw_w t' = tw_w t /\ tw_dirs t' = tw_dirs t.
Proof. unfold collect. destruct (tw_gc t); intros H; inversion H; subst; auto. Qed.
(** A body that is FsModel's, or refuses. *)
Lemma sim_fd {A} (tb : tio A) (b : io A) :
  (forall t r t', tb t = (r, t') -> (forall f, b (set_flt (tw_w t) f) = (r, set_flt (tw_w t') f)) \/ (r = Err EIO /\ t' = t)) ->
  sim (tsyscall (with_fd tb)) (syscall b).
Proof.
  intros Hb t r t' H. unfold tsyscall, tbind at 1 in H. unfold embed in H. destruct (fault (tw_w t)) as [x w1] eqn:Ef.
  assert (Hw : forall f, set_flt w1 f = set_flt (tw_w t) f) by (intros f; unfold fault in Ef; destruct (w_flt (tw_w t)); inversion Ef; subst; reflexivity).
  assert (Hx : exists f, x = Ok f) by (unfold fault in Ef; destruct (w_flt (tw_w t)); inversion Ef; subst; eauto).
  destruct Hx as [f ->]. cbn [set_w] in H. destruct f as [k|].
  { inversion H; subst. exists [Some 0]. intros rest. cbn [tw_w set_w]. rewrite Hw. reflexivity. }
  unfold with_fd, tbind in H. destruct (collect (set_w t w1)) as [y t1] eqn:Ec. destruct (collect_w _ _ _ Ec) as (-> & E1 & E2).
  cbn [tw_w set_w] in E1.
  assert (refuse : r = Err EIO -> tw_w t' = tw_w t1 -> exists used, forall rest, syscall b (set_flt (tw_w t) (used ++ rest)) = (r, set_flt (tw_w t') rest)).
  { intros -> Et. exists [Some 0]. intros rest. rewrite Et, E1, Hw. reflexivity. }
  destruct (tw_free t1) as [|n]; [inversion H; subst; apply refuse; reflexivity|].
  destruct (tb t1) as [z t2] eqn:Eb. destruct (Hb _ _ _ Eb) as [Hs|[-> ->]].
  - assert (Er : r = z /\ tw_w t' = tw_w t2) by (destruct z; inversion H; subst; split; reflexivity). destruct Er as [-> ->].
    exists [None]. intros rest. unfold syscall, iobind, fault. cbn [w_flt set_flt app w_cwd w_names w_inos w_lfps].
    specialize (Hs rest). rewrite E1, Hw in Hs. exact Hs.
  - inversion H; subst. apply refuse; reflexivity.
Qed.
Lemma sim_open p : sim (t_open p) (os_open p).
Proof.
  apply sim_fd. intros t r t' H. destruct (is_dir _ _); [inversion H; subst; auto|]. left. intros f. unfold at_place in H.
  cbn [w_cwd w_names set_flt]. destruct (pget _ _); inversion H; subst; reflexivity.
Qed.
Lemma sim_create p : sim (t_create p) (os_create p).
Proof.
  apply sim_fd. intros t r t' H. cbv zeta in H. destruct (is_dir _ _); [inversion H; subst; auto|]. unfold at_place in H.
  cbn [w_cwd w_names set_flt w_inos w_flt w_lfps]. destruct (pget _ _).
  - left. intros f. inversion H; subst. reflexivity.
  - destruct (is_dir _ _); inversion H; subst; [left; intros f; reflexivity|right; auto].
Qed.
Lemma sim_mkdirall p q : sim (t_mkdirall p) (os_mkdirall q).
Proof.
  intros t r t' H. unfold t_mkdirall, tbind, embed in H. destruct (fault (tw_w t)) as [x w1] eqn:Ef.
  assert (Hw : forall f, set_flt w1 f = set_flt (tw_w t) f) by (intros f; unfold fault in Ef; destruct (w_flt (tw_w t)); inversion Ef; subst; reflexivity).
  assert (Hx : exists f, x = Ok f) by (unfold fault in Ef; destruct (w_flt (tw_w t)); inversion Ef; subst; eauto).
  destruct Hx as [f ->]. destruct (mk_dirs _ _ _ _ _) as [ok ds]. inversion H; subst. cbn [tw_w set_w set_dirs].
  destruct ok; [exists [None]|exists [Some 0]]; intros rest; rewrite Hw; reflexivity.
Qed.
Lemma sim_czf p n : sim (tCreateZeroFilledFile p n) (CreateZeroFilledFile p n).
Proof.
  apply sim_bind; [apply sim_mkdirall|]. intros u. apply sim_bind; [apply sim_create|]. intros i. apply sim_losing.
  apply sim_bind; [apply sim_embed, steady_append|]. intros v. apply sim_lift.
Qed.
Lemma fit_is p L w : utils_OCAT p L w =
  match (match os_open p w with (Err _, w') => CreateZeroFilledFile p L w' | r => r end) with (Ok i, w') => fit i L w' | r => r end.
Proof.
  unfold utils_OCAT. destruct (os_open p w) as [[i|e| |] w1]; try reflexivity.
  destruct (CreateZeroFilledFile p L w1) as [[i|e1| |] w2]; reflexivity.
Qed.
Lemma sim_utils p L : sim (tutils_OCAT p L) (utils_OCAT p L).
Proof.
  intros t r t' H. unfold tutils_OCAT in H.
  assert (St : sim (fun t => match t_open p t with (Err _, t') => tCreateZeroFilledFile p L t' | r => r end)
                   (fun w => match os_open p w with (Err _, w') => CreateZeroFilledFile p L w' | r => r end)).
  { intros t0 r0 t0' H0. cbv beta in H0. destruct (t_open p t0) as [x t1] eqn:E. destruct (sim_open p _ _ _ E) as [u1 H1].
    destruct x as [i|e| |].
    - inversion H0; subst. exists u1. intros rest. now rewrite H1.
    - destruct (sim_czf p L _ _ _ H0) as [u2 H2]. exists (u1 ++ u2). intros rest. rewrite <- app_assoc, H1. apply H2.
    - inversion H0; subst. exists u1. intros rest. now rewrite H1.
    - inversion H0; subst. exists u1. intros rest. now rewrite H1. }
  destruct (match t_open p t with (Err _, t') => tCreateZeroFilledFile p L t' | r => r end) as [x t1] eqn:E.
  destruct (St _ _ _ E) as [u1 H1]. cbv beta in H1. destruct x as [i|e| |].
  - destruct (sim_losing _ _ (sim_embed _ (steady_fit i L)) _ _ _ H) as [u2 H2]. exists (u1 ++ u2). intros rest. rewrite fit_is, <- app_assoc, H1. apply H2.
  - inversion H; subst. exists u1. intros rest. rewrite fit_is. now rewrite H1.
  - inversion H; subst. exists u1. intros rest. rewrite fit_is. now rewrite H1.
  - inversion H; subst. exists u1. intros rest. rewrite fit_is. now rewrite H1.
Qed.
Lemma sim_OCAT p L : sim (tOCAT p L) (OCAT p L).
Proof. apply sim_bind; [apply sim_utils|]. intros i t r t' H. inversion H; subst. exists []. reflexivity. Qed.
Lemma sim_OCATAll files : sim (tOCATAll files) (OCATAll files).
Proof. induction files as [|e r IH]; cbn [tOCATAll OCATAll]; [apply (sim_lift (Ok tt))|]. apply sim_bind; [apply sim_OCAT|]. intros u. exact IH. Qed.
Lemma sim_Close p : sim (tClose p) (Close p).
Proof. intros t r t' H. unfold tClose in H. destruct (Close p (tw_w t)) as [x w1] eqn:E. inversion H; subst. cbn [tw_w set_w set_fds]. now apply steady_close. Qed.
Lemma sim_Move a b : sim (tMove a b) (Move a b).
Proof.
  intros t r t' H. unfold tMove in H. destruct (aget a (w_lfps (tw_w t))) as [h|] eqn:E; [|exact (sim_embed _ (steady_move a b) _ _ _ H)].
  destruct (_ || _); [|exact (sim_embed _ (steady_move a b) _ _ _ H)].
  unfold tsyscall, tbind, embed, fault in H.
  assert (r = Err EIO /\ forall f, set_flt (tw_w t') f = set_flt (tw_w t) f) as [-> Hw].
  { destruct (w_flt (tw_w t)) as [|[k|] fl]; inversion H; subst; split; reflexivity. }
  exists [Some 0]. intros rest. unfold Move. cbn [w_lfps set_flt app]. rewrite E, Hw. reflexivity.
Qed.

Lemma sim_call c : sim (do_call c) (fs_call c).
Proof. destruct c; [apply sim_OCAT|apply sim_Close|apply sim_Move]. Qed.
Lemma sim_calls : forall cs t rs t', calls cs t = (rs, t') -> exists used, forall rest, fs_calls cs (set_flt (tw_w t) (used ++ rest)) = (rs, set_flt (tw_w t') rest).
Proof.
  induction cs as [|c cs IH]; intros t rs t' H; cbn [calls fs_calls] in *.
  - injection H as <- <-. exists []. reflexivity.
  - destruct (do_call c t) as [x t1] eqn:E. destruct (sim_call c t x t1 E) as (u1 & H1). destruct x as [[]|e| |].
    + destruct (calls cs t1) as [xs t2] eqn:E2. injection H as <- <-. destruct (IH _ _ _ E2) as (u2 & H2). exists (u1 ++ u2). intros rest. rewrite <- app_assoc, H1, H2. reflexivity.
    + destruct (calls cs t1) as [xs t2] eqn:E2. injection H as <- <-. destruct (IH _ _ _ E2) as (u2 & H2). exists (u1 ++ u2). intros rest. rewrite <- app_assoc, H1, H2. reflexivity.
    + injection H as <- <-. exists u1. intros rest. now rewrite H1.
    + injection H as <- <-. exists u1. intros rest. now rewrite H1.
Qed.
Lemma tMove_safe a b t r t' : tMove a b t = (r, t') -> r = Ok tt \/ exists e, r = Err e.
Proof.
  intros H. destruct (sim_Move a b _ _ _ H) as (u & H1). specialize (H1 []). rewrite app_nil_r in H1. clear H. set (w := set_flt (tw_w t) u) in H1. clearbody w. set (w' := set_flt (tw_w t') []) in H1. clearbody w'.
  unfold Move in H1. destruct (aget a (w_lfps w)) as [h|]; [|inversion H1; eauto].
  unfold syscall, iobind, fault in H1. destruct (w_flt w) as [|[k|] fl]; cbv beta iota zeta in H1; [|inversion H1; eauto|];
    match type of H1 with context [pget ?x ?y] => destruct (pget x y) end; inversion H1; eauto.
Qed.
