(** RunStartProofs.v: a swarm from its start on. *)
From Coq Require Import ZifyBool ZifyNat ZifyN.
From Verif Require Import Base BencodeModel BitfieldModel BitfieldSpec WireModel WireSpec HandshakeModel PathModel PathSpec LayoutModel LayoutSpec PptModel PeerModel UtilsModel FsModel FsSpec SwarmModel TrackerModel
  StartModel StartSpec StartProofs SessionModel SessionSpec RunModel RunSpec RunProofs.

(** ** From the start *)
Lemma right_bits_up sha1 P hashes files c contents w0 : made P hashes files (sc_ti c) -> P < 4294967283 -> 0 < zlen hashes / 20 < 4294967296 -> opened w0 (sc_ti c) contents ->
  right_bits sha1 P hashes contents (sc_own c) -> swarm_up P hashes files c contents w0.
Proof.
  intros Hm HP Hn Ho (_ & H1 & H2 & H3 & _). repeat (split; [assumption || lia|]). split; [|exact Ho]. cbn [msg_ok]. split; [exact H3|]. split; [congruence|]. rewrite H2. unfold bytes_for. Z.div_mod_to_equations. lia.
Qed.

Lemma started_serves sha1 nt src fuel sp o w id ct tor P hashes files sw w' :
  NewPeerId src fuel = Ok id -> fs_wf w -> file_at w (o_input o) = Some ct -> FromTorrentFile sha1 (mkslice ct sp) (o_wd o) = Ok tor ->
  made P hashes files (t_info tor) -> NoDup (places w files) -> 0 < zlen hashes / 20 < 4294967296 -> P < 4294967283 ->
  NewSwarm sha1 nt src fuel sp o w = (Ok sw, w') ->
  let c := mksc (t_info (sw_tor sw)) (t_infohash (sw_tor sw)) (sw_bf sw) (sw_id sw) in
  NewPeerPieceTracker (zlen hashes / 20) = Ok (sw_ppt sw) /\
  exists contents, Forall2 (sized w w') files contents /\ swarm_up P hashes files c contents w' /\
    forall ls s, Forall fair ls -> srun c ls (mkss (sw_ppt sw) w' []) = Some s ->
      disk_same w' (ss_world s) /\
      forall x, In x (ss_conns s) -> exists ms, Forall (proven sha1 P (zsum (lens_of files)) hashes contents) ms /\
        begins (k_out x) (MakeHandshake (t_infohash tor) id ++ stream (opening (sw_bf sw) x ++ ms)).
Proof.
  intros Hid Hwf Hc Htor Hm HND HN HP E c. destruct (NewSwarm_any sha1 nt src fuel sp o w id ct tor P hashes files Hid Hwf Hc Htor Hm HND ltac:(lia)) as (r & w1 & E1 & _ & _ & _ & Hr).
  rewrite E in E1. injection E1 as <- <-.
  destruct Hr as [(s0 & contents & resp & Hs & _ & Ho & Hsz & _ & Hb & Hi & _ & Ht & _ & _ & _ & _ & _ & Hp)|[[[e He] _]|[_ [(e & _ & He)|[_ He]]]]]; try discriminate.
  injection Hs as <-. split; [exact Hp|]. exists contents. split; [exact Hsz|].
  assert (Hup : swarm_up P hashes files c contents w') by (apply (right_bits_up sha1); cbn [c sc_ti sc_own]; rewrite ?Ht; assumption). split; [exact Hup|]. intros ls s Hf Hrun.
  assert (Hr : reaches (zlen hashes / 20) c w' ls s) by (exists (sw_ppt sw); auto). split; [apply (reach_world P hashes files c contents w' ls s Hup Hr)|].
  intros x Hx. destruct (reach_lawful P hashes files c contents w' ls s x Hup Hr Hx) as (ms & ps & reqs & late & H1 & H2 & _). exists ms.
  cbn [c sc_ih sc_id sc_own] in H2. rewrite Ht, Hi in H2. split; [|exact H2]. apply Forall_app in H1. eapply Forall_impl; [|apply H1].
  intros m [->|(i & b & blk & -> & G1 & G2 & _ & _ & G3)]; [left; reflexivity|right]. exists i, b, blk. split; [reflexivity|]. split; [exact G1|]. split; [|exact G3].
  destruct Hb as (_ & _ & _ & _ & Hbits & Hcomp). cbn [c sc_own] in G2. destruct G2 as [G2|G2]; [apply (proj1 Hcomp G2); exact G1|].
  destruct (Hbits i G1) as (v & Hv & Hiff). apply Hiff. congruence.
Qed.
