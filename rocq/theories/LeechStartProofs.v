(** LeechStartProofs.v: downloading from a swarm just started. *)
From Coq Require Import ZifyBool ZifyNat ZifyN.
From Verif Require Import Base BencodeModel BitfieldModel BitfieldSpec WireModel WireSpec WireProofs HandshakeModel HandshakeSpec PathModel PathSpec LayoutModel LayoutSpec PptModel PeerModel UtilsModel FsModel FsSpec FsProofs SwarmModel TrackerModel
  StartModel StartSpec StartProofs SessionModel SessionSpec RunModel RunSpec RunProofs RunStartProofs LeechSpec LeechProofs.

(** Each message in a buffer of its own. *)
Definition one_by_one (ms : list msg) : list (list msg * bytes) := map (fun m => ([m], [])) ms.
Lemma one_by_one_concat ms : List.concat (map fst (one_by_one ms)) = ms.
Proof. induction ms as [|m ms IH]; [reflexivity|]. cbn [one_by_one map fst List.concat app]. f_equal. exact IH. Qed.

Lemma download_all P hashes files c contents w0 ls s p port rsv id : swarm_up P hashes files c contents w0 -> no_faults w0 -> reaches (zlen hashes / 20) c w0 ls s -> Complete (sc_own c) = true ->
  List.length (sc_ih c) = 20%nat -> List.length rsv = 8%nat -> List.length id = 20%nat ->
  let T := zsum (lens_of files) in let n := zlen hashes / 20 in let k := List.length (ss_conns s) in
  exists more s' x, Forall (fun l => of_conn k l = true) more /\ delivered k more = map (fun m => (2%nat, mkslice (wire_of m) [])) (ask_all P T n) /\
    srun c (SAccept p port (mkread (handshake_of rsv (sc_ih c) id) false) (HandshakeModel.mkw true true) None :: more) s = Some s' /\
    nth_error (ss_conns s') k = Some x /\ k_up x = true /\ forall disk, zlen disk = T -> leech P disk (k_out x) = Some (List.concat contents).
Proof.
  intros Hup Hnf Hr Hc Hih Hrs Hid T n k. pose proof Hup as (Hm & HP & Hn & _). destruct (made_facts _ _ _ _ Hm) as (HP1 & HT & _ & _ & _ & _ & _ & _ & HN0 & HTn & _).
  destruct (download P hashes files c contents w0 ls s p port rsv id 2 (one_by_one (ask_all P T n)) Hup Hnf Hr Hih Hrs Hid) as (more & s' & x & M1 & M2 & M3 & M4 & M5 & M6).
  - apply Forall_map. pose proof (ask_all_polite P T n ltac:(lia) ltac:(fold T in HT; lia) ltac:(unfold n; lia)) as HF.
    assert (Hreq : Forall (fun m => exists i b l, m = MRequest i b l) (ask_all P T n)) by (apply Forall_map; apply Forall_forall; intros; eauto).
    rewrite Forall_forall in *. intros m Hin. cbn [fst]. split; [constructor; [apply HF; exact Hin|constructor]|]. destruct (Hreq m Hin) as (i & b & l & ->). split; [|cbn [List.length]; lia].
    vm_compute. reflexivity.
  - rewrite one_by_one_concat. apply ask_all_covers; [lia|exact HTn|exact Hc].
  - exists more, s', x. split; [exact M1|]. split; [|auto]. unfold k. rewrite M2. unfold one_by_one. rewrite map_map. apply map_ext. intros m. cbn [fst snd stream flat_map]. rewrite app_nil_r. reflexivity.
Qed.

Lemma started_download sha1 nt src fuel sp o w id ct tor P hashes files sw w' : (forall b, List.length (sha1 b) = 20%nat) ->
  NewPeerId src fuel = Ok id -> fs_wf w -> no_faults w -> file_at w (o_input o) = Some ct -> FromTorrentFile sha1 (mkslice ct sp) (o_wd o) = Ok tor ->
  made P hashes files (t_info tor) -> NoDup (places w files) -> 0 < zlen hashes / 20 < 4294967296 -> P < 4294967283 ->
  NewSwarm sha1 nt src fuel sp o w = (Ok sw, w') -> Complete (sw_bf sw) = true ->
  let c := mksc (t_info (sw_tor sw)) (t_infohash (sw_tor sw)) (sw_bf sw) (sw_id sw) in
  let T := zsum (lens_of files) in let n := zlen hashes / 20 in
  exists contents, Forall2 (fun f c => resized (old_at w (eb_local f)) (eb_len f) c) files contents /\
    (forall i, 0 <= i < n -> sha1 (piece_bytes P contents i) = hash_at hashes i) /\
    forall ls s p port rsv peer, Forall fair ls -> srun c ls (mkss (sw_ppt sw) w' []) = Some s -> List.length rsv = 8%nat -> List.length peer = 20%nat ->
      let k := List.length (ss_conns s) in
      exists more s' x, Forall (fun l => of_conn k l = true) more /\ delivered k more = map (fun m => (2%nat, mkslice (wire_of m) [])) (ask_all P T n) /\
        srun c (SAccept p port (mkread (handshake_of rsv (t_infohash tor) peer) false) (HandshakeModel.mkw true true) None :: more) s = Some s' /\
        nth_error (ss_conns s') k = Some x /\ k_up x = true /\ forall disk, zlen disk = T -> leech P disk (k_out x) = Some (List.concat contents).
Proof.
  intros Hsha Hid Hwf Hnf Hc Htor Hm HND HN HP E Hcomp c T n. destruct (NewSwarm_any sha1 nt src fuel sp o w id ct tor P hashes files Hid Hwf Hc Htor Hm HND ltac:(lia)) as (r & w1 & E1 & _ & _ & Hnf' & Hr).
  rewrite E in E1. injection E1 as <- <-.
  destruct Hr as [(s0 & contents & resp & Hs & _ & Ho & Hsz & Hres & Hb & Hi & _ & Ht & _ & _ & _ & _ & _ & Hp)|[[[e He] _]|[_ [(e & _ & He)|[_ He]]]]]; try discriminate.
  injection Hs as <-. exists contents. split; [apply Hres; exact Hnf|]. split; [apply Hb; exact Hcomp|].
  assert (Hup : swarm_up P hashes files c contents w') by (apply (right_bits_up sha1); cbn [c sc_ti sc_own]; rewrite ?Ht; assumption).
  intros ls s p port rsv peer Hf Hrun Hrs Hpe. assert (Hr : reaches (zlen hashes / 20) c w' ls s) by (exists (sw_ppt sw); auto).
  assert (Hih : List.length (sc_ih c) = 20%nat).
  { cbn [c sc_ih]. rewrite Ht. unfold FromTorrentFile in Htor. destruct (Decode _) as [v| | |]; try discriminate. cbn [bind] in Htor. destruct v; try discriminate.
    destruct (GetString _ _); try discriminate. cbn [bind] in Htor. destruct (GetDict _ _); try discriminate. cbn [bind] in Htor. destruct (FromDict _ _); try discriminate. cbn [bind] in Htor.
    inversion Htor. cbn [t_infohash]. apply Hsha. }
  destruct (download_all P hashes files c contents w' ls s p port rsv peer Hup (Hnf' Hnf) Hr Hcomp Hih Hrs Hpe) as (more & s' & x & M). exists more, s', x.
  cbn [c sc_ih] in M. rewrite Ht in M. exact M.
Qed.
