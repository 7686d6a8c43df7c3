(** PropsLoad.v: property C101, theorems only. *)
From Coq Require Import ZifyBool ZifyNat ZifyN.
From Verif Require Import Base BencodeModel BencodeProofs LenientSpec LenientProofs LayoutModel LayoutSpec LayoutProofs LoadSpec LoadProofs.

(** A file that loads says what the torrent then has, and where; the infohash is the hash of the encoding of its info dictionary. *)
Theorem C101_loaded : forall sha1 data sp wd tor, FromTorrentFile sha1 (mkslice data sp) wd = Ok tor ->
  exists announce info name P hashes fs, header data announce info name P hashes /\ lists_files info name fs /\ whole_hashes hashes /\
    says tor announce name P hashes fs /\ keeps_at sha1 tor wd info name fs.
Proof. exact load_means. Qed.
Print Assumptions C101_loaded.
(** A file says one thing only. *)
Theorem C101_unique : forall data a i n P h a' i' n' P' h' fs fs',
  header data a i n P h -> header data a' i' n' P' h' -> lists_files i n fs -> lists_files i' n' fs' -> a = a' /\ n = n' /\ P = P' /\ h = h' /\ fs = fs'.
Proof. exact header_unique. Qed.
Print Assumptions C101_unique.
(** With plausible numbers it loads if and only if the hashes are whole and enough; without enough it is refused only if they end where a file does. *)
Theorem C101_exactly : forall sha1 data sp wd announce info name P hashes fs,
  header data announce info name P hashes -> lists_files info name fs -> sane P (map snd fs) ->
  (whole_hashes hashes -> enough P hashes fs -> exists tor, FromTorrentFile sha1 (mkslice data sp) wd = Ok tor /\ says tor announce name P hashes fs /\ keeps_at sha1 tor wd info name fs) /\
  (~ whole_hashes hashes -> exists e, FromTorrentFile sha1 (mkslice data sp) wd = Err e) /\
  (whole_hashes hashes -> ~ enough P hashes fs -> ends_with_file P hashes fs -> exists e, FromTorrentFile sha1 (mkslice data sp) wd = Err e) /\
  (whole_hashes hashes -> ~ enough P hashes fs -> ~ ends_with_file P hashes fs -> FromTorrentFile sha1 (mkslice data sp) wd = Panic).
Proof. exact load_described. Qed.
Print Assumptions C101_exactly.
(** Without files any numbers do. *)
Theorem C101_no_files : forall sha1 data sp wd announce info name P hashes,
  header data announce info name P hashes -> lists_files info name [] -> whole_hashes hashes ->
  exists tor, FromTorrentFile sha1 (mkslice data sp) wd = Ok tor /\ says tor announce name P hashes [].
Proof. exact load_none. Qed.
Print Assumptions C101_no_files.
(** A piece length of zero with a file: a crash. *)
Theorem C101_zero : forall sha1 data sp wd announce info name hashes fs,
  header data announce info name 0 hashes -> lists_files info name fs -> whole_hashes hashes -> fs <> [] -> FromTorrentFile sha1 (mkslice data sp) wd = Panic.
Proof. exact load_zero. Qed.
Print Assumptions C101_zero.
(** A file without a path: a crash. *)
Theorem C101_pathless : forall sha1 data sp wd announce info name P hashes,
  header data announce info name P hashes -> pathless info -> FromTorrentFile sha1 (mkslice data sp) wd = Panic.
Proof. exact load_pathless. Qed.
Print Assumptions C101_pathless.
(** Everything else, any bytes at all, is refused with an error. *)
Theorem C101_refused : forall sha1 data sp wd,
  (forall announce info name P hashes fs, header data announce info name P hashes -> ~ lists_files info name fs /\ ~ pathless info) ->
  exists e, FromTorrentFile sha1 (mkslice data sp) wd = Err e.
Proof. exact load_rejects. Qed.
Print Assumptions C101_refused.

(** Hypotheses satisfied: five bytes in one file; ten bytes in two files, the hash covering the first; the same cut elsewhere; a path of no parts. *)
Definition h20 := B "20:aaaaaaaaaaaaaaaaaaaa".
Definition one := B "d8:announce1:x4:infod6:lengthi5e4:name1:a12:piece lengthi8e6:pieces" ++ h20 ++ B "ee".
Definition two (P : bytes) := B "d8:announce1:x4:infod5:filesld6:lengthi4e4:pathl1:b1:ceed6:lengthi6e4:pathl1:deee4:name1:a12:piece lengthi" ++ P ++ B "e6:pieces" ++ h20 ++ B "eejunk".
Definition bare := B "d8:announce1:x4:infod5:filesld6:lengthi4e4:pathleee4:name1:a12:piece lengthi8e6:pieces" ++ h20 ++ B "ee".
Lemma one_header : exists info, header one (B "x") info (B "a") 8 (repeat "a"%byte 20) /\ lists_files info (B "a") [(B "a", 5)].
Proof.
  destruct (Decode_reads (mkslice one []) _ ltac:(vm_compute; reflexivity)) as [(t & junk & Hl & E)|(ds & s1 & s2 & s3 & _ & _ & _ & _ & _ & _ & X)]; [|discriminate].
  eexists. split.
  - eexists. exists t, junk. split; [exact E|]. split; [exact Hl|]. repeat (split; [cbn; tauto|]). cbn. tauto.
  - left. exists 5. split; [cbn; tauto|reflexivity].
Qed.
Lemma two_header : forall P z, In (P, z) [(B "4", 4); (B "7", 7); (B "0", 0)] ->
  exists info, header (two P) (B "x") info (B "a") z (repeat "a"%byte 20) /\ lists_files info (B "a") [(B "b/c", 4); (B "d", 6)].
Proof.
  intros P z [X|[X|[X|[]]]]; injection X as <- <-.
  all: match goal with |- context [header ?d] => destruct (Decode_reads (mkslice d []) _ ltac:(vm_compute; reflexivity)) as [(t & junk & Hl & E)|(ds & s1 & s2 & s3 & _ & _ & _ & _ & _ & _ & X)] end; [|discriminate].
  all: eexists; split; [eexists; exists t, junk; split; [exact E|]; split; [exact Hl|]; repeat (split; [cbn; tauto|]); cbn; tauto|].
  all: right; split; [intros n H; cbn in H; repeat (destruct H as [H|H]; [discriminate|]); exact H|].
  all: eexists; split; [cbn; tauto|].
  all: constructor; [eexists _, [B "b"; B "c"], 4; repeat (split; [first [reflexivity|discriminate|cbn; tauto]|]); reflexivity|].
  all: constructor; [eexists _, [B "d"], 6; repeat (split; [first [reflexivity|discriminate|cbn; tauto]|]); reflexivity|constructor].
Qed.
Lemma bare_header : exists info, header bare (B "x") info (B "a") 8 (repeat "a"%byte 20) /\ pathless info.
Proof.
  destruct (Decode_reads (mkslice bare []) _ ltac:(vm_compute; reflexivity)) as [(t & junk & Hl & E)|(ds & s1 & s2 & s3 & _ & _ & _ & _ & _ & _ & X)]; [|discriminate].
  eexists. split.
  - eexists. exists t, junk. split; [exact E|]. split; [exact Hl|]. repeat (split; [cbn; tauto|]). cbn. tauto.
  - split; [intros n H; cbn in H; repeat (destruct H as [H|H]; [discriminate|]); exact H|].
    eexists _, [], _, [], [], 4. split; [cbn; tauto|]. split; [reflexivity|]. split; [constructor|]. split; cbn; tauto.
Qed.
Example C101_case : forall sha1 sp wd,
  (exists tor, FromTorrentFile sha1 (mkslice one sp) wd = Ok tor /\ says tor (B "x") (B "a") 8 (repeat "a"%byte 20) [(B "a", 5)]) /\
  (exists e, FromTorrentFile sha1 (mkslice (two (B "4")) sp) wd = Err e) /\
  FromTorrentFile sha1 (mkslice (two (B "7")) sp) wd = Panic /\ FromTorrentFile sha1 (mkslice (two (B "0")) sp) wd = Panic /\
  FromTorrentFile sha1 (mkslice bare sp) wd = Panic.
Proof.
  intros sha1 sp wd.
  assert (HS : forall P, 1 <= P < 100 -> sane P [4; 6]).
  { intros P HP. split; [unfold big; lia|]. split; [constructor; [lia|constructor; [lia|constructor]]|]. unfold big. cbn. lia. }
  split; [|split; [|split; [|split]]].
  - destruct one_header as (info & Hh & HL). destruct (C101_exactly sha1 one sp wd _ info _ 8 _ _ Hh HL) as (HX & _); [|destruct (HX ltac:(reflexivity) ltac:(vm_compute; discriminate)) as (tor & E & HY & _); eauto].
    split; [unfold big; lia|]. split; [constructor; [cbn; lia|constructor]|]. unfold big. cbn. lia.
  - destruct (two_header (B "4") 4) as (info & Hh & HL); [cbn; tauto|].
    apply (C101_exactly sha1 _ sp wd _ info _ 4 _ _ Hh HL); [apply HS; lia|reflexivity|vm_compute; intuition discriminate|].
    exists [(B "b/c", 4)], [(B "d", 6)]. split; reflexivity.
  - destruct (two_header (B "7") 7) as (info & Hh & HL); [cbn; tauto|].
    apply (C101_exactly sha1 _ sp wd _ info _ 7 _ _ Hh HL); [apply HS; lia|reflexivity|vm_compute; intuition discriminate|].
    intros (a & b & E & H). destruct a as [|x [|y [|z a]]]; cbn in E.
    + vm_compute in H. discriminate.
    + injection E as <- _. vm_compute in H. discriminate.
    + injection E as <- <- _. vm_compute in H. discriminate.
    + discriminate.
  - destruct (two_header (B "0") 0) as (info & Hh & HL); [cbn; tauto|]. apply (C101_zero sha1 _ sp wd _ info _ _ _ Hh HL); [reflexivity|discriminate].
  - destruct bare_header as (info & Hh & HL). exact (C101_pathless sha1 _ sp wd _ info _ _ _ Hh HL).
Qed.
Example C101_refused_case : forall sha1 sp wd, exists e, FromTorrentFile sha1 (mkslice (B "le") sp) wd = Err e.
Proof.
  intros sha1 sp wd. apply C101_refused. intros announce info name P hashes fs (d & t & junk & E & Hl & _). exfalso.
  destruct (Decode_complete _ _ junk [] Hl) as (w & Hw & Hg). rewrite <- E in Hw. vm_compute in Hw. injection Hw as <-. inversion Hg.
Qed.
