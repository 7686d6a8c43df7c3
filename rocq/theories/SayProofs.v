(** SayProofs.v: lemmas about the errors of loading a torrent and of the first announce. *)
From Coq Require Import ZifyBool ZifyNat ZifyN.
From Verif Require Import Base BencodeModel BencodeSpec BencodeProofs PeerModel PathModel LayoutModel LayoutSpec LayoutProofs PieceMapProofs InfoProofs LoadSpec LoadProofs.
From Verif Require Import BitfieldModel PptModel FsModel SwarmModel UtilsModel TrackerModel TrackerSpec TrackerProofs DiagModel DiagSpec DiagProofs StartModel PrintModel SayModel SaySpec.

(** ** The same results *)
Definition agree {A} (m : said A) (r : res A) : Prop :=
  match m with Fine a => r = Ok a | Says _ => exists e, r = Err e | Dies => r = Panic | Endless => r = NoFuel end.
Lemma agree_bind {A C} (m : said A) r (f : A -> said C) g : agree m r -> (forall a, m = Fine a -> agree (f a) (g a)) -> agree (sbind m f) (do x <- r; g x).
Proof. destruct m; cbn; intros H K; [rewrite H; now apply K|destruct H as (e & ->); cbn; eauto|now rewrite H|now rewrite H]. Qed.
Lemma agree_of {A} (r : res A) : (forall e, r <> Err e) -> agree (of_res r) r.
Proof. destruct r; cbn; intros H; auto. destruct (H e eq_refl). Qed.
Lemma agree_str d k : agree (GetStringE d k) (GetString d k).
Proof. unfold GetStringE, GetString, getE, dict_get. destruct (dget k d) as [[| [] | | |]|]; cbn; eauto. Qed.
Lemma agree_int d k : agree (GetIntE d k) (GetInt d k).
Proof. unfold GetIntE, GetInt, getE, dict_get. destruct (dget k d) as [[| [] | | |]|]; cbn; eauto. Qed.
Lemma agree_uint d k : agree (GetUintE d k) (GetUint d k).
Proof. unfold GetUintE, GetUint. apply (agree_bind _ _ _ (fun v => Ok (u64 v)) (agree_int d k)). intros a _. reflexivity. Qed.
Lemma agree_dict d k : agree (GetDictE d k) (GetDict d k).
Proof. unfold GetDictE, GetDict, getE, dict_get. destruct (dget k d) as [[| [] | | |]|]; cbn; eauto. Qed.
Lemma agree_list d k : agree (GetListE d k) (GetList d k).
Proof. unfold GetListE, GetList, getE, dict_get. destruct (dget k d) as [[| [] | | |]|]; cbn; eauto. Qed.
Lemma agree_concat l : agree (path_concatE l) (path_concat l).
Proof.
  induction l as [|v l IH]; [reflexivity|]. destruct v; cbn [path_concatE path_concat]; try (cbn; eauto; fail).
  apply agree_bind; [exact IH|]. intros a _. reflexivity.
Qed.
Lemma agree_path l : agree (path_of_listE l) (path_of_list l).
Proof. unfold path_of_listE, path_of_list. apply agree_bind; [apply agree_concat|]. intros [|b s] _; reflexivity. Qed.
Lemma agree_entries l : agree (FromBenListE l) (FromBenList l).
Proof.
  induction l as [|v l IH]; [reflexivity|]. destruct v; cbn [FromBenListE FromBenList]; try (cbn; eauto; fail).
  apply agree_bind; [apply agree_int|intros n _]. apply agree_bind; [apply agree_list|intros pl _]. apply agree_bind; [apply agree_path|intros p _].
  apply agree_bind; [exact IH|intros es _]. reflexivity.
Qed.
Lemma agree_files info wd name : agree (dict_entriesE info wd name) (dict_entries info wd name).
Proof.
  unfold dict_entriesE, dict_entries. pose proof (agree_int info (B "length")) as H. destruct (GetIntE info (B "length")); cbn [agree] in H; [rewrite H; reflexivity| |now rewrite H|now rewrite H].
  destruct H as (e & ->). pose proof (agree_list info (B "files")) as H. destruct (GetListE info (B "files")) as [fl| | |]; cbn [agree] in H; [rewrite H| |now rewrite H|now rewrite H].
  - apply agree_bind; [apply agree_entries|]. intros fes _. reflexivity.
  - destruct H as (e' & ->). cbn. eauto.
Qed.
Lemma pm_inner_noerr e k P : forall f s x, pm_inner f e k P s <> Err x.
Proof.
  induction f as [|f IH]; intros [[[pm pidx] prem] tot] x; cbn [pm_inner]; [discriminate|]. destruct (PieceInfo e pidx P); try discriminate.
  destruct (pidx <? 0); [discriminate|]. destruct (nth_error pm (Z.to_nat pidx)); [|discriminate]. destruct (_ <=? 0); [apply IH|discriminate].
Qed.
Lemma pm_outer_noerr n P : forall fl k s x, pm_outer fl k n P s <> Err x.
Proof.
  induction fl as [|e fl IH]; intros k [[[pm pidx] prem] tot] x; cbn [pm_outer]; [discriminate|]. destruct (pidx =? n); [discriminate|].
  pose proof (pm_inner_noerr e k P (pm_fuel e pidx) (pm, pidx, prem, tot)) as H. destruct (pm_inner _ e k P _) as [s'|e'| |]; cbn [bind]; try discriminate; [apply IH|]. destruct (H e' eq_refl).
Qed.
Lemma file_step_noerr b P i o x : file_step b P i o <> Err x.
Proof. unfold file_step, div64, rem64. destruct (P =? 0); cbn [bind]; [discriminate|]. destruct (P <=? _); cbn [bind]; destruct (_ =? P); discriminate. Qed.
Lemma MakeFileList_noerr P : forall bs i o x, MakeFileList_loop bs P i o <> Err x.
Proof.
  induction bs as [|b bs IH]; intros i o x; cbn [MakeFileList_loop]; [discriminate|]. pose proof (file_step_noerr b P i o) as H.
  destruct (file_step b P i o) as [[[e i'] o']|e| |]; cbn [bind]; try discriminate; [|destruct (H e eq_refl)].
  pose proof (IH i' o') as H'. destruct (MakeFileList_loop bs P i' o') as [|e'| |]; cbn [bind]; try discriminate. destruct (H' e' eq_refl).
Qed.
Lemma agree_info name P hashes fs : agree (NewTorInfoE name P hashes fs) (NewTorInfo name P hashes fs).
Proof.
  unfold NewTorInfoE, NewTorInfo. destruct (negb _); [cbn; eauto|]. apply agree_bind; [apply agree_of, MakeFileList_noerr|intros fl _].
  apply agree_bind; [|intros pm _; reflexivity]. unfold MakePieceMapE, MakePieceMap. apply agree_bind; [apply agree_of, pm_outer_noerr|].
  intros [[[pm pidx] prem] tot] _. destruct (tot =? _); cbn; eauto.
Qed.
Lemma agree_load sha1 v wd : agree (load_value sha1 v wd)
  (match v with VDict dict => do announce <- GetString dict (B "announce"); do infodict <- GetDict dict (B "info"); do ti <- FromDict infodict wd; Ok (mktor (sha1 (fst (BencodeModel.Encode (VDict infodict)))) announce ti) | _ => Err ENotDict end).
Proof.
  destruct v; cbn [load_value]; try (cbn; eauto; fail). apply agree_bind; [apply agree_str|intros a _]. apply agree_bind; [apply agree_dict|intros i _].
  apply agree_bind; [|intros ti _; reflexivity]. unfold FromDictE, FromDict. apply agree_bind; [apply agree_str|intros name _]. apply agree_bind; [apply agree_int|intros P _].
  apply agree_bind; [apply agree_str|intros h _]. apply agree_bind; [apply agree_files|intros fes _]. apply agree_info.
Qed.
Lemma agree_decode data : agree (DecodeE data) (Decode data).
Proof. unfold DecodeE. pose proof (same_top data) as H. destruct (DecodeD data) as [v|c k|]; cbn; [exact H|destruct H as (e & H & _); eauto|destruct H]. Qed.
Lemma agree_top sha1 data wd : agree (FromTorrentFileE sha1 data wd) (FromTorrentFile sha1 data wd).
Proof. unfold FromTorrentFileE, FromTorrentFile. apply agree_bind; [apply agree_decode|]. intros v _. apply agree_load. Qed.

Lemma compact_noerr : forall s e, compact_loop s <> Err e.
Proof.
  fix IH 1. intros s e. destruct s as [|a [|b [|c [|d [|x [|y r]]]]]]; try (cbn; discriminate). cbn [compact_loop].
  change (rd16 [x; y]) with (Ok (b2z x * 256 + b2z y)) || destruct (rd16 [x; y]) eqn:E; cbn [bind]; try discriminate.
  all: pose proof (IH r) as H; destruct (compact_loop r) as [|e'| |]; cbn [bind]; try discriminate; try (destruct (H e' eq_refl)).
Qed.
Lemma agree_peers parseIP l : forall acc, agree (list_GetPeersE parseIP l acc) (do rest <- list_GetPeers parseIP l; Ok (acc ++ rest)).
Proof.
  induction l as [|v l IH]; intros acc; [cbn; now rewrite app_nil_r|]. destruct v; cbn [list_GetPeersE list_GetPeers]; try (cbn; eauto; fail).
  pose proof (agree_str d (B "ip")) as H. destruct (GetStringE d (B "ip")) as [ip| | |]; cbn [agree] in H; [rewrite H|destruct H as (e & ->); cbn; eauto|rewrite H; reflexivity|rewrite H; reflexivity].
  cbn [bind sbind]. clear H.
  pose proof (agree_uint d (B "port")) as H. destruct (GetUintE d (B "port")) as [port| | |]; cbn [agree] in H; [rewrite H|destruct H as (e & ->); cbn; eauto|rewrite H; reflexivity|rewrite H; reflexivity].
  cbn [bind sbind]. clear H.
  pose proof (agree_str d (B "peer id")) as H. destruct (GetStringE d (B "peer id")) as [id| | |]; cbn [agree] in H; [rewrite H|destruct H as (e & ->); cbn; eauto|rewrite H; reflexivity|rewrite H; reflexivity].
  cbn [bind sbind]. clear H. specialize (IH (acc ++ [MakePeer id (parseIP ip) (u16 port)])).
  destruct (list_GetPeers parseIP l); cbn [bind] in IH |- *; try exact IH. now rewrite <- app_assoc in IH.
Qed.
Lemma agree_default {A} (a : A) m r : agree m r -> or_else a m = default a r.
Proof. destruct m; cbn; intros H; [now rewrite H|destruct H as (e & ->); reflexivity|now rewrite H|now rewrite H]. Qed.
Lemma agree_response parseIP d : agree (newResponseE parseIP d) (newResponse parseIP d).
Proof.
  unfold newResponseE, newResponse. pose proof (agree_str d (B "failure reason")) as H.
  assert (K : agree (ask inter <- GetUintE d (B "interval"); ask seeds <- GetUintE d (B "complete"); ask leeches <- GetUintE d (B "incomplete");
    ask peers <- match GetStringE d (B "peers") with Fine s => string_GetPeersE s | _ => ask l <- GetListE d (B "peers"); list_GetPeersE parseIP l [] end;
    Fine (mkresp (mkts inter (or_else 0 (GetUintE d (B "min interval"))) (or_else [] (GetStringE d (B "warning message"))) [] seeds leeches) peers))
    (do inter <- GetUint d (B "interval"); do seeds <- GetUint d (B "complete"); do leeches <- GetUint d (B "incomplete");
    do peers <- match GetString d (B "peers") with Ok s => string_GetPeers s | _ => do l <- GetList d (B "peers"); list_GetPeers parseIP l end;
    Ok (mkresp (mkts inter (default 0 (GetUint d (B "min interval"))) (default [] (GetString d (B "warning message"))) [] seeds leeches) peers))).
  { apply agree_bind; [apply agree_uint|intros i _]. apply agree_bind; [apply agree_uint|intros s _]. apply agree_bind; [apply agree_uint|intros le _].
    apply agree_bind.
    - assert (L : agree (ask l <- GetListE d (B "peers"); list_GetPeersE parseIP l []) (do l <- GetList d (B "peers"); list_GetPeers parseIP l)).
      { apply agree_bind; [apply agree_list|intros l _]. pose proof (agree_peers parseIP l []) as X. destruct (list_GetPeers parseIP l); exact X. }
      pose proof (agree_str d (B "peers")) as X. destruct (GetStringE d (B "peers")) as [t| | |]; cbn [agree] in X; [rewrite X|destruct X as (e & ->); exact L|rewrite X; exact L|rewrite X; exact L].
      unfold string_GetPeersE, string_GetPeers. destruct (_ =? 0); [apply agree_of, compact_noerr|cbn; eauto].
    - intros ps _. cbn [agree]. rewrite (agree_default 0 _ _ (agree_uint d (B "min interval"))), (agree_default [] _ _ (agree_str d (B "warning message"))). reflexivity. }
  destruct (GetStringE d (B "failure reason")) as [f| | |]; cbn [agree] in H; [rewrite H; cbn; eauto|destruct H as (e & ->); exact K|rewrite H; exact K|rewrite H; exact K].
Qed.
Lemma agree_body parseIP body : agree (handle_bodyE parseIP body) (handle_body parseIP body).
Proof.
  unfold handle_bodyE, handle_body. apply agree_bind; [apply agree_decode|intros v _]. destruct v; cbn [answer_value]; try (cbn; eauto; fail). apply agree_response.
Qed.
Lemma reason_same parseIP body r : handle_bodyE parseIP body = Says (WReason r) <-> handle_body parseIP body = Err (EFail r).
Proof.
  unfold handle_bodyE, handle_body. pose proof (agree_decode body) as H.
  destruct (DecodeE body) as [v|w| |] eqn:E; cbn [agree] in H.
  - rewrite H. cbn [bind sbind]. destruct v as [| |d| |]; cbn [answer_value]; try (split; discriminate).
    assert (HN : NoDup (map fst d)) by (pose proof (proj1 (Decode_wf _ _ H)) as W; inversion W; assumption).
    rewrite (newResponse_failure parseIP d r HN). unfold str_field. rewrite (str_iff d _ _ HN). unfold newResponseE.
    pose proof (agree_str d (B "failure reason")) as K. destruct (GetStringE d (B "failure reason")) as [f| | |] eqn:Ef; cbn [agree] in K.
    + rewrite K. split; intros X; injection X as ->; reflexivity.
    + destruct K as (e & ->). split; [|discriminate]. intros X. exfalso.
      assert (NR : forall A (m : said A) (f : A -> said response), (forall w', m = Says w' -> forall q, w' <> WReason q) -> (forall a, f a <> Says (WReason r)) -> sbind m f <> Says (WReason r)).
      { intros A m f Hm Hf. destruct m; cbn; try discriminate; [apply Hf|]. intros Y. injection Y as ->. exact (Hm _ eq_refl _ eq_refl). }
      assert (NI : forall dd k w', GetIntE dd k = Says w' -> forall q, w' <> WReason q).
      { intros dd k w'. unfold GetIntE, getE. destruct (dget k dd) as [[| [] | | |]|]; cbn; intros Y q ->; discriminate. }
      assert (NU : forall dd k w', GetUintE dd k = Says w' -> forall q, w' <> WReason q).
      { intros dd k w'. unfold GetUintE. pose proof (NI dd k) as Z. destruct (GetIntE dd k) eqn:EE; cbn; intros Y; try discriminate. injection Y as <-. exact (Z _ eq_refl). }
      assert (NS : forall dd k w', GetStringE dd k = Says w' -> forall q, w' <> WReason q).
      { intros dd k w'. unfold GetStringE, getE. destruct (dget k dd) as [[| [] | | |]|]; cbn; intros Y q ->; discriminate. }
      assert (NLs : forall dd k w', GetListE dd k = Says w' -> forall q, w' <> WReason q).
      { intros dd k w'. unfold GetListE, getE. destruct (dget k dd) as [[| [] | | |]|]; cbn; intros Y q ->; discriminate. }
      revert X. apply NR; [apply NU|intros i]. apply NR; [apply NU|intros s]. apply NR; [apply NU|intros le]. apply NR; [|discriminate].
      intros w' X q ->. assert (NP : forall ll acc, list_GetPeersE parseIP ll acc <> Says (WReason q)).
      { induction ll as [|v ll IH]; intros acc; [discriminate|]. destruct v; try discriminate. cbn [list_GetPeersE].
        pose proof (NS d0 (B "ip")) as Z1. destruct (GetStringE d0 (B "ip")); cbn [sbind]; try discriminate; [|intros Y; injection Y as ->; exact (Z1 _ eq_refl _ eq_refl)].
        pose proof (NU d0 (B "port")) as Z2. destruct (GetUintE d0 (B "port")); cbn [sbind]; try discriminate; [|intros Y; injection Y as ->; exact (Z2 _ eq_refl _ eq_refl)].
        pose proof (NS d0 (B "peer id")) as Z3. destruct (GetStringE d0 (B "peer id")); cbn [sbind]; try discriminate; [apply IH|intros Y; injection Y as ->; exact (Z3 _ eq_refl _ eq_refl)]. }
      assert (LL : (ask l <- GetListE d (B "peers"); list_GetPeersE parseIP l []) <> Says (WReason q)).
      { pose proof (NLs d (B "peers")) as Z1. destruct (GetListE d (B "peers")); cbn [sbind]; try discriminate; [apply NP|intros Y; injection Y as ->; exact (Z1 _ eq_refl _ eq_refl)]. }
      destruct (GetStringE d (B "peers")) as [t| | |]; try exact (LL X). unfold string_GetPeersE in X. destruct (_ =? 0); [|discriminate].
      destruct (compact_loop t); discriminate.
    + exfalso. unfold GetString, dict_get in K. destruct (dget _ d) as [[| | | |]|]; discriminate.
    + exfalso. unfold GetString, dict_get in K. destruct (dget _ d) as [[| | | |]|]; discriminate.
  - destruct H as (e & H). rewrite H. cbn [bind sbind]. split; intros X.
    + injection X as ->. unfold DecodeE in E. destruct (DecodeD body); discriminate.
    + injection X as ->. exfalso. pose proof (same_top body) as S. unfold DecodeE in E. destruct (DecodeD body) as [|c k|]; try discriminate.
      destruct S as (e & S & SS). rewrite S in H. injection H as ->. destruct c; cbn in SS; discriminate.
  - rewrite H. cbn. split; discriminate.
  - rewrite H. cbn. split; discriminate.
Qed.
