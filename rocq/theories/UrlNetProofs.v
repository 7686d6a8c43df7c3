(** UrlNetProofs.v: tracker.Get and NewSwarm by the text of the announce URL. *)
From Coq Require Import ZifyBool ZifyNat ZifyN.
From Verif Require Import Base BencodeModel BitfieldModel BitfieldSpec PathModel PathSpec LayoutModel LayoutSpec PieceMapProofs InfoSpec BencodeProofs InfoProofs
  PptModel PeerModel UtilsModel FsModel FsSpec FsProofs OcatProofs SwarmModel TrackerModel TrackerSpec StartModel StartSpec StartProofs UrlModel UrlSpec UrlProofs.

Lemma Parse_top a : (exists u, Parse a = Ok u) <-> url_text a. Proof. exact (Parse_iff a). Qed.
Lemma Parse_no a : ~ url_text a <-> url_query a = None.
Proof.
  rewrite <- Parse_iff. unfold url_query, okp. destruct (Parse a) as [u| | |]; split; try congruence; try (intros _ [u' H]; discriminate); intros H; exfalso; apply H; eexists; reflexivity.
Qed.
Lemma parts_top a s h path q : url_text a -> parts a s h path q -> Parse a = Ok (mkurl (map small s) [] (meaning h) (meaning path) (tl q)).
Proof. intros H Hp. apply Parse_iff in H. destruct H as [u H]. rewrite H. destruct (Parse_parts a s h path q u Hp H) as [-> _]. reflexivity. Qed.
Lemma crash_top answer pip tor st port id : tracker_Get (http_net answer pip) tor st port id = Panic <-> ~ url_text (t_announce tor).
Proof.
  rewrite Parse_no. destruct (tracker_Get_cases (http_net answer pip) tor st port id) as [[E1 E2]|(raw & E1 & E2)]; cbn [http_net n_query] in E1.
  - rewrite E2. tauto.
  - split; [|congruence]. intros E. rewrite E in E2. destruct E2 as [[r E2]|[e E2]]; discriminate.
Qed.
Lemma unreachable_top answer pip tor st port id : url_text (t_announce tor) -> ~ http_text (t_announce tor) -> tracker_Get (http_net answer pip) tor st port id = Err EIO.
Proof.
  intros H Hn. apply Parse_iff in H. destruct H as [u H]. unfold tracker_Get. cbn [http_net n_query n_answer n_parseIP]. unfold url_query. rewrite H. unfold newRequest. cbn [bind].
  destruct (contacted u) eqn:E; [|reflexivity]. exfalso. apply Hn. apply (contacted_iff _ _ H). exact E.
Qed.
Lemma asked_top answer pip tor port src fuel id s h path q : NewPeerId src fuel = Ok id -> http_text (t_announce tor) -> parts (t_announce tor) s h path q -> clean_query (tl q) ->
  exists sent, (forall k, form_values sent k = form_values (tl q) k ++ values_of (announce_params (t_infohash tor) (NewStats 0 0 0) port id) k) /\
    tracker_Get (http_net answer pip) tor (NewStats 0 0 0) port id =
      match answer (mkurl (map small s) [] (meaning h) (meaning path) (tl q)) sent with None => Err EIO | Some body => handle_body pip body end.
Proof.
  intros Hid Hh Hp Hc. assert (E : Parse (t_announce tor) = Ok (mkurl (map small s) [] (meaning h) (meaning path) (tl q))) by (apply parts_top; [apply Hh|exact Hp]).
  destruct (announce_top (http_net answer pip) tor port src fuel id (tl q) Hid) as (sent & H1 & H2); [cbn [http_net n_query]; unfold url_query; rewrite E; reflexivity|exact Hc|].
  exists sent. split; [exact H1|]. rewrite H2. cbn [http_net n_answer n_parseIP]. rewrite E. rewrite (proj2 (contacted_iff _ _ E) Hh). reflexivity.
Qed.
Lemma answered answer pip tor st port id r : tracker_Get (http_net answer pip) tor st port id = Ok r -> http_text (t_announce tor).
Proof.
  unfold tracker_Get. cbn [http_net n_query n_answer n_parseIP]. unfold url_query. destruct (Parse (t_announce tor)) as [u| | |] eqn:E; try discriminate. cbn [bind]. unfold newRequest. cbn [bind].
  destruct (contacted u) eqn:Ec; [|discriminate]. intros _. apply (contacted_iff _ _ E). exact Ec.
Qed.
Lemma needs_http sha1 answer pip src fuel sp o w s w' : NewSwarm sha1 (http_net answer pip) src fuel sp o w = (Ok s, w') -> http_text (t_announce (sw_tor s)).
Proof.
  unfold NewSwarm. intros H. cbv zeta in H.
  repeat match goal with
  | H : iobind ?m _ _ = (Ok _, _) |- _ => let E := fresh "E" in unfold iobind at 1 in H; destruct (m _) as [[?| | |] ?] eqn:E; try discriminate
  end.
  unfold ret in H. injection H as <- _. cbn [sw_tor].
  match goal with E : lift (tracker_Get _ _ _ _ _) _ = _ |- _ => unfold lift in E; injection E as E _; exact (answered _ _ _ _ _ _ _ E) end.
Qed.
Lemma no_url_top sha1 answer pip src fuel sp o w id c tor P hashes files :
  NewPeerId src fuel = Ok id -> fs_wf w -> no_faults w -> file_at w (o_input o) = Some c -> FromTorrentFile sha1 (mkslice c sp) (o_wd o) = Ok tor ->
  made P hashes files (t_info tor) -> NoDup (places w files) -> zlen hashes / 20 < 4294967296 -> ~ http_text (t_announce tor) ->
  exists r w' contents, NewSwarm sha1 (http_net answer pip) src fuel sp o w = (r, w') /\ opened w' (t_info tor) contents /\ Forall2 (sized w w') files contents /\
    (url_text (t_announce tor) -> r = Err EIO) /\ (~ url_text (t_announce tor) -> r = Panic).
Proof.
  intros Hid Hwf Hnf Hc Htor Hm HND HN Hh. destruct (NewSwarm_any sha1 (http_net answer pip) src fuel sp o w id c tor P hashes files Hid Hwf Hc Htor Hm HND HN) as (r & w' & E & _ & _ & _ & [C|[[_ C]|C]]).
  - destruct C as (s & contents & resp & _ & Et & _). exfalso. apply Hh. exact (answered _ _ _ _ _ _ _ Et).
  - exfalso. exact (C Hnf).
  - destruct C as [(contents & Ho & Hs) C]. exists r, w', contents. split; [exact E|]. split; [exact Ho|]. split; [exact Hs|].
    split; intros Hu; destruct C as [(e & Ht & ->)|[Ht ->]]; try reflexivity.
    + rewrite unreachable_top in Ht by assumption. congruence.
    + exfalso. apply crash_top in Ht. contradiction.
    + apply (crash_top answer pip tor (NewStats 0 0 0) (OptPort o) id) in Hu. rewrite Hu in Ht. discriminate.
Qed.
