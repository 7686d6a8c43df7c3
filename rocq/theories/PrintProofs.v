(** PrintProofs.v: proofs about PrintModel. *)
From Coq Require Import ZifyBool ZifyNat ZifyN.
From Verif Require Import Base BencodeModel BencodeSpec DecimalProofs BencodeProofs BitfieldModel WireModel PptModel PeerModel PeerProofs UtilsModel UtilsProofs PathModel LayoutModel InfoProofs
  FsModel FsSpec SwarmModel TrackerModel StartModel StartProofs PrintModel PrintSpec.

(** ** Lines *)
Lemma lines_nonempty s : lines s <> [].
Proof. destruct s as [|b s]; cbn [lines]; [discriminate|]. destruct (Byte.eqb b x0a); [discriminate|]. destruct (lines s); discriminate. Qed.
Lemma lines_one s : no_nl s -> lines s = [s].
Proof.
  induction s as [|b s IH]; intros H; [reflexivity|]. cbn [lines]. destruct (Byte.eqb b x0a) eqn:E; [apply Byte_eqb_eq in E; subst b; contradiction H; left; reflexivity|].
  rewrite IH; [reflexivity|]. intros Hi. apply H. right. exact Hi.
Qed.
Lemma lines_app a b : no_nl a -> lines (a ++ nl ++ b) = a :: lines b.
Proof.
  induction a as [|x a IH]; intros H; [reflexivity|]. change ((x :: a) ++ nl ++ b) with (x :: (a ++ nl ++ b)). cbn [lines].
  destruct (Byte.eqb x x0a) eqn:E; [apply Byte_eqb_eq in E; subst x; contradiction H; left; reflexivity|].
  rewrite IH; [reflexivity|]. intros Hi. apply H. right. exact Hi.
Qed.
Lemma no_nl_app a b : no_nl a -> no_nl b -> no_nl (a ++ b).
Proof. unfold no_nl. intros Ha Hb H. apply in_app_iff in H. tauto. Qed.
Definition plain (s : bytes) : bool := negb (existsb (Byte.eqb x0a) s).
Lemma plain_ok s : plain s = true -> no_nl s.
Proof. unfold plain, no_nl. intros H Hi. apply negb_true_iff in H. rewrite <- not_true_iff_false in H. apply H. apply existsb_exists. exists x0a. split; [exact Hi|reflexivity]. Qed.
Lemma itoa_nl z : no_nl (itoa z).
Proof. apply itoa_no; [cbn; lia|discriminate]. Qed.
Lemma itoa_text z : int_text z (itoa z).
Proof.
  destruct (Z.lt_ge_cases z 0) as [H|H]; [right|left; apply itoa_decimal; lia]. destruct (itoa_neg z H) as (ds & E & Hd). eauto.
Qed.
Lemma strip_app l t : strip l (l ++ t) = Some t.
Proof. induction l as [|b l IH]; [reflexivity|]. cbn [app strip]. rewrite (proj2 (Byte_eqb_eq b b) eq_refl). exact IH. Qed.

(** ** Hexadecimal *)
Lemma hexdigit_nibble z : 0 <= z < 16 -> nibble (hexdigit z) = Some z.
Proof.
  intros H. assert (Hs : forallb (fun n => match nibble (hexdigit (Z.of_nat n)) with Some z => z =? Z.of_nat n | None => false end) (seq 0 16) = true) by (vm_compute; reflexivity).
  rewrite forallb_forall in Hs. specialize (Hs (Z.to_nat z) ltac:(apply in_seq; lia)). rewrite Z2Nat.id in Hs by lia. destruct (nibble (hexdigit z)); [|discriminate]. f_equal. lia.
Qed.
Lemma hex_read s : read_hex (hex_text s) = Some s.
Proof.
  induction s as [|b s IH]; [reflexivity|]. unfold hex_text in *. cbn [flat_map hex8 app read_hex]. pose proof (b2z_range b).
  assert (0 <= b2z b / 16 < 16) by (Z.div_mod_to_equations; lia). assert (0 <= b2z b mod 16 < 16) by (apply Z.mod_pos_bound; lia).
  rewrite !hexdigit_nibble by assumption. rewrite IH. f_equal. f_equal. rewrite <- Z.div_mod by lia. apply z2b_b2z.
Qed.
Lemma hex_nl s : no_nl (hex_text s).
Proof.
  unfold no_nl, hex_text. intros H. apply in_flat_map in H. destruct H as (b & _ & H). pose proof (hex8_ok b) as HF. rewrite Forall_forall in HF. specialize (HF _ H). discriminate.
Qed.

(** ** Sizes *)
Lemma Humans_ok n : in_i64 n -> exists num den u, Bytes4Humans n = Ok (num, den, u) /\ (den = 1 \/ 0 <= num) /\ 0 < den /\ no_nl u /\ ~ In ":"%byte u.
Proof.
  intros H. unfold in_i64 in H. destruct (Z.lt_ge_cases n 1024) as [Hn|Hn].
  - rewrite Humans_small by lia. eexists _, _, _. split; [reflexivity|]. split; [left; reflexivity|]. split; [lia|]. split; [now apply plain_ok|]. cbn. intuition discriminate.
  - destruct (Humans_big n ltac:(lia)) as (j & c & Hj & E & Hc & Hb & _). assert (Hp0 : 0 < 1024 ^ j) by (apply Z.pow_pos_nonneg; lia). rewrite E. eexists _, _, _. split; [reflexivity|]. split; [right; lia|]. split; [exact Hp0|]. apply nth_error_In in Hc. cbn in Hc.
    assert (Hp : plain ([c] ++ B "iB") = true /\ negb (existsb (Byte.eqb ":"%byte) ([c] ++ B "iB")) = true) by (destruct Hc as [<- |[<- |[<- |[<- |[<- |[<- |[]]]]]]]; split; reflexivity).
    split; [now apply plain_ok|]. intros Hi. destruct Hp as [_ Hp]. apply negb_true_iff in Hp. rewrite <- not_true_iff_false in Hp. apply Hp. apply existsb_exists. exists ":"%byte. split; [exact Hi|reflexivity].
Qed.
Lemma digit_range z : 0 <= z <= 9 -> b2z (digit z) = 48 + z.
Proof. intros H. unfold digit. rewrite b2z_z2b. apply Z.mod_small. lia. Qed.
Lemma fixed2_nl n d : no_nl (fixed2 n d).
Proof.
  unfold fixed2. set (h := Z.abs (hundredths n d)). apply no_nl_app; [destruct (n <? 0); now apply plain_ok|]. apply no_nl_app; [apply itoa_nl|]. apply no_nl_app; [now apply plain_ok|].
  assert (0 <= h / 10 mod 10 < 10) by (apply Z.mod_pos_bound; lia). assert (0 <= h mod 10 < 10) by (apply Z.mod_pos_bound; lia).
  intros [H1|[H1|[]]]; apply (f_equal b2z) in H1; rewrite digit_range in H1 by lia; change (b2z x0a) with 10 in H1; lia.
Qed.
Lemma fixed2_rounded num den : (den = 1 \/ 0 <= num) -> 0 < den -> rounded num den (fixed2 num den).
Proof.
  intros Hs Hd. unfold rounded, fixed2. remember (Z.abs (hundredths num den)) as h eqn:Eh.
  assert (H : 0 <= h /\ 2 * Z.abs (den * h - 100 * Z.abs num) <= den).
  { subst h. unfold hundredths. destruct Hs as [-> |Hn].
    - rewrite Z.mod_1_r, Z.div_1_r. change (2 * 0 <? 1) with true. cbn iota. split; [apply Z.abs_nonneg|]. rewrite Z.mul_1_l, Z.abs_mul. change (Z.abs 100) with 100. replace (Z.abs num * 100 - 100 * Z.abs num) with 0 by lia. cbn. lia.
    - pose proof (Z.div_mod (num * 100) den ltac:(lia)) as Hdm. pose proof (Z.mod_pos_bound (num * 100) den Hd) as Hm. pose proof (Z.div_pos (num * 100) den ltac:(lia) Hd) as Hq.
      set (q := num * 100 / den) in *. set (r := num * 100 mod den) in *. rewrite (Z.abs_eq num) by lia.
      destruct (Z.ltb_spec (2 * r) den); [|destruct (Z.ltb_spec den (2 * r)); [|destruct (Z.even q)]]; first [rewrite (Z.abs_eq q) by lia|rewrite (Z.abs_eq (q + 1)) by lia]; (split; [lia|]); rewrite ?Z.mul_add_distr_l, ?Z.mul_1_r; generalize dependent (den * q); intros; lia. }
  destruct H as [H0 H].
  assert (A : 0 <= h / 10 mod 10 < 10) by (apply Z.mod_pos_bound; lia). assert (C : 0 <= h mod 10 < 10) by (apply Z.mod_pos_bound; lia).
  exists (itoa (h / 100)), (h / 100), (digit (h / 10 mod 10)), (digit (h mod 10)). split; [reflexivity|]. split; [apply itoa_decimal; apply Z.div_pos; lia|]. rewrite !digit_range by lia.
  split; [lia|]. split; [lia|]. replace (100 * (h / 100) + 10 * (48 + h / 10 mod 10 - 48) + (48 + h mod 10 - 48)) with h; [exact H|]. clear. Z.div_mod_to_equations. lia.
Qed.
Lemma padl_no c n s : c <> x20 -> ~ In c s -> ~ In c (padl n s).
Proof. intros Hc Hs H. unfold padl in H. apply in_app_iff in H. destruct H as [H|H]; [apply repeat_spec in H; congruence|contradiction]. Qed.

(** ** The report on a torrent *)
Fixpoint zip_lines (ss ps : list bytes) : list bytes :=
  match ss, ps with s :: ss, p :: ps => (s ++ B " : " ++ p) :: zip_lines ss ps | _, _ => [] end.
Lemma file_lines_ok g fs : clean_floats g -> Forall (fun e => in_i64 (eb_len (en_base e))) fs ->
  exists t ss, file_lines g fs = Ok t /\ List.length ss = List.length fs /\ Forall (fun s => no_nl s /\ ~ In ":"%byte s) ss /\
    (Forall no_nl (map (fun e => eb_tor (en_base e)) fs) -> lines t = zip_lines ss (map (fun e => eb_tor (en_base e)) fs) ++ [[]]).
Proof.
  intros Hg. induction 1 as [|e fs He _ IH]; [exists [], []; repeat split; constructor|]. destruct IH as (t & ss & E & HL & HF & Hlines).
  cbn [file_lines]. destruct (Humans_ok _ He) as (num & den & u & Eh & _ & _ & Hu & Hc). rewrite Eh. cbn [bind]. rewrite E. cbn [bind].
  destruct (Hg num den) as [Hg1 Hg2].
  assert (Hn : no_nl (padl 8 (g num den ++ u)) /\ ~ In ":"%byte (padl 8 (g num den ++ u))).
  { split; (apply padl_no; [discriminate|]); [now apply no_nl_app|]. intros Hi. apply in_app_iff in Hi. tauto. }
  eexists _, (padl 8 (g num den ++ u) :: ss). split; [reflexivity|]. split; [cbn [List.length]; congruence|]. split; [constructor; assumption|].
  cbn [map]. intros HP. inversion HP as [|? ? Hp HP']; subst. cbn [zip_lines app]. rewrite <- (Hlines HP').
  replace (padl 8 (g num den ++ u) ++ B " : " ++ eb_tor (en_base e) ++ nl ++ t) with ((padl 8 (g num den ++ u) ++ B " : " ++ eb_tor (en_base e)) ++ nl ++ t) by (rewrite <- !app_assoc; reflexivity).
  apply lines_app. apply no_nl_app; [apply Hn|]. apply no_nl_app; [now apply plain_ok|exact Hp].
Qed.

Lemma report_lines g tor : clean_floats g -> int64_torrent tor ->
  exists text pl num den u fx ss, tor_String g tor = Ok text /\ Bytes4Humans (ti_length (t_info tor)) = Ok (num, den, u) /\ rounded num den fx /\ List.length ss = List.length (paths_of tor) /\ Forall (fun s => no_nl s /\ ~ In ":"%byte s) ss /\
    (no_nl (ti_name (t_info tor)) -> no_nl (t_announce tor) -> (ti_single (t_info tor) = false -> Forall no_nl (paths_of tor)) ->
      lines text = [B "Torrent Info:"; B "     Name: [" ++ ti_name (t_info tor) ++ B "]"; B " Announce: [" ++ t_announce tor ++ B "]"; B " Infohash: [" ++ hex_text (t_infohash tor) ++ B "]";
        B "   Pieces: [" ++ itoa (ti_npieces (t_info tor)) ++ B " x " ++ pl; B "   Length: [" ++ fx ++ B " " ++ u ++ B "]"; B "   Length: [" ++ itoa (ti_length (t_info tor)) ++ B " b]"] ++
        (if ti_single (t_info tor) then [] else B "Files:" :: zip_lines ss (paths_of tor) ++ [[]])).
Proof.
  intros Hg (H1 & H2 & H3). unfold tor_String. destruct (Humans_ok _ H1) as (pn & pd & pu & -> & _ & _ & Hpu & _). cbn [bind]. destruct (Humans_ok _ H2) as (ln & ld & lu & Eln & Hz1 & Hz2 & Hlu & _). rewrite Eln. cbn [bind].
  destruct (file_lines_ok g _ Hg H3) as (t & ss & Ef & HL & HF & Hlines).
  pose proof (fixed2_nl ln ld) as Hfx. pose proof (fixed2_rounded ln ld Hz1 Hz2) as Hrd. remember (fixed2 ln ld) as fx eqn:Efx. clear Efx.
  exists (B "Torrent Info:" ++ nl ++ B "     Name: [" ++ ti_name (t_info tor) ++ B "]" ++ nl ++ B " Announce: [" ++ t_announce tor ++ B "]" ++ nl ++ B " Infohash: [" ++ hex_text (t_infohash tor) ++ B "]" ++ nl ++
      B "   Pieces: [" ++ itoa (ti_npieces (t_info tor)) ++ B " x " ++ g pn pd ++ B " " ++ pu ++ B "]" ++ nl ++ B "   Length: [" ++ fx ++ B " " ++ lu ++ B "]" ++ nl ++
      B "   Length: [" ++ itoa (ti_length (t_info tor)) ++ B " b]" ++ (if ti_single (t_info tor) then [] else nl ++ B "Files:" ++ nl ++ t)).
  exists (g pn pd ++ B " " ++ pu ++ B "]"), ln, ld, lu, fx, ss.
  split; [destruct (ti_single _); [reflexivity|rewrite Ef; reflexivity]|]. split; [reflexivity|]. split; [exact Hrd|]. split; [unfold paths_of; rewrite map_length; exact HL|]. split; [exact HF|]. intros Hn Ha Hp.
  assert (P : forall s, plain s = true -> no_nl s) by exact plain_ok.
  rewrite lines_app by (apply P; reflexivity).
  assert (R : forall a b c r, (a ++ b ++ c ++ nl ++ r) = (a ++ b ++ c) ++ nl ++ r) by (intros; rewrite <- !app_assoc; reflexivity).
  rewrite R, lines_app by (repeat apply no_nl_app; try assumption; apply P; reflexivity).
  rewrite R, lines_app by (repeat apply no_nl_app; try assumption; apply P; reflexivity).
  rewrite R, lines_app by (repeat apply no_nl_app; try assumption; try apply hex_nl; apply P; reflexivity).
  match goal with |- context [lines (B "   Pieces: [" ++ ?a ++ ?b ++ ?c ++ ?d ++ ?e ++ ?f ++ nl ++ ?r)] => replace (B "   Pieces: [" ++ a ++ b ++ c ++ d ++ e ++ f ++ nl ++ r) with ((B "   Pieces: [" ++ a ++ b ++ c ++ d ++ e ++ f) ++ nl ++ r) by (rewrite <- !app_assoc; reflexivity) end.
  rewrite lines_app by (repeat apply no_nl_app; try assumption; try apply itoa_nl; try apply Hg; apply P; reflexivity).
  match goal with |- context [lines (B "   Length: [" ++ ?a ++ ?b ++ ?c ++ ?d ++ nl ++ ?r)] => replace (B "   Length: [" ++ a ++ b ++ c ++ d ++ nl ++ r) with ((B "   Length: [" ++ a ++ b ++ c ++ d) ++ nl ++ r) by (rewrite <- !app_assoc; reflexivity) end.
  rewrite lines_app by (repeat apply no_nl_app; try assumption; apply P; reflexivity).
  assert (Hlast : no_nl (B "   Length: [" ++ itoa (ti_length (t_info tor)) ++ B " b]")) by (repeat apply no_nl_app; try apply itoa_nl; apply P; reflexivity).
  destruct (ti_single (t_info tor)).
  - rewrite !app_nil_r. rewrite (lines_one _ Hlast). reflexivity.
  - match goal with |- context [lines (?a ++ ?b ++ ?c ++ nl ++ ?r)] => replace (a ++ b ++ c ++ nl ++ r) with ((a ++ b ++ c) ++ nl ++ r) by (rewrite <- !app_assoc; reflexivity) end.
    rewrite (lines_app _ _ Hlast). rewrite lines_app by (apply P; reflexivity). rewrite (Hlines (Hp eq_refl)). reflexivity.
Qed.

(** ** Numbers of a loaded torrent *)
Lemma in_dget_wf d k v : go_wf (VDict d) -> dget k d = Some v -> go_wf v.
Proof.
  intros H Hd. inversion H as [| |? HN _ HF| |]; subst. apply (dget_in k v d HN) in Hd. rewrite Forall_forall in HF. exact (HF _ Hd).
Qed.
Lemma GetInt_range d k z : go_wf (VDict d) -> GetInt d k = Ok z -> in_i64 z.
Proof.
  intros H. unfold GetInt, dict_get. destruct (dget k d) as [v|] eqn:E; [|discriminate]. pose proof (in_dget_wf _ _ _ H E) as Hv. destruct v as [|[] x| | |]; try discriminate.
  intros Hz. apply Ok_inj in Hz. subst x. inversion Hv as [|? ? Hk| | |]; subst. exact Hk.
Qed.
Lemma FromBenList_range l es : Forall go_wf l -> FromBenList l = Ok es -> Forall (fun e => in_i64 (eb_len e)) es.
Proof.
  intros H. revert es. induction H as [|v l Hv Hl IH]; intros es; cbn [FromBenList]; [intros E; apply Ok_inj in E; subst es; constructor|].
  destruct v as [| |d| |]; try discriminate. destruct (GetInt d (B "length")) as [n| | |] eqn:En; cbn [bind]; try discriminate. destruct (GetList d (B "path")) as [pl| | |]; cbn [bind]; try discriminate.
  destruct (path_of_list pl) as [p| | |]; cbn [bind]; try discriminate. destruct (FromBenList l) as [t| | |]; cbn [bind]; try discriminate. intros E. apply Ok_inj in E. subst es.
  constructor; [exact (GetInt_range _ _ _ Hv En)|]. now apply IH.
Qed.
Lemma sum64_range fs : in_i64 (sum64 fs).
Proof.
  unfold sum64. rewrite <- fold_left_rev_right. destruct (rev fs) as [|e r]; cbn [fold_right]; [unfold in_i64, min64, max64; lia|]. apply Base.i64_range.
Qed.
Lemma loaded_int64 sha1 fdata wd tor : FromTorrentFile sha1 fdata wd = Ok tor -> int64_torrent tor.
Proof.
  unfold FromTorrentFile. destruct (Decode fdata) as [v| | |] eqn:E; cbn [bind]; try discriminate. destruct (Decode_wf _ _ E) as [Hwf _]. destruct v as [| |d| |]; try discriminate.
  destruct (GetString d _) as [a| | |]; cbn [bind]; try discriminate. destruct (GetDict d _) as [im| | |] eqn:Ei; cbn [bind]; try discriminate.
  assert (Him : go_wf (VDict im)).
  { unfold GetDict, dict_get in Ei. destruct (dget _ d) as [v|] eqn:Ed; [|discriminate]. pose proof (in_dget_wf _ _ _ Hwf Ed) as Hv. destruct v as [| |im'| |]; try discriminate. apply Ok_inj in Ei. now subst im'. }
  destruct (FromDict im wd) as [ti| | |] eqn:Et; cbn [bind]; try discriminate. intros H. apply Ok_inj in H. subst tor. unfold int64_torrent. cbn [t_info].
  unfold FromDict in Et. destruct (GetString im (B "name")) as [nm| | |]; cbn [bind] in Et; try discriminate. destruct (GetInt im (B "piece length")) as [P| | |] eqn:EP; cbn [bind] in Et; try discriminate.
  destruct (GetString im (B "pieces")) as [hs| | |]; cbn [bind] in Et; try discriminate. destruct (dict_entries im wd nm) as [fs| | |] eqn:Ef; cbn [bind] in Et; try discriminate.
  destruct (NewTorInfo_fields _ _ _ _ _ Et) as (_ & -> & _ & -> & Hb & _). split; [exact (GetInt_range _ _ _ Him EP)|]. split; [apply sum64_range|].
  assert (Hfs : Forall (fun e => in_i64 (eb_len e)) fs).
  { unfold dict_entries in Ef. destruct (GetInt im (B "length")) as [L| | |] eqn:EL; try discriminate.
    - apply Ok_inj in Ef. subst fs. constructor; [exact (GetInt_range _ _ _ Him EL)|constructor].
    - destruct (GetList im (B "files")) as [fl| | |] eqn:EF; try discriminate. destruct (FromBenList fl) as [es| | |] eqn:EB; cbn [bind] in Ef; try discriminate. apply Ok_inj in Ef. subst fs.
      assert (Hfl : Forall go_wf fl).
      { unfold GetList, dict_get in EF. destruct (dget _ im) as [v|] eqn:Ed; [|discriminate]. pose proof (in_dget_wf _ _ _ Him Ed) as Hv. destruct v as [| | |l|]; try discriminate. apply Ok_inj in EF. subst l. now inversion Hv. }
      pose proof (FromBenList_range _ _ Hfl EB) as HR. clear - HR. induction HR; cbn [map]; constructor; assumption. }
  rewrite <- Hb in Hfs. clear - Hfs. induction (ti_files ti) as [|e r IH]; [constructor|]. cbn [map] in Hfs. inversion Hfs; subst. constructor; [assumption|]. now apply IH.
Qed.

(** ** Reading reports *)
Lemma first_sep (c : byte) (b b' : bytes) : forall a a', ~ In c a -> ~ In c a' -> a ++ c :: b = a' ++ c :: b' -> a = a' /\ b = b'.
Proof.
  induction a as [|x a IH]; intros [|y a'] Ha Ha' E; cbn [app] in E.
  - split; [reflexivity|]. exact (f_equal (@tl byte) E).
  - exfalso. apply Ha'. left. symmetry. exact (f_equal (hd x00) E).
  - exfalso. apply Ha. left. exact (f_equal (hd x00) E).
  - pose proof (f_equal (hd x00) E) as E1. pose proof (f_equal (@tl byte) E) as E2. cbn [hd tl] in E1, E2. subst y.
    destruct (IH a') as [-> ->]; [intros H; apply Ha; right; exact H|intros H; apply Ha'; right; exact H|exact E2|auto].
Qed.
Lemma itoa_sep z : ~ In " "%byte (itoa z) /\ ~ In "]"%byte (itoa z) /\ ~ In ")"%byte (itoa z) /\ ~ In x0a (itoa z).
Proof. repeat split; (apply itoa_no; [cbn; lia|discriminate]). Qed.
Lemma zip_length ss : forall ps, List.length ss = List.length ps -> List.length (zip_lines ss ps) = List.length ps.
Proof. induction ss as [|s ss IH]; intros [|p ps] H; cbn in *; [reflexivity|discriminate..|]. f_equal. apply IH. lia. Qed.
Lemma zip_rel ss : forall ps, List.length ss = List.length ps -> Forall (fun s => no_nl s /\ ~ In ":"%byte s) ss ->
  Forall2 (fun l p => exists s, l = s ++ B " : " ++ p /\ ~ In ":"%byte s) (zip_lines ss ps) ps.
Proof. induction ss as [|s ss IH]; intros [|p ps] H HF; cbn in *; [constructor|discriminate..|]. inversion HF as [|? ? H1 H2]; subst. constructor; [exists s; split; [reflexivity|apply H1]|]. apply IH; [lia|assumption]. Qed.
Lemma path_inj s s' p p' : ~ In ":"%byte s -> ~ In ":"%byte s' -> s ++ B " : " ++ p = s' ++ B " : " ++ p' -> p = p'.
Proof.
  intros H H' E.
  assert (R : forall s p, s ++ B " : " ++ p = (s ++ [" "%byte]) ++ ":"%byte :: ([" "%byte] ++ p)) by (intros; rewrite <- app_assoc; reflexivity). rewrite !R in E.
  assert (N : forall s, ~ In ":"%byte s -> ~ In ":"%byte (s ++ [" "%byte])) by (intros t Ht Hi; apply in_app_iff in Hi; destruct Hi as [Hi|[Hi|[]]]; [contradiction|discriminate]).
  apply first_sep in E; [|now apply N..]. destruct E as [_ E]. exact (app_inv_head [" "%byte] _ _ E).
Qed.
Lemma zip_inj ls : forall ps ps', Forall2 (fun l p => exists s, l = s ++ B " : " ++ p /\ ~ In ":"%byte s) ls ps -> Forall2 (fun l p => exists s, l = s ++ B " : " ++ p /\ ~ In ":"%byte s) ls ps' -> ps = ps'.
Proof.
  induction ls as [|l ls IH]; intros ps ps' H H'; inversion H; inversion H'; subst; [reflexivity|]. f_equal; [|now apply IH].
  repeat match goal with X : exists _, _ |- _ => destruct X as (? & ? & ?) end. subst. eapply path_inj; [| |eassumption]; assumption.
Qed.

Lemma report_reads g tor : clean_floats g -> int64_torrent tor -> exists text, tor_String g tor = Ok text /\ (printable tor -> reads_as tor (lines text)).
Proof.
  intros Hg Ht. destruct (report_lines g tor Hg Ht) as (text & pl & num & den & u & fx & ss & E & Eh & Hr & HL & HF & H). exists text. split; [exact E|]. intros (H1 & H2 & H3). rewrite (H H1 H2 H3). clear H.
  unfold reads_as. split; [reflexivity|]. split; [reflexivity|]. split; [exists (hex_text (t_infohash tor)); split; [reflexivity|apply hex_read]|].
  split; [exists (itoa (ti_npieces (t_info tor))), pl; split; [reflexivity|apply itoa_text]|]. split; [exists num, den, u, fx; split; [exact Eh|]; split; [reflexivity|exact Hr]|]. split; [exists (itoa (ti_length (t_info tor))); split; [reflexivity|apply itoa_text]|].
  destruct (ti_single (t_info tor)); [reflexivity|]. exists (zip_lines ss (paths_of tor)). split; [reflexivity|]. now apply zip_rel.
Qed.
Lemma int_text_inj z z' s : int_text z s -> int_text z' s -> z = z'.
Proof.
  intros [H|(ds & Hz & -> & H)] [H'|(ds' & Hz' & E & H')].
  - apply decimal_itoa in H, H'. apply itoa_inj. congruence.
  - subst s. exfalso. destruct H as (_ & H & _). inversion H as [|? ? Hd _]; subst. change (b2z "-") with 45 in Hd. lia.
  - exfalso. destruct H' as (_ & H' & _). inversion H' as [|? ? Hd _]; subst. change (b2z "-") with 45 in Hd. lia.
  - apply (f_equal (@tl byte)) in E. cbn [tl] in E. subst ds'. apply decimal_itoa in H, H'. assert (- z = - z') by (apply itoa_inj; congruence). lia.
Qed.
Lemma npieces_line n n' r r' z z' : int_text z n -> int_text z' n' -> n ++ B " x " ++ r = n' ++ B " x " ++ r' -> z = z'.
Proof.
  intros H H' E. assert (S : forall z s, int_text z s -> ~ In " "%byte s).
  { clear. intros z s [(_ & H & _)|(ds & _ & -> & (_ & H & _))] Hi; rewrite Forall_forall in H; [|destruct Hi as [Hi|Hi]; [discriminate|]]; specialize (H _ Hi); change (b2z " ") with 32 in H; lia. }
  change (B " x " ++ r) with (" "%byte :: B "x " ++ r) in E. change (B " x " ++ r') with (" "%byte :: B "x " ++ r') in E. apply first_sep in E; [|eauto..]. destruct E as [-> _]. eapply int_text_inj; eassumption.
Qed.
Lemma reads_inj tor tor' ls : reads_as tor ls -> reads_as tor' ls ->
  ti_name (t_info tor) = ti_name (t_info tor') /\ t_announce tor = t_announce tor' /\ t_infohash tor = t_infohash tor' /\ ti_npieces (t_info tor) = ti_npieces (t_info tor') /\
  ti_length (t_info tor) = ti_length (t_info tor') /\ ti_single (t_info tor) = ti_single (t_info tor') /\ (ti_single (t_info tor) = false -> paths_of tor = paths_of tor').
Proof.
  intros (A1 & A2 & (h & A3 & A3') & (n & r & A4 & A4') & _ & (m & A5 & A5') & A6) (B1 & B2 & (h' & B3 & B3') & (n' & r' & B4 & B4') & _ & (m' & B5 & B5') & B6).
  assert (S : forall x y : bytes, Some x = Some y -> x = y) by (intros x y H; now injection H).
  rewrite A1 in B1. apply S, app_inv_tail in B1. rewrite A2 in B2. apply S, app_inv_tail in B2. rewrite A3 in B3. apply S, app_inv_tail in B3. rewrite A4 in B4. apply S in B4. rewrite A5 in B5. apply S, app_inv_head, app_inv_tail in B5.
  split; [exact B1|]. split; [exact B2|]. split; [subst h'; congruence|]. split; [exact (npieces_line _ _ _ _ _ _ A4' B4' B4)|]. split; [subst m'; eapply int_text_inj; eassumption|].
  destruct (ti_single (t_info tor)), (ti_single (t_info tor')).
  - split; [reflexivity|discriminate].
  - exfalso. destruct B6 as (fl & E & _). apply (f_equal (@List.length bytes)) in E. rewrite skipn_length, A6 in E. discriminate.
  - exfalso. destruct A6 as (fl & E & _). apply (f_equal (@List.length bytes)) in E. rewrite skipn_length, B6 in E. discriminate.
  - split; [reflexivity|]. intros _. destruct A6 as (fl & E & HF), B6 as (fl' & E' & HF'). rewrite E in E'. injection E' as E'. apply app_inv_tail in E'. subst fl'. eapply zip_inj; eassumption.
Qed.
Lemma reports_differ g tor tor' text : clean_floats g -> int64_torrent tor -> int64_torrent tor' -> printable tor -> printable tor' -> tor_String g tor = Ok text -> tor_String g tor' = Ok text ->
  ti_name (t_info tor) = ti_name (t_info tor') /\ t_announce tor = t_announce tor' /\ t_infohash tor = t_infohash tor' /\ ti_npieces (t_info tor) = ti_npieces (t_info tor') /\
  ti_length (t_info tor) = ti_length (t_info tor') /\ ti_single (t_info tor) = ti_single (t_info tor') /\ (ti_single (t_info tor) = false -> paths_of tor = paths_of tor').
Proof.
  intros Hg H1 H2 P1 P2 E1 E2. destruct (report_reads g tor Hg H1) as (t1 & F1 & R1). destruct (report_reads g tor' Hg H2) as (t2 & F2 & R2).
  assert (t1 = text) by (apply Ok_inj; congruence). assert (t2 = text) by (apply Ok_inj; congruence). subst t1 t2. eapply reads_inj; [apply R1|apply R2]; assumption.
Qed.

(** ** The tracker's state and the peers *)
Lemma state_line_inj label v v' r r' : no_nl v -> no_nl v' -> state_line label v ++ r = state_line label v' ++ r' -> v = v' /\ r = r'.
Proof.
  intros H H' E. unfold state_line in E. rewrite <- !app_assoc in E. apply app_inv_head in E. apply app_inv_head in E.
  assert (R : forall v r, v ++ B "]" ++ nl ++ r = (v ++ B "]") ++ x0a :: r) by (intros; rewrite <- app_assoc; reflexivity). rewrite !R in E.
  apply first_sep in E; [|apply no_nl_app; [assumption|now apply plain_ok]..]. destruct E as [E ->]. apply app_inv_tail in E. auto.
Qed.
Lemma state_inj s s' r r' : quiet s -> quiet s' -> state_String s ++ r = state_String s' ++ r' -> s = s' /\ r = r'.
Proof.
  intros [H1 H2] [H1' H2'] E. unfold state_String in E. rewrite <- !app_assoc in E. apply app_inv_head in E. apply app_inv_head in E.
  apply state_line_inj in E; [|apply itoa_nl..]. destruct E as [E1 E]. apply state_line_inj in E; [|apply itoa_nl..]. destruct E as [E2 E]. apply state_line_inj in E; [|apply itoa_nl..]. destruct E as [E3 E].
  apply state_line_inj in E; [|assumption..]. destruct E as [E4 E]. apply state_line_inj in E; [|assumption..]. destruct E as [E5 E]. apply state_line_inj in E; [|apply itoa_nl..]. destruct E as [E6 E].
  apply itoa_inj in E1, E2, E3, E6. split; [|exact E]. destruct s, s'; cbn in *. congruence.
Qed.
Lemma peers_from_inj l : forall i l', List.length l = List.length l' -> peers_from i l = peers_from i l' -> addresses l = addresses l'.
Proof.
  induction l as [|v l IH]; intros i [|v' l'] HL E; try discriminate; [reflexivity|]. cbn [peers_from] in E. apply app_inv_head in E. apply app_inv_head in E.
  assert (R : forall (v : info) (r : bytes), IPString (pi_ip v) ++ B ":" ++ itoa (pi_port v) ++ B ") " ++ r = (IPString (pi_ip v) ++ B ":" ++ itoa (pi_port v)) ++ ")"%byte :: (B " " ++ r)) by (intros; rewrite <- !app_assoc; reflexivity).
  rewrite !R in E.
  assert (N : forall v, ~ In ")"%byte (IPString (pi_ip v) ++ B ":" ++ itoa (pi_port v))).
  { intros u Hi. apply in_app_iff in Hi. destruct Hi as [Hi|Hi]; [revert Hi; apply IPString_no; reflexivity|]. apply in_app_iff in Hi. destruct Hi as [[Hi|[]]|Hi]; [discriminate|]. revert Hi. apply itoa_sep. }
  apply first_sep in E; [|apply N..]. destruct E as [E1 E2]. apply app_inv_head in E2. cbn [addresses map]. f_equal; [exact E1|]. eapply IH; [|exact E2]. cbn in HL. lia.
Qed.
Lemma peers_from_fun l : forall i l', addresses l = addresses l' -> peers_from i l = peers_from i l'.
Proof.
  induction l as [|v l IH]; intros i [|v' l'] E; try discriminate; [reflexivity|]. cbn [addresses map] in E. 
  pose proof (f_equal (hd []) E) as E1. pose proof (f_equal (@tl bytes) E) as E2. cbn [hd tl] in E1, E2. cbn [peers_from]. rewrite (IH (S i) l' E2). f_equal. f_equal.
  assert (R : forall (v : info) (r : bytes), IPString (pi_ip v) ++ B ":" ++ itoa (pi_port v) ++ r = (IPString (pi_ip v) ++ B ":" ++ itoa (pi_port v)) ++ r) by (intros; rewrite <- !app_assoc; reflexivity).
  rewrite !R. now rewrite E1.
Qed.
Lemma list_inj l l' : list_String l = list_String l' <-> addresses l = addresses l'.
Proof.
  unfold list_String. split; intros E.
  - apply app_inv_head in E. change (B "):") with (")"%byte :: B ":") in E. cbn [app] in E. apply first_sep in E; [|apply itoa_sep..]. destruct E as [E1 E2]. apply itoa_inj in E1. apply app_inv_head with (l := B ":") in E2.
    eapply peers_from_inj; [unfold zlen in E1; lia|exact E2].
  - rewrite (peers_from_fun l 0 l' E). assert (HL : List.length l = List.length l') by (apply (f_equal (@List.length bytes)) in E; unfold addresses in E; now rewrite !map_length in E). unfold zlen. now rewrite HL.
Qed.
Lemma peers_run l : forall i, (Nat.modulo i 5 + List.length l <= 5)%nat -> Nat.modulo i 5 <> 0%nat -> forall r, peers_from i (l ++ r) = List.concat (map (fun a => B "(" ++ a ++ B ") ") (addresses l)) ++ peers_from (i + List.length l) r.
Proof.
  induction l as [|v l IH]; intros i H H0 r; [cbn [app addresses map List.concat List.length]; now rewrite Nat.add_0_r|]. cbn [List.length] in H.
  cbn [app peers_from addresses map List.concat]. replace (Nat.eqb (Nat.modulo i 5) 0) with false by (symmetry; now apply Nat.eqb_neq). cbn [app].
  replace (i + List.length (v :: l))%nat with (S i + List.length l)%nat by (cbn; lia).
  assert (T : peers_from (S i) (l ++ r) = List.concat (map (fun a => B "(" ++ a ++ B ") ") (addresses l)) ++ peers_from (S i + List.length l) r).
  { destruct l as [|v' l]; [cbn [app addresses map List.concat List.length]; now rewrite Nat.add_0_r|]. assert (E : (S i mod 5 = S (i mod 5))%nat).
    { cbn [List.length] in H. pose proof (Nat.div_mod i 5 ltac:(lia)). symmetry. apply (Nat.mod_unique (S i) 5 (i / 5)); lia. }
    apply IH; rewrite E; cbn [List.length] in *; lia. }
  rewrite T. rewrite <- !app_assoc. reflexivity.
Qed.
Lemma peers_one l i : (Nat.modulo i 5 = 0)%nat -> (0 < List.length l <= 5)%nat -> forall r, peers_from i (l ++ r) = peer_line l ++ peers_from (i + List.length l) r.
Proof.
  intros H Hl r. destruct l as [|v l]; [cbn in Hl; lia|]. cbn [List.length] in Hl. cbn [app peers_from]. rewrite H. cbn [Nat.eqb]. unfold peer_line. cbn [addresses map List.concat].
  replace (i + List.length (v :: l))%nat with (S i + List.length l)%nat by (cbn; lia).
  assert (E : (S i mod 5 = 1)%nat) by (pose proof (Nat.div_mod i 5 ltac:(lia)); symmetry; apply (Nat.mod_unique (S i) 5 (i / 5)); lia).
  rewrite (peers_run l (S i)) by (rewrite E; lia). unfold nl. cbn [app]. rewrite <- !app_assoc. reflexivity.
Qed.
Lemma peers_lines gs : forall i last, (Nat.modulo i 5 = 0)%nat -> Forall (fun g : list info => List.length g = 5%nat) gs -> (0 < List.length last <= 5)%nat ->
  peers_from i (List.concat gs ++ last) = List.concat (map peer_line (gs ++ [last])).
Proof.
  induction gs as [|g gs IH]; intros i last Hi HF Hl.
  - cbn [List.concat app map]. rewrite <- (app_nil_r last) at 1. rewrite (peers_one last i Hi Hl). cbn [peers_from]. reflexivity.
  - inversion HF as [|? ? Hg HF']; subst. cbn [List.concat app map]. rewrite <- app_assoc. rewrite (peers_one g i Hi ltac:(lia)). f_equal. apply IH; [|assumption|assumption].
    rewrite Hg. rewrite <- Nat.add_mod_idemp_l by lia. now rewrite Hi.
Qed.
Lemma list_lines gs last : Forall (fun g : list info => List.length g = 5%nat) gs -> (0 < List.length last <= 5)%nat ->
  list_String (List.concat gs ++ last) = B "Peer List (" ++ BencodeModel.itoa (zlen (List.concat gs ++ last)) ++ B "):" ++ List.concat (map peer_line (gs ++ [last])).
Proof. intros HF Hl. unfold list_String. now rewrite (peers_lines gs 0 last eq_refl HF Hl). Qed.
Lemma response_inj r r' : quiet (r_state r) -> quiet (r_state r') -> (response_String r = response_String r' <-> r_state r = r_state r' /\ addresses (r_peers r) = addresses (r_peers r')).
Proof.
  intros H H'. change (response_String r) with (state_String (r_state r) ++ list_String (r_peers r)). change (response_String r') with (state_String (r_state r') ++ list_String (r_peers r')). split.
  - intros E. apply state_inj in E; [|assumption..]. destruct E as [-> E]. split; [reflexivity|]. now apply list_inj.
  - intros [-> E]. apply list_inj in E. now rewrite E.
Qed.

(** ** Messages *)
Lemma spaced_inj l : forall l', spaced l = spaced l' -> l = l'.
Proof.
  assert (S : forall b, ~ In " "%byte (itoa (b2z b))) by (intros; apply itoa_sep).
  assert (NN : forall z, itoa z <> []) by (intros z E; destruct (itoa_text z) as [(Hn & _)|(ds & _ & E' & _)]; [contradiction|congruence]).
  assert (C : forall b c r, spaced (b :: c :: r) = itoa (b2z b) ++ " "%byte :: spaced (c :: r)) by reflexivity.
  assert (I : forall b c, itoa (b2z b) = itoa (b2z c) -> b = c) by (intros b c H; apply itoa_inj in H; now apply b2z_inj).
  induction l as [|b [|c r] IH]; intros [|b' [|c' r']] E.
  - reflexivity.
  - cbn [spaced] in E. symmetry in E. now apply NN in E.
  - rewrite C in E. symmetry in E. apply app_eq_nil in E. now destruct E.
  - cbn [spaced] in E. now apply NN in E.
  - cbn [spaced] in E. apply I in E. congruence.
  - rewrite C in E. cbn [spaced] in E. exfalso. apply (S b). rewrite E. apply in_app_iff. right. left. reflexivity.
  - rewrite C in E. apply app_eq_nil in E. now destruct E.
  - rewrite C in E. cbn [spaced] in E. exfalso. apply (S b'). rewrite <- E. apply in_app_iff. right. left. reflexivity.
  - rewrite !C in E. apply first_sep in E; [|apply S..]. destruct E as [E1 E2]. apply I in E1. apply IH in E2. congruence.
Qed.
Lemma msg_inj m m' : msg_String m = msg_String m' <-> m = m' \/ (exists b, m = MBitfield b) /\ (exists b, m' = MBitfield b).
Proof.
  split; [|intros [-> |[[b ->] [b' ->]]]; reflexivity].
  assert (F : forall z z' r r', itoa z ++ nl ++ r = itoa z' ++ nl ++ r' -> z = z' /\ r = r').
  { intros z z' r r' E. apply (first_sep x0a) in E; [|apply itoa_sep..]. destruct E as [E ->]. apply itoa_inj in E. auto. }
  destruct m, m'; try discriminate; intros E; cbn [msg_String] in E; try (left; reflexivity).
  - left. apply app_inv_head, app_inv_head, app_inv_head, itoa_inj in E. now subst.
  - right. eauto.
  - left. do 3 apply app_inv_head in E. apply F in E. destruct E as [-> E]. apply app_inv_head, F in E. destruct E as [-> E]. apply app_inv_head, itoa_inj in E. now subst.
  - left. do 3 apply app_inv_head in E. apply F in E. destruct E as [-> E]. apply app_inv_head, F in E. destruct E as [-> E]. do 2 apply app_inv_head in E. apply app_inv_tail, spaced_inj in E. now subst.
Qed.

(** ** The program *)
Lemma NewSwarm_tor sha1 n src fuel sp o w s w' : NewSwarm sha1 n src fuel sp o w = (Ok s, w') -> int64_torrent (sw_tor s).
Proof.
  unfold NewSwarm, iobind, lift, NewFileIO. destruct (NewPeerId src fuel) as [id| | |]; try discriminate. destruct (os_readfile _ _ _) as [[fd| | |] w1]; try discriminate.
  destruct (FromTorrentFile sha1 fd (o_wd o)) as [tor| | |] eqn:E; try discriminate. destruct (OCATAll _ _) as [[u| | |] w2]; try discriminate. destruct (NewBitfield _) as [b0| | |]; try discriminate.
  destruct (Validate _ _ _ _) as [[b| | |] w3]; try discriminate. destruct (tracker_Get _ _ _ _ _) as [resp| | |]; try discriminate. destruct (NewPeerPieceTracker _) as [t| | |]; try discriminate.
  unfold ret. intros H. apply (f_equal fst) in H. cbn [fst] in H. apply Ok_inj in H. subst s. exact (loaded_int64 _ _ _ _ E).
Qed.
Lemma initOpts_valid uni o u d : UtilsModel.o_input o <> [] -> o_cmd o = B "swarm" \/ o_cmd o = B "info" -> parseSizeUnits uni (o_upstr o) = Ok u -> parseSizeUnits uni (o_dnstr o) = Ok d ->
  initOpts uni o = Ok (set_dnlim (set_uplim o u) d).
Proof.
  intros H1 H2 H3 H4. unfold initOpts, ValidateOpts. cbn [set_dnlim set_uplim UtilsModel.o_input o_cmd o_upstr o_dnstr o_wd o_port o_uplim o_dnlim].
  destruct (beqb (UtilsModel.o_input o) []) eqn:E1; [apply beqb_eq in E1; contradiction|].
  assert (E : beqb (o_cmd o) (B "swarm") || beqb (o_cmd o) (B "info") = true) by (destruct H2 as [-> | ->]; reflexivity). rewrite E. cbn [negb]. rewrite H3. cbn [set_dnlim set_uplim o_dnstr]. now rewrite H4.
Qed.
Lemma initOpts_invalid uni o : (UtilsModel.o_input o = [] \/ (o_cmd o <> B "swarm" /\ o_cmd o <> B "info") \/ (forall u, parseSizeUnits uni (o_upstr o) <> Ok u) \/ (forall d, parseSizeUnits uni (o_dnstr o) <> Ok d)) ->
  initOpts uni o = Panic.
Proof.
  intros H. unfold initOpts, ValidateOpts. cbn [set_dnlim set_uplim UtilsModel.o_input o_cmd o_upstr o_dnstr o_wd o_port o_uplim o_dnlim].
  destruct (beqb (UtilsModel.o_input o) []) eqn:E1; [reflexivity|]. destruct (beqb (o_cmd o) (B "swarm") || beqb (o_cmd o) (B "info")) eqn:E2; cbn [negb]; [|reflexivity].
  pose proof (parse_not_nofuel uni (o_upstr o)). destruct (parseSizeUnits uni (o_upstr o)) as [u| | |] eqn:E3; [|reflexivity|reflexivity|congruence]. cbn [set_dnlim set_uplim o_dnstr].
  pose proof (parse_not_nofuel uni (o_dnstr o)). destruct (parseSizeUnits uni (o_dnstr o)) as [d| | |] eqn:E4; [|reflexivity|reflexivity|congruence]. exfalso.
  destruct H as [H|[[Ha Hb]|[H|H]]]; [|apply orb_true_iff in E2; destruct E2 as [E2|E2]; apply beqb_eq in E2; contradiction|apply (H u eq_refl)|apply (H d eq_refl)].
  rewrite H in E1. discriminate.
Qed.
Lemma main_silent g uni sha1 n src fuel sp o w :
  (UtilsModel.o_input o = [] \/ (o_cmd o <> B "swarm" /\ o_cmd o <> B "info") \/ (forall u, parseSizeUnits uni (o_upstr o) <> Ok u) \/ (forall d, parseSizeUnits uni (o_dnstr o) <> Ok d)) ->
  main_shown g uni sha1 n src fuel sp o w = ([], Crash, w).
Proof. intros H. unfold main_shown. now rewrite (initOpts_invalid _ _ H). Qed.
Lemma main_prints g uni sha1 n src fuel sp o w u d : clean_floats g -> fs_wf w ->
  UtilsModel.o_input o <> [] -> o_cmd o = B "swarm" \/ o_cmd o = B "info" -> parseSizeUnits uni (o_upstr o) = Ok u -> parseSizeUnits uni (o_dnstr o) = Ok d ->
  exists rest f w', main uni sha1 n src fuel sp o w = (f, w') /\ main_shown g uni sha1 n src fuel sp o w = (itoa u ++ nl ++ itoa d ++ nl ++ rest, f, w') /\ told g sha1 sp o w f rest.
Proof.
  intros Hg Hwf H1 H2 H3 H4. unfold main, main_shown. rewrite (initOpts_valid _ _ _ _ H1 H2 H3 H4).
  change (o_cmd (set_dnlim (set_uplim o u) d)) with (o_cmd o). change (o_uplim (set_dnlim (set_uplim o u) d)) with u. change (o_dnlim (set_dnlim (set_uplim o u) d)) with d.
  destruct H2 as [-> | ->].
  - change (beqb (B "swarm") (B "swarm")) with true. cbn iota. unfold CmdSwarm, swarm_shown. destruct (NewSwarm sha1 n src fuel sp _ w) as [[s| | |] w'] eqn:E.
    2,3,4: (eexists [], _, w'; split; [reflexivity|]; split; reflexivity).
    destruct (report_reads g (sw_tor s) Hg (NewSwarm_tor _ _ _ _ _ _ _ _ _ E)) as (t & Et & _). unfold swarm_String. rewrite Et. cbn [bind].
    eexists _, _, w'. split; [reflexivity|]. split; [reflexivity|]. cbn [told]. exists t. split; [exact Et|]. rewrite <- !app_assoc. reflexivity.
  - change (beqb (B "info") (B "swarm")) with false. change (beqb (B "info") (B "info")) with true. cbn iota. unfold CmdTorInfo, info_shown, iobind, lift.
    change (UtilsModel.o_input (set_dnlim (set_uplim o u) d)) with (UtilsModel.o_input o). change (o_wd (set_dnlim (set_uplim o u) d)) with (o_wd o).
    destruct (readfile_spec (UtilsModel.o_input o) sp w Hwf) as (r & w1 & E1 & _ & _ & Hr). rewrite E1. destruct Hr as [(c & -> & Hc)|[(e & ->) Hx]].
    + destruct (FromTorrentFile sha1 (mkslice c sp) (o_wd o)) as [tor| | |] eqn:Et.
      2,3,4: (eexists [], _, w1; split; [reflexivity|]; split; reflexivity).
      destruct (report_reads g tor Hg (loaded_int64 _ _ _ _ Et)) as (t & Es & _). rewrite Es. eexists _, _, w1. split; [reflexivity|]. split; [reflexivity|]. cbn [told]. exists c, tor, t. repeat (split; [assumption|]). reflexivity.
    + eexists [], _, w1. split; [reflexivity|]. split; reflexivity.
Qed.

(** A torrent file whose name holds a line of the report. *)
Definition forged_name : bytes := B "a]
 Infohash: [0000000000000000000000000000000000000000".
Definition forged : bytes := B "d8:announce1:x4:infod6:lengthi1e4:name" ++ itoa (zlen forged_name) ++ B ":" ++ forged_name ++ B "12:piece lengthi1e6:pieces20:aaaaaaaaaaaaaaaaaaaaee".
Lemma forged_report g sha1 : exists tor text, FromTorrentFile sha1 (mkslice forged []) (B "/d") = Ok tor /\ tor_String g tor = Ok text /\
  exists h, first_after (B " Infohash: [") (lines text) = Some (h ++ B "]") /\ read_hex h = Some (repeat x00 20).
Proof.
  eexists _, _. split; [vm_compute; reflexivity|]. split; [cbn; reflexivity|]. exists (hex_text (repeat x00 20)). split; [|vm_compute; reflexivity].
  match goal with |- first_after _ (lines ?t) = _ => assert (E : exists r, t = B "Torrent Info:" ++ nl ++ B "     Name: [a]" ++ nl ++ (B " Infohash: [" ++ hex_text (repeat x00 20) ++ B "]") ++ nl ++ r) by (eexists; vm_compute; reflexivity) end.
  destruct E as [r ->]. rewrite !lines_app by (apply plain_ok; reflexivity). reflexivity.
Qed.
Lemma forged_shown : exists c, forall g sha1, (forall s, sha1 s <> repeat x00 20) -> exists tor text, FromTorrentFile sha1 (mkslice c []) (B "/d") = Ok tor /\ tor_String g tor = Ok text /\
  exists h, first_after (B " Infohash: [") (lines text) = Some (h ++ B "]") /\ read_hex h = Some (repeat x00 20) /\ t_infohash tor <> repeat x00 20.
Proof.
  exists forged. intros g sha1 H. destruct (forged_report g sha1) as (tor & text & E1 & E2 & h & E3 & E4). exists tor, text. split; [exact E1|]. split; [exact E2|]. exists h. split; [exact E3|]. split; [exact E4|].
  unfold FromTorrentFile in E1. destruct (Decode _) as [[| |d| |]| | |]; try discriminate. cbn [bind] in E1. destruct (GetString _ _); try discriminate. cbn [bind] in E1.
  destruct (GetDict _ _); try discriminate. cbn [bind] in E1. destruct (FromDict _ _); try discriminate. cbn [bind] in E1. apply Ok_inj in E1. subst tor. apply H.
Qed.
