(** SayModel.v: the text of the errors of loading a torrent and of the first announce (src/bencode/dict.go, src/torrent/torrent.go, src/torrent/info/info.go,
    src/torrent/filesd/entrybase.go, src/torrent/info/piecemap.go, src/tracker/tracker.go). The functions of BencodeModel, LayoutModel and TrackerModel, with
    errors that keep what their text is made of. *)
From Verif Require Import Base BencodeModel BitfieldModel PptModel PeerModel UtilsModel LayoutModel FsModel SwarmModel TrackerModel PathModel DiagModel StartModel PrintModel.
From Verif Require LogModel.

(** Go maps of a dictionary; None is the nil map. *)
Definition gdict := option (list (bytes * gval)).
Inductive why :=
| WDecode (len : Z) (c : cause) (curs : Z)            (* bencode.Decode of len bytes *)
| WNotDict                                             (* torrent.go:87 *)
| WMissing (k : bytes)                                 (* dict.go:32 *)
| WType (k want have : bytes) (d : gdict)              (* dict.go:46, 63, 88, 106 *)
| WNoFiles                                             (* info.go:227-229 *)
| WEntry                                               (* entrybase.go:60 *)
| WPath (v : gval)                                     (* entrybase.go:79 *)
| WHashes                                              (* info.go:160 *)
| WCounted (counted total : Z)                         (* piecemap.go:58 *)
| WBody (body : bytes)                                 (* tracker.go:120 *)
| WReason (r : bytes)                                  (* tracker.go:141 *)
| WSix (len : Z)                                       (* tracker.go:208 *)
| WPeers (l : list info)                               (* tracker.go:231-233 *)
| WSystem (text : bytes).                              (* an error of os or net/http *)
Inductive said (A : Type) := Fine (a : A) | Says (w : why) | Dies | Endless.
Arguments Fine {A} a. Arguments Says {A} w. Arguments Dies {A}. Arguments Endless {A}.
Definition sbind {A C} (m : said A) (f : A -> said C) : said C := match m with Fine a => f a | Says w => Says w | Dies => Dies | Endless => Endless end.
Notation "'ask' x <- m ; f" := (sbind m (fun x => f)) (at level 200, x pattern, m at level 100, f at level 200).

(** fmt %T *)
Definition type_name (v : gval) : bytes :=
  match v with
  | VStr _ => B "string"
  | VInt KInt _ => B "int" | VInt KInt8 _ => B "int8" | VInt KInt16 _ => B "int16" | VInt KInt32 _ => B "int32" | VInt KInt64 _ => B "int64"
  | VDict _ => B "bencode.Dict"
  | VList _ => B "bencode.List"
  | VOther => B "?"
  end.
(** dict.go:28-37 get *)
Definition getE (d : list (bytes * gval)) (k : bytes) : said gval := match dget k d with Some v => Fine v | None => Says (WMissing k) end.
(** dict.go:39-54 GetString *)
Definition GetStringE d k : said bytes := ask v <- getE d k; match v with VStr s => Fine s | _ => Says (WType k (B "string") (type_name v) (Some d)) end.
(** dict.go:56-71 GetInt *)
Definition GetIntE d k : said Z := ask v <- getE d k; match v with VInt KInt64 z => Fine z | _ => Says (WType k (B "int64") (type_name v) (Some d)) end.
(** dict.go:73-79 GetUint *)
Definition GetUintE d k : said Z := ask v <- GetIntE d k; Fine (u64 v).
(** dict.go:81-96 GetDict: the [d] of line 92 is the one of line 85, the nil map that the failed assertion gives. *)
Definition GetDictE d k : said (list (bytes * gval)) := ask v <- getE d k; match v with VDict x => Fine x | _ => Says (WType k (B "dict") (type_name v) None) end.
(** dict.go:98-113 GetList *)
Definition GetListE d k : said (list gval) := ask v <- getE d k; match v with VList x => Fine x | _ => Says (WType k (B "list") (type_name v) (Some d)) end.

(** piecemap.go:13-62 MakePieceMap *)
Definition of_res {A} (r : res A) : said A := match r with Ok a => Fine a | Err _ => Dies | Panic => Dies | NoFuel => Endless end.
Definition MakePieceMapE (fl : list entry) (npieces P total : Z) : said (list (list ploc)) :=
  sbind (of_res (pm_outer fl 0 npieces P (repeat [] (Z.to_nat npieces), 0, P, 0))) (fun '(pm, _, _, tot) =>
  if tot =? total then Fine pm else Says (WCounted tot total)).
(** info.go:157-192 NewTorInfo *)
Definition NewTorInfoE (name : bytes) (P : Z) (hashes : bytes) (files : list ebase) : said torinfo :=
  if negb (zlen hashes mod 20 =? 0) then Says WHashes else
  let length := sum64 files in
  ask flist <- of_res (MakeFileList files P);
  let npieces := zlen hashes / 20 in
  ask pm <- MakePieceMapE flist npieces P length;
  let lastLen := sub64 P (sub64 (mul64 npieces P) length) in
  Fine (mkti name P hashes npieces length flist (Nat.eqb (List.length files) 1) pm lastLen).
(** entrybase.go:73-87 *)
Fixpoint path_concatE (l : list gval) : said bytes :=
  match l with
  | [] => Fine []
  | VStr s :: r => ask t <- path_concatE r; Fine (s ++ slash :: t)
  | v :: _ => Says (WPath v)
  end.
Definition path_of_listE (l : list gval) : said bytes := ask s <- path_concatE l; match s with [] => Dies | _ => Fine (removelast s) end.
(** entrybase.go:54-91 FromBenList *)
Fixpoint FromBenListE (l : list gval) : said (list ebase) :=
  match l with
  | [] => Fine []
  | VDict d :: r =>
    ask n <- GetIntE d (B "length");
    ask pl <- GetListE d (B "path");
    ask p <- path_of_listE pl;
    ask es <- FromBenListE r;
    Fine (MakeFileEntry p n :: es)
  | _ :: _ => Says WEntry
  end.
(** info.go:213-244 *)
Definition dict_entriesE (info : list (bytes * gval)) (workingDir name : bytes) : said (list ebase) :=
  match GetIntE info (B "length") with
  | Fine length => let fe := MakeFileEntry name length in Fine [SetLocalPath fe (Join [workingDir; eb_tor fe])]
  | Dies => Dies
  | Endless => Endless
  | Says _ =>
    match GetListE info (B "files") with
    | Fine files => ask fes <- FromBenListE files; let wd := Join [workingDir; name] in Fine (map (fun fe => SetLocalPath fe (Join [wd; eb_tor fe])) fes)
    | Says _ => Says WNoFiles
    | Dies => Dies
    | Endless => Endless
    end
  end.
(** info.go:196-247 FromDict *)
Definition FromDictE (info : list (bytes * gval)) (workingDir : bytes) : said torinfo :=
  ask name <- GetStringE info (B "name");
  ask P <- GetIntE info (B "piece length");
  ask hashes <- GetStringE info (B "pieces");
  ask fes <- dict_entriesE info workingDir name;
  NewTorInfoE name P hashes fes.
(** bencode.Decode *)
Definition DecodeE (data : gslice) : said gval :=
  match DecodeD data with Value v => Fine v | Trouble c k => Says (WDecode (slen data) c k) | Unknown => Endless end.
(** torrent.go:80-111: FromTorrentFile from the file's value on, and from its bytes on *)
Definition load_value (sha1 : bytes -> bytes) (v : gval) (workingDir : bytes) : said torrent :=
  match v with
  | VDict dict =>
    ask announce <- GetStringE dict (B "announce");
    ask infodict <- GetDictE dict (B "info");
    let enc := fst (BencodeModel.Encode (VDict infodict)) in
    ask ti <- FromDictE infodict workingDir;
    Fine (mktor (sha1 enc) announce ti)
  | _ => Says WNotDict
  end.
Definition FromTorrentFileE (sha1 : bytes -> bytes) (fdata : gslice) (workingDir : bytes) : said torrent := ask v <- DecodeE fdata; load_value sha1 v workingDir.

(** tracker.go:206-222 *)
Definition string_GetPeersE (s : bytes) : said (list info) := if zlen s mod 6 =? 0 then of_res (compact_loop s) else Says (WSix (zlen s)).
(** tracker.go:226-250; [acc] is peerList. *)
Fixpoint list_GetPeersE (parseIP : bytes -> ip) (l : list gval) (acc : list info) : said (list info) :=
  match l with
  | [] => Fine acc
  | VDict d :: r =>
    ask ip <- GetStringE d (B "ip");
    ask port <- GetUintE d (B "port");
    ask id <- GetStringE d (B "peer id");
    list_GetPeersE parseIP r (acc ++ [MakePeer id (parseIP ip) (u16 port)])
  | _ => Says (WPeers acc)
  end.
Definition or_else {A} (a : A) (m : said A) : A := match m with Fine x => x | _ => a end.
(** tracker.go:131-196 newResponse *)
Definition newResponseE (parseIP : bytes -> ip) (d : list (bytes * gval)) : said response :=
  match GetStringE d (B "failure reason") with
  | Fine fail => Says (WReason fail)
  | _ =>
    ask inter <- GetUintE d (B "interval");
    ask seeds <- GetUintE d (B "complete");
    ask leeches <- GetUintE d (B "incomplete");
    ask peers <- match GetStringE d (B "peers") with
                 | Fine s => string_GetPeersE s
                 | _ => ask l <- GetListE d (B "peers"); list_GetPeersE parseIP l []
                 end;
    Fine (mkresp (mkts inter (or_else 0 (GetUintE d (B "min interval"))) (or_else [] (GetStringE d (B "warning message"))) [] seeds leeches) peers)
  end.
(** tracker.go:100-129 do, from the body on *)
Definition answer_value (parseIP : bytes -> ip) (body : bytes) (v : gval) : said response := match v with VDict d => newResponseE parseIP d | _ => Says (WBody body) end.
Definition handle_bodyE (parseIP : bytes -> ip) (body : gslice) : said response := ask v <- DecodeE body; answer_value parseIP (vis body) v.

(** ** Texts *)
(** fmt %v of a value out of the decoder: maps with their keys in order. *)
Fixpoint joined (sep : bytes) (l : list bytes) : bytes := match l with [] => [] | [x] => x | x :: r => x ++ sep ++ joined sep r end.
Fixpoint shown (v : gval) : bytes :=
  match v with
  | VStr s => s
  | VInt _ z => itoa z
  | VDict d => B "map[" ++ joined (B " ") (map (fun kv => fst kv ++ B ":" ++ snd kv) (ksort (map (fun kv => (fst kv, shown (snd kv))) d))) ++ B "]"
  | VList l => B "[" ++ joined (B " ") (map shown l) ++ B "]"
  | VOther => B "?"
  end.
(** fmt.Errorf of a format without arguments: '%' and a letter is a verb without its argument, "%%" is '%', and a last '%' has no verb. What becomes of the
    rest after '%' and anything else (flags, widths, indices) is [other]. *)
Definition letter (b : byte) : bool := let n := b2z b in ((65 <=? n) && (n <=? 90)) || ((97 <=? n) && (n <=? 122)).
Fixpoint errorf (other : bytes -> bytes) (s : bytes) : bytes :=
  match s with
  | [] => []
  | b :: r =>
    if Byte.eqb b "%"%byte then
      match r with
      | [] => B "%!(NOVERB)"
      | c :: t => if Byte.eqb c "%"%byte then "%"%byte :: errorf other t else if letter c then B "%!" ++ c :: B "(MISSING)" ++ errorf other t else other s
      end
    else b :: errorf other r
  end.
(** The places in memory that %p prints: of a map, and of an error's field (dict.go:25 prints &e.dict). *)
Record memory := mkmem { at_map : list (bytes * gval) -> bytes; at_field : bytes }.
Definition map_at (m : memory) (d : gdict) : bytes := match d with Some d => at_map m d | None => B "0x0" end.
(** dict.go:15-17 and 24-26, torrent.go:20-22, info.go:21-23, tracker.go:22-24 and the places named above *)
Definition why_text (other : bytes -> bytes) (m : memory) (w : why) : bytes :=
  match w with
  | WDecode len c curs => error_text len c curs
  | WNotDict => B "tracker error: decoded bencoding is not a dictionary"
  | WMissing k => B "missing key [" ++ k ++ B "] in bencode dictionary [" ++ at_field m ++ B "]"
  | WType k want have d => B "bad type for key [" ++ k ++ B "] in dict [" ++ map_at m d ++ B "]" ++ nl ++ B "request [" ++ want ++ B "]" ++ nl ++ B "    got [" ++ have ++ B "]"
  | WNoFiles => B "tracker error: missing keys 'length' and 'files', must have exactly 1"
  | WEntry => B "failed to convert file entry to dictionary"
  | WPath v => errorf other (B "file entry contains invalid path [" ++ shown v ++ B "]")
  | WHashes => B "hashes must be multiple of 20"
  | WCounted a b => B "only accounted for " ++ itoa a ++ B "/" ++ itoa b ++ B " bytes"
  | WBody body => B "response not a bencoded dictionary" ++ nl ++ B "[" ++ spaced body ++ B "]"
  | WReason r => B "tracker error: " ++ r
  | WSix n => B "tracker error: compact peer list must be divisible by 6, length = [" ++ itoa n ++ B "]"
  | WPeers l => B "tracker error: invalid peer list" ++ nl ++ B "[" ++ list_String l ++ B "]"
  | WSystem t => t
  end.
(** tracker.go:77-84 Get, with 100-111 of do; [http] is the text of an error of net/http. *)
Definition tracker_GetE (http : bytes) (n : net) (tor : torrent) (st : Stats) (port : Z) (peerId : bytes) : said response :=
  ask q <- of_res (newRequest (n_query n (t_announce tor)) (t_infohash tor) st port peerId);
  match n_answer n (t_announce tor) q with
  | None => Says (WSystem http)
  | Some body => handle_bodyE (n_parseIP n) body
  end.
(** torrent.go:75-111 FromTorrentFile; [os] is the text of an error of the system. *)
Definition load (os : bytes) (sha1 : bytes -> bytes) (sp : bytes) (o : Opts) (w : world) : said torrent * world :=
  match os_readfile (o_input o) sp w with
  | (Ok fdata, w') => (FromTorrentFileE sha1 fdata (o_wd o), w')
  | (Err _, w') => (Says (WSystem os), w')
  | (Panic, w') => (Dies, w')
  | (NoFuel, w') => (Endless, w')
  end.
(** swarm.go:55-70: opening and checking the files *)
Definition open_files (sha1 : bytes -> bytes) (tor : torrent) : io bitfield :=
  run u <- NewFileIO; run u <- OCATAll (ti_files (t_info tor)); run b0 <- lift (NewBitfield (ti_npieces (t_info tor))); Validate sha1 (t_info tor) b0.
(** swarm.go:39-96 NewSwarm: the error it ends with *)
Definition swarm_why (os http : bytes) sha1 n src fuel sp (o : Opts) (w : world) : option why :=
  match NewPeerId src fuel with
  | Ok id =>
    match load os sha1 sp o w with
    | (Fine tor, w') =>
      match open_files sha1 tor w' with
      | (Ok _, _) => match tracker_GetE http n tor (NewStats 0 0 0) (OptPort o) id with Says e => Some e | _ => None end
      | (Err _, _) => Some (WSystem os)
      | _ => None
      end
    | (Says e, _) => Some e
    | _ => None
    end
  | _ => None
  end.
(** main.go:12-52: the error that main ends with, and what log.Fatal (lines 34 and 49) writes for it to standard error, [stamp] being date and time. *)
Definition main_why (os http : bytes) uni sha1 n src fuel sp (o : Opts) (w : world) : option why :=
  match initOpts uni o with
  | Ok o =>
    if beqb (o_cmd o) (B "swarm") then swarm_why os http sha1 n src fuel sp o w
    else if beqb (o_cmd o) (B "info") then match fst (load os sha1 sp o w) with Says e => Some e | _ => None end
    else None
  | _ => None
  end.
Definition fatal_line (other : bytes -> bytes) (m : memory) (stamp : bytes) (e : why) : bytes := LogModel.output stamp (why_text other m e).
