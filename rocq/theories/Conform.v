(** Conform.v: the project's own unit tests, run against the model by computation. These are tests of the model, not properties; each is
    named after the Go test and cites it. Not here: tests of error texts (none) and TestTorInfo_LastPieceLen (an empty table). *)
From Verif Require Import Base TrackerModel BencodeModel BitfieldModel WireModel LayoutModel FsModel CreateModel DsModel UtilsModel PeerModel IpModel Sha1.

Definition bz (l : list Z) : bytes := map z2b l.
Definition arr (l : list Z) : gslice := mkslice (bz l) [].
Definition is_err {A} (r : res A) : bool := match r with Err _ => true | _ => false end.
Definition okv {A} (r : res A) (f : A -> bool) : bool := match r with Ok a => f a | _ => false end.
Definition decode_text (s : bytes) : res gval := Decode (mkslice s []).

(** ** src/bencode/decode_test.go *)
(** decode_test.go:10-24 *)
Example TestDecode : decode_text (B "d5:hello5:worlde") = Ok (VDict [(B "hello", VStr (B "world"))]).
Proof. vm_compute. reflexivity. Qed.
(** decode_test.go:26-74 *)
Definition words_good : list bytes := [B "a"; B "a word"; B "a fairly long word";
  B "ahksudh akwughd uagh dfoih dfiaslhd iowlh fdoihdiash dkahfl halidhfiashialsfahsilfh ailsd hilshflas fklklakfdlkasfh"].
Example TestDecodeString : map (fun w => decode_text (itoa (zlen w) ++ B ":" ++ w)) words_good = map (fun w => Ok (VStr w)) words_good /\
  forallb (fun s => is_err (decode_text s)) [B "12:"; B "10:hi"] = true.
Proof. split; vm_compute; reflexivity. Qed.
(** decode_test.go:76-130 *)
Definition ints_good : list Z := [0; 1; -1; 6; 38; 435; 34635254; -2000000000; 2000000001].
Example TestDecodeInt : map (fun i => decode_text (B "i" ++ itoa i ++ B "e")) ints_good = map (fun i => Ok (VInt KInt64 i)) ints_good /\
  forallb (fun s => is_err (decode_text s)) [B "ie"; B "i00e"; B "ig30e"; B "i1o1e"; B "i43"] = true.
Proof. split; vm_compute; reflexivity. Qed.
(** decode_test.go:132-178 *)
Example TestDecodeDict : match decode_text (B "d5:dict2d5:dict3d4:key7i7ee4:key5i5e4:key6i6ee5:dict4d4:key8i8ee4:key16:value14:key26:value24:key3i3e4:key4i4ee") with
  | Ok (VDict d1) =>
    match dget (B "dict2") d1, dget (B "dict4") d1 with
    | Some (VDict d2), Some (VDict d4) =>
      match dget (B "dict3") d2 with
      | Some (VDict d3) => dget (B "key1") d1 = Some (VStr (B "value1")) /\ dget (B "key2") d1 = Some (VStr (B "value2")) /\ dget (B "key3") d1 = Some (VInt KInt64 3) /\ dget (B "key4") d1 = Some (VInt KInt64 4) /\
                           dget (B "key5") d2 = Some (VInt KInt64 5) /\ dget (B "key6") d2 = Some (VInt KInt64 6) /\ dget (B "key7") d3 = Some (VInt KInt64 7) /\ dget (B "key8") d4 = Some (VInt KInt64 8)
      | _ => False end
    | _, _ => False end
  | _ => False end.
Proof. vm_compute. repeat split; reflexivity. Qed.
(** decode_test.go:192-240 *)
Example TestDecodeList : decode_text (B "l2:e12:e22:e3i4ei5ei6el2:e7el2:e8l2:e9eee") =
  Ok (VList [VStr (B "e1"); VStr (B "e2"); VStr (B "e3"); VInt KInt64 4; VInt KInt64 5; VInt KInt64 6; VList [VStr (B "e7")]; VList [VStr (B "e8"); VList [VStr (B "e9")]]]).
Proof. vm_compute. reflexivity. Qed.

(** ** src/bencode/dict_test.go:12-154 *)
Definition testDict : list (bytes * gval) := [(B "str", VStr (B "a string")); (B "int", VInt KInt64 (-324)); (B "uint", VInt KInt64 4273); (B "dict", VDict []); (B "list", VList [])].
Example TestDict_GetString : GetString testDict (B "str") = Ok (B "a string") /\ is_err (GetString testDict (B "int")) = true /\ is_err (GetString testDict (B "bad key")) = true.
Proof. vm_compute. auto. Qed.
Example TestDict_GetInt : GetInt testDict (B "int") = Ok (-324) /\ is_err (GetInt testDict (B "str")) = true /\ is_err (GetInt testDict (B "bad key")) = true.
Proof. vm_compute. auto. Qed.
Example TestDict_GetUint : GetUint testDict (B "uint") = Ok 4273 /\ is_err (GetUint testDict (B "str")) = true /\ is_err (GetUint testDict (B "bad key")) = true.
Proof. vm_compute. auto. Qed.
Example TestDict_GetDict : GetDict testDict (B "dict") = Ok [] /\ is_err (GetDict testDict (B "str")) = true /\ is_err (GetDict testDict (B "bad key")) = true.
Proof. vm_compute. auto. Qed.
Example TestDict_GetList : GetList testDict (B "list") = Ok [] /\ is_err (GetList testDict (B "str")) = true /\ is_err (GetList testDict (B "bad key")) = true.
Proof. vm_compute. auto. Qed.

(** ** src/bencode/encode_test.go *)
Definition enc_ok (v : gval) (s : bytes) : bool := match BencodeModel.Encode v with (t, None) => beqb t s | _ => false end.
Definition enc_err (v : gval) : bool := match BencodeModel.Encode v with (_, Some _) => true | _ => false end.
(** encode_test.go:9-14 *)
Example TestEncodeInvalidType : enc_err VOther = true.
Proof. reflexivity. Qed.
(** encode_test.go:16-43 *)
Example TestEncodeString : forallb (fun s => enc_ok (VStr s) (itoa (zlen s) ++ B ":" ++ s)) [B "a"; B "abc"; B "hello there person how are you"] = true /\ enc_err (VStr []) = true.
Proof. split; vm_compute; reflexivity. Qed.
(** encode_test.go:45-73 *)
Example TestEncodeInt : forallb (fun v => match v with VInt _ z => enc_ok v (B "i" ++ itoa z ++ B "e") | _ => false end)
  [VInt KInt 0; VInt KInt (-23); VInt KInt 135423; VInt KInt8 45; VInt KInt8 (-23); VInt KInt16 432; VInt KInt16 (-213); VInt KInt32 324; VInt KInt32 (-6435); VInt KInt64 (-34543234); VInt KInt64 42346785983] = true.
Proof. vm_compute. reflexivity. Qed.
(** encode_test.go:75-115; the map is given in the order of the source. *)
Example TestEncodeDict : enc_ok (VDict [(B "key0", VStr (B "a value")); (B "key1", VStr (B "another value")); (B "key2", VStr (B "a longer value of a long length that is long")); (B "key3", VStr (B "a"));
    (B "key4", VInt KInt 0); (B "key5", VInt KInt (-174)); (B "key6", VInt KInt 63847); (B "key7", VInt KInt 23985623467); (B "key8", VInt KInt 238497823); (B "key9", VInt KInt 4723985);
    (B "key10", VInt KInt32 43242); (B "key11", VInt KInt16 (-123)); (B "key12", VStr (B "value 12"))])
  (B "d4:key07:a value4:key113:another value5:key10i43242e5:key11i-123e5:key128:value 124:key244:a longer value of a long length that is long4:key31:a4:key4i0e4:key5i-174e4:key6i63847e4:key7i23985623467e4:key8i238497823e4:key9i4723985ee") = true /\
  forallb (fun d => enc_err (VDict d)) [[(B "key", VOther)]; [(B "key", VStr [])]; [([], VStr (B "value"))]] = true.
Proof. split; vm_compute; reflexivity. Qed.
(** encode_test.go:117-139 *)
Example TestEncodeList : enc_ok (VList [VStr (B "elem1"); VStr (B "e2"); VStr (B "the third element"); VInt KInt 234; VInt KInt 4268376598235; VInt KInt (-2394785); VInt KInt 0; VInt KInt 2039759823755235])
  (B "l5:elem12:e217:the third elementi234ei4268376598235ei-2394785ei0ei2039759823755235ee") = true.
Proof. vm_compute. reflexivity. Qed.

(** ** src/bf/bitfield_test.go *)
(** bitfield_test.go:7-43 *)
Example TestFromBytes : map (fun x => match FromBytes (bz (fst x)) (snd x) with Ok bf => Some (bnset bf) | _ => None end)
  [([0;0;0;0;0;10], 8); ([0;0;0;0;0;255], 4); ([0;0;0;0;0;0], 9); ([0;0;0;0;0;170;170], 16); ([0;0;0;0;0;255;255], 9); ([0;0;0;0;0;255;8], 13); ([0;0;0;0;0;0;0], 8); ([0;0;0;0;0;0;0], 17)] =
  [Some 2; Some 4; None; Some 8; Some 9; Some 9; None; None] /\
  forallb is_err [FromBytes (bz [0;0;0;0;0;0]) 9; FromBytes (bz [0;0;0;0;0;0;0]) 8; FromBytes (bz [0;0;0;0;0;0;0]) 17] = true.
Proof. split; vm_compute; reflexivity. Qed.
(** bitfield_test.go:45-74 *)
Example TestGet : okv (FromBytes (bz [0;0;0;0;0;170;240]) 16) (fun bf => forallb (fun x => okv (Get bf (fst x)) (Bool.eqb (snd x)))
  [(0, true); (1, false); (2, true); (3, false); (8, true); (9, true); (10, true); (11, true)]) = true.
Proof. vm_compute. reflexivity. Qed.
(** bitfield_test.go:76-114 *)
Fixpoint set_test (bf : bitfield) (l : list (Z * bool * Z)) : bool :=
  match l with
  | [] => true
  | (i, v, delta) :: r => okv (SetBit bf i v) (fun bf' => okv (Get bf' i) (Bool.eqb v) && (bnset bf' - bnset bf =? delta) && set_test bf' r)
  end.
Example TestSet : okv (FromBytes (bz [0;0;0;0;0;0;255]) 16) (fun bf => set_test bf
  [(0, true, 1); (0, true, 0); (2, true, 1); (2, true, 0); (8, false, -1); (8, false, 0); (10, false, -1); (10, false, 0)]) = true.
Proof. vm_compute. reflexivity. Qed.

(** ** src/p2p *)
Definition dmsg (l : list Z) : option msg := match DecodeMsg (arr l) with Ok r => match d_err r with None => d_msg r | Some _ => None end | _ => None end.
Definition derr (l : list Z) : bool := match DecodeMsg (arr l) with Ok r => match d_err r with Some _ => true | None => false end | _ => false end.
(** bitfield_test.go:10-52 *)
Example TestBitfieldDecode : match dmsg [0;0;0;5;5;0;1;2;3] with Some (MBitfield bf) => skipn 5 (Data5 bf) = bz [0;1;2;3] | _ => False end /\ derr [0;0;0;8;5;1;2;3;4;5;6] = true.
Proof. vm_compute. auto. Qed.
(** bitfield_test.go:54-77 *)
Example TestBitfieldEncode : okv (DecodeMsgBitfield (arr [0;0;0;11;5;1;2;3;4;5;6;7;8;9;10]) 11) (fun m => beqb (EncodeMsg m) (bz [0;0;0;11;5;1;2;3;4;5;6;7;8;9;10])) = true.
Proof. vm_compute. reflexivity. Qed.
(** have_test.go:8-71 *)
Example TestHaveDecode : map dmsg [[0;0;0;5;4;0;0;0;12]; [0;0;0;5;4;0;0;222;173]; [0;0;0;5;4;0;170;187;204]; [0;0;0;5;4;39;184;197;186]] = map (fun i => Some (MHave i)) [12; 57005; 11189196; 666420666] /\
  derr [0;0;0;8;4;0;0;0;12] = true /\ derr [0;0;0;8;4;0;0;0;12;66;66;66;66] = true.
Proof. vm_compute. auto. Qed.
(** have_test.go:73-108 *)
Example TestHaveEncode : map (fun i => EncodeMsg (MHave i)) [12; 57005; 11189196; 666420666] = map bz [[0;0;0;5;4;0;0;0;12]; [0;0;0;5;4;0;0;222;173]; [0;0;0;5;4;0;170;187;204]; [0;0;0;5;4;39;184;197;186]].
Proof. vm_compute. reflexivity. Qed.
(** keepalive_test.go:8-32 *)
Example TestKeepAlive : dmsg [0;0;0;0] = Some MKeepAlive /\ Length MKeepAlive = 0 /\ EncodeMsg MKeepAlive = bz [0;0;0;0].
Proof. vm_compute. auto. Qed.
(** message_test.go:8-73: the types decoded and the bytes read *)
Definition dall (l : list Z) : option (list Z * Z) := match DecodeAll 100 (arr l) with Ok (ms, n) => Some (map Mtype ms, n) | _ => None end.
Example TestDecodeAll :
  dall ([0;0;0;0] ++ [0;0;0;1;0] ++ [0;0;0;1;1] ++ [0;0;0;5;4;0;0;0;15]) = Some ([255; 0; 1; 4], 23) /\
  dall ([0;0;0;0] ++ [0;0;0;1;0] ++ [0;0;0;1;1] ++ [0;0;0;1;221] ++ [0;0;0;5;4;0;0;0;15]) = Some ([255; 0; 1], 14) /\
  dall ([0;0;0;0] ++ [0;0;0;1;0] ++ [0;0;0;1;1] ++ [0;0;0;7;4;0;0;0;15] ++ [0;0;0;5;4;0;0;0;15] ++ [0;0;0;0]) = Some ([255; 0; 1; 4; 255], 27).
Proof. vm_compute. auto. Qed.
(** message_test.go:78-150: the second batch is read into the buffer of the first; the decoded messages are values, so that what is left
    to test is the decoding from a buffer with other bytes behind (C21 is the theorem). *)
Definition dall_enc (s : gslice) : option (list bytes) := match DecodeAll 100 s with Ok (ms, _) => Some (map EncodeMsg ms) | _ => None end.
Example TestBitfieldMem :
  dall_enc (mkslice (bz [0;0;0;2;5;20; 0;0;0;2;5;40]) (repeat x00 4084)) = Some [bz [0;0;0;2;5;20]; bz [0;0;0;2;5;40]] /\
  dall_enc (mkslice (bz [0;0;0;2;5;50; 0;0;0;2;5;70]) (repeat x00 4084)) = Some [bz [0;0;0;2;5;50]; bz [0;0;0;2;5;70]].
Proof. vm_compute. auto. Qed.
(** no_payload_test.go:8-72 *)
Example TestNoPayloadDecode : map dmsg [[0;0;0;1;0]; [0;0;0;1;1]; [0;0;0;1;2]; [0;0;0;1;3]] = map Some [MChoke; MUnchoke; MInterested; MNotInterested] /\
  map Length [MChoke; MUnchoke; MInterested; MNotInterested] = [1; 1; 1; 1] /\ derr [0;0;0;3;0] = true.
Proof. vm_compute. auto. Qed.
(** no_payload_test.go:74-107 *)
Example TestNoPayloadEncode : map EncodeMsg [MChoke; MUnchoke; MInterested; MNotInterested] = map bz [[0;0;0;1;0]; [0;0;0;1;1]; [0;0;0;1;2]; [0;0;0;1;3]].
Proof. vm_compute. reflexivity. Qed.
(** piece_test.go:8-38 *)
Example TestMsgPiece_Encode : EncodeMsg (MPiece 0 20 (bz [0;1;2;3;4;5;6;7;8;9])) = bz [0;0;0;19;7; 0;0;0;0; 0;0;0;20; 0;1;2;3;4;5;6;7;8;9].
Proof. vm_compute. reflexivity. Qed.

(** ** src/tracker/tracker_test.go:16-79 *)
Definition tips : list bytes := map ParseIP [B "255.193.65.23"; B "175.178.243.56"; B "105.143.135.2"; B "147.196.133.77"].
Definition tports : list Z := [30532; 64005; 666; 1337].
Definition tbody : bytes := B "d8:completei5e10:downloadedi55e10:incompletei2e8:intervali1748e12:min intervali874e5:peers" ++
  itoa (zlen tips * 6) ++ B ":" ++ flat_map (fun x => skipn 12 (fst x) ++ be16 (snd x)) (combine tips tports) ++ B "e".
Example TestNewResponseCompact : match decode_text tbody with
  | Ok (VDict d) => match newResponse ParseIP d with Ok r => map pi_ip (r_peers r) = tips /\ map pi_port (r_peers r) = tports | _ => False end
  | _ => False end.
Proof. vm_compute. auto. Qed.

(** ** src/torrent/filesd/flist_test.go *)
(** flist_test.go:8-66 *)
Definition flist_row (P : Z) (l : list (Z * (Z * Z * Z * Z))) : bool :=
  okv (MakeFileList (map (fun x => MakeFileEntry (B "f") (fst x)) l) P) (fun fl => (Nat.eqb (List.length fl) (List.length l)) &&
    forallb (fun x => let '(e, (_, (sp, ep, so, eo))) := x in (en_sp e =? sp) && (en_ep e =? ep) && (en_so e =? so) && (en_eo e =? eo)) (combine fl l)).
Example TestMakeFileList :
  flist_row 32 [(32, (0, 0, 0, 31))] = true /\
  flist_row 5 [(3, (0, 0, 0, 2)); (5, (0, 1, 3, 2)); (2, (1, 1, 3, 4)); (13, (2, 4, 0, 2)); (2, (4, 4, 3, 4))] = true /\
  flist_row 5 [(5, (0, 0, 0, 4)); (5, (1, 1, 0, 4)); (10, (2, 3, 0, 4)); (2, (4, 4, 0, 1))] = true.
Proof. vm_compute. auto. Qed.
(** flist_test.go:68-128 *)
Definition files_of (P : Z) (l : list (bytes * Z)) (k : Z) : option (list bytes) :=
  match MakeFileList (map (fun x => MakeFileEntry (fst x) (snd x)) l) P with Ok fl => Some (map (fun e => eb_tor (en_base e)) (GetFiles fl k)) | _ => None end.
Example TestFileList_GetFiles :
  map (files_of 3 [(B "f1", 3); (B "f2", 3); (B "f3", 3)]) [0; 1; 2; 3] = [Some [B "f1"]; Some [B "f2"]; Some [B "f3"]; Some []] /\
  map (files_of 3 [(B "f1", 4); (B "f2", 6); (B "f3", 2)]) [0; 1; 2; 3; 4] = [Some [B "f1"]; Some [B "f1"; B "f2"]; Some [B "f2"]; Some [B "f2"; B "f3"]; Some []] /\
  map (files_of 9 [(B "f1", 3); (B "f2", 3); (B "f3", 3)]) [0; 1] = [Some [B "f1"; B "f2"; B "f3"]; Some []].
Proof. vm_compute. auto. Qed.

(** ** src/torrent/info/piecemap_test.go:10-134 *)
Definition pm_of (P total : Z) (l : list (bytes * Z)) : option (list (list (bytes * Z * Z))) :=
  let bs := map (fun x => MakeFileEntry (fst x) (snd x)) l in
  match (do n <- CalcNumPieces bs P; do fl <- MakeFileList bs P; MakePieceMap fl n P total) with
  | Ok pm => Some (map (map (fun pl => (nth (pl_file pl) (map fst l) [], SeekAmnt (pl_info pl), ReadAmnt (pl_info pl)))) pm)
  | _ => None
  end.
Example TestMakePieceMap :
  pm_of 5 5 [(B "A", 5)] = Some [[(B "A", 0, 5)]] /\
  pm_of 5 3 [(B "A", 3)] = Some [[(B "A", 0, 3)]] /\
  pm_of 3 8 [(B "A", 8)] = Some [[(B "A", 0, 3)]; [(B "A", 3, 3)]; [(B "A", 6, 2)]] /\
  pm_of 3 9 [(B "A", 3); (B "B", 3); (B "C", 3)] = Some [[(B "A", 0, 3)]; [(B "B", 0, 3)]; [(B "C", 0, 3)]] /\
  pm_of 3 12 [(B "A", 4); (B "B", 6); (B "C", 2)] = Some [[(B "A", 0, 3)]; [(B "A", 3, 1); (B "B", 0, 2)]; [(B "B", 2, 3)]; [(B "B", 5, 1); (B "C", 0, 2)]] /\
  pm_of 4 9 [(B "A", 5); (B "B", 1); (B "C", 1); (B "D", 1); (B "E", 1)] = Some [[(B "A", 0, 4)]; [(B "A", 4, 1); (B "B", 0, 1); (B "C", 0, 1); (B "D", 0, 1)]; [(B "E", 0, 1)]].
Proof. vm_compute. repeat split; reflexivity. Qed.

(** ** src/torrent/fileio/fileio_test.go *)
Definition wr0 (names : list (list bytes * nat)) (inos : list bytes) : world := mkw [] names inos [] [].
Fixpoint read_all (ti : torinfo) (i : Z) (pieces : list bytes) (w : world) : bool :=
  match pieces with
  | [] => true
  | p :: r => match ReadPiece ti i (mkslice (zeros (ti_plen ti)) []) w with
              | (Ok n, buf, w') => beqb (firstn (Z.to_nat n) (vis buf)) p && read_all ti (i + 1) r w'
              | _ => false
              end
  end.
(** fileio_test.go:13-98: the files are on the disk, the metadata is made from them *)
Example TestFileIO_ReadPiece :
  let w := wr0 [([B "f1"], 0%nat); ([B "f2"], 1%nat); ([B "f3"], 2%nat)] [B "abcd"; B "e"; B "fghijkl"] in
  okv (CreateTorInfo sha1 100 [] w [B "f1"; B "f2"; B "f3"] (B ".") [] 3) (fun ti =>
    okv (SegmentData (mkslice (B "abcdefghijkl") []) 3) (fun pieces =>
      match OCATAll (ti_files ti) w with (Ok _, w') => read_all ti 0 pieces w' && (Nat.eqb (List.length pieces) 4) | _ => false end)) = true.
Proof. vm_compute. reflexivity. Qed.
(** fileio_test.go:100-200: the files are made, written and read *)
Fixpoint write_all (ti : torinfo) (i : Z) (pieces : list bytes) (w : world) : option world :=
  match pieces with
  | [] => Some w
  | p :: r => match WritePiece sha1 ti i (mkslice p []) w with (Ok _, w') => write_all ti (i + 1) r w' | _ => None end
  end.
Definition write_test (name : bytes) (files : list (bytes * bytes)) : bool :=
  let w := wr0 [] [] in
  okv (SegmentData (mkslice (List.concat (map snd files)) []) 3) (fun pieces =>
    okv (NewTorInfo name 3 (HashSlices sha1 pieces) (map (fun f => MakeFileEntry (fst f) (zlen (snd f))) files)) (fun ti =>
      match OCATAll (ti_files ti) w with
      | (Ok _, w1) => match write_all ti 0 pieces w1 with Some w2 => read_all ti 0 pieces w2 | None => false end
      | _ => false
      end)).
Example TestFileIO_WritePiece : write_test (B "multifile") [(B "f1", B "abcd"); (B "f2", B "e"); (B "f3", B "fghijkl")] = true /\ write_test (B "singlefile") [(B "singlefile", B "abcdefgh")] = true.
Proof. vm_compute. auto. Qed.

(** ** src/utils *)
(** futils_test.go:9-50: CreateZeroFilledFile; a file's length, here with smaller sizes, the chunk (writeSize) being 1 MiB; C82 is the
    theorem for all sizes. *)
Example TestWriteEmptyFile : match CreateZeroFilledFile (B "TestEmptyWrite/subdir/test") 1000 (wr0 [] []) with (Ok i, w) => zlen (nth i (w_inos w) []) = 1000 | _ => False end.
Proof. vm_compute. reflexivity. Qed.
(** utils_test.go:8-27 *)
Example TestSegmentData : SegmentData (arr [0;1;2;3]) 4 = Ok [bz [0;1;2;3]] /\ SegmentData (arr [0;1;2;3;4;5]) 2 = Ok [bz [0;1]; bz [2;3]; bz [4;5]] /\
  SegmentData (arr [0;1;2;3;4;5;6;7]) 3 = Ok [bz [0;1;2]; bz [3;4;5]; bz [6;7]].
Proof. vm_compute. auto. Qed.
(** utils_test.go:29-50 *)
Example TestRemoveSwap : map (fun i => match RemoveSwap [0; 1; 2; 3; 4] i with Ok (l, _) => l | _ => [] end) [0; 1; 2; 3; 4] = [[4;1;2;3]; [0;4;2;3]; [0;1;4;3]; [0;1;2;4]; [0;1;2;3]].
Proof. vm_compute. reflexivity. Qed.
(** ds/linklist_test.go:7-25 *)
Example TestLinkedList_AddData :
  okv (fold_left (fun r i => do ' (h, ll) <- r; do ' (_, h', ll') <- AddDataFront h ll i; Ok (h', ll')) (seq 0 20) (Ok ([], MakeList))) (fun x =>
    let '(h, ll) := x in okv (walk 100 h (lhead ll)) (fun l => if list_eq_dec Nat.eq_dec (map (fun a => match nth_error h a with Some n => ndata n | None => 0%nat end) l) (rev (seq 0 20)) then true else false)) = true.
Proof. vm_compute. reflexivity. Qed.
(** ds/linklist_test.go:27-70 *)
Definition add_n (n : nat) : res (heap Z * llist) := fold_left (fun r i => do ' (h, ll) <- r; do ' (_, h', ll') <- AddDataFront h ll (Z.of_nat i); Ok (h', ll')) (seq 1 n) (Ok ([], MakeList)).
Example TestLinkedList_Remove :
  okv (do ' (h, ll) <- add_n 1; Remove h ll 0) (fun x => (lsize (snd x) =? 0) && match lhead (snd x) with None => true | _ => false end) = true /\
  okv (do ' (h, ll) <- add_n 2; Remove h ll 1) (fun x => match lhead (snd x) with Some a => Nat.eqb a 0 | _ => false end) = true /\
  okv (do ' (h, ll) <- add_n 2; Remove h ll 0) (fun x => match lhead (snd x) with Some a => Nat.eqb a 1 | _ => false end) = true /\
  okv (do ' (h, ll) <- add_n 3; Remove h ll 1) (fun x => match nth_error (fst x) 0, nth_error (fst x) 2 with Some e1, Some e3 => match nprev e1, nnext e3 with Some a, Some b => Nat.eqb a 2 && Nat.eqb b 0 | _, _ => false end | _, _ => false end) = true.
Proof. vm_compute. auto. Qed.
(** ds/set_test.go:13-45 *)
Example TestSet_Add : forallb (fun ws => let s := fold_left (fun s w => snd (Add (fun k : bytes => k) s w)) ws MakeSet in (Size s =? zlen ws) && forallb (Has (fun k => k) s) ws) [[B "a"]; [B "a"; B "b"]; [B "a"; B "b"; B "c"]] = true.
Proof. vm_compute. reflexivity. Qed.
