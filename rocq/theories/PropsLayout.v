(** PropsLayout.v: property theorems C26-C31 and C72 (file layout and piece map). *)
From Verif Require Import Base BencodeModel PathModel LayoutModel LayoutSpec LayoutProofs PieceMapProofs.

(** Three files of 3, 0 and 6 bytes. *)
Definition three : list ebase := [MakeFileEntry (B "a") 3; MakeFileEntry (B "b") 0; MakeFileEntry (B "c") 6].
Definition hash3 : bytes := repeat x41 60.

(** C26 *)
Theorem C26_MakeFileList_spans : forall bs P, sane P (lens_of bs) ->
  exists es, MakeFileList bs P = Ok es /\ List.length es = List.length bs /\
  forall k b e, nth_error bs k = Some b -> nth_error es k = Some e ->
    let S0 := fstart (lens_of bs) k in let L := eb_len b in
    en_base e = b /\ en_sp e = S0 / P /\ en_so e = S0 mod P /\
    (1 <= L -> en_ep e = (S0 + L - 1) / P /\ en_eo e = (S0 + L - 1) mod P) /\
    (L = 0 -> 2 <= P -> en_ep e = S0 / P /\ en_eo e = S0 mod P - 1) /\
    (L = 0 -> P = 1 -> en_ep e = S0 - 1 /\ en_eo e = 0).
Proof. exact MakeFileList_entries. Qed.
Print Assumptions C26_MakeFileList_spans.
Theorem C26_empty_file_shifts_nothing : forall P a z b es,
  sane P (lens_of (a ++ b)) -> eb_len z = 0 -> MakeFileList (a ++ b) P = Ok es ->
  exists ez, MakeFileList (a ++ z :: b) P = Ok (firstn (List.length a) es ++ ez :: skipn (List.length a) es).
Proof. exact MakeFileList_empty_file. Qed.
Print Assumptions C26_empty_file_shifts_nothing.
Example C26_case : sane 4 (lens_of three) /\
  option_map (fun e => (en_sp e, en_so e, en_ep e, en_eo e)) (nth_error (match MakeFileList three 4 with Ok es => es | _ => [] end) 2) = Some (0, 3, 2, 0).
Proof. split; [|vm_compute; reflexivity]. split; [unfold big; lia|]. split; [repeat constructor; vm_compute; discriminate|vm_compute; reflexivity]. Qed.

(** C27 *)
Theorem C27_PieceInfo_intersection : forall bs P es k b e i,
  sane P (lens_of bs) -> MakeFileList bs P = Ok es ->
  nth_error bs k = Some b -> nth_error es k = Some e -> 1 <= eb_len b ->
  let S0 := fstart (lens_of bs) k in let L := eb_len b in
  let lo := Z.max S0 (i * P) in let hi := Z.min (S0 + L) ((i + 1) * P) in
  (lo < hi -> PieceInfo e i P = Ok (mkpi (lo - S0) (hi - lo))) /\
  (hi <= lo -> PieceInfo e i P = Err EBounds).
Proof. exact PieceInfo_range. Qed.
Print Assumptions C27_PieceInfo_intersection.
Example C27_case : exists e, nth_error (match MakeFileList three 4 with Ok es => es | _ => [] end) 2 = Some e /\
  PieceInfo e 1 4 = Ok (mkpi 1 4) /\ PieceInfo e 3 4 = Err EBounds.
Proof. eexists; split; [vm_compute; reflexivity|split; vm_compute; reflexivity]. Qed.

(** C28 *)
Theorem C28_PieceLookup_partition : forall name P hashes files,
  sane P (lens_of files) -> zlen hashes = 20 * pieces_needed P (zsum (lens_of files)) ->
  exists ti, NewTorInfo name P hashes files = Ok ti /\
    ti_npieces ti = pieces_needed P (zsum (lens_of files)) /\
    forall i,
      (0 <= i < ti_npieces ti <-> exists locs, PieceLookup ti i = Ok locs) /\
      (~ (0 <= i < ti_npieces ti) -> PieceLookup ti i = Err EBounds) /\
      forall locs, PieceLookup ti i = Ok locs ->
        increasing 0 locs /\
        tiles (lens_of files) locs (i * P) (Z.min ((i + 1) * P) (zsum (lens_of files))) /\
        forall contents, map zlen contents = lens_of files -> read_locs contents locs = piece_bytes P contents i.
Proof. exact NewTorInfo_partition. Qed.
Print Assumptions C28_PieceLookup_partition.
Theorem C28_pieces_cover_contents : forall P contents n,
  1 <= P -> zlen (List.concat contents) <= Z.of_nat n * P ->
  List.concat (map (fun i => piece_bytes P contents (Z.of_nat i)) (seq 0 n)) = List.concat contents.
Proof. exact pieces_cover. Qed.
Print Assumptions C28_pieces_cover_contents.
Example C28_case : zlen hash3 = 20 * pieces_needed 4 (zsum (lens_of three)) /\
  exists ti, NewTorInfo (B "t") 4 hash3 three = Ok ti /\
  PieceLookup ti 0 = Ok [mkpl 0 (mkpi 0 3); mkpl 1 (mkpi 0 0); mkpl 2 (mkpi 0 1)] /\
  read_locs [B "abc"; []; B "defghi"] [mkpl 0 (mkpi 0 3); mkpl 1 (mkpi 0 0); mkpl 2 (mkpi 0 1)] = B "abcd".
Proof. split; [reflexivity|]. eexists; split; [vm_compute; reflexivity|split; vm_compute; reflexivity]. Qed.

(** C29 *)
Theorem C29_bad_hash_length : forall name P hashes files,
  zlen hashes mod 20 <> 0 -> NewTorInfo name P hashes files = Err EInvalid.
Proof. exact NewTorInfo_bad_hashes. Qed.
Print Assumptions C29_bad_hash_length.
Theorem C29_number_of_hashes : forall name P hashes files,
  sane P (lens_of files) -> zlen hashes mod 20 = 0 ->
  let T := zsum (lens_of files) in let n := zlen hashes / 20 in
  (pieces_needed P T <= n <-> exists ti, NewTorInfo name P hashes files = Ok ti) /\
  (n < pieces_needed P T -> file_boundary (lens_of files) (n * P) -> NewTorInfo name P hashes files = Err EInvalid) /\
  (n < pieces_needed P T -> ~ file_boundary (lens_of files) (n * P) -> NewTorInfo name P hashes files = Panic).
Proof. exact NewTorInfo_count. Qed.
Print Assumptions C29_number_of_hashes.
Theorem C29_last_piece_exact : forall name P hashes files ti,
  sane P (lens_of files) -> zlen hashes = 20 * pieces_needed P (zsum (lens_of files)) -> 0 < zsum (lens_of files) ->
  NewTorInfo name P hashes files = Ok ti ->
  1 <= ti_lastlen ti <= P /\ ti_lastlen ti = zsum (lens_of files) - (ti_npieces ti - 1) * P.
Proof. exact lastlen_exact. Qed.
Print Assumptions C29_last_piece_exact.
Theorem C29_surplus_hashes : forall name P hashes files ti,
  sane P (lens_of files) -> zlen hashes mod 20 = 0 ->
  let T := zsum (lens_of files) in let n := zlen hashes / 20 in
  pieces_needed P T < n -> n * P < 2 * big -> NewTorInfo name P hashes files = Ok ti ->
  ti_lastlen ti <= 0 /\
  forall i locs, pieces_needed P T <= i < n -> PieceLookup ti i = Ok locs -> Forall (fun l => ReadAmnt (pl_info l) = 0) locs.
Proof. exact surplus_hashes. Qed.
Print Assumptions C29_surplus_hashes.
Theorem C29_zero_piece_length : forall name hashes files,
  zlen hashes mod 20 = 0 -> files <> [] -> NewTorInfo name 0 hashes files = Panic.
Proof. exact zero_piece_length. Qed.
Print Assumptions C29_zero_piece_length.
Example C29_case : NewTorInfo (B "t") 4 (repeat x41 40) three = Panic /\ NewTorInfo (B "t") 3 (repeat x41 20) three = Err EInvalid /\
  (exists ti, NewTorInfo (B "t") 4 hash3 three = Ok ti /\ ti_lastlen ti = 1) /\
  (exists ti, NewTorInfo (B "t") 4 (repeat x41 80) three = Ok ti /\ ti_lastlen ti = -3).
Proof. split; [reflexivity|]. split; [reflexivity|]. split; (eexists; split; [vm_compute; reflexivity|vm_compute; reflexivity]). Qed.

(** C30 *)
Theorem C30_GetFiles : forall bs P es p, sane P (lens_of bs) -> MakeFileList bs P = Ok es ->
  GetFiles es p = filter (fun e => (en_sp e <=? p) && (p <=? en_ep e)) es.
Proof. exact GetFiles_sublist. Qed.
Print Assumptions C30_GetFiles.
Theorem C30_span_has_byte : forall bs P es p k b e, sane P (lens_of bs) -> MakeFileList bs P = Ok es ->
  nth_error bs k = Some b -> nth_error es k = Some e -> 1 <= eb_len b ->
  (((en_sp e <=? p) && (p <=? en_ep e) = true) <->
   exists x, fstart (lens_of bs) k <= x < fstart (lens_of bs) k + eb_len b /\ x / P = p).
Proof. exact GetFiles_bytes. Qed.
Print Assumptions C30_span_has_byte.
Example C30_case : map (fun e => eb_tor (en_base e)) (GetFiles (match MakeFileList three 4 with Ok es => es | _ => [] end) 0) = [B "a"; B "b"; B "c"] /\
  map (fun e => eb_tor (en_base e)) (GetFiles (match MakeFileList three 4 with Ok es => es | _ => [] end) 2) = [B "c"].
Proof. split; vm_compute; reflexivity. Qed.

(** C31 *)
Theorem C31_CalcNumPieces : forall bs P, sane P (lens_of bs) ->
  exists n, CalcNumPieces bs P = Ok n /\
  (zsum (lens_of bs) = 0 -> n = 0) /\ (0 < zsum (lens_of bs) -> (n - 1) * P < zsum (lens_of bs) <= n * P).
Proof. exact CalcNumPieces_ceil. Qed.
Print Assumptions C31_CalcNumPieces.
Example C31_case : CalcNumPieces three 4 = Ok 3.
Proof. reflexivity. Qed.

(** C72 *)
Theorem C72_PieceHash : forall ti i,
  zlen (ti_hashes ti) = 20 * ti_npieces ti -> zlen (ti_hashes ti) < big -> -100000000000000000 <= i <= 100000000000000000 ->
  PieceHash ti i = if (0 <=? i) && (i <? ti_npieces ti) then Ok (range (ti_hashes ti) (20 * i) (20 * i + 20)) else Panic.
Proof. exact PieceHash_spec. Qed.
Print Assumptions C72_PieceHash.
Example C72_case : exists ti, NewTorInfo (B "t") 4 (repeat x41 20 ++ repeat x42 20 ++ repeat x43 20) three = Ok ti /\
  PieceHash ti 1 = Ok (repeat x42 20) /\ PieceHash ti 3 = Panic.
Proof. eexists; split; [vm_compute; reflexivity|split; vm_compute; reflexivity]. Qed.
