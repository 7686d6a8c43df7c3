(** TrackerModel.v: model of src/tracker (tracker.go, stats.go) and of the parts of net/url it relies on. *)
From Verif Require Import Base BencodeModel PeerModel.

(* ------------------------------------------------------------------ *)
(** * stats.go *)
Record Stats := mkst { s_up : Z; s_dn : Z; s_left : Z }.
(** stats.go:12-18 NewStats(dn, up, left) *)
Definition NewStats (dn up left0 : Z) : Stats := mkst up dn left0.
(** stats.go:20-26 *)
Definition IncUploaded (s : Stats) (n : Z) : Stats := mkst (u64 (s_up s + n)) (s_dn s) (s_left s).
Definition IncDnloaded (s : Stats) (n : Z) : Stats := mkst (s_up s) (u64 (s_dn s + n)) (s_left s).
(** stats.go:28-34 *)
Definition DecLeft (s : Stats) (n : Z) : Stats :=
  if s_left s <=? n then mkst (s_up s) (s_dn s) 0 else mkst (s_up s) (s_dn s) (u64 (s_left s - n)).
(** A sequence of updates. *)
Inductive stop := OUp (n : Z) | ODn (n : Z) | OLeft (n : Z).
Definition ststep (s : Stats) (o : stop) : Stats :=
  match o with OUp n => IncUploaded s n | ODn n => IncDnloaded s n | OLeft n => DecLeft s n end.
Definition strun (s : Stats) (ops : list stop) : Stats := fold_left ststep ops s.

(* ------------------------------------------------------------------ *)
(** * net/url: QueryEscape, QueryUnescape, Values *)
(** shouldEscape(c, encodeQueryComponent) = false *)
Definition unreserved (b : byte) : bool :=
  let z := b2z b in ((97 <=? z) && (z <=? 122)) || ((65 <=? z) && (z <=? 90)) || ((48 <=? z) && (z <=? 57)) ||
    Byte.eqb b "-" || Byte.eqb b "_" || Byte.eqb b "." || Byte.eqb b "~".
Definition HEX (z : Z) : byte := nth (Z.to_nat z) (B "0123456789ABCDEF") x00.
Definition esc1 (b : byte) : bytes :=
  if unreserved b then [b] else if Byte.eqb b " " then B "+" else ["%"%byte; HEX (b2z b / 16); HEX (b2z b mod 16)].
Definition QueryEscape (s : bytes) : bytes := flat_map esc1 s.
(** ishex / unhex *)
Definition unhex (b : byte) : option Z :=
  let z := b2z b in
  if (48 <=? z) && (z <=? 57) then Some (z - 48)
  else if (97 <=? z) && (z <=? 102) then Some (z - 97 + 10)
  else if (65 <=? z) && (z <=? 70) then Some (z - 65 + 10) else None.
Fixpoint QueryUnescape (s : bytes) : res bytes :=
  match s with
  | [] => Ok []
  | b :: r =>
    if Byte.eqb b "%" then
      match r with
      | x :: y :: r' => match unhex x, unhex y with Some h, Some l => do t <- QueryUnescape r'; Ok (z2b (16 * h + l) :: t) | _, _ => Err EInvalid end
      | _ => Err EInvalid
      end
    else do t <- QueryUnescape r; Ok ((if Byte.eqb b "+" then " "%byte else b) :: t)
  end.
(** url.Values: a map from keys to lists of values. *)
Definition values := list (bytes * list bytes).
Fixpoint vget (v : values) (k : bytes) : list bytes :=
  match v with [] => [] | (k', l) :: r => if beqb k k' then l else vget r k end.
Fixpoint vadd (v : values) (k x : bytes) : values :=
  match v with [] => [(k, [x])] | (k', l) :: r => if beqb k k' then (k', l ++ [x]) :: r else (k', l) :: vadd r k x end.
(** strings.Cut *)
Fixpoint cut (c : byte) (s : bytes) : bytes * bytes :=
  match s with [] => ([], []) | b :: r => if Byte.eqb b c then ([], r) else let (x, y) := cut c r in (b :: x, y) end.
(** parseQuery: the pieces between '&' in order; pieces with ';' or a bad escape are dropped (URL.Query ignores the error). *)
Fixpoint pieces_amp (s : bytes) (cur : bytes) : list bytes :=
  match s with [] => [cur] | b :: r => if Byte.eqb b "&" then cur :: pieces_amp r [] else pieces_amp r (cur ++ [b]) end.
Definition parse_piece (v : values) (p : bytes) : values :=
  if has ";" p then v else if beqb p [] then v else
  let (k, x) := cut "=" p in
  match QueryUnescape k, QueryUnescape x with Ok k, Ok x => vadd v k x | _, _ => v end.
Definition ParseQuery (raw : bytes) : values := fold_left parse_piece (pieces_amp raw []) [].
(** Values.Encode: keys sorted, each with its values in order. *)
Definition pair_text (k x : bytes) : bytes := QueryEscape k ++ B "=" ++ QueryEscape x.
Definition encode_pairs (v : values) : list bytes := flat_map (fun kl => map (pair_text (fst kl)) (snd kl)) (ksort v).
Fixpoint join_amp (l : list bytes) : bytes := match l with [] => [] | [x] => x | x :: r => x ++ B "&" ++ join_amp r end.
Definition Encode (v : values) : bytes := join_amp (encode_pairs v).

(** tracker.go:86-98 newRequest: the raw query of the request, given that of the announce URL. None = the URL did not
    parse: http.NewRequest then returned a nil request and line 86 dereferences it. *)
Definition newRequest (announce_query : option bytes) (infohash : bytes) (st : Stats) (port : Z) (peerId : bytes) : res bytes :=
  match announce_query with
  | None => Panic
  | Some raw =>
    let q := ParseQuery raw in
    let q := vadd q (B "info_hash") infohash in
    let q := vadd q (B "peer_id") (QueryEscape peerId) in
    let q := vadd q (B "port") (itoa port) in
    let q := vadd q (B "uploaded") (itoa (s_up st)) in
    let q := vadd q (B "downloaded") (itoa (s_dn st)) in
    let q := vadd q (B "left") (itoa (s_left st)) in
    let q := vadd q (B "compact") (B "1") in
    Ok (Encode q)
  end.

(* ------------------------------------------------------------------ *)
(** * Responses *)
(** tracker.go:30-37 State, 42-45 Response *)
Record tstate := mkts { t_interval : Z; t_minInterval : Z; t_warning : bytes; t_tid : bytes; t_seeders : Z; t_leechers : Z }.
Record response := mkresp { r_state : tstate; r_peers : list info }.

(** tracker.go:206-222 stringSource.GetPeers *)
Fixpoint compact_loop (s : bytes) : res (list info) :=
  match s with
  | a :: b :: c :: d :: e :: f :: r => do port <- rd16 [e; f]; do l <- compact_loop r; Ok (MakePeer [] (IPv4 a b c d) port :: l)
  | _ => Ok []
  end.
Definition string_GetPeers (s : bytes) : res (list info) := if zlen s mod 6 =? 0 then compact_loop s else Err EInvalid.
(** tracker.go:226-250 listSource.GetPeers; [parseIP] is net.ParseIP (nil for text that is no address). *)
Fixpoint list_GetPeers (parseIP : bytes -> ip) (l : list gval) : res (list info) :=
  match l with
  | [] => Ok []
  | VDict d :: r =>
    do ip <- GetString d (B "ip");
    do port <- GetUint d (B "port");
    do id <- GetString d (B "peer id");
    do rest <- list_GetPeers parseIP r;
    Ok (MakePeer id (parseIP ip) (u16 port) :: rest)
  | _ => Err EInvalid
  end.
(** A failed getter leaves the field at its zero value (tracker.go:184-193). *)
Definition default {A} (a : A) (r : res A) : A := match r with Ok x => x | _ => a end.
(** tracker.go:131-196 newResponse *)
Definition newResponse (parseIP : bytes -> ip) (d : list (bytes * gval)) : res response :=
  match GetString d (B "failure reason") with
  | Ok fail => Err (EFail fail)
  | _ =>
    do inter <- GetUint d (B "interval");
    do seeds <- GetUint d (B "complete");
    do leeches <- GetUint d (B "incomplete");
    do peers <- match GetString d (B "peers") with
                | Ok s => string_GetPeers s
                | _ => do l <- GetList d (B "peers"); list_GetPeers parseIP l
                end;
    Ok (mkresp (mkts inter (default 0 (GetUint d (B "min interval"))) (default [] (GetString d (B "warning message"))) [] seeds leeches) peers)
  end.
(** tracker.go:100-129 do, from the body of the answer on. *)
Definition handle_body (parseIP : bytes -> ip) (body : gslice) : res response :=
  do v <- Decode body;
  match v with VDict d => newResponse parseIP d | _ => Err ENotDict end.

(** swarm.go:77-81: the first announce. *)
Definition first_announce (announce_query : option bytes) (infohash : bytes) (port : Z) (peerId : bytes) : res bytes :=
  newRequest announce_query infohash (NewStats 0 0 0) port peerId.
