(** UrlModel.v: what decides whether and where src/tracker/tracker.go (85-110) sends its request: net/url.Parse (url.go of Go 1.18),
    which http.NewRequest calls on the announce text, and the checks of http.Client.Do before it opens a connection (request.go,
    transport.go of net/http). Left out: user names (sent as a header), proxies, redirects. *)
From Verif Require Import Base BencodeModel PeerModel TrackerModel LayoutModel StartModel.

(** url.go shouldEscape for bytes of a host (encodeHost, encodeZone) *)
Definition host_byte (b : byte) : bool := unreserved b || existsb (Byte.eqb b) (B "!$&'()*+,;=:[]<>""").
(** url.go unescape; the modes for paths, fragments and user names differ in nothing unescape does. *)
Inductive mode := Host | Zone | Other.
Definition pct25 (x y : byte) : bool := Byte.eqb x "2" && Byte.eqb y "5".
Definition esc_refused (m : mode) (x y : byte) (h l : Z) : bool :=
  match m with
  | Host => (h <? 8) && negb (pct25 x y)
  | Zone => negb (pct25 x y) && negb (16 * h + l =? 32) && negb (host_byte (z2b (16 * h + l)))
  | Other => false
  end.
Definition raw_refused (m : mode) (b : byte) : bool :=
  match m with Other => false | _ => (b2z b <? 128) && negb (host_byte b) end.
Fixpoint unescape (m : mode) (s : bytes) : res bytes :=
  match s with
  | [] => Ok []
  | b :: r =>
    if Byte.eqb b "%" then
      match r with
      | x :: y :: r' =>
        match TrackerModel.unhex x, TrackerModel.unhex y with
        | Some h, Some l => if esc_refused m x y h l then Err EInvalid else do t <- unescape m r'; Ok (z2b (16 * h + l) :: t)
        | _, _ => Err EInvalid
        end
      | _ => Err EInvalid
      end
    else if raw_refused m b then Err EInvalid else do t <- unescape m r; Ok (b :: t)
  end.

(** strings.LastIndex: the text before and after the last c. *)
Fixpoint rcut (c : byte) (s : bytes) : option (bytes * bytes) :=
  match s with
  | [] => None
  | b :: r => match rcut c r with Some (x, y) => Some (b :: x, y) | None => if Byte.eqb b c then Some ([], r) else None end
  end.
(** strings.Index(s, "%25"): the text before it, and from it on. *)
Fixpoint cut25 (s : bytes) : option (bytes * bytes) :=
  match s with
  | [] => None
  | b :: r =>
    if match r with x :: y :: _ => Byte.eqb b "%" && pct25 x y | _ => false end then Some ([], s)
    else match cut25 r with Some (x, y) => Some (b :: x, y) | None => None end
  end.
Definition isdigit (b : byte) : bool := (48 <=? b2z b) && (b2z b <=? 57).
Definition isletter (b : byte) : bool := ((97 <=? b2z b) && (b2z b <=? 122)) || ((65 <=? b2z b) && (b2z b <=? 90)).
(** url.go validOptionalPort *)
Definition validOptionalPort (p : bytes) : bool :=
  match p with [] => true | b :: r => Byte.eqb b ":" && forallb isdigit r end.
(** url.go parseHost *)
Definition parseHost (h : bytes) : res bytes :=
  match h with
  | b :: _ =>
    if Byte.eqb b "[" then
      match rcut "]" h with
      | None => Err EInvalid
      | Some (x, tail) =>
        if validOptionalPort tail then
          match cut25 x with
          | Some (h1, h2) => do a <- unescape Host h1; do b <- unescape Zone h2; do c <- unescape Host ("]"%byte :: tail); Ok (a ++ b ++ c)
          | None => unescape Host h
          end
        else Err EInvalid
      end
    else
      match rcut ":" h with
      | Some (_, port) => if forallb isdigit port then unescape Host h else Err EInvalid
      | None => unescape Host h
      end
  | [] => Ok []
  end.
(** url.go validUserinfo *)
Definition user_byte (b : byte) : bool := isletter b || isdigit b || existsb (Byte.eqb b) (B "-._:~!$&'()*+,;=%@").
(** url.go parseAuthority, without the user *)
Definition parseAuthority (a : bytes) : res bytes :=
  match rcut "@" a with
  | None => parseHost a
  | Some (user, host) =>
    do h <- parseHost host;
    if forallb user_byte user then
      let (name, pass) := cut ":" user in do x <- unescape Other name; do y <- unescape Other pass; Ok h
    else Err EInvalid
  end.
(** url.go getScheme: None if there is no scheme; [i0]: at the first byte *)
Fixpoint scheme_from (i0 : bool) (s : bytes) : res (option (bytes * bytes)) :=
  match s with
  | [] => Ok None
  | c :: r =>
    let more := match scheme_from false r with Ok (Some (x, y)) => Ok (Some (c :: x, y)) | e => e end in
    if isletter c then more
    else if isdigit c || existsb (Byte.eqb c) (B "+-.") then if i0 then Ok None else more
    else if Byte.eqb c ":" then if i0 then Err EInvalid else Ok (Some ([], r))
    else Ok None
  end.
Definition getScheme (s : bytes) : res (bytes * bytes) :=
  match scheme_from true s with Ok (Some p) => Ok p | Ok None => Ok ([], s) | Err e => Err e | Panic => Panic | NoFuel => NoFuel end.
(** strings.ToLower on letters, digits, '+', '-' and '.' *)
Definition lower (b : byte) : byte := if (65 <=? b2z b) && (b2z b <=? 90) then z2b (b2z b + 32) else b.

(** url.go URL: of its fields those that matter here *)
Record url := mkurl { u_scheme : bytes; u_opaque : bytes; u_host : bytes; u_path : bytes; u_query : bytes }.
(** url.go stringContainsCTLByte *)
Definition ctl (b : byte) : bool := (b2z b <? 32) || (b2z b =? 127).
Definition starts (p s : bytes) : bool := beqb p (firstn (List.length p) s).
(** strings.Index(s, "/"): the text before it, and from it on *)
Fixpoint slash (s : bytes) : bytes * bytes :=
  match s with [] => ([], []) | b :: r => if Byte.eqb b "/" then ([], s) else let (x, y) := slash r in (b :: x, y) end.
(** url.go parse(rawURL, false); a lone '?' at the end leaves the same rest and query as any '?' does. *)
Definition parse (raw : bytes) : res url :=
  if existsb ctl raw then Err EInvalid
  else if beqb raw (B "*") then Ok (mkurl [] [] [] (B "*") [])
  else
    do sr <- getScheme raw;
    let (s0, rest0) := (sr : bytes * bytes) in
    let s := map lower s0 in
    let (rest, q) := cut "?" rest0 in
    if starts (B "/") rest || beqb s [] then
      if negb (starts (B "/") rest) && has ":" (fst (cut "/" rest)) then Err EInvalid
      else if (negb (beqb s []) || negb (starts (B "///") rest)) && starts (B "//") rest then
        let (a, path) := slash (skipn 2 rest) in
        do h <- parseAuthority a;
        do p <- unescape Other path;
        Ok (mkurl s [] h p q)
      else
        do p <- unescape Other rest;
        Ok (mkurl s [] [] p q)
    else Ok (mkurl s rest [] [] q).
(** url.go Parse *)
Definition Parse (raw : bytes) : res url :=
  let (u, frag) := cut "#" raw in
  do r <- parse u;
  do f <- unescape Other frag;
  Ok r.

(** net/http removeEmptyPort(host), which NewRequest applies: "tracker:" becomes "tracker" *)
Definition removeEmptyPort (h : bytes) : bytes :=
  match rcut ":" h with Some (x, []) => x | _ => h end.
(** transport.go roundTrip: no connection is opened for another scheme or without a host. *)
Definition contacted (u : url) : bool :=
  (beqb (u_scheme u) (B "http") || beqb (u_scheme u) (B "https")) && negb (beqb (removeEmptyPort (u_host u)) []).

(** The network as tracker.Get sees it, given what servers answer. *)
Definition url_query (a : bytes) : option bytes := match Parse a with Ok u => Some (u_query u) | _ => None end.
Definition http_net (answer : url -> bytes -> option gslice) (pip : bytes -> ip) : net :=
  mknet url_query (fun a q => match Parse a with Ok u => if contacted u then answer u q else None | _ => None end) pip.
