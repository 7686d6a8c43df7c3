(** PrintModel.v: model of the String methods (src/torrent/torrent.go, src/tracker/tracker.go, src/peer/list.go, src/swarm/swarm.go,
    src/p2p) and of what main writes to standard output (src/main.go). *)
From Verif Require Import Base BencodeModel BitfieldModel WireModel PptModel PeerModel UtilsModel LayoutModel FsModel SwarmModel TrackerModel StartModel.

Definition nl : bytes := [x0a].
(** fmt: %8s and %12s of ASCII text *)
Definition padl (n : nat) (s : bytes) : bytes := repeat x20 (n - List.length s) ++ s.
(** encoding/hex EncodeToString *)
Definition hex_text (s : bytes) : bytes := flat_map hex8 s.
(** fmt %.02f of the float num/den (a power of two): nearest hundredth, ties to even. *)
Definition hundredths (num den : Z) : Z :=
  let q := num * 100 / den in
  let r := num * 100 mod den in
  if 2 * r <? den then q else if den <? 2 * r then q + 1 else if Z.even q then q else q + 1.
Definition fixed2 (num den : Z) : bytes :=
  let h := Z.abs (hundredths num den) in
  (if num <? 0 then B "-" else []) ++ itoa (h / 100) ++ B "." ++ [digit (h / 10 mod 10); digit (h mod 10)].

(** torrent.go:129-135. [g num den] is fmt's %v of the float num/den (strconv's shortest text), which is not modelled. *)
Fixpoint file_lines (g : Z -> Z -> bytes) (l : list entry) : res bytes :=
  match l with
  | [] => Ok []
  | e :: r =>
    do ' (num, den, units2) <- Bytes4Humans (eb_len (en_base e));
    do t <- file_lines g r;
    Ok (padl 8 (g num den ++ units2) ++ B " : " ++ eb_tor (en_base e) ++ nl ++ t)
  end.
(** torrent.go:116-139 Torrent.String *)
Definition tor_String (g : Z -> Z -> bytes) (tor : torrent) : res bytes :=
  let ti := t_info tor in
  do ' (pn, pd, pu) <- Bytes4Humans (ti_plen ti);
  do ' (ln, ld, lu) <- Bytes4Humans (ti_length ti);
  do files <- (if ti_single ti then Ok [] else do t <- file_lines g (ti_files ti); Ok (nl ++ B "Files:" ++ nl ++ t));
  Ok (B "Torrent Info:" ++ nl ++
      B "     Name: [" ++ ti_name ti ++ B "]" ++ nl ++
      B " Announce: [" ++ t_announce tor ++ B "]" ++ nl ++
      B " Infohash: [" ++ hex_text (t_infohash tor) ++ B "]" ++ nl ++
      B "   Pieces: [" ++ itoa (ti_npieces ti) ++ B " x " ++ g pn pd ++ B " " ++ pu ++ B "]" ++ nl ++
      B "   Length: [" ++ fixed2 ln ld ++ B " " ++ lu ++ B "]" ++ nl ++
      B "   Length: [" ++ itoa (ti_length ti) ++ B " b]" ++ files).

(** tracker.go:255-265 State.String *)
Definition state_line (label v : bytes) : bytes := padl 12 label ++ B ": [" ++ v ++ B "]" ++ nl.
Definition state_String (s : tstate) : bytes :=
  B "Tracker State:" ++ nl ++ state_line (B "Seeders") (itoa (t_seeders s)) ++ state_line (B "Leechers") (itoa (t_leechers s)) ++
  state_line (B "Interval") (itoa (t_interval s)) ++ state_line (B "Warning") (t_warning s) ++ state_line (B "Tracker ID") (t_tid s) ++
  state_line (B "Min Interval") (itoa (t_minInterval s)).
(** list.go:18-24, tracker.go:272-277: the peers from index i on; %v of a net.IP is its String. *)
Fixpoint peers_from (i : nat) (l : list info) : bytes :=
  match l with
  | [] => []
  | v :: r => (if Nat.eqb (Nat.modulo i 5) 0 then nl ++ [x09] else []) ++ B "(" ++ IPString (pi_ip v) ++ B ":" ++ itoa (pi_port v) ++ B ") " ++ peers_from (S i) r
  end.
(** list.go:16-26 List.String *)
Definition list_String (l : list info) : bytes := B "Peer List (" ++ itoa (zlen l) ++ B "):" ++ peers_from 0 l.
(** tracker.go:268-279 Response.String *)
Definition response_String (r : response) : bytes := state_String (r_state r) ++ B "Peer List (" ++ itoa (zlen (r_peers r)) ++ B "):" ++ peers_from 0 (r_peers r).
(** swarm.go:168-176 Swarm.String *)
Definition swarm_String (g : Z -> Z -> bytes) (s : swarm) : res bytes :=
  do t <- tor_String g (sw_tor s);
  Ok (t ++ nl ++ state_String (sw_state s) ++ nl ++ list_String (sw_peers s)).

(** fmt %v of a byte slice *)
Fixpoint spaced (l : bytes) : bytes := match l with [] => [] | [b] => itoa (b2z b) | b :: r => itoa (b2z b) ++ B " " ++ spaced r end.
(** have.go:62-67, bitfield.go:49-53, no_payload.go:71-93, keepalive.go:28-30, piece.go:68-75, request.go:71-78. *)
Definition msg_String (m : msg) : bytes :=
  match m with
  | MKeepAlive => B "Message: Keep Alive"
  | MChoke => B "Message: Choke"
  | MUnchoke => B "Message: Unchoke"
  | MInterested => B "Message: Interested"
  | MNotInterested => B "Message: Not Interested"
  | MHave i => B "Message: Have" ++ nl ++ B "Index: " ++ itoa i
  | MBitfield _ => B "Message: Bitfield" ++ nl
  | MRequest i b l => B "Message: Request" ++ nl ++ B "Index: " ++ itoa i ++ nl ++ B "Begin: " ++ itoa b ++ nl ++ B "Req Len: " ++ itoa l
  | MPiece i b blk => B "Message: Piece" ++ nl ++ B "Index: " ++ itoa i ++ nl ++ B "Begin: " ++ itoa b ++ nl ++ B "Block: " ++ B "[" ++ spaced blk ++ B "]"
  end.

(** What a command of main writes to standard output, how it ends, and the world: main.go:31-44 (Println puts a space between
    its two arguments) and 46-52 with 27. A report that panics would be a crash. *)
Definition shown := (bytes * fate * world)%type.
Definition swarm_shown (g : Z -> Z -> bytes) sha1 n src fuel sp (o : Opts) (w : world) : shown :=
  match NewSwarm sha1 n src fuel sp o w with
  | (Ok s, w') => match swarm_String g s with Ok t => (nl ++ B " " ++ t ++ nl, Running s (Start s), w') | _ => ([], Crash, w') end
  | (Err _, w') => ([], Exit 1, w')
  | (Panic, w') => ([], Crash, w')
  | (NoFuel, w') => ([], Hang, w')
  end.
Definition done_text : bytes := nl ++ nl ++ B "DONE" ++ nl.
Definition info_shown (g : Z -> Z -> bytes) sha1 sp (o : Opts) (w : world) : shown :=
  match (run fdata <- os_readfile (o_input o) sp; lift (FromTorrentFile sha1 fdata (o_wd o))) w with
  | (Ok tor, w') => match tor_String g tor with Ok t => (t ++ nl ++ done_text, Exit 0, w') | _ => ([], Crash, w') end
  | (Err _, w') => ([], Exit 1, w')
  | (Panic, w') => ([], Crash, w')
  | (NoFuel, w') => ([], Hang, w')
  end.
(** main.go:12-29 main *)
Definition main_shown (g : Z -> Z -> bytes) uni sha1 n src fuel sp (o : Opts) (w : world) : shown :=
  match initOpts uni o with
  | Ok o =>
    let '(t, f, w') :=
      if beqb (o_cmd o) (B "swarm") then swarm_shown g sha1 n src fuel sp o w
      else if beqb (o_cmd o) (B "info") then info_shown g sha1 sp o w
      else (B "invalid command [" ++ o_cmd o ++ B "]" ++ done_text, Exit 0, w) in
    (itoa (o_uplim o) ++ nl ++ itoa (o_dnlim o) ++ nl ++ t, f, w')
  | NoFuel => ([], Hang, w)
  | _ => ([], Crash, w)
  end.
