(** StartModel.v: model of NewSwarm, Start and runListener (src/swarm/swarm.go), of tracker.Get (src/tracker/tracker.go)
    and of main (src/main.go). *)
From Verif Require RateModel.
From Verif Require Import Base BencodeModel BitfieldModel PptModel PeerModel UtilsModel LayoutModel FsModel SwarmModel TrackerModel.

(** What the program sees of the network when it announces itself: the query of the URL as net/url parses it (None: it does
    not parse), the body of the answer to a GET with a given query (None: no connection, or an error while reading), and
    net.ParseIP. *)
Record net := mknet { n_query : bytes -> option bytes; n_answer : bytes -> bytes -> option gslice; n_parseIP : bytes -> ip }.

(** tracker.go:77-84 Get, with 100-111 of do *)
Definition tracker_Get (n : net) (tor : torrent) (st : Stats) (port : Z) (peerId : bytes) : res response :=
  do q <- newRequest (n_query n (t_announce tor)) (t_infohash tor) st port peerId;
  match n_answer n (t_announce tor) q with
  | None => Err EIO
  | Some body => handle_body (n_parseIP n) body
  end.

(** os.ReadFile (torrent.go:75): [sp] is what the slice holds past its length. *)
Definition os_readfile (p sp : bytes) : io gslice :=
  run i <- os_open p; syscall (run c <- content i; ret (mkslice c sp)).
(** fileio.go:41-46 NewFileIO: an empty map of open files *)
Definition NewFileIO : io unit := fun w => (Ok tt, set_lfps w []).
(** ratelimit.go:28-55: a new limiter, then the setter *)
Definition SetRate (limit : Z) : Z := RateModel.clamp limit.

(** swarm.go:21-34 Swarm. The files are in the world; of the limiter the two rates are kept. ChErr is never used. *)
Record swarm := mksw { sw_id : bytes; sw_port : Z; sw_tor : torrent; sw_bf : bitfield; sw_stats : Stats; sw_state : tstate;
                       sw_peers : list info; sw_wrate : Z; sw_rrate : Z; sw_ppt : ppt }.

(** swarm.go:39-96 NewSwarm. The log lines are left out. *)
Definition NewSwarm (sha1 : bytes -> bytes) (n : net) (src : nat -> Z) (fuel : nat) (sp : bytes) (o : Opts) : io swarm :=
  run id <- lift (NewPeerId src fuel);
  run fdata <- os_readfile (o_input o) sp;
  run tor <- lift (FromTorrentFile sha1 fdata (o_wd o));
  run u <- NewFileIO;
  run u <- OCATAll (ti_files (t_info tor));
  run b0 <- lift (NewBitfield (ti_npieces (t_info tor)));
  run b <- Validate sha1 (t_info tor) b0;
  let st := NewStats 0 0 0 in
  run resp <- lift (tracker_Get n tor st (OptPort o) id);
  run t <- lift (NewPeerPieceTracker (u32 (ti_npieces (t_info tor))));
  ret (mksw id (OptPort o) tor b st (r_state resp) (r_peers resp) (SetRate (o_uplim o)) (SetRate (o_dnlim o)) t).

(** The goroutines of a running swarm. *)
Inductive goroutine := GListener | GLimiter | GPeer (p : info).
(** swarm.go:120-136 Start: what it launches, in order. *)
Fixpoint launch_peers (l : list info) : list goroutine := match l with [] => [] | p :: r => GPeer p :: launch_peers r end.
Definition Start (s : swarm) : list goroutine := GListener :: GLimiter :: launch_peers (sw_peers s).

(** swarm.go:138-166 runListener. [listens] tells whether net.Listen works; the events are the results of Accept in order
    (None: an error). Result: the connections handed to FromIncoming in new goroutines, and how the listener ended: with a
    panic, or still waiting (Ok) when the events end. *)
Fixpoint accept_loop {C} (events : list (option C)) : list C * res unit :=
  match events with
  | [] => ([], Ok tt)
  | None :: _ => ([], Panic)
  | Some c :: r => let (l, e) := accept_loop r in (c :: l, e)
  end.
Definition runListener {C} (listens : bool) (events : list (option C)) : list C * res unit :=
  if listens then accept_loop events else ([], Panic).

(** How the process goes on: it runs these goroutines for ever (main.go:41-43), exits with a status, or dies of a panic
    (exit status 2). *)
Inductive fate := Running (s : swarm) (l : list goroutine) | Exit (code : Z) | Crash | Hang.
(** main.go:31-44 CmdSwarm; log.Fatal exits with status 1. *)
Definition CmdSwarm sha1 n src fuel sp (o : Opts) (w : world) : fate * world :=
  match NewSwarm sha1 n src fuel sp o w with
  | (Ok s, w') => (Running s (Start s), w')
  | (Err _, w') => (Exit 1, w')
  | (Panic, w') => (Crash, w')
  | (NoFuel, w') => (Hang, w')
  end.
(** main.go:46-52 CmdTorInfo; what it prints is left out. *)
Definition CmdTorInfo (sha1 : bytes -> bytes) (sp : bytes) (o : Opts) (w : world) : fate * world :=
  match (run fdata <- os_readfile (o_input o) sp; lift (FromTorrentFile sha1 fdata (o_wd o))) w with
  | (Ok _, w') => (Exit 0, w')
  | (Err _, w') => (Exit 1, w')
  | (Panic, w') => (Crash, w')
  | (NoFuel, w') => (Hang, w')
  end.
(** main.go:12-29 main; [o] holds the flags as given. *)
Definition main uni sha1 n src fuel sp (o : Opts) (w : world) : fate * world :=
  match initOpts uni o with
  | Ok o =>
    if beqb (o_cmd o) (B "swarm") then CmdSwarm sha1 n src fuel sp o w
    else if beqb (o_cmd o) (B "info") then CmdTorInfo sha1 sp o w
    else (Exit 0, w)
  | NoFuel => (Hang, w)
  | _ => (Crash, w)
  end.
