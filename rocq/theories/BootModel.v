(** BootModel.v: NewSwarm and runListener's net.Listen (src/swarm/swarm.go), tracker.Get (src/tracker/tracker.go) and main (src/main.go) over the tree of
    directories and the bounded number of descriptors of TreeModel. StartModel has the same functions over FsModel. *)
From Verif Require Import Base BencodeModel BitfieldModel PptModel PeerModel UtilsModel LayoutModel FsModel SwarmModel TrackerModel StartModel TreeModel.

(** os.ReadFile (torrent.go:75): the file is opened, read and closed again. Opening a directory works and reading it does not, which comes to the same. *)
Definition t_readfile (p sp : bytes) : tio gslice :=
  go i <- t_open p;
  fun t => let (r, w') := syscall (run c <- content i; ret (mkslice c sp)) (tw_w t) in (r, set_fds (set_w t w') (S (tw_free t)) (tw_lost t)).

(** tracker.go:77-84 Get, with 100-111 of do. The connection needs a descriptor (one is counted; looking up a name takes more for a while). The body is read and
    never closed: read to its end, the connection stays open and idle until the transport or the tracker drops it. *)
Definition t_Get (n : net) (tor : torrent) (st : Stats) (port : Z) (peerId : bytes) : tio response :=
  go q <- tlift (newRequest (n_query n (t_announce tor)) (t_infohash tor) st port peerId);
  go u <- collect;
  fun t => match tw_free t with
           | O => (Err EIO, t)
           | S k => match n_answer n (t_announce tor) q with
                    | None => (Err EIO, t)
                    | Some body => (handle_body (n_parseIP n) body, set_fds t k (S (tw_lost t)))
                    end
           end.

(** swarm.go:39-96 NewSwarm. The log lines are left out. *)
Definition tNewSwarm (sha1 : bytes -> bytes) (n : net) (src : nat -> Z) (fuel : nat) (sp : bytes) (o : Opts) : tio swarm :=
  go id <- tlift (NewPeerId src fuel);
  go fdata <- t_readfile (o_input o) sp;
  go tor <- tlift (FromTorrentFile sha1 fdata (o_wd o));
  go u <- embed NewFileIO;
  go u <- tOCATAll (ti_files (t_info tor));
  go b0 <- tlift (NewBitfield (ti_npieces (t_info tor)));
  go b <- embed (Validate sha1 (t_info tor) b0);
  let st := NewStats 0 0 0 in
  go resp <- t_Get n tor st (OptPort o) id;
  go p <- tlift (NewPeerPieceTracker (u32 (ti_npieces (t_info tor))));
  tlift (Ok (mksw id (OptPort o) tor b st (r_state resp) (r_peers resp) (SetRate (o_uplim o)) (SetRate (o_dnlim o)) p)).

(** A socket: net.Dial and net.Listen. *)
Definition t_socket : tio unit := tsyscall (with_fd (tlift (Ok tt))).
(** swarm.go:126-135 the dialling goroutines; those that get no socket only log it (130). Here [k] of them have dialled. *)
Fixpoint t_dials (k : nat) : tio unit :=
  match k with O => tlift (Ok tt) | S k' => fun t => t_dials k' (snd (t_socket t)) end.
(** swarm.go:138-144 runListener up to the loop, after [k] of the other goroutines (swarm.go:122-136 starts them all at once). *)
Definition t_listen (k : nat) : tio unit :=
  go u <- t_dials k;
  fun t => match t_socket t with (Err _, t') => (Panic, t') | r => r end.

(** main.go:31-44 CmdSwarm, 46-52 CmdTorInfo, 12-29 main. *)
Definition tCmdSwarm sha1 n src fuel sp (o : Opts) (t : tworld) : fate * tworld :=
  match tNewSwarm sha1 n src fuel sp o t with
  | (Ok s, t') => (Running s (Start s), t')
  | (Err _, t') => (Exit 1, t')
  | (Panic, t') => (Crash, t')
  | (NoFuel, t') => (Hang, t')
  end.
Definition tCmdTorInfo (sha1 : bytes -> bytes) (sp : bytes) (o : Opts) (t : tworld) : fate * tworld :=
  match (go fdata <- t_readfile (o_input o) sp; tlift (FromTorrentFile sha1 fdata (o_wd o))) t with
  | (Ok _, t') => (Exit 0, t')
  | (Err _, t') => (Exit 1, t')
  | (Panic, t') => (Crash, t')
  | (NoFuel, t') => (Hang, t')
  end.
Definition tmain uni sha1 n src fuel sp (o : Opts) (t : tworld) : fate * tworld :=
  match initOpts uni o with
  | Ok o =>
    if beqb (o_cmd o) (B "swarm") then tCmdSwarm sha1 n src fuel sp o t
    else if beqb (o_cmd o) (B "info") then tCmdTorInfo sha1 sp o t
    else (Exit 0, t)
  | NoFuel => (Hang, t)
  | _ => (Crash, t)
  end.
