(** LinkStartModel.v: StartModel's NewSwarm, CmdSwarm, CmdTorInfo and main on a file system with symbolic links (LinkModel). *)
From Verif Require Import Base BencodeModel BitfieldModel PptModel UtilsModel LayoutModel FsModel SwarmModel TrackerModel StartModel LinkModel.

(** os.ReadFile (torrent.go:75) *)
Definition l_readfile (L : links) (p sp : bytes) : io gslice :=
  run i <- l_open L p; syscall (run c <- content i; ret (mkslice c sp)).
(** swarm.go:39-96 NewSwarm *)
Definition l_NewSwarm (L : links) (sha1 : bytes -> bytes) (n : net) (src : nat -> Z) (fuel : nat) (sp : bytes) (o : Opts) : io swarm :=
  run id <- lift (NewPeerId src fuel);
  run fdata <- l_readfile L (o_input o) sp;
  run tor <- lift (FromTorrentFile sha1 fdata (o_wd o));
  run u <- NewFileIO;
  run u <- l_OCATAll L (ti_files (t_info tor));
  run b0 <- lift (NewBitfield (ti_npieces (t_info tor)));
  run b <- Validate sha1 (t_info tor) b0;
  let st := NewStats 0 0 0 in
  run resp <- lift (tracker_Get n tor st (OptPort o) id);
  run t <- lift (NewPeerPieceTracker (u32 (ti_npieces (t_info tor))));
  ret (mksw id (OptPort o) tor b st (r_state resp) (r_peers resp) (SetRate (o_uplim o)) (SetRate (o_dnlim o)) t).
(** main.go:31-44 CmdSwarm *)
Definition l_CmdSwarm (L : links) sha1 n src fuel sp (o : Opts) (w : world) : fate * world :=
  match l_NewSwarm L sha1 n src fuel sp o w with
  | (Ok s, w') => (Running s (Start s), w')
  | (Err _, w') => (Exit 1, w')
  | (Panic, w') => (Crash, w')
  | (NoFuel, w') => (Hang, w')
  end.
(** main.go:46-52 CmdTorInfo *)
Definition l_CmdTorInfo (L : links) (sha1 : bytes -> bytes) (sp : bytes) (o : Opts) (w : world) : fate * world :=
  match (run fdata <- l_readfile L (o_input o) sp; lift (FromTorrentFile sha1 fdata (o_wd o))) w with
  | (Ok _, w') => (Exit 0, w')
  | (Err _, w') => (Exit 1, w')
  | (Panic, w') => (Crash, w')
  | (NoFuel, w') => (Hang, w')
  end.
(** main.go:12-29 main *)
Definition l_main (L : links) uni sha1 n src fuel sp (o : Opts) (w : world) : fate * world :=
  match initOpts uni o with
  | Ok o =>
    if beqb (o_cmd o) (B "swarm") then l_CmdSwarm L sha1 n src fuel sp o w
    else if beqb (o_cmd o) (B "info") then l_CmdTorInfo L sha1 sp o w
    else (Exit 0, w)
  | NoFuel => (Hang, w)
  | _ => (Crash, w)
  end.
