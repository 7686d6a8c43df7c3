(** SwarmModel.v: model of Swarm.Validate (src/swarm/swarm.go) and of handleRequest (src/swarm/msghandler.go). *)
From Verif Require Import Base BitfieldModel WireModel LayoutModel FsModel.

(** swarm.go:104-115; [n] counts the iterations left, i the piece. The buffer is reused. *)
Fixpoint validate_loop (sha1 : bytes -> bytes) (ti : torinfo) (n : nat) (i : Z) (buf : gslice) (bf : bitfield) (w : world)
  : res bitfield * world :=
  match n with
  | O => (Ok bf, w)
  | S n' =>
    match ReadPiece ti i buf w with
    | (Ok k, buf', w') =>
      match (do knownHash <- PieceHash ti i;
             do d <- sslice buf' 0 k;
             SetBit bf i (beqb knownHash (sha1 (vis d)))) with
      | Ok bf' => validate_loop sha1 ti n' (i + 1) buf' bf' w'
      | Err e => (Err e, w')
      | Panic => (Panic, w')
      | NoFuel => (NoFuel, w')
      end
    | (Err e, _, w') => (Err e, w')
    | (Panic, _, w') => (Panic, w')
    | (NoFuel, _, w') => (NoFuel, w')
    end
  end.
(** swarm.go:98-118 Validate; make() with a negative piece length panics. *)
Definition Validate (sha1 : bytes -> bytes) (ti : torinfo) (bf : bitfield) (w : world) : res bitfield * world :=
  if ti_plen ti <? 0 then (Panic, w)
  else validate_loop sha1 ti (Z.to_nat (ti_npieces ti)) 0 (mkslice (zeros (ti_plen ti)) []) bf w.

(** The file part of swarm.go:39-71 NewSwarm: open the files, make the bitfield, validate. *)
Definition open_and_validate (sha1 : bytes -> bytes) (ti : torinfo) (w : world) : res bitfield * world :=
  match OCATAll (ti_files ti) w with
  | (Ok _, w') => match NewBitfield (ti_npieces ti) with Ok bf => Validate sha1 ti bf w' | Err e => (Err e, w') | Panic => (Panic, w') | NoFuel => (NoFuel, w') end
  | (Err e, w') => (Err e, w')
  | (Panic, w') => (Panic, w')
  | (NoFuel, w') => (NoFuel, w')
  end.

(** msghandler.go:58-76 handleRequest: what is written to the connection (a list of zero or one encoded
    messages), the handler's buffer afterwards, and the world. The rate limiter is modelled apart. *)
Definition handleRequest (ti : torinfo) (bf : bitfield) (idx begin reqlen : Z) (buf : gslice) (w : world)
  : res (list bytes) * gslice * world :=
  match (if Complete bf then Ok true else Get bf idx) with
  | Ok true =>
    match ReadPiece ti idx buf w with
    | (Ok _, buf', w') =>
      match sslice buf' begin (u32 (begin + reqlen)) with
      | Ok subdata => (Ok [EncodeMsg (MPiece idx begin (vis subdata))], buf', w')
      | Err e => (Err e, buf', w')
      | Panic => (Panic, buf', w')
      | NoFuel => (NoFuel, buf', w')
      end
    | (Err e, buf', w') => (Err e, buf', w')
    | (Panic, buf', w') => (Panic, buf', w')
    | (NoFuel, buf', w') => (NoFuel, buf', w')
    end
  | Ok false => (Ok [], buf, w)
  | Err e => (Err e, buf, w)
  | Panic => (Panic, buf, w)
  | NoFuel => (NoFuel, buf, w)
  end.
