(** PeerModel.v: model of src/peer (info.go, state.go), of the parts of package net it relies on, and of
    PeerHandler.Key and Choke (src/swarm/peerhandler.go). *)
From Verif Require Import Base BencodeModel WireModel.

(** net.IP: a byte slice, nil or of 4 or 16 bytes (others print as ?hex). *)
Definition ip := bytes.
(** net.IPv4(a, b, c, d): the 16-byte form. *)
Definition v4prefix : bytes := repeat x00 10 ++ [xff; xff]%byte.
Definition IPv4 (a b c d : byte) : ip := v4prefix ++ [a; b; c; d].
(** IP.To4 *)
Definition To4 (p : ip) : option (byte * byte * byte * byte) :=
  match p with
  | [a; b; c; d] => Some (a, b, c, d)
  | _ => if (zlen p =? 16) && beqb (firstn 12 p) v4prefix
         then match skipn 12 p with [a; b; c; d] => Some (a, b, c, d) | _ => None end else None
  end.
(** hexadecimal digits *)
Definition hexdigit (z : Z) : byte := nth (Z.to_nat z) (B "0123456789abcdef") x00.
(** net.appendHex (package net, parse.go): lower case, no leading zeros, of a 16-bit value *)
Definition hex16 (z : Z) : bytes :=
  (if 4096 <=? z then [hexdigit (z / 4096)] else []) ++ (if 256 <=? z then [hexdigit (z / 256 mod 16)] else []) ++
  (if 16 <=? z then [hexdigit (z / 16 mod 16)] else []) ++ [hexdigit (z mod 16)].
(** the eight 16-bit groups of a 16-byte address *)
Fixpoint groups16 (p : bytes) : list Z :=
  match p with a :: b :: r => (b2z a * 256 + b2z b) :: groups16 r | _ => [] end.
(** IP.String: length of the run of zero groups at the head; first longest run (start, length) among the groups. *)
Fixpoint zrun (g : list Z) : nat := match g with 0 :: r => S (zrun r) | _ => O end.
Fixpoint best_run (g : list Z) (pos : nat) (best : nat * nat) : nat * nat :=
  match g with
  | [] => best
  | _ :: r => best_run r (S pos) (if (snd best <? zrun g)%nat then (pos, zrun g) else best)
  end.
(** IP.String: the groups from position pos, those in [e0, e1) replaced by "::". *)
Fixpoint print6 (g : list Z) (pos e0 e1 : nat) : bytes :=
  match g with
  | [] => []
  | x :: r =>
    if (e0 <=? pos)%nat && (pos <? e1)%nat then (if (pos =? e0)%nat then B "::" else []) ++ print6 r (S pos) e0 e1
    else (if (pos =? 0)%nat || ((pos =? e1)%nat && (e0 <? e1)%nat) then [] else B ":") ++ hex16 x ++ print6 r (S pos) e0 e1
  end.
Definition String6 (p : bytes) : bytes :=
  let g := groups16 p in
  let '(e0, len) := best_run g 0 (0, 0)%nat in
  if (2 <=? len)%nat then print6 g 0 e0 (e0 + len) else print6 g 0 0 0.
Definition hex8 (b : byte) : bytes := [hexdigit (b2z b / 16); hexdigit (b2z b mod 16)].
Definition dotted (a b c d : byte) : bytes := itoa (b2z a) ++ B "." ++ itoa (b2z b) ++ B "." ++ itoa (b2z c) ++ B "." ++ itoa (b2z d).
(** IP.String *)
Definition IPString (p : ip) : bytes :=
  match p with
  | [] => B "<nil>"
  | _ => match To4 p with
         | Some (a, b, c, d) => dotted a b c d
         | None => if zlen p =? 16 then String6 p else B "?" ++ flat_map hex8 p
         end
  end.

(** info.go:9-15 Info *)
Record info := mkinfo { pi_id : bytes; pi_ip : ip; pi_port : Z; pi_addr : bytes; pi_str : bytes }.
(** info.go:17-30 MakePeer; %v of a net.IP is its String. *)
Definition MakePeer (id : bytes) (p : ip) (port : Z) : info :=
  mkinfo id p port (IPString p ++ B ":" ++ itoa port) (id ++ B " @ " ++ IPString p ++ B ":" ++ itoa port).
(** info.go:44-50, peerhandler.go:316-318 *)
Definition Addr (i : info) : bytes := pi_addr i.
Definition Key (i : info) : bytes := pi_str i.

(** net.SplitHostPort, used by net.Dial (peerhandler.go:51): host and port of an address, or an error. *)
Fixpoint split_last_colon (s : bytes) : option (bytes * bytes) :=
  match s with
  | [] => None
  | b :: r => match split_last_colon r with
              | Some (h, p) => Some (b :: h, p)
              | None => if Byte.eqb b ":" then Some ([], r) else None
              end
  end.
Definition has (c : byte) (s : bytes) : bool := existsb (Byte.eqb c) s.
Fixpoint upto (c : byte) (s : bytes) : option (bytes * bytes) :=
  match s with
  | [] => None
  | b :: r => if Byte.eqb b c then Some ([], r) else match upto c r with Some (x, y) => Some (b :: x, y) | None => None end
  end.
Definition SplitHostPort (s : bytes) : res (bytes * bytes) :=
  match split_last_colon s with
  | None => Err EInvalid                                (* missing port *)
  | Some (h, p) =>
    match s with
    | b :: r =>
      if Byte.eqb b "[" then
        match upto "]" r with
        | None => Err EInvalid                          (* missing ']' *)
        | Some (host, rest) =>
          match rest with
          | c :: p' => if Byte.eqb c ":" && beqb p' p then
                         if has "[" host || has "[" p || has "]" p then Err EInvalid else Ok (host, p)
                       else Err EInvalid
          | [] => Err EInvalid
          end
        end
      else if has ":" h then Err EInvalid               (* too many colons *)
      else if has "[" s || has "]" s then Err EInvalid else Ok (h, p)
    | [] => Err EInvalid
    end
  end.

(** state.go *)
Record pstate := mkps { chokingUs : bool; weChoking : bool; interestedUs : bool; weInterested : bool }.
(** state.go:10-17 MakeState *)
Definition MakeState : pstate := mkps true true false false.
(** state.go:23-49 the setters *)
Definition SetChokingUs (s : pstate) (v : bool) : pstate := mkps v (weChoking s) (interestedUs s) (weInterested s).
Definition SetWeChoking (s : pstate) (v : bool) : pstate := mkps (chokingUs s) v (interestedUs s) (weInterested s).
Definition SetInterestedUs (s : pstate) (v : bool) : pstate := mkps (chokingUs s) (weChoking s) v (weInterested s).
Definition SetWeInterested (s : pstate) (v : bool) : pstate := mkps (chokingUs s) (weChoking s) (interestedUs s) v.
(** A sequence of setter calls. *)
Inductive pop := PChokingUs (v : bool) | PWeChoking (v : bool) | PInterestedUs (v : bool) | PWeInterested (v : bool).
Definition psstep (s : pstate) (o : pop) : pstate :=
  match o with PChokingUs v => SetChokingUs s v | PWeChoking v => SetWeChoking s v | PInterestedUs v => SetInterestedUs s v | PWeInterested v => SetWeInterested s v end.
Definition psrun (s : pstate) (ops : list pop) : pstate := fold_left psstep ops s.
(** peerhandler.go:117-128 NewPeerHandler does not set peerState: it is the zero value, not MakeState(). *)
Definition handler_initial_state : pstate := mkps false false false false.

(** peerhandler.go:133-137 Choke: what is written to the connection. *)
Definition Choke : bytes := EncodeMsg MUnchoke.
