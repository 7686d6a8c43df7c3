(** PrintSpec.v: reading a report back. *)
From Verif Require Import Base BencodeSpec PeerModel UtilsModel LayoutModel FsModel FsSpec TrackerModel StartModel PrintModel.

Definition no_nl (s : bytes) : Prop := ~ In x0a s.
(** The lines of a text. *)
Fixpoint lines (s : bytes) : list bytes :=
  match s with
  | [] => [[]]
  | b :: r => if Byte.eqb b x0a then [] :: lines r else match lines r with t :: ts => (b :: t) :: ts | [] => [[b]] end
  end.
(** The first line that begins with a label, without the label. *)
Fixpoint strip (label line : bytes) : option bytes :=
  match label, line with
  | [], _ => Some line
  | a :: l, b :: r => if Byte.eqb a b then strip l r else None
  | _, _ => None
  end.
Fixpoint first_after (label : bytes) (ls : list bytes) : option bytes :=
  match ls with [] => None | l :: r => match strip label l with Some t => Some t | None => first_after label r end end.
(** Text of an integer. *)
Definition int_text (z : Z) (s : bytes) : Prop := decimal s z \/ exists ds, z < 0 /\ s = "-"%byte :: ds /\ decimal ds (- z).
(** Bytes from pairs of hexadecimal digits. *)
Definition nibble (b : byte) : option Z :=
  if (48 <=? b2z b) && (b2z b <=? 57) then Some (b2z b - 48) else if (97 <=? b2z b) && (b2z b <=? 102) then Some (b2z b - 87) else None.
Fixpoint read_hex (s : bytes) : option bytes :=
  match s with
  | [] => Some []
  | a :: b :: r => match nibble a, nibble b, read_hex r with Some x, Some y, Some t => Some (z2b (16 * x + y) :: t) | _, _, _ => None end
  | _ => None
  end.
(** What fmt's %v of a float may not contain. *)
Definition clean_floats (g : Z -> Z -> bytes) : Prop := forall n d, no_nl (g n d) /\ ~ In ":"%byte (g n d).
(** Every number in the torrent is an int64. *)
Definition in_i64 (z : Z) : Prop := min64 <= z <= max64.
Definition int64_torrent (tor : torrent) : Prop :=
  in_i64 (ti_plen (t_info tor)) /\ in_i64 (ti_length (t_info tor)) /\ Forall (fun e => in_i64 (eb_len (en_base e))) (ti_files (t_info tor)).
Definition paths_of (tor : torrent) : list bytes := map (fun e => eb_tor (en_base e)) (ti_files (t_info tor)).
(** Where the peers are, as text. *)
Definition addresses (l : list info) : list bytes := map (fun p => IPString (pi_ip p) ++ B ":" ++ BencodeModel.itoa (pi_port p)) l.
(** One line of a list of peers. *)
Definition peer_line (l : list info) : bytes := x0a :: x09 :: List.concat (map (fun a => B "(" ++ a ++ B ") ") (addresses l)).
(** A text with two decimals within half a hundredth of num/den. *)
Definition rounded (num den : Z) (s : bytes) : Prop :=
  exists ip i a b, s = (if num <? 0 then B "-" else []) ++ ip ++ B "." ++ [a; b] /\ decimal ip i /\ 48 <= b2z a <= 57 /\ 48 <= b2z b <= 57 /\
    2 * Z.abs (den * (100 * i + 10 * (b2z a - 48) + (b2z b - 48)) - 100 * Z.abs num) <= den.
(** No newline in what the report quotes. *)
Definition printable (tor : torrent) : Prop := no_nl (ti_name (t_info tor)) /\ no_nl (t_announce tor) /\ (ti_single (t_info tor) = false -> Forall no_nl (paths_of tor)).
(** The lines of a report tell the name, the announce address, the infohash, the number of pieces, the length and the paths. *)
Definition reads_as (tor : torrent) (ls : list bytes) : Prop :=
  first_after (B "     Name: [") ls = Some (ti_name (t_info tor) ++ B "]") /\
  first_after (B " Announce: [") ls = Some (t_announce tor ++ B "]") /\
  (exists h, first_after (B " Infohash: [") ls = Some (h ++ B "]") /\ read_hex h = Some (t_infohash tor)) /\
  (exists n r, first_after (B "   Pieces: [") ls = Some (n ++ B " x " ++ r) /\ int_text (ti_npieces (t_info tor)) n) /\
  (exists num den u s, Bytes4Humans (ti_length (t_info tor)) = Ok (num, den, u) /\ nth_error ls 5 = Some (B "   Length: [" ++ s ++ B " " ++ u ++ B "]") /\ rounded num den s) /\
  (exists n, nth_error ls 6 = Some (B "   Length: [" ++ n ++ B " b]") /\ int_text (ti_length (t_info tor)) n) /\
  (if ti_single (t_info tor) then List.length ls = 7%nat
   else exists fl, skipn 7 ls = B "Files:" :: fl ++ [[]] /\ Forall2 (fun l p => exists s, l = s ++ B " : " ++ p /\ ~ In ":"%byte s) fl (paths_of tor)).
(** No newline in the texts a tracker sent. *)
Definition quiet (s : tstate) : Prop := no_nl (t_warning s) /\ no_nl (t_tid s).
(** What the program has printed after the two limits. *)
Definition told g sha1 sp (o : Opts) (w : world) (f : fate) (rest : bytes) : Prop :=
  match f with
  | Exit 0 => exists c tor text, file_at w (UtilsModel.o_input o) = Some c /\ FromTorrentFile sha1 (mkslice c sp) (o_wd o) = Ok tor /\ tor_String g tor = Ok text /\ rest = text ++ B "


DONE
"
  | Running s _ => exists text, tor_String g (sw_tor s) = Ok text /\ rest = B "
 " ++ text ++ B "
" ++ state_String (sw_state s) ++ B "
" ++ list_String (sw_peers s) ++ B "
"
  | _ => rest = []
  end.
