(** IpModel.v: net.ParseIP (package net of Go 1.18: ip.go, parse.go), which src/tracker/tracker.go:247 applies to the addresses of a
    tracker's answer. *)
From Verif Require Import Base PeerModel.

(** parse.go dtoi and xtoi: the number at the start of s, in a base, and how many characters it has; None when there is none or it is
    not below 0xFFFFFF. The two functions differ in base and digits only. *)
Fixpoint toi_loop (base : Z) (dig : byte -> option Z) (s : bytes) (n : Z) (i : nat) : option (Z * nat) :=
  match s with
  | [] => Some (n, i)
  | b :: r => match dig b with
              | None => Some (n, i)
              | Some d => if 16777215 <=? n * base + d then None else toi_loop base dig r (n * base + d) (S i)
              end
  end.
Definition toi (base : Z) (dig : byte -> option Z) (s : bytes) : option (Z * nat) :=
  match toi_loop base dig s 0 0 with Some (_, O) => None | r => r end.
Definition dec_dig (b : byte) : option Z := let z := b2z b in if (48 <=? z) && (z <=? 57) then Some (z - 48) else None.
Definition hex_dig (b : byte) : option Z :=
  let z := b2z b in
  if (48 <=? z) && (z <=? 57) then Some (z - 48) else if (97 <=? z) && (z <=? 102) then Some (z - 87) else if (65 <=? z) && (z <=? 70) then Some (z - 55) else None.
Definition dtoi : bytes -> option (Z * nat) := toi 10 dec_dig.
Definition xtoi : bytes -> option (Z * nat) := toi 16 hex_dig.

(** ip.go parseIPv4: [k] octets are still to come, [first] before the first one. *)
Fixpoint v4_loop (k : nat) (first : bool) (s acc : bytes) : option bytes :=
  match k with
  | O => match s with [] => Some acc | _ => None end
  | S k' =>
    match s with
    | [] => None
    | b :: r =>
      if negb first && negb (Byte.eqb b ".") then None
      else
        let s := if first then s else r in
        match dtoi s with
        | None => None
        | Some (n, c) =>
          if 255 <? n then None
          else if (1 <? c)%nat && match s with z :: _ => Byte.eqb z "0" | [] => false end then None
          else v4_loop k' false (skipn c s) (acc ++ [z2b n])
        end
    end
  end.
Definition parseIPv4 (s : bytes) : option bytes := v4_loop 4 true s [].

(** ip.go parseIPv6: the loop, with room for [room] more groups; [acc] is what is filled of the address, [ell] the place of "::" in it.
    What is filled, the place of "::" and the text that is left. *)
Fixpoint v6_loop (room : nat) (s acc : bytes) (ell : option nat) : option (bytes * option nat * bytes) :=
  match room with
  | O => Some (acc, ell, s)
  | S room' =>
    match xtoi s with
    | None => None
    | Some (n, c) =>
      if 65535 <? n then None
      else
        let rest := skipn c s in
        match rest with
        | [] => Some (acc ++ [z2b (n / 256); z2b (n mod 256)], ell, [])
        | d :: r =>
          if Byte.eqb d "." then
            if match ell with None => negb (List.length acc =? 12)%nat | Some _ => false end || (16 <? List.length acc + 4)%nat then None
            else match parseIPv4 s with None => None | Some q => Some (acc ++ q, ell, []) end
          else if negb (Byte.eqb d ":") || (List.length rest =? 1)%nat then None
          else
            let acc' := acc ++ [z2b (n / 256); z2b (n mod 256)] in
            match r with
            | e :: r' => if Byte.eqb e ":" then
                           match ell with
                           | Some _ => None
                           | None => match r' with [] => Some (acc', Some (List.length acc'), []) | _ => v6_loop room' r' acc' (Some (List.length acc')) end
                           end
                         else v6_loop room' r acc' ell
            | [] => None
            end
        end
    end
  end.
(** after the loop: all of the text used, and "::" made up to 16 bytes *)
Definition v6_finish (st : option (bytes * option nat * bytes)) : ip :=
  match st with
  | Some (acc, ell, []) =>
    if (List.length acc <? 16)%nat then
      match ell with None => [] | Some e => firstn e acc ++ repeat x00 (16 - List.length acc) ++ skipn e acc end
    else match ell with Some _ => [] | None => acc end
  | _ => []
  end.
Definition parseIPv6 (s : bytes) : ip :=
  match s with
  | a :: b :: r => if Byte.eqb a ":" && Byte.eqb b ":" then match r with [] => repeat x00 16 | _ => v6_finish (v6_loop 8 r [] (Some 0%nat)) end
                   else v6_finish (v6_loop 8 s [] None)
  | _ => v6_finish (v6_loop 8 s [] None)
  end.
(** ip.go ParseIP: the first dot or colon decides; nil (here []) for text that is no address. *)
Fixpoint first_mark (s : bytes) : option byte :=
  match s with [] => None | b :: r => if Byte.eqb b "." || Byte.eqb b ":" then Some b else first_mark r end.
Definition ParseIP (s : bytes) : ip :=
  match first_mark s with
  | None => []
  | Some b => if Byte.eqb b "." then match parseIPv4 s with Some [a; b; c; d] => IPv4 a b c d | _ => [] end else parseIPv6 s
  end.
