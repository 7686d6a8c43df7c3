(** UrlSpec.v: the texts net/url.Parse takes for URLs, as a grammar. *)
From Verif Require Import Base.

Definition between (a b : Z) (c : byte) : bool := (a <=? b2z c) && (b2z c <=? b).
Definition alpha (c : byte) : bool := between 97 122 c || between 65 90 c.
Definition num (c : byte) : bool := between 48 57 c.
Definition among (l : bytes) (c : byte) : bool := existsb (Byte.eqb c) l.
Definition hexdig (c : byte) : bool := num c || between 97 102 c || between 65 70 c.
Definition hexval (c : byte) : Z := if num c then b2z c - 48 else if between 97 102 c then b2z c - 87 else b2z c - 55.
Definition without (c : byte) (s : bytes) : Prop := ~ In c s.
Definition begins_with (p s : bytes) : Prop := exists r, s = p ++ r.

(** Every % is followed by two hex digits of a value that is allowed; every other byte is allowed. *)
Fixpoint escaped_as (value : Z -> bool) (raw : byte -> bool) (s : bytes) : bool :=
  match s with
  | [] => true
  | c :: r =>
    if Byte.eqb c "%" then match r with x :: y :: r' => hexdig x && hexdig y && value (16 * hexval x + hexval y) && escaped_as value raw r' | _ => false end
    else raw c && escaped_as value raw r
  end.
Definition escaped (s : bytes) : bool := escaped_as (fun _ => true) (fun _ => true) s.
Definition decoded_byte (x y : byte) : byte := z2b (16 * hexval x + hexval y).
(** What it stands for. *)
Fixpoint meaning (s : bytes) : bytes :=
  match s with
  | [] => []
  | c :: r =>
    match r with
    | x :: y :: r' => if Byte.eqb c "%" then decoded_byte x y :: meaning r' else c :: meaning r
    | _ => c :: meaning r
    end
  end.
Definition name_char (c : byte) : bool := alpha c || num c || among (B "-_.~!$&'()*+,;=:[]<>""") c.
(** Names of hosts: any byte above 127, escaped or not; %25; of the others those above. *)
Definition name_text (s : bytes) : bool := escaped_as (fun v => (128 <=? v) || (v =? 37)) (fun c => (128 <=? b2z c) || name_char c) s.
Definition zone_text (s : bytes) : bool := escaped_as (fun v => (v =? 37) || (v =? 32) || name_char (z2b v)) (fun c => (128 <=? b2z c) || name_char c) s.
Definition no_25 (s : bytes) : Prop := forall a b, s <> a ++ B "%25" ++ b.
Definition port_text (p : bytes) : Prop := p = [] \/ exists d, p = ":"%byte :: d /\ forallb num d = true.
Inductive host_text : bytes -> Prop :=
| host_name h : ~ begins_with (B "[") h -> without ":" h -> name_text h = true -> host_text h
| host_port h d : ~ begins_with (B "[") h -> forallb num d = true -> name_text h = true -> host_text (h ++ ":"%byte :: d)
| host_literal x p : no_25 x -> name_text x = true -> port_text p -> host_text ("["%byte :: x ++ "]"%byte :: p)
| host_zone x z p : no_25 x -> name_text x = true -> zone_text (B "%25" ++ z) = true -> port_text p -> host_text ("["%byte :: x ++ (B "%25" ++ z) ++ "]"%byte :: p).
Definition user_char (c : byte) : bool := alpha c || num c || among (B "-._:~!$&'()*+,;=%@") c.
Inductive authority : bytes -> Prop :=
| auth_host h : without "@" h -> host_text h -> authority h
| auth_user u h : forallb user_char u = true -> escaped u = true -> without "@" h -> host_text h -> authority (u ++ "@"%byte :: h).
(** What follows the scheme (if there is one), up to '?'. *)
Inductive hier (scheme : bool) : bytes -> Prop :=
| hier_net a path : without "/" a -> path = [] \/ begins_with (B "/") path -> scheme = true \/ a <> [] \/ path = [] -> authority a -> escaped path = true -> hier scheme (B "//" ++ a ++ path)
| hier_abs p : begins_with (B "/") p -> (begins_with (B "//") p -> scheme = false /\ begins_with (B "///") p) -> escaped p = true -> hier scheme p
| hier_opaque p : scheme = true -> ~ begins_with (B "/") p -> hier scheme p
| hier_rel seg more : scheme = false -> ~ begins_with (B "/") (seg ++ more) -> without "/" seg -> without ":" seg -> more = [] \/ begins_with (B "/") more -> escaped (seg ++ more) = true -> hier scheme (seg ++ more).
Definition scheme_text (s : bytes) : Prop := exists c r, s = c :: r /\ alpha c = true /\ forallb (fun c => alpha c || num c || among (B "+-.") c) r = true.
Definition query_text (q : bytes) : Prop := q = [] \/ begins_with (B "?") q.
Definition body_text (u : bytes) : Prop :=
  (exists s p q, u = s ++ ":"%byte :: p ++ q /\ scheme_text s /\ without "?" p /\ query_text q /\ hier true p) \/
  (exists p q, u = p ++ q /\ (forall s r, s = [] \/ scheme_text s -> u <> s ++ ":"%byte :: r) /\ without "?" p /\ query_text q /\ hier false p).
Definition visible (s : bytes) : bool := forallb (fun c => negb (between 0 31 c || (b2z c =? 127))) s.
Definition url_text (a : bytes) : Prop :=
  exists u f, without "#" u /\ visible u = true /\ body_text u /\ (a = u \/ a = u ++ "#"%byte :: f /\ escaped f = true).

(** ** Trackers that can be reached *)
Definition spelt (w s : bytes) : Prop := Forall2 (fun c x => b2z c = b2z x \/ b2z c + 32 = b2z x /\ between 65 90 c = true) s w.
(** http://[user@]host... or https://... with a host that is not empty. *)
Definition with_host (auth : bytes) : Prop := exists u h, (auth = h \/ auth = u ++ "@"%byte :: h) /\ without "@" h /\ h <> [] /\ h <> B ":".
Definition http_text (a : bytes) : Prop :=
  url_text a /\ exists s auth more, a = s ++ B "://" ++ auth ++ more /\ (spelt (B "http") s \/ spelt (B "https") s) /\
    without "/" auth /\ without "?" auth /\ without "#" auth /\ (more = [] \/ begins_with (B "/") more \/ begins_with (B "?") more \/ begins_with (B "#") more) /\ with_host auth.
(** ** What such a text says *)
Definition small (c : byte) : byte := if between 65 90 c then z2b (b2z c + 32) else c.
Definition path_text (p : bytes) : Prop := (p = [] \/ begins_with (B "/") p) /\ without "?" p /\ without "#" p.
Definition frag_text (f : bytes) : Prop := f = [] \/ begins_with (B "#") f.
(** scheme://[user@]host path query fragment *)
Definition parts (a s h path q : bytes) : Prop :=
  exists auth user f, a = s ++ B "://" ++ auth ++ path ++ q ++ f /\ scheme_text s /\ (auth = h \/ auth = user ++ "@"%byte :: h) /\ without "@" h /\
    without "/" auth /\ without "?" auth /\ without "#" auth /\ path_text path /\ query_text q /\ without "#" q /\ frag_text f.
