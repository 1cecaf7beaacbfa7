(** * Vocabulary of the claims about converting whole URLs *)
From Coq Require Import List NArith Bool.
From Verif Require Import PyStr Utf8 SpecUrls.
Import ListNotations.
Open Scope N_scope.

(** ** A URL with a network location, by its parts *)
Record url := Url {
  l_scheme : str;
  l_user : option (str * option str);  (* a name, perhaps a password *)
  l_host : str;                        (* without the brackets of an IPv6 address *)
  l_port : option N;
  l_path : str;
  l_query : str;                       (* empty: there is none *)
  l_fragment : str }.

Definition write_user (u : option (str * option str)) : str :=
  match u with
  | None => []
  | Some (n, None) => n ++ lit "@"
  | Some (n, Some w) => n ++ lit ":" ++ w ++ lit "@"
  end.
(** A host with a colon in it is an IPv6 address. *)
Definition write_host (h : str) : str := if existsb (N.eqb 58) h then lit "[" ++ h ++ lit "]" else h.
Definition write_port (p : option N) : str := match p with Some n => lit ":" ++ dec n | None => [] end.
Definition location (l : url) : str := write_user (l_user l) ++ write_host (l_host l) ++ write_port (l_port l).
Definition with_mark (mark : str) (s : str) : str := match s with [] => [] | _ => mark ++ s end.
Definition write_url (l : url) : str :=
  l_scheme l ++ lit "://" ++ location l ++ l_path l ++ with_mark (lit "?") (l_query l) ++ with_mark (lit "#") (l_fragment l).

(** None of the characters [bad], no tab and no end of a line *)
Definition free_of (bad s : str) : Prop := forall c, In c s -> ~ In c bad /\ c <> 9 /\ c <> 10 /\ c <> 13.

Definition scheme_letter (c : N) : Prop := 65 <= c <= 90 \/ 97 <= c <= 122.
(** [ip_ok]: what is accepted between brackets; [nfkc_ok]: what is accepted as a network
    location that is not ASCII. *)
Record proper (ip_ok nfkc_ok : str -> bool) (l : url) : Prop := Proper {
  pr_scheme : exists c r, l_scheme l = c :: r /\ scheme_letter c /\
    forall d, In d r -> scheme_letter d \/ 48 <= d <= 57 \/ In d (lit "+-.");
  pr_user : forall n w, l_user l = Some (n, w) -> n <> [] /\ free_of (lit "/?#[]@:") n /\
    forall w', w = Some w' -> w' <> [] /\ free_of (lit "/?#[]@") w';
  pr_host : l_host l <> [] /\ free_of (lit "/?#[]@%") (l_host l) /\ (In 58 (l_host l) -> ip_ok (l_host l) = true);
  pr_port : forall n, l_port l = Some n -> 0 < n <= 65535;
  pr_path : (l_path l = [] \/ exists r, l_path l = 47 :: r) /\ free_of (lit "?#") (l_path l);
  pr_query : free_of (lit "#") (l_query l);
  pr_fragment : free_of [] (l_fragment l);
  pr_location : ascii_text (location l) \/ nfkc_ok (location l) = true }.

(** ** Conversions of parts *)
(** [escaped plus safe s q]: unreserved characters and those of [safe] stay, every other
    one becomes the escapes of its UTF-8 bytes, in upper case; with [plus] a space becomes
    a plus sign. *)
Definition kept (safe : str) (c : N) : Prop := unreserved c \/ In c safe.
Inductive escaped (plus : bool) (safe : str) : str -> str -> Prop :=
| es_nil : escaped plus safe [] []
| es_kept c s q : kept safe c -> escaped plus safe s q -> escaped plus safe (c :: s) (c :: q)
| es_space s q : plus = true -> escaped plus safe s q -> escaped plus safe (32 :: s) (43 :: q)
| es_code c bytes es s q : ~ kept safe c -> (plus = true -> c <> 32) -> utf8_encode [c] = Ok bytes ->
    Forall2 (fun e b => escape e b /\ forall x, In x e -> ~ (97 <= x <= 122)) es bytes ->
    escaped plus safe s q -> escaped plus safe (c :: s) (concat es ++ q).

(** [shown err keep s t]: the escapes in [s] but those of [keep] stand for bytes, the
    bytes for the text [t]. *)
Definition shown (err : on_error) (keep s t : str) : Prop :=
  exists b b', utf8_encode s = Ok b /\ unescapes (fun c => In c keep) b b' /\ utf8_decode err b' = Ok t.

Definition user_by (R : str -> str -> Prop) (u u' : option (str * option str)) : Prop :=
  match u, u' with
  | None, None => True
  | Some (n, None), Some (n', None) => R n n'
  | Some (n, Some w), Some (n', Some w') => R n n' /\ R w w'
  | _, _ => False
  end.

(** The labels of a host, between the dots *)
Definition labels (h : str) (ls : list str) : Prop :=
  h = join [46] ls /\ ls <> [] /\ forall x, In x ls -> ~ In 46 x.

(** The host in lower case and, if it is not ASCII, with each label encoded *)
Definition host_to_ascii (idna : str -> res str) (h h' : str) : Prop :=
  h' <> [] /\
  (ascii_text (lower h) /\ h' = lower h \/
   ~ ascii_text (lower h) /\ ascii_text h' /\
   exists ls es, labels (lower h) ls /\ Forall2 (fun x e => idna x = Ok e) ls es /\ h' = join [46] es).
(** The host in lower case and, if it is ASCII, with each label decoded that can be *)
Definition host_to_text (decode : str -> res str) (h h' : str) : Prop :=
  h' <> [] /\
  (~ ascii_text (lower h) /\ h' = lower h \/
   ascii_text (lower h) /\
   exists ls es, labels (lower h) ls /\
     Forall2 (fun x e => decode x = Ok e \/ e = x /\ exists err, decode x = Raise err) ls es /\ h' = join [46] es).

(** ** Conversions of URLs *)
Definition same_but (l l' : url) (user host path query fragment : Prop) : Prop :=
  l_scheme l' = lower (l_scheme l) /\ l_port l' = l_port l /\ user /\ host /\ path /\ query /\ fragment.
Definition as_uri (idna : str -> res str) (l l' : url) : Prop :=
  same_but l l' (user_by (escaped false (lit "/:%")) (l_user l) (l_user l'))
    (host_to_ascii idna (l_host l) (l_host l'))
    (escaped false (lit "/:~+%") (l_path l) (l_path l'))
    (escaped false (lit "%&[]:;$*()+,!?*/=") (l_query l) (l_query l'))
    (escaped false (lit "=%&[]:;$()+,!?*/") (l_fragment l) (l_fragment l')).
Definition as_iri (decode : str -> res str) (err : on_error) (l l' : url) : Prop :=
  same_but l l' (user_by (shown Strict (lit "/:%")) (l_user l) (l_user l'))
    (host_to_text decode (l_host l) (l_host l'))
    (shown err (lit "%/;?") (l_path l) (l_path l'))
    (shown err (lit "%;/?:@&=+,$#") (l_query l) (l_query l'))
    (shown err (lit "%;/?:@&=+,$#") (l_fragment l) (l_fragment l')).
Definition as_fixed (idna : str -> res str) (l l' : url) : Prop :=
  same_but l l' (user_by (escaped false (lit "/:%")) (l_user l) (l_user l'))
    (host_to_ascii idna (l_host l) (l_host l'))
    (escaped false (lit "/%+$!*'(),") (l_path l) (l_path l'))
    (escaped true (lit ":&%=+$!*'(),") (l_query l) (l_query l'))
    (escaped true (lit ":&%=+$!*'(),") (l_fragment l) (l_fragment l')).
