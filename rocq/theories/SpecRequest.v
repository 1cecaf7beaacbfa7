(** Vocabulary of the claims about requests (C81-C85). *)
From Coq Require Import List NArith ZArith Bool.
From Verif Require Import PyStr Utf8 SpecUrls ModelUrls ModelWsgi.
Import ListNotations.
Open Scope N_scope.

(** What a form sent by a browser means: "+" stands for a space, escapes stand for
    bytes, and the bytes are UTF-8. *)
Definition plus_as_space (s : str) : str := map (fun c => if c =? 43 then 32 else c) s.
Definition form_decodes (raw text : str) : Prop :=
  ascii_text raw /\ exists b, percent_decodes (plus_as_space raw) b /\ utf8_encode text = Ok b.

(** One piece of a query string, between two "&": a name and a value, or nothing at all
    if the "=" is missing or nothing follows it. *)
Inductive piece_means : str -> option (str * str) -> Prop :=
| pm_pair rawname rawvalue name value :
    ~ In 38 rawname -> ~ In 61 rawname -> ~ In 38 rawvalue -> rawvalue <> [] ->
    form_decodes rawname name -> form_decodes rawvalue value ->
    piece_means (rawname ++ 61 :: rawvalue) (Some (name, value))
| pm_no_sign raw : ascii_text raw -> ~ In 38 raw -> ~ In 61 raw -> piece_means raw None
| pm_blank raw : ascii_text raw -> ~ In 38 raw -> ~ In 61 raw -> piece_means (raw ++ [61]) None.

Definition somes {A} (l : list (option A)) : list A :=
  flat_map (fun o => match o with Some x => [x] | None => [] end) l.
(** the values of a name, in order *)
Definition values_for (pairs : list (str * str)) (k : str) : list str :=
  map snd (filter (fun kv => if list_eq_dec N.eq_dec (fst kv) k then true else false) pairs).

(** The text does not end, or begin, with a slash. *)
Definition no_final_slash (s : str) : Prop := forall r, s <> r ++ [47].
Definition no_first_slash (s : str) : Prop := forall r, s <> 47 :: r.

(** A host name in lower case letters, digits, "-" and ".", alone or with a port. *)
Definition name_char (c : N) : Prop := 48 <= c <= 57 \/ 97 <= c <= 122 \/ c = 45 \/ c = 46.
Inductive plain_host : str -> str -> Prop :=
| ph_name name : name <> [] -> (forall c, In c name -> name_char c) -> plain_host name name
| ph_port name p : name <> [] -> (forall c, In c name -> name_char c) -> 0 < p <= 65535 ->
    plain_host name (name ++ [58] ++ dec p).
(** Every percent sign begins an escape. *)
Inductive all_escapes : str -> Prop :=
| ae_nil : all_escapes []
| ae_char c s : c <> 37 -> all_escapes s -> all_escapes (c :: s)
| ae_escape e v s : escape e v -> all_escapes s -> all_escapes (e ++ s).
(** The text of a URL stands for these bytes. *)
Definition stands_for (shown b : str) : Prop := exists e, utf8_encode shown = Ok e /\ percent_decodes e b.
(** How a path is shown: only "%", ";" and "?" are escaped. *)
Definition shown_char (c : N) : str :=
  if c =? 37 then lit "%25" else if c =? 59 then lit "%3B" else if c =? 63 then lit "%3F" else [c].
Definition shown_path (p : str) : str := flat_map shown_char p.
(** No tab, line feed or carriage return. *)
Definition one_line (s : str) : Prop := ~ In 9 s /\ ~ In 10 s /\ ~ In 13 s.

Section Ordinary.
  Variables (idna_part idna_decode_part : str -> res str).
  (** A request over http or https for a host that needs no translation, with a script
      name and a path in the encoding a server uses; [script] is the script name without
      the slashes at its end, [path] the path without those at its beginning. *)
  Record ordinary (environ : dict str) (trusted : option (list str)) (scheme host script path : str) : Prop := {
    or_scheme : dget environ (lit "wsgi.url_scheme") = Some scheme;
    or_web : scheme = lit "http" \/ scheme = lit "https";
    or_host : get_host idna_part environ trusted = Ok host;
    or_plain : exists name, plain_host name host /\ forall p, In p (split_on 46 name) -> idna_decode_part p = Ok p;
    or_script : exists n w, dget environ (lit "SCRIPT_NAME") = Some w /\ utf8_encode (script ++ repeat 47 n) = Ok w /\
                  no_final_slash script /\ (script = [] \/ exists r, script = 47 :: r);
    or_path : exists n w, dget environ (lit "PATH_INFO") = Some w /\ utf8_encode (repeat 47 n ++ path) = Ok w /\
                  no_first_slash path
  }.
End Ordinary.
