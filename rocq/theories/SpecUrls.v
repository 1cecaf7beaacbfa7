(** Vocabulary of the URL and transcoding claims (C29-C32). *)
From Coq Require Import List NArith Bool.
From Verif Require Import PyStr.
Import ListNotations.
Open Scope N_scope.

(** [hexdigit c v]: the character [c] is a hexadecimal digit of value [v]. *)
Inductive hexdigit : N -> N -> Prop :=
| hd_dec v : v < 10 -> hexdigit (48 + v) v           (* 0-9 *)
| hd_up v : 10 <= v < 16 -> hexdigit (55 + v) v      (* A-F *)
| hd_low v : 10 <= v < 16 -> hexdigit (87 + v) v.    (* a-f *)

(** [escape e v]: [e] is a percent escape of the byte [v]. *)
Inductive escape : str -> N -> Prop :=
| esc a b x y : hexdigit a x -> hexdigit b y -> escape [37; a; b] (16 * x + y).

Definition starts_with_escape (s : str) : Prop := exists e v r, s = e ++ r /\ escape e v.

(** [unescapes keep s t]: reading [s] from the left, [t] is [s] with every
    escape replaced by its byte, except the escapes of bytes in [keep]; percent
    signs that do not begin an escape stay. *)
Inductive unescapes (keep : N -> Prop) : str -> str -> Prop :=
| un_nil : unescapes keep [] []
| un_char c s t : c <> 37 -> unescapes keep s t -> unescapes keep (c :: s) (c :: t)
| un_escape e v s t : escape e v -> ~ keep v -> unescapes keep s t -> unescapes keep (e ++ s) (v :: t)
| un_kept e v s t : escape e v -> keep v -> unescapes keep s t -> unescapes keep (e ++ s) (e ++ t)
| un_malformed s t : ~ starts_with_escape (37 :: s) -> unescapes keep s t ->
    unescapes keep (37 :: s) (37 :: t).

(** Full percent decoding keeps no escape. *)
Definition percent_decodes (s t : str) : Prop := unescapes (fun _ => False) s t.

(** RFC 3986 unreserved characters *)
Definition unreserved (c : N) : Prop :=
  (48 <= c <= 57) \/ (65 <= c <= 90) \/ (97 <= c <= 122) \/ c = 45 \/ c = 46 \/ c = 95 \/ c = 126.

(** Text made of unreserved characters, (ASCII) safe characters and escapes with
    upper case digits. *)
Inductive quoted_form (safe : str) : str -> Prop :=
| qf_nil : quoted_form safe []
| qf_char c s : unreserved c \/ (In c safe /\ c < 128) -> quoted_form safe s -> quoted_form safe (c :: s)
| qf_escape e v s : escape e v -> (forall c, In c e -> ~ (97 <= c <= 122)) -> quoted_form safe s ->
    quoted_form safe (e ++ s).

(** Every character is ASCII. *)
Definition ascii_text (s : str) : Prop := forall c, In c s -> c < 128.
(** Every item is a byte. *)
Definition bytes_text (s : str) : Prop := forall c, In c s -> c < 256.
(** A Unicode text without surrogates. *)
Definition unicode_text (s : str) : Prop :=
  forall c, In c s -> c <= 1114111 /\ ~ (55296 <= c <= 57343).

(** What the IDNA codec is assumed to produce for a label: ASCII, no capitals,
    no URL delimiter and no white space control. *)
Definition host_char (c : N) : Prop :=
  c < 128 /\ ~ (65 <= c <= 90) /\ ~ In c [58; 64; 91; 93; 47; 63; 35; 9; 10; 13].
