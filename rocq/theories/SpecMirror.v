(** Vocabulary for the header properties that are objects (C91 to C97). *)
From Coq Require Import Arith List NArith ZArith Bool.
From Verif Require Import PyStr ModelQuote SpecCallback ModelHeaders SpecHeaders SpecQuote SpecRange ModelRange ModelDate SpecDate ModelMirror.
Import ListNotations.
Open Scope N_scope.

(** All headers but those of one name are as before. *)
Definition others_kept (name : str) (h h' : headers) : Prop :=
  forall k, ~ same_name k name -> h_getlist h' k = h_getlist h k.

(** A name that can stand in a list of names on a header line. *)
Definition fit_name (n : str) : Prop := n <> [] /\ one_line n /\ ~ wears_quotes n.
(** The names a call on a set brings in. *)
Definition names_in (o : hsop) : list str :=
  match o with SAdd h => [h] | SUpdate l => l | SSetItem _ v => [v] | _ => [] end.

(** A content range that can be written: a unit without blanks and a valid range. *)
Definition writable_range (c : content_range) (u : str) : Prop :=
  c_units c = Some u /\ word u /\ valid_content (c_start c) (c_stop c) (c_length c).

(** A challenge that can be written: a scheme in lower case, and fields with token names
    and one-line texts. *)
Definition writable_challenge (d : dict (option str)) : Prop :=
  (exists scheme, dget d (lit "__auth_type__") = Some (Some scheme) /\ is_token scheme /\ lower scheme = scheme) /\
  NoDup (map fst d) /\
  (forall k v, In (k, v) d -> k <> lit "__auth_type__" ->
     is_token k /\ exists s, v = Some s /\ one_line s /\ ~ wears_quotes s).

(** A text with at most one gap of white space. *)
Definition two_words (t : str) : Prop :=
  exists a b c, t = a ++ b ++ c /\ Forall (fun x => is_space x = false) a /\
    Forall (fun x => is_space x = true) b /\ Forall (fun x => is_space x = false) c.

(** The moment at which a cookie set at [now] expires: the date given, or the number of
    seconds given, counted from the epoch, or max_age seconds from now. *)
Inductive expires_when (now : Z) (k : cookie) : datetime -> Prop :=
| ew_date d : k_expires k = Some (ExDate (DDatetime d None)) -> expires_when now k d
| ew_number x s d : k_expires k = Some (ExDate (DNumber x)) -> instant epoch s -> instant d (s + x) -> expires_when now k d
| ew_max_age m s d : k_expires k = None -> k_max_age k = Some m -> instant epoch s -> instant d (s + now + m) ->
    expires_when now k d.

(** Parameters of a mimetype that can be written. *)
Definition writable_params (d : dict (option str)) : Prop :=
  NoDup (map fst d) /\
  Forall (fun kv => option_name (fst kv) /\ forall v, snd kv = Some v ->
            v <> [] /\ one_line v /\ (fst kv = lit "filename" -> forall r, v <> 92 :: r)) d.

(** The texts of a date, in GMT, that are used in HTTP. *)
Inductive dated (v : str) (d : datetime) : Prop :=
| da_rfc1123 n : v = rfc1123 n d (lit "GMT") -> dated v d
| da_netscape n : v = netscape n d (lit "GMT") -> dated v d
| da_rfc850 n : v = rfc850 n d (lit "GMT") -> (1969 <= dt_year d <= 2068)%Z -> dated v d
| da_asctime n : v = asctime n d -> dated v d.

(** The header of a set of names: there is none if there are no names, and otherwise one
    line that reads as the names, in order. *)
Definition set_lines (name : str) (h : headers) (names : list str) : Prop :=
  (names = [] /\ absent name h) \/ (names <> [] /\ exists line, values_of name h [line] /\ parse_list_header line = names).
(** The operations on a challenge that the callback covers. *)
Definition covered_www (o : www_op) : Prop := match o with WwDict o => covered o | _ => True end.
