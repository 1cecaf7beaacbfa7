(** Vocabulary for the claims about route templates and single routes. *)
From Coq Require Import List NArith ZArith Bool.
From Verif Require Import PyStr Regex Utf8 ModelUrls SpecUrls ModelRoute.
Import ListNotations.
Open Scope N_scope.

(** ** Templates *)
Definition letter (c : N) : Prop := 65 <= c <= 90 \/ 97 <= c <= 122 \/ c = 95.
(** A name: letters, digits and underscores, not beginning with a digit. *)
Definition identifier (s : str) : Prop :=
  exists c r, s = c :: r /\ letter c /\ forall d, In d r -> letter d \/ 48 <= d <= 57.

(** [written p t]: the text [t] is a way to write the piece [p] in a template. *)
Inductive written : raw_piece -> str -> Prop :=
| wr_static s : s <> [] -> ~ In 60 s -> written (Static s) s
| wr_plain v : identifier v -> written (Dynamic (lit "default") None v) ([60] ++ v ++ [62])
| wr_conv c v : identifier c -> identifier v ->
    written (Dynamic c None v) ([60] ++ c ++ [58] ++ v ++ [62])
| wr_noargs c v : identifier c -> identifier v ->
    written (Dynamic c None v) ([60] ++ c ++ lit "():" ++ v ++ [62])
| wr_args c a v : identifier c -> identifier v -> a <> [] -> ~ In 10 a ->
    written (Dynamic c (Some a) v) ([60] ++ c ++ [40] ++ a ++ lit "):" ++ v ++ [62]).

Definition renders (ps : list raw_piece) (t : str) : Prop :=
  exists ts, Forall2 written ps ts /\ t = concat ts.
Definition raw_vars (ps : list raw_piece) : list str :=
  flat_map (fun p => match p with Dynamic _ _ v => [v] | Static _ => [] end) ps.

(** Pieces that can be told apart in their text: no two static pieces in a row, the
    last static piece without a stray bracket, no bracket inside converter arguments. *)
Fixpoint readable (ps : list raw_piece) : Prop :=
  match ps with
  | [] => True
  | [Static s] => ~ In 62 s
  | Static _ :: (Static _ :: _) => False
  | Static _ :: ps' => readable ps'
  | Dynamic _ (Some a) _ :: ps' => ~ In 41 a /\ readable ps'
  | Dynamic _ None _ :: ps' => readable ps'
  end.

(** ** Converter languages: the usual language of a regular expression. *)
Inductive lang : re -> str -> Prop :=
| la_eps : lang REps []
| la_set p c : p c = true -> lang (RSet p) [c]
| la_seq a b u v : lang a u -> lang b v -> lang (RSeq a b) (u ++ v)
| la_left a b u : lang a u -> lang (RAlt a b) u
| la_right a b u : lang b u -> lang (RAlt a b) u
| la_none g a : lang (RStar g a) []
| la_more g a u v : lang a u -> lang (RStar g a) v -> lang (RStar g a) (u ++ v).
(** Expressions without groups, anchors and look-behind; those of converters. *)
Fixpoint plain (r : re) : Prop :=
  match r with
  | REps | RSet _ => True
  | RSeq a b | RAlt a b => plain a /\ plain b
  | RStar _ a => plain a
  | _ => False
  end.
Definition plain_pieces (l : list piece) : Prop := forall n c, In (PVar n c) l -> plain (c_regex c).
Definition plain_route (r : route) : Prop := plain_pieces (r_domain r) /\ plain_pieces (r_path r).

(** [fills l ts u]: [u] is the static text of [l] with its variables replaced, in
    order, by the texts [ts], each in the language of its converter. *)
Inductive fills : list piece -> list str -> str -> Prop :=
| fi_nil : fills [] [] []
| fi_static s l ts u : fills l ts u -> fills (PStatic s :: l) ts (s ++ u)
| fi_var n c l t ts u : lang (c_regex c) t -> fills l ts u -> fills (PVar n c :: l) (t :: ts) (t ++ u).

(** [reads vars ts d]: [d] gives each variable what its converter makes of its text. *)
Inductive reads : list (str * converter) -> list str -> dict value -> Prop :=
| re_nil : reads [] [] []
| re_var n c vars t ts v d : c_to_python c t = Ok (Some v) -> reads vars ts d ->
    reads ((n, c) :: vars) (t :: ts) ((n, v) :: d).

(** Some converter refuses its text, the ones before it do not. *)
Inductive refuses : list (str * converter) -> list str -> Prop :=
| rf_here n c vars t ts : c_to_python c t = Ok None -> refuses ((n, c) :: vars) (t :: ts)
| rf_later n c vars t ts v : c_to_python c t = Ok (Some v) -> refuses vars ts -> refuses ((n, c) :: vars) (t :: ts).

(** The texts [ts] put into the route, with the slash [slash] appended, give the
    path. *)
Definition route_text (r : route) (ts : list str) (slash path : str) : Prop :=
  exists tsd tsp d p, fills (r_domain r) tsd d /\ fills (r_path r) tsp p /\
    ts = tsd ++ tsp /\ path = d ++ [124] ++ p ++ slash.
(** The text before the optional slash must not itself end in one. *)
Definition no_final_slash (r : route) (ts : list str) : Prop :=
  forall t, route_text r ts [] t -> forall u, t <> u ++ [47].

(** How a path is an instance of a route, up to one final newline. *)
Inductive instance (r : route) (ts : list str) : str -> str -> Prop :=
| in_exact path : r_leaf r = true -> r_strict r = true -> route_text r ts [] path ->
    instance r ts [] path
| in_slash slash path : r_leaf r = false \/ r_strict r = false -> slash = [] \/ slash = [47] ->
    no_final_slash r ts -> route_text r ts slash path -> instance r ts slash path.
Definition up_to_newline (P : str -> Prop) (path : str) : Prop :=
  P path \/ exists path', path = path' ++ [10] /\ P path'.


(** The texts of the variables can be told apart: every variable is last, or followed by
    a character that its converter never accepts. *)
Inductive separated : list piece -> Prop :=
| se_nil : separated []
| se_static s l : separated l -> separated (PStatic s :: l)
| se_last n c : separated [PVar n c]
| se_var n c x s l : (forall t, lang (c_regex c) t -> ~ In x t) -> separated l ->
    separated (PVar n c :: PStatic (x :: s) :: l).
Definition separated_route (r : route) : Prop := separated (r_domain r ++ PStatic [124] :: r_path r).

(** ** Numbers *)
(** [c] is a decimal digit (of some script) with the value [v]. *)
Definition digit (c v : N) : Prop := exists zero, In zero decimal_zeros /\ c = zero + v /\ v < 10.
(** [numeral s z]: the digit string [s] denotes [z] in base ten. *)
Inductive numeral : str -> Z -> Prop :=
| nu_one c v : digit c v -> numeral [c] (Z.of_N v)
| nu_more s c v z : numeral s z -> digit c v -> numeral (s ++ [c]) (10 * z + Z.of_N v)%Z.
Definition within (mn mx : option Z) (z : Z) : Prop :=
  (forall m, mn = Some m -> (m <= z)%Z) /\ (forall m, mx = Some m -> (z <= m)%Z).
(** A converter accepts a text as a value: the text is in its language and is read so. *)
Definition accepts (c : converter) (t : str) (v : value) : Prop :=
  lang (c_regex c) t /\ c_to_python c t = Ok (Some v).

(** ** Building *)
(** What the converter writes for [v] is the percent encoding of a text [t] that it
    reads back as [v]; the delimiters of URLs and the bar are always encoded. *)
Definition faithful (c : converter) (v : value) (t : str) : Prop :=
  accepts c t v /\
  exists safe q, c_to_url c v = Ok (Some q) /\ urlquote safe t = Ok q /\
    forall x, In x [37; 63; 35; 124] -> ~ In x safe.
(** [decodes q t]: percent decoding and then decoding UTF-8 makes [t] of [q]. *)
Definition decodes (q t : str) : Prop := exists b, percent_decodes q b /\ utf8_decode Strict b = Ok t.

(** The text before an optional slash never ends in a slash (and is not empty). *)
Definition open_end (r : route) : Prop :=
  r_leaf r = true /\ r_strict r = true \/
  exists l p, r_domain r ++ PStatic [124] :: r_path r = l ++ [p] /\
    match p with
    | PStatic s => s <> [] /\ forall u, s <> u ++ [47]
    | PVar _ c => forall t, lang (c_regex c) t -> t <> [] /\ forall u, t <> u ++ [47]
    end.
