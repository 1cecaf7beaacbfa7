(** * Vocabulary of the claims about redirects, cached and header properties, abort *)
From Coq Require Import List NArith ZArith.
From Verif Require Import PyStr ModelUtils.
Import ListNotations.
Open Scope N_scope.

(** The characters that end an attribute, open or close a tag, or start a
    character reference. *)
Definition markup (c : N) : Prop := In c (lit "&<>""'").

(** [e] is a piece of HTML that a browser shows as the text [s]: character
    references stand for the five characters, everything else for itself. *)
Inductive shown : str -> str -> Prop :=
| sh_nil : shown [] []
| sh_char c e s : ~ markup c -> shown e s -> shown (c :: e) (c :: s)
| sh_amp e s : shown e s -> shown (lit "&amp;" ++ e) (lit "&" ++ s)
| sh_lt e s : shown e s -> shown (lit "&lt;" ++ e) (lit "<" ++ s)
| sh_gt e s : shown e s -> shown (lit "&gt;" ++ e) (lit ">" ++ s)
| sh_quot e s : shown e s -> shown (lit "&quot;" ++ e) (lit """" ++ s)
| sh_apos e s : shown e s -> shown (lit "&#x27;" ++ e) (lit "'" ++ s).

(** No tag and no end of an attribute in it. *)
Definition harmless (e : str) : Prop := forall c, In c e -> ~ In c (lit "<>""'").

(** A reference to something on the same server (RFC 3986, 4.2): it does not
    begin with two slashes, and has no scheme, that is, no colon before the
    first slash, question mark or hash. *)
Definition same_server (uri : str) : Prop :=
  (forall r, uri <> 47 :: 47 :: r) /\
  forall a b, uri = a ++ 58 :: b -> In 47 a \/ In 63 a \/ In 35 a.

(** ** Cached properties *)
Section cached.
  Context {V : Type}.
  (** The event gave the property the value [v]. *)
  Definition gives (p : str) (v : V) (e : cev V) : Prop :=
    e = EAssign p v \/ e = ERead p (Ok v) true.
  Definition last_given (p : str) (v : V) (es : list (cev V)) : Prop :=
    exists a e b, es = a ++ e :: b /\ gives p v e /\ forall e' v', In e' b -> ~ gives p v' e'.
  Definition never_given (p : str) (es : list (cev V)) : Prop :=
    forall e v, In e es -> ~ gives p v e.
  (** How often a function was called *)
  Definition calls (es : list (cev V)) : nat :=
    length (filter (fun e => match e with ERead _ _ c => c | _ => false end) es).
End cached.

(** ** Tables by status code: a dict has one value for a key *)
Definition maps {A} (d : list (Z * A)) (k : Z) (a : A) : Prop := In (k, a) d.
Definition is_dict {A} (d : list (Z * A)) : Prop := NoDup (map fst d).
