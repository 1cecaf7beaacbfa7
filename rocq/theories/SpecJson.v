(** Which values can be sent as JSON, and what is read from them, in plain terms. *)
From Coq Require Import List NArith ZArith Bool.
From Verif Require Import PyStr ModelQuote ModelHeaders ModelJson.
Import ListNotations.
Open Scope N_scope.

(** A text without surrogates *)
Definition unicode (s : str) : Prop := Forall (fun c => c < 1114112 /\ ~ (55296 <= c <= 57343)) s.
(** The name under which a key is sent *)
Inductive named : key -> str -> Prop :=
| nm_str s : unicode s -> named (KStr s) s
| nm_int z : named (KInt z) (zdec z)
| nm_true : named (KBool true) (lit "true")
| nm_false : named (KBool false) (lit "false")
| nm_null : named KNull (lit "null").
(** [received v w]: v can be sent as JSON, and w is what arrives: the same, but all keys
    are texts.  No two keys of a dictionary may have the same name. *)
Inductive received : json -> json -> Prop :=
| rc_null : received JNull JNull
| rc_bool b : received (JBool b) (JBool b)
| rc_int z : received (JInt z) (JInt z)
| rc_str s : unicode s -> received (JStr s) (JStr s)
| rc_list l m : receiveds l m -> received (JList l) (JList m)
| rc_dict d e names : receivedd d e names -> NoDup names -> received (JDict d) (JDict e)
with receiveds : list json -> list json -> Prop :=
| rs_nil : receiveds [] []
| rs_cons x y l m : received x y -> receiveds l m -> receiveds (x :: l) (y :: m)
with receivedd : list (key * json) -> list (key * json) -> list str -> Prop :=
| rd_nil : receivedd [] [] []
| rd_cons k s x y d e names : named k s -> received x y -> receivedd d e names ->
    receivedd ((k, x) :: d) ((KStr s, y) :: e) (s :: names).
(** Somewhere in the value there is something that is not JSON. *)
Inductive foreign : json -> Prop :=
| fo_here : foreign JOther
| fo_list l x : In x l -> foreign x -> foreign (JList l)
| fo_key d x : In (KOther, x) d -> foreign (JDict d)
| fo_value d k x : In (k, x) d -> foreign x -> foreign (JDict d).
