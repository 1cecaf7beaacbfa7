(** * Vocabulary for calls of a test client *)
From Coq Require Import Arith List NArith ZArith Bool.
From Verif Require Import PyStr ModelHeaders ModelTest ModelClientCall.
Import ListNotations.
Open Scope N_scope.

(** The arguments by name that are for the client itself; the others describe the request. *)
Definition option_names : list str := [lit "as_tuple"; lit "buffered"; lit "follow_redirects"].
Definition is_option {V} (kv : str * V) : bool := existsb (eqs (fst kv)) option_names.
Definition options {V} (kw : dict V) : dict V := filter is_option kw.
Definition others {V} (kw : dict V) : dict V := filter (fun kv => negb (is_option kv)) kw.
Definition redirect_code (c : Z) : Prop := In c [301; 302; 303; 305; 307]%Z.
(** The same outcome, with [x] for the response [r] *)
Inductive wrapped_as {E R X} (r : R) (x : X) : outcome E R X -> outcome E R X -> Prop :=
| wa_alone : wrapped_as r x (OAlone (Raw r)) (OAlone (Wrapped x))
| wa_tuple e : wrapped_as r x (OTuple e (Raw r)) (OTuple e (Wrapped x)).

Section client.
  Context {B E V R T : Type}.
  Variable environ_of : B -> res E.
  Variable build : list (carg B E V) -> dict V -> res E.
  Variable run : T -> E -> option V -> T * res R.
  Variable code_of : R -> res Z.
  Variable location_of : R -> res str.
  Variable redirect_to : R -> str -> E -> res (dict V).

  (** The environ that is asked for: that of a builder given alone, a dict given alone, or
      the one built of all arguments. *)
  Inductive environ_asked : list (carg B E V) -> dict V -> res E -> Prop :=
  | ea_builder b : environ_asked [ABuilder b] [] (environ_of b)
  | ea_environ e : environ_asked [AEnviron e] [] (Ok e)
  | ea_new args kw : (kw = [] -> (forall b, args <> [ABuilder b]) /\ (forall e, args <> [AEnviron e])) -> environ_asked args kw (build args kw).
  (** Redirects followed from the response [r] to the environ [e]: each answer that redirects
      leads to a request for the place it names, not seen before with that code; the
      last answer does not redirect. *)
  Inductive leads (buffered : option V) : list (str * Z) -> T -> E -> R -> T -> E -> R -> Prop :=
  | le_stop chain t e r c : code_of r = Ok c -> ~ redirect_code c -> leads buffered chain t e r t e r
  | le_hop chain t e r c l kw e1 t1 r1 t' e' r' :
      code_of r = Ok c -> redirect_code c -> location_of r = Ok l -> ~ In (l, c) chain ->
      redirect_to r l e = Ok kw -> build [] kw = Ok e1 -> run t e1 buffered = (t1, Ok r1) ->
      leads buffered (chain ++ [(l, c)]) t1 e1 r1 t' e' r' ->
      leads buffered chain t e r t' e' r'.
End client.
