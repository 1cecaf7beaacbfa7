(** Binding a route to a map, in plain terms. *)
From Coq Require Import List NArith Bool.
From Verif Require Import PyStr ModelRoute SpecRoute ModelUrlMap.
Import ListNotations.
Open Scope N_scope.

(** The template of the domain: the host of the route if the map matches hosts, otherwise its
    subdomain or that of the map. *)
Definition domain_text (g : config) (s : spec) (t : str) : Prop :=
  match g_host_matching g, s_host s, s_subdomain s with
  | true, Some h, _ => t = h
  | true, None, _ => t = []
  | false, _, Some x => t = x
  | false, _, None => t = g_default_subdomain g
  end.
(** The template of the path: that of the route, for a branch without the slashes at its end. *)
Definition path_text (s : spec) (t : str) : Prop :=
  if s_leaf s then t = s_string s
  else exists n, s_string s = t ++ repeat 47 n /\ (forall t', t <> t' ++ [47]).
Definition is_strict (g : config) (s : spec) : bool := match s_strict s with Some b => b | None => g_strict g end.
(** A piece of the template with the converter that the map made for it *)
Definition piece_for (mk : str -> option str -> res converter) (p : raw_piece) (q : piece) : Prop :=
  match p, q with
  | Static s, PStatic s' => s' = s
  | Dynamic conv args v, PVar v' c => v' = v /\ mk conv args = Ok c
  | _, _ => False
  end.
(** Two variables of domain and path have the same name, or one has the name that the code
    itself uses for the slash that may be missing. *)
Definition clash (g : config) (s : spec) (names : list str) : Prop :=
  ~ NoDup names \/ (In (lit "__suffix__") names /\ (s_leaf s = false \/ is_strict g s = false)).
