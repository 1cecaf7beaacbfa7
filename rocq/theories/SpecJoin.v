(** Vocabulary for the claims about redirect_to and relative URLs. *)
From Coq Require Import List NArith ZArith Bool.
From Verif Require Import PyStr ModelUrls ModelRoute SpecRoute ModelUrlMap SpecUrlMap SpecRequest SpecCanon.
Import ListNotations.
Open Scope N_scope.

(** ** Paths: directories, each with a slash after it, and a file name that may be empty. *)
Definition folders (dirs : list str) : str := flat_map (fun d => d ++ [47]) dirs.
(** Neither a blank nor a control character nor "/", "?" or "#". *)
Definition word (s : str) : Prop := forall c, In c s -> 32 < c /\ c <> 47 /\ c <> 63 /\ c <> 35.
Definition folder (s : str) : Prop := word s /\ s <> [].
(** A file name; after a semicolon it has parameters. *)
Inductive file : str -> Prop :=
| fi_name x : word x -> ~ In 59 x -> file x
| fi_params x p : word x -> ~ In 59 x -> word p -> p <> [] -> x <> lit "." -> x <> lit ".." -> file (x ++ 59 :: p).
(** What may follow the path. *)
Definition fragment_suffix (f : str) : str := match f with [] => [] | _ => 35 :: f end.
Definition ending (t : str) : Prop := exists q f, t = query_suffix q ++ fragment_suffix f /\
  ~ In 35 q /\ one_line q /\ one_line f.
(** From a directory along a path: "." stays, ".." goes up, but not above the root. *)
Inductive walks : list str -> list str -> list str -> Prop :=
| wa_end d : walks d [] d
| wa_stay d l d' : walks d l d' -> walks d (lit "." :: l) d'
| wa_up d x l d' : walks d l d' -> walks (d ++ [x]) (lit ".." :: l) d'
| wa_down d x l d' : x <> lit "." -> x <> lit ".." -> walks (d ++ [x]) l d' -> walks d (x :: l) d'.
Inductive arrives : list str -> list str -> str -> list str -> str -> Prop :=
| ar_file d l x d' : walks d l d' -> x <> lit "." -> x <> lit ".." -> arrives d l x d' x
| ar_here d l d' : walks d l d' -> arrives d l (lit ".") d' []
| ar_up d l d' x : walks d l (d' ++ [x]) -> arrives d l (lit "..") d' [].

(** Where a text leads from the directory [root] of a host: it is relative to it, or to
    the top, or a URL of its own, or only a query and fragment. *)
Inductive leads (scheme host : str) (root : list str) : str -> str -> Prop :=
| le_relative dirs x d x' t : Forall folder dirs -> file x -> folders dirs ++ x <> [] -> ~ In 58 (hd x dirs) ->
    ending t -> arrives root dirs x d x' ->
    leads scheme host root (folders dirs ++ x ++ t) (scheme ++ lit "://" ++ host ++ [47] ++ folders d ++ x' ++ t)
| le_absolute dirs x d x' t : Forall word dirs -> (forall l, dirs <> [] :: l) -> file x -> ending t ->
    arrives [] dirs x d x' ->
    leads scheme host root ([47] ++ folders dirs ++ x ++ t) (scheme ++ lit "://" ++ host ++ [47] ++ folders d ++ x' ++ t)
| le_url scheme' name' host' dirs x q : scheme' = lit "http" \/ scheme' = lit "https" -> plain_host name' host' ->
    Forall word dirs -> file x -> ~ In 35 q -> one_line q ->
    leads scheme host root (scheme' ++ lit "://" ++ host' ++ [47] ++ folders dirs ++ x ++ query_suffix q)
                           (scheme' ++ lit "://" ++ host' ++ [47] ++ folders dirs ++ x ++ query_suffix q)
| le_nothing t : ending t ->
    leads scheme host root t (scheme ++ lit "://" ++ host ++ [47] ++ folders root ++ t).

(** ** Texts with placeholders
    A placeholder is a name between "<" and the next ">"; a "<" without a name and a ">"
    after it stands for itself. *)
Section Template.
  Variables (r : route) (values : dict value).
  (** The variable [name] of the route has a value, which its converter writes as [x]. *)
  Definition written (name x : str) : Prop :=
    exists c v, In (name, c) (route_vars r) /\ (forall c', In (name, c') (route_vars r) -> c' = c) /\
      dget values name = Some v /\ c_to_url c v = Ok (Some x).
  Definition no_name (s : str) : Prop := ~ In 62 s \/ exists s', s = 62 :: s'.
  Inductive spelled : str -> str -> Prop :=
  | sp_nil : spelled [] []
  | sp_char c s t : c <> 60 -> spelled s t -> spelled (c :: s) (c :: t)
  | sp_open s t : no_name s -> spelled s t -> spelled (60 :: s) (60 :: t)
  | sp_slot name x s t : name <> [] -> ~ In 62 name -> written name x -> spelled s t ->
      spelled (60 :: name ++ 62 :: s) (x ++ t).
  (** The first placeholders can be written, the next one is no variable of the route or
      has no value. *)
  Inductive misnamed : str -> Prop :=
  | mi_char c s : c <> 60 -> misnamed s -> misnamed (c :: s)
  | mi_open s : no_name s -> misnamed s -> misnamed (60 :: s)
  | mi_slot name x s : name <> [] -> ~ In 62 name -> written name x -> misnamed s -> misnamed (60 :: name ++ 62 :: s)
  | mi_unknown name s : name <> [] -> ~ In 62 name ->
      dget values name = None \/ (forall c, ~ In (name, c) (route_vars r)) -> misnamed (60 :: name ++ 62 :: s).
End Template.

(** ** The route that decides about building: suitable, and the routes of the endpoint
    before it are not or give up. *)
Record builder_of (a : adapter) (e : str) (values : dict value) (au : bool) (b : broute) : Prop := {
  bo_in : In b (m_routes (a_map a));
  bo_endpoint : r_endpoint (b_route b) = e;
  bo_suits : suits (b_route b) values;
  bo_first : forall b', In b' (m_routes (a_map a)) -> r_endpoint (b_route b') = e -> precedes b' b -> refused values au b' }.
(** No other route has the canonical URL for the values, or such redirects are off. *)
Definition has_no_canonical (a : adapter) (b : broute) (values : dict value) : Prop :=
  g_redirect_defaults (m_config (a_map a)) = false \/ forall r, In r (m_routes (a_map a)) -> ~ canonical values b r.
(** The domain part that the adapter itself stands for. *)
Inductive own_domain (a : adapter) : str -> Prop :=
| od_host : g_host_matching (m_config (a_map a)) = true -> own_domain a (a_server a)
| od_sub d : g_host_matching (m_config (a_map a)) = false -> a_subdomain a = Some d -> own_domain a d.
Definition no_dots (l : list str) : Prop := ~ In (lit ".") l /\ ~ In (lit "..") l.
