(** Specification vocabulary for the cookies of the test client. *)
From Coq Require Import List NArith ZArith Bool.
From Verif Require Import PyStr Utf8 ModelHeaders SpecHeaders ModelStream SpecCookie ModelCookieJar.
Import ListNotations.
Open Scope N_scope.

(** A Cookie header that lists these cookies. *)
Inductive cookie_line : list (str * option str) -> str -> Prop :=
| line_one n v : cookie_line [(n, Some v)] (n ++ [61] ++ v)
| line_bare n : cookie_line [(n, None)] (n ++ lit "=None")
| line_more n v c l s : cookie_line (c :: l) s -> cookie_line ((n, Some v) :: c :: l) (n ++ [61] ++ v ++ lit "; " ++ s)
| line_bare_more n c l s : cookie_line (c :: l) s -> cookie_line ((n, None) :: c :: l) (n ++ lit "=None; " ++ s).
(** The variables after the cookies of a jar were put in: those of the environ, and the
    header if there is a cookie. *)
Definition carries_cookies (l : list (str * option str)) (before after : dict str) : Prop :=
  (l = [] /\ after = before) \/
  exists s, cookie_line l s /\ dget after (lit "HTTP_COOKIE") = Some s /\
            forall k, k <> lit "HTTP_COOKIE" -> dget after k = dget before k.

(** What happens in a session: the jar before, the visits, the jar after.  Each request
    carries the cookies of the jar; what the response sets is handed to the library with
    the address of the request; a failing application leaves the jar alone. *)
Section session.
  Variable jar : Type.
  Variable cookies : jar -> list (str * option str).
  Variable store : jar -> list str -> list str -> str -> res jar.
  Variable address_of : dict str -> res str.
  Variable application : nat -> dict str -> str -> res (str * headers).
  Inductive visits : nat -> jar -> list visit -> jar -> Prop :=
  | visits_none n j : visits n j [] j
  | visits_ok n j v status h set2 set url j1 l j2 :
      carries_cookies (cookies j) (fst (v_request v)) (v_sent v) ->
      application n (v_sent v) (u_left (snd (v_request v))) = Ok (status, h) -> v_outcome v = Ok (status, h) ->
      values_of (lit "Set-Cookie2") h set2 -> values_of (lit "Set-Cookie") h set ->
      address_of (v_sent v) = Ok url -> store j set2 set url = Ok j1 ->
      visits (S n) j1 l j2 -> visits n j (v :: l) j2
  | visits_fails n j v e l j2 :
      carries_cookies (cookies j) (fst (v_request v)) (v_sent v) ->
      application n (v_sent v) (u_left (snd (v_request v))) = Raise e -> v_outcome v = Raise e ->
      visits (S n) j l j2 -> visits n j (v :: l) j2
  | visits_refused n j v status h set2 set e l j2 :
      carries_cookies (cookies j) (fst (v_request v)) (v_sent v) ->
      application n (v_sent v) (u_left (snd (v_request v))) = Ok (status, h) -> v_outcome v = Raise e ->
      values_of (lit "Set-Cookie2") h set2 -> values_of (lit "Set-Cookie") h set ->
      (address_of (v_sent v) = Raise e \/ exists url, address_of (v_sent v) = Ok url /\ store j set2 set url = Raise e) ->
      visits (S n) j l j2 -> visits n j (v :: l) j2.
End session.

(** What a test does to the cookies of one server and path: it sets a key to a value or
    deletes it ([None]).  The value a key has afterwards: the last change counts. *)
Definition current (l : list (str * option str)) (k : str) : option str :=
  fold_left (fun before c => if eqs k (fst c) then snd c else before) l None.
(** The keys are legal, the values texts. *)
Definition proper (c : str * option str) : Prop :=
  legal_name (fst c) /\ match snd c with Some v => exists b, utf8_encode v = Ok b | None => True end.

(** The Set-Cookie values that set and that remove a cookie. *)
Definition setting (n w p : str) : str := n ++ [61] ++ w ++ lit "; Path=" ++ p.
Definition removing (n w p : str) : str :=
  n ++ [61] ++ w ++ lit "; Expires=Thu, 01-Jan-1970 00:00:00 GMT; Max-Age=0; Path=" ++ p.
(** A library that does with these what it is for, for this address and path: it keeps the
    raw value, in place of an older one; a date in the past removes. *)
Record keeps (jar : Type) (cookies : jar -> list (str * option str)) (store : jar -> list str -> list str -> str -> res jar)
  (url p : str) : Prop := {
  keeps_set : forall j n w, legal_name n -> Forall wire_byte w -> exists j', store j [] [setting n w p] url = Ok j' /\
    forall m v, In (m, v) (cookies j') <-> (m = n /\ v = Some w) \/ (m <> n /\ In (m, v) (cookies j));
  keeps_removed : forall j n w, legal_name n -> Forall wire_byte w -> exists j', store j [] [removing n w p] url = Ok j' /\
    forall m v, In (m, v) (cookies j') <-> (m <> n /\ In (m, v) (cookies j)) }.
