(** Model of the methods of a set of entity tags, /repo/verktyg/http/cache_control.py:465-544.
    A frozenset is the list of its elements in the order in which it is iterated over, which is
    arbitrary: theorems hold for every order.  Tags are texts.  Left out: strong_etags or
    weak_etags given as one text (Python would take its characters), __repr__. *)
From Coq Require Import List NArith ZArith Bool.
From Verif Require Import PyStr ModelHeaders ModelEtag.
Import ListNotations.
Open Scope N_scope.

(** cache_control.py:470-473 [__init__]; None and an empty list are the same *)
Definition es_new (strong weak : option (list str)) (star : bool) : etags :=
  let texts_of x := match x with Some l => map Some l | None => [] end in
  etags_new (texts_of strong) (texts_of weak) star.
(** cache_control.py:475-481 [as_set] *)
Definition es_as_set (e : etags) (include_weak : bool) : list (option str) :=
  if include_weak then e_strong e ++ e_weak e else e_strong e.
(** cache_control.py:520-529 [__call__]; [generate] stands for generate_etag *)
Definition es_call (generate : str -> str) (e : etags) (etag data : option str) (include_weak : bool) : res bool :=
  match etag, data with
  | None, None | Some _, Some _ => Raise TypeError
  | _, _ =>
      let t := match etag with Some t => Some t | None => option_map generate data end in
      if include_weak && has_tag t (e_weak e) then Ok true else Ok (has_tag t (e_strong e))
  end.
(** cache_control.py:536-537 [__str__]; 539-540 [__iter__], what it yields; 542-543 [__contains__] *)
Definition es_str (e : etags) : str := et_to_header e.
Definition es_iter (e : etags) : list (option str) := e_strong e.
Definition es_in (e : etags) (t : option str) : bool := et_contains e t.
