(** Model of entity tags and conditional requests in
    /repo/verktyg/http/cache_control.py. *)
From Coq Require Import List NArith ZArith Bool.
From Verif Require Import PyStr Regex ModelQuote ModelHeaders.
Import ListNotations.
Open Scope N_scope.

(** cache_control.py:424-437 [quote_etag] *)
Definition quote_etag (etag : str) (weak : bool) : res str :=
  if mem 34 etag then Raise ValueError
  else Ok ((if weak then lit "w/" else []) ++ 34 :: etag ++ [34]).

(** cache_control.py:440-462 [unquote_etag]; [None] is [(None, None)]. *)
Definition unquote_etag (etag : str) : option (str * bool) :=
  match etag with
  | [] => None
  | _ =>
      let e := strip etag in
      let weak := starts (lit "w/") e || starts (lit "W/") e in
      let e := if weak then skipn 2 e else e in
      (* between double quotes: etag[1:-1] *)
      let e := if quoted_both e then middle e else e in
      Some (e, weak)
  end.

(** cache_control.py:19 [_etag_re] *)
Definition is_w (c : N) : bool := (c =? 87) || (c =? 119).
Definition etag_sep_re : re := RAlt (RSeq ws_re (RSeq (RChr 44) ws_re)) REnd.
Definition etag_body_re : re :=
  RAlt (RSeq (RChr 34) (RSeq (RGroup 2 (RStar false RDot)) (RChr 34))) (RGroup 3 (RStar false RDot)).
Definition etag_re : re :=
  RSeq (ROpt (RGroup 1 (RSeq (RSet is_w) (RChr 47)))) (RSeq etag_body_re etag_sep_re).

(** cache_control.py:470-473 [ETags.__init__]; the tags are [option] because the
    parser appends None for an empty quoted tag.  Sets are lists here. *)
Record etags := ET { e_strong : list (option str); e_weak : list (option str); e_star : bool }.
Definition etags_new (strong weak : list (option str)) (star : bool) : etags :=
  ET (if star then [] else strong) weak star.

(** cache_control.py:560-574, the loop of [parse_etags].  It may run forever;
    [None] is "not finished within [fuel] rounds". *)
Fixpoint etags_loop (fuel : nat) (prev : option N) (s : str) (strong weak : list (option str)) : option etags :=
  match s with
  | [] => Some (etags_new strong weak false)
  | _ =>
      match fuel with
      | O => None
      | S f =>
          match match_at etag_re prev s with
          | None => Some (etags_new strong weak false)
          | Some m =>
              let raw := cap (s_caps m) 3 in
              if match raw with Some r => eqs r [42] | None => false end
              then Some (etags_new [] [] true)
              else
                let raw := match cap (s_caps m) 2 with Some (c :: q) => Some (c :: q) | _ => raw end in
                match cap (s_caps m) 1 with
                | Some _ => etags_loop f (s_prev m) (s_rest m) strong (weak ++ [raw])
                | None => etags_loop f (s_prev m) (s_rest m) (strong ++ [raw]) weak
                end
          end
      end
  end.

(** cache_control.py:547-575 [parse_etags] *)
Definition parse_etags (fuel : nat) (value : str) : option etags := etags_loop fuel None value [] [].

(** cache_control.py:483-509 [is_weak], [contains_weak], [contains], [contains_raw] *)
Definition has_tag (x : option str) (l : list (option str)) : bool :=
  existsb (fun y => match x, y with Some a, Some b => eqs a b | None, None => true | _, _ => false end) l.
Definition et_is_weak (e : etags) (t : option str) : bool := has_tag t (e_weak e).
Definition et_contains (e : etags) (t : option str) : bool := e_star e || has_tag t (e_strong e).
Definition et_contains_weak (e : etags) (t : option str) : bool := et_is_weak e t || et_contains e t.
Definition et_contains_raw (e : etags) (raw : str) : bool :=
  match unquote_etag raw with
  | None => et_contains e None
  | Some (t, weak) => if weak then et_contains_weak e (Some t) else et_contains e (Some t)
  end.
(** cache_control.py:531-532 [__bool__] *)
Definition et_bool (e : etags) : bool :=
  e_star e || match e_strong e, e_weak e with [], [] => false | _, _ => true end.

(** cache_control.py:511-518 [to_header], for tags that are text *)
Definition tag_text (x : option str) : str := match x with Some t => t | None => lit "None" end.
Definition et_to_header (e : etags) : str :=
  if e_star e then [42]
  else join [44; 32] (map (fun x => 34 :: tag_text x ++ [34]) (e_strong e) ++
                      map (fun x => lit "w/" ++ 34 :: tag_text x ++ [34]) (e_weak e)).

(** cache_control.py:583-623 [is_resource_modified].  Instants are microseconds
    (integers); [date] stands for [parse_date] and [md5] for [generate_etag].
    [lastmod] is the [last_modified] argument, already parsed if it was text. *)
Record cond_env := CE { ce_method : str; ce_ims : option str; ce_inm : option str }.
Definition whole_second (t : Z) : Z := (t - t mod 1000000)%Z.
Definition is_resource_modified (date : str -> option Z) (md5 : str -> str) (fuel : nat)
  (env : cond_env) (etag data : option str) (lastmod : option Z) : option (res bool) :=
  match etag, data with
  | Some _, Some _ => Some (Raise TypeError)
  | _, _ =>
      let etag := match etag with Some t => Some t | None => option_map md5 data end in
      if negb (eqs (ce_method env) (lit "GET") || eqs (ce_method env) (lit "HEAD")) then Some (Ok false)
      else
        let since := match ce_ims env with None => None | Some h => date h end in
        let unmodified :=
          match since, lastmod with
          | Some s, Some m => (whole_second m <=? s)%Z
          | _, _ => false
          end in
        match etag with
        | Some (c :: t) =>
            match ce_inm env with
            | None => Some (Ok (negb unmodified))
            | Some h =>
                match parse_etags fuel h with
                | None => None
                | Some e =>
                    if et_bool e then Some (Ok (negb (et_contains_raw e (c :: t))))
                    else Some (Ok (negb unmodified))
                end
            end
        | _ => Some (Ok (negb unmodified))
        end
  end.
