(** Model of byte ranges and Cache-Control in /repo/verktyg/http/cache_control.py. *)
From Coq Require Import List NArith ZArith Bool.
From Verif Require Import PyStr ModelQuote ModelHeaders.
Import ListNotations.
Open Scope N_scope.

(** http/basic.py:819-830 [is_byte_range_valid] *)
Definition is_byte_range_valid (start stop length : option Z) : bool :=
  match start, stop with
  | None, None => match length with None => true | Some n => (0 <=? n)%Z end
  | Some s, Some e =>
      match length with
      | None => (0 <=? s)%Z && (s <? e)%Z
      | Some n => if (e <=? s)%Z then false else (0 <=? s)%Z && (s <? n)%Z
      end
  | _, _ => false
  end.

(** cache_control.py:63-74 [Range] *)
Record range := Rng { r_units : str; r_ranges : list (Z * option Z) }.

(** cache_control.py:76-89 [range_for_length] *)
Definition range_for_length (r : range) (length : option Z) : option (Z * Z) :=
  if eqs (r_units r) (lit "bytes") then
    match length, r_ranges r with
    | Some n, [(start, stop)] =>
        let '(start, stop) :=
          match stop with
          | None => ((if (start <? 0)%Z then start + n else start)%Z, n)
          | Some e => (start, e)
          end in
        if is_byte_range_valid (Some start) (Some stop) (Some n)
        then Some (start, Z.min stop n) else None
    | _, _ => None
    end
  else None.

(** cache_control.py:157-207 [ContentRange]: [units], [start], [stop], [length].
    [on_update] is not modelled. *)
Record content_range := CR { c_units : option str; c_start : option Z; c_stop : option Z; c_length : option Z }.
Definition content_range_new (units : option str) (start stop length : option Z) : res content_range :=
  if is_byte_range_valid start stop length then Ok (CR units start stop length) else Raise ValueError.

(** cache_control.py:91-97 [make_content_range] *)
Definition make_content_range (r : range) (length : option Z) : res (option content_range) :=
  match range_for_length r length with
  | None => Ok None
  | Some (s, e) => do c <- content_range_new (Some (r_units r)) (Some s) (Some e) length; Ok (Some c)
  end.

(** cache_control.py:99-107 [Range.to_header] *)
Definition range_item (be : Z * option Z) : str :=
  match be with
  | (b, None) => if (0 <=? b)%Z then zdec b ++ [45] else zdec b
  | (b, Some e) => zdec b ++ 45 :: zdec (e - 1)
  end.
Definition range_to_header (r : range) : str :=
  r_units r ++ 61 :: join [44] (map range_item (r_ranges r)).

(** [int(s)], raising ValueError *)
Definition int_of (s : str) : res Z :=
  match py_int s with Some z => Ok z | None => Raise ValueError end.

(** cache_control.py:129-152, the loop over the items.  [last_end] is [None] in
    Python after an open range, and comparing it then raises TypeError. *)
Fixpoint range_items (items : list str) (last_end : option Z) : res (option (list (Z * option Z))) :=
  match items with
  | [] => Ok (Some [])
  | item :: items' =>
      let item := strip item in
      if negb (mem 45 item) then Ok None
      else if starts [45] item then
        match last_end with
        | None => Raise TypeError
        | Some le =>
            if (le <? 0)%Z then Ok None else
            do b <- int_of item;
            do r <- range_items items' (Some (-1)%Z);
            Ok (option_map (cons (b, None)) r)
        end
      else match split1 45 item with
      | None => Ok None                        (* excluded by the first test *)
      | Some (bs, es) =>
          do b <- int_of bs;
          match last_end with
          | None => Raise TypeError
          | Some le =>
              if (b <? le)%Z || (le <? 0)%Z then Ok None else
              match es with
              | [] =>
                  do r <- range_items items' None;
                  Ok (option_map (cons (b, None)) r)
              | _ =>
                  do e' <- int_of es;
                  let e := (e' + 1)%Z in
                  if (e <=? b)%Z then Ok None else
                  do r <- range_items items' (Some e);
                  Ok (option_map (cons (b, Some e)) r)
              end
          end
      end
  end.

(** cache_control.py:116-154 [parse_range_header]; the argument is a string
    ([None] and the empty string give None). *)
Definition parse_range_header (value : str) : res (option range) :=
  match split1 61 value with
  | None => Ok None
  | Some (units, rng) =>
      do r <- range_items (split_on 44 rng) (Some 0%Z);
      Ok (option_map (Rng (lower (strip units))) r)
  end.

(** cache_control.py:204-218 [ContentRange.to_header]; a start without a stop
    cannot be printed ([None - 1] is a TypeError). *)
Definition star_or (n : option Z) : str := match n with None => [42] | Some n => zdec n end.
Definition content_range_to_header (c : content_range) : res str :=
  match c_units c with
  | None => Ok []
  | Some u =>
      match c_start c with
      | None => Ok (u ++ lit " */" ++ star_or (c_length c))
      | Some s =>
          match c_stop c with
          | None => Raise TypeError
          | Some e => Ok (u ++ 32 :: zdec s ++ 45 :: zdec (e - 1) ++ 47 :: star_or (c_length c))
          end
      end
  end.

(** [s.split(None, 1)] of a string without white space at its ends *)
Fixpoint until_space (s : str) : str * str :=
  match s with
  | [] => ([], [])
  | c :: s' => if is_space c then ([], s) else let (a, b) := until_space s' in (c :: a, b)
  end.
Definition split_ws1 (s : str) : option (str * str) :=
  let (a, b) := until_space s in
  match a, b with
  | _ :: _, _ :: _ => Some (a, lstrip_by is_space b)
  | _, _ => None
  end.

(** cache_control.py:232-273 [parse_content_range_header] of a string *)
Definition parse_content_range_header (value : str) : res (option content_range) :=
  match split_ws1 (strip value) with
  | None => Ok None
  | Some (units, rangedef) =>
      match split1 47 rangedef with
      | None => Ok None
      | Some (rng, len) =>
          do n <- (if eqs len [42] then Ok (Some None)
                   else if isdigit len then do n <- int_of len; Ok (Some (Some n))
                   else Ok None);
          match n with
          | None => Ok None
          | Some length =>
              if eqs rng [42] then
                do c <- content_range_new (Some units) None None length; Ok (Some c)
              else match split1 45 rng with
              | None => Ok None
              | Some (a, b) =>
                  match py_int a, py_int b with
                  | Some start, Some stop =>
                      let stop := (stop + 1)%Z in
                      if is_byte_range_valid (Some start) (Some stop) length
                      then do c <- content_range_new (Some units) (Some start) (Some stop) length; Ok (Some c)
                      else Ok None
                  | _, _ => Ok None
                  end
              end
          end
      end
  end.

(** ** Cache-Control *)

(** A Python value given to or read from a directive attribute. *)
Inductive pyval := PNone | PTrue | PFalse | PInt (z : Z) | PStr (s : str).

(** Python truth value *)
Definition truthy (v : pyval) : bool :=
  match v with
  | PNone | PFalse => false
  | PTrue => true
  | PInt z => negb (z =? 0)%Z
  | PStr s => match s with [] => false | _ => true end
  end.

(** cache_control.py:276-284 [cache_property]: key, value when empty, type *)
Inductive cc_type := TBool | TInt | TAny.
Record cc_prop := CP { cp_key : str; cp_empty : pyval; cp_type : cc_type }.

(** The stored dict: a value of [None] means the directive has no value. *)
Definition ccdict := dict pyval.

(** cache_control.py:311-324 [_get_cache_value].  [int(value)] of a string may
    raise ValueError, which is swallowed; [int(True)] is 1. *)
Definition cc_get (p : cc_prop) (d : ccdict) : pyval :=
  match cp_type p with
  | TBool => if dhas d (cp_key p) then PTrue else PFalse
  | ty =>
      match dget d (cp_key p) with
      | None => PNone
      | Some PNone => cp_empty p
      | Some v =>
          match ty, v with
          | TInt, PStr s => match py_int s with Some z => PInt z | None => v end
          | TInt, PTrue => PInt 1
          | TInt, PFalse => PInt 0
          | _, _ => v
          end
      end
  end.

(** cache_control.py:326-339 [_set_cache_value] *)
Definition cc_set (p : cc_prop) (v : pyval) (d : ccdict) : res ccdict :=
  match cp_type p with
  | TBool => if truthy v then Ok (dset d (cp_key p) PNone) else Ok (ddel d (cp_key p))
  | _ =>
      match v with
      | PNone => if dhas d (cp_key p) then Ok (ddel d (cp_key p)) else Raise KeyError
      | PTrue => Ok (dset d (cp_key p) PNone)
      | _ => Ok (dset d (cp_key p) v)
      end
  end.

(** cache_control.py:341-344 [_del_cache_value] *)
Definition cc_del (p : cc_prop) (d : ccdict) : ccdict := ddel d (cp_key p).

(** cache_control.py:301-304, 375-378, 393-397: the attributes of
    [ResponseCacheControl] (which is mutable). *)
Definition response_props : list cc_prop :=
  [CP (lit "no-cache") (PStr [42]) TAny;
   CP (lit "no-store") PNone TBool;
   CP (lit "max-age") (PInt (-1)) TInt;
   CP (lit "no-transform") PNone TAny;
   CP (lit "public") PNone TBool;
   CP (lit "private") (PStr [42]) TAny;
   CP (lit "must-revalidate") PNone TBool;
   CP (lit "proxy-revalidate") PNone TBool;
   CP (lit "s-maxage") PNone TAny].

(** [str(value)], as used by [quote_header_value] in [dump_header] *)
Definition py_str (v : pyval) : option str :=
  match v with
  | PNone => None
  | PTrue => Some (lit "True")
  | PFalse => Some (lit "False")
  | PInt z => Some (zdec z)
  | PStr s => Some s
  end.

(** cache_control.py:346-348 [to_header] *)
Definition cc_to_header (d : ccdict) : str :=
  dump_header_dict true (map (fun kv => (fst kv, py_str (snd kv))) d).

(** cache_control.py:401-421 [parse_cache_control_header] *)
Definition parse_cache_control (value : str) : ccdict :=
  match value with
  | [] => []
  | _ => map (fun kv => (fst kv, match snd kv with None => PNone | Some s => PStr s end))
             (parse_dict_header value)
  end.

(** A history of attribute assignments and deletions. *)
Inductive cc_op := CCSet (p : cc_prop) (v : pyval) | CCDel (p : cc_prop).
Definition cc_step (d : ccdict) (o : cc_op) : ccdict :=
  match o with
  | CCSet p v => match cc_set p v d with Ok d' => d' | Raise _ => d end
  | CCDel p => cc_del p d
  end.
Definition cc_run (ops : list cc_op) : ccdict := fold_left cc_step ops [].
