(** Model of the header (un)quoting and list / dict / options header functions
    of /repo/verktyg/http/basic.py. *)
From Coq Require Import List NArith Bool.
From Verif Require Import PyStr Regex.
Import ListNotations.
Open Scope N_scope.

(** http/basic.py:26-29 [_token_chars] *)
Definition token_extra : str := lit "!#$%&'*+-.^_`|~".
Definition is_token_char (c : N) : bool := is_ascii_alnum c || mem c token_extra.

(** http/basic.py:66-83 [quote_header_value].  The value is already a [str]
    (the conversions of bytes and other objects at 76-78 are not modelled). *)
Definition quote_header_value_x (extra : str) (allow_token : bool) (value : str) : str :=
  if allow_token && forallb (fun c => is_token_char c || mem c extra) value
  then value
  else 34 :: replace [34] [92; 34] (replace [92] [92; 92] value) ++ [34].
Definition quote_header_value := quote_header_value_x [].

(** [value[1:-1]] *)
Definition middle (s : str) : str := removelast (tl s).

(** [value[:1] == value[-1:] == '"'], also [value and value[0] == value[-1] == '"'] *)
Definition quoted_both (s : str) : bool :=
  match s with
  | [] => false
  | c :: _ => (c =? 34) && (last s 0 =? 34)
  end.

(** http/basic.py:86-108 [unquote_header_value] *)
Definition unquote_header_value (is_filename : bool) (value : str) : str :=
  if quoted_both value then
    let v := middle value in
    if negb is_filename || negb (starts [92; 92] v)
    then replace [92; 34] [34] (replace [92; 92] [92] v)
    else v
  else value.

(** The standard library's [urllib.request.parse_http_list] (imported at
    http/basic.py:15), before the final [strip]s.  [part] is reversed. *)
Fixpoint http_list_scan (escape quote : bool) (part : str) (s : str) : list str :=
  match s with
  | [] => match part with [] => [] | _ => [rev part] end
  | cur :: s' =>
      if escape then http_list_scan false quote (cur :: part) s'
      else if quote then
        if cur =? 92 then http_list_scan true quote part s'
        else if cur =? 34 then http_list_scan false false (cur :: part) s'
        else http_list_scan false true (cur :: part) s'
      else if cur =? 44 then rev part :: http_list_scan false false [] s'
      else if cur =? 34 then http_list_scan false true (cur :: part) s'
      else http_list_scan false false (cur :: part) s'
  end.
Definition parse_http_list (s : str) : list str := map strip (http_list_scan false false [] s).

(** http/basic.py:553-585 [dump_header] on a list *)
Definition dump_header_list (allow_token : bool) (l : list str) : str :=
  join [44; 32] (map (quote_header_value allow_token) l).

(** http/basic.py:573-582 [dump_header] on a dict *)
Definition dump_item (allow_token : bool) (kv : str * option str) : str :=
  match snd kv with
  | None => fst kv
  | Some v => fst kv ++ 61 :: quote_header_value allow_token v
  end.
Definition dump_header_dict (allow_token : bool) (d : dict (option str)) : str :=
  join [44; 32] (map (dump_item allow_token) d).

(** http/basic.py:588-617 [parse_list_header] *)
Definition parse_list_header (value : str) : list str :=
  map (fun item => if quoted_both item then unquote_header_value false (middle item) else item)
      (parse_http_list value).

(** http/basic.py:620-658 [parse_dict_header] with [cls=dict]; the conversion of
    bytes at 646-648 is not modelled. *)
Definition parse_dict_item (item : str) : str * option str :=
  match split1 61 item with
  | None => (item, None)
  | Some (name, v) =>
      (name, Some (if quoted_both v then unquote_header_value false (middle v) else v))
  end.
Definition parse_dict_header (value : str) : dict (option str) :=
  fold_left (fun d item => let kv := parse_dict_item item in dset d (fst kv) (snd kv))
            (parse_http_list value) [].

(** http/basic.py:534-550 [dump_options_header] *)
Definition dump_option (kv : str * option str) : str :=
  match snd kv with
  | None => fst kv
  | Some v => fst kv ++ 61 :: quote_header_value true v
  end.
Definition dump_options_header (header : option str) (options : dict (option str)) : str :=
  join [59; 32]
    (match header with Some h => [h] | None => [] end ++ map dump_option options).

(** http/basic.py:31 [_quoted_string_re] *)
Definition not_quote_bs (c : N) : bool := negb (c =? 34) && negb (c =? 92).
Definition quoted_string_re : re :=
  RSeq (RChr 34)
  (RSeq (RStar true (RSet not_quote_bs))
  (RSeq (RStar true (RSeq (RChr 92) (RSeq RDot (RStar true (RSet not_quote_bs)))))
        (RChr 34))).

(** http/basic.py:32-35 [_option_header_piece_re] *)
Definition opt_key_c (c : N) : bool := negb (is_space c) && negb (c =? 59) && negb (c =? 61).
Definition opt_val_c (c : N) : bool := negb (c =? 59).
Definition ws_re : re := RStar true (RSet is_space).
Definition option_header_piece_re : re :=
  RSeq (RChr 59)
  (RSeq ws_re
  (RSeq (RGroup 1 (RAlt quoted_string_re (RPlus true (RSet opt_key_c))))
  (RSeq ws_re
  (RSeq (ROpt (RSeq (RChr 61) (RSeq ws_re
           (RGroup 2 (RAlt quoted_string_re (RPlus true (RSet opt_val_c)))))))
        ws_re)))).

(** [finditer]: successive non-overlapping matches (the expression never
    matches the empty string, so each step consumes input). *)
Fixpoint finditer (fuel : nat) (r : re) (prev : option N) (s : str) : list st :=
  match fuel with
  | O => []
  | S f =>
      match search_at r prev s with
      | None => []
      | Some (_, m) => m :: finditer f r (s_prev m) (s_rest m)
      end
  end.

(** http/basic.py:677-683 [_tokenize] inside [parse_options_header].  Group 1
    always takes part in a match, so the default is never used. *)
Definition option_of_match (m : st) : str * option str :=
  let key := unquote_header_value false (match cap (s_caps m) 1 with Some k => k | None => [] end) in
  (key, option_map (unquote_header_value (eqs key (lit "filename"))) (cap (s_caps m) 2)).

(** http/basic.py:661-691 [parse_options_header] *)
Definition parse_options_header (value : str) : res (str * dict (option str)) :=
  match value with
  | [] => Ok ([], [])
  | _ =>
      let s := 59 :: value in
      match map option_of_match (finditer (length s) option_header_piece_re None s) with
      | [] => Raise StopIteration
      | (name, _) :: parts =>
          Ok (name, fold_left (fun d kv => dset d (fst kv) (snd kv)) parts [])
      end
  end.
