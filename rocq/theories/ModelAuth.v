(** Model of Authorization and WWW-Authenticate headers (verktyg/http/auth.py). *)
From Coq Require Import List NArith ZArith Bool.
From Verif Require Import PyStr Utf8 ModelQuote ModelUrls ModelCookie.
Import ListNotations.
Open Scope N_scope.

(** [binascii.a2b_base64] without strict mode, the decoder behind
    [base64.b64decode] (standard library, used at auth.py:97): characters outside
    the alphabet are skipped, [None] is the exception for incorrect padding. *)
Definition b64val (c : N) : option N :=
  if between 65 90 c then Some (c - 65)
  else if between 97 122 c then Some (c - 71)
  else if between 48 57 c then Some (c + 4)
  else if c =? 43 then Some 62
  else if c =? 47 then Some 63
  else None.
Fixpoint a2b (q left pads : N) (s : str) : option str :=
  match s with
  | [] => if q =? 0 then Some [] else None
  | c :: s' =>
      if c =? 61 then
        if 2 <=? q
        then (if 4 <=? q + (pads + 1) then Some [] else a2b q left (pads + 1) s')
        else a2b q left pads s'
      else
        match b64val c with
        | None => a2b q left pads s'
        | Some v =>
            if q =? 0 then a2b 1 v 0 s'
            else if q =? 1 then option_map (cons (left * 4 + v / 16)) (a2b 2 (v mod 16) 0 s')
            else if q =? 2 then option_map (cons (left * 16 + v / 4)) (a2b 3 (v mod 4) 0 s')
            else option_map (cons (left * 64 + v)) (a2b 0 0 0 s')
        end
  end.
Definition b64decode (s : str) : option str := a2b 0 0 0 s.

(** [value.split(None, 1)] unpacked into two; [None] is the ValueError *)
Definition split_ws1 (sp : N -> bool) (s : str) : option (str * str) :=
  let (a, r) := cut sp (lstrip_by sp s) in
  let r := lstrip_by sp r in
  if is_nil r then None else Some (a, r).

(** Authorization (auth.py:19-73): its type and its items *)
Inductive authorization :=
| ABasic (username password : str)
| ADigest (d : dict (option str)).

Definition falsy (o : option (option str)) : bool :=
  match o with Some (Some (_ :: _)) => false | _ => true end.

(** parse_authorization_header (auth.py:76-112) *)
Definition parse_authorization_header (value : option str) : res (option authorization) :=
  match value with
  | None | Some [] => Ok None
  | Some value =>
      do value <- latin1_encode value;
      match split_ws1 is_bspace value with
      | None => Ok None
      | Some (auth_type, auth_info) =>
          let auth_type := blower auth_type in
          if eqs auth_type (lit "basic") then
            match b64decode auth_info with
            | None => Ok None
            | Some b =>
                match split1 58 b with
                | None => Ok None
                | Some (username, password) => Ok (Some (ABasic username password))
                end
            end
          else if eqs auth_type (lit "digest") then
            let auth_map := parse_dict_header auth_info in
            if forallb (dhas auth_map) [lit "username"; lit "realm"; lit "nonce"; lit "uri"; lit "response"]
            then
              if dhas auth_map (lit "qop")
                 && (falsy (dget auth_map (lit "nc")) || falsy (dget auth_map (lit "cnonce")))
              then Ok None
              else Ok (Some (ADigest auth_map))
            else Ok None
          else Ok None
      end
  end.

(** WWWAuthenticate (auth.py:134-248) as the dict it is.  The callbacks of
    UpdateDictMixin are modelled with the other callback structures. *)
Definition auth_type_key : str := lit "__auth_type__".
Definition require_quoting : list str := [lit "domain"; lit "nonce"; lit "opaque"; lit "realm"; lit "qop"].

(** auth.py:146-151 *)
Definition set_basic (realm : str) : dict str := [(auth_type_key, lit "basic"); (lit "realm", realm)].
(** auth.py:153-173 *)
Definition set_digest (realm nonce : str) (qop : list str) (opaque algorithm : option str) (stale : bool) : dict str :=
  let d := [(auth_type_key, lit "digest"); (lit "realm", realm); (lit "nonce", nonce);
            (lit "qop", dump_header_list true qop)] in
  let d := if stale then dset d (lit "stale") (lit "TRUE") else d in
  let d := match opaque with Some o => dset d (lit "opaque") o | None => d end in
  match algorithm with Some a => dset d (lit "algorithm") a | None => d end.

(** [str.title()] on ASCII text (other letters are left alone: simplification) *)
Fixpoint title (in_word : bool) (s : str) : str :=
  match s with
  | [] => []
  | c :: s' =>
      (if is_ascii_upper c then (if in_word then c + 32 else c)
       else if is_ascii_lower c then (if in_word then c else c - 32)
       else c) :: title (is_ascii_upper c || is_ascii_lower c) s'
  end.

(** to_header (auth.py:175-184) *)
Definition www_to_header (d : dict str) : str :=
  let auth_type := match dget d auth_type_key with Some (c :: r) => c :: r | _ => lit "basic" end in
  title false auth_type ++ 32 ::
  join [44; 32] (map (fun kv => fst kv ++ 61 ::
       quote_header_value (negb (existsb (eqs (fst kv)) require_quoting)) (snd kv)) (ddel d auth_type_key)).

(** WWWAuthenticate.__init__ (auth.py:140-144) *)
Definition www_init (auth_type : str) (values : dict (option str)) : dict (option str) :=
  if is_nil auth_type then values else dset values auth_type_key (Some auth_type).

(** parse_www_authenticate_header (auth.py:256-277) *)
Definition parse_www_authenticate_header (value : str) : dict (option str) :=
  if is_nil value then []
  else match split_ws1 is_space value with
       | None => www_init (lower (strip value)) []
       | Some (auth_type, auth_info) => www_init (lower auth_type) (parse_dict_header auth_info)
       end.

(** the stale property (auth.py:234-247) *)
Definition get_stale (d : dict (option str)) : option bool :=
  match dget d (lit "stale") with Some (Some v) => Some (eqs (lower v) (lit "true")) | _ => None end.
