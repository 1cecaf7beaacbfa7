(** Model of /repo/verktyg/http/cookies.py.

    Dates: [cookie_date] is modelled with the other date functions; here the text of
    an expiry date is an input. *)
From Coq Require Import List NArith ZArith Bool.
From Verif Require Import PyStr Regex Utf8 ModelUrls.
Import ListNotations.
Open Scope N_scope.

(** _cookie_params (cookies.py:21-24) *)
Definition cookie_params : list str :=
  [lit "expires"; lit "path"; lit "comment"; lit "max-age"; lit "secure"; lit "httponly"; lit "version"].

(** _legal_cookie_chars (cookies.py:25-26) *)
Definition legal_cookie_char (c : N) : bool := is_ascii_alnum c || mem c (lit "!#$%&'*+-.^_`|~:").

(** backslash and three octal digits (cookies.py:34-37) *)
Definition octal (c : N) : str := [92; 48 + c / 64; 48 + c / 8 mod 8; 48 + c mod 8].
(** _cookie_quoting_map.get(char, [char]) (cookies.py:28-37) *)
Definition cookie_quoting_map (c : N) : str :=
  if c =? 44 then lit "\054"
  else if c =? 59 then lit "\073"
  else if c =? 34 then [92; 34]
  else if c =? 92 then [92; 92]
  else if (c <? 32) || between 127 255 c then octal c
  else [c].

(** _cookie_quote (cookies.py:52-66) *)
Definition cookie_quote (b : str) : str :=
  let buf := flat_map (fun c => if legal_cookie_char c then [c] else cookie_quoting_map c) b in
  if forallb legal_cookie_char b then buf else 34 :: buf ++ [34].

(** a match of _octal_re or _quote_re at the start (cookies.py:39-40) *)
Definition octal_here (s : str) : bool :=
  match s with
  | b :: x :: y :: z :: _ => (b =? 92) && between 48 51 x && between 48 55 y && between 48 55 z
  | _ => false
  end.
Definition quote_here (s : str) : bool :=
  match s with b :: c :: _ => (b =? 92) && negb (c =? 10) | _ => false end.
(** position of the first match, as [re.search] *)
Fixpoint find_first (p : str -> bool) (s : str) : option nat :=
  if p s then Some O
  else match s with [] => None | _ :: s' => option_map S (find_first p s') end.

(** The loop of _cookie_unquote (cookies.py:82-99); [s] is [b[i:]].  [None]: out of
    fuel. *)
Fixpoint unquote_loop (fuel : nat) (s : str) : option str :=
  match s with
  | [] => Some []
  | _ =>
      match fuel with
      | O => None
      | S f =>
          let o := find_first octal_here s in
          let q := find_first quote_here s in
          match q, o with
          | None, None => Some s
          | Some k, None =>
              option_map (fun r => firstn k s ++ firstn 1 (skipn (k + 1) s) ++ r)
                         (unquote_loop f (skipn (k + 2) s))
          | Some k, Some j =>
              if (k <? j)%nat
              then option_map (fun r => firstn k s ++ firstn 1 (skipn (k + 1) s) ++ r)
                              (unquote_loop f (skipn (k + 2) s))
              else option_map (fun r => firstn j s
                                ++ [fold_left (fun a c => 8 * a + (c - 48)) (firstn 3 (skipn (j + 1) s)) 0] ++ r)
                              (unquote_loop f (skipn (j + 4) s))
          | None, Some j =>
              option_map (fun r => firstn j s
                            ++ [fold_left (fun a c => 8 * a + (c - 48)) (firstn 3 (skipn (j + 1) s)) 0] ++ r)
                         (unquote_loop f (skipn (j + 4) s))
          end
      end
  end.

(** _cookie_unquote (cookies.py:68-101) *)
Definition cookie_unquote (fuel : nat) (b : str) : option str :=
  if (length b <? 2)%nat then Some b
  else if negb (starts [34] b) || negb (ends [34] b) then Some b
  else unquote_loop fuel (removelast (skipn 1 b)).

(** _cookie_re (cookies.py:41-49): group 1 is key, group 2 is val *)
Definition ws_star : re := RStar true (RSet is_bspace).
Definition quoted_item : re :=
  RAlt (RSet (fun c => negb (c =? 92) && negb (c =? 34))) (RSeq (RChr 92) RDot).
Definition cookie_re : re :=
  RSeq (RGroup 1 (RPlus true (RSet (fun c => negb (c =? 61)))))
  (RSeq ws_star (RSeq (RChr 61) (RSeq ws_star
  (RSeq (RGroup 2 (RAlt (RSeq (RChr 34) (RSeq (RStar true quoted_item) (RChr 34)))
                        (RStar false RDot)))
  (RSeq ws_star (RChr 59)))))).

(** [bytes.lower()]: ASCII only *)
Definition blower (s : str) : str := map (fun c => if is_ascii_upper c then c + 32 else c) s.
Definition cap_or_nil (m : st) (g : nat) : str := match cap (s_caps m) g with Some x => x | None => [] end.

(** _cookie_parse_impl (cookies.py:121-137); [s] is what is left of [b + b';'], so
    [i < n] says that more than one byte is left. *)
Fixpoint cookie_parse_loop (fuel : nat) (s : str) : option (list (str * str)) :=
  if (length s <=? 1)%nat then Some []
  else
    match fuel with
    | O => None
    | S f =>
        match re_search cookie_re s with
        | None => Some []
        | Some (_, m) =>
            let key := strip_by is_bspace (cap_or_nil m 1) in
            let value := cap_or_nil m 2 in
            match cookie_parse_loop f (s_rest m) with
            | None => None
            | Some r =>
                if existsb (eqs (blower key)) cookie_params then Some r
                else match cookie_unquote fuel key, cookie_unquote fuel value with
                     | Some k, Some v => Some ((k, v) :: r)
                     | _, _ => None
                     end
            end
        end
    end.
Definition cookie_parse (fuel : nat) (b : str) : option (list (str * str)) :=
  cookie_parse_loop fuel (b ++ [59]).

(** parse_cookie of a [str] header with the default charset (cookies.py:156-195).
    The argument [errors] is not used by the code. *)
Fixpoint decode_pairs (l : list (str * str)) : res (list (str * str)) :=
  match l with
  | [] => Ok []
  | (k, v) :: l' =>
      do k' <- utf8_decode Strict k;
      do v' <- utf8_decode Strict v;
      do r <- decode_pairs l'; Ok ((k', v') :: r)
  end.
Definition parse_cookie (fuel : nat) (header : str) : option (res (dict str)) :=
  option_map (fun l => do ps <- decode_pairs l; Ok (fold_left (fun d kv => dset d (fst kv) (snd kv)) ps []))
             (cookie_parse fuel (latin1_encode_replace header)).

Section Dump.
  Variable idna_part : str -> res str.
  Variable ip_ok nfkc_ok : str -> bool.
  (** cookie_date(time() + max_age) *)
  Variable date_after : Z -> str.

  (** _make_cookie_domain (cookies.py:104-118) *)
  Definition make_cookie_domain (domain : option str) : res (option str) :=
    match domain with
    | None => Ok None
    | Some d =>
        do e <- encode_idna idna_part d;
        let e := fst (partition 58 e) in
        if mem 46 e then Ok (Some e) else Raise ValueError
    end.

  Record cookie_args := Args {
    a_max_age : option Z; a_expires : option str; a_path : option str; a_domain : option str;
    a_secure : bool; a_httponly : bool; a_sync : bool }.

  Definition attr (name : str) (v : option str) : list str :=
    match v with Some x => [name ++ 61 :: x] | None => [] end.

  (** dump_cookie (cookies.py:198-286).  Simplifications: max_age is a number of
      seconds already, expires the text of a date. *)
  Definition dump_cookie (key value : str) (a : cookie_args) : res str :=
    do key <- utf8_encode key;
    do value <- utf8_encode value;
    do path <- (match a_path a with
                | None => Ok None
                | Some p => do u <- iri_to_uri idna_part ip_ok nfkc_ok p; Ok (Some u)
                end);
    do domain <- make_cookie_domain (a_domain a);
    let expires := match a_expires a, a_max_age a with
                   | Some e, _ => Some e
                   | None, Some m => if a_sync a then Some (date_after m) else None
                   | None, None => None
                   end in
    do expires <- (match expires with None => Ok None | Some e => do b <- utf8_encode e; Ok (Some b) end);
    Ok (join (lit "; ")
      ((key ++ 61 :: cookie_quote value)
       :: attr (lit "Domain") (option_map cookie_quote domain)
       ++ attr (lit "Expires") expires
       ++ attr (lit "Max-Age") (option_map zdec (a_max_age a))
       ++ (if a_secure a then [lit "Secure"] else [])
       ++ (if a_httponly a then [lit "HttpOnly"] else [])
       ++ attr (lit "Path") path)).
End Dump.
