(** Model of JsonView (views.py:74-97) and of the parts of Python's json module
    it uses: json.dumps, and json.loads to read the answers. *)
From Coq Require Import Arith List NArith ZArith Bool.
From Verif Require Import PyStr ModelQuote ModelHeaders ModelResponse ModelRespond.
Import ListNotations.
Open Scope N_scope.

(** ** Values
    What an action may return; [JOther] stands for any object that json refuses.  Floats
    are not modelled, nor subclasses of the built-in types, nor the limits CPython sets to
    the nesting and to the digits of a number. *)
Inductive key := KStr (s : str) | KInt (z : Z) | KBool (b : bool) | KNull | KOther.
Inductive json :=
| JNull
| JBool (b : bool)
| JInt (z : Z)
| JStr (s : str)
| JList (l : list json)
| JDict (d : list (key * json))
| JOther.

(** ** Writing: json.dumps (the encoder of the json package) *)
Definition hex_digit (n : N) : N := if n <? 10 then 48 + n else 87 + n.
(** ["\\u{0:04x}".format(n)] for n below 65536 *)
Definition u_escape (n : N) : str :=
  [92; 117; hex_digit (n / 4096); hex_digit (n / 256 mod 16); hex_digit (n / 16 mod 16); hex_digit (n mod 16)].
(** py_encode_basestring_ascii, of one character *)
Definition escape_char (c : N) : str :=
  if c =? 34 then [92; 34] else if c =? 92 then [92; 92]
  else if c =? 10 then [92; 110] else if c =? 13 then [92; 114] else if c =? 9 then [92; 116]
  else if c =? 12 then [92; 102] else if c =? 8 then [92; 98]
  else if (32 <=? c) && (c <=? 126) then [c]
  else if c <? 65536 then u_escape c
  else let v := c - 65536 in u_escape (55296 + v / 1024) ++ u_escape (56320 + v mod 1024).
Definition encode_text (s : str) : str := [34] ++ flat_map escape_char s ++ [34].
Definition word (b : bool) : str := if b then lit "true" else lit "false".
(** the text of a key *)
Definition key_text (k : key) : res str :=
  match k with
  | KStr s => Ok s
  | KInt z => Ok (zdec z)
  | KBool b => Ok (word b)
  | KNull => Ok (lit "null")
  | KOther => Raise TypeError
  end.
(** A line break and the indentation of a level, if there is any *)
Definition newline (indent : option nat) (level : nat) : str :=
  match indent with None => [] | Some w => 10 :: repeat 32 (w * level)%nat end.
Definition colon (indent : option nat) : str := match indent with None => [58] | Some _ => [58; 32] end.
(** [[f(x) for x in l]] *)
Definition each {A B : Type} (f : A -> res B) : list A -> res (list B) :=
  fix all l := match l with
               | [] => Ok []
               | x :: l' => do s <- f x; do r <- all l'; Ok (s :: r)
               end.
(** [indent]: json.dumps(v, indent=n), or json.dumps(v, separators=(',', ':')) *)
Fixpoint dumps (indent : option nat) (level : nat) (v : json) : res str :=
  match v with
  | JNull => Ok (lit "null")
  | JBool b => Ok (word b)
  | JInt z => Ok (zdec z)
  | JStr s => Ok (encode_text s)
  | JList [] => Ok (lit "[]")
  | JList l =>
      do xs <- each (dumps indent (S level)) l;
      Ok ([91] ++ newline indent (S level) ++ join ([44] ++ newline indent (S level)) xs ++ newline indent level ++ [93])
  | JDict [] => Ok (lit "{}")
  | JDict d =>
      do xs <- each (fun kx => match kx with
                               | (k, x) =>
                                   do t <- key_text k;
                                   do s <- dumps indent (S level) x;
                                   Ok (encode_text t ++ colon indent ++ s)
                               end) d;
      Ok ([123] ++ newline indent (S level) ++ join ([44] ++ newline indent (S level)) xs ++ newline indent level ++ [125])
  | JOther => Raise TypeError
  end.

(** ** Reading: json.loads (the decoder and scanner of the json package)
    [None]: an error, or a number that is not an integer. *)
Definition is_ws (c : N) : bool := (c =? 32) || (c =? 9) || (c =? 10) || (c =? 13).
Fixpoint skip (s : str) : str := match s with c :: r => if is_ws c then skip r else s | [] => [] end.
Definition hex_value (c : N) : option N :=
  if (48 <=? c) && (c <=? 57) then Some (c - 48)
  else if (97 <=? c) && (c <=? 102) then Some (c - 87)
  else if (65 <=? c) && (c <=? 70) then Some (c - 55)
  else None.
Definition hex4 (a b c d : N) : option N :=
  match hex_value a, hex_value b, hex_value c, hex_value d with
  | Some a, Some b, Some c, Some d => Some (a * 4096 + b * 256 + c * 16 + d)
  | _, _, _, _ => None
  end.
Definition unescape (e : N) : option N :=
  if e =? 34 then Some 34 else if e =? 92 then Some 92 else if e =? 47 then Some 47
  else if e =? 98 then Some 8 else if e =? 102 then Some 12 else if e =? 110 then Some 10
  else if e =? 114 then Some 13 else if e =? 116 then Some 9 else None.
Definition high (n : N) : bool := (55296 <=? n) && (n <=? 56319).
Definition low (n : N) : bool := (56320 <=? n) && (n <=? 57343).
Definition put (c : N) (x : option (str * str)) : option (str * str) :=
  match x with Some (a, r) => Some (c :: a, r) | None => None end.
(** py_scanstring, after the quotation mark *)
Fixpoint scan_text (s : str) : option (str * str) :=
  match s with
  | [] => None
  | c :: r =>
      if c =? 34 then Some ([], r)
      else if c =? 92 then
        match r with
        | [] => None
        | e :: r =>
            if e =? 117 then
              match r with
              | h1 :: h2 :: h3 :: h4 :: r1 =>
                  match hex4 h1 h2 h3 h4 with
                  | None => None
                  | Some n =>
                      match r1 with
                      | b :: u :: g1 :: g2 :: g3 :: g4 :: r2 =>
                          if high n && (b =? 92) && (u =? 117) then
                            match hex4 g1 g2 g3 g4 with
                            | None => None
                            | Some m => if low m then put (65536 + (n - 55296) * 1024 + (m - 56320)) (scan_text r2)
                                        else put n (scan_text r1)
                            end
                          else put n (scan_text r1)
                      | _ => put n (scan_text r1)
                      end
                  end
              | _ => None
              end
            else match unescape e with Some x => put x (scan_text r) | None => None end
        end
      else if c <? 32 then None
      else put c (scan_text r)
  end.
(** The integer at the beginning; a fraction or an exponent is not modelled *)
Definition is_dig (c : N) : bool := (48 <=? c) && (c <=? 57).
Fixpoint span_digits (s : str) : str * str :=
  match s with
  | c :: r => if is_dig c then let (a, b) := span_digits r in (c :: a, b) else ([], s)
  | [] => ([], [])
  end.
Definition natural (s : str) : option (Z * str) :=
  match span_digits s with
  | ([], _) => None
  | (c :: ds, r) =>
      if c =? 48 then Some (0%Z, ds ++ r)
      else match py_int (c :: ds) with Some z => Some (z, r) | None => None end
  end.
Definition fraction (r : str) : bool :=
  match r with
  | c :: d :: _ => ((c =? 46) && is_dig d) || ((c =? 101) || (c =? 69))
  | [c] => (c =? 101) || (c =? 69)
  | [] => false
  end.
Definition scan_number (s : str) : option (Z * str) :=
  match s with
  | c :: r =>
      match (if c =? 45 then match natural r with Some (z, r) => Some ((- z)%Z, r) | None => None end else natural s) with
      | Some (z, r) => if fraction r then None else Some (z, r)
      | None => None
      end
  | [] => None
  end.
Definition key_is (k : key) (s : str) : bool := match k with KStr x => eqs x s | _ => false end.
(** [dict(pairs)]: a later value under the same key takes the place of the earlier one *)
Fixpoint put_key (d : list (key * json)) (k : str) (v : json) : list (key * json) :=
  match d with
  | [] => [(KStr k, v)]
  | (k', v') :: d' => if key_is k' k then (k', v) :: d' else (k', v') :: put_key d' k v
  end.
Definition of_pairs (l : list (str * json)) : list (key * json) :=
  fold_left (fun d kv => put_key d (fst kv) (snd kv)) l [].
(** The rest if the next character is this one *)
Definition eat (c : N) (s : str) : option str :=
  match s with x :: r => if x =? c then Some r else None | [] => None end.
(** [scan_value]: JSONArray, JSONObject and py_make_scanner; each call takes fuel *)
Fixpoint scan_value (fuel : nat) (s : str) : option (json * str) :=
  match fuel with
  | O => None
  | S fuel =>
      match s with
      | [] => None
      | c :: r =>
          if c =? 34 then match scan_text r with Some (t, r) => Some (JStr t, r) | None => None end
          else if c =? 123 then
            match eat 125 (skip r) with
            | Some r => Some (JDict [], r)
            | None => match scan_pairs fuel (skip r) with Some (l, r) => Some (JDict (of_pairs l), r) | None => None end
            end
          else if c =? 91 then
            match eat 93 (skip r) with
            | Some r => Some (JList [], r)
            | None => match scan_items fuel (skip r) with Some (l, r) => Some (JList l, r) | None => None end
            end
          else if starts (lit "null") s then Some (JNull, skipn 4 s)
          else if starts (lit "true") s then Some (JBool true, skipn 4 s)
          else if starts (lit "false") s then Some (JBool false, skipn 5 s)
          else match scan_number s with Some (z, r) => Some (JInt z, r) | None => None end
      end
  end
with scan_items (fuel : nat) (s : str) : option (list json * str) :=
  match fuel with
  | O => None
  | S fuel =>
      match scan_value fuel s with
      | None => None
      | Some (x, r) =>
          match eat 93 (skip r), eat 44 (skip r) with
          | Some r, _ => Some ([x], r)
          | _, Some r => match scan_items fuel (skip r) with Some (l, r) => Some (x :: l, r) | None => None end
          | None, None => None
          end
      end
  end
with scan_pairs (fuel : nat) (s : str) : option (list (str * json) * str) :=
  match fuel with
  | O => None
  | S fuel =>
      match (match eat 34 s with Some r => scan_text r | None => None end) with
      | None => None
      | Some (k, r) =>
          match (match eat 58 (skip r) with Some r => scan_value fuel (skip r) | None => None end) with
          | None => None
          | Some (x, r) =>
              match eat 125 (skip r), eat 44 (skip r) with
              | Some r, _ => Some ([(k, x)], r)
              | _, Some r => match scan_pairs fuel (skip r) with Some (l, r) => Some ((k, x) :: l, r) | None => None end
              | None, None => None
              end
          end
      end
  end.
Definition loads (s : str) : option json :=
  match scan_value (length s) (skip s) with
  | Some (v, r) => match skip r with [] => Some v | _ => None end
  | None => None
  end.

(** ** The view *)
(** What an action returns: a Response, another kind of response object, or a value *)
Inductive returned := RResponse (r : response) | RObject | RValue (v : json).
(** views.py:81-97 [JsonView.__call__].  [debug] is env.debug; [None]: the application has
    no such attribute, as BaseApplication has not. *)
Definition json_view (debug : option bool) (x : res returned) : res response :=
  do x <- x;
  match x with
  | RResponse r => Ok r
  | RValue JNull => new_response base_class (RArgs ANone (SCode 204) [] None None false)
  | RObject | RValue _ =>
      let v := match x with RValue v => v | _ => JOther end in
      match debug with
      | None => Raise AttributeError
      | Some d =>
          do s <- dumps (if d then Some 4%nat else None) 0 v;
          new_response base_class (RArgs (AData (IText s)) SNone [] None (Some (lit "application/json")) false)
      end
  end.
