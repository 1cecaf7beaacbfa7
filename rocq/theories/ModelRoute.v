(** Model of verktyg/routing.py, part one: route templates, converters and one route.

    The charset of the router is utf-8 and its sort_key is None, their defaults. *)
From Coq Require Import Arith List NArith ZArith Bool.
From Verif Require Import PyStr Regex Utf8 ModelUrls.
Import ListNotations.
Open Scope N_scope.

(** Exceptions that are not builtins. *)
Definition BuildError : exn := OtherError 4.
Definition ReError : exn := OtherError 5.               (* re.error *)
Definition LookupError : exn := OtherError 6.

(** ** parse_route (routing.py:173-202) *)

(** _route_re (routing.py:109-119): groups 1 static, 2 converter, 3 args, 4 variable *)
Definition id_start (c : N) : bool := is_ascii_alpha c || (c =? 95).
Definition id_char (c : N) : bool := is_ascii_alnum c || (c =? 95).
Definition ident_re : re := RSeq (RSet id_start) (RStar true (RSet id_char)).
Definition conv_prefix_re : re :=
  RSeq (RGroup 2 ident_re)
  (RSeq (ROpt (RSeq (RChr 40) (RSeq (RGroup 3 (RStar false RDot)) (RChr 41))))
        (RChr 58)).
Definition route_re : re :=
  RSeq (RGroup 1 (RStar true (RSet (fun c => negb (c =? 60)))))
  (RSeq (RChr 60)
  (RSeq (ROpt conv_prefix_re)
  (RSeq (RGroup 4 ident_re) (RChr 62)))).

(** What the generator yields: (None, None, static) or (converter, args, variable). *)
Inductive raw_piece := Static (s : str) | Dynamic (conv : str) (args : option str) (var : str).

Definition group_or_nil (m : st) (g : nat) : str := match cap (s_caps m) g with Some x => x | None => [] end.
Definition static_piece (s : str) : list raw_piece := match s with [] => [] | _ => [Static s] end.

(** The loop; [s] is [route[pos:]].  Every turn consumes text, so that [fuel] does not
    run out when it starts as the length of the route. *)
Fixpoint parse_loop (fuel : nat) (used : list str) (s : str) : res (list raw_piece) :=
  match s with
  | [] => Ok []
  | _ =>
      match fuel with
      | O => Raise (OtherError 99)
      | S f =>
          match re_match route_re s with
          | None => if mem 62 s || mem 60 s then Raise ValueError else Ok [Static s]
          | Some m =>
              let variable := group_or_nil m 4 in
              let converter := match cap (s_caps m) 2 with Some (c :: r) => c :: r | _ => lit "default" end in
              let args := match cap (s_caps m) 3 with Some (c :: r) => Some (c :: r) | _ => None end in
              if existsb (eqs variable) used then Raise ValueError
              else
                do rest <- parse_loop f (variable :: used) (s_rest m);
                Ok (static_piece (group_or_nil m 1) ++ Dynamic converter args variable :: rest)
          end
      end
  end.
Definition parse_route (route : str) : res (list raw_piece) := parse_loop (length route) [] route.

(** ** Values
    Objects other than strings, integers and UUIDs are known by what [str()] gives. *)
Inductive value := VStr (s : str) | VInt (z : Z) | VUuid (n : N) | VObj (text : str).

(** [str(uuid)]: 32 lower case hexadecimal digits in groups of 8, 4, 4, 4, 12 *)
Definition hex_lower (d : N) : N := if d <? 10 then 48 + d else 87 + d.
Fixpoint hex_digits (k : nat) (n : N) : str :=
  match k with
  | O => []
  | S k' => hex_digits k' (n / 16) ++ [hex_lower (n mod 16)]
  end.
Definition uuid_text (n : N) : str :=
  let h := hex_digits 32 n in
  firstn 8 h ++ [45] ++ firstn 4 (skipn 8 h) ++ [45] ++ firstn 4 (skipn 12 h) ++ [45]
  ++ firstn 4 (skipn 16 h) ++ [45] ++ skipn 20 h.
Definition value_str (v : value) : str :=
  match v with VStr s => s | VInt z => zdec z | VUuid n => uuid_text n | VObj t => t end.

(** Equality of values; Python would also identify some values of different types. *)
Definition value_eqb (a b : value) : bool :=
  match a, b with
  | VStr s, VStr t => eqs s t
  | VInt x, VInt y => (x =? y)%Z
  | VUuid x, VUuid y => x =? y
  | VObj s, VObj t => eqs s t
  | _, _ => false
  end.

(** ** Converters (routing.py:803-984)
    A converter is its regular expression (without groups of its own), its weight and
    its two functions; [None] stands for a raised ValidationError. *)
Record converter := Conv {
  c_regex : re;
  c_weight : Z;
  c_to_python : str -> res (option value);
  c_to_url : value -> res (option str) }.

(** BaseConverter (routing.py:803-817) *)
Definition base_to_python (s : str) : res (option value) := Ok (Some (VStr s)).
Definition base_to_url (v : value) : res (option str) :=
  do u <- urlquote (lit "/:") (value_str v); Ok (Some u).
Definition not_slash (c : N) : bool := negb (c =? 47).

(** UnicodeConverter (routing.py:820-854): a run of characters other than the slash, at
    least [minlength] of them and at most [maxlength] *)
Definition string_re (minlength : nat) (maxlength : option nat) : re :=
  RSeq (RRep minlength (RSet not_slash))
       (match maxlength with
        | None => RStar true (RSet not_slash)
        | Some m => RUpTo (m - minlength) (RSet not_slash)
        end).
(** A maximum below the minimum makes the expression invalid (re.error). *)
Definition conv_string (minlength : nat) (maxlength : option nat) : converter :=
  Conv (string_re minlength maxlength) 100 base_to_python base_to_url.

(** AnyConverter (routing.py:857-871): one of the items *)
Fixpoint any_re (items : list str) : re :=
  match items with
  | [] => REps
  | [x] => RStr x
  | x :: rest => RAlt (RStr x) (any_re rest)
  end.
Definition conv_any (items : list str) : converter := Conv (any_re items) 100 base_to_python base_to_url.

(** PathConverter (routing.py:874-885) *)
Definition conv_path : converter :=
  Conv (RSeq (RSet not_slash) (RStar false RDot)) 200 base_to_python base_to_url.

(** The decimal digits of Unicode 14 come in runs of ten; their zeros. *)
Definition decimal_zeros : list N :=
  [48; 1632; 1776; 1984; 2406; 2534; 2662; 2790; 2918; 3046; 3174; 3302; 3430; 3558; 3664; 3792; 3872;
   4160; 4240; 6112; 6160; 6470; 6608; 6784; 6800; 6992; 7088; 7232; 7248; 42528; 43216; 43264; 43472;
   43504; 43600; 44016; 65296; 66720; 68912; 69734; 69872; 69942; 70096; 70384; 70736; 70864; 71248;
   71360; 71472; 71904; 72016; 72784; 73040; 73120; 92768; 92864; 93008; 120782; 120792; 120802; 120812;
   120822; 123200; 123632; 125264; 130032].
Definition decimal (c : N) : option N :=
  match find (fun z => between z (z + 9) c) decimal_zeros with Some z => Some (c - z) | None => None end.
Definition is_decimal (c : N) : bool := match decimal c with Some _ => true | None => false end.
(** [int(s)] of a string of such digits; Python's limit on the number of digits is not
    modelled *)
Definition decimal_int (s : str) : Z :=
  fold_left (fun a c => 10 * a + Z.of_N (match decimal c with Some d => d | None => 0 end))%Z s 0%Z.

(** NumberConverter and IntegerConverter (routing.py:888-943).  [fixed] is fixed_digits,
    a number of digits. *)
Definition out_of_bounds (mn mx : option Z) (z : Z) : bool :=
  match mn with Some m => (z <? m)%Z | None => false end
  || match mx with Some m => (m <? z)%Z | None => false end.
Definition int_to_python (fixed : nat) (mn mx : option Z) (s : str) : res (option value) :=
  if negb (fixed =? 0)%nat && negb (length s =? fixed)%nat then Ok None
  else if out_of_bounds mn mx (decimal_int s) then Ok None
  else Ok (Some (VInt (decimal_int s))).
(** [('%0' + fixed + 'd') % z] *)
Definition zero_pad (width : nat) (z : Z) : str :=
  if (z <? 0)%Z
  then 45 :: repeat 48 (width - 1 - length (dec (Z.to_N (- z)))) ++ dec (Z.to_N (- z))
  else repeat 48 (width - length (dec (Z.to_N z))) ++ dec (Z.to_N z).
(** [int(value)]: of a str it may raise ValueError, of other objects TypeError *)
Definition int_of_value (v : value) : res Z :=
  match v with
  | VInt z => Ok z
  | VStr s => match py_int s with Some z => Ok z | None => Raise ValueError end
  | VUuid n => Ok (Z.of_N n)
  | VObj _ => Raise TypeError
  end.
Definition int_to_url (fixed : nat) (v : value) : res (option str) :=
  do z <- int_of_value v; Ok (Some (if (fixed =? 0)%nat then zdec z else zero_pad fixed z)).
Definition conv_int (fixed : nat) (mn mx : option Z) : converter :=
  Conv (RPlus true (RSet is_decimal)) 50 (int_to_python fixed mn mx) (int_to_url fixed).

(** FloatConverter (routing.py:946-964) is a converter of this shape whose functions
    (float() and str() of a float) are not modelled. *)
Definition float_re : re := RSeq (RPlus true (RSet is_decimal)) (RSeq (RChr 46) (RPlus true (RSet is_decimal))).
Definition conv_float (to_python : str -> res (option value)) (to_url : value -> res (option str)) : converter :=
  Conv float_re 50 to_python to_url.

(** UUIDConverter (routing.py:967-984) *)
Definition is_hex (c : N) : bool := is_ascii_digit c || between 65 70 c || between 97 102 c.
Definition uuid_re : re :=
  RSeq (RRep 8 (RSet is_hex)) (RSeq (RChr 45)
  (RSeq (RRep 4 (RSet is_hex)) (RSeq (RChr 45)
  (RSeq (RRep 4 (RSet is_hex)) (RSeq (RChr 45)
  (RSeq (RRep 4 (RSet is_hex)) (RSeq (RChr 45) (RRep 12 (RSet is_hex))))))))).
(** [uuid.UUID(s)] of a text that matched: the number its hexadecimal digits denote *)
Definition uuid_of (s : str) : N :=
  fold_left (fun a c => match hexval c with Some d => 16 * a + d | None => a end) s 0.
Definition conv_uuid : converter :=
  Conv uuid_re 100 (fun s => Ok (Some (VUuid (uuid_of s)))) (fun v => Ok (Some (value_str v))).

(** ** A bound route (routing.py:411-571)
    [r_domain] and [r_path] are the parsed templates with their converters, the path
    without the trailing slashes of a branch; [r_strict] is strict_slashes after binding.
    Variable names are distinct, else compiling raises re.error (for build-only routes
    the code has no such check). *)
Inductive piece := PStatic (s : str) | PVar (name : str) (c : converter).
Record route := Route {
  r_domain : list piece;
  r_path : list piece;
  r_leaf : bool;
  r_strict : bool;
  r_defaults : dict value;
  r_build_only : bool;
  r_alias : bool;
  r_endpoint : str }.

(** The list _trace (routing.py:592-626): domain, a bar, path, the slash of a branch *)
Definition trace (r : route) : list piece :=
  r_domain r ++ PStatic [124] :: r_path r ++ (if r_leaf r then [] else [PStatic [47]]).
Definition piece_vars (l : list piece) : list (str * converter) :=
  flat_map (fun p => match p with PVar n c => [(n, c)] | PStatic _ => [] end) l.
Definition route_vars (r : route) : list (str * converter) := piece_vars (r_domain r ++ r_path r).
Definition var_names (r : route) : list str := map fst (route_vars r).

(** The names the route can be given (self.arguments, routing.py:527-530, 619), as a
    list without repetition *)
Definition arguments (r : route) : list str :=
  nodup (list_eq_dec N.eq_dec) (map fst (r_defaults r) ++ var_names r).

(** The regular expression (routing.py:597-636).  Variable number [i] is group [i + 1],
    the suffix group is 0.  The anchor at the start is the use of match_at. *)
Fixpoint pieces_re (i : nat) (l : list piece) (k : re) : re :=
  match l with
  | [] => k
  | PStatic s :: l' => RSeq (RStr s) (pieces_re i l' k)
  | PVar _ c :: l' => RSeq (RGroup i (c_regex c)) (pieces_re (S i) l' k)
  end.
Definition suffix_re (r : route) : re :=
  if negb (r_leaf r) || negb (r_strict r)
  then RSeq (RNotBehind 47) (RSeq (RGroup 0 (ROpt (RChr 47))) REnd)
  else REnd.
Definition route_regex (r : route) : re :=
  pieces_re 1 (r_domain r ++ PStatic [124] :: r_path r) (suffix_re r).

(** Converting the groups in order (routing.py:667-673); [None]: a ValidationError *)
Fixpoint convert_groups (caps : list (nat * str)) (i : nat) (vars : list (str * converter))
    : res (option (dict value)) :=
  match vars with
  | [] => Ok (Some [])
  | (name, c) :: vars' =>
      do v <- c_to_python c (match cap caps i with Some x => x | None => [] end);
      match v with
      | None => Ok None
      | Some v =>
          do rest <- convert_groups caps (S i) vars';
          Ok (option_map (cons (name, v)) rest)
      end
  end.
Definition update_all {V} (d e : dict V) : dict V := fold_left (fun d kv => dset d (fst kv) (snd kv)) e d.

(** Route.match (routing.py:638-680) *)
Inductive match_result := MNone | MSlash | MAlias (values : dict value) | MValues (values : dict value).
Definition route_match (redirect_defaults : bool) (r : route) (path : str) : res match_result :=
  if r_build_only r then Ok MNone
  else match re_match (route_regex r) path with
  | None => Ok MNone
  | Some m =>
      if r_strict r && negb (r_leaf r) && match cap (s_caps m) 0 with Some (_ :: _) => false | _ => true end
      then Ok MSlash
      else
        do g <- convert_groups (s_caps m) 1 (route_vars r);
        match g with
        | None => Ok MNone
        | Some d =>
            let result := update_all d (r_defaults r) in
            if r_alias r && redirect_defaults then Ok (MAlias result) else Ok (MValues result)
        end
  end.

(** Route.build (routing.py:682-714) *)
Fixpoint build_pieces (l : list piece) (values : dict value) : res (option str) :=
  match l with
  | [] => Ok (Some [])
  | PStatic s :: l' =>
      do u <- urlquote (lit "/:|+") s;
      do rest <- build_pieces l' values;
      Ok (option_map (app u) rest)
  | PVar name c :: l' =>
      match dget values name with
      | None => Raise KeyError
      | Some v =>
          do u <- c_to_url c v;
          match u with
          | None => Ok None
          | Some u => do rest <- build_pieces l' values; Ok (option_map (app u) rest)
          end
      end
  end.

(** [sorted(items)]: insertion sort by key; the keys are distinct *)
Fixpoint str_ltb (a b : str) : bool :=
  match a, b with
  | [], [] => false
  | [], _ :: _ => true
  | _ :: _, [] => false
  | x :: a', y :: b' => (x <? y) || ((x =? y) && str_ltb a' b')
  end.
Fixpoint insert_item {V} (kv : str * V) (l : list (str * V)) : list (str * V) :=
  match l with
  | [] => [kv]
  | kv' :: l' => if str_ltb (fst kv) (fst kv') then kv :: l else kv' :: insert_item kv l'
  end.
Definition sort_items {V} (l : list (str * V)) : list (str * V) := fold_left (fun acc kv => insert_item kv acc) l [].

(** urllib.parse.urlencode of pairs *)
Fixpoint urlencode_pairs (l : list (str * value)) : res (list str) :=
  match l with
  | [] => Ok []
  | (k, v) :: l' =>
      do k' <- urlquote_plus [] k;
      do v' <- urlquote_plus [] (value_str v);
      do rest <- urlencode_pairs l';
      Ok ((k' ++ 61 :: v') :: rest)
  end.
Definition urlencode (l : list (str * value)) : res str := do ps <- urlencode_pairs l; Ok (join [38] ps).

(** Values are not lists, so that MultiDict(values) has one value for each key. *)
Definition query_vars (r : route) (values : dict value) : dict value :=
  filter (fun kv => negb (existsb (eqs (fst kv)) (arguments r ++ var_names r))) values.
(** [None]: a ValidationError *)
Definition route_build (r : route) (values : dict value) (append_unknown : bool) : res (option (str * str)) :=
  do t <- build_pieces (trace r) values;
  match t with
  | None => Ok None
  | Some t =>
      match split1 124 t with
      | None => Raise ValueError                (* never: the trace has a bar *)
      | Some (domain_part, url) =>
          match append_unknown, sort_items (query_vars r values) with
          | true, q :: qs => do e <- urlencode (q :: qs); Ok (Some (domain_part, url ++ 63 :: e))
          | _, _ => Ok (Some (domain_part, url))
          end
      end
  end.

(** Route.suitable_for (routing.py:727-747) *)
Definition suitable_for (r : route) (values : dict value) : bool :=
  forallb (fun key => dhas (r_defaults r) key || dhas values key) (arguments r)
  && forallb (fun kv => match dget values (fst kv) with Some v => value_eqb (snd kv) v | None => true end)
             (r_defaults r).

(** Route.__eq__ (routing.py:775-779): equal traces, that is, equal texts *)
Definition trace_text (p : piece) : bool * str :=
  match p with PStatic s => (false, s) | PVar n _ => (true, n) end.
Definition text_eqb (x y : bool * str) : bool := Bool.eqb (fst x) (fst y) && eqs (snd x) (snd y).
Fixpoint list_eqb {A} (eqb : A -> A -> bool) (a b : list A) : bool :=
  match a, b with
  | [], [] => true
  | x :: a', y :: b' => eqb x y && list_eqb eqb a' b'
  | _, _ => false
  end.
Definition route_eqb (a b : route) : bool :=
  list_eqb text_eqb (map trace_text (trace a)) (map trace_text (trace b)).

(** Route.provides_defaults_for (routing.py:716-725) *)
Definition same_set (a b : list str) : bool :=
  forallb (fun x => existsb (eqs x) b) a && forallb (fun x => existsb (eqs x) a) b.
Definition provides_defaults_for (a b : route) : bool :=
  negb (r_build_only a) && match r_defaults a with [] => false | _ => true end
  && eqs (r_endpoint a) (r_endpoint b) && negb (route_eqb a b)
  && same_set (arguments a) (arguments b).

(** ** Sort keys (routing.py:749-773, 602-604, 618) *)
Definition piece_weights (p : piece) : list (Z * Z) :=
  match p with
  | PStatic s => map (fun x => (0, - Z.of_nat (length x))%Z)
                     (filter (fun x => negb (is_nil x)) (split_on 47 s))
  | PVar _ c => [(1%Z, c_weight c)]
  end.
Definition weights (r : route) : list (Z * Z) := flat_map piece_weights (r_domain r ++ r_path r).
Definition match_key (r : route) : bool * Z * list (Z * Z) :=
  (negb (Nat.eqb (length (arguments r)) 0), (- Z.of_nat (length (weights r)))%Z, weights r).
Definition build_key (r : route) : Z * Z * Z :=
  (if r_alias r then 1 else 0, - Z.of_nat (length (arguments r)), - Z.of_nat (length (r_defaults r)))%Z.
