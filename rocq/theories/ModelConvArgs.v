(** * Arguments of converters in route templates

    verktyg/routing.py: the text between the parentheses of <name(args):variable> and
    the converters made from it. *)
From Coq Require Import Arith List NArith ZArith Bool.
From Verif Require Import PyStr Regex ModelRoute.
Import ListNotations.
Open Scope N_scope.

(** Values an argument may have; a float is known by its text. *)
Inductive cval := CNone | CBool (b : bool) | CInt (z : Z) | CFloat (text : str) | CStr (s : str).

(** A call that the model does not follow: numbers as strings or floats given to int. *)
Definition NotModelled : exn := OtherError 98.

Section args.
  (* [uni_word c]: whether [\w] matches the character [c] beyond ASCII;
     [is_float s]: whether float(s) is a number *)
  Variables (uni_word : N -> bool) (is_float : str -> bool).

  (* [\w] *)
  Definition wordc (c : N) : bool :=
    if c <? 128 then is_ascii_alnum c || (c =? 95) else is_decimal c || uni_word c.
  (* verktyg/routing.py:121-131 [_converter_args_re]: groups 2 name, 3 value, 4 stringval *)
  Definition digits_re : re := RPlus true (RSet is_decimal).
  Definition stringval_re : re :=
    RGroup 4 (RAlt (RSeq (RChr 34) (RSeq (RStar false (RSet (fun c => negb (c =? 34)))) (RChr 34)))
                   (RSeq (RChr 39) (RSeq (RStar true (RSet (fun c => negb (c =? 39)))) (RChr 39)))).
  Definition value_re : re :=
    RGroup 3
      (RAlt (RStr (lit "True"))
      (RAlt (RStr (lit "False"))
      (RAlt (RSeq digits_re (RSeq RDot digits_re))
      (RAlt (RSeq digits_re RDot)
      (RAlt digits_re
      (RAlt (RPlus true (RSet wordc))
            (RSeq (ROpt (RSet (fun c => mem c (lit "urUR")))) stringval_re))))))).
  Definition name_re : re :=
    ROpt (RSeq (RGroup 2 (RPlus true (RSet wordc)))
         (RSeq (RStar true (RSet is_space)) (RSeq (RChr 61) (RStar true (RSet is_space))))).
  Definition args_re : re :=
    RSeq name_re (RSeq value_re (RSeq (RStar true (RSet is_space)) (RChr 44))).

  (* verktyg/routing.py:134-151 [_PYTHON_CONSTANTS, _pythonize]; int() of digits beyond
     ASCII is not modelled here *)
  Definition quote_char (c : N) : bool := (c =? 34) || (c =? 39).
  Definition pythonize (v : str) : cval :=
    if eqs v (lit "None") then CNone
    else if eqs v (lit "True") then CBool true
    else if eqs v (lit "False") then CBool false
    else match py_int v with
         | Some z => CInt z
         | None =>
             if is_float v then CFloat v
             else match v with
                  | [] => CStr v
                  | c :: r => if (c =? last v c) && quote_char c then CStr (removelast r) else CStr v
                  end
         end.

  (* the loop of [parse_converter_args]; a match is never empty, so that [fuel] does not
     run out when it starts as the length of the text *)
  Fixpoint args_loop (fuel : nat) (s : str) (args : list cval) (kwargs : dict cval) : list cval * dict cval :=
    match fuel with
    | O => (args, kwargs)
    | S f =>
        match search_at args_re None s with
        | None => (args, kwargs)
        | Some (_, m) =>
            let text := match cap (s_caps m) 4 with Some t => t | None => group_or_nil m 3 end in
            let v := pythonize text in
            match cap (s_caps m) 2 with
            | Some (c :: n) => args_loop f (s_rest m) args (dset kwargs (c :: n) v)
            | _ => args_loop f (s_rest m) (args ++ [v]) kwargs
            end
        end
    end.
  (* verktyg/routing.py:154-170 [parse_converter_args] *)
  Definition parse_converter_args (argstr : str) : list cval * dict cval :=
    let s := argstr ++ [44] in args_loop (length s) s [] [].

  (** ** Making converters *)

  (* Calling a function that has the parameters [names]: what each is given, if anything.
     More arguments than parameters, an unknown name and one given twice are TypeError. *)
  Fixpoint bind_args (names : list str) (args : list cval) (kwargs : dict cval) : res (list (option cval)) :=
    match names, args with
    | [], [] => match kwargs with [] => Ok [] | _ => Raise TypeError end
    | [], _ :: _ => Raise TypeError
    | n :: names', a :: args' =>
        if dhas kwargs n then Raise TypeError
        else do l <- bind_args names' args' kwargs; Ok (Some a :: l)
    | n :: names', [] => do l <- bind_args names' [] (ddel kwargs n); Ok (dget kwargs n :: l)
    end.
  (* int() of such a value; of a float it is not modelled *)
  Definition int_of_cval (v : cval) : res Z :=
    match v with
    | CNone => Raise TypeError
    | CBool b => Ok (if b then 1 else 0)%Z
    | CInt z => Ok z
    | CFloat _ => Raise NotModelled
    | CStr s => match py_int s with Some z => Ok z | None => Raise ValueError end
    end.
  (* a repetition that is no repetition, as in [^/]{-1,}, is the text itself *)
  Definition odd_length (text : str) : converter :=
    Conv (RSeq (RSet not_slash) (RStr text)) 100 base_to_python base_to_url.
  (* verktyg/routing.py:820-854 [UnicodeConverter.__init__].  An expression that re.compile
     would not take is an error at once, and not when the route is compiled. *)
  Definition mk_string (args : list cval) (kwargs : dict cval) : res converter :=
    do l <- bind_args [lit "minlength"; lit "maxlength"; lit "length"] args kwargs;
    match l with
    | [mn; mx; len] =>
        match len with
        | Some CNone | None =>
            do mx' <- match mx with
                      | Some CNone | None => Ok None
                      | Some v => do z <- int_of_cval v; Ok (Some z)
                      end;
            do mn' <- match mn with None => Ok 1%Z | Some v => int_of_cval v end;
            if (mn' <? 0)%Z || match mx' with Some m => (m <? 0)%Z | None => false end
            then Ok (odd_length (lit "{" ++ zdec mn' ++ lit "," ++ (match mx' with Some m => zdec m | None => [] end) ++ lit "}"))
            else if match mx' with Some m => (m <? mn')%Z | None => false end then Raise ReError
            else Ok (conv_string (Z.to_nat mn') (option_map Z.to_nat mx'))
        | Some v =>
            do z <- int_of_cval v;
            if (z <? 0)%Z then Ok (odd_length (lit "{" ++ zdec z ++ lit "}"))
            else Ok (conv_string (Z.to_nat z) (Some (Z.to_nat z)))
        end
    | _ => Raise TypeError
    end.
  (* verktyg/routing.py:868-871 [AnyConverter.__init__]: re.escape takes strings only *)
  Fixpoint strings (l : list cval) : res (list str) :=
    match l with
    | [] => Ok []
    | CStr s :: l' => do r <- strings l'; Ok (s :: r)
    | _ :: _ => Raise TypeError
    end.
  Definition mk_any (args : list cval) (kwargs : dict cval) : res converter :=
    match kwargs with
    | [] => do l <- strings args; Ok (conv_any l)
    | _ => Raise TypeError
    end.
  (* verktyg/routing.py:895-899 [NumberConverter.__init__] of IntegerConverter: the values
     are stored as they come; only integers and None are modelled *)
  Definition number (v : option cval) : res (option Z) :=
    match v with
    | None | Some CNone => Ok None
    | Some (CInt z) => Ok (Some z)
    | Some (CBool b) => Ok (Some (if b then 1 else 0)%Z)
    | Some _ => Raise NotModelled
    end.
  Definition mk_int (args : list cval) (kwargs : dict cval) : res converter :=
    do l <- bind_args [lit "fixed_digits"; lit "min"; lit "max"] args kwargs;
    match l with
    | [fixed; mn; mx] =>
        do f <- number fixed; do a <- number mn; do b <- number mx;
        match f with
        | Some z => if (z <? 0)%Z then Raise NotModelled else Ok (conv_int (Z.to_nat z) a b)
        | None => Ok (conv_int 0 a b)
        end
    | _ => Raise TypeError
    end.
  (* BaseConverter.__init__ takes no arguments but the router *)
  Definition mk_plain (c : converter) (args : list cval) (kwargs : dict cval) : res converter :=
    do _ <- bind_args [] args kwargs; Ok c.

  (* FloatConverter, see ModelRoute *)
  Variable mk_float : list cval -> dict cval -> res converter.
  (* verktyg/routing.py:987-996 [DEFAULT_CONVERTERS], 571-581 [Route.get_converter] and the
     call of it with the parsed arguments in [Route.compile] (routing.py:606-612) *)
  Definition default_converter (name : str) (args : option str) : res converter :=
    let '(a, kw) := match args with Some s => parse_converter_args s | None => ([], []) end in
    if eqs name (lit "default") || eqs name (lit "string") then mk_string a kw
    else if eqs name (lit "any") then mk_any a kw
    else if eqs name (lit "path") then mk_plain conv_path a kw
    else if eqs name (lit "int") then mk_int a kw
    else if eqs name (lit "float") then mk_float a kw
    else if eqs name (lit "uuid") then mk_plain conv_uuid a kw
    else Raise LookupError.
End args.
