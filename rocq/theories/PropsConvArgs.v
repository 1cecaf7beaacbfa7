(** * C98, C99: arguments of converters *)
From Coq Require Import List NArith ZArith Bool Lia.
From Verif Require Import PyStr Regex ModelRoute ModelUrlMap ModelConvArgs SpecRoute SpecConvArgs ProofConvArgs.
Import ListNotations.
Open Scope N_scope.

(** ** C98: what was written is what is read *)
(** [word] tells which characters beyond ASCII belong to words; no white space does. *)
Theorem C98_read_back : forall word is_float,
  (forall c, 128 <= c -> word c = true -> is_space c = false) ->
  forall l, l <> [] -> Forall (good_arg word is_float) l ->
  fst (parse_converter_args word is_float (write_args l)) = positional l /\
  forall n, dget (snd (parse_converter_args word is_float (write_args l))) n = named l n.
Proof. exact read_args. Qed.
Print Assumptions C98_read_back.

Definition no_word (c : N) : bool := false.
(** What float() takes, among the texts of the examples *)
Definition some_floats (s : str) : bool := existsb (eqs s) [lit "1.5"; lit "nan"; lit "inf"].
Definition ex_args : list arg :=
  [Arg None (lit "about") (CStr (lit "about")); Arg None (lit """a, b=1""") (CStr (lit "a, b=1"));
   Arg (Some (lit "min")) (lit "12") (CInt 12); Arg (Some (lit "x")) (lit "1.5") (CFloat (lit "1.5"));
   Arg None (lit "True") (CBool true); Arg (Some (lit "min")) (lit "None") CNone].
Example C98_example : Forall (good_arg no_word some_floats) ex_args /\
  write_args ex_args = lit "about, ""a, b=1"", min=12, x=1.5, True, min=None" /\
  parse_converter_args no_word some_floats (write_args ex_args) =
  ([CStr (lit "about"); CStr (lit "a, b=1"); CBool true], [(lit "min", CNone); (lit "x", CFloat (lit "1.5"))]).
Proof.
  split; [|split; vm_compute; reflexivity].
  assert (W : forall w, forallb (fun c => between 97 122 c) w = true -> w <> [] -> word_text no_word w).
  { intros w H N. split; auto. rewrite Forall_forall. rewrite forallb_forall in H. intros c Hc. specialize (H c Hc).
    unfold between in H. apply andb_prop in H as (H1 & H2). apply N.leb_le in H1, H2. unfold word_char. right. right. left. lia. }
  assert (A : forall w, forallb (fun c => between 97 122 c) w = true -> w <> [] -> is_decimal (hd 0 w) = false -> arg_name no_word w).
  { intros w H N D. split; auto. destruct w; [congruence|auto]. }
  unfold ex_args. repeat (apply Forall_cons; [split; cbn [a_text a_value a_name]|]); try exact I; try apply Forall_nil;
    try (apply A; [reflexivity|discriminate|reflexivity]).
  - apply DWord; try (vm_compute; reflexivity); try discriminate; [apply W; [reflexivity|discriminate]|].
    repeat (apply Forall_cons; [intros H; exfalso; apply H; reflexivity|]). apply Forall_nil.
  - apply (DQuoted _ _ 34 (lit "a, b=1")); [auto| |reflexivity]. cbn. intuition discriminate.
  - apply (DInt _ _ 12).
  - apply (DReal _ _ 1 5). reflexivity.
  - apply DTrue.
  - apply DNone.
Qed.
(** Without the space two numbers are one string; a minus sign is passed over and the
    number loses its name; words that float() takes are no strings; what cannot be read is skipped. *)
Theorem C98_refuted :
  parse_converter_args no_word some_floats (lit "1,2") = ([CStr (lit "1,2")], []) /\
  parse_converter_args no_word some_floats (lit "min=-1") = ([CInt 1], []) /\
  parse_converter_args no_word some_floats (lit "nan") = ([CFloat (lit "nan")], []) /\
  parse_converter_args no_word some_floats (lit "it's, ok") = ([CStr (lit "s"); CStr (lit "ok")], []).
Proof. vm_compute. auto. Qed.

(** ** C99: converters with arguments *)
Theorem C99_int : forall word is_float mk_float,
  (forall c, 128 <= c -> word c = true -> is_space c = false) ->
  forall l, l <> [] -> Forall (good_arg word is_float) l ->
  named_numbers [lit "fixed_digits"; lit "min"; lit "max"] l ->
  exists c, default_converter word is_float mk_float (lit "int") (Some (write_args l)) = Ok c /\
  forall t v, accepts c t v <-> exists z, v = VInt z /\ numeral t z /\
    within (number_of l (lit "min")) (number_of l (lit "max")) z /\
    (forall k, number_of l (lit "fixed_digits") = Some k -> k <> 0%Z -> Z.of_nat (length t) = k).
Proof. exact int_made. Qed.
Print Assumptions C99_int.
(** The same with truth values and None among the bounds. *)
Theorem C99_int_words : forall word is_float mk_float,
  (forall c, 128 <= c -> word c = true -> is_space c = false) ->
  forall l, l <> [] -> Forall (good_arg word is_float) l ->
  named_bounds [lit "fixed_digits"; lit "min"; lit "max"] l ->
  exists c, default_converter word is_float mk_float (lit "int") (Some (write_args l)) = Ok c /\
  forall t v, accepts c t v <-> exists z, v = VInt z /\ numeral t z /\
    within (bound_of l (lit "min")) (bound_of l (lit "max")) z /\
    (forall k, bound_of l (lit "fixed_digits") = Some k -> k <> 0%Z -> Z.of_nat (length t) = k).
Proof. exact int_made_bounds. Qed.
Print Assumptions C99_int_words.
Example C99_int_words_example :
  named_bounds [lit "fixed_digits"; lit "min"; lit "max"]
    [Arg (Some (lit "min")) (lit "True") (CBool true); Arg (Some (lit "max")) (lit "None") CNone] /\
  exists c, default_converter (fun _ => false) (fun _ => false) (fun _ _ => Raise NotModelled) (lit "int")
    (Some (lit "min=True, max=None")) = Ok c /\
  c_to_python c (lit "0") = Ok None /\ c_to_python c (lit "1") = Ok (Some (VInt 1)).
Proof.
  split.
  - apply Forall_cons; [|apply Forall_cons; [|apply Forall_nil]]; cbn.
    + split; [exists (lit "min"); cbn; auto|]. right. left. exists true. reflexivity.
    + split; [exists (lit "max"); cbn; auto|]. auto.
  - eexists. split.
    + unfold default_converter.
      replace (parse_converter_args _ _ _) with (([], [(lit "min", CBool true); (lit "max", CNone)]) : list cval * dict cval) by (vm_compute; reflexivity).
      reflexivity.
    + vm_compute. auto.
Qed.
Theorem C99_string : forall word is_float mk_float,
  (forall c, 128 <= c -> word c = true -> is_space c = false) ->
  forall l, l <> [] -> Forall (good_arg word is_float) l ->
  named_numbers [lit "minlength"; lit "maxlength"; lit "length"] l ->
  let least := match number_of l (lit "length"), number_of l (lit "minlength") with
               | Some n, _ => n | None, Some n => n | None, None => 1%Z end in
  let most := match number_of l (lit "length") with Some n => Some n | None => number_of l (lit "maxlength") end in
  let made := default_converter word is_float mk_float (lit "string") (Some (write_args l)) in
  match most with
  | Some m => if (m <? least)%Z then made = Raise ReError
              else exists c, made = Ok c /\ forall t v, accepts c t v <->
                v = VStr t /\ ~ In 47 t /\ (least <= Z.of_nat (length t) <= m)%Z
  | None => exists c, made = Ok c /\ forall t v, accepts c t v <->
              v = VStr t /\ ~ In 47 t /\ (least <= Z.of_nat (length t))%Z
  end.
Proof. exact string_made. Qed.
Print Assumptions C99_string.
Theorem C99_any : forall word is_float mk_float,
  (forall c, 128 <= c -> word c = true -> is_space c = false) ->
  forall l items, l <> [] -> Forall (good_arg word is_float) l -> plain_strings l items ->
  exists c, default_converter word is_float mk_float (lit "any") (Some (write_args l)) = Ok c /\
  forall t v, accepts c t v <-> v = VStr t /\ In t items.
Proof. exact any_made. Qed.
Print Assumptions C99_any.
(** A value without a name stands for the parameter in its place. *)
Theorem C99_by_place : forall word is_float mk_float,
  (forall c, 128 <= c -> word c = true -> is_space c = false) ->
  forall name names l,
  (name = lit "int" /\ names = [lit "fixed_digits"; lit "min"; lit "max"]) \/
  ((name = lit "string" \/ name = lit "default") /\ names = [lit "minlength"; lit "maxlength"; lit "length"]) ->
  l <> [] -> Forall (good_arg word is_float) l -> fits names l ->
  default_converter word is_float mk_float name (Some (write_args l)) =
  default_converter word is_float mk_float name (Some (write_args (name_them names l))).
Proof. exact by_place. Qed.
Print Assumptions C99_by_place.
(** Arguments that do not fit the parameters are refused. *)
Theorem C99_refused : forall word is_float mk_float,
  (forall c, 128 <= c -> word c = true -> is_space c = false) ->
  forall name names l,
  In (name, names)
    [(lit "default", [lit "minlength"; lit "maxlength"; lit "length"]); (lit "string", [lit "minlength"; lit "maxlength"; lit "length"]);
     (lit "int", [lit "fixed_digits"; lit "min"; lit "max"]); (lit "path", []); (lit "uuid", [])] ->
  l <> [] -> Forall (good_arg word is_float) l -> ~ fits names l ->
  default_converter word is_float mk_float name (Some (write_args l)) = Raise TypeError.
Proof. exact refused. Qed.
Print Assumptions C99_refused.
Theorem C99_any_refused : forall word is_float mk_float,
  (forall c, 128 <= c -> word c = true -> is_space c = false) ->
  forall l a, l <> [] -> Forall (good_arg word is_float) l -> In a l ->
  a_name a <> None \/ (forall s, a_value a <> CStr s) ->
  default_converter word is_float mk_float (lit "any") (Some (write_args l)) = Raise TypeError.
Proof. exact any_refused. Qed.
Print Assumptions C99_any_refused.
Theorem C99_unknown : forall word is_float mk_float name args,
  ~ In name [lit "default"; lit "string"; lit "any"; lit "path"; lit "int"; lit "float"; lit "uuid"] ->
  default_converter word is_float mk_float name args = Raise LookupError.
Proof. exact unknown_converter. Qed.
Print Assumptions C99_unknown.

Definition ex_mk := default_converter no_word some_floats (fun _ _ => Raise NotModelled).
Definition ex_numbers : list arg :=
  [Arg (Some (lit "min")) (lit "3") (CInt 3); Arg (Some (lit "max")) (lit "12") (CInt 12)].
Example C99_example : named_numbers [lit "fixed_digits"; lit "min"; lit "max"] ex_numbers /\
  Forall (good_arg no_word some_floats) ex_numbers /\ write_args ex_numbers = lit "min=3, max=12" /\
  parse_route (lit "/page/<int(min=3, max=12):page>") = Ok [Static (lit "/page/"); Dynamic (lit "int") (Some (write_args ex_numbers)) (lit "page")] /\
  (exists c, ex_mk (lit "int") (Some (lit "min=3, max=12")) = Ok c /\
    c_to_python c (lit "07") = Ok (Some (VInt 7)) /\ c_to_python c (lit "2") = Ok None /\ c_to_python c (lit "13") = Ok None) /\
  ex_mk (lit "no") None = Raise LookupError /\ ex_mk (lit "int") (Some (lit "most=3")) = Raise TypeError /\
  ex_mk (lit "int") (Some (lit "1, fixed_digits=3")) = Raise TypeError.
Proof.
  split. { repeat (apply Forall_cons; [split; [eexists; split; [reflexivity|cbn; auto]|]|]); [exists 3; reflexivity|exists 12; reflexivity|apply Forall_nil]. }
  split.
  { assert (W : forall w, forallb (fun c => between 97 122 c) w = true -> w <> [] -> is_decimal (hd 0 w) = false -> arg_name no_word w).
    { intros w H N D. split.
      - split; auto. rewrite Forall_forall. rewrite forallb_forall in H. intros c Hc. specialize (H c Hc).
        unfold between in H. apply andb_prop in H as (H1 & H2). apply N.leb_le in H1, H2. unfold word_char. right. right. left. lia.
      - destruct w; [congruence|auto]. }
    repeat (apply Forall_cons; [split; cbn [a_text a_value a_name]|]); [apply (DInt _ _ 3)| |apply (DInt _ _ 12)| |apply Forall_nil];
      (apply W; [reflexivity|discriminate|reflexivity]). }
  split; [reflexivity|]. split; [vm_compute; reflexivity|]. split; [|vm_compute; auto].
  exists (conv_int 0 (Some 3%Z) (Some 12%Z)). split; [|vm_compute; auto].
  unfold ex_mk, default_converter. replace (parse_converter_args _ _ _) with (([], [(lit "min", CInt 3); (lit "max", CInt 12)]) : list cval * dict cval) by (vm_compute; reflexivity).
  reflexivity.
Qed.
(** "2, max=12" is "fixed_digits=2, max=12"; "2, fixed_digits=3" gives the digits twice. *)
Definition ex_placed : list arg := [Arg None (lit "2") (CInt 2); Arg (Some (lit "max")) (lit "12") (CInt 12)].
Definition ex_twice : list arg := [Arg None (lit "2") (CInt 2); Arg (Some (lit "fixed_digits")) (lit "3") (CInt 3)].
Example C99_fits_example :
  Forall (good_arg no_word some_floats) ex_placed /\ Forall (good_arg no_word some_floats) ex_twice /\
  fits [lit "fixed_digits"; lit "min"; lit "max"] ex_placed /\ ~ fits [lit "fixed_digits"; lit "min"; lit "max"] ex_twice /\
  write_args (name_them [lit "fixed_digits"; lit "min"; lit "max"] ex_placed) = lit "fixed_digits=2, max=12" /\
  (exists c, ex_mk (lit "int") (Some (lit "2, max=12")) = Ok c /\
    c_to_python c (lit "07") = Ok (Some (VInt 7)) /\ c_to_python c (lit "7") = Ok None /\ c_to_python c (lit "13") = Ok None) /\
  ex_mk (lit "int") (Some (write_args ex_twice)) = Raise TypeError /\ ex_mk (lit "any") (Some (lit "a, 1")) = Raise TypeError.
Proof.
  assert (G : forall n v k, n <> [] -> forallb (fun c => between 97 122 c || (c =? 95)) n = true -> v = CInt (Z.of_N k) ->
    good_arg no_word some_floats (Arg (Some n) (dec k) v)).
  { intros n v k N H ->. split; cbn [a_text a_value a_name]; [apply DInt|apply letters_name; auto]. }
  split; [apply Forall_cons; [split; [apply (DInt _ _ 2)|exact I]|apply Forall_cons; [|apply Forall_nil]]; apply (G _ _ 12); [discriminate|reflexivity|reflexivity]|].
  split; [apply Forall_cons; [split; [apply (DInt _ _ 2)|exact I]|apply Forall_cons; [|apply Forall_nil]]; apply (G _ _ 3); [discriminate|reflexivity|reflexivity]|].
  split.
  { split; [cbn; lia|]. split.
    - intros a n [<-|[<-|[]]] H; cbn [a_name] in H; [discriminate|]. inversion H. cbn. auto.
    - intros [|[|i]] n H L; cbn in L; try lia. inversion H. reflexivity. }
  split; [intros (_ & _ & H); discriminate (H 0%nat _ eq_refl (le_n 1))|].
  split; [reflexivity|]. split; [|vm_compute; auto].
  exists (conv_int 2 None (Some 12%Z)). split; [|vm_compute; auto].
  unfold ex_mk, default_converter. replace (parse_converter_args _ _ _) with (([CInt 2], [(lit "max", CInt 12)]) : list cval * dict cval) by (vm_compute; reflexivity).
  reflexivity.
Qed.
(** "any(1,2)" is one choice, "1,2"; "int(4,1)" takes a number and loses it; a negative
    bound becomes the number of digits; an item called inf is no item. *)
Theorem C99_refuted :
  (exists c, ex_mk (lit "any") (Some (lit "1,2")) = Ok c /\ accepts c (lit "1,2") (VStr (lit "1,2"))) /\
  ex_mk (lit "any") (Some (lit "1, 2")) = Raise TypeError /\
  ex_mk (lit "any") (Some (lit "inf, ok")) = Raise TypeError /\
  (exists c, ex_mk (lit "int") (Some (lit "min=-1")) = Ok c /\
     c_to_python c (lit "12") = Ok None /\ c_to_python c (lit "7") = Ok (Some (VInt 7))).
Proof.
  split. { exists (conv_any [lit "1,2"]). split.
    - unfold ex_mk, default_converter. replace (parse_converter_args _ _ _) with (([CStr (lit "1,2")], []) : list cval * dict cval) by (vm_compute; reflexivity). reflexivity.
    - split; [|reflexivity]. apply ProofRoute.lang_str. reflexivity. }
  split; [vm_compute; reflexivity|]. split; [vm_compute; reflexivity|].
  exists (conv_int 1 None None). split; [|vm_compute; auto].
  unfold ex_mk, default_converter. replace (parse_converter_args _ _ _) with (([CInt 1], []) : list cval * dict cval) by (vm_compute; reflexivity). reflexivity.
Qed.
