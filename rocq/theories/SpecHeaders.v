(** Reference behaviour of a case-insensitive ordered header multimap and of a
    case-insensitive ordered set of names. *)
From Coq Require Import List NArith ZArith Bool.
From Verif Require Import PyStr ModelHeaders.
Import ListNotations.
Open Scope N_scope.

(** Two spellings of one name. *)
Definition same_name (a b : str) : Prop := lower a = lower b.

(** No entry of [l] has the name. *)
Definition absent (k : str) (l : list (str * str)) : Prop :=
  Forall (fun kv => ~ same_name (fst kv) k) l.

(** [b] is [a] with exactly the entries of the name taken out. *)
Inductive without (k : str) : list (str * str) -> list (str * str) -> Prop :=
| wo_nil : without k [] []
| wo_drop kv a b : same_name (fst kv) k -> without k a b -> without k (kv :: a) b
| wo_keep kv a b : ~ same_name (fst kv) k -> without k a b -> without k (kv :: a) (kv :: b).

(** The values stored under a name, in order. *)
Inductive values_of (k : str) : list (str * str) -> list str -> Prop :=
| vo_nil : values_of k [] []
| vo_hit n v a b : same_name n k -> values_of k a b -> values_of k ((n, v) :: a) (v :: b)
| vo_miss n v a b : ~ same_name n k -> values_of k a b -> values_of k ((n, v) :: a) b.

(** The effect of setting a name: the first entry of the name is replaced where
    it stands and later ones disappear; a new name goes to the end. *)
Definition set_effect (k v : str) (a b : list (str * str)) : Prop :=
  (absent k a /\ b = a ++ [(k, v)]) \/
  (exists pre e post post', a = pre ++ e :: post /\ absent k pre /\ same_name (fst e) k /\
     without k post post' /\ b = pre ++ (k, v) :: post').

(** A header value that can be put on one line. *)
Definition one_line (v : str) : Prop := ~ In 10 v /\ ~ In 13 v.

(** Position [i], counted from the end when negative. *)
Definition at_index {A} (i : Z) (l pre : list A) (x : A) (post : list A) : Prop :=
  l = pre ++ x :: post /\
  (i = Z.of_nat (length pre) \/ i = - Z.of_nat (S (length post)))%Z.
Definition out_of_range {A} (i : Z) (l : list A) : Prop :=
  (i >= Z.of_nat (length l) \/ i < - Z.of_nat (length l))%Z.

(** RFC 2616 sections 7.1 and 13.5.1. *)
Definition entity_names : list str :=
  [lit "Allow"; lit "Content-Encoding"; lit "Content-Language"; lit "Content-Length";
   lit "Content-Location"; lit "Content-MD5"; lit "Content-Range"; lit "Content-Type";
   lit "Expires"; lit "Last-Modified"].
Definition hop_names : list str :=
  [lit "Connection"; lit "Keep-Alive"; lit "Proxy-Authenticate"; lit "Proxy-Authorization";
   lit "TE"; lit "Trailer"; lit "Transfer-Encoding"; lit "Upgrade"].

(** [b] is [a] without the entries of class [P]. *)
Inductive sifted {A} (P : A -> Prop) : list A -> list A -> Prop :=
| si_nil : sifted P [] []
| si_drop x a b : P x -> sifted P a b -> sifted P (x :: a) b
| si_keep x a b : ~ P x -> sifted P a b -> sifted P (x :: a) (x :: b).

(** The text a value argument stands for. *)
Definition text (v : hval) : str :=
  match v with HStr s => s | HBytes b => b | HInt z => zdec z end.

(** A run of additions that stops at the first refused value. *)
Inductive extend_effect : list (str * str) -> list (str * hval) -> list (str * str) -> option exn -> Prop :=
| ee_nil l : extend_effect l [] l None
| ee_ok l k v items l' e : one_line (text v) -> extend_effect (l ++ [(k, text v)]) items l' e ->
    extend_effect l ((k, v) :: items) l' e
| ee_bad l k v items : ~ one_line (text v) -> extend_effect l ((k, v) :: items) l (Some ValueError).

(** The reference effect of each call: [header_call before call after exception].
    With keyword arguments the stored text is the option header built from them
    (see C13), which is what [stored_value] computes. *)
Inductive header_call : list (str * str) -> hop -> list (str * str) -> option exn -> Prop :=
| hc_add l k v kw t : t = stored_value v kw -> (kw = [] -> t = text v) -> one_line t ->
    header_call l (HAdd k v kw) (l ++ [(k, t)]) None
| hc_add_bad l k v kw : ~ one_line (stored_value v kw) ->
    header_call l (HAdd k v kw) l (Some ValueError)
| hc_set l k v kw t l' : t = stored_value v kw -> (kw = [] -> t = text v) -> one_line t ->
    set_effect k t l l' -> header_call l (HSet k v kw) l' None
| hc_set_bad l k v kw : ~ one_line (stored_value v kw) ->
    header_call l (HSet k v kw) l (Some ValueError)
| hc_setitem l k v l' : one_line (text v) -> set_effect k (text v) l l' ->
    header_call l (HSetItem k v) l' None
| hc_setitem_bad l k v : ~ one_line (text v) -> header_call l (HSetItem k v) l (Some ValueError)
| hc_setdefault_present l k v : ~ absent k l -> header_call l (HSetDefault k v) l None
| hc_setdefault l k v : absent k l -> one_line (text v) ->
    header_call l (HSetDefault k v) (l ++ [(k, text v)]) None
| hc_setdefault_bad l k v : absent k l -> ~ one_line (text v) ->
    header_call l (HSetDefault k v) l (Some ValueError)
| hc_extend l items l' e : extend_effect l items l' e -> header_call l (HExtend items) l' e
| hc_remove l k l' : without k l l' -> header_call l (HRemove k) l' None
| hc_pop l k d l' : ~ absent k l -> without k l l' -> header_call l (HPop k d) l' None
| hc_pop_missing l k : absent k l -> header_call l (HPop k false) l (Some KeyError)
| hc_pop_default l k : absent k l -> header_call l (HPop k true) l None
| hc_popindex l i pre x post : at_index i l pre x post -> header_call l (HPopIndex i) (pre ++ post) None
| hc_popindex_bad l i : out_of_range i l -> header_call l (HPopIndex i) l (Some IndexError)
| hc_poplast l x : header_call (l ++ [x]) HPopLast l None
| hc_poplast_bad : header_call [] HPopLast [] (Some IndexError)
| hc_delindex l i pre x post : at_index i l pre x post -> header_call l (HDelIndex i) (pre ++ post) None
| hc_delindex_bad l i : out_of_range i l -> header_call l (HDelIndex i) l (Some IndexError)
| hc_setindex l i k v pre x post : one_line (text v) -> at_index i l pre x post ->
    header_call l (HSetIndex i (k, v)) (pre ++ (k, text v) :: post) None
| hc_setindex_range l i k v : one_line (text v) -> out_of_range i l ->
    header_call l (HSetIndex i (k, v)) l (Some IndexError)
| hc_setindex_bad l i k v : ~ one_line (text v) -> header_call l (HSetIndex i (k, v)) l (Some ValueError)
| hc_setall l items : Forall (fun kv => one_line (text (snd kv))) items ->
    header_call l (HSetAll items) (map (fun kv => (fst kv, text (snd kv))) items) None
| hc_setall_bad l items : ~ Forall (fun kv => one_line (text (snd kv))) items ->
    header_call l (HSetAll items) l (Some ValueError)
| hc_clear l : header_call l HClear [] None.

(** A history of calls. *)
Inductive header_history : list (str * str) -> list hop -> list (str * str) -> Prop :=
| hh_nil l : header_history l [] l
| hh_cons l o l' e ops l'' : header_call l o l' e -> header_history l' ops l'' ->
    header_history l (o :: ops) l''.

(** A set of names: no name twice, in any spelling. *)
Definition distinct_names (l : list str) : Prop := NoDup (map lower l).

(** The calls that keep the two structures of a [HeaderSet] in step: [remove] and
    [discard] with the name in lower case, and item assignment of a name not held
    at another place. *)
Definition tame (s : hset) (o : hsop) : Prop :=
  match o with
  | SRemove h | SDiscard h => h = lower h
  | SSetItem i v => forall pre x post, at_index i (hs_iter s) pre x post ->
      Forall (fun y => ~ same_name y v) (pre ++ post)
  | _ => True
  end.

Inductive tame_run : hset -> list hsop -> Prop :=
| tr_nil s : tame_run s []
| tr_cons s o ops : tame s o -> tame_run (fst (hs_step s o)) ops -> tame_run s (o :: ops).
