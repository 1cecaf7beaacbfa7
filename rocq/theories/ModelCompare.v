(** The attributes and the comparison operators of acceptabilities (verktyg/accept). *)
From Coq Require Import List NArith ZArith Bool.
From Verif Require Import PyStr ModelAccept.
Import ListNotations.
Open Scope N_scope.

(** content_type.py:88-98 [type_matches], [subtype_matches], [exact_match] *)
Definition type_matches (a : acc) : bool := negb (fst (a_match a) =? 0)%Z.
Definition subtype_matches (a : acc) : bool := negb (snd (a_match a) =? 0)%Z.
Definition content_type_exact (a : acc) : bool := type_matches a && subtype_matches a.
(** language.py:38-48 [specificity], [tail], [exact_match] *)
Definition specificity (a : acc) : Z := snd (a_match a).
Definition tail (a : acc) : Z := (- fst (a_match a))%Z.
Definition language_exact (a : acc) : bool := (tail a =? 0)%Z.
(** charset.py:32-34 [exact_match]; see [acc] for the constant *)
Definition charset_exact (a : acc) : bool := negb (fst (a_match a) =? 0)%Z.

Section Compare.
  Variable fmul : fl -> fl -> fl.
  (** The operators that functools.total_ordering makes from [__gt__] and [__eq__]
      (_base.py:135, 154-176): [a >= b] is [a > b or a == b], [a < b] is
      [not a > b and a != b], [a <= b] is [not a > b]. *)
  Definition acc_ge (a b : acc) : bool := acc_gt fmul a b || acc_eq fmul a b.
  Definition acc_lt (a b : acc) : bool := negb (acc_gt fmul a b) && negb (acc_eq fmul a b).
  Definition acc_le (a b : acc) : bool := negb (acc_gt fmul a b).
  (** Not modelled: the comparisons with None (_base.py:155-156, 167-168), which is
      equal to no acceptability and less than each. *)
End Compare.
