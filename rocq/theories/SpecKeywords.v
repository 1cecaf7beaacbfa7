(** Words for the keyword arguments of [Headers.add] and [Headers.set]. *)
From Coq Require Import List NArith ZArith.
From Verif Require Import PyStr ModelQuote.
Import ListNotations.
Open Scope N_scope.

(** An underscore in the name of a keyword stands for a dash; a keyword that is None stands
    alone, another one has its value behind it, written as in C12. *)
Definition dashed (k : str) : str := map (fun c => if N.eq_dec c 95 then 45 else c) k.
Definition keyword_piece (kv : str * option str) : str :=
  match snd kv with
  | None => dashed (fst kv)
  | Some x => dashed (fst kv) ++ lit "=" ++ quote_header_value true x
  end.
(** The value, and then one piece for each keyword, in order. *)
Definition with_keywords (v : str) (kw : list (str * option str)) : str :=
  v ++ concat (map (fun kv => lit "; " ++ keyword_piece kv) kw).
