(** Vocabulary of the authentication claims (C27, C28). *)
From Coq Require Import List NArith ZArith Bool.
From Verif Require Import SpecQuote PyStr.
Import ListNotations.
Open Scope N_scope.

(** Base64 (RFC 4648): three bytes become four characters of the alphabet. *)
Definition b64_alphabet : str := lit "ABCDEFGHIJKLMNOPQRSTUVWXYZabcdefghijklmnopqrstuvwxyz0123456789+/".
Definition b64_char (v : N) : N := nth (N.to_nat v) b64_alphabet 0.
Fixpoint base64 (s : str) : str :=
  match s with
  | a :: b :: c :: r =>
      b64_char (a / 4) :: b64_char (a mod 4 * 16 + b / 16) :: b64_char (b mod 16 * 4 + c / 64)
      :: b64_char (c mod 64) :: base64 r
  | [a; b] => [b64_char (a / 4); b64_char (a mod 4 * 16 + b / 16); b64_char (b mod 16 * 4); 61]
  | [a] => [b64_char (a / 4); b64_char (a mod 4 * 16); 61; 61]
  | [] => []
  end.

(** The value of a character of the alphabet, and the bytes of a list of values:
    four make three bytes, what is left of a shorter group is cut to whole bytes. *)
Definition in_alphabet (c : N) : Prop := In c b64_alphabet.
Inductive sextets : str -> list N -> Prop :=
| sx_nil : sextets [] []
| sx_char v s l : v < 64 -> sextets s l -> sextets (b64_char v :: s) (v :: l)
| sx_skip c s l : ~ in_alphabet c -> sextets s l -> sextets (c :: s) l.
Fixpoint sextet_bytes (l : list N) : str :=
  match l with
  | a :: b :: c :: d :: r => (a * 4 + b / 16) :: (b mod 16 * 16 + c / 4) :: (c mod 4 * 64 + d) :: sextet_bytes r
  | [a; b; c] => [a * 4 + b / 16; b mod 16 * 16 + c / 4]
  | [a; b] => [a * 4 + b / 16]
  | _ => []
  end.

(** [t] is [s] with the case of letters changed. *)
Definition same_letters (s t : str) : Prop :=
  Forall2 (fun c d => c = d \/ (65 <= c <= 90 /\ d = c + 32) \/ (97 <= c <= 122 /\ c = d + 32)) s t.

Definition blank (c : N) : Prop := c = 32 \/ 9 <= c <= 13.

(** The fields a digest response must have: these five, and a non-empty nc and
    cnonce as soon as there is a qop. *)
Definition complete_digest (d : dict (option str)) : Prop :=
  (forall k, In k [lit "username"; lit "realm"; lit "nonce"; lit "uri"; lit "response"] -> exists v, dget d k = Some v) /\
  ((exists v, dget d (lit "qop") = Some v) ->
   forall k, In k [lit "nc"; lit "cnonce"] -> exists v, dget d k = Some (Some v) /\ v <> []).

(** A parameter of a challenge as it is written. *)
Inductive written_param : str -> str -> str -> Prop :=
| wp_quoted k v b : qbody b -> written_param k v (k ++ 61 :: 34 :: b ++ [34])
| wp_token k v : ~ In k [lit "realm"; lit "domain"; lit "nonce"; lit "opaque"; lit "qop"] -> Forall rfc_tchar v ->
    written_param k v (k ++ 61 :: v).
