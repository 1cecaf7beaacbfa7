(** Python's UTF-8 codec and the Latin-1 tunnel of WSGI strings (builtins used by
    /repo, not code of /repo). *)
From Coq Require Import List NArith Bool.
From Verif Require Import PyStr.
Import ListNotations.
Open Scope N_scope.

(** A code point that can be encoded (no surrogate). *)
Definition scalar (c : N) : bool := (c <=? 1114111) && negb (between 55296 57343 c).

(** The bytes of one code point. *)
Definition utf8_char (c : N) : str :=
  if c <? 128 then [c]
  else if c <? 2048 then [192 + c / 64; 128 + c mod 64]
  else if c <? 65536 then [224 + c / 4096; 128 + c / 64 mod 64; 128 + c mod 64]
  else [240 + c / 262144; 128 + c / 4096 mod 64; 128 + c / 64 mod 64; 128 + c mod 64].

(** [s.encode('utf-8')], strict *)
Definition utf8_encode (s : str) : res str :=
  if forallb scalar s then Ok (flat_map utf8_char s) else Raise UnicodeError.

(** One step of the decoder: a code point and how many bytes it took, or the
    number of bytes of an ill-formed part. *)
Inductive utf8_step := Good (c : N) (n : nat) | Bad (n : nat).
Definition cont (b : N) : bool := between 128 191 b.
(** the range of the byte after the first *)
Definition second_ok (b1 b2 : N) : bool :=
  if b1 =? 224 then between 160 191 b2
  else if b1 =? 237 then between 128 159 b2
  else if b1 =? 240 then between 144 191 b2
  else if b1 =? 244 then between 128 143 b2
  else cont b2.
Definition utf8_next (b1 : N) (s : str) : utf8_step :=
  if b1 <? 128 then Good b1 1
  else if b1 <? 194 then Bad 1
  else if b1 <? 224 then
    match s with
    | b2 :: _ => if cont b2 then Good ((b1 - 192) * 64 + (b2 - 128)) 2 else Bad 1
    | [] => Bad 1
    end
  else if b1 <? 240 then
    match s with
    | b2 :: s2 =>
        if second_ok b1 b2 then
          match s2 with
          | b3 :: _ => if cont b3 then Good ((b1 - 224) * 4096 + (b2 - 128) * 64 + (b3 - 128)) 3 else Bad 2
          | [] => Bad 2
          end
        else Bad 1
    | [] => Bad 1
    end
  else if b1 <? 245 then
    match s with
    | b2 :: s2 =>
        if second_ok b1 b2 then
          match s2 with
          | b3 :: s3 =>
              if cont b3 then
                match s3 with
                | b4 :: _ =>
                    if cont b4
                    then Good ((b1 - 240) * 262144 + (b2 - 128) * 4096 + (b3 - 128) * 64 + (b4 - 128)) 4
                    else Bad 3
                | [] => Bad 3
                end
              else Bad 2
          | [] => Bad 2
          end
        else Bad 1
    | [] => Bad 1
    end
  else Bad 1.

(** Error handlers: strict raises, replace inserts U+FFFD, ignore drops. *)
Inductive on_error := Strict | Replace | Ignore.

(** [skip] counts the bytes of the current step still to be passed over. *)
Fixpoint utf8_dec (err : on_error) (skip : nat) (s : str) : res str :=
  match s with
  | [] => Ok []
  | b :: s' =>
      match skip with
      | S k => utf8_dec err k s'
      | O =>
          match utf8_next b s' with
          | Good c n => do r <- utf8_dec err (n - 1) s'; Ok (c :: r)
          | Bad n =>
              match err with
              | Strict => Raise UnicodeError
              | Replace => do r <- utf8_dec err (n - 1) s'; Ok (65533 :: r)
              | Ignore => utf8_dec err (n - 1) s'
              end
          end
      end
  end.
(** [b.decode('utf-8', errors)] *)
Definition utf8_decode (err : on_error) (b : str) : res str := utf8_dec err 0 b.

(** [s.encode('latin1')] and [b.decode('latin1')]: code points below 256 are the
    bytes. *)
Definition latin1_encode (s : str) : res str :=
  if forallb (fun c => c <? 256) s then Ok s else Raise UnicodeError.
(** [s.encode('latin1', 'replace')]: other characters become a question mark *)
Definition latin1_encode_replace (s : str) : str := map (fun c => if c <? 256 then c else 63) s.
Definition is_bytes (s : str) : bool := forallb (fun c => c <? 256) s.
