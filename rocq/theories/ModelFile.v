(** Model of FileStorage (http/basic.py:833-956). *)
From Coq Require Import Arith List NArith ZArith Bool.
From Verif Require Import PyStr Utf8 ModelQuote ModelHeaders.
Import ListNotations.
Open Scope N_scope.

(** ** Files
    A seekable file as io.BytesIO or io.StringIO: its content, the position, whether it
    is of bytes, whether it has been closed.  Reading a closed file is a ValueError. *)
Record file := File { fl_data : str; fl_pos : nat; fl_bytes : bool; fl_closed : bool }.
Definition rest (f : file) : str := skipn (fl_pos f) (fl_data f).
Definition at_pos (f : file) (p : nat) : file := File (fl_data f) p (fl_bytes f) (fl_closed f).
(** [f.read(n)]; all that is left if [n] is negative *)
Definition file_read (f : file) (n : Z) : res (str * file) :=
  if fl_closed f then Raise ValueError
  else
    let chunk := if (n <? 0)%Z then rest f else firstn (Z.to_nat n) (rest f) in
    Ok (chunk, at_pos f (fl_pos f + length chunk)).
(** Up to the first line feed, which is included *)
Fixpoint line_of (s : str) : str :=
  match s with
  | [] => []
  | c :: r => if c =? 10 then [c] else c :: line_of r
  end.
(** [f.readline()] *)
Definition file_readline (f : file) : res (str * file) :=
  if fl_closed f then Raise ValueError
  else let l := line_of (rest f) in Ok (l, at_pos f (fl_pos f + length l)).

(** ** The object *)
(** The attribute [name] of the stream passed: none, a text, bytes (files opened by a
    path of bytes), or the number of a descriptor (temporary files). *)
Inductive sname := NoName | NText (s : str) | NBytes (b : str) | NNumber (z : Z).
Record storage := Storage {
  sg_name : option str;
  sg_stream : file;
  sg_filename : option str;
  sg_headers : headers;
  sg_parsed : option (str * dict (option str)) }.
(** [s[0] == '<' and s[-1] == '>'] of a text that is not empty *)
Definition in_brackets (s : str) : bool :=
  match s with [] => false | c :: _ => (c =? 60) && (last s 0 =? 62) end.
(** http/basic.py:850-867: the file name if none is given.  The file system encoding is
    taken to be UTF-8. *)
Definition name_of_stream (n : sname) : res (option str) :=
  match n with
  | NoName => Ok None
  | NText s => Ok (if in_brackets s then None else Some s)
  | NBytes b => do s <- utf8_decode Replace b; Ok (if in_brackets s then None else Some s)
  | NNumber z => if (z =? 0)%Z then Raise (OtherError 98) else Raise TypeError     (* an int has no [0]; the file name 0 is not modelled *)
  end.
(** http/basic.py:841-874 [__init__].  A stream of a class without [__bool__] and
    [__len__] is true; [None] gives an empty file.  The headers passed are changed in
    place: the result has them as they are afterwards. *)
Definition new_storage (stream : option (file * sname)) (filename name : option str)
    (content_type : option str) (content_length : option Z) (hs : option headers) : res storage :=
  let f := match stream with Some (f, _) => f | None => File [] 0 true false end in
  do fname <- match filename with
              | Some x => Ok (Some x)
              | None => name_of_stream (match stream with Some (_, n) => n | None => NoName end)
              end;
  let h := match hs with Some h => h | None => [] end in
  do h <- match content_type with Some t => h_set h (lit "Content-Type") (HStr t) [] | None => Ok h end;
  do h <- match content_length with Some n => h_set h (lit "Content-Length") (HStr (zdec n)) [] | None => Ok h end;
  Ok (Storage name f fname h None).

(** http/basic.py:880-888 [content_type], [content_length] *)
Definition sg_content_type (s : storage) : option str := h_get (sg_headers s) (lit "content-type").
Definition sg_content_length (s : storage) : res Z :=
  match h_get (sg_headers s) (lit "content-length") with
  | None | Some [] => Ok 0%Z
  | Some t => match py_int t with Some z => Ok z | None => Raise ValueError end
  end.
(** http/basic.py:876-878 [_parse_content_type] *)
Definition parse_type (s : storage) : res ((str * dict (option str)) * storage) :=
  match sg_parsed s with
  | Some p => Ok (p, s)
  | None =>
      do p <- parse_options_header (match sg_content_type s with Some t => t | None => [] end);
      Ok (p, Storage (sg_name s) (sg_stream s) (sg_filename s) (sg_headers s) (Some p))
  end.
(** http/basic.py:890-907 [mimetype], [mimetype_params] *)
Definition sg_mimetype (s : storage) : res (str * storage) := do r <- parse_type s; Ok (lower (fst (fst r)), snd r).
Definition sg_mimetype_params (s : storage) : res (dict (option str) * storage) :=
  do r <- parse_type s; Ok (snd (fst r), snd r).
(** http/basic.py:941-943 [__bool__] *)
Definition sg_true (s : storage) : bool := match sg_filename s with Some (_ :: _) => true | _ => false end.

(** ** save (http/basic.py:909-932) *)
Section Save.
  (** [fails so_far chunk]: the exception if the write of a chunk fails; nothing of the
      chunk is written then. *)
  Variable fails : str -> str -> option exn.
  (** shutil.copyfileobj: read and write until nothing is read.  The size is not 0
      (versions of Python differ there).  The file read, what has been written, the
      exception; [None]: more steps are needed. *)
  Fixpoint copyfileobj (fuel : nat) (src : file) (out : str) (size : Z) : option (file * str * option exn) :=
    match fuel with
    | O => None
    | S k =>
        match file_read src size with
        | Raise e => Some (src, out, Some e)
        | Ok ([], src') => Some (src', out, None)
        | Ok (chunk, src') =>
            match fails out chunk with
            | Some e => Some (src', out, Some e)
            | None => copyfileobj k src' (out ++ chunk) size
            end
        end
    end.
  (** The destination: a path, which is opened for writing (and emptied) and closed, or a
      file of the caller with what it has already. *)
  Inductive dest := DPath (old : str) | DFile (before : str).
  Record saved := Saved { sv_content : str; sv_closed : bool; sv_stream : file; sv_error : option exn }.
  Definition save (fuel : nat) (s : storage) (d : dest) (size : Z) : option saved :=
    let '(out, close_dst) := match d with DPath _ => ([], true) | DFile before => (before, false) end in
    match copyfileobj fuel (sg_stream s) out size with
    | None => None
    | Some (f, out', e) => Some (Saved out' close_dst f e)
    end.
End Save.

(** ** Iteration (http/basic.py:948-949): [iter(self.readline, '')] ends when readline
    returns an empty text; empty bytes are no empty text.  What is yielded, the file, the
    exception; [None]: more than [fuel] steps. *)
Fixpoint iterate (fuel : nat) (f : file) : option (list str * file * option exn) :=
  match fuel with
  | O => None
  | S k =>
      match file_readline f with
      | Raise e => Some ([], f, Some e)
      | Ok (l, f') =>
          if negb (fl_bytes f) && match l with [] => true | _ => false end then Some ([], f', None)
          else
            match iterate k f' with
            | None => None
            | Some (ls, f'', e) => Some (l :: ls, f'', e)
            end
      end
  end.
(** close (http/basic.py:934-939): whatever the stream raises is dropped *)
Definition sg_close (raises : option exn) (s : storage) : storage * option exn :=
  (match raises with
   | Some _ => s
   | None => Storage (sg_name s) (File (fl_data (sg_stream s)) (fl_pos (sg_stream s)) (fl_bytes (sg_stream s)) true)
               (sg_filename s) (sg_headers s) (sg_parsed s)
   end, None).
