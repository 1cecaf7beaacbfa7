(** Model of the stream helpers of verktyg/wsgi.py: get_content_length,
    get_input_stream, FileWrapper, make_line_iter, make_chunk_iter and LimitedStream. *)
From Coq Require Import List NArith ZArith Bool.
From Verif Require Import PyStr.
Import ListNotations.
Open Scope N_scope.

(** Exceptions of this module. *)
Definition IOError : exn := OtherError 1.
Definition ClientDisconnected : exn := OtherError 2.

(** ** The stream underneath

    Not code of /repo: the object handed over by the server.  Each call to it follows
    one step of a plan that is an arbitrary input of the model: it hands over at most
    [k] bytes, or takes [k] bytes from the connection and then fails.  When the plan
    is used up, calls hand over all that was asked for and is there. *)
Inductive failure := FIOError | FValueError | FOther (n : nat).
Definition failure_exn (f : failure) : exn :=
  match f with
  | FIOError => IOError
  | FValueError => ValueError
  | FOther n => OtherError (100 + n)
  end.
Inductive step := Gives (k : nat) | Fails (k : nat) (f : failure).
Record under := mkUnder {
  u_taken : str;            (* bytes already taken from the connection *)
  u_left : str;             (* bytes still to come *)
  u_plan : list step
}.

(** take [n] bytes *)
Definition u_take (n : nat) (p : list step) (u : under) : under :=
  mkUnder (u_taken u ++ firstn n (u_left u)) (skipn n (u_left u)) p.

(** How many bytes a request for [size] (negative: no bound) may get out of [avail]. *)
Definition u_cap (size : Z) (avail : nat) : nat :=
  if (size <? 0)%Z then avail else Nat.min (Z.to_nat size) avail.

(** A call that could hand over [cap] bytes. *)
Definition u_call (cap : nat) (u : under) : res str * under :=
  match u_plan u with
  | [] => (Ok (firstn cap (u_left u)), u_take cap [] u)
  | Gives k :: p => (Ok (firstn (Nat.min k cap) (u_left u)), u_take (Nat.min k cap) p u)
  | Fails k f :: p => (Raise (failure_exn f), u_take (Nat.min k cap) p u)
  end.

(** [stream.read(size)] *)
Definition u_read (size : Z) (u : under) : res str * under :=
  u_call (u_cap size (length (u_left u))) u.

(** length of the first line, its newline included *)
Fixpoint line_len (s : str) : nat :=
  match s with
  | [] => O
  | c :: s' => if c =? 10 then 1%nat else S (line_len s')
  end.
(** [stream.readline(size)] *)
Definition u_readline (size : Z) (u : under) : res str * under :=
  u_call (u_cap size (line_len (u_left u))) u.

(** ** LimitedStream (wsgi.py:781-932) *)
Record limited := mkLimited { l_pos : Z; l_limit : Z; l_under : under }.

(** [__init__] (wsgi.py:817-821) *)
Definition limited_stream (u : under) (limit : Z) : limited := mkLimited 0 limit u.

Definition with_under (s : limited) (u : under) : limited := mkLimited (l_pos s) (l_limit s) u.

(** [on_exhausted] (wsgi.py:831-838) *)
Definition on_exhausted (s : limited) : res str * limited :=
  let (r, u) := u_read 0 (l_under s) in (r, with_under s u).

(** [on_disconnect] (wsgi.py:840-847): raises *)
Definition on_disconnect {A} (s : limited) : res A * limited := (Raise ClientDisconnected, s).

(** the [except (IOError, ValueError)] clauses (wsgi.py:877, 894) *)
Definition is_caught (e : exn) : bool :=
  match e with OtherError 1 => true | ValueError => true | _ => false end.

(** [read] (wsgi.py:864-882) *)
Definition read (size : option Z) (s : limited) : res str * limited :=
  if (l_limit s <=? l_pos s)%Z then on_exhausted s
  else
    let size := match size with
                | None => l_limit s
                | Some z => if (z =? -1)%Z then l_limit s else z
                end in
    let to_read := Z.min (l_limit s - l_pos s) size in
    let (r, u) := u_read to_read (l_under s) in
    match r with
    | Raise e => if is_caught e then on_disconnect (with_under s u) else (Raise e, with_under s u)
    | Ok d =>
        if negb (to_read =? 0)%Z && negb (Z.of_nat (length d) =? to_read)%Z
        then on_disconnect (with_under s u)
        else (Ok d, mkLimited (l_pos s + Z.of_nat (length d)) (l_limit s) u)
    end.

(** [readline] (wsgi.py:884-899) *)
Definition readline (size : option Z) (s : limited) : res str * limited :=
  if (l_limit s <=? l_pos s)%Z then on_exhausted s
  else
    let size := match size with
                | None => l_limit s - l_pos s
                | Some z => Z.min z (l_limit s - l_pos s)
                end%Z in
    let (r, u) := u_readline size (l_under s) in
    match r with
    | Raise e => if is_caught e then on_disconnect (with_under s u) else (Raise e, with_under s u)
    | Ok line =>
        if negb (size =? 0)%Z && match line with [] => true | _ => false end
        then on_disconnect (with_under s u)
        else (Ok line, mkLimited (l_pos s + Z.of_nat (length line)) (l_limit s) u)
    end.

(** [readlines] (wsgi.py:901-921).  [None]: the loop did not end within [fuel] turns. *)
Fixpoint readlines_loop (fuel : nat) (size : option Z) (last_pos stop : Z) (acc : list str)
    (s : limited) : option (res (list str) * limited) :=
  match fuel with
  | O => None
  | S f =>
      let size := option_map (fun z => z - (last_pos - l_pos s))%Z size in
      if (stop <=? l_pos s)%Z then Some (Ok acc, s)
      else match readline size s with
           | (Raise e, s') => Some (Raise e, s')
           | (Ok l, s') =>
               readlines_loop f size (match size with None => last_pos | Some _ => l_pos s' end)
                              stop (acc ++ [l]) s'
           end
  end.
Definition readlines (fuel : nat) (size : option Z) (s : limited) : option (res (list str) * limited) :=
  let stop := match size with
              | Some z => Z.min (l_limit s) (l_pos s + z)
              | None => l_limit s
              end in
  readlines_loop fuel size (l_pos s) stop [] s.

(** [exhaust] (wsgi.py:849-862) *)
Fixpoint exhaust_loop (fuel : nat) (to_read chunk : Z) (s : limited) : option (res unit * limited) :=
  match fuel with
  | O => None
  | S f =>
      if (to_read <=? 0)%Z then Some (Ok tt, s)
      else
        let chunk := Z.min to_read chunk in
        match read (Some chunk) s with
        | (Raise e, s') => Some (Raise e, s')
        | (Ok _, s') => exhaust_loop f (to_read - chunk) chunk s'
        end
  end.
Definition exhaust (fuel : nat) (chunk : Z) (s : limited) : option (res unit * limited) :=
  exhaust_loop fuel (l_limit s - l_pos s) chunk s.

(** [__next__] (wsgi.py:928-932) *)
Definition next_line (s : limited) : res str * limited :=
  match readline None s with
  | (Ok [], s') => (Raise StopIteration, s')
  | r => r
  end.

(** A call of a user of the stream and what they get: the pieces of data returned. *)
Inductive call :=
| Read (size : option Z) | ReadLine (size : option Z) | ReadLines (size : option Z)
| Next | Exhaust (chunk : Z).
Definition one (x : res str * limited) : res (list str) * limited :=
  (bind (fst x) (fun d => Ok [d]), snd x).
Definition do_call (fuel : nat) (c : call) (s : limited) : option (res (list str) * limited) :=
  match c with
  | Read z => Some (one (read z s))
  | ReadLine z => Some (one (readline z s))
  | ReadLines z => readlines fuel z s
  | Next => Some (one (next_line s))
  | Exhaust k =>
      match exhaust fuel k s with
      | Some (r, s') => Some (bind r (fun _ => Ok []), s')
      | None => None
      end
  end.
(** A history of calls; the user goes on after an exception. *)
Fixpoint do_calls (fuel : nat) (cs : list call) (s : limited) : option (list (res (list str)) * limited) :=
  match cs with
  | [] => Some ([], s)
  | c :: cs' =>
      match do_call fuel c s with
      | None => None
      | Some (r, s') =>
          match do_calls fuel cs' s' with
          | None => None
          | Some (rs, s'') => Some (r :: rs, s'')
          end
      end
  end.

(** ** get_content_length (wsgi.py:175-187)
    The environment's CONTENT_LENGTH is a string, as a server passes it. *)
Definition get_content_length (environ : dict str) : option Z :=
  match dget environ (lit "CONTENT_LENGTH") with
  | None => None
  | Some v => option_map (Z.max 0) (py_int v)
  end.

(** get_input_stream (wsgi.py:190-221).  [terminated] is the truth value of
    environ['wsgi.input_terminated'], [stream] is environ['wsgi.input']. *)
Inductive input_stream := IRaw (u : under) | IEmpty | ILimited (s : limited).
Definition get_input_stream (environ : dict str) (terminated : bool) (stream : under)
    (safe_fallback : bool) : input_stream :=
  if terminated then IRaw stream
  else match get_content_length environ with
       | None => if safe_fallback then IEmpty else IRaw stream
       | Some n => ILimited (limited_stream stream n)
       end.

(** ** FileWrapper (wsgi.py:621-655): the chunks [__next__] yields until StopIteration,
    an exception of the file ending the iteration.  [None]: not ended within [fuel]. *)
Fixpoint file_chunks (fuel : nat) (buffer_size : Z) (f : under) : option (res (list str) * under) :=
  match fuel with
  | O => None
  | S n =>
      match u_read buffer_size f with
      | (Raise e, f') => Some (Raise e, f')
      | (Ok [], f') => Some (Ok [], f')
      | (Ok d, f') =>
          match file_chunks n buffer_size f' with
          | Some (Ok ds, f'') => Some (Ok (d :: ds), f'')
          | r => r
          end
      end
  end.

(** ** _make_chunk_iter (wsgi.py:658-669) over an iterable of strings *)
Definition nonempty (s : str) : bool := match s with [] => false | _ => true end.
Definition make_chunks (items : list str) : list str := filter nonempty items.

(** [_make_chunk_iter] over a stream with a read method (wsgi.py:670-677): items are
    read until one is empty. *)
Fixpoint read_chunks (fuel : nat) (buffer_size : Z) (s : limited) : option (res (list str) * limited) :=
  match fuel with
  | O => None
  | S n =>
      match read (Some buffer_size) s with
      | (Raise e, s') => Some (Raise e, s')
      | (Ok [], s') => Some (Ok [], s')
      | (Ok d, s') =>
          match read_chunks n buffer_size s' with
          | Some (Ok ds, s'') => Some (Ok (d :: ds), s'')
          | r => r
          end
      end
  end.

(** [str.splitlines(True)]: line boundaries of Python's str type. *)
Definition is_linebreak (c : N) : bool :=
  between 10 13 c || between 28 30 c || (c =? 133) || (c =? 8232) || (c =? 8233).
Definition push (c : N) (l : list str) : list str :=
  match l with [] => [[c]] | h :: t => (c :: h) :: t end.
Fixpoint splitlines (s : str) : list str :=
  match s with
  | [] => []
  | c :: s' =>
      if c =? 13 then
        match s' with
        | d :: s'' => if d =? 10 then [c; d] :: splitlines s'' else [c] :: splitlines s'
        | [] => [[c]]
        end
      else if is_linebreak c then [c] :: splitlines s'
      else push c (splitlines s')
  end.

(** [item and item[-1:] in '\r\n'] (wsgi.py:712) *)
Definition ends_line (item : str) : bool :=
  match rev item with c :: _ => (c =? 10) || (c =? 13) | [] => false end.

(** The inner loop of [_iter_basic_lines] (wsgi.py:710-715): what is yielded and
    what is left in [new_buf]. *)
Fixpoint eat_lines (new_buf : list str) (items : list str) : list str * list str :=
  match items with
  | [] => ([], new_buf)
  | item :: items' =>
      let new_buf := new_buf ++ [item] in
      if ends_line item
      then let (o, b) := eat_lines [] items' in (concat new_buf :: o, b)
      else eat_lines new_buf items'
  end.
(** [_iter_basic_lines] (wsgi.py:703-717) *)
Fixpoint basic_lines (buffer : list str) (chunks : list str) : list str :=
  match chunks with
  | [] => match buffer with [] => [] | _ => [concat buffer] end
  | new_data :: chunks' =>
      let (o, b) := eat_lines [] (buffer ++ splitlines new_data) in
      o ++ basic_lines b chunks'
  end.
(** The outer loop of [make_line_iter] (wsgi.py:721-730) *)
Fixpoint merge_lines (previous : str) (items : list str) : list str :=
  match items with
  | [] => if nonempty previous then [previous] else []
  | item :: items' =>
      let '(previous, item) :=
        if eqs item [10] && match rev previous with c :: _ => c =? 13 | [] => false end
        then (previous ++ item, []) else (previous, item) in
      (if nonempty previous then [previous] else []) ++ merge_lines item items'
  end.
(** make_line_iter (wsgi.py:680-730) on chunks of text.  With chunks of bytes the code
    raises TypeError at line 712 for the first item (a bytes object is looked up in a
    str), which is outside this model. *)
Definition make_line_iter (items : list str) : list str :=
  merge_lines [] (basic_lines [] (make_chunks items)).

(** [re.compile('(' + re.escape(sep) + ')').split(s)] for a non-empty [sep]: the parts
    with the separators between them, leftmost occurrences first.  [skip] counts the
    characters of the current separator still to be passed over. *)
Fixpoint resplit (sep : str) (skip : nat) (s : str) : list str :=
  match s with
  | [] => [[]]
  | c :: s' =>
      match skip with
      | S k => resplit sep k s'
      | O => if starts sep s then [] :: sep :: resplit sep (length sep - 1) s'
             else push c (resplit sep 0 s')
      end
  end.

(** The inner loop of [make_chunk_iter] (wsgi.py:770-775) *)
Fixpoint eat_chunks (sep : str) (new_buf : list str) (items : list str) : list str * list str :=
  match items with
  | [] => ([], new_buf)
  | item :: items' =>
      if eqs item sep
      then let (o, b) := eat_chunks sep [] items' in (concat new_buf :: o, b)
      else eat_chunks sep (new_buf ++ [item]) items'
  end.
Fixpoint chunk_loop (sep : str) (buffer : list str) (chunks : list str) : list str :=
  match chunks with
  | [] => match buffer with [] => [] | _ => [concat buffer] end
  | new_data :: chunks' =>
      let (o, b) := eat_chunks sep [] (buffer ++ resplit sep 0 new_data) in
      o ++ chunk_loop sep b chunks'
  end.
(** make_chunk_iter (wsgi.py:733-778), for a non-empty separator *)
Definition make_chunk_iter (items : list str) (sep : str) : list str :=
  chunk_loop sep [] (make_chunks items).
