(** Claims C33 to C36, C42 and C44: streams. *)
From Coq Require Import List NArith ZArith Bool Lia.
From Verif Require Import PyStr PyStrFacts ModelStream SpecStream ProofStream ProofLines.
Import ListNotations.
Open Scope N_scope.

(** C33: up to and including the first call that fails, whatever the calls, the stream
    takes at most the limit from the connection, in order, and what the caller was
    handed is a prefix of what was taken. *)
Theorem C33_limit : forall fuel limit data plan cs rs s',
  Forall sane cs ->
  do_calls fuel cs (limited_stream (fresh data plan) limit) = Some (rs, s') ->
  Forall normal (removelast rs) ->
  (Z.of_nat (length (u_taken (l_under s'))) <= Z.max 0 limit)%Z /\
  data = u_taken (l_under s') ++ u_left (l_under s') /\
  exists rest, u_taken (l_under s') = handed rs ++ rest.
Proof. exact limited_bound. Qed.
Print Assumptions C33_limit.
(** C33: every such call returns; the loops of readlines and exhaust end after at most
    one turn for each byte of the limit. *)
Theorem C33_terminates : forall limit u cs, Forall sane cs ->
  exists rs s', do_calls (S (Z.to_nat limit)) cs (limited_stream u limit) = Some (rs, s').
Proof. exact limited_ends. Qed.
Print Assumptions C33_terminates.

Example C33_example :
  let cs := [Read (Some 3%Z); ReadLine None; Next; ReadLines (Some 4%Z); Exhaust 2; Read None] in
  let u := fresh (lit "abcde" ++ [10] ++ lit "fg" ++ [10] ++ lit "hijklmnopq") [Gives 3; Gives 1] in
  Forall sane cs /\
  exists rs s', do_calls 20 cs (limited_stream u 15) = Some (rs, s') /\
    handed rs = lit "abcde" ++ [10] ++ lit "fg" ++ [10] ++ lit "hijk" /\ Forall normal rs /\
    length (u_taken (l_under s')) = 15%nat.
Proof.
  split; [repeat constructor; cbn; lia|]. vm_compute. eexists _, _. split; [reflexivity|].
  split; [reflexivity|]. split; [|reflexivity]. repeat constructor.
Qed.
(** Finding: a negative size other than -1 is handed to the connection, which then
    delivers everything it has. *)
Theorem C33_negative_read_refuted : exists data limit rs s',
  do_calls 1 [Read (Some (-2)%Z)] (limited_stream (fresh data []) limit) = Some (rs, s') /\
  (Z.of_nat (length (u_taken (l_under s'))) > Z.max 0 limit)%Z.
Proof.
  exists (lit "abcdef"), 3%Z. vm_compute. eexists _, _. split; reflexivity.
Qed.
(** Finding: the same for any negative size of readline, and there the caller gets the data. *)
Theorem C33_negative_readline_refuted : exists data limit rs s',
  do_calls 1 [ReadLine (Some (-1)%Z)] (limited_stream (fresh data []) limit) = Some (rs, s') /\
  (Z.of_nat (length (handed rs)) > Z.max 0 limit)%Z.
Proof.
  exists (lit "abcdef"), 3%Z. vm_compute. eexists _, _. split; reflexivity.
Qed.
(** Finding: bytes taken by a read that was then reported as a disconnection are not
    counted, so a caller who catches the exception and reads on gets past the limit. *)
Theorem C33_after_disconnect_refuted : exists data limit plan rs s',
  Forall sane [Read None; Read None] /\
  do_calls 1 [Read None; Read None] (limited_stream (fresh data plan) limit) = Some (rs, s') /\
  (Z.of_nat (length (u_taken (l_under s'))) > Z.max 0 limit)%Z.
Proof.
  exists (lit "abcdef"), 3%Z, [Gives 2]. vm_compute. eexists _, _. split; [|split; reflexivity].
  repeat constructor.
Qed.

(** C34: only a body of which every byte has been delivered is reported as ended. *)
Theorem C34_end_means_complete : forall fuel limit data plan cs rs s c r s',
  Forall sane cs -> sane c ->
  do_calls fuel cs (limited_stream (fresh data plan) limit) = Some (rs, s) -> Forall normal rs ->
  asks_for_data c -> do_call fuel c s = Some (r, s') -> says_end r ->
  Z.of_nat (length (u_taken (l_under s))) = Z.max 0 limit.
Proof. exact end_means_complete. Qed.
Print Assumptions C34_end_means_complete.
(** C34: with less data than announced, reading the rest raises ClientDisconnected. *)
Theorem C34_truncated : forall fuel limit data plan cs rs s r s',
  Forall sane cs -> (Z.of_nat (length data) < limit)%Z -> io_failures plan ->
  do_calls fuel cs (limited_stream (fresh data plan) limit) = Some (rs, s) -> Forall normal rs ->
  do_call fuel (Read None) s = Some (r, s') -> r = Raise ClientDisconnected.
Proof. exact truncated_reported. Qed.
Print Assumptions C34_truncated.
(** C34: when all was delivered, further calls return nothing and do not raise. *)
Theorem C34_complete : forall fuel limit data plan cs rs s c,
  Forall sane cs ->
  do_calls fuel cs (limited_stream (fresh data plan) limit) = Some (rs, s) -> Forall normal rs ->
  reliable plan -> Z.of_nat (length (u_taken (l_under s))) = Z.max 0 limit ->
  (0 < fuel)%nat ->
  exists s', u_taken (l_under s') = u_taken (l_under s) /\
    do_call fuel c s = Some (match c with
                             | Read _ | ReadLine _ => Ok [[]]
                             | ReadLines _ | Exhaust _ => Ok []
                             | Next => Raise StopIteration
                             end, s').
Proof. exact complete_then_empty. Qed.
Print Assumptions C34_complete.

Example C34_example_truncated :
  exists s s', do_calls 9 [Read (Some 2%Z); ReadLine None] (limited_stream (fresh (lit "abcde") []) 8) =
    Some ([Ok [lit "ab"]; Ok [lit "cde"]], s) /\
  do_call 9 (Read None) s = Some (Raise ClientDisconnected, s') /\
  do_call 9 Next s = Some (Raise ClientDisconnected, s').
Proof. vm_compute. eexists _, _. repeat split; reflexivity. Qed.
Example C34_example_complete :
  exists s, do_calls 9 [Read (Some 2%Z); ReadLine None] (limited_stream (fresh (lit "abcdefgh") []) 5) =
    Some ([Ok [lit "ab"]; Ok [lit "cde"]], s) /\
  do_call 9 (Read None) s = Some (Ok [[]], s) /\ do_call 9 Next s = Some (Raise StopIteration, s).
Proof. vm_compute. eexists _. repeat split; reflexivity. Qed.
(** Finding: the connection is asked for zero bytes outside the try statement when
    the limit is reached, so a broken connection raises its own exception there. *)
Theorem C34_complete_failing_refuted : exists data limit plan s s',
  do_calls 1 [Read None] (limited_stream (fresh data plan) limit) = Some ([Ok [data]], s) /\
  Z.of_nat (length data) = limit /\
  do_call 1 (Read None) s = Some (Raise IOError, s').
Proof.
  exists (lit "abc"), 3%Z, [Gives 3; Fails 0 FIOError]. vm_compute. eexists _, _. repeat split; reflexivity.
Qed.
(** Finding: a connection that delivers the body in parts is reported as disconnected
    although nothing is missing. *)
Example C34_finding_short_read : exists s,
  do_calls 1 [Read None] (limited_stream (fresh (lit "abc") [Gives 2]) 3) = Some ([Raise ClientDisconnected], s) /\
  u_left (l_under s) = lit "c".
Proof. vm_compute. eexists _. split; reflexivity. Qed.

(** C35: the lines of the text, however it is cut. *)
Theorem C35_lines : forall items, lines_of (concat items) (make_line_iter items).
Proof. exact line_iter_lines. Qed.
Print Assumptions C35_lines.
(** C35: a text has only one list of lines. *)
Theorem C35_lines_unique : forall text L1 L2, lines_of text L1 -> lines_of text L2 -> L1 = L2.
Proof. exact lines_of_unique. Qed.
Print Assumptions C35_lines_unique.
Theorem C35_independent : forall items1 items2,
  concat items1 = concat items2 -> make_line_iter items1 = make_line_iter items2.
Proof. exact line_iter_independent. Qed.
Print Assumptions C35_independent.
(** C35 and C36: the chunks read from a limited stream are together the announced body. *)
Theorem C35_stream_chunks : forall fuel bs limit data plan ds s',
  (0 < bs)%Z -> read_chunks fuel bs (limited_stream (fresh data plan) limit) = Some (Ok ds, s') ->
  exists rest, data = concat ds ++ rest /\ Z.of_nat (length (concat ds)) = Z.max 0 limit.
Proof. exact chunks_of_limited. Qed.
Print Assumptions C35_stream_chunks.
Theorem C35_stream_terminates : forall fuel bs u limit, (0 < bs)%Z -> (Z.to_nat limit < fuel)%nat ->
  read_chunks fuel bs (limited_stream u limit) <> None.
Proof. exact chunks_end. Qed.
Print Assumptions C35_stream_terminates.

Example C35_example :
  make_line_iter [lit "one" ++ [13]; [10]; [10] ++ lit "t"; lit "wo" ++ [13]; []; lit "x" ++ [12] ++ lit "y"] =
    [lit "one" ++ [13; 10]; [10]; lit "two" ++ [13]; lit "x" ++ [12] ++ lit "y"] /\
  make_line_iter [] = [].
Proof. split; reflexivity. Qed.
Example C35_example_stream : exists s,
  read_chunks 9 4 (limited_stream (fresh (lit "abcdefghij") []) 7) = Some (Ok [lit "abcd"; lit "efg"], s).
Proof. vm_compute. eexists. reflexivity. Qed.

(** C36: the pieces between separators, for every way of cutting the text that does not
    cut an occurrence of the separator. *)
Theorem C36_pieces : forall items sep, sep <> [] -> concat items <> [] ->
  no_straddle sep items -> pieces_of sep (concat items) (make_chunk_iter items sep).
Proof. exact chunk_iter_pieces. Qed.
Print Assumptions C36_pieces.
(** C36: a separator of one character cannot be cut. *)
Theorem C36_single : forall items c, concat items <> [] ->
  pieces_of [c] (concat items) (make_chunk_iter items [c]).
Proof. exact chunk_iter_single. Qed.
Print Assumptions C36_single.
Theorem C36_independent : forall items1 items2 c,
  concat items1 = concat items2 -> make_chunk_iter items1 [c] = make_chunk_iter items2 [c].
Proof. exact chunk_iter_independent. Qed.
Print Assumptions C36_independent.
Theorem C36_one_chunk : forall text sep, sep <> [] -> text <> [] ->
  pieces_of sep text (make_chunk_iter [text] sep).
Proof. exact chunk_iter_one. Qed.
Print Assumptions C36_one_chunk.
Theorem C36_pieces_unique : forall sep text L1 L2, sep <> [] ->
  pieces_of sep text L1 -> pieces_of sep text L2 -> L1 = L2.
Proof. exact pieces_of_unique. Qed.
Print Assumptions C36_pieces_unique.
(** C36: in every case the pieces put together with the separator are the text. *)
Theorem C36_lossless : forall items sep, sep <> [] ->
  join sep (make_chunk_iter items sep) = concat items.
Proof. exact chunk_iter_lossless. Qed.
Print Assumptions C36_lossless.

Example C36_example :
  make_chunk_iter [lit "ab"; lit ",,c"; []; lit "d,"] (lit ",") = [lit "ab"; []; lit "cd"; []] /\
  make_chunk_iter [lit "ab--c"; lit "d--e"] (lit "--") = [lit "ab"; lit "cd"; lit "e"] /\
  make_chunk_iter [lit "aaa"] (lit "aa") = [[]; lit "a"].
Proof. repeat split; reflexivity. Qed.
(** Finding: a separator cut by a chunk boundary is not seen. *)
Theorem C36_straddle_refuted : exists items1 items2 sep,
  sep <> [] /\ concat items1 = concat items2 /\ make_chunk_iter items1 sep <> make_chunk_iter items2 sep.
Proof. exists [lit "a-"; lit "-b"], [lit "a--b"], (lit "--"). repeat split; discriminate. Qed.

(** C42: the chunks are the file, none empty and none larger than the buffer. *)
Theorem C42_file : forall bs, (0 < bs)%Z -> forall fuel u, progressing (u_plan u) ->
  (length (u_left u) < fuel)%nat ->
  exists ds u', file_chunks fuel bs u = Some (Ok ds, u') /\
    concat ds = u_left u /\ u_left u' = [] /\ Forall (fun d => d <> [] /\ (Z.of_nat (length d) <= bs)%Z) ds.
Proof. exact file_chunks_spec. Qed.
Print Assumptions C42_file.

Example C42_example : exists u',
  file_chunks 20 4 (mkUnder (lit "xy") (lit "abcdefghij") [Gives 4; Gives 1]) =
    Some (Ok [lit "abcd"; lit "e"; lit "fghi"; lit "j"], u') /\
  progressing [Gives 4; Gives 1].
Proof.
  vm_compute. eexists. split; [reflexivity|]. intros s [<-|[<-|[]]]; [exists 3%nat|exists 0%nat]; reflexivity.
Qed.
(** A buffer size of zero yields nothing at all. *)
Example C42_finding_zero : exists u',
  file_chunks 20 0 (fresh (lit "abc") []) = Some (Ok [], u') /\ u_left u' = lit "abc".
Proof. vm_compute. eexists. split; reflexivity. Qed.

(** C44: the length is never negative, *)
Theorem C44_nonneg : forall environ n, get_content_length environ = Some n -> (0 <= n)%Z.
Proof. exact content_length_nonneg. Qed.
Print Assumptions C44_nonneg.
(** a decimal number is read as such, a negative one as zero, *)
Theorem C44_digits : forall environ s, dget environ (lit "CONTENT_LENGTH") = Some s ->
  s <> [] -> forallb is_ascii_digit s = true ->
  get_content_length environ = Some (Z.of_N (digits_val s)).
Proof.
  intros environ s H Hn Hd. unfold get_content_length. rewrite H, py_int_digits by assumption.
  cbn [option_map]. f_equal. lia.
Qed.
Print Assumptions C44_digits.
Theorem C44_negative : forall environ s, dget environ (lit "CONTENT_LENGTH") = Some (45 :: s) ->
  s <> [] -> forallb is_ascii_digit s = true -> get_content_length environ = Some 0%Z.
Proof.
  intros environ s H Hn Hd. unfold get_content_length. rewrite H, py_int_neg by assumption.
  cbn [option_map]. f_equal. lia.
Qed.
Print Assumptions C44_negative.
(** and anything with a character other than digits, signs, underscores and white space
    is ignored. *)
Theorem C44_malformed : forall environ s c, dget environ (lit "CONTENT_LENGTH") = Some s -> In c s ->
  ~ (48 <= c <= 57) -> c <> 95 -> c <> 43 -> c <> 45 -> is_space c = false ->
  get_content_length environ = None.
Proof.
  intros environ s c H Hc H1 H2 H3 H4 H5. unfold get_content_length. rewrite H.
  destruct (py_int s) as [n|] eqn:E; [|reflexivity]. exfalso.
  destruct (py_int_chars s n c E Hc) as [K|[K|[K|[K|K]]]]; try congruence.
  unfold is_ascii_digit, between in K. apply andb_true_iff in K. rewrite !N.leb_le in K. lia.
Qed.
Print Assumptions C44_malformed.
(** C44: with a known length the application cannot read beyond it, *)
Theorem C44_bounded : forall environ data plan safe n s fuel cs rs s',
  get_input_stream environ false (fresh data plan) safe = ILimited s ->
  get_content_length environ = Some n ->
  Forall sane cs -> do_calls fuel cs s = Some (rs, s') -> Forall normal (removelast rs) ->
  (Z.of_nat (length (u_taken (l_under s'))) <= n)%Z.
Proof. exact input_bounded. Qed.
Print Assumptions C44_bounded.
(** and it gets a limited stream unless the length is unknown (an empty one, by default)
    or the server marked the input as terminated. *)
Theorem C44_stream : forall environ terminated u,
  match get_input_stream environ terminated u true with
  | IRaw u' => terminated = true /\ u' = u
  | IEmpty => terminated = false /\ get_content_length environ = None
  | ILimited s => terminated = false /\ get_content_length environ = Some (l_limit s) /\ l_under s = u /\ l_pos s = 0%Z
  end.
Proof.
  intros environ terminated u. unfold get_input_stream. destruct terminated; [auto|].
  destruct (get_content_length environ); cbn; auto.
Qed.
Print Assumptions C44_stream.

Example C44_example :
  get_content_length [(lit "CONTENT_LENGTH", lit "0042")] = Some 42%Z /\
  get_content_length [(lit "CONTENT_LENGTH", lit "-3")] = Some 0%Z /\
  get_content_length [(lit "CONTENT_LENGTH", lit "12a")] = None /\
  get_content_length [(lit "CONTENT_LENGTH", [])] = None /\
  get_content_length [] = None /\
  get_input_stream [(lit "CONTENT_LENGTH", lit "2")] false (fresh (lit "abc") []) true =
    ILimited (mkLimited 0 2 (fresh (lit "abc") [])) /\
  get_input_stream [] false (fresh (lit "abc") []) true = IEmpty.
Proof. repeat split; reflexivity. Qed.
(** Finding: Python's int() accepts underscores between digits and blanks around them,
    which are not numbers in HTTP. *)
Example C44_finding_underscore : get_content_length [(lit "CONTENT_LENGTH", lit " 1_0 ")] = Some 10%Z.
Proof. reflexivity. Qed.
