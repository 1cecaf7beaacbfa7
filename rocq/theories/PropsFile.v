(** * Uploaded files: the claims of C106 *)
From Coq Require Import List NArith ZArith Bool Lia.
From Verif Require ProofMirror PyStrFacts.
From Verif Require Import PyStr Utf8 ModelQuote SpecQuote ModelHeaders SpecHeaders ModelFile SpecFile ProofFile.
Import ListNotations.
Open Scope N_scope.

(** save() writes exactly what has not been read yet, after what a file of the caller
    already has, or as the whole content of the file of a path.  If a write fails the
    exception comes out and what is written is a beginning.  The file of a path is
    closed in any case, a file of the caller never.  [fails] says which writes fail. *)
Theorem C106_save : forall fails s d size fuel,
  size <> 0%Z -> (length (unread (sg_stream s)) < fuel)%nat -> fl_closed (sg_stream s) = false ->
  exists sv written missing,
    save fails fuel s d size = Some sv /\ unread (sg_stream s) = written ++ missing
    /\ sv_content sv = match d with DPath _ => written | DFile before => before ++ written end
    /\ sv_closed sv = match d with DPath _ => true | DFile _ => false end
    /\ match sv_error sv with
       | None => missing = [] /\ finished (sg_stream s) (sv_stream sv)
       | Some x => exists chunk, chunk <> [] /\ (exists r, missing = chunk ++ r) /\ fails (sv_content sv) chunk = Some x
       end.
Proof. exact save_spec. Qed.
Print Assumptions C106_save.

(** Iterating over a text file yields its lines. *)
Theorem C106_lines_partial : forall fuel f,
  fl_bytes f = false -> fl_closed f = false -> (length (unread f) < fuel)%nat ->
  exists ls f', iterate fuel f = Some (ls, f', None) /\ lines (unread f) ls /\ finished f f'.
Proof. exact iterate_text. Qed.
Print Assumptions C106_lines_partial.
(** Finding: uploaded files are files of bytes, and iterating over one never ends. *)
Theorem C106_lines_refuted : forall fuel f,
  fl_bytes f = true -> fl_closed f = false -> iterate fuel f = None.
Proof. exact iterate_bytes. Qed.
Print Assumptions C106_lines_refuted.

(** What is given to the constructor is shown by the attributes; other headers stay. *)
Theorem C106_attributes : forall stream filename name ct cl hs s,
  new_storage stream filename name ct cl hs = Ok s ->
  let old := match hs with Some h => h | None => [] end in
  sg_name s = name /\ sg_parsed s = None
  /\ sg_stream s = match stream with Some (f, _) => f | None => File [] 0 true false end
  /\ sg_content_type s = match ct with Some t => Some t | None => h_get old (lit "content-type") end
  /\ (forall n, cl = Some n -> sg_content_length s = Ok n)
  /\ (forall k, (ct <> None -> ~ same_name (lit "Content-Type") k) -> (cl <> None -> ~ same_name (lit "Content-Length") k) ->
        h_get (sg_headers s) k = h_get old k).
Proof. exact storage_made. Qed.
Print Assumptions C106_attributes.

(** The file name: the one given, or the name of the stream, unless that is one of
    Python's names for things that are no files. *)
Theorem C106_filename : forall stream filename name ct cl hs s,
  new_storage stream filename name ct cl hs = Ok s ->
  match filename, stream with
  | Some x, _ => sg_filename s = Some x
  | None, Some (_, NText t) => (bracketed t -> sg_filename s = None) /\ (~ bracketed t -> sg_filename s = Some t)
  | None, Some (_, NBytes b) => forall t, utf8_encode t = Ok b ->
      (bracketed t -> sg_filename s = None) /\ (~ bracketed t -> sg_filename s = Some t)
  | None, Some (_, NNumber _) => False
  | None, Some (_, NoName) | None, None => sg_filename s = None
  end.
Proof. exact storage_name. Qed.
Print Assumptions C106_filename.
Theorem C106_true : forall s, sg_true s = true <-> exists x, x <> [] /\ sg_filename s = Some x.
Proof.
  intros s. unfold sg_true. destruct (sg_filename s) as [[|c x]|]; split; intros H; try discriminate H; try reflexivity.
  - destruct H as (x & N & E). congruence.
  - exists (c :: x). split; [discriminate|reflexivity].
  - destruct H as (x & N & E). discriminate E.
Qed.
Print Assumptions C106_true.

(** Making one succeeds unless the type has a line break or the stream is known by a
    number only. *)
Theorem C106_total_partial : forall stream filename name ct cl hs,
  (filename <> None \/ match stream with Some (_, NNumber _) => False | _ => True end) ->
  match ct with Some t => one_line t | None => True end ->
  exists s, new_storage stream filename name ct cl hs = Ok s.
Proof. exact storage_total. Qed.
Print Assumptions C106_total_partial.
(** Finding: a temporary file, whose name is the number of its descriptor, is a
    TypeError if no file name is given. *)
Theorem C106_temporary_refuted : forall f name ct cl hs n, (0 < n)%Z ->
  new_storage (Some (f, NNumber n)) None name ct cl hs = Raise TypeError.
Proof. intros f name ct cl hs n P. unfold new_storage. cbn. replace (n =? 0)%Z with false by lia. reflexivity. Qed.
Print Assumptions C106_temporary_refuted.

(** The type and its parameters.  Missing: empty parameters (see C13). *)
Theorem C106_type_partial : forall s h opts,
  option_name h -> Forall (fun kv => option_name (fst kv)) opts -> NoDup (map fst opts) ->
  Forall (fun kv => forall v, snd kv = Some v ->
            v <> [] /\ (fst kv = lit "filename" -> forall r, v <> 92 :: r)) opts ->
  sg_parsed s = None -> sg_content_type s = Some (dump_options_header (Some h) opts) ->
  (exists s', sg_mimetype s = Ok (lower h, s')) /\ (exists s', sg_mimetype_params s = Ok (opts, s')).
Proof. exact type_shown. Qed.
Print Assumptions C106_type_partial.

(** The length: 0 without a header or with an empty one, the number that the header is the
    text of; otherwise a ValueError, and nothing else. *)
Theorem C106_length : forall s,
  match h_get (sg_headers s) (lit "Content-Length") with
  | None | Some [] => sg_content_length s = Ok 0%Z
  | Some t => (forall n, t = zdec n -> sg_content_length s = Ok n) /\ (forall e, sg_content_length s = Raise e -> e = ValueError)
  end.
Proof.
  intros s. unfold sg_content_length. replace (h_get (sg_headers s) (lit "Content-Length")) with (h_get (sg_headers s) (lit "content-length")) by (apply ProofMirror.h_get_same; reflexivity).
  destruct (h_get (sg_headers s) (lit "content-length")) as [[|c t]|]; [reflexivity| |reflexivity]. split.
  - intros n E. rewrite E, PyStrFacts.py_int_zdec. reflexivity.
  - intros e. destruct (py_int (c :: t)); congruence.
Qed.
Print Assumptions C106_length.
(** close() never raises; if the stream's does not either, the stream is closed: every
    reading method fails from then on and a save writes nothing.  The rest stays. *)
Theorem C106_close : forall raises s,
  let (s', e) := sg_close raises s in
  e = None /\ sg_name s' = sg_name s /\ sg_filename s' = sg_filename s /\ sg_headers s' = sg_headers s /\ sg_parsed s' = sg_parsed s
  /\ match raises with
     | Some _ => s' = s
     | None =>
         (forall n, file_read (sg_stream s') n = Raise ValueError) /\ file_readline (sg_stream s') = Raise ValueError
         /\ (forall fuel, iterate (S fuel) (sg_stream s') = Some ([], sg_stream s', Some ValueError))
         /\ (forall fails fuel d size, exists sv, save fails (S fuel) s' d size = Some sv /\ sv_error sv = Some ValueError
              /\ sv_content sv = match d with DPath _ => [] | DFile before => before end)
     end.
Proof.
  intros [x|] s; cbn; repeat split; auto. intros fails fuel [old|before] size; unfold save; cbn; eexists; split; [reflexivity|split; reflexivity|reflexivity|split; reflexivity].
Qed.
Print Assumptions C106_close.

Definition ex_file : file := File (lit "head:line1" ++ [10] ++ lit "line2") 5 true false.
Definition ex_storage : res storage :=
  new_storage (Some (ex_file, NText (lit "<fdopen>"))) None (Some (lit "upload"))
    (Some (lit "Text/Plain; charset=utf-8")) (Some 11%Z) (Some [(lit "X-A", lit "1"); (lit "content-TYPE", lit "a/b")]).
Example C106_example : exists s, ex_storage = Ok s
  /\ sg_filename s = None /\ sg_true s = false /\ sg_content_length s = Ok 11%Z
  /\ sg_headers s = [(lit "X-A", lit "1"); (lit "Content-Type", lit "Text/Plain; charset=utf-8"); (lit "Content-Length", lit "11")]
  /\ (exists s', sg_mimetype s = Ok (lit "text/plain", s')
        (* the type is kept when it has been read, whatever the headers say then *)
        /\ forall h, exists s'', sg_mimetype (Storage (sg_name s') (sg_stream s') (sg_filename s') h (sg_parsed s')) = Ok (lit "text/plain", s''))
  /\ (exists sv, save (fun _ _ => None) 99 s (DPath (lit "old")) 4 = Some sv /\ sv_error sv = None
        /\ sv_content sv = lit "line1" ++ [10] ++ lit "line2" /\ sv_closed sv = true
        (* a second save writes nothing, and empties the file *)
        /\ exists sv2, save (fun _ _ => None) 99 (Storage None (sv_stream sv) None [] None) (DPath (sv_content sv)) 4 = Some sv2
             /\ sv_content sv2 = [])
  /\ (exists sv, save (fun out _ => if Nat.ltb 6 (length out) then Some (OtherError 1) else None) 99 s (DFile (lit "old")) 4 = Some sv
        /\ sv_content sv = lit "oldline" /\ sv_error sv = Some (OtherError 1) /\ sv_closed sv = false).
Proof.
  eexists. split; [vm_compute; reflexivity|]. do 4 (split; [vm_compute; reflexivity|]). split; [|split].
  - eexists. split; [vm_compute; reflexivity|]. intros h. eexists. vm_compute. reflexivity.
  - eexists. split; [vm_compute; reflexivity|]. do 3 (split; [vm_compute; reflexivity|]). eexists. split; vm_compute; reflexivity.
  - eexists. split; [vm_compute; reflexivity|]. repeat split.
Qed.
Example C106_lines_example :
  iterate 9 (File (lit "a" ++ [10; 10] ++ lit "b") 0 false false)
  = Some ([lit "a" ++ [10]; [10]; lit "b"], File (lit "a" ++ [10; 10] ++ lit "b") 4 false false, None).
Proof. vm_compute. reflexivity. Qed.
