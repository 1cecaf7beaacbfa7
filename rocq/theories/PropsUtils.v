(** * Theorems: redirects, cached and header properties, abort (C67, C68, C70, C76, C77) *)
From Coq Require Import Arith List NArith ZArith Bool Lia.
From Verif Require Import PyStr Utf8 SpecHeaders ModelHeaders ModelUrls SpecUrls ModelResponse ModelUtils SpecUtils ProofUtils.
Import ListNotations.
Open Scope N_scope.

(** ** C67: redirect pages *)

(** The page is fixed text around two pieces of HTML: the inside of the href
    attribute, shown as the converted location, and the inside of the link, shown
    as the location itself.  Neither holds a tag delimiter or a quote. *)
Theorem C67_page : exists head foot, forall idna_part ip_ok nfkc_ok location code r,
  redirect idna_part ip_ok nfkc_ok location code = Ok r ->
  exists uri href label b,
    iri_to_uri idna_part ip_ok nfkc_ok location = Ok uri /\
    shown href uri /\ harmless href /\ shown label location /\ harmless label /\
    utf8_encode (head ++ lit "<a href=""" ++ href ++ lit """>" ++ label ++ lit "</a>" ++ foot) = Ok b /\
    rs_body r = BSeq [IBytes b] /\
    h_getlist (rs_headers r) (lit "Content-Type") = [lit "text/html; charset=utf-8"] /\
    h_getlist (rs_headers r) (lit "Location") = [uri].
Proof.
  exists (firstn (length page_head - 9) page_head), (skipn 4 page_foot).
  intros idna ip nf location code r H.
  apply redirect_spec in H as (uri & e1 & e2 & b & E & S1 & S2 & B & Bd & _ & C & L).
  exists uri, e1, e2, b. repeat split; auto; try (eapply shown_harmless; eassumption).
Qed.
Print Assumptions C67_page.

(** A piece of HTML shows one text only. *)
Theorem C67_shown : forall e s t, shown e s -> shown e t -> s = t.
Proof. exact (fun e s t H => shown_fun e s H t). Qed.
Print Assumptions C67_shown.

(** Every Unicode location that can be converted at all is redirected to: the page
    can be encoded and the location is one line. *)
Theorem C67_total : forall idna_part ip_ok nfkc_ok,
  (forall p e, idna_part p = Ok e -> one_line e) ->
  forall location uri code, unicode_text location ->
  iri_to_uri idna_part ip_ok nfkc_ok location = Ok uri ->
  exists r, redirect idna_part ip_ok nfkc_ok location code = Ok r /\
    h_getlist (rs_headers r) (lit "Location") = [uri].
Proof.
  intros idna ip nf H location uri code U E.
  destruct (redirect_total idna ip nf H location uri code U E) as [r R]. exists r. split; [exact R|].
  apply redirect_spec in R as (u & _ & _ & _ & E' & _ & _ & _ & _ & _ & _ & L). congruence.
Qed.
Print Assumptions C67_total.

(** The whole response: these three headers, the page as its body, and the settings of
    every response, so that the length of the body and the absolute location are seen to
    when it is sent. *)
Theorem C67_response : forall idna_part ip_ok nfkc_ok location code r,
  redirect idna_part ip_ok nfkc_ok location code = Ok r ->
  exists uri b, iri_to_uri idna_part ip_ok nfkc_ok location = Ok uri /\
    r = Response [(lit "Content-Type", lit "text/html; charset=utf-8"); (lit "Content-Length", zdec (Z.of_nat (length b)));
                  (lit "Location", uri)]
          (set_status_code code) (BSeq [IBytes b]) false [] true true true.
Proof.
  intros idna ip nf location code r H. unfold redirect in H.
  destruct (iri_to_uri idna ip nf location) as [uri|e] eqn:E; cbn [bind] in H; [|cbv beta iota in H; discriminate H]. exists uri.
  unfold text_response, set_header in H. cbn [rs_headers] in H.
  assert (N : forall l k v h, set_loop l k v = None -> h_set l k (HStr v) [] = Ok h -> h = l ++ [(k, v)]).
  { intros l k v h A B. unfold h_set in B. cbv zeta in B. change (stored_value (HStr v) []) with v in B. destruct (validate_value v); [|discriminate B].
    rewrite A in B. congruence. }
  destruct (h_set [] (lit "Content-Type") _ []) as [h1|e] eqn:E1; [|cbv beta iota in H; discriminate H]. apply N in E1; [|reflexivity].
  unfold set_data in H. cbn [encode_item] in H.
  destruct (utf8_encode (redirect_page uri (escape location))) as [b|e] eqn:Eb; [|cbv beta iota in H; discriminate H].
  exists b. split; [reflexivity|]. cbn [with_body with_headers rs_autolength] in H. unfold set_header, with_body, with_headers in H. cbn [rs_headers rs_status rs_body rs_passthrough rs_on_close rs_implicit rs_autolength rs_autolocation] in H.
  destruct (h_set h1 content_length _ []) as [h2|e] eqn:E2; [|cbv beta iota in H; discriminate H]. subst h1. apply N in E2; [|reflexivity].
  cbn [rs_headers rs_status rs_body rs_passthrough rs_on_close rs_implicit rs_autolength rs_autolocation] in H. destruct (h_set h2 (lit "Location") _ []) as [h3|e] eqn:E3; [|cbv beta iota in H; discriminate H]. subst h2.
  apply N in E3; [|reflexivity]. subst h3. injection H as <-. reflexivity.
Qed.
Print Assumptions C67_response.

Definition no_idna : str -> res str := fun _ => Raise UnicodeError.
Definition yes : str -> bool := fun _ => true.
Example C67_example :
  match redirect no_idna yes yes (lit "http://x/?a=""><script>alert('&')</script>") 302 with
  | Ok r =>
      h_getlist (rs_headers r) (lit "Location") =
        [lit "http://x/?a=%22%3E%3Cscript%3Ealert(%27&%27)%3C/script%3E"] /\
      rs_body r = BSeq [IBytes (page_head ++ lit "http://x/?a=%22%3E%3Cscript%3Ealert(%27&amp;%27)%3C/script%3E"
        ++ lit """>" ++ lit "http://x/?a=&quot;&gt;&lt;script&gt;alert(&#x27;&amp;&#x27;)&lt;/script&gt;" ++ page_foot)]
  | Raise _ => False
  end.
Proof. vm_compute. auto. Qed.
Example C67_total_example : (forall p e, no_idna p = Ok e -> one_line e) /\
  unicode_text (lit "/a" ++ [8364]) /\ iri_to_uri no_idna yes yes (lit "/a" ++ [8364]) = Ok (lit "/a%E2%82%AC").
Proof.
  split; [discriminate|]. split; [|vm_compute; reflexivity].
  intros c Hc. change (In c [47; 97; 8364]) in Hc. cbn [In] in Hc. lia.
Qed.
Example C67_shown_example : shown (escape (lit "a<'b'>&")) (lit "a<'b'>&").
Proof. exact (escape_shown _). Qed.

(** ** C68: cached properties *)

(** A read answers with the value the property was last given, by an assignment or
    by a successful call, and does not call the function; if it was never given
    one, the function is called and its outcome is the outcome of the read. *)
Theorem C68_reads : forall (V : Type) (func : str -> nat -> res V) ops,
  let '(o, es) := c_run func (mk_cobj [] 0) ops in
  forall p,
    (forall v, last_given p v es -> snd (c_step func o (CRead p)) = ERead p (Ok v) false) /\
    (never_given p es -> snd (c_step func o (CRead p)) = ERead p (func p (calls es)) true).
Proof. exact @cached_read. Qed.
Print Assumptions C68_reads.

(** Whenever the function is called, the property had no value before: after a
    successful call or an assignment there is never another call. *)
Theorem C68_once : forall (V : Type) (func : str -> nat -> res V) ops before p r after,
  snd (c_run func (mk_cobj [] 0) ops) = before ++ ERead p r true :: after ->
  never_given p before /\ r = func p (calls before).
Proof. exact @cached_called. Qed.
Print Assumptions C68_once.

(** A deletion is refused and changes nothing. *)
Theorem C68_delete : forall (V : Type) (func : str -> nat -> res V) o p,
  c_step func o (CDelete p) = (o, EDelete p (Some AttributeError)).
Proof. exact @cached_delete. Qed.
Print Assumptions C68_delete.

(** Two properties; the function of the first fails at its first call. *)
Definition sample_func (p : str) (n : nat) : res nat :=
  match n with O => Raise ValueError | _ => Ok (10 * n)%nat end.
Definition sample_ops : list (cop nat) :=
  [CRead (lit "a"); CRead (lit "a"); CRead (lit "a"); CDelete (lit "a"); CRead (lit "b"); CAssign (lit "b") 7%nat; CRead (lit "b");
   CRead (lit "a")].
Example C68_example : snd (c_run sample_func (mk_cobj [] 0) sample_ops) =
  [ERead (lit "a") (Raise ValueError) true; ERead (lit "a") (Ok 10%nat) true; ERead (lit "a") (Ok 10%nat) false;
   EDelete (lit "a") (Some AttributeError); ERead (lit "b") (Ok 20%nat) true; EAssign (lit "b") 7%nat;
   ERead (lit "b") (Ok 7%nat) false; ERead (lit "a") (Ok 10%nat) false].
Proof. vm_compute. reflexivity. Qed.

(** ** C70: exceptions by status code *)

(** The table built from any list of classes: what is registered under a code is a
    class of the list carrying that code, and every code carried by a class of the
    list is registered. *)
Theorem C70_table : forall classes,
  (forall code c, zget (find_exceptions classes []) code = Some c -> In c classes /\ k_code c = Some code) /\
  (forall c code, In c classes -> k_code c = Some code ->
     exists c', zget (find_exceptions classes []) code = Some c').
Proof.
  intros classes. split.
  - intros code c H. destruct (find_get classes [] code) as [E|(c' & E & I & K)].
    + rewrite E in H. discriminate H.
    + assert (c' = c) as -> by congruence. auto.
  - intros c code I K. destruct (zget (find_exceptions classes []) code) as [c'|] eqn:E; [eauto|].
    destruct (find_covers classes [] c code I K). exact E.
Qed.
Print Assumptions C70_table.

(** The module's own table: a class is registered under its code, or a class above it is. *)
Theorem C70_module : forall c code, In c module_classes -> k_code c = Some code ->
  exists c', zget default_exceptions code = Some c' /\ k_code c' = Some code /\ subclass c c' = true.
Proof.
  assert (H : forallb (fun c => match k_code c with
     | None => true
     | Some code => match zget default_exceptions code with
                    | Some c' => match k_code c' with Some z => (z =? code)%Z | None => false end && subclass c c'
                    | None => false end end) module_classes = true) by (vm_compute; reflexivity).
  intros c code I K. rewrite forallb_forall in H. specialize (H c I). rewrite K in H.
  destruct (zget default_exceptions code) as [c'|]; [|discriminate H].
  apply andb_true_iff in H. destruct H as [H1 H2]. exists c'. split; [reflexivity|]. split; [|exact H2].
  destruct (k_code c') as [z|]; [|discriminate H1]. apply Z.eqb_eq in H1. congruence.
Qed.
Print Assumptions C70_module.

(** abort of an integer raises the class of the extra table if it has one for the
    code, else that of the mapping (the module's table when none is given), else
    LookupError; extra arguments make no difference to the class. *)
Theorem C70_abort : forall mapping extra code arguments,
  is_dict mapping -> is_dict extra ->
  (forall c, maps extra code c -> abort (new_aborter (Some mapping) (Some extra)) (AInt code) arguments = RClass c) /\
  (forall c, (forall c', ~ maps extra code c') -> maps mapping code c ->
     abort (new_aborter (Some mapping) (Some extra)) (AInt code) arguments = RClass c) /\
  ((forall c', ~ maps extra code c') -> (forall c', ~ maps mapping code c') ->
     abort (new_aborter (Some mapping) (Some extra)) (AInt code) arguments = RLookupError).
Proof.
  intros m x code a Dm Dx. unfold new_aborter, abort, maps. rewrite update_get by exact Dx. split; [|split].
  - intros c H. rewrite (in_zget x code c Dx H). reflexivity.
  - intros c N H. destruct (zget x code) as [c'|] eqn:E; [destruct (N c'); apply zget_in; exact E|].
    rewrite (in_zget m code c Dm H). reflexivity.
  - intros N1 N2. destruct (zget x code) as [c'|] eqn:E; [destruct (N1 c'); apply zget_in; exact E|].
    destruct (zget m code) as [c'|] eqn:E2; [destruct (N2 c'); apply zget_in; exact E2|]. reflexivity.
Qed.
Print Assumptions C70_abort.
(** Anything else, a response, is raised in an HTTPException of its own if it is all that is
    given, whatever the tables say; with further arguments it is an error. *)
Theorem C70_abort_object : forall mapping extra n,
  (forall arguments, abort (new_aborter (Some mapping) (Some extra)) (AObject n) arguments = RResponse n <-> arguments = false) /\
  (forall arguments c, abort (new_aborter (Some mapping) (Some extra)) (AObject n) arguments <> RClass c).
Proof. intros m x n. split; intros [|]; cbn [abort]; try split; try reflexivity; discriminate. Qed.
Print Assumptions C70_abort_object.

(** The module's own abort: a class carrying the code, or LookupError when no class
    of the module carries it. *)
Theorem C70_default : forall code arguments,
  match abort (new_aborter None None) (AInt code) arguments with
  | RClass c => In c module_classes /\ k_code c = Some code
  | RLookupError => forall c, In c module_classes -> k_code c <> Some code
  | RResponse _ => False
  end.
Proof.
  intros code a. unfold new_aborter, abort.
  destruct (zget default_exceptions code) as [c|] eqn:E.
  - exact (proj1 (C70_table module_classes) code c E).
  - intros c I K. destruct (proj2 (C70_table module_classes) c code I K) as [c' E'].
    unfold default_exceptions in E. congruence.
Qed.
Print Assumptions C70_default.

Example C70_example :
  abort (new_aborter None None) (AInt 400) true = RClass (direct (lit "BadRequest") 400) /\
  abort (new_aborter None None) (AInt 402) false = RLookupError /\
  abort (new_aborter None (Some [(402%Z, direct (lit "Pay") 402); (400%Z, direct (lit "Mine") 400)])) (AInt 400) false
    = RClass (direct (lit "Mine") 400) /\
  abort (new_aborter None None) (AObject 3) false = RResponse 3.
Proof. vm_compute. auto. Qed.
Example C70_example_dict : is_dict [(402%Z, direct (lit "Pay") 402); (400%Z, direct (lit "Mine") 400)].
Proof. repeat constructor; cbn; intuition discriminate. Qed.

(** ** C76: append_slash_redirect stays on the server *)

(** For a path without spaces, control characters and colons the Location header is
    a reference to the same server, whatever the query.  Missing: the other paths,
    for which it is false. *)
Theorem C76_partial : forall idna_part ip_ok nfkc_ok environ code r path,
  append_slash_redirect idna_part ip_ok nfkc_ok environ code = Ok r ->
  dget environ (lit "PATH_INFO") = Some path -> (forall c, In c path -> 32 < c /\ c <> 58) ->
  exists uri, h_getlist (rs_headers r) (lit "Location") = [uri] /\ same_server uri.
Proof. exact slash_same_server. Qed.
Print Assumptions C76_partial.

(** A request for /http://evil.com is sent to another server; so is one for a path
    that begins with a space and two slashes. *)
Theorem C76_refuted : exists environ r,
  append_slash_redirect no_idna yes yes environ 301 = Ok r /\
  h_getlist (rs_headers r) (lit "Location") = [lit "http://evil.com/"] /\
  ~ same_server (lit "http://evil.com/").
Proof.
  eexists [(lit "PATH_INFO", lit "/http://evil.com")], _. split; [vm_compute; reflexivity|].
  split; [vm_compute; reflexivity|]. intros [_ H].
  specialize (H (lit "http") (lit "//evil.com/") eq_refl). cbn in H. intuition discriminate.
Qed.
Print Assumptions C76_refuted.
Theorem C76_space_refuted : exists environ r,
  append_slash_redirect no_idna yes yes environ 301 = Ok r /\
  h_getlist (rs_headers r) (lit "Location") = [lit "//evil.com/"] /\
  ~ same_server (lit "//evil.com/").
Proof.
  eexists [(lit "PATH_INFO", lit "/ //evil.com")], _. split; [vm_compute; reflexivity|].
  split; [vm_compute; reflexivity|]. intros [H _]. exact (H (lit "evil.com/") eq_refl).
Qed.
Print Assumptions C76_space_refuted.

Example C76_example : exists r,
  append_slash_redirect no_idna yes yes
    [(lit "PATH_INFO", lit "//evil.com/a?b"); (lit "QUERY_STRING", lit "http://x//")] 301 = Ok r /\
  h_getlist (rs_headers r) (lit "Location") = [lit "evil.com/a?b/?http://x//"].
Proof. eexists. split; [vm_compute; reflexivity|]. vm_compute. reflexivity. Qed.

(** ** C77: header properties *)

(** A property that was set reads back what its functions make of the stored text
    (the default if it cannot be loaded); the header holds that one value and every
    other header is as before. *)
Theorem C77_set : forall (V : Type) (p : hprop V) h v h',
  hp_set p h v = (h', None) ->
  p_read_only p = false /\
  exists x, p_dump p v = Ok x /\ set_effect (p_name p) (text x) h h' /\
    hp_get p h' = match p_load p (text x) with Some w => w | None => p_default p end.
Proof. exact @hp_set_ok. Qed.
Print Assumptions C77_set.
(** It can be set to any value that is dumped to one line; when it is refused
    nothing changes. *)
Theorem C77_refused : forall (V : Type) (p : hprop V) h v,
  (forall x, p_read_only p = false -> p_dump p v = Ok x -> one_line (text x) -> exists h', hp_set p h v = (h', None)) /\
  (forall h' e, hp_set p h v = (h', Some e) -> h' = h) /\
  (p_read_only p = true -> hp_set p h v = (h, Some AttributeError) /\ hp_delete p h = (h, Some AttributeError)).
Proof.
  intros V p h v. split; [|split].
  - exact (hp_set_total p h v).
  - exact (hp_set_bad p h v).
  - exact (hp_read_only p h v).
Qed.
Print Assumptions C77_refused.
(** A deleted property has its default value and all other headers are kept. *)
Theorem C77_delete : forall (V : Type) (p : hprop V) h, p_read_only p = false ->
  exists h', hp_delete p h = (h', None) /\ without (p_name p) h h' /\ hp_get p h' = p_default p.
Proof. exact @hp_delete_ok. Qed.
Print Assumptions C77_delete.
(** A property whose header is absent reads as its default. *)
Theorem C77_absent : forall (V : Type) (p : hprop V) h, absent (p_name p) h -> hp_get p h = p_default p.
Proof. exact @hp_get_absent. Qed.
Print Assumptions C77_absent.
(** The Content-Length property holds every integer. *)
Theorem C77_content_length : forall h z, exists h',
  hp_set content_length_property h (Some z) = (h', None) /\ hp_get content_length_property h' = Some z.
Proof. exact content_length_round. Qed.
Print Assumptions C77_content_length.

Example C77_example :
  let h := [(lit "content-LENGTH", lit "abc"); (lit "X", lit "1"); (lit "Content-Length", lit "5")] in
  hp_get content_length_property h = None /\
  hp_set content_length_property h (Some (-12)%Z) = ([(lit "Content-Length", lit "-12"); (lit "X", lit "1")], None) /\
  hp_delete content_length_property h = ([(lit "X", lit "1")], None) /\
  hp_set (text_property (lit "Server")) h (Some [65; 10]) = (h, Some ValueError) /\
  hp_set (mk_hprop (lit "X") (None : option str) (fun s => Some (Some s)) (fun _ => Ok (HStr [])) true) h None
    = (h, Some AttributeError).
Proof. vm_compute. auto. Qed.
(** Finding: assigning None to a property stores the text None instead of removing the header. *)
Example C77_finding_none :
  hp_set (text_property (lit "Server")) [] None = ([(lit "Server", lit "None")], None).
Proof. vm_compute. reflexivity. Qed.
