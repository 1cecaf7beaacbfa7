(** The claims about middlewares and environment helpers: C37, C38, C40, C41, C43. *)
From Coq Require Import Arith List NArith ZArith Bool Lia.
From Verif Require Import PyStr PyStrFacts ModelUrls ModelAuth SpecAuth ModelWsgi SpecWsgi ProofWsgi.
Import ListNotations.
Open Scope N_scope.

(** ** C37 *)
(** The loop ends, the request goes to the application at the longest mounted prefix or to
    the default if no prefix is mounted, and the joint path is kept. *)
Theorem C37_dispatcher_longest_mount : forall mounts default environ fuel,
  (length (getenv environ (lit "PATH_INFO")) < fuel)%nat ->
  exists chosen environ' prefix,
    dispatcher fuel mounts default environ = Some (chosen, environ') /\
    getenv environ' (lit "SCRIPT_NAME") = getenv environ (lit "SCRIPT_NAME") ++ prefix /\
    boundary_prefix (getenv environ (lit "PATH_INFO")) prefix (getenv environ' (lit "PATH_INFO")) /\
    (forall k, k <> lit "SCRIPT_NAME" -> k <> lit "PATH_INFO" -> dget environ' k = dget environ k) /\
    (dget mounts prefix = Some chosen \/
     chosen = default /\ forall m rest, boundary_prefix (getenv environ (lit "PATH_INFO")) m rest ->
       dget mounts m = None) /\
    (forall m rest, boundary_prefix (getenv environ (lit "PATH_INFO")) m rest -> (length prefix < length m)%nat ->
       dget mounts m = None).
Proof. exact dispatcher_ok. Qed.
Print Assumptions C37_dispatcher_longest_mount.

(** SCRIPT_NAME + PATH_INFO is the same before and after. *)
Theorem C37_url_preserved : forall mounts default environ fuel chosen environ',
  dispatcher fuel mounts default environ = Some (chosen, environ') ->
  getenv environ' (lit "SCRIPT_NAME") ++ getenv environ' (lit "PATH_INFO") =
  getenv environ (lit "SCRIPT_NAME") ++ getenv environ (lit "PATH_INFO").
Proof. exact dispatcher_preserves. Qed.
Print Assumptions C37_url_preserved.

Example C37_example :
  let mounts := [(lit "/a", 1%nat); (lit "/a/b", 2%nat)] in
  let env := [(lit "PATH_INFO", lit "/a/b/c/d"); (lit "SCRIPT_NAME", lit "/root")] in
  dispatcher 20 mounts 0 env =
    Some (2%nat, [(lit "PATH_INFO", lit "/c/d"); (lit "SCRIPT_NAME", lit "/root/a/b")]) /\
  dispatcher 20 mounts 0 [(lit "PATH_INFO", lit "/a/bc")] =
    Some (1%nat, [(lit "PATH_INFO", lit "/bc"); (lit "SCRIPT_NAME", lit "/a")]) /\
  dispatcher 20 mounts 0 [(lit "PATH_INFO", lit "/ab")] =
    Some (0%nat, [(lit "PATH_INFO", lit "/ab"); (lit "SCRIPT_NAME", lit "")]).
Proof. vm_compute. auto. Qed.

(** ** C38 *)
(** Every name the file system is asked about and every file served is an exported file,
    an exported directory or lies in an exported directory, whatever the path. *)
Theorem C38_no_traversal : forall exists_ allowed exports path_info asked r n,
  shared_data exists_ allowed exports path_info = (asked, r) -> In n asked \/ r = Some n ->
  exists k e, In (k, e) exports /\ exported e n.
Proof. exact shared_exported. Qed.
Print Assumptions C38_no_traversal.

(** A file is served only if it exists (an exported file is taken to exist) and its base
    name is allowed. *)
Theorem C38_served_allowed : forall exists_ allowed exports path_info asked n,
  shared_data exists_ allowed exports path_info = (asked, Some n) ->
  allowed (basename n) = true /\
  (exists_ n = true \/ exists k, In (k, EFile n) exports).
Proof. exact shared_allowed. Qed.
Print Assumptions C38_served_allowed.

Example C38_example :
  shared_data (fun _ => true) (fun _ => true) [(lit "/static", EDir (lit "/srv/www"))] (lit "/static/../../etc//passwd") =
    ([lit "/srv/www/etc/passwd"], Some (lit "/srv/www/etc/passwd")) /\
  shared_data (fun _ => true) (fun _ => true) [(lit "/static", EDir (lit "/srv/www"))] (lit "/static/a/../b//c.css") =
    ([lit "/srv/www/a/b/c.css"], Some (lit "/srv/www/a/b/c.css")).
Proof. vm_compute. auto. Qed.

(** ** C40 *)
(** Only trusted names, for ASCII names in which the only colon is the one before the
    port (with [..]-literals of IPv6 addresses the claim fails, below). *)
Theorem C40_trusted_sound_partial : forall idna host name trusted,
  host_port host name -> ascii_text name ->
  (forall ref, In ref trusted -> exists n, entry_name ref n /\ ascii_text n) ->
  host_is_trusted idna host trusted = Ok true ->
  host <> [] /\ exists ref, In ref trusted /\ entry_name ref name.
Proof. exact trusted_sound. Qed.
Print Assumptions C40_trusted_sound_partial.

(** All trusted names, if no entry of the list has a leading dot. *)
Theorem C40_trusted_complete_partial : forall idna host name trusted ref,
  host_port host name -> ascii_text name -> host <> [] ->
  (forall ref, In ref trusted -> exists n, host_port ref n /\ ascii_text n /\ forall r, ref <> 46 :: r) ->
  In ref trusted -> host_port ref name ->
  host_is_trusted idna host trusted = Ok true.
Proof. exact trusted_complete. Qed.
Print Assumptions C40_trusted_complete_partial.

(** The answer is False for any other name. *)
Theorem C40_untrusted_rejected_partial : forall idna host name trusted,
  host_port host name -> ascii_text name ->
  (forall ref, In ref trusted -> exists n, host_port ref n /\ ascii_text n /\ n <> name /\ forall r, ref <> 46 :: r) ->
  host_is_trusted idna host trusted = Ok false.
Proof. exact trusted_never. Qed.
Print Assumptions C40_untrusted_rejected_partial.

(** get_host with a trusted list returns a host only if it is trusted. *)
Theorem C40_get_host_trusted : forall idna environ trusted h,
  get_host idna environ (Some trusted) = Ok h -> host_is_trusted idna h trusted = Ok true.
Proof. exact get_host_trusted. Qed.
Print Assumptions C40_get_host_trusted.

Example C40_example :
  host_port (lit "example.com:8080") (lit "example.com") /\
  host_is_trusted (fun _ => Raise ValueError) (lit "example.com:8080") [lit "localhost"; lit "example.com"] = Ok true /\
  host_is_trusted (fun _ => Raise ValueError) (lit "example.com.evil") [lit "localhost"; lit "example.com"] = Ok false /\
  get_host (fun _ => Raise ValueError) [(lit "HTTP_HOST", lit "evil")] (Some [lit "example.com"]) = Raise SecurityError.
Proof.
  split; [|vm_compute; auto]. split.
  - intros H. repeat (destruct H as [H|H]; [discriminate|]). exact H.
  - right. exists (lit "8080"). split; [reflexivity|]. intros H. repeat (destruct H as [H|H]; [discriminate|]). exact H.
Qed.

(** A subdomain of a name given with a leading dot raises TypeError. *)
Theorem C40_subdomain_refuted : forall idna,
  host_is_trusted idna (lit "www.example.com") [lit ".example.com"] = Raise TypeError.
Proof. reflexivity. Qed.
Print Assumptions C40_subdomain_refuted.

(** The answer for every ASCII host and list, exactly: True at the first entry that
    leaves the same as the host without its last colon and what follows, TypeError at an
    entry with a leading dot before it, and otherwise False (neither of the two). *)
Theorem C40_exact : forall idna host name trusted,
  host <> [] -> cut_port host name -> ascii_text host -> Forall ascii_text trusted ->
  (host_is_trusted idna host trusted = Ok true <->
     exists pre ref post, trusted = pre ++ ref :: post /\ entry_cut ref name /\ Forall (fun r => ~ entry_cut r name /\ ~ dotted r) pre) /\
  (forall e, host_is_trusted idna host trusted = Raise e <-> e = TypeError /\
     exists pre ref post, trusted = pre ++ ref :: post /\ dotted ref /\ ~ entry_cut ref name /\ Forall (fun r => ~ entry_cut r name) pre).
Proof. exact trusted_exact. Qed.
Print Assumptions C40_exact.
Example C40_exact_example :
  host_is_trusted (fun _ => Raise ValueError) (lit "b.org:80") [lit "a.org"; lit ".b.org"; lit ".c.org"] = Ok true /\
  host_is_trusted (fun _ => Raise ValueError) (lit "b.org:80") [lit "a.org"; lit ".c.org"; lit "b.org"] = Raise TypeError /\
  cut_port (lit "b.org:80") (lit "b.org") /\ entry_cut (lit ".b.org") (lit "b.org") /\ dotted (lit ".c.org").
Proof.
  split; [reflexivity|]. split; [reflexivity|]. split; [right; exists (lit "80"); split; [reflexivity|cbn; intuition discriminate]|].
  split; [right; exists (lit "b.org"); split; [reflexivity|]; left; split; [cbn; intuition discriminate|reflexivity]|exists (lit "c.org"); reflexivity].
Qed.

(** An IPv6 address is taken for another one: the part after the last colon is cut off. *)
Theorem C40_ipv6_refuted : forall idna,
  host_is_trusted idna (lit "[::2]") [lit "[::1]"] = Ok true.
Proof. reflexivity. Qed.
Print Assumptions C40_ipv6_refuted.

(** ** C41 *)
(** For an environment whose header variables are named as servers name them. *)
Theorem C41_lookup_partial : forall environ n v n',
  NoDup (map fst environ) -> (forall k, In k (map fst environ) -> starts (lit "HTTP_") k = true -> cgi_name k) ->
  In (n, v) (env_iter environ) -> same_letters n' n ->
  env_getitem environ n' = Ok v.
Proof. exact env_lookup. Qed.
Print Assumptions C41_lookup_partial.

Theorem C41_complete : forall environ k v, In (k, v) environ -> header_var k ->
  exists n, In (n, v) (env_iter environ).
Proof. exact env_complete. Qed.
Print Assumptions C41_complete.

Theorem C41_len : forall environ (hdrs : list (str * str)),
  NoDup (map fst environ) -> NoDup hdrs ->
  (forall k v, In (k, v) hdrs <-> In (k, v) environ /\ header_var k) ->
  env_len environ = length hdrs.
Proof. exact env_len_counts. Qed.
Print Assumptions C41_len.

Example C41_example :
  let env := [(lit "HTTP_USER_AGENT", lit "x"); (lit "CONTENT_TYPE", lit "text/plain");
              (lit "REQUEST_METHOD", lit "GET"); (lit "HTTP_CONTENT_TYPE", lit "y")] in
  env_iter env = [(lit "User-Agent", lit "x"); (lit "Content-Type", lit "text/plain")] /\
  env_getitem env (lit "user-AGENT") = Ok (lit "x") /\ env_len env = 2%nat.
Proof. vm_compute. auto. Qed.

(** With a lower case variable the header is iterated but cannot be looked up. *)
Theorem C41_lower_case_refuted :
  let env := [(lit "HTTP_x", lit "1")] in
  env_iter env = [(lit "X", lit "1")] /\ env_getitem env (lit "X") = Raise KeyError.
Proof. vm_compute. auto. Qed.
Print Assumptions C41_lower_case_refuted.

(** ** C43 *)
(** [nfkd] is any function: nothing is assumed of the normalisation. *)
Theorem C43_safe_characters : forall nfkd nt f c,
  In c (secure_filename nfkd nt f) -> filename_char c.
Proof. exact secure_chars. Qed.
Print Assumptions C43_safe_characters.

Theorem C43_no_dots_at_ends : forall nfkd f,
  (forall c r, secure_filename nfkd false f = c :: r -> c <> 46 /\ c <> 95) /\
  (forall r c, secure_filename nfkd false f = r ++ [c] -> c <> 46 /\ c <> 95).
Proof. exact secure_ends. Qed.
Print Assumptions C43_no_dots_at_ends.

(** On Windows an underscore is put before the name of a device, and only there. *)
Theorem C43_no_dots_at_ends_windows : forall nfkd f,
  (forall c r, secure_filename nfkd true f = c :: r -> c <> 46 /\
     (c = 95 -> names_device r)) /\
  (forall r c, secure_filename nfkd true f = r ++ [c] -> c <> 46 /\ c <> 95).
Proof. exact secure_ends_nt. Qed.
Print Assumptions C43_no_dots_at_ends_windows.

Theorem C43_no_device : forall nfkd f, ~ names_device (secure_filename nfkd true f).
Proof. exact secure_no_device. Qed.
Print Assumptions C43_no_device.

(** Normalisation leaves ASCII text alone. *)
Theorem C43_idempotent : forall nfkd nt f, (forall t, ascii_text t -> nfkd t = t) ->
  secure_filename nfkd nt (secure_filename nfkd nt f) = secure_filename nfkd nt f.
Proof. exact secure_idempotent. Qed.
Print Assumptions C43_idempotent.

(** A name that is already safe is kept: the function does not throw good names away. *)
Theorem C43_keeps_safe_names : forall nfkd f, (forall t, ascii_text t -> nfkd t = t) ->
  (forall c, In c f -> filename_char c) ->
  (forall c r, f = c :: r -> c <> 46 /\ c <> 95) -> (forall r c, f = r ++ [c] -> c <> 46 /\ c <> 95) ->
  secure_filename nfkd false f = f.
Proof. exact secure_keeps. Qed.
Print Assumptions C43_keeps_safe_names.

Example C43_example :
  secure_filename (fun s => s) false (lit "../../etc/pass wd") = lit "etc_pass_wd" /\
  secure_filename (fun s => s) true (lit "..\con.txt") = lit "_con.txt" /\
  secure_filename (fun s => s) false [8364; 46; 46] = [].
Proof. vm_compute. auto. Qed.
