(** Model of the cookies of the test client, /repo/verktyg/test.py: _TestCookieHeaders,
    _TestCookieJar, and the methods of Client that use the jar.  The library's CookieJar
    is a parameter: what iterating over it yields and what extract_cookies makes of it.
    That function asks the response for the values of the headers Set-Cookie2 and
    Set-Cookie, and the request for its address.  Left out: the clock of the jar, an
    application that changes its environ, the response wrapper. *)
From Coq Require Import List NArith ZArith Bool.
From Verif Require Import PyStr Utf8 ModelUrls ModelHeaders ModelCookie ModelMultiDict ModelCombined ModelStream ModelWsgi ModelRequest ModelTest.
Import ListNotations.
Open Scope N_scope.

(** verktyg/test.py:140-145 [get_all]; the default is an empty list *)
Definition get_all (h : headers) (name : str) : list str :=
  map snd (filter (fun kv => eqs (lower (fst kv)) (lower name)) h).

(** verktyg/test.py:164-173 [inject_wsgi]; the value of a cookie may be None *)
Definition value_text (v : option str) : str := match v with Some x => x | None => lit "None" end.
Definition inject (cookies : list (str * option str)) (environ : dict str) : dict str :=
  match map (fun nv => fst nv ++ [61] ++ value_text (snd nv)) cookies with
  | [] => environ
  | cvals => dset environ (lit "HTTP_COOKIE") (join (lit "; ") cvals)
  end.

Section jar.
  Variable guess : str -> option str.
  Variables (idna_part idna_decode_part : str -> res str) (ip_ok nfkc_ok : str -> bool).
  Variable date_after : Z -> str.
  Variable jar : Type.
  (** iterating over a jar, and extract_cookies: the values of Set-Cookie2 and of
      Set-Cookie, and the address *)
  Variable cookies : jar -> list (str * option str).
  Variable store : jar -> list str -> list str -> str -> res jar.
  (** The application, as in ModelTest *)
  Variable application : nat -> dict str -> str -> res (str * headers).

  (** verktyg/test.py:175-182 [extract_wsgi] *)
  Definition extract (j : jar) (environ : dict str) (h : headers) : res jar :=
    do url <- get_current_url idna_part idna_decode_part ip_ok nfkc_ok environ false false false None;
    store j (get_all h (lit "Set-Cookie2")) (get_all h (lit "Set-Cookie")) url.

  (** One call of run_wsgi_app: the environ before, the environ the application got, and
      what came of it *)
  Record visit := Visit { v_request : dict str * under; v_sent : dict str; v_outcome : res (str * headers) }.
  (** verktyg/test.py:699-707 [run_wsgi_app]; [None] is a client without cookies *)
  Definition run (n : nat) (jo : option jar) (r : dict str * under) : visit * option jar :=
    match jo with
    | None => (Visit r (fst r) (application n (fst r) (u_left (snd r))), None)
    | Some j =>
        let sent := inject (cookies j) (fst r) in
        match application n sent (u_left (snd r)) with
        | Raise e => (Visit r sent (Raise e), Some j)
        | Ok response =>
            match extract j sent (snd response) with
            | Raise e => (Visit r sent (Raise e), Some j)
            | Ok j' => (Visit r sent (Ok response), Some j')
            end
        end
    end.
  (** verktyg/test.py:795-812: the loop of [open], as in ModelTest.follow, with the jar *)
  Fixpoint follow_j (fuel : nat) (allow : bool) (jo : option jar) (environ : dict str) (response : str * headers)
      (chain : list (str * Z)) (trail : list visit)
      : option (res (dict str * (str * headers))) * list (str * Z) * list visit * option jar :=
    let stop r := (Some r, chain, trail, jo) in
    match status_number (fst response) with
    | Raise e => stop (Raise e)
    | Ok code =>
        if negb (is_redirect code) then stop (Ok (environ, response))
        else
          match h_getitem (snd response) (lit "location") with
          | Raise e => stop (Raise e)
          | Ok location =>
              if existsb (fun lc => eqs (fst lc) location && (snd lc =? code)%Z) chain
              then stop (Raise ClientRedirectError)
              else
                let chain := chain ++ [(location, code)] in
                match redirect_environ guess idna_part ip_ok nfkc_ok allow (fst response) location environ with
                | Raise e => (Some (Raise e), chain, trail, jo)
                | Ok r =>
                    let (v, jo) := run (length trail) jo r in
                    match v_outcome v with
                    | Raise e => (Some (Raise e), chain, trail ++ [v], jo)
                    | Ok response =>
                        match fuel with
                        | O => (None, chain, trail ++ [v], jo)
                        | S fuel => follow_j fuel allow jo (v_sent v) response chain (trail ++ [v])
                        end
                    end
                end
          end
    end.
  (** verktyg/test.py:751-818 [open] of an environ *)
  Definition open_j (fuel : nat) (allow follow_redirects : bool) (jo : option jar) (r : dict str * under)
      : option (res (dict str * (str * headers))) * list (str * Z) * list visit * option jar :=
    let (v, jo) := run 0 jo r in
    match v_outcome v with
    | Raise e => (Some (Raise e), [], [v], jo)
    | Ok response =>
        if follow_redirects then follow_j fuel allow jo (v_sent v) response [] [v]
        else match status_number (fst response) with
             | Raise e => (Some (Raise e), [], [v], jo)
             | Ok _ => (Some (Ok (v_sent v, response)), [], [v], jo)
             end
    end.
  (** verktyg/test.py:671-690 [set_cookie]; the path is a text, expires the text of a date *)
  Definition set_cookie (jo : option jar) (server key value : str) (max_age : option Z) (expires : option str)
      (path : str) (domain : option str) (secure httponly : bool) : res jar :=
    match jo with
    | None => Raise AssertionError
    | Some j =>
        do h <- dump_cookie idna_part ip_ok nfkc_ok date_after key value
                  (Args max_age expires (Some path) domain secure httponly true);
        do e <- create_environ guess idna_part ip_ok nfkc_ok []
                  (mk_args path (Some (lit "http://" ++ server)) NoQuery (lit "GET") None None None [] NoData [] []);
        extract j (fst e) [(lit "Set-Cookie", h)]
    end.
  (** verktyg/test.py:692-697 [delete_cookie]; expires=0 is this date *)
  Definition epoch : str := lit "Thu, 01-Jan-1970 00:00:00 GMT".
  Definition delete_cookie (jo : option jar) (server key path : str) (domain : option str) : res jar :=
    set_cookie jo server key [] (Some 0%Z) (Some epoch) path domain false false.

  (** Calls of the two one after the other, for one server and path *)
  Fixpoint tell (j : jar) (server path : str) (l : list (str * option str)) : res jar :=
    match l with
    | [] => Ok j
    | (key, Some value) :: l' => do j <- set_cookie (Some j) server key value None None path None false false; tell j server path l'
    | (key, None) :: l' => do j <- delete_cookie (Some j) server key path None; tell j server path l'
    end.

  (** verktyg/test.py:820-858 [get], [patch], [post], [head], [put], [delete], [options],
      [trace] with the arguments of an EnvironBuilder: the method is replaced.  The
      boundary is the one a multipart body is written with. *)
  Definition verb_open (verb boundary : str) (fuel : nat) (allow follow_redirects : bool) (jo : option jar) (a : build_args) :=
    match create_environ guess idna_part ip_ok nfkc_ok boundary
            (mk_args (a_path a) (a_base_url a) (a_query a) verb (a_input a) (a_content_type a) (a_content_length a)
               (a_headers a) (a_data a) (a_environ_base a) (a_overrides a)) with
    | Raise e => (Some (Raise e), [], [], jo)
    | Ok r => open_j fuel allow follow_redirects jo r
    end.
End jar.
