(** * One environ builder used more than once

    verktyg/test.py:385-403 and 448-579: base_url, form, files, input_stream, the body of
    get_environ and close, of one EnvironBuilder whose files and input stream are objects of
    the caller: they have a position, can be closed and can be read by others.  Left out: the
    other attributes of the builder and the other variables of the environ (ModelTest.v). *)
From Coq Require Import Arith List NArith ZArith Bool.
From Verif Require Import PyStr ModelUrls ModelMultiDict ModelCombined ModelTest.
Import ListNotations.
Open Scope N_scope.

(* An object of the caller with the methods read, seek, tell and close: a FileStorage or an
   input stream.  [o_fails]: the method close of the stream raises; FileStorage.close
   (verktyg/http/basic.py:936-941) and EnvironBuilder.close pass over that. *)
Record object := mk_object {
  o_name : option str; o_ctype : option str; o_data : str; o_pos : nat; o_open : bool; o_fails : bool }.
(* The builder, with the objects of the caller; [y_files] and [y_input] name them by number.
   [y_closings]: the objects whose method close was called, in order. *)
Record system := mk_system {
  y_scheme : str; y_host : str; y_root : str; y_ctype : option str;
  y_input : option nat; y_form : option (mdict fval); y_files : option (mdict nat); y_closed : bool;
  y_objects : list object; y_closings : list nat }.

Definition with_base (y : system) (scheme host root : str) : system :=
  mk_system scheme host root (y_ctype y) (y_input y) (y_form y) (y_files y) (y_closed y) (y_objects y) (y_closings y).
(* verktyg/test.py:448-483 [form], [files], [input_stream]: the setters *)
Definition y_set_input (y : system) (i : option nat) : system :=
  mk_system (y_scheme y) (y_host y) (y_root y) (y_ctype y) i None None (y_closed y) (y_objects y) (y_closings y).
Definition y_set_form (y : system) (f : option (mdict fval)) : system :=
  mk_system (y_scheme y) (y_host y) (y_root y) (y_ctype y) None f (y_files y) (y_closed y) (y_objects y) (y_closings y).
Definition y_set_files (y : system) (f : option (mdict nat)) : system :=
  mk_system (y_scheme y) (y_host y) (y_root y) (y_ctype y) None (y_form y) f (y_closed y) (y_objects y) (y_closings y).
Definition with_objects (y : system) (l : list object) : system :=
  mk_system (y_scheme y) (y_host y) (y_root y) (y_ctype y) (y_input y) (y_form y) (y_files y) (y_closed y) l (y_closings y).

(* a call of read on the object that takes up to k bytes; k = None: until the end *)
Definition moved (o : object) (pos : nat) : object :=
  mk_object (o_name o) (o_ctype o) (o_data o) pos (o_open o) (o_fails o).
Definition rest_of (o : object) : str := skipn (o_pos o) (o_data o).
Definition at_end (o : object) : object := moved o (Nat.max (o_pos o) (length (o_data o))).
Fixpoint change (l : list object) (n : nat) (f : object -> object) : list object :=
  match l, n with
  | [], _ => []
  | o :: l', O => f o :: l'
  | o :: l', S n' => o :: change l' n' f
  end.
(* somebody else reads k bytes of an object *)
Definition taken (k : nat) (o : object) : object :=
  if o_open o then moved o (Nat.max (o_pos o) (Nat.min (length (o_data o)) (o_pos o + k))) else o.
Definition shut (o : object) : object :=
  mk_object (o_name o) (o_ctype o) (o_data o) (o_pos o) (o_open o && o_fails o) (o_fails o).

Section builder.
  Variable guess : str -> option str.
  Variables (ip_ok nfkc_ok : str -> bool).
  (* verktyg/test.py:385-403 [base_url] *)
  Definition get_base_url (y : system) : str :=
    rstrip_by (N.eqb 47) (urlunsplit (Split (y_scheme y) (y_host y) (y_root y) [] [])) ++ [47].
  Definition set_base_url (y : system) (value : option str) : res unit * system :=
    match split_base_url ip_ok nfkc_ok value with
    | Ok (scheme, host, root) => (Ok tt, with_base y scheme host root)
    | Raise e => (Raise e, y)
    end.
  (* verktyg/test.py:411-418 [content_type] *)
  Definition y_content_type (y : system) : option str :=
    match y_ctype y, y_input y with
    | None, None =>
        match y_files y, y_form y with
        | Some (_ :: _), _ => Some (lit "multipart/form-data")
        | _, Some (_ :: _) => Some (lit "application/x-www-form-urlencoded")
        | _, _ => None
        end
    | t, _ => t
    end.
  (* CombinedMultiDict([form, files]).lists(); a value of the form or the number of a file *)
  Definition y_lists (y : system) : list (str * list (fval + nat)) :=
    c_lists [map (fun kl => (fst kl, map inl (snd kl))) (or_empty (y_form y));
             map (fun kl => (fst kl, map inr (snd kl))) (or_empty (y_files y))].
  (* verktyg/test.py:75-107: the values of stream_encode_multipart one by one; everything
     that is written before the first call of read is written first *)
  Fixpoint write_objects (boundary : str) (l : list (str * (fval + nat))) (os : list object) (st : mstate)
      : res mstate * list object :=
    match l with
    | [] => (Ok st, os)
    | (k, inl v) :: l' =>
        match write_value guess true (1024 * 500) boundary k (fval_value v) st with
        | Raise e => (Raise e, os)
        | Ok st => write_objects boundary l' os st
        end
    | (k, inr n) :: l' =>
        match nth_error os n with
        | None => (Raise AttributeError, os)         (* no such object *)
        | Some o =>
            match write_value guess true (1024 * 500) boundary k (VFile (mk_file (o_name o) (o_ctype o) [rest_of o])) st with
            | Raise e => (Raise e, os)
            | Ok st => if o_open o then write_objects boundary l' (change os n at_end) st else (Raise ValueError, os)
            end
        end
    end.
  (* verktyg/test.py:555-579: what the input of the environ holds and the length that is told.
     The header Content-Length is not set. *)
  Definition ask (boundary : str) (y : system) : res (str * Z) * system :=
    match y_input y with
    | Some i =>
        match nth_error (y_objects y) i with
        | None => (Raise AttributeError, y)
        | Some o => if o_open o
                    then (Ok (rest_of o, Z.of_nat (length (o_data o)) - Z.of_nat (o_pos o))%Z, y)
                    else (Raise ValueError, y)
        end
    | None =>
        match y_content_type y with
        | Some t =>
            if eqs t (lit "multipart/form-data") then
              let y := y_set_files (y_set_form y (Some (or_empty (y_form y)))) (Some (or_empty (y_files y))) in
              let '(r, os) := write_objects boundary
                                (flat_map (fun kl => map (fun v => (fst kl, v)) (snd kl)) (y_lists y)) (y_objects y) ms_empty in
              (do st <- r; do st <- write true (1024 * 500) (lit "--" ++ boundary ++ lit "--" ++ CRLF) st;
               Ok (ms_stream st, Z.of_nat (length (ms_stream st))),
               with_objects y os)
            else if eqs t (lit "application/x-www-form-urlencoded") then
              let y := y_set_form y (Some (or_empty (y_form y))) in
              (do v <- form_urlencode (or_empty (y_form y)); Ok (v, Z.of_nat (length v)), y)
            else (Ok ([], 0%Z), y)
        | None => (Ok ([], 0%Z), y)
        end
    end.
  (* verktyg/test.py:546-552: the loop of close over files.values(); a key without a value
     is an IndexError (verktyg/datastructures.py:501-504) *)
  Fixpoint close_values (l : mdict nat) (os : list object) (calls : list nat) : res unit * (list object * list nat) :=
    match l with
    | [] => (Ok tt, (os, calls))
    | (_, []) :: _ => (Raise IndexError, (os, calls))
    | (_, n :: _) :: l' => close_values l' (change os n shut) (calls ++ [n])
    end.
  (* verktyg/test.py:537-553 [close] *)
  Definition close (y : system) : res unit * system :=
    if y_closed y then (Ok tt, y)
    else
      let files := match y_input y with Some _ => y_files y | None => Some (or_empty (y_files y)) end in
      let loop := match y_input y with Some _ => [] | None => or_empty (y_files y) end in
      let '(r, (os, calls)) := close_values loop (y_objects y) (y_closings y) in
      (r, mk_system (y_scheme y) (y_host y) (y_root y) (y_ctype y) (y_input y) (y_form y) files
            (match r with Ok _ => true | Raise _ => false end) os calls).

  (* what happens to a builder and to the objects it was given *)
  Inductive event :=
  | ESetBase (value : option str)
  | ESetInput (i : option nat)
  | ESetForm (f : option (mdict fval))
  | ESetFiles (f : option (mdict nat))
  | EAddFile (key : str) (n : nat)           (* builder.files.add_file(key, storage) *)
  | EAsk (boundary : str)
  | EClose
  | ETake (n k : nat).                       (* somebody reads k bytes of an object *)
  Definition happen (e : event) (y : system) : system :=
    match e with
    | ESetBase v => snd (set_base_url y v)
    | ESetInput i => y_set_input y i
    | ESetForm f => y_set_form y f
    | ESetFiles f => y_set_files y f
    | EAddFile key n =>
        match y_input y with
        | Some _ => y
        | None => y_set_files y (Some (m_add (or_empty (y_files y)) key n))
        end
    | EAsk boundary => snd (ask boundary y)
    | EClose => snd (close y)
    | ETake n k => with_objects y (change (y_objects y) n (taken k))
    end.
  Definition happen_all (l : list event) (y : system) : system := fold_left (fun y e => happen e y) l y.
End builder.
