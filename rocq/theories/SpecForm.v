(** Vocabulary of the claims about the form and files of a test request (C115). *)
From Coq Require Import List NArith ZArith Bool.
From Verif Require Import PyStr Utf8 SpecUrls ModelHeaders SpecHeaders SpecRequest ModelMultiDict ModelTest SpecTest.
Import ListNotations.
Open Scope N_scope.

(** Of every name the first pair, in order. *)
Fixpoint firsts {A} (seen : list str) (l : list (str * A)) : list (str * A) :=
  match l with
  | [] => []
  | (k, v) :: l' => if in_dec (list_eq_dec N.eq_dec) k seen then firsts seen l' else (k, v) :: firsts (k :: seen) l'
  end.
(** The values of a name, in order. *)
Definition values_of {A} (l : list (str * A)) (k : str) : list A :=
  map snd (filter (fun kv => if list_eq_dec N.eq_dec (fst kv) k then true else false) l).
(** The same pairs, those of a name side by side. *)
Definition grouped {A} (l : list (str * A)) : list (str * A) :=
  flat_map (fun kv => map (fun v => (fst kv, v)) (values_of l (fst kv))) (firsts [] l).

(** The fields given as data: texts or bytes, or files. *)
Definition is_field (v : dvalue) : Prop := match v with DText _ | DBytes _ => True | _ => False end.
Definition is_upload (v : dvalue) : Prop := ~ is_field v.
Inductive value_bytes : dvalue -> str -> Prop :=
| vb_text s b : utf8_encode s = Ok b -> value_bytes (DText s) b
| vb_bytes b : value_bytes (DBytes b) b.
(** The piece of a urlencoded body for a field: name and value, with "+" for a space and
    escapes for other bytes. *)
Inductive field_means : str -> str * dvalue -> Prop :=
| fm_pair rawname rawvalue name v b :
    ~ In 38 rawname -> ~ In 61 rawname -> ~ In 38 rawvalue -> ascii_text rawvalue ->
    form_decodes rawname name -> percent_decodes (plus_as_space rawvalue) b -> value_bytes v b ->
    field_means (rawname ++ 61 :: rawvalue) (name, v).
(** A field that can be written. *)
Definition writable (kv : str * dvalue) : Prop :=
  unicode_text (fst kv) /\ match snd kv with DText s => unicode_text s | DBytes b => bytes_text b | _ => True end.

(** The arguments carry these fields and no stream. *)
Definition carries_fields (a : build_args) (l : list (str * dvalue)) : Prop :=
  a_input a = None /\ a_data a = Fields l /\ l <> [].
(** They do not say a content type. *)
Definition untyped (a : build_args) : Prop :=
  a_content_type a = None /\ forall k v, In (k, v) (a_headers a) -> ~ same_name k (lit "Content-Type").

(** The file an upload stands for.  A name in angle brackets, as of a standard stream, is
    none. *)
Definition own_name (name : option str) : option str :=
  match name with
  | Some (c :: n) => if (c =? 60) && (last (c :: n) 0 =? 62) then None else Some (c :: n)
  | n => n
  end.
Definition octets : str := lit "application/octet-stream".
Inductive uploads (guess : str -> option str) : dvalue -> file -> Prop :=
| up_storage f : uploads guess (DUpload (UStorage f)) f
| up_storage_with f n t : uploads guess (DTuple (UStorage f) n t) f
| up_file name chunks : uploads guess (DUpload (UFile name chunks)) (mk_file (own_name name) (Some octets) chunks)
| up_type name chunks t : uploads guess (DTuple (UFile name chunks) None (Some t)) (mk_file (own_name name) (Some t) chunks)
| up_both name chunks n t : uploads guess (DTuple (UFile name chunks) (Some n) (Some t)) (mk_file (Some n) (Some t) chunks)
| up_none name chunks : uploads guess (DTuple (UFile name chunks) None None) (mk_file (own_name name) (Some octets) chunks)
| up_name name chunks n t : n <> [] -> guess n = Some t ->
    uploads guess (DTuple (UFile name chunks) (Some n) None) (mk_file (Some n) (Some t) chunks)
| up_name_octets name chunks n : n = [] \/ guess n = None ->
    uploads guess (DTuple (UFile name chunks) (Some n) None) (mk_file (Some n) (Some octets) chunks).
(** The fields are these files. *)
Definition all_uploads (guess : str -> option str) (l : list (str * dvalue)) (fl : list (str * file)) : Prop :=
  Forall2 (fun kv kf => fst kv = fst kf /\ uploads guess (snd kv) (snd kf)) l fl.
