(** * Vocabulary of the claims on request objects *)
From Coq Require Import List NArith ZArith Bool Permutation.
From Verif Require Import PyStr ModelHeaders ModelRange ModelDate ModelEtag SpecEtag ModelMirror ModelRequestObject.
Import ListNotations.
Open Scope N_scope.

(** The key of the environ under which a server puts a header (PEP 3333): the name
    in capitals with underscores, after HTTP_ except for Content-Type and
    Content-Length. *)
Definition capital (c : N) : N := if (97 <=? c) && (c <=? 122) then c - 32 else if c =? 45 then 95 else c.
Definition cgi_key (name : str) : str :=
  let k := map capital name in
  if eqs k (lit "CONTENT_TYPE") || eqs k (lit "CONTENT_LENGTH") then k else lit "HTTP_" ++ k.
(** The request came with the header. *)
Definition carries (environ : dict str) (name value : str) : Prop := dget environ (cgi_key name) = Some value.
Definition without (environ : dict str) (name : str) : Prop := dget environ (cgi_key name) = None.

(** Reading the attribute of a new request object gives the value. *)
Definition shows (cu : dict str -> bool -> bool -> bool -> res str) (ch : dict str -> res str)
    (environ : dict str) (p : prop) (v : pval) : Prop :=
  fst (get_prop cu ch (new_robj environ) p) = Ok v.

(** A set of tags holds the text, as a strong or as a weak tag. *)
Definition same_tags (e : etags) (strong weak : list str) : Prop :=
  e_star e = false /\
  (forall t, et_contains e (Some t) = true <-> In t strong) /\
  (forall t, et_is_weak e (Some t) = true <-> In t weak).
Definition tag_set (strong weak : list str) : etags := ET (map Some strong) (map Some weak) false.

(** A tag that can be written: not empty, no double quote, no line feed. *)
Definition fine_tag (t : str) : Prop := t <> [] /\ ~ In 34 t /\ ~ In 10 t.

(** What the attributes show if the header is absent. *)
Definition when_absent : list (str * prop * pval) :=
  [(lit "Cookie", PCookies, VCookies []);
   (lit "Cache-Control", PCacheControl, VCache []);
   (lit "If-Match", PIfMatch, VTags (ET [] [] false));
   (lit "If-None-Match", PIfNoneMatch, VTags (ET [] [] false));
   (lit "If-Modified-Since", PIfModifiedSince, VDate None);
   (lit "If-Unmodified-Since", PIfUnmodifiedSince, VDate None);
   (lit "If-Range", PIfRange, VIfRange (mk_if_range None None));
   (lit "Range", PRange, VRange None);
   (lit "Authorization", PAuthorization, VAuth None);
   (lit "Content-Length", PContentLength, VNumber None);
   (lit "Date", PDate, VDate None);
   (lit "Content-Type", PMimetype, VText []);
   (lit "Content-Type", PMimetypeParams, VParams []);
   (lit "Pragma", PPragma, VNames (hs_init []))].

(** ** Histories *)

(** The environ after the changes among the operations. *)
Definition env_change (environ : dict str) (o : rop) : dict str :=
  match o with REnvSet k v => dset environ k v | REnvDel k => ddel environ k | _ => environ end.
Definition env_after (environ : dict str) (ops : list rop) : dict str := fold_left env_change ops environ.
(** Only reading *)
Definition reads_only (ops : list rop) : Prop :=
  forall o, In o ops -> match o with RGet _ | RHeader _ => True | _ => False end.
(** The attributes whose first successful reading is kept; the others look at the environ
    each time they are read. *)
Definition kept (p : prop) : bool :=
  match p with
  | PArgs | PCookies | PPath | PFullPath | PScriptRoot | PUrl | PBaseUrl | PUrlRoot | PHostUrl | PHost
  | PQueryString | PMethod | PAccessRoute | PRemoteUser | PScheme
  | PCacheControl | PIfMatch | PIfNoneMatch | PIfModifiedSince | PIfUnmodifiedSince | PIfRange | PRange
  | PAuthorization | PContentLength | PPragma | PMimetype | PMimetypeParams => true
  | PRemoteAddr | PIsXhr | PIsSecure | PMultithread | PMultiprocess | PRunOnce
  | PContentType | PContentEncoding | PContentMd5 | PReferrer | PDate | PMaxForwards => false
  end.
(** Attributes that are made of the same kept values. *)
Definition linked (p q : prop) : Prop :=
  p = q \/
  match p, q with
  | PFullPath, PPath | PPath, PFullPath | PFullPath, PQueryString | PQueryString, PFullPath
  | PMimetype, PMimetypeParams | PMimetypeParams, PMimetype => True
  | _, _ => False
  end.
Definition never_read (p : prop) (ops : list rop) : Prop :=
  forall q, In (RGet q) ops -> ~ linked q p.

(** ** Closing *)
Definition quiet (does : nat -> effect) (f : nat) : Prop :=
  ef_adds (does f) = [] /\ ef_raises (does f) = None.
