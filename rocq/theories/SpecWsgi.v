(** Vocabulary for the claims about middlewares and environment helpers. *)
From Coq Require Import List NArith ZArith Bool.
From Verif Require Import PyStr ModelWsgi.
Import ListNotations.
Open Scope N_scope.

(** [m] is a prefix of the path that ends at a '/' boundary; [rest] is what follows. *)
Definition boundary_prefix (path m rest : str) : Prop :=
  path = m ++ rest /\ (rest = [] \/ exists r, rest = 47 :: r).

(** A relative name made of plain components. *)
Definition safe_rel (rel : str) : Prop :=
  exists comps, rel = join [47] comps /\
    Forall (fun c => c <> [] /\ c <> lit ".." /\ ~ In 47 c) comps.
(** [name] is [rel] inside the directory [dir]. *)
Definition inside (dir rel name : str) : Prop :=
  name = dir ++ rel /\ (dir = [] \/ exists d, dir = d ++ [47]) \/
  name = dir ++ 47 :: rel.
(** The names an export gives access to. *)
Definition exported (e : export) (name : str) : Prop :=
  match e with
  | EFile f => name = f
  | EDir d => name = d \/ exists rel, safe_rel rel /\ inside d rel name
  | EPackage d => exists rel, safe_rel rel /\ inside d rel name
  end.

(** A host name with an optional port; the name itself has no colon. *)
Definition host_port (h name : str) : Prop :=
  ~ In 58 name /\ (h = name \/ exists port, h = name ++ 58 :: port /\ ~ In 58 port).
Definition ascii_text (s : str) : Prop := forall c, In c s -> c < 128.
(** The name a list entry stands for: without a leading dot and without port. *)
Definition entry_name (ref name : str) : Prop :=
  host_port ref name /\ (forall r, ref <> 46 :: r) \/
  exists r, ref = 46 :: r /\ host_port r name.

(** What is left of a host, or of an entry, without its last colon and what follows;
    of an entry also without its leading dot. *)
Definition cut_port (h n : str) : Prop :=
  (~ In 58 h /\ n = h) \/ exists port, h = n ++ 58 :: port /\ ~ In 58 port.
Definition dotted (ref : str) : Prop := exists r, ref = 46 :: r.
Definition entry_cut (ref n : str) : Prop :=
  (~ dotted ref /\ cut_port ref n) \/ exists r, ref = 46 :: r /\ cut_port r n.

(** Names a server uses for header variables: upper case letters, digits, underscores. *)
Definition cgi_name (k : str) : Prop := forall c, In c k -> 65 <= c <= 90 \/ 48 <= c <= 57 \/ c = 95.

(** The variables that carry a request header. *)
Definition header_var (k : str) : Prop :=
  (exists r, k = lit "HTTP_" ++ r /\ r <> lit "CONTENT_TYPE" /\ r <> lit "CONTENT_LENGTH") \/
  k = lit "CONTENT_TYPE" \/ k = lit "CONTENT_LENGTH".

(** What Windows takes for a device: one of these names in any case, with or without an
    extension. *)
Definition names_device (t : str) : Prop := exists name rest,
  t = name ++ rest /\ (rest = [] \/ exists ext, rest = 46 :: ext) /\
  In (upper name) [lit "CON"; lit "AUX"; lit "COM1"; lit "COM2"; lit "COM3"; lit "COM4";
                   lit "LPT1"; lit "LPT2"; lit "LPT3"; lit "PRN"; lit "NUL"].
Definition filename_char (c : N) : Prop :=
  65 <= c <= 90 \/ 97 <= c <= 122 \/ 48 <= c <= 57 \/ c = 95 \/ c = 46 \/ c = 45.
