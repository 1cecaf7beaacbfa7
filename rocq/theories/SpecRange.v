(** Specification vocabulary for byte ranges and cache control. *)
From Coq Require Import List NArith ZArith Bool.
From Verif Require Import PyStr ModelRange.
Import ListNotations.
Open Scope N_scope.

(** The byte positions a single requested range asks for, of a resource of [n]
    bytes: [(s, Some e)] from [s] up to but not [e]; [(s, None)] everything from
    [s], or, if [s] is negative, the last [-s] bytes. *)
Definition requested (s : Z) (e : option Z) (n b : Z) : Prop :=
  match e with
  | Some e => (s <= b < e)%Z
  | None => if (s <? 0)%Z then (n + s <= b)%Z else (s <= b)%Z
  end.

(** Increasing, disjoint, non-empty ranges, none before [lo]; only the last one
    may be open or a suffix. *)
Inductive increasing : Z -> list (Z * option Z) -> Prop :=
| inc_nil lo : increasing lo []
| inc_closed lo b e r : (lo <= b < e)%Z -> increasing e r -> increasing lo ((b, Some e) :: r)
| inc_open lo b : (lo <= b)%Z -> increasing lo [(b, None)]
| inc_suffix lo b : (b < 0)%Z -> increasing lo [(b, None)].

(** What a range item of a Range header means, spaces around it ignored:
    "first-last", "first-" or "-count" with decimal numbers. *)
Definition digits (s : str) : Prop := s <> [] /\ Forall (fun c => 48 <= c <= 57) s.
Inductive item_means : str -> Z * option Z -> Prop :=
| im_closed a b : digits a -> digits b ->
    item_means (a ++ 45 :: b) (Z.of_N (digits_val a), Some (Z.of_N (digits_val b) + 1)%Z)
| im_open a : digits a -> item_means (a ++ [45]) (Z.of_N (digits_val a), None)
| im_suffix a : digits a -> item_means (45 :: a) (- Z.of_N (digits_val a), None)%Z.
Definition written (s core : str) : Prop :=
  exists l r, s = l ++ core ++ r /\ Forall (fun c => is_space c = true) l /\ Forall (fun c => is_space c = true) r.

(** A valid content range: no range with an unknown or non-negative length, or a
    non-empty range starting inside the resource. *)
Definition valid_content (start stop length : option Z) : Prop :=
  match start, stop, length with
  | None, None, None => True
  | None, None, Some n => (0 <= n)%Z
  | Some s, Some e, None => (0 <= s < e)%Z
  | Some s, Some e, Some n => (0 <= s < e)%Z /\ (s < n)%Z
  | _, _, _ => False
  end.

(** A units word: not empty, no white space. *)
Definition word (u : str) : Prop := u <> [] /\ Forall (fun c => is_space c = false) u.

(** Only the last range is open or a suffix. *)
Inductive closed_until_last : list (Z * option Z) -> Prop :=
| cul_one m : closed_until_last [m]
| cul_cons b e r : closed_until_last r -> closed_until_last ((b, Some e) :: r).

(** A Range header written from items, each "first-last", "first-" or "-count",
    possibly with spaces around, of which only the last may be open or a suffix. *)
Definition grammatical (units : str) (items : list str) (ms : list (Z * option Z)) : Prop :=
  ~ In 61 units /\ closed_until_last ms /\
  Forall2 (fun s m => exists core, written s core /\ item_means core m) items ms.

(** Increasing, or increasing but for a final range (0, None). *)
Definition accepted (lo : Z) (ms : list (Z * option Z)) : Prop :=
  increasing lo ms \/ exists init, ms = init ++ [(0%Z, None)] /\ increasing lo init /\
    Forall (fun m => snd m <> None) init.

(** The digits of Latin-1 that [str.isdigit] accepts and [int] does not. *)
Definition superscript (c : N) : Prop := c = 178 \/ c = 179 \/ c = 185.

(** The values that count as true: all but None, False, zero and the empty text. *)
Definition counts (v : pyval) : bool :=
  match v with
  | PNone => false | PFalse => false | PTrue => true
  | PInt z => if Z.eq_dec z 0 then false else true
  | PStr s => if list_eq_dec N.eq_dec s [] then false else true
  end.
(** What an attribute reads after it was assigned [v]. *)
Definition reads_after (p : cc_prop) (v : pyval) : pyval :=
  match cp_type p, v with
  | TBool, _ => if counts v then PTrue else PFalse
  | _, PNone => PNone
  | _, PTrue => cp_empty p
  | TInt, PFalse => PInt 0
  | TInt, PStr s => match py_int s with Some z => PInt z | None => PStr s end
  | _, v => v
  end.
(** A value as text, as it comes back from a header. *)
Definition retext (v : pyval) : pyval := match py_str v with None => PNone | Some s => PStr s end.

(** The directive an operation is about. *)
Definition op_key (o : cc_op) : str := match o with CCSet p _ => cp_key p | CCDel p => cp_key p end.

(** ** What any Range header gives *)
(** What an item can say, its numbers being whatever Python's [int] reads: a closed
    range up to but not [e], an open one, or a suffix. *)
Inductive kind := Closed (b e : Z) | Open (b : Z) | Suffix (n : Z).
Inductive shape : str -> kind -> Prop :=
| sh_closed a b x y : a <> [] -> ~ In 45 a -> py_int a = Some x -> b <> [] -> py_int b = Some y ->
    shape (a ++ 45 :: b) (Closed x (y + 1))
| sh_open a x : a <> [] -> ~ In 45 a -> py_int a = Some x -> shape (a ++ [45]) (Open x)
| sh_suffix b y : py_int (45 :: b) = Some y -> shape (45 :: b) (Suffix y).
Definition says (s : str) (k : kind) : Prop := shape (strip s) k.
(** Closed ranges that follow one another, none before [lo]; at most the last is open
    or a suffix. *)
Inductive fine : Z -> list kind -> Prop :=
| fine_nil lo : fine lo []
| fine_closed lo b e ks : (lo <= b < e)%Z -> fine e ks -> fine lo (Closed b e :: ks)
| fine_open lo b : (lo <= b)%Z -> fine lo [Open b]
| fine_suffix lo n : fine lo [Suffix n].
Definition as_range (k : kind) : Z * option Z :=
  match k with Closed b e => (b, Some e) | Open b => (b, None) | Suffix n => (n, None) end.
(** Where the reading stands behind such ranges: at a position, or behind the open
    range or the suffix. *)
Inductive stand := At (z : Z) | AfterOpen | AfterSuffix.
Fixpoint stands (lo : Z) (ks : list kind) : stand :=
  match ks with
  | [] => At lo
  | Closed _ e :: ks' => stands e ks'
  | Open _ :: _ => AfterOpen
  | Suffix _ :: _ => AfterSuffix
  end.
(** The items at which the reading fails: a number that is none, in its place; or an
    item with a dash behind an open range. *)
Inductive offends : stand -> exn -> str -> Prop :=
| off_suffix lo b : py_int (45 :: b) = None -> offends (At lo) ValueError (45 :: b)
| off_first st a b : a <> [] -> ~ In 45 a -> py_int a = None -> offends st ValueError (a ++ 45 :: b)
| off_second lo a b x : a <> [] -> ~ In 45 a -> py_int a = Some x -> (lo <= x)%Z -> b <> [] -> py_int b = None ->
    offends (At lo) ValueError (a ++ 45 :: b)
| off_behind_suffix b : offends AfterOpen TypeError (45 :: b)
| off_behind a b x : a <> [] -> ~ In 45 a -> py_int a = Some x -> offends AfterOpen TypeError (a ++ 45 :: b).

(** ** What any Content-Range header gives *)
(** A header taken apart at the white space behind the units and at the first slash. *)
Definition blanks (s : str) : Prop := Forall (fun c => is_space c = true) s.
Definition content_parts (v u rng len : str) : Prop := exists l sp r,
  v = l ++ u ++ sp ++ rng ++ 47 :: len ++ r /\ blanks l /\ blanks sp /\ sp <> [] /\ blanks r /\ word u /\ ~ In 47 rng /\
  (forall c t, rng = c :: t -> is_space c = false) /\ (forall c t, len = t ++ [c] -> is_space c = false).
Definition length_says (len : str) (n : option Z) : Prop :=
  (len = [42] /\ n = None) \/ (digits len /\ n = Some (Z.of_N (digits_val len))).
(** The range is a star, or two numbers around the first dash. *)
Definition range_says (rng : str) (s e : option Z) : Prop :=
  (rng = [42] /\ s = None /\ e = None) \/
  (exists a b x y, rng = a ++ 45 :: b /\ ~ In 45 a /\ py_int a = Some x /\ py_int b = Some y /\ s = Some x /\ e = Some (y + 1)%Z).
(** Digits in the sense of [str.isdigit], one of which is no decimal digit. *)
Definition false_digits (s : str) : Prop :=
  Forall (fun c => 48 <= c <= 57 \/ superscript c) s /\ Exists superscript s.
