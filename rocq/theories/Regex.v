(** Python's [re] matching, as a backtracking matcher in continuation passing
    style: the first result found is the one Python reports (leftmost
    alternatives first, greedy repetition longest first, lazy shortest first).

    Simplifications: no back references or general look-around (the code of
    /repo uses none but a one character negative look-behind); a repetition
    whose body matched the empty string is not iterated further. *)
From Coq Require Import Arith List NArith Bool Lia.
From Verif Require Import PyStr.
Import ListNotations.
Open Scope N_scope.

Inductive re :=
| REps                                (* empty *)
| RSet (p : N -> bool)                (* one character of a class *)
| RSeq (a b : re)
| RAlt (a b : re)                     (* a|b, a tried first *)
| RStar (greedy : bool) (a : re)      (* a* or a*? *)
| RGroup (g : nat) (a : re)           (* capturing group *)
| REnd                                (* $: at the end or before a final newline *)
| REos                                (* \Z / fullmatch: at the very end *)
| RNotBehind (c : N).                 (* (?<!c) *)

(** Derived forms. *)
Definition RChr (c : N) : re := RSet (N.eqb c).
Fixpoint RStr (s : str) : re :=
  match s with [] => REps | c :: s' => RSeq (RChr c) (RStr s') end.
Definition ROpt (a : re) : re := RAlt a REps.
Definition ROptLazy (a : re) : re := RAlt REps a.
Definition RPlus (greedy : bool) (a : re) : re := RSeq a (RStar greedy a).
Fixpoint RRep (n : nat) (a : re) : re :=
  match n with O => REps | S n' => RSeq a (RRep n' a) end.
(** a{0,n} greedy *)
Fixpoint RUpTo (n : nat) (a : re) : re :=
  match n with O => REps | S n' => ROpt (RSeq a (RUpTo n' a)) end.
(** a{0,n}? lazy *)
Fixpoint RUpToLazy (n : nat) (a : re) : re :=
  match n with O => REps | S n' => ROptLazy (RSeq a (RUpToLazy n' a)) end.
(** [.] without DOTALL *)
Definition RDot : re := RSet (fun c => negb (c =? 10)).

(** Matching state: the character before the position, what follows, and the
    groups captured so far (most recent first). *)
Record st := St { s_prev : option N; s_rest : str; s_caps : list (nat * str) }.

Definition at_end (s : str) : bool :=
  match s with [] => true | [c] => c =? 10 | _ => false end.

(** The text consumed between two states. *)
Definition consumed (s s' : st) : str :=
  firstn (length (s_rest s) - length (s_rest s')) (s_rest s).

Section Star.
  Context {R : Type}.
  Variable body : st -> (st -> option R) -> option R.
  Fixpoint star_g (fuel : nat) (s : st) (k : st -> option R) : option R :=
    match fuel with
    | O => k s
    | S f =>
        match body s (fun s' => if (length (s_rest s') <? length (s_rest s))%nat
                                then star_g f s' k else None) with
        | Some x => Some x
        | None => k s
        end
    end.
  Fixpoint star_l (fuel : nat) (s : st) (k : st -> option R) : option R :=
    match fuel with
    | O => k s
    | S f =>
        match k s with
        | Some x => Some x
        | None => body s (fun s' => if (length (s_rest s') <? length (s_rest s))%nat
                                    then star_l f s' k else None)
        end
    end.
End Star.

Fixpoint run {R : Type} (r : re) (s : st) (k : st -> option R) {struct r} : option R :=
  match r with
  | REps => k s
  | RSet p =>
      match s_rest s with
      | c :: rest => if p c then k (St (Some c) rest (s_caps s)) else None
      | [] => None
      end
  | RSeq a b => run a s (fun s' => run b s' k)
  | RAlt a b => match run a s k with Some x => Some x | None => run b s k end
  | RStar true a => star_g (run a) (length (s_rest s)) s k
  | RStar false a => star_l (run a) (length (s_rest s)) s k
  | RGroup g a =>
      run a s (fun s' => k (St (s_prev s') (s_rest s') ((g, consumed s s') :: s_caps s')))
  | REnd => if at_end (s_rest s) then k s else None
  | REos => match s_rest s with [] => k s | _ => None end
  | RNotBehind c =>
      match s_prev s with
      | Some d => if d =? c then None else k s
      | None => k s
      end
  end.

(** Value of a group in a result; [None] when it did not take part. *)
Fixpoint cap (l : list (nat * str)) (g : nat) : option str :=
  match l with
  | [] => None
  | (g', x) :: l' => if Nat.eqb g g' then Some x else cap l' g
  end.

(** [re.match(s, pos)], given the character before the position. *)
Definition match_at (r : re) (prev : option N) (s : str) : option st :=
  run r (St prev s []) Some.
Definition re_match (r : re) (s : str) : option st := match_at r None s.

(** [re.search]: first position at which [r] matches; returns the text skipped. *)
Fixpoint search_at (r : re) (prev : option N) (s : str) : option (str * st) :=
  match match_at r prev s with
  | Some x => Some ([], x)
  | None =>
      match s with
      | [] => None
      | c :: s' =>
          match search_at r (Some c) s' with
          | Some (pre, x) => Some (c :: pre, x)
          | None => None
          end
      end
  end.
Definition re_search (r : re) (s : str) : option (str * st) := search_at r None s.
