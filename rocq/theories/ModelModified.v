(** Model of [is_resource_modified] as it is called: the last modification is a datetime,
    naive or aware, or a text (verktyg/http/cache_control.py:583-623). *)
From Coq Require Import Arith List NArith ZArith Bool.
From Verif Require Import PyStr ModelEtag ModelDate.
Import ListNotations.
Open Scope N_scope.

(** A datetime to the second, its microseconds, and its offset from UTC if it is aware *)
Record moment := Moment { m_date : datetime; m_micros : Z; m_offset : option Z }.
Inductive last_mod := LText (s : str) | LMoment (m : moment).
(** [datetime.replace(microsecond=0)] *)
Definition whole (m : moment) : moment := Moment (m_date m) 0 (m_offset m).
(** [a <= b] of two datetimes; both aware: as seen from UTC *)
Definition moment_le (a b : moment) : res bool :=
  match m_offset a, m_offset b with
  | None, None => Ok (seconds (m_date a) * 1000000 + m_micros a <=? seconds (m_date b) * 1000000 + m_micros b)%Z
  | Some x, Some y => Ok ((seconds (m_date a) - x) * 1000000 + m_micros a <=? (seconds (m_date b) - y) * 1000000 + m_micros b)%Z
  | _, _ => Raise TypeError
  end.
(** cache_control.py:583-623 [is_resource_modified]; [md5] stands for [generate_etag] *)
Definition resource_modified (md5 : str -> str) (fuel : nat) (env : cond_env) (etag data : option str)
  (last_modified : option last_mod) : option (res bool) :=
  match etag, data with
  | Some _, Some _ => Some (Raise TypeError)
  | _, _ =>
      let etag := match etag with Some t => Some t | None => option_map md5 data end in
      if negb (eqs (ce_method env) (lit "GET") || eqs (ce_method env) (lit "HEAD")) then Some (Ok false)
      else
        let unmodified :=
          do modified <- match last_modified with
                         | Some (LText s) => do d <- parse_date (Some s); Ok (option_map (fun d => Moment d 0 None) d)
                         | Some (LMoment m) => Ok (Some m)
                         | None => Ok None
                         end;
          do since <- parse_date (ce_ims env);
          match since, option_map whole modified with
          | Some s, Some m => moment_le m (Moment s 0 None)
          | _, _ => Ok false
          end in
        match unmodified with
        | Raise e => Some (Raise e)
        | Ok unmodified =>
            match etag with
            | Some (c :: t) =>
                match ce_inm env with
                | None => Some (Ok (negb unmodified))
                | Some h =>
                    match parse_etags fuel h with
                    | None => None
                    | Some e =>
                        if et_bool e then Some (Ok (negb (et_contains_raw e (c :: t))))
                        else Some (Ok (negb unmodified))
                    end
                end
            | _ => Some (Ok (negb unmodified))
            end
        end
  end.
