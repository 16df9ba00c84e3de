(** Python's [datetime] (CPython Lib/datetime.py), as used by shipgrav/io.py and shipgrav/grav.py.
    Library behaviour; no code of /repo is modelled here. *)
From Coq Require Import List ZArith Bool.
From Verif Require Import M_Py.
Import ListNotations.
Open Scope Z_scope.

(** CPython [_is_leap], [_days_before_year], [_days_in_month], [_days_before_month], [_ymd2ord]. *)
Definition is_leap (y : Z) : bool :=
  (y mod 4 =? 0) && (negb (y mod 100 =? 0) || (y mod 400 =? 0)).
Definition days_before_year (y : Z) : Z :=
  let y := y - 1 in y * 365 + y / 4 - y / 100 + y / 400.
Definition month_table : list Z := [31; 28; 31; 30; 31; 30; 31; 31; 30; 31; 30; 31].
Definition days_in_month (y m : Z) : Z :=
  if (m =? 2) && is_leap y then 29 else nth (Z.to_nat (m - 1)) month_table 0.
Definition days_before_month (y m : Z) : Z :=
  fold_left Z.add (firstn (Z.to_nat (m - 1)) month_table) 0 +
  (if (2 <? m) && is_leap y then 1 else 0).
Definition ymd2ord (y m d : Z) : Z := days_before_year y + days_before_month y m + d.

(** Ordinal of 1970-01-01. *)
Definition epoch_ord : Z := 719163.

(** An aware or naive datetime: the broken-down local time and the UTC offset in microseconds. *)
Record datetime : Set := mk_datetime {
  year : Z; month : Z; day : Z; hour : Z; minute : Z; second : Z; micro : Z;
  utcoffset : option Z }.

Definition us_per_sec : Z := 1000000.
Definition us_per_day : Z := 86400 * us_per_sec.

(** [datetime(y, m, d, h, mi, s, us)] with CPython's range checks ([_check_date_fields],
    [_check_time_fields]). *)
Definition datetime_new (y m d h mi s us : Z) (off : option Z) : res datetime :=
  if ((1 <=? y) && (y <=? 9999) && (1 <=? m) && (m <=? 12) && (1 <=? d) && (d <=? days_in_month y m)
      && (0 <=? h) && (h <=? 23) && (0 <=? mi) && (mi <=? 59) && (0 <=? s) && (s <=? 59)
      && (0 <=? us) && (us <=? 999999))
  then Ok (mk_datetime y m d h mi s us off) else Raise ValueError.

(** Local microseconds since 1970-01-01T00:00 of the broken-down time. *)
Definition local_us (t : datetime) : Z :=
  (((ymd2ord (year t) (month t) (day t) - epoch_ord) * 24 + hour t) * 60 + minute t) * 60 * us_per_sec
  + second t * us_per_sec + micro t.

(** Microseconds of UTC since the epoch, for an aware datetime. *)
Definition utc_us (t : datetime) (off : Z) : Z := local_us t - off.

(** Aware minus aware, in microseconds; naive minus aware raises. *)
Definition sub_us (a b : datetime) : res Z :=
  match utcoffset a, utcoffset b with
  | Some oa, Some ob => Ok (utc_us a oa - utc_us b ob)
  | None, None => Ok (local_us a - local_us b)
  | _, _ => Raise TypeError
  end.

(** [timedelta.days], [timedelta.seconds] of a difference in microseconds. *)
Definition td_days (us : Z) : Z := us / us_per_day.
Definition td_seconds (us : Z) : Z := (us mod us_per_day) / us_per_sec.
